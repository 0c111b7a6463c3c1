{"id": "C01", "title": "A mount never hands out a location outside its directory", "statement": "For a mount whose directory is an absolute path, whenever mnt.prepare(path) (validate=True, on_retouch in auto/quit/ignore) returns a target, the location os.path.join(mnt, target) resolves to lies in the mount's directory, whatever '..', '.', repeated or leading slashes the requested path contains.", "quantifier": "every absolute mount directory string, every working directory, every requested path string, every registration history", "why_tests_cant": "path strings are an infinite space of '..', './/' and absolute forms; a test suite samples a few", "anchors": ["dman/core/path.py:Mount.contains", "dman/core/path.py:Mount.abspath", "dman/core/path.py:Mount.normalize", "dman/core/path.py:Mount.prepare"]}
{"id": "C02", "title": "A mount accepts every path that stays inside it, and keeps its location", "statement": "For a mount whose directory is absolute and has no '..' component, mnt.prepare(path) accepts exactly the paths that resolve inside the directory; the returned target denotes the same location as the requested path when the path was not registered before.", "quantifier": "every '..'-free absolute mount directory, every requested path string", "why_tests_cant": "same infinite path space, both directions of an equivalence", "anchors": ["dman/core/path.py:Mount.prepare", "dman/core/path.py:Mount.contains", "dman/core/path.py:Mount.normalize"]}
{"id": "C03", "title": "A rejected path has no effect", "statement": "When mnt.prepare(path) raises MountException, the set of registered targets and the file system are unchanged.", "quantifier": "every mount, file system, path", "why_tests_cant": "needs absence of effects in every failing run", "anchors": ["dman/core/path.py:Mount.prepare"]}
{"id": "C04", "title": "remove never deletes outside an absolute mount", "statement": "For a mount with an absolute directory, mnt.remove(path) and Context.remove(path) delete at most the one file (or empty directory) the path resolves to and only if it lies inside the mount directory; everything else in the file system is unchanged.", "quantifier": "every absolute mount, every file system, every path string", "why_tests_cant": "deletion safety must hold for every path, including hostile ones", "anchors": ["dman/core/path.py:Mount.remove", "dman/core/path.py:Mount.untrack", "dman/model/record.py:Context.remove"]}
{"id": "C05", "title": "Relative mounts: validation is lost on remove", "statement": "For a mount with a relative directory, mnt.prepare always raises ValueError, but mnt.remove skips validation altogether and deletes whatever file the path resolves to, also outside the mount (the documented containment of remove is false there).", "quantifier": "every relative mount directory, every path, every file system", "why_tests_cant": "a universally quantified statement about the missing check; a single test shows one instance", "anchors": ["dman/core/path.py:Mount.contains", "dman/core/path.py:Mount.untrack", "dman/core/path.py:Mount.remove"]}
{"id": "C06", "title": "on_retouch='auto' always finds a fresh name", "statement": "With choice 'auto', registering any target terminates, returns a target that was not registered before, in the same sub directory and with the same suffix, registers exactly that target, and returns the requested target itself when it was free. The name chosen drops the numbers of the stem (runs of digits not followed by a letter, digit or underscore) and appends one number: the smallest that is free, counting from the first number of the stem plus one, or from 0; directory and suffix stay.", "quantifier": "every set of registered targets, every normalised target", "why_tests_cant": "termination and freshness for every history of names; numbering logic can collide with existing numbered names", "anchors": ["dman/core/path.py:Mount.register", "dman/core/path.py:Mount.default", "dman/utils/regex.py:substitute"]}
{"id": "C07", "title": "on_retouch='quit' raises exactly on reuse", "statement": "With choice 'quit', register returns the target and registers it iff it was not registered; otherwise UserQuitException is raised and nothing changes.", "quantifier": "every set of registered targets and every target", "why_tests_cant": "all histories", "anchors": ["dman/core/path.py:Mount.register"]}
{"id": "C08", "title": "on_retouch='ignore' never renames", "statement": "With choice 'ignore' (or '_ignore', used by reads) register always returns exactly the requested target and every previously registered target stays registered, exactly once.", "quantifier": "every set of registered targets and every target", "why_tests_cant": "all histories", "anchors": ["dman/core/path.py:Mount.register"]}
{"id": "C09", "title": "on_retouch='prompt' under every user dialogue", "statement": "For every sequence of answers typed by the user, registering a used target ends in: a fresh target being registered, an explicit overwrite ('x'/'ignore'), an explicit quit ('q'/'quit'), or running out of input. A custom name is not validated: an answer containing '..' can place the target outside the mount. A name typed by the user is registered with all its capital letters turned into small ones.", "quantifier": "every registered set, target and finite sequence of user inputs", "why_tests_cant": "all dialogues", "anchors": ["dman/core/path.py:Mount.register", "dman/utils/user.py:prompt_user"]}
{"id": "C10", "title": "Targets handed out in one session are pairwise distinct", "statement": "During any sequence of prepare calls on one mount with 'auto' or 'quit', all returned targets are pairwise different files.", "quantifier": "every finite sequence of prepare requests", "why_tests_cant": "all histories", "anchors": ["dman/core/path.py:Mount.prepare", "dman/core/path.py:Mount.register"]}
{"id": "C11", "title": "Untracking makes a name available again", "statement": "After mnt.remove(t) (or untrack) of a registered target, registering it again with any choice returns it unchanged; other registered targets are unaffected.", "quantifier": "every mount state and target", "why_tests_cant": "all histories", "anchors": ["dman/core/path.py:Mount.untrack", "dman/core/path.py:Mount.remove"]}
{"id": "C12", "title": "normalize is canonical", "statement": "For every absolute mount and any two accepted paths, the normalised targets are equal iff the paths denote the same location, and the target denotes the location the path denotes.", "quantifier": "every absolute mount, all pairs of paths", "why_tests_cant": "pairs of arbitrary path strings", "anchors": ["dman/core/path.py:Mount.normalize", "dman/core/path.py:Target.__eq__"]}
{"id": "C13", "title": "Target.merge / update obey the override laws", "statement": "merge is right biased component by component, AUTO parts never override, merge() of several targets is the fold of binary merges and associative; update(name=n) sets the name of a complete target to n and keeps the sub directory.", "quantifier": "all targets, all argument lists", "why_tests_cant": "algebraic law over all targets", "anchors": ["dman/core/path.py:Target.merge", "dman/core/path.py:Target.update", "dman/core/path.py:Target.__init__"]}
{"id": "C14", "title": "Target <-> path round trip", "statement": "For every complete target whose stem+suffix contains no '/', Target.from_path(os.fspath(t)) == t and has the same name; fspath raises TargetException exactly for incomplete targets.", "quantifier": "all targets", "why_tests_cant": "algebraic law over all strings", "anchors": ["dman/core/path.py:Target.from_path", "dman/core/path.py:Target.__fspath__", "dman/core/path.py:Target.__eq__"]}
{"id": "C15", "title": "Closing a mount prunes exactly the empty directories", "statement": "prune_directories keeps every file with its content, removes every directory below the root that has no file beneath it, keeps all others, and keeps the root itself.", "quantifier": "every directory tree", "why_tests_cant": "all trees, by induction", "anchors": ["dman/core/path.py:prune_directories"]}
{"id": "C16", "title": ".gitignore bookkeeping", "statement": "gitignore(directory, ignored, check) leaves a file listing exactly: the new entries, the old entries that are not both in check and missing on disk, and '.gitignore' itself, without duplicates; running it again changes nothing; when only '.gitignore' would remain the file is removed.", "quantifier": "every old content, every entry sets, every file system", "why_tests_cant": "set-level law over all contents", "anchors": ["dman/core/path.py:gitignore", "dman/core/path.py:Mount.close"]}
{"id": "C17", "title": "get_root_path finds the nearest .dman", "statement": "get_root_path returns the .dman of the nearest ancestor of cwd that has one (the file system root is only consulted when it is cwd), raises RootError iff there is none, and with create=True creates it in cwd.", "quantifier": "every directory tree and cwd", "why_tests_cant": "all trees and depths; loop termination", "anchors": ["dman/core/path.py:get_root_path"]}
{"id": "C18", "title": "Keys are isolated", "statement": "With cluster=True two different plain keys (no '/', not '.', '..' or empty) give mounts whose directories are disjoint; the directory is <base>/<generator>/<subdir>/<key> as documented, and without cluster <base>/<generator>/<subdir>.", "quantifier": "all keys, bases, generators, sub directories", "why_tests_cant": "all strings", "anchors": ["dman/core/path.py:mount"]}
{"id": "C19", "title": "Script labels", "statement": "script_label maps a script below the project root to its relative directory with '/' replaced by ':' plus the stem of its name; it is injective on scripts whose path has no ':' and that share an extension, and not injective in general. A script outside of the project is labelled by its stem alone, and without a script the label is __interpreter__.", "quantifier": "all relative script paths", "why_tests_cant": "injectivity over all paths", "anchors": ["dman/core/path.py:script_label"]}
{"id": "C20", "title": "Plain data survives serialize -> json -> deserialize", "statement": "For every value built from str/int/float/bool/None, lists, tuples, str-keyed dicts without the reserved key '_ser__type' and serializable dataclass instances, deserialize(loads(dumps(serialize(v)))) equals v with tuples replaced by lists.", "quantifier": "all values of any depth and size", "why_tests_cant": "infinite nesting", "anchors": ["dman/core/serializables.py:BaseContext.serialize", "dman/core/serializables.py:BaseContext.deserialize", "dman/core/serializables.py:_serialize__dataclass", "dman/core/serializables.py:_deserialize__dataclass", "dman/utils/sjson.py:dumps"]}
{"id": "C21", "title": "content_only with the expected type round-trips", "statement": "deserialize(serialize(v, content_only=True), expected=type(v)) equals v (up to tuples) for every registered dataclass instance, list, tuple, dict and atom of type str/int/float/bool.", "quantifier": "all values", "why_tests_cant": "infinite nesting", "anchors": ["dman/core/serializables.py:BaseContext.serialize", "dman/core/serializables.py:BaseContext._deserialize_inner", "dman/core/serializables.py:compare_type"]}
{"id": "C22", "title": "Serialization errors are contained", "statement": "With validate off, an object whose __serialize__ raises (or that is not registered) is replaced by an invalid marker at its own position and every other part of the result is exactly what it would have been; serialize itself does not raise unless user code raises SerializationError, which always escapes. Likewise for deserialize.", "quantifier": "all values, all raising behaviours of user methods", "why_tests_cant": "any failing position in any nesting", "anchors": ["dman/core/serializables.py:BaseContext.serialize", "dman/core/serializables.py:BaseContext.serialize_object", "dman/core/serializables.py:_call_optional_context"]}
{"id": "C23", "title": "validate=True raises exactly on invalid parts", "statement": "With config.validate on, serialize raises ValidationError iff with validate off the result has an invalid marker created during that call; otherwise the results coincide. The same for deserialize, for data that does not contain a stored Undeserializable; with one in it the equivalence fails.", "quantifier": "all values and behaviours", "why_tests_cant": "equivalence over all inputs", "anchors": ["dman/core/serializables.py:BaseContext.process_invalid", "dman/core/serializables.py:Config.validate"]}
{"id": "C24", "title": "Failed deserialization is recoverable", "statement": "When a registered class fails in __deserialize__, the returned error object re-serializes to a form from which, once the class is fixed, deserialize returns exactly what the fixed class would have produced from the original data. This needs content other than null and a class with its own type attribute: null content, and classes registered by functions only, are lost after one failed load and save.", "quantifier": "all classes, all serialized contents, all histories of failing attempts", "why_tests_cant": "any content, repeated failures", "anchors": ["dman/core/serializables.py:ExcUndeserializable", "dman/core/serializables.py:BaseContext.deserialize_object"]}
{"id": "C25", "title": "Data of an unregistered type is not recoverable after re-saving", "statement": "Loading data with an unregistered type string gives an Undeserializable; re-serializing it and loading it after the type has been registered never returns the object (the marker's own __deserialize__ fails): the analogue of C24 is false. A marker in a file that also names the class it expected is never read either, while one with plain data and no class is read as that data.", "quantifier": "all type names and contents", "why_tests_cant": "universally quantified negative result", "anchors": ["dman/core/serializables.py:Undeserializable.__serialize__", "dman/core/serializables.py:Undeserializable.__deserialize__"]}
{"id": "C26", "title": "Dictionaries: keys and the reserved key", "statement": "A dict round-trips iff its keys are distinct after JSON stringification and none is '_ser__type'; colliding keys (5 and '5') silently lose all but the last entry; a dict with the reserved key is turned into something else. Whole numbers become their decimal notation, True, False and None become 'true', 'false' and 'null'; different keys become one exactly if one is a string and is the text of the other, or two floats have the same text, and so whole numbers stay apart.", "quantifier": "all dicts with atomic keys", "why_tests_cant": "all key sets", "anchors": ["dman/core/serializables.py:BaseContext.serialize_dict", "dman/core/serializables.py:BaseContext.deserialize_dict", "dman/core/serializables.py:BaseContext._deserialize_inner"]}
{"id": "C27", "title": "isvalid", "statement": "isvalid decides invalidity for every non-dict value and for serialized typed dicts of registered types; it raises TypeError for every dict without a registered '_ser__type'.", "quantifier": "all values", "why_tests_cant": "all values", "anchors": ["dman/core/serializables.py:isvalid"]}
{"id": "C28", "title": "Registered instances keep identity", "statement": "An object registered with register_instance deserializes to the identical object, also nested; overwriting a name redirects old data to the new object; if one object has several names the first is used.", "quantifier": "all registries and nestings", "why_tests_cant": "all registration histories", "anchors": ["dman/core/serializables.py:_Instance", "dman/core/serializables.py:register_instance"]}
{"id": "C29", "title": "Enum round trip", "statement": "For every registered Enum class with the default str(), a member deserializes to itself iff its name contains no dot; a member with a dot in its name (functional API) gives another member or a marker.", "quantifier": "all class and member names", "why_tests_cant": "all names", "anchors": ["dman/core/serializables.py:_serialize__enum", "dman/core/serializables.py:_deserialize__enum"]}
{"id": "C30", "title": "Record target resolution", "statement": "record(x, stem, suffix, name, subdir): every part the user gave is kept; a missing suffix is the storable's __ext__, else .json for serializable or dataclass content, else config.default_suffix; a missing stem is a fresh uuid; the resolved target is complete and stable over later reads.", "quantifier": "all user-supplied parts, all contents", "why_tests_cant": "all combinations and names", "anchors": ["dman/model/record.py:Record.target", "dman/model/record.py:record"]}
{"id": "C31", "title": "Record round trip", "statement": "Serializing a record whose content is of a storable class with its own write and read methods writes exactly what the class writes to one file inside the context's directory, changing no other file; deserializing the result in any context with the same directory, later and in any process, gives a record whose content equals the original, unless the user's write/read fails. (Nested content: C45.)", "quantifier": "all contents, targets inside the mount, contexts", "why_tests_cant": "all nestings and file systems", "anchors": ["dman/model/record.py:Record.__serialize__", "dman/model/record.py:Record.__deserialize__", "dman/model/record.py:Context.write", "dman/model/record.py:Context.read"]}
{"id": "C32", "title": "Laziness", "statement": "Deserializing a record without preload performs no file access; re-serializing it, unloaded, into the same directory performs no file access and yields the same serialized form.", "quantifier": "all records and states", "why_tests_cant": "absence of effects in every run", "anchors": ["dman/model/record.py:Record.store", "dman/model/record.py:Record.load", "dman/model/record.py:Unloaded"]}
{"id": "C33", "title": "Moving a record copies its data", "statement": "Serializing an unloaded record (of a class with its own read and write methods) in a context with another directory loads it from the old place and writes it to the same relative target there, possibly renamed; every other file is unchanged, in particular the old one.", "quantifier": "all records and pairs of directories", "why_tests_cant": "all states", "anchors": ["dman/model/record.py:Record.store"]}
{"id": "C34", "title": "Write failures are contained and retried", "statement": "If the user's __write__ raises, serialize still returns, the failure is recorded with the record, other files are unaffected, and the next serialize tries again.", "quantifier": "all contents and failure patterns", "why_tests_cant": "all failure points", "anchors": ["dman/model/record.py:Context.write", "dman/model/record.py:Record.store"]}
{"id": "C35", "title": "Read failures are reported and retried", "statement": "Accessing the content of a record whose file is missing or unreadable returns an invalid object (NoFile / ExcUnReadable), marks the record invalid, keeps it unloaded, and a later access reads again.", "quantifier": "all states", "why_tests_cant": "all failure points", "anchors": ["dman/model/record.py:Context.read", "dman/model/record.py:Record.load"]}
{"id": "C36", "title": "Preload hides read failures", "statement": "A record deserialized with preload whose file is missing still reports exists() and isvalid() as True: the read error found during preload is discarded.", "quantifier": "all preload records with failing reads", "why_tests_cant": "universally quantified negative result", "anchors": ["dman/model/record.py:Record.__deserialize__"]}
{"id": "C37", "title": "mlist behaves like list", "statement": "For any sequence of append/extend/insert/setitem/delitem/pop/getitem/len/iteration/clear with integer indices, an mlist whose items are in memory returns the same results, raises the same errors and holds the same items as a Python list, and touches no file. No method changes the options the list was made with (storable, sub directory, preload, stem).", "quantifier": "all operation sequences, all indices including negative and out of range", "why_tests_cant": "all histories", "anchors": ["dman/model/modelclasses.py:_blist"]}
{"id": "C38", "title": "mdict behaves like dict except for order", "statement": "For any sequence of set/del/pop/get/len/keys/clear, an mdict whose items are in memory has the same mapping and errors as a dict; the iteration order differs: assigning to an existing key moves it to the end.", "quantifier": "all operation sequences", "why_tests_cant": "all histories", "anchors": ["dman/model/modelclasses.py:_bdict"]}
{"id": "C39", "title": "mruns never reuses a file name", "statement": "In every history of appends, inserts, assignments, deletions and reads (without clear), the records created by one mruns get pairwise different targets stem-0, stem-1, ..., a target that has left the list never comes back, and the counter survives save and load. clear starts the numbering again at 0, so the next run gets the name of the first.", "quantifier": "all operation sequences", "why_tests_cant": "all histories", "anchors": ["dman/model/modelclasses.py:_bruns"]}
{"id": "C40", "title": "Deleting an item deletes its file, and only its file", "statement": "With auto_clean, saving a model from whose containers and fields items were deleted (loaded or not) leaves no file of a deleted record, unless this save wrote something else to that very file. If nothing is saved at the places of the deleted items, the only files removed are theirs, every other file that is not written is as it was, and a later run sees of the rest of the model exactly what the program saw before saving.", "quantifier": "all models (nested containers, records, waiting records), all pending deletions, all file systems", "why_tests_cant": "all histories", "anchors": ["dman/model/modelclasses.py:_blist.__delitem__", "dman/model/modelclasses.py:_blist.__serialize__", "dman/model/modelclasses.py:_bdict.__serialize__"]}
{"id": "C41", "title": "Cleaning can delete a live file of a sibling container", "statement": "The proviso of C40 is needed: when an item that is stored by key is moved from one mdict to another that is serialized before it, in the same directory, every successful save writes the item's file and then deletes it.", "quantifier": "all keys, contents, targets and file systems", "why_tests_cant": "a history-dependent interaction", "anchors": ["dman/model/modelclasses.py:_bdict.__serialize__", "dman/model/record.py:Record.__remove__"]}
{"id": "C42", "title": "list.record(value, -1) edits the wrong record", "statement": "mlist.record with a negative index of the list applies the target options to the item of that index, not to the inserted one; with idx None or 0 <= idx <= len it edits exactly the inserted item; with any other index (except -len-1) the value is inserted at an end and IndexError is raised.", "quantifier": "all lists and indices", "why_tests_cant": "all indices", "anchors": ["dman/model/modelclasses.py:_blist.record"]}
{"id": "C43", "title": "modelclass round trip", "statement": "For a non-compact modelclass, deserialize(serialize(m)) restores every serialized field, nested contents included, except that a field holding None whose declared default is not None comes back as the default.", "quantifier": "all classes, all field values", "why_tests_cant": "all classes", "anchors": ["dman/model/modelclasses.py:_serialize__modelclass", "dman/model/modelclasses.py:_deserialize__modelclass"]}
{"id": "C44", "title": "Compact modelclasses share records between instances after a load", "statement": "Compact modelclasses: as long as no instance was deserialized, every instance is saved with what was assigned to its own fields last. The first deserialization creates a table of records on the class: any two instances made from then on are saved with the same contents for all record fields, namely those of the instance made last; that first deserialization itself reads record fields as if they were no records; and with auto_clean a later deserialization schedules the record of the instance before it for removal.", "quantifier": "all classes with record fields, all programs of constructions, assignments and loads", "why_tests_cant": "a history-dependent aliasing", "anchors": ["dman/model/modelclasses.py:record_fields", "dman/model/modelclasses.py:_deserialize__modelclass_content_only"]}
{"id": "C45", "title": "save / load round trip with collision handling", "statement": "With validation on and on_retouch 'auto' or 'quit': whenever save of a model built in memory returns, load of the key in a later run of the same code succeeds and shows the saved model, with all contents, for every nesting of lists, dicts (with string keys), records, mlist, mdict, mruns and modelclasses, whatever file name collisions the records have and whatever was in the directory. The key is one file name, with a directory of its own (the default) or not (then no record may be saved as .gitignore); a list or dict with storables comes back as an mlist or mdict with the same items.", "quantifier": "all models, all initial directory contents", "why_tests_cant": "all nestings and name collisions", "anchors": ["dman/model/repository.py:save", "dman/model/repository.py:load"]}
{"id": "C46", "title": "With on_retouch='ignore' colliding records are lost", "statement": "With the default 'ignore', of two records of contents of one class whose targets name the same place, serialized one after the other, only the last one's content is on disk; later loads return it for both.", "quantifier": "all pairs of contents", "why_tests_cant": "universally quantified negative result", "anchors": ["dman/core/path.py:Mount.register", "dman/model/repository.py:save"]}
{"id": "C47", "title": "Keys with a slash cannot be loaded back", "statement": "For a key 'a/.../b', save writes to <dir>/b.json and load looks for <dir>/a/.../b.json: unless something else exists there, load raises FileNotFoundError (or returns the default) right after save.", "quantifier": "all keys with an inner slash", "why_tests_cant": "all keys", "anchors": ["dman/model/repository.py:save", "dman/model/repository.py:load"]}
{"id": "C48", "title": "load defaults", "statement": "load returns the default iff no file exists for the key; default wins over default_factory; without either FileNotFoundError is raised; the file system is not changed by the failed lookup except for pruning empty directories.", "quantifier": "all file systems and defaults", "why_tests_cant": "all states", "anchors": ["dman/model/repository.py:load"]}
{"id": "C49", "title": "save touches only its own key", "statement": "save(key) only changes files inside the mount directory of the key and the .gitignore next to it; data saved under other keys is unaffected.", "quantifier": "all keys, models, file systems", "why_tests_cant": "frame property over all runs", "anchors": ["dman/model/repository.py:save", "dman/core/path.py:Mount"]}
{"id": "C50", "title": "Crash during save", "statement": "If save is interrupted after any number of file operations, every file that is not a target of this save is intact; when all records to be written have fresh targets and nothing is to be cleaned, and the crash happens before the key's json is opened, load still returns the previously saved model. In general the previous state is not recoverable.", "quantifier": "all models, all crash points", "why_tests_cant": "all crash points", "anchors": ["dman/model/repository.py:save", "dman/core/storables.py:_write__serializable"]}
{"id": "C51", "title": "clean deletes what save wrote", "statement": "After save(key, m) with .gitignore, with retouch 'auto' or 'quit', of a model built in memory (its items and record fields held in records), clean(key) in a later run returns and no file written by that save remains; every other file but the .gitignore that lists the key is as before. A key with a directory of its own: when nothing else is left in this directory then it is gone and no longer listed in the .gitignore. A key without one: its json file is no longer listed. For values without __remove__ (builtin values, lists and dicts without bare storables) clean deletes no file. After a save with gitignore=False clean can raise FileNotFoundError.", "quantifier": "all models, keys, file systems before the save, positions of records", "why_tests_cant": "all models and all prior file systems", "anchors": ["dman/model/repository.py:clean", "dman/model/record.py:Context.remove"]}
{"id": "C52", "title": "track saves on every exit", "statement": "Leaving a track block, normally or by an exception, saves the object loaded on entry as the block left it, and the statement ends exactly as the block did; a later run that loads the key sees that object. If loading fails the block is not run; if saving fails its exception is seen instead.", "quantifier": "all blocks, all objects and states they leave, all tracked keys", "why_tests_cant": "quantifies over all blocks (what they change and how they end) and all models", "anchors": ["dman/model/repository.py:Track"]}
{"id": "C53", "title": "uninterrupted", "statement": "Interrupts arriving inside an uninterrupted block never interrupt it, are reported exactly once as KeyboardInterrupt after it if any arrived, and the previous handler is restored when the block ends normally; when the block raises, the handler is not restored and later interrupts are lost; interrupts arriving in a nested block are reported inside the outer block, which they interrupt.", "quantifier": "all schedules of interrupts relative to the block's steps", "why_tests_cant": "all interleavings", "anchors": ["dman/model/repository.py:uninterrupted"]}
{"id": "C54", "title": "Log layers", "statement": "After any properly nested use of log.layer in which no exception crosses a layer, the stack is what it was; every exception that crosses k layers leaves exactly k stale entries (also when dman itself swallows the exception during serialization); log level contexts behave alike.", "quantifier": "all nestings and exception points", "why_tests_cant": "all executions", "anchors": ["dman/core/log.py:Logger.layer", "dman/core/log.py:logger_context"]}
{"id": "C55", "title": "FileTarget keeps everything written", "statement": "For a FileTarget in append mode, after any sequence of writes, stores to paths and reopenings, the current file holds everything written so far in order, after what the destination held before; with mode 'w' each store discards what had been written.", "quantifier": "all operation sequences", "why_tests_cant": "all histories", "anchors": ["dman/core/storables.py:FileTarget", "dman/core/storables.py:MovableIO"]}
{"id": "C56", "title": "Config fields keep their type, options are not checked", "statement": "A config field only ever holds values of its declared type, whatever is assigned and whichever errors are caught; the options given to optionfield are never checked (on_retouch accepts every string), those of an OptionField written directly in the class body are.", "quantifier": "all assignments", "why_tests_cant": "all assignment sequences", "anchors": ["dman/utils/smartdataclasses.py:OptionField", "dman/utils/smartdataclasses.py:configclass"]}
{"id": "C57", "title": "Array text encoding round trip", "statement": "sarray, carray and ndarray values of numbers with at least one dimension come back with class, entry type, shape and entries when non-empty; an empty array keeps its shape but comes back as float and, for sarray, as a plain ndarray; an array without dimensions comes back as the float of its entry.", "quantifier": "all shapes and entries", "why_tests_cant": "all shapes and ranks", "anchors": ["dman/numeric.py:sarray"]}
{"id": "C58", "title": "Traceback frames", "statement": "Frame text round trip: file name, line number and function name are restored and the source line is lost, for one-line names when ', line ' does not follow the line number and the source line has no ': '; with ': ' in the source line the function name absorbs the text up to the last one. Stack: type and message are restored for one-line messages without '('; with '(' they come back cut at the last one; a message with a line break and no brackets cannot be deserialized.", "quantifier": "all frames", "why_tests_cant": "all strings", "anchors": ["dman/core/errors.py:Frame", "dman/core/errors.py:Stack"]}
{"id": "C59", "title": "Resumable loops", "statement": "A stack layer resumed with state k yields exactly the items from position k on and its counter ends at the length; nested loops interrupted before any action and restarted with the recorded state do, over both runs, every action exactly once in order. With two loops in one body, resuming can skip items.", "quantifier": "all iterables and states", "why_tests_cant": "all lengths", "anchors": ["dman/tui.py:StackLayer"]}
{"id": "C60", "title": "override", "statement": "override(left, right, ignore) gives, for every setting, right's value if it is given and no value on the way is ignored, else left's; given values must have the setting's type; the result shares no configuration object with left. In place the object itself is updated, but nested configurations for which values are given are replaced by new objects, so other holders of the old ones do not see the change; types are kept even if it fails half way.", "quantifier": "all config trees", "why_tests_cant": "all trees", "anchors": ["dman/utils/smartdataclasses.py:override"]}
{"id": "C61", "title": "Serialized fields that are not constructor arguments make an object unloadable", "statement": "For a registered dataclass with a serialized field declared with init=False, every saved instance loads as an invalid marker, never as an instance.", "quantifier": "all classes with such a field, all instances, all values", "why_tests_cant": "a test shows one class; the claim is that no instance of any such class ever loads", "anchors": ["dman/core/serializables.py:_serialize__dataclass", "dman/core/serializables.py:_deserialize__dataclass"]}
{"id": "C62", "title": "Undecorated subclasses load as their parent", "statement": "A dataclass that inherits from a registered dataclass without being registered itself is stored under the parent's type name and loads as an instance of the parent or as a marker, never as an instance of the subclass.", "quantifier": "all such class pairs, all instances", "why_tests_cant": "quantifies over all class pairs and all attribute values", "anchors": ["dman/core/serializables.py:serializable", "dman/core/serializables.py:ser_type2str", "dman/core/serializables.py:BaseContext.serialize"]}
{"id": "C63", "title": "A value assigned over an item whose file is missing is not saved", "statement": "With auto_clean, assigning a storable value to a list item whose file is missing succeeds and the item then reads as that value, but the next serialization of the list leaves it out without any error.", "quantifier": "all lists, positions, values, missing files", "why_tests_cant": "needs a file that disappears between load and assignment, for every list and position", "anchors": ["dman/model/modelclasses.py:_blist.__setitem__", "dman/model/record.py:Record.content", "dman/model/record.py:Record.exists"]}
{"id": "C64", "title": "A loaded and changed model can be saved again without losing what was not accessed", "statement": "When a model whose records partly still wait in the files they were loaded from is saved under its key, and save returns and leaves the files of the waiting records as they were, a later run that loads the key sees exactly what a full access would have shown before the save. The files of waiting records are not protected: a new record whose target is one of them overwrites it without any error.", "quantifier": "all models partly in memory and partly waiting in files of the key directory, all states of the rest of the file system, all storable classes whose __read__ depends on the file only", "why_tests_cant": "quantifies over all models, all subsets of records that were accessed or replaced, and all file contents", "anchors": ["dman/model/record.py:Record.__serialize__", "dman/model/record.py:Record.content", "dman/core/path.py:Mount.prepare", "dman/model/repository.py:save", "dman/model/repository.py:load"]}
{"id": "C65", "title": "Saving a Track before loading it overwrites the stored object with None", "statement": "Calling save on a track object that was neither entered nor loaded returns without error and replaces what the key held: later runs that load the key see None, whatever default they ask for.", "quantifier": "all keys and stored objects, all defaults, all later runs", "why_tests_cant": "quantifies over everything the key may have held and all defaults", "anchors": ["dman/model/repository.py:Track.save", "dman/model/repository.py:Track.load", "dman/model/repository.py:save"]}
{"id": "C66", "title": "Saving leaves the object in memory as it was", "statement": "When save returns, the object in memory is the object it was before: the same values at the same places and in the same order, with records that hold the same contents (they may have got other file names in the same sub directory) and records that still wait for the same files; a program that uses it sees the same as before, and it can be saved again. A track loads its object at the first access, keeps it for all later ones without reading the file again, and still holds that object after saving; a bare storable is not replaced by the record it was stored with.", "quantifier": "all models partly in memory and partly waiting in files, with any pending deletions; all states of the file system; all later accesses", "why_tests_cant": "quantifies over all object structures, pending deletions and file states; tests compare the saved file, not the live object", "anchors": ["dman/model/repository.py:save", "dman/model/repository.py:Track", "dman/model/record.py:Record.__serialize__", "dman/model/modelclasses.py:mlist.__serialize__", "dman/model/modelclasses.py:mdict.__serialize__", "dman/model/modelclasses.py:serialize"]}
{"id": "C67", "title": "Replacing a stored container cleans the wrong directory", "statement": "With auto_clean, when a storable is assigned to an mlist item or mdict key whose record holds a container in memory, the next save removes the files of the old container's records by their names relative to the directory of the list or dict, not to the sub directory of the record they are in. So all files with those names in the outer directory are gone unless this save wrote them (also if a waiting item of the list lives there), no other file is removed, and if the record has a sub directory and the old container had files, at least one of them is left behind.", "quantifier": "all lists and dicts, positions, containers at rest, records with or without sub directory, new values, file systems", "why_tests_cant": "quantifies over all container structures and file systems; a test sees one layout, and most layouts hide the deletion of a namesake", "anchors": ["dman/model/modelclasses.py:_blist.__setitem__", "dman/model/modelclasses.py:_bdict.__setitem__", "dman/model/modelclasses.py:_blist.__serialize__", "dman/model/record.py:remove"]}
{"id": "C68", "title": "Fields of a modelclass behave like attributes", "statement": "Any sequence of reads and assignments of fields of a modelclass instance whose records are in memory gives the results and errors of plain Python attributes (with the pre methods of the fields applied to assigned values, which may refuse them), although record fields are kept in records, and touches no file. In any state, a storable assigned to a record field keeps the file name of the record it replaces, or gets the one the class gives the field, and other attributes are left alone. A record assigned to a record field becomes its record as it is, without pre being asked.", "quantifier": "all classes, pre methods, attribute tables, sequences of operations, file systems", "why_tests_cant": "quantifies over all operation sequences and values, including those that switch between storables and other values", "anchors": ["dman/model/modelclasses.py:RecordWrap.__get__", "dman/model/modelclasses.py:RecordWrap.__set__", "dman/model/modelclasses.py:SerializeWrap.__set__"]}
{"id": "C69", "title": "Records dropped from a field are removed again at every save", "statement": "With auto_clean, assigning None to a record field of a modelclass makes the next save remove the file of the old record. Unlike mlist and mdict, the modelclass never forgets the dropped record: after any number of saves of the same object, each further save again leaves that file removed unless it wrote it itself, whoever has written it in between. Exactly the files of the dropped field records are treated like this: those of deleted list items and dict values are removed once, and later saves leave them alone unless they write them.", "quantifier": "all objects, numbers of saves, changes of the files in between", "why_tests_cant": "a test sees the first save, which does what it should; the loss needs another record with the name of a file dropped earlier", "anchors": ["dman/model/modelclasses.py:RecordWrap.__set__", "dman/model/modelclasses.py:unused_fields", "dman/model/modelclasses.py:_serialize__modelclass", "dman/model/modelclasses.py:_blist.__serialize__"]}
{"id": "C70", "title": "No operation on a list, dict or field loses track of a file", "statement": "With auto_clean, after any sequence of operations on an mlist, an mdict or the fields of a modelclass instance (reads, assignments, insertions, deletions, pops, clears, including ones that raise inside the sequence), every file name held by a record at the start is held by a record still in the object or by one put aside for removal. So after the next save each such file belongs to an item of the object, or is gone, or was written by that save.", "quantifier": "all containers, operation sequences, values, file systems", "why_tests_cant": "quantifies over all operation sequences and values; one forgotten path of one operation leaves an orphan file nobody looks for", "anchors": ["dman/model/modelclasses.py:_blist", "dman/model/modelclasses.py:_bdict", "dman/model/modelclasses.py:RecordWrap.__set__"]}
{"id": "C71", "title": "Deleting an item that cannot be read leaves its file behind", "statement": "With auto_clean, an item of an mlist or mdict (of otherwise plain values) whose stored type this program cannot read (its class is not registered, or its __read__ raises) can be deleted and the save goes through and forgets it, but no file other than the key's own JSON and .gitignore is touched: the item's file stays although nothing refers to it any more. With validate=True a list or dict with such a deleted item cannot be saved at all.", "quantifier": "all lists and dicts of plain values, deleted records, types, read errors, file systems; with validate all lists and dicts", "why_tests_cant": "needs a program that lacks the class, and the absence of an effect on every other file", "anchors": ["dman/model/record.py:Record.__remove__", "dman/model/record.py:Context.remove", "dman/model/modelclasses.py:_blist.__serialize__", "dman/model/modelclasses.py:_bdict.__serialize__"]}
{"id": "C72", "title": "Changing a list or dict never marks the file of an item that stays for removal", "statement": "With auto_clean, take an mlist or mdict whose records hold plain values, and apply any sequence of operations (reads, assignments, insertions, deletions, pops, extend, clear) whose arguments are not records themselves and that run to their end. Then the files named by the items afterwards together with the files put aside for removal are exactly, each as often as before, the files named before. So if no file was named twice before, no file put aside for removal is the file of an item that is still in the container, and the next save cannot delete it on behalf of a dropped item.", "quantifier": "all containers, all sequences of operations, all programs' save and load methods, all states of the disk", "why_tests_cant": "It is about every sequence of operations on every container; a test runs a few sequences, and a file that is both kept and marked shows only if a save happens right after.", "anchors": ["dman/model/modelclasses.py:_blist", "dman/model/modelclasses.py:_bdict"]}
{"id": "C73", "title": "Recording over a key that is in use renames the record and leaves its old file behind", "statement": "mdict.record(key, value, ...) for a storable value at a key whose item is a record keeps that record: the value becomes its content, the stem, suffix or name that are given replace those of its file, and the sub directory that is given is taken inside the one the record already has. If that changes the file name and no other record has the old one, then afterwards no item and no item put aside names the old file. So, even with auto_clean, the next save leaves the old file where it is unless it writes it for something else. Recording m times at one key with the same sub directory puts the file m directories deep.", "quantifier": "all dicts, keys, values, file name options, states of the disk, numbers of recordings; the claim about the disk for values that are no containers", "why_tests_cant": "The statement is about every dict, every choice of options and the absence of an effect on a file nobody refers to any more.", "anchors": ["dman/model/modelclasses.py:_bdict.record", "dman/model/modelclasses.py:_bdict.__setitem__", "dman/core/path.py:Target.merge"]}
{"id": "C74", "title": "The subdir of an mdict is ignored unless store_subdir is set", "statement": "Take two mdicts without store_subdir that differ only in the subdir they were made with. Any sequence of operations gives on both the same results, the same items in records with the same file names, and the same disk. All records such a dict makes are for files directly in its own directory, never in the sub directory that was asked for. An mlist made with a subdir makes all its records for files in that sub directory.", "quantifier": "all dicts and lists, sub directories, operation sequences, values that are not records themselves, states of the disk", "why_tests_cant": "It compares all pairs of dicts over all operation sequences; a test fixes one sub directory and a few operations.", "anchors": ["dman/model/modelclasses.py:_bdict.__make_record__", "dman/model/modelclasses.py:_bdict.config", "dman/model/modelclasses.py:_blist.__make_record__", "examples/cases/example_svm.py:88"]}
{"id": "C75", "title": "Storables in plain lists and dicts get new files at every save, and the old ones pile up", "statement": "Save an object made of plain Python lists and dicts, nested in any way, holding storables. Each storable is written to a file of its own directly in the directory of the key, with a name made from a uuid that no earlier save used; apart from the file of the key and the .gitignore no other file changes, and the object is left as it was. After m such saves in a row there are m files for every storable: nothing ever removes the files of the earlier saves.", "quantifier": "all plain lists and dicts nested to any depth, keys, options, states of the disk, numbers of saves", "why_tests_cant": "It holds for any number of saves and any nesting; a test counts the files after a few saves of one object.", "anchors": ["dman/model/record.py:Context.serialize_list", "dman/model/record.py:Context.serialize_dict", "dman/model/record.py:Record.__serialize__", "dman/core/path.py:Mount.prepare", "dman/model/repository.py:save"]}
{"id": "C76", "title": "Programs over an mlist, and the methods it inherits, do what they do with a list", "statement": "Any program that uses an mlist whose items are in memory, and chooses each next operation by the results it got so far, computes the same result and leaves the same items as with a Python list, and touches no file. In particular the methods the class only inherits (reverse, index, remove, count, in, reversed) do what those of a Python list do, although they are built from item access and assignment, which wrap and unwrap records.", "quantifier": "all programs over the list operations with unbounded length and branching on results, all lists, values and comparisons", "why_tests_cant": "Programs branch on what they read; tests run a few fixed call sequences.", "anchors": ["dman/model/modelclasses.py:_blist"]}
{"id": "C77", "title": "Programs over an mdict; popitem takes the first item and in reads files", "statement": "Any program that uses an mdict whose items are in memory, and chooses each next operation by the results it got so far, computes the same result and leaves the same items as with a dict in which assigning an existing key moves it to the end. The inherited methods get, in, pop with default, setdefault, update, items and values do what those of a dict do. But popitem gives the first item, never the last one as a Python dict does, as soon as there are two. And a membership test does to the disk and to the dict exactly what a lookup does: it reads the item from its file.", "quantifier": "all programs over the dict operations, all dicts, keys, values; for the membership test all dicts with items in memory or not and all states of the disk", "why_tests_cant": "Programs branch on what they read; tests run a few fixed call sequences.", "anchors": ["dman/model/modelclasses.py:_bdict"]}
{"id": "C78", "title": "Saving again what was saved changes nothing", "statement": "After an object was saved (with retouch auto or quit, nothing pending for removal, and no storable standing bare in a plain list or dict), saving the object again leaves it exactly as it is, including the targets of its records, writes the same JSON to the key's file, draws no new name, and leaves every file in the directory of the key as it was, whatever happened elsewhere on the disk in between. So however often it is saved, no files pile up. (The .gitignore of a key without a directory of its own is not covered.)", "quantifier": "all models in memory, also with records waiting in their files, all states of the disk, any number of saves", "why_tests_cant": "Whether the second save asks for the same paths again, and gets them without a rename, depends on the order in which all records of the model, nested in any way, ask for theirs in both runs.", "anchors": ["dman/api.py:save", "dman/core/path.py:prepare", "dman/model/record.py:Context"]}
{"id": "C79", "title": "Loading a key in a later run and saving it right away changes nothing", "statement": "A model built in memory is saved (with retouch auto or quit). A later run of the same program loads the key and saves what it got, without touching it: the loaded object comes out of that save as it was, records that were never read included; the key's file gets the same JSON; no new name is drawn; and every file in the directory of the key has the content the first save gave it. That holds for any number of such visits by any later runs, whatever names those runs would draw. (The .gitignore of a key without a directory of its own is not covered.)", "quantifier": "all models built from the library's containers, records and user classes, all states of the disk, all later runs, any number of visits", "why_tests_cant": "A test loads and saves a few models; whether the records of a loaded model ask for the paths they were stored at, in an order in which none is renamed, and whether unread records are written back as they were, has to hold for every nesting and every name.", "anchors": ["dman/api.py:load", "dman/api.py:save", "dman/model/record.py:Record.__serialize__", "dman/model/record.py:Record.__deserialize__"]}
{"id": "C80", "title": "A storable dataclass keeps JSON data exactly and silently flattens everything else", "statement": "A dataclass marked with @storable, without __write__/__read__ of its own and not @serializable, is written as the JSON of its attributes. With JSON data in the attributes (atoms, lists, dicts with distinct string keys, at any depth) reading gives an equal instance. In general writing still succeeds and reading still succeeds, but dataclass instances inside come back as dicts, tuples as lists and all other objects as a text naming their class: whenever an object stands in an attribute, what is read differs from what was written, with no error anywhere. With a field(init=False) the file is written but can never be read (TypeError). Exactly those files can be read that hold a JSON object whose keys are constructor fields, all fields without default among them.", "quantifier": "all dataclasses, all attribute values of any depth", "why_tests_cant": "Tests store a few values; whether every value comes back as it was, or into what it is turned, is a statement about arbitrarily nested data.", "anchors": ["dman/core/storables.py:_write__dataclass", "dman/core/storables.py:_read__dataclass", "dman/utils/sjson.py:dump"]}
{"id": "C81", "title": "A class with a template comes back through its template, nested dataclass instances as dicts", "statement": "A dataclass registered with @serializable(template=T), T a registered dataclass with the same field names in any order and no methods of its own: serializing an instance, sending it through JSON text and deserializing it gives an instance of the class itself (not of the template). Attributes with JSON data come back as they were; registered objects that are no dataclasses (Enum members, instances) too; tuples come back as lists. But a dataclass instance inside an attribute comes back as a dict, even if its own class is registered: asdict takes it apart on the way into the template. Nothing is reported.", "quantifier": "all classes, templates and attribute values of any depth", "why_tests_cant": "Two conversions and a serialization are composed; that they are inverse has to hold for values of any depth and fields in any order.", "anchors": ["dman/core/serializables.py:_default__convert", "dman/core/serializables.py:_serialize__template", "dman/core/serializables.py:_deserialize__template"]}
{"id": "C82", "title": "A repository is a dictionary from keys to models", "statement": "Take any history of runs of one program on a repository in which every key has a directory of its own: saves that return, saves that raise or die at any file operation, stores, cleans, loads with or without defaults, accesses to waiting records, and work of other programs on other files. What was last saved under a key by a save that returned, and not overwritten, stored to or cleaned since, is what the next run that loads the key sees: a whole model, equal to the one the saving run saw. In particular nothing that happens under another key, however it ends, changes it. A key that never had a json file, or whose json file a clean removed, behaves as one that was never used: loading it gives the default or FileNotFoundError; clean does remove the file of a key that holds a modelclass instance, or a list or dict of dman with options, whenever it returns. (The saved model may be new, or loaded and changed, with items deleted; the provisos of C64 and C40 apply to that save. Keys are plain one-line names; the strategy for existing files asks nobody.)", "quantifier": "all histories of any length, all keys, models, environments of the runs, crash points and interleavings of keys", "why_tests_cant": "A history can be of any length, and the calls share directories, the .gitignore above the keys and its clean-up of dead entries; a test can only try a few sequences.", "anchors": ["dman/model/repository.py:save", "dman/model/repository.py:load", "dman/model/repository.py:clean", "dman/model/repository.py:store", "dman/core/path.py:Mount.close", "dman/core/path.py:gitignore"]}
{"id": "C83", "title": "A record read without a context does not lose its data when it is saved again", "statement": "Deserializing the stored form of a record without a Context gives, with validation, a ValidationError; without it a record that reports itself invalid, knows its type and target but not its content, and touches nothing. Saving that record later in a Context leaves every file as it was: with validation the save raises, without it the form that is written names the same file and the same type, so reading that form in any later process gives a record whose accesses do exactly what accesses of the record originally saved do. The data is not lost. (The place must not have been given to another record in the same context; the strategy for existing files asks nobody and does not quit.)", "quantifier": "all record targets, types, contexts, file systems, later processes and states", "why_tests_cant": "The record carries no content, so the claim is about the absence of effects on every file and about every later read, in states and processes that no test enumerates.", "anchors": ["dman/model/record.py:Record.__deserialize__", "dman/model/record.py:Record.store", "dman/model/record.py:Record.sto_type", "dman/model/record.py:Context.write", "dman/core/storables.py:write"]}
{"id": "C84", "title": "store writes one file named after the key, which load does not read as that object", "statement": "store refuses, with a ValueError and without touching anything, what is not storable. For an object with its own write and read methods, a store that returns a form without failures has written exactly what the class writes to <directory of the key>/<key><suffix>, whatever was there before, and has touched no other file except the .gitignore; the form it returns, deserialized later in a context of that key, gives a record with the stored content. But load under the same key does not give the object back: it finds no file if the suffix is not .json, and if it is (a storable list) it returns the bare content as a dict.", "quantifier": "all keys, options, classes, contents, file systems, strategies that ask nobody, and later processes", "why_tests_cant": "The frame condition ranges over all files of an arbitrary file system and the read-back over all later processes and states.", "anchors": ["dman/model/repository.py:store", "dman/model/repository.py:load", "dman/model/record.py:Record.store", "dman/model/record.py:Record.target"]}
{"id": "C85", "title": "The failures of a record survive saving, partly against the facts", "statement": "A record that failed to read writes its failure (class and content type) into its serialized form when it is saved where it is, without touching any file, and the record read back from that form is reported as invalid until an access succeeds, writes the same form again when saved, but is reported as existing even if the failure was a missing file. With preload the failure outlives its cause: a record whose file can be read again has its content and stays reported as invalid through every access and save. A record read back with a failed write whose file is missing fails again at every save, changes no file, and keeps its path only if the save has a mount of its own or never renames; a save sharing the mount with the read names a different path under on_retouch 'auto'.", "quantifier": "all records, failures, paths, contexts, file systems and later processes", "why_tests_cant": "The statement is about every later save, access and context after any failure, over arbitrary file systems and names.", "anchors": ["dman/model/record.py:_RecordExceptions", "dman/model/record.py:Record.__serialize__", "dman/model/record.py:Record.__deserialize__", "dman/model/record.py:Record.store", "dman/core/path.py:Mount.register"]}
{"id": "C86", "title": "Loading and reading change no file", "statement": "Deserializing data, taking the content of a record and walking a whole value with everything it refers to change no file, remove no directory, ask the user nothing and draw no name, whatever their outcome; directories appear only on the way to files looked for. Loading a key may at most rewrite the key's .gitignore, and only when it returns normally and something was marked for preloading; without such marks it changes no file and creates no directory. Looking for a record whose file is missing creates the directory the file would be in and leaves it.", "quantifier": "every environment, state, serialized data, value, key, options, default, interruption point and outcome", "why_tests_cant": "A test sees one project directory; that nothing is written must hold for all data, including damaged data, user code that raises and interruptions.", "anchors": ["dman/repository.py:load", "dman/core/record.py:Record.content", "dman/core/storables.py:read", "dman/core/path.py:Mount.prepare", "dman/core/path.py:Mount.close"]}
{"id": "C87", "title": "A figure read from its file is only a reference to that file", "statement": "A PdfFigure that was read holds only the path. Writing it to that path touches nothing; writing it elsewhere copies what the file holds at that moment; moved through any places it keeps showing the content it had at first. If the file has vanished the write reports success and writes nothing, and a stale file at the new place is from then on taken for the figure. Two figures read from two files and written to each other's place leave both files with the first one's content. The same place under another spelling raises SameFileError, a missing path TypeError. A TexFigure that was read can be written nowhere but to its own path. A figure in memory is drawn anew.", "quantifier": "every file system, working directory, pair of paths, sequence of moves and behaviour of matplotlib and tikzplotlib", "why_tests_cant": "The loss depends on the order in which several figures are written and on what happened to the files since they were read.", "anchors": ["dman/plotting.py:PdfFigure", "dman/plotting.py:TexFigure"]}
{"id": "C88", "title": "A Figure does not survive saving and loading", "statement": "Each cycle of saving a Figure and loading it puts the list of figures into one more PklFigure; what is loaded therefore never equals what was saved, after any number of cycles, though the figures are still inside. The first save of figures that can be drawn succeeds; saving what was loaded always fails at the preview with ValueError.", "quantifier": "every list of figures, number of cycles and behaviour of matplotlib", "why_tests_cant": "A test that only looks whether loading returns a Figure passes; the nesting shows after the second cycle.", "anchors": ["dman/plotting.py:Figure", "dman/plotting.py:t_Figure", "dman/plotting.py:PklFigure"]}
{"id": "C89", "title": "Registration order, inheritance and decorator order decide how a class is written and as what it is loaded", "statement": "After any sequence of decorations a name belongs to the class that was registered under it last, and data of instances of a class is loaded as that class exactly if it was decorated itself and its last name was not taken afterwards; an undecorated subclass is loaded as its parent. With single inheritance no decoration ever replaces a serialize, deserialize, write or read method a class already has or inherits, so the options (template, compact) of a modelclass derived from another are ignored. A plain dataclass made storable before serializable is written as bare fields, the other way round as a serialized object. A decoration that raises ValueError has registered the class under the name all the same. The same holds of names of storable types and the class files are read as; with a template the class and the template get default conversions only where they bring none.", "quantifier": "every class hierarchy, every state of the registries, every sequence of serializable, storable, modelclass and dataclass decorations", "why_tests_cant": "Tests decorate each class once under its own name; the interaction of names, inheritance and order over arbitrary sequences is not reachable by cases.", "anchors": ["dman/core/serializables.py:serializable", "dman/core/storables.py:storable", "dman/model/modelclasses.py:_process__modelclass", "dman/core/serializables.py:ser_str2type"]}
{"id": "C90", "title": "A derived modelclass decides anew where inherited fields are stored", "statement": "In every hierarchy of modelclasses (single inheritance): in the class that declares a field, what recordfield or serializefield says is kept and only what is left open is filled in (stem by the field name if store_by_field, directory from the decorator, conversion from the preset of the type); a plain field is stored in its own file exactly if its type is storable. A class derived from it decides anew on every inherited field of storable type not declared with serializefield: the declared stem, suffix, directory, preload and conversion are lost and the defaults of the derived class's decorator hold, so the same field is stored under another name. Inherited fields of other types keep what the parent does unless their type has a preset. A field redeclared as plain without a default is still treated as the parent's record. Defining classes never changes classes defined before, although they share the field objects. Deriving raises AttributeError exactly if a field is inherited that was declared with a descriptor and without metadata and whose type has a preset and is not storable.", "quantifier": "every sequence of modelclass definitions with at most one parent each, all declarations, decorator options, storable types and presets", "why_tests_cant": "The behaviour depends on the metadata of shared field objects being replaced by each decoration in the hierarchy; tests decorate single classes, and the claim covers hierarchies of every depth and order of definition.", "anchors": ["dman/model/modelclasses.py:_process__modelclass", "dman/model/modelclasses.py:recordfield", "dman/model/modelclasses.py:serializefield", "dman/utils/smartdataclasses.py:wrappedclass"]}
{"id": "C91", "title": "walk_directory shows exactly the visible entries, or nothing at all", "statement": "A walk that ends shows every directory and file no part of whose path is hidden (all of them with show_hidden), each where it is and as often as it is there, directories before files and both by lowered name, files with their size, and with their whole content exactly if it was asked for and the first 1024 bytes have no control characters. The walk raises ValueError and prints nothing exactly if some visible file that is to be shown looks like text and cannot be decoded or, being named .json, is not valid JSON; in particular one empty .json file, as an interrupted save leaves it, hides the whole directory. A string given in place of a list of extensions also asks for files without extension and for extensions that are part of it.", "quantifier": "every directory tree, every choice of show_content and show_hidden, every decoding and every notion of valid JSON", "why_tests_cant": "The claim is about all trees and positions in them and about the exact condition of failure; tests look at single small directories.", "anchors": ["dman/tui.py:walk_directory", "dman/tui.py:walk_file"]}
{"id": "C92", "title": "Numbers of numpy and other aliased atoms in JSON files", "statement": "After any sequence of alias registrations, saving a value writes: the conversion registered last for an object whose exact type is aliased; a placeholder text for an object whose type is only derived from an aliased type (serialization lets it pass as a number, nothing marks it and its value is lost); the unserializable marker for any other object; everything else as it is. Saving fails exactly when an object is used as a key of a dict, also one of an aliased type although serializing such a dict succeeds, or when a conversion raises. Plain data, such as everything read back, is written unchanged.", "quantifier": "every sequence of registrations, class hierarchy, nesting of lists and dicts, conversion function", "why_tests_cant": "isinstance is used to accept and the exact type to convert; the difference shows only for derived types and keys", "anchors": ["dman/utils/sjson.py:_default", "dman/utils/sjson.py:register_atomic_alias", "dman/utils/sjson.py:atomic_type", "dman/numeric.py", "dman/core/serializables.py:BaseContext.serialize_dict"]}
{"id": "C93", "title": "Chained exceptions in the failures that are kept", "statement": "The trace kept of a failure holds one stack per exception of the chain, starting at the one raised and following the explicit cause if it was raised and otherwise the context unless suppressed; only the traceback of the first is shortened. Collecting it never ends exactly when the chain runs into a cycle, as after 'raise e from e'. In the text the sentence 'The above exception was the direct cause of the following exception' stands above an exception exactly when that exception is not itself an explicit cause, so it does not mark the pairs of cause and effect.", "quantifier": "every heap of exceptions, chain and number of frames to ignore", "why_tests_cant": "every shape of cause and context links including cycles; the sentence is right for the single pair that tests use", "anchors": ["dman/core/errors.py:Trace.from_exception", "dman/core/errors.py:Trace.format", "dman/core/errors.py:Stack.format"]}
{"id": "C94", "title": "What is_deserializable tells", "statement": "is_deserializable says yes to every atom and list and to exactly those dicts whose '_ser__type' is the non-empty name of a known type. Everything serialization makes of a value that is not a dict is recognised; no serialized dict without a '_ser__type' key is, although it deserializes to a dict with the same keys. A yes promises nothing about the inside: a list holding an item of unknown type is recognised while deserializing it fails under validation. It raises a TypeError exactly if '_ser__type' is a list or dict with something in it.", "quantifier": "every registry, every serialized tree, every value", "why_tests_cant": "agreement between a predicate and two recursive functions over all trees", "anchors": ["dman/core/serializables.py:is_deserializable", "dman/core/serializables.py:is_serializable_type_str", "dman/core/serializables.py:BaseContext.deserialize"]}
{"id": "C95", "title": "Storable runs made by the factory with its defaults", "statement": "Runs with a stem keep the k-th storable in the file <subdir>/<stem>-k/<stem><suffix> (or <subdir>/<stem>-k<suffix> without sub directories), whether validation is on or off. smruns_factory has None as default stem: with its defaults no storable is ever written; without validation each is silently replaced by the marker of an UnboundLocalError, with validation saving fails as soon as there is one. Only without sub directories are files written, named None-k.", "quantifier": "every sequence of plain and storable items, sub directory, suffix and extension", "why_tests_cant": "the failure needs the default stem, a storable and the error handler of Context.write together; it is silent by default", "anchors": ["dman/model/modelclasses.py:smruns_factory", "dman/model/modelclasses.py:_bruns.__make_record__", "dman/model/record.py:Record.target", "dman/model/record.py:Context.write", "dman/core/path.py:Target.merge"]}
{"id": "C96", "title": "What == between instances of a modelclass compares", "statement": "Two instances of one modelclass are equal exactly if every field that takes part has the same object in memory or equal content of a class that compares by content. Annotated and serializefield fields take part unless compare=False, also if they are stored in files; recordfield and wrapfield fields only with compare=True, so that a changed or unreadable recordfield is not noticed. Before anything is compared the files of all fields that take part and were not read are read, left instance first, and nothing is read for different classes. A copy whose file is still to be read is never equal if the stored class compares by identity. The comparison keeps every value. An instance is equal to itself unless a failure object does not compare by content.", "quantifier": "every modelclass, instances, files (also unreadable) and classes of values", "why_tests_cant": "which fields take part depends on how each was declared, and the answer on identity of objects that are created while comparing", "anchors": ["dman/model/modelclasses.py:recordfield", "dman/model/modelclasses.py:serializefield", "dman/utils/smartdataclasses.py:wrapfield", "dman/model/modelclasses.py:_process__modelclass", "dman/model/modelclasses.py:RecordWrap.__get__", "dman/model/record.py:Record.load"]}
{"id": "C97", "title": "Saving an SVG figure for LaTeX does not always put settings and formatters back", "statement": "SVGFigure.__write__ with generate_tex saves the figure with three matplotlib settings changed and a new formatter in every ticker of its axes that had a logarithmic one. If saving succeeds all settings are as before, whatever becomes of the LaTeX step; the formatter of a ticker is put back exactly if it was not logarithmic or at most one axis of the figure uses the ticker, so with shared logarithmic axes a new formatter stays. If saving fails, the changed settings and formatters stay for the rest of the program. A missing setting is a KeyError before anything is changed; without generate_tex nothing is touched.", "quantifier": "every figure with any sharing of axes, settings, formatters, success or failure of savefig and of the LaTeX step", "why_tests_cant": "needs shared tickers or a failing savefig and looks at global state afterwards", "anchors": ["dman/plotting.py:SVGFigure.__write__"]}
{"id": "C98", "title": "A field and the attribute of the same name with an underscore share a place; get_record finds no record", "statement": "After any program of assignments: a field with a descriptor (record or conversion) reads as what was assigned last to it or to the attribute _<field>; that attribute reads the same, except that after a storable it gives the record itself. What is saved for a record field, however, is what was assigned last to the field itself (or, after None or nothing, what the field reads as), so reading and saving differ after _<field> was assigned. Without such an attribute fields are plain attributes: each reads and is saved as what was assigned last. get_record finds exactly what set_record put there, never the record of a field.", "quantifier": "every class of record, conversion and plain fields with any defaults, every program of reads and assignments of values and uses of get_record and set_record", "why_tests_cant": "needs names that differ by an underscore, and the same state looked at by reading and by saving", "anchors": ["dman/model/modelclasses.py:RecordWrap.__set__", "dman/model/modelclasses.py:RecordWrap.__get__", "dman/model/modelclasses.py:SerializeWrap", "dman/model/modelclasses.py:get_record", "dman/model/modelclasses.py:set_record", "dman/model/modelclasses.py:_serialize__modelclass"]}
{"id": "C99", "title": "How the methods of the user are called, and which never run", "statement": "`__serialize__`, `__deserialize__`, `__write__` and `__read__` are called with the arguments, or with the arguments and then a context, by the number of parameters the signature lists. A method with positional parameters only runs with the arguments if it has as many, and with the context as the last one if it has one more, whether or not that parameter has a default: an optional parameter such as `compress=False` is given the context. With any other number it is not run: a TypeError, as a marker if one is wanted. A method without `*args` that has a keyword-only parameter or `**kwargs` never runs, although Python would accept the call. A method that runs gets all arguments in order and no parameter stays at its default. What it raises becomes a marker if one is wanted, except SerializationError and what is not an Exception, and a method that did not run is always reported.", "quantifier": "all signatures (positional parameters with or without defaults, *args, keyword-only parameters, **kwargs), all lists of arguments, all contexts, all bodies, with and without markers", "why_tests_cant": "The tests use two or three signatures; the claim is about all of them and about all ways a body can end.", "anchors": ["dman/core/serializables.py:_call_optional_context", "dman/core/serializables.py:BaseContext.serialize_object", "dman/core/serializables.py:BaseContext.deserialize_object", "dman/core/storables.py:write", "dman/core/storables.py:read"]}
{"id": "C100", "title": "Typed arrays: one class per expression, and what fields annotated with them hold", "statement": "In any program, `sarray[int]` and the like give the same class exactly if the expressions are the same, and every class has the preset that converts to it. A field of a modelclass annotated with such a class reads any array assigned to it as an array of that class and entry type, of the same shape, with the entries converted; other values stay as they are. For sarray and carray that is still so after saving and loading, also for empty arrays; a number without dimensions goes through a float on the way. A barray field keeps entry type, shape and entries but comes back as plain barray, without the subscripts.", "quantifier": "all programs of class expressions, all annotations, all arrays of any shape, all conversions of numbers", "why_tests_cant": "all shapes and entry types, and all orders in which classes are made", "anchors": ["dman/numeric.py:_typed_array.__getitem__", "dman/numeric.py:barray", "dman/numeric.py:sarray", "dman/model/modelclasses.py:SerializeWrap", "dman/model/modelclasses.py:RecordWrap.__set__", "dman/model/modelclasses.py:register_preset"]}
{"id": "C101", "title": "log.config: which handlers the logger has, and what a refused call leaves", "statement": "With handlers attached and without force only the level is set and the other arguments are not even checked. Otherwise the call fails exactly for stream and filename together, for either of them with handlers, or for a file that cannot be opened; after a failed forced call the logger has no handlers, those it had are closed and the level is unchanged. A call that succeeds without handlers gives exactly one new handler, to the named file or else the stream, in the format asked for; one with handlers attaches exactly these, each once: a formatter that is there is kept whatever the format, and a handler that was attached before a forced call is attached again but closed. A message always has a handler to go to. In every program attached handlers have a formatter, and handlers made by the library are attached or closed.", "quantifier": "all states of the logger, all arguments, all programs of config calls, messages and new handlers", "why_tests_cant": "all histories of calls, failing or not", "anchors": ["dman/core/log.py:config", "dman/core/log.py:default_config", "dman/core/log.py:default_handler"]}
{"id": "C102", "title": "Layout of messages in layers", "statement": "In a layer, a format with one %(indent)s gives: what is before it, then the first line of the message behind the indentation, and every further line (also of an exception) starting below it; lines of white space are left alone and nothing but spaces is added, whatever characters end the lines. Outside layers, or with no or several %(indent)s, it is what the standard formatter gives. A format that works outside layers raises ValueError in them exactly if the part before or after its %(indent)s is text without fields. With INFO shown the indentation is two spaces per layer and one more; otherwise there is none and the label names the owners of the layers, with dots, leaving out those that are None.", "quantifier": "all formats of literals and fields, all messages, labels, exceptions and stacks of layers", "why_tests_cant": "all texts and all formats", "anchors": ["dman/core/log.py:IndentedFormatter.format", "dman/core/log.py:IndentedFormatter._format_inner", "dman/core/log.py:Logger.pack", "dman/core/log.py:Logger.format_stack"]}
{"id": "C103", "title": "Progress bars pass on what they iterate over", "statement": "tui.progress passes on the elements of the iterable, in order and each once: all of them, ending as the iterable ends, or an exception comes out. The length of the bar is the total that was given or the length of the iterable if that is not 0 and the state is shown; otherwise it is 100, also if a total was given. Without the state the text is the description whatever is in it; with the state a description without braces is followed by the numbers of the step and of all steps. With the state nothing is passed on exactly if the description has an unpaired brace or a field that has no text.", "quantifier": "all iterables, descriptions, totals and settings of show_state", "why_tests_cant": "all iterables and all descriptions", "anchors": ["dman/tui.py:progress"]}
{"id": "C104", "title": "Labels of logarithmic axes in SVG figures", "statement": "SVGLogFormatter labels 0 with 0, a power of the base with base and exponent (with the number itself if the exponent is below axes.formatter.min_exponent) and gives no label to ticks that are to have none. Every other tick that is to have a label raises TypeError, unless its logarithm is below min_exponent; with the default of 0 no number but 0 and the powers of the base ever has a label.", "quantifier": "all numbers, bases, sets of digits with labels and limits of the exponent", "why_tests_cant": "all numbers", "anchors": ["dman/plotting.py:SVGLogFormatter.__call__", "dman/plotting.py:SVGLogFormatter._non_decade_format"]}
{"id": "C105", "title": "Paths in messages", "statement": "normalize_path never fails. For a place inside the project it shows a relative path without '..' that leads there from the directory of the project (read from the working directory it does so only if that is the directory of the project); outside, and without a project, it shows the path as it was given. Different places are never shown alike.", "quantifier": "all file systems, working directories and paths", "why_tests_cant": "all paths and directories", "anchors": ["dman/core/path.py:normalize_path"]}
{"id": "C106", "title": "Files opened through a mount or context", "statement": "Mount.open registers the name also for reading. With on_retouch 'quit' a path is opened once: every later call raises UserQuitException and changes nothing. With 'auto' what was written is never read back: the later call opens a file that the mount has not handed out before, which may be an unrelated one, or raises. With 'ignore' the text is read back. A missing file raises FileNotFoundError when opened for reading, but its name stays registered and its directory is made. A block that raises leaves the file open, with what was flushed of its text. Only files inside the mount are written.", "quantifier": "all mounts with any history of unattended calls, all paths, texts and file systems", "why_tests_cant": "all histories and paths", "anchors": ["dman/core/path.py:Mount.open", "dman/model/record.py:Context.open"]}
{"id": "C107", "title": "A storable whose data cannot be written destroys the file that was there", "statement": "The write methods that @storable adds open the file before they make the data. If making the data raises, or a dict in it has a key that json refuses (such as a tuple), then the contents the file had are gone: it is empty or ends with an open bracket, so it is the JSON text of no value; all other files are as before. Writing fails in exactly these cases; otherwise the file holds the text of the data, with all brackets and quotation marks closed.", "quantifier": "all values, files and file systems", "why_tests_cant": "all values of any depth", "anchors": ["dman/core/storables.py:_write__dataclass", "dman/core/storables.py:_write__serializable", "dman/utils/sjson.py:dump"]}
{"id": "C108", "title": "Processes that save at the same time lose each other's .gitignore lines", "statement": "gitignore reads the file, then opens it for writing (which empties it), then writes. One after the other, processes lose no line. But a process that has read the file overwrites whatever others write before it writes; one that reads while another has the file open for writing keeps only its own entries, so that even lines that were there before anyone began are gone; and if two have it open at once, the text of the second is written over the start of that of the first, so that a line nobody asked for can appear. If no two have it open for writing at once, then whatever the order of the steps no such line appears.", "quantifier": "all numbers of processes, schedules, entries and contents of the file", "why_tests_cant": "all interleavings of any number of processes", "anchors": ["dman/core/path.py:gitignore", "dman/core/path.py:Mount.close"]}
{"id": "C109", "title": "Processes that append to the same runs at the same time overwrite each other's runs", "statement": "Several processes each load the same mruns, append values and save. One after the other, the runs of all of them are there with their values, in order. If others save between the load and the save of a process, then the one that writes the file of the key last decides which runs are listed: those it had loaded and its own. Two that loaded the same runs give their runs the same file names: if one saves after the other, the runs of the first are not listed and their files are overwritten as far as the second has runs, the rest is left behind; if the second saves just before the first writes the file of the key, the list of the first shows the values of the second. Whatever the order, the runs that were there stay listed with their values, and no run is listed that has no file.", "quantifier": "all numbers of processes, values and schedules", "why_tests_cant": "all interleavings of any number of processes", "anchors": ["dman/model/modelclasses.py:_bruns.__make_record__", "dman/model/modelclasses.py:_bruns.__serialize__", "dman/model/repository.py:save", "dman/model/repository.py:load"]}
{"id": "C110", "title": "What git makes of the .gitignore that dman writes", "statement": "dman writes file names into .gitignore as they are, but git reads them as patterns. The line of a file (whose name has no star) makes git ignore that file exactly if the name has no opening bracket and no backslash, does not begin with # or ! and does not end with a space. If all names are ordinary, git ignores exactly: what lies at a name with a slash, and everything that has a name without a slash, also in subdirectories and if dman did not write it. After gitignore, every file with an ordinary name that was to be ignored is ignored by git, unless a line begins with !.", "quantifier": "all names, paths, directory trees and previous contents of the file", "why_tests_cant": "all names and trees; the tests only look at the lines of the file", "anchors": ["dman/core/path.py:gitignore", "dman/core/path.py:Mount.close"]}
{"id": "C111", "title": "The LaTeX text of an SVG figure is that of Inkscape with a font at the start of every text", "statement": "SVGFigure._generate_tex keeps the lines up to the first one that mentions makeatletter; keeps the lines between it and the first one that mentions makeatother but for their indentation, followed by three lines that set \\svgfont; and in the other lines changes nothing but that \\svgfont{} is put after places where a text starts, namely after each one if the texts in the line are closed. If makeatother is mentioned first, the lines from there up to makeatletter are there twice. It fails exactly if Inkscape wrote no file or one of the two words is not mentioned.", "quantifier": "all contents of the file Inkscape wrote", "why_tests_cant": "all texts; Inkscape is not part of the tests", "anchors": ["dman/plotting.py:SVGFigure._generate_tex"]}
{"id": "C112", "title": "Removing empty directories never costs another process a file, but may take a directory it has just prepared", "statement": "When a context closes, empty directories are removed one call of the operating system after the other, while other processes may do anything in between. Alone, the calls come to exactly the removal of all directories without files and none fails. The same holds if the others work outside the directory. With others at work, a file that the others leave alone is as it was, no file appears, and a file that another process writes at any moment beside an existing one is there in the end. A directory that another process has prepared for a file and not yet used is taken away exactly if it is below the directory of the closing context and held no file; then writing the file fails with FileNotFoundError. If somebody writes into an empty directory between listing and removal, the file stays and closing fails with OSError; other failures than those of the operating system do not occur.", "quantifier": "all trees, all directories, all actions of other processes at every point between two calls", "why_tests_cant": "all interleavings with arbitrary actions of other processes", "anchors": ["dman/core/path.py:prune_directories", "dman/core/path.py:Mount.close", "dman/core/path.py:Mount.prepare"]}
{"id": "C113", "title": "A configclass derived from a configclass gets no settings of its own", "statement": "In a line of classes, each derived from the one before, the settings of every class after the first decorated one are exactly those the first decorated one declares, with the defaults that held there. Settings declared later are plain attributes: any value can be assigned to them and the constructor refuses them. Another default in a later class has no effect on new instances. Assigning a value of the wrong type to a setting raises ValueError exactly unless a class after the last decorated one gives the setting another default, which switches its check off. The first decoration is refused with TypeError for a setting without default after one with a default, else with ValueError exactly for a type that is not allowed or a missing default, as the decorator says; later decorations by the settings of the first.", "quantifier": "all lines of classes, decorated or not, all types, defaults, arguments and assignments", "why_tests_cant": "all class hierarchies; the tests have no derived configclass", "anchors": ["dman/utils/smartdataclasses.py:configclass", "dman/utils/smartdataclasses.py:wrappedclass", "dman/utils/smartdataclasses.py:OptionField"]}
{"id": "C114", "title": "The log level only hides messages, except that debug raises; logger_context(0) is logger_context(False)", "statement": "A message is handed to the handlers exactly if its level is not below the level of the logger (for NOTSET that of the root logger). A program that does not touch levels does the same at every level, and at a higher level shows exactly those messages that have at least this level, in the same order and layers. The exception is debug: it raises TypeError exactly if debug messages are to be shown, and no program ever shows one. In logger_context(level) the level is INFO for True and 1, WARNING for False and 0 (so never NOTSET), else the number itself; without an error the old level is back afterwards.", "quantifier": "all programs of messages, errors, handlers of errors, layers and level changes; all levels", "why_tests_cant": "all programs and pairs of levels", "anchors": ["dman/core/log.py:Logger.info", "dman/core/log.py:Logger.debug", "dman/core/log.py:Logger.layer", "dman/core/log.py:logger_context"]}
{"id": "C115", "title": "Which handlers of the logger show the traceback of a message depends on their order", "statement": "With several handlers (console and file), a message with a live exception shows it exactly once in every handler whose level admits the message. A recorded trace is shown formatted by a rich handler before which no DManHandler without rich tracebacks got the message, and else as text, unless the first DManHandler that got the message before was a rich one: then it is lost, so a log file listed after the console lacks the traceback. All handlers show it if the files are listed before the rich consoles. Handlers that do not get the message change nothing.", "quantifier": "all lists of handlers and their levels, all levels of messages", "why_tests_cant": "all orders and combinations of handlers", "anchors": ["dman/core/log.py:DManHandler.emit", "dman/core/log.py:DManHandler.render", "dman/core/log.py:Logger.pack", "dman/core/log.py:Logger.makeRecord"]}
