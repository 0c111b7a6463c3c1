# Formal model of dman — design

`/repo` (PeterCoppens/dman, Python) is modelled in Rocq/Coq 8.16.1 under `rocq/theories` and the
properties of `properties.jsonl` are proved about the model. Nothing in `/repo` is run or changed.

## Layout

| files | contents |
|---|---|
| `*Model.v` | the model: total Gallina functions mirroring the Python functions branch by branch; every definition cites the lines it models |
| `*Spec.v` | small, independent specifications (what a user would say), not using model helpers |
| `*Proof.v` | lemmas |
| `Props*.v` | one theorem per claim (`Theorem ... exact lemma.`), a concrete `Example` meeting its hypotheses, `Print Assumptions` |

## Modelling conventions

* Python exceptions are values (`Exn e`); where effects before the exception matter the final state is returned with it.
* Python strings are lists of 8-bit characters (Latin-1 code points); code points above U+00FF are not modelled.
* Python objects with identity are modelled by value; a function that mutates an object returns the new
  value. Sharing of one mutable object between two places is not modelled, except where a property is about sharing
  (C44, C28), which then have an explicit heap.
* Unbounded Python recursion is modelled by fuel with an explicit out-of-fuel result; theorems
  exclude that result explicitly or prove it impossible.
* User-supplied code (`__serialize__`, `__write__`, ...) is a function parameter of the model which may return or raise;
  what it is assumed to satisfy is written as a hypothesis in the theorem.
* `hash(x) == hash(y)` (Target equality) is modelled as `x = y` for the hashed keys.
* File system: a tree of directories and files; paths are resolved lexically; no symbolic links,
  permissions, concurrent processes, or disk-full errors.
* The JSON text codec of the standard library is modelled as a tree transformation (keys become strings, later duplicates win,
  tuples become lists), not character by character.

## Per property plan

| id | modelled | how proved |
|---|---|---|
| C01-C05 | posixpath functions, Mount.contains/abspath/normalize/prepare/remove/untrack, file system tree | component-list specification of locations; lexical normalisation lemmas |
| C06-C11 | Mount.default/register, the regex substitution, prompt dialogue as list of inputs | pigeonhole on candidate names; induction on request/input lists; the name chosen against an independent account of the numbers in a name (PropsNames) |
| C12-C14 | Target | algebra on strings |
| C15-C16 | prune_directories, gitignore | induction on trees; set-level spec |
| C17-C19 | get_root_path, mount, script_label | induction on ancestors; string injectivity |
| C20-C29, C61-C62 | BaseContext (no files), the type registry, dataclass/Enum/user methods, markers, JSON as tree transformation; user methods are oracles that neither depend on validate nor call serialize | nested induction over values; structural recursion, contexts with a hole for containment |
| C30-C36 | Record, Context on the file system (`StoreModel.v`): target resolution, lazy loading, moving, write/read failures, preload | state monad with exceptions; frame lemmas (`StoreFrame.v`), what one `prepare`/`write`/`read` does (`StorePlace.v`, `StoreRecord.v`); contents are classes with their own write/read methods, nested contents are C45 |
| C37-C39, C42, C63 | the list and dict methods of mlist, mdict and mruns (`ContainerModel.v`) | refinement to inductively specified Python lists and dicts, by induction over operation sequences |
| C40-C41 | saving a model with pending deletions (`unused`) in its containers and fields (`KeepSpec.v`: `deleted`, `discarded`) | what the removals of one serialization do to the files (`DropProof.v`, `DropSettled.v`) carried through the induction of C64 with a condition on the pending lists as parameter (`KeepProof.v`, `KeepSave.v`, `PropsDelete.v`) |
| C43, C45 | serialization, files and deserialization of models built in memory, seen through a program that accesses everything (`RoundSpec.v`) | one induction on the depth for all kinds of objects: what serialization adds to the files (and never overwrites) is enough for loading (`RoundProof.v`); then save, closing, and load (`PropsRound.v`) |
| C67 | `_blist.__setitem__`, `_bdict.__setitem__` followed by a save (`ContainerModel.v`, `StoreModel.v`) | the assignment leaves exactly the old content pending; C40's account of the removals (`settled_save`) gives the files, an argument on the longest path that one is left (`PropsReplace.v`) |
| C68 | `RecordWrap`, `SerializeWrap` (`FieldModel.v`) | refinement to an inductive specification of attributes, by induction over operation sequences (`PropsField.v`) |
| C69 | `RecordWrap.__set__` followed by saves (`FieldModel.v`, `StoreModel.v`) | C66's induction with the lists of deleted items followed (`SameProof.v`), removal leaves items at rest as they were; C40 for each later save (`PropsStale.v`) |
| C70 | `ContainerModel.v`, `FieldModel.v` followed by a save | induction over operation sequences: targets of records are in the container or put aside; C40 for the save (`PropsDropped.v`) |
| C71 | removal of records that were never accessed and cannot be read (`StoreModel.v`) | reading fails without touching files, so does removal; the log of the save has no removals (`PropsOrphan.v`) |
| C72 | Files are counted, not only looked up: every list and dict operation keeps the number of times each complete target occurs in items plus put-aside records | `PropsExact.v`: `even_` is kept by each operation (`op_even`, `mop_even`), lifted to sequences by induction and turned into a `Permutation`; disjointness follows with `NoDup`. Fields of modelclasses are left out: a class may give a record field a fixed complete target, so assigning a storable over `None` can name a file again that is also put aside (the save removes first and writes afterwards) |
| C73 | `mdict.record` (`ContainerModel.v: map_record`) followed by a save | the run of `map_record` is computed symbolically; the save by `settled_save` of C40; induction over the recordings (`PropsRelocate.v`) |
| C74 | dict and list operations (`ContainerModel.v`), `map_make_record`, `seq_make_record` (`StoreModel.v`) | the two runs are equal up to the option, by induction over the operations; an invariant on the sub directory of the records (`PropsSubdir.v`) |
| C75 | `save`, `ser_list`, `ser_dict`, `ser_plain_item`, `fresh_record` (`StoreModel.v`) | induction over the nesting with an invariant on the paths handed out so far and the uuids drawn, then induction over the saves (`PropsPile.v`) |
| C76 | programs as trees of operations; the methods inherited from `collections.abc` as such programs (`MixinModel.v`) | induction over the program with the single steps of C37 and C38; the methods by loop invariants over Python lists and dicts (`PropsMixin.v`) |
| C77 | as C76, for dicts; `popitem` and `in` of `MutableMapping` (`MixinModel.v`) | as C76; the membership test by computing both runs (`PropsMixin.v`) |
| C78 | `save`, the serializers, `ctx_write`, `m_prepare` (`StoreModel.v`); `boxed` (`AgainSpec.v`) | induction over the recursion depth: the first run gives the part of the files that a second run writes again, for any world in which these paths are free (`AgainProof.v`); then the two saves around it, and induction over the number of saves (`PropsAgain.v`) |
| C79 | `load`, `save`, the serializers and deserializers, `ctx_write`, `ctx_read` (`StoreModel.v`); `later_run`, `visits` (`AgainSpec.v`) | induction over the recursion depth of the first save: what it writes can be loaded, and serializing what is loaded gives the same JSON, claims exactly the same files and changes none (`ReloadProof.v`); then the load and the save around it, and induction over the visits (`PropsReload.v`) |
| C80 | `asdict`, `sjson.dump`, `_write__dataclass`, `_read__dataclass` (`DataModel.v`); `flattened` (`DataSpec.v`) | induction over the values (`PropsData.v`) |
| C81 | `_default__convert`, `_serialize__template`, `_deserialize__template` (`DataModel.v`) as the methods of a class in `SerialModel.v`; `templated`, `dicts` (`DataSpec.v`) | C21 for the content of the template, the two conversions by induction over the values (`PropsData.v`) |
| C82 | all of `StoreModel.v`; histories and the dictionary they should leave in `DictSpec.v` | induction over the history with an invariant: an absent key has no json file; for each key that holds a model its json file exists, it is listed in the .gitignore, and any run that finds these files loads the model (`files_kept_listed` in `KeepSave.v`); every call under another key keeps the files of the key and its line (`DictProof.v`), `PropsDict.v` |
| C83 | `de_rec` without context, `rec_store`, `ctx_write`, `write_storable` of an undefined content (`StoreModel.v`) | forward evaluation of the save (`ctx_write_fwd`): the path is prepared, the write raises before opening a file, the name given is the name asked for because nothing else claimed it; then both forms are evaluated with an arbitrary later context (`PropsDetached.v`) |
| C84 | `store` (`StoreModel.v`) | evaluation of the call on a fresh mount: the name asked for is given (`gave`), C31's account of what a leaf record writes and how it is read back, closing touches the .gitignore only; the failing load is a computed witness (`PropsStoreKey.v`) |
| C85 | the failures carried by a record: `exc_pser`, `de_rec`, `rec_isvalid`, `rec_store` (`StoreModel.v`) | evaluation of the calls on an arbitrary state; the effect of the attempt to read on the mount from `gave` (`PropsFailure.v`) |
| C86 | StoreModel (deserialize, content_of, load), PathModel (register, prepare, close), the walk [view] of RoundSpec | one relation between states preserved by all reading operations (frame of StoreFrame, over the recursion depth); the .gitignore exception by case analysis of close, shown to be needed by a computed load; the directories left behind from the exact effect of prepare |
| C87 | PlotModel (PdfFigure, TexFigure: read, write; shutil.copyfile), matplotlib and tikzplotlib as arbitrary functions | exact effect of one write on the files, induction over the places a figure is moved through |
| C88 | PlotModel (Figure, t_Figure, PklFigure: conversion and write methods; pickling taken as faithful) | induction over the cycles; a size measure separates the nested lists |
| C89 | RegistryModel (serializable, storable, modelclass: registries, attributes through the mro, methods put in, ValueErrors) | induction over the decorations from the right; frame lemmas for attributes; methods never replaced by an invariant over the mro |
| C90 | WrapModel (fields as shared objects with metadata, conversion loop of _process__modelclass, wrappedclass, attribute lookup through the parents) | refinement: an invariant relates the metadata of the shared field objects to the declaration found by looking upwards; induction over the class definitions |
| C91 | WalkModel (walk_directory, walk_file: sorting, hidden entries, extensions, binary test, failures), decoding and JSON validity arbitrary | induction over the path to an entry both ways; stable insertion sort correct; nested induction over trees for failures |
| C92 | AliasModel: alias registration, isinstance check, serialization of lists and dicts with object keys, json default by exact type | independent inductive relation for what is written; nested induction both ways; failure characterised by an inductive predicate |
| C93 | ChainModel: the loop of Trace.from_exception with fuel over an arbitrary heap of exceptions, Stack.format, Trace.format | chains and cycles defined independently; pigeonhole on the exceptions reached; refuted reading of the sentence with a witness |
| C94 | CheckModel: is_deserializable over SerialModel's serialized data | characterised by first entries and known names stated separately; against ser and deser by cases and list induction |
| C95 | StemModel: targets over AUTO, None and strings, _bruns.__make_record__, Record.target, the error path of Context.write | inductive account of what is kept or lost; induction on the items |
| C96 | EqModel: the generated __eq__ over slots that are in memory or in unread files, identities of values | the readings as a relation between slots and values; induction on the fields |
| C97 | SvgModel: SVGFigure.__write__ over settings, tickers shared by axes and formatters, savefig and the LaTeX step opaque | induction on the visited tickers with counting; cases on success |
| C98 | AttrModel: attributes, the table of records and the heap of records of an instance, class defaults, get_record and set_record | invariant between history and state (which record is where, no sharing), induction on the program; justifies the one table of FieldModel |
| C99 | `CallModel.v`: signatures, Python's binding of positional arguments, and `_call_optional_context` | Induction over the parameters for what is bound; `C99_run_iff` gives the signatures that run as arithmetic on the numbers of parameters |
| C100 | `TypedModel.v`: the cache of typed classes, presets, fields annotated with them, and the files for them (on top of `ArrayModel.v`) | invariant of the cache (classes and expressions correspond one to one); the round trip from C57 |
| C101 | `HandlerModel.v`: handlers as objects with format and state, `log.config`, `default_config` and the first message | case analysis of `config` with lemmas on the loops over handlers; an invariant over programs |
| C102 | `FormatModel.v`: `Logger.pack`, `IndentedFormatter.format`, `textwrap.indent`, splitting of lines and formats | induction over texts and formats; the layout is stated for a message given as its lines |
| C103 | `ProgressModel.v`: `tui.progress` with Python's `str.format` | induction over the elements and over the description; formats are specified by a relation |
| C104 | `TickModel.v`: `SVGLogFormatter` over rationals, logarithm and printing as parameters | case analysis with the nearest integer proved unique |
| C105 | `ShowModel.v`: `normalize_path` over `get_root_path` of `PathModel.v` | the project is specified as the nearest directory with .dman (C17); clean components are walked straight down |
| C106 | `OpenModel.v`: `Mount.open` over `prepare` of `PathModel.v` | the invariant of reachable mounts (`HistoryProof.v`) and the laws of the file system |
| C107 | `DumpModel.v`: the two write methods over Python's `json.dump` with an indent, written piece by piece | induction over values; a reader that counts brackets outside quotation marks is the specification |
| C108 | `RaceModel.v`: `gitignore` in three steps (read, open for writing, write), run by any number of processes under a schedule; linked to `PathModel.gitignore` when not interrupted | invariant over all schedules; the last two steps of a process fix the file whatever the others did |
| C109 | `SessionModel.v`: load, one write for every new record, one write of the file of the key, run by any number of processes under a schedule | invariant over all schedules; closed forms of what a process writes |
| C110 | `GitModel.v`: how git reads a `.gitignore` (lines, trailing spaces, negation, wildcards, anchoring, last line decides), applied to what `PathModel.gitignore` writes | lengths of what a pattern without star can match; induction over lines and over the components of a path |
| C111 | `TexModel.v`: the search for the two lines, `dedent`, `indent`, the regular expression with its replacement | induction over lines and texts; a relation between lines is the specification |
| C112 | `PruneModel.v`: `prune_directories` as a sequence of calls (`exists`, `isdir`, `listdir`, `rmdir`), an arbitrary action of others before each | the calls refine `PathModel.prune_directories`; an invariant rule for all interleavings; a simulation by the run without others if they work outside the directory |
| C113 | `DeriveModel.v`: class statements, `dataclass`, `is_dataclass` (inherited), `configclass`, `OptionField`, constructor | induction over the line of classes from the end; relations for the latest default and the switched off check are the specification |
| C114 | `LevelModel.v`: the methods of `Logger` by level, layers, `logger_context`, `isEnabledFor` | a relation between the runs at two levels, by induction on programs; invariant for debug |
| C115 | `TraceLogModel.v`: the record that all handlers share and change (`makeRecord`, `DManHandler.emit` and `render`, `Formatter.format`, `callHandlers`) | the state of the record after any list of handlers, by induction |
| C64 | the same for models that were loaded and changed (`KeepSpec.v`): contents in memory, or records that wait in files | reading is a function of the files read (`ReplayProof.v`), so a later run repeats the access on the saved files; induction as for C45 with waiting records (`KeepProof.v`, `PropsKeep.v`) |
| C66 | the object that `save` and `Track.save` leave in memory (`SameSpec.v`: `same_object`) | induction over the nesting as for C64 (`SameProof.v`); mounts of earlier contexts only see further unattended calls, so that waiting records stay readable (`ContextProof.v`); `PropsSame.v` |
| C44 | CompactModel.v: `__record__` on instance and class, `RecordWrap.__set__`, constructor, content-only (de)serialization, on a heap | invariants over programs of constructions, assignments and loads |
| C46-C48 | collisions under 'ignore', keys with a slash, defaults (`PropsRepo.v`) | inversion of a successful save (`StoreSave.v`), the record lemmas applied twice |
| C49-C50 | save/load over the store model, event trace for crash points | invariants over the event trace, fuel-indexed induction; what a later run sees depends only on the files written by the first save, those its records wait in, and the .gitignore around the key (`files_round_trip`, `files_kept`), so that an interrupted save that left these alone is not seen (`PropsCrash.v`) |
| C51 | save, then `clean` in a later run (`CleanSpec.v`) | second induction over serialization: each file it writes belongs to exactly one place of the object, loading gives an object whose removal deletes exactly these files (`CleanProof.v`, `PropsClean.v`); what a removal takes off the list of its mount no longer exists (`depth_taken`), so the .gitignore keeps the key until `clean` unlists it |
| C52, C65 | class `Track` and the `with` statement around it (`TrackModel.v`); the block is an arbitrary function on the object it got | the statement unfolds to load, block, save; C64 for what a later run sees |
| C53 | `repository.uninterrupted` with nested blocks and a schedule of interrupts (`InterruptModel.v`) | induction on nested blocks |
| C54 | the log layer stack and level contexts (`LogModel.v`) | induction on nested uses |
| C55 | FileTarget over a map of files (`StreamModel.v`) | induction on operation lists |
| C56, C60 | OptionField, configclass, override with object identities (`ConfigModel.v`) | invariant over assignments; induction on the path to a setting and on configuration trees |
| C57 | sarray/carray/ndarray text form; floats are an arbitrary type (`ArrayModel.v`) | induction on the shape |
| C58 | Frame and Stack text, hand-written matchers for the two patterns (`FrameModel.v`) | longest-match lemma |
| C59 | StackGenerator/StackLayer over programs of nested loops, interruption at any action (`LoopModel.v`) | induction on programs, state of the open loops as a path |

Properties found false of the faithful model are recorded as `..._refuted` theorems with a
concrete witness, next to the strongest true variant (`..._partial` where the full statement fails).

## What of the code is modelled

* `dman/core/path.py`: Target, Mount, gitignore, prune, mount/root/script functions (`PathModel.v`, `PosixModel.v`, `FsModel.v`).
* `dman/core/serializables.py` without files (`SerialModel.v`) and, for records and contexts, again in `StoreModel.v`; storable dataclasses and templates: `DataModel.v`.
* `dman/core/storables.py` write/read, `dman/model/record.py` (Record, Context, removal), `dman/model/modelclasses.py` (modelclass
  fields, mlist, mdict, mruns and their storable variants: serialization, deserialization, removal), `dman/model/repository.py`
  (context, save, load, store, clean): `StoreModel.v`; `Track`: `TrackModel.v`. One file operation is one step of a log; a limit on the log models
  a crash at any point. `ContainerModel.v`: their list and dict methods; `FieldModel.v`: reading and assigning fields.
* Single models for `repository.uninterrupted`, the log layers, FileTarget, OptionField/configclass/override, the numpy array classes,
  Frame/Stack, StackGenerator, the figures of plotting.py, the registries and decorators (`RegistryModel.v`), the fields of
  modelclasses through inheritance (`WrapModel.v`), `==` of their instances (`EqModel.v`), `tui.walk_directory` (`WalkModel.v`),
  the atomic aliases of sjson (`AliasModel.v`), `Trace.from_exception` and `Trace.format` (`ChainModel.v`), `is_deserializable`
  (`CheckModel.v`), runs without a stem (`StemModel.v`), `SVGFigure.__write__` (`SvgModel.v`), where fields are kept
  (`AttrModel.v`), how methods of the user are called (`CallModel.v`),
  typed arrays (`TypedModel.v`), `log.config` (`HandlerModel.v`),
  layout of log messages (`FormatModel.v`), progress bars (`ProgressModel.v`), labels of logarithmic axes (`TickModel.v`),
  `normalize_path` (`ShowModel.v`), `Mount.open` (`OpenModel.v`), the JSON text written for storables (`DumpModel.v`), `gitignore` run by several processes (`RaceModel.v`), runs saved by several processes (`SessionModel.v`), how git reads what `gitignore` writes (`GitModel.v`, not code of the repository), the LaTeX text of figures (`TexModel.v`), the removal of directories call by call (`PruneModel.v`), derived configuration classes (`DeriveModel.v`), which messages are shown (`LevelModel.v`), tracebacks with several handlers (`TraceLogModel.v`; `RichHandler.emit` of the library `rich` is assumed there, its source was not available): see the table.
* Not modelled: texts and tracebacks inside markers, which messages dman itself logs, presets (except in `WrapModel.v` and `TypedModel.v`), `git` hashes, concurrent processes (except in `RaceModel.v`, `SessionModel.v` and `PruneModel.v`), user
  methods that themselves use the context they are given, a `__write__` that returns a value.

## Trusted base

* Coq's kernel (8.16.1) and what `Print Assumptions` lists after each theorem in `Props*.v`.
* The faithfulness of the model to the Python source, definition by definition, as cited in comments.
* The modelled behaviour of the Python standard library: `posixpath`, `re` (for the one pattern `[0-9]+\b` and the
  traceback patterns), `json`, `dataclasses`, `os` file operations.
* How git reads a `.gitignore` (`GitModel.v`, from gitignore(5)), and for C108 and C109 that files are read and written in the steps
  that `RaceModel.v` and `SessionModel.v` name.

Standard-library axioms used: none so far.
