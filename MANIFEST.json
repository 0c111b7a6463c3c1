{
 "claims": [
  {
   "property": "C01",
   "status": "proved",
   "theorems": [
    "C01_prepare_stays_inside",
    "C01_prepare_frame"
   ],
   "note": ""
  },
  {
   "property": "C02",
   "status": "proved",
   "theorems": [
    "C02_accepts_exactly_inside",
    "C02_keeps_location",
    "C02_dotdot_directory_rejects_all"
   ],
   "note": ""
  },
  {
   "property": "C03",
   "status": "proved",
   "theorems": [
    "C03_rejection_has_no_effect"
   ],
   "note": ""
  },
  {
   "property": "C04",
   "status": "proved",
   "theorems": [
    "C04_remove_stays_inside",
    "C04_remove_rejects_outside"
   ],
   "note": "Mount.remove; Context.remove delegates to it and is covered with the store model."
  },
  {
   "property": "C05",
   "status": "proved",
   "theorems": [
    "C05_relative_mount_prepares_nothing",
    "C05_relative_mount_removes_anything"
   ],
   "note": ""
  },
  {
   "property": "C06",
   "status": "proved",
   "theorems": [
    "C06_numbers_of_a_name",
    "C06_auto_name",
    "C06_auto_is_fresh"
   ],
   "note": ""
  },
  {
   "property": "C07",
   "status": "proved",
   "theorems": [
    "C07_quit",
    "C07_quit_no_effect"
   ],
   "note": ""
  },
  {
   "property": "C08",
   "status": "proved",
   "theorems": [
    "C08_ignore_never_renames"
   ],
   "note": ""
  },
  {
   "property": "C09",
   "status": "proved",
   "theorems": [
    "C09_prompt_outcomes",
    "C09_prompt_stays_inside_refuted",
    "C09_typed_name_is_lowered"
   ],
   "note": "C09_prompt_stays_inside_refuted is the witness for the second sentence of the property (a custom name can leave the mount)."
  },
  {
   "property": "C10",
   "status": "proved",
   "theorems": [
    "C10_targets_distinct"
   ],
   "note": ""
  },
  {
   "property": "C11",
   "status": "proved",
   "theorems": [
    "C11_removed_is_recorded",
    "C11_untracked_is_available"
   ],
   "note": ""
  },
  {
   "property": "C12",
   "status": "proved",
   "theorems": [
    "C12_normalize_canonical"
   ],
   "note": ""
  },
  {
   "property": "C13",
   "status": "proved",
   "theorems": [
    "C13_merge_last_wins",
    "C13_merge_associative",
    "C13_update_name"
   ],
   "note": ""
  },
  {
   "property": "C14",
   "status": "proved",
   "theorems": [
    "C14_path_round_trip",
    "C14_fspath_raises_iff_incomplete"
   ],
   "note": ""
  },
  {
   "property": "C15",
   "status": "proved",
   "theorems": [
    "C15_prune_keeps_files",
    "C15_prune_exact",
    "C15_close_keeps_files"
   ],
   "note": ""
  },
  {
   "property": "C16",
   "status": "proved",
   "theorems": [
    "C16_close",
    "C16_gitignore_lines",
    "C16_gitignore_idempotent",
    "C16_lines_of_text"
   ],
   "note": "Entries are assumed to contain no line breaks; if only .gitignore would remain and the file is absent the code raises FileNotFoundError, so the theorems are about successful runs."
  },
  {
   "property": "C17",
   "status": "proved",
   "theorems": [
    "C17_root_is_nearest",
    "C17_root_error",
    "C17_filesystem_root_is_skipped"
   ],
   "note": ""
  },
  {
   "property": "C18",
   "status": "proved",
   "theorems": [
    "C18_mount_directory",
    "C18_keys_isolated"
   ],
   "note": ""
  },
  {
   "property": "C19",
   "status": "proved",
   "theorems": [
    "C19_stem",
    "C19_script_label",
    "C19_label_injective",
    "C19_label_outside",
    "C19_label_injective_refuted"
   ],
   "note": "C19_label_injective_refuted is the witness for 'not injective in general'."
  },
  {
   "property": "C20",
   "status": "proved",
   "theorems": [
    "C20_plain_data_round_trip",
    "C20_resave_is_stable"
   ],
   "note": ""
  },
  {
   "property": "C21",
   "status": "proved",
   "theorems": [
    "C21_content_only_round_trip"
   ],
   "note": ""
  },
  {
   "property": "C22",
   "status": "proved",
   "theorems": [
    "C22_serialize_never_raises",
    "C22_marker_instead_of_object",
    "C22_serialize_contained",
    "C22_deserialize_contained",
    "C22_rejected_data_kept",
    "C22_serialization_error_escapes"
   ],
   "note": ""
  },
  {
   "property": "C23",
   "status": "proved",
   "theorems": [
    "C23_serialize_validates",
    "C23_deserialize_validates",
    "C23_validated_result_is_valid",
    "C23_stored_undeserializable_refuted"
   ],
   "note": "C23_stored_undeserializable_refuted is the witness that the restriction on deserialize is needed."
  },
  {
   "property": "C24",
   "status": "proved",
   "theorems": [
    "C24_rejected_data_recoverable",
    "C24_null_content_is_lost",
    "C24_function_registered_is_lost"
   ],
   "note": ""
  },
  {
   "property": "C25",
   "status": "proved",
   "theorems": [
    "C25_naming_the_class_never_read",
    "C25_without_the_class_read",
    "C25_unregistered_type_not_recoverable"
   ],
   "note": ""
  },
  {
   "property": "C26",
   "status": "proved",
   "theorems": [
    "C26_key_text",
    "C26_whole_numbers_stay_apart",
    "C26_which_keys_become_one",
    "C26_dict_round_trip_iff",
    "C26_last_value_wins"
   ],
   "note": "When the reserved key holds the name of a registered type, the class's own __deserialize__ decides; that case is excluded by hypothesis."
  },
  {
   "property": "C27",
   "status": "proved",
   "theorems": [
    "C27_isvalid_decides",
    "C27_isvalid_on_dicts"
   ],
   "note": ""
  },
  {
   "property": "C28",
   "status": "proved",
   "theorems": [
    "C28_instance_identity",
    "C28_name_redirects"
   ],
   "note": "Nesting is covered by C20 (plain data contains registered instances)."
  },
  {
   "property": "C29",
   "status": "proved",
   "theorems": [
    "C29_enum_round_trip",
    "C29_dotted_member_never_returns"
   ],
   "note": ""
  },
  {
   "property": "C30",
   "status": "proved",
   "theorems": [
    "C30_record_target"
   ],
   "note": ""
  },
  {
   "property": "C31",
   "status": "proved",
   "theorems": [
    "C31_record_round_trip"
   ],
   "note": ""
  },
  {
   "property": "C32",
   "status": "proved",
   "theorems": [
    "C32_deserialize_touches_nothing",
    "C32_load_reads_one_file",
    "C32_reserialize_touches_nothing",
    "C32_serialized_targets_proper"
   ],
   "note": ""
  },
  {
   "property": "C33",
   "status": "proved",
   "theorems": [
    "C33_move_copies"
   ],
   "note": ""
  },
  {
   "property": "C34",
   "status": "proved",
   "theorems": [
    "C34_write_failure_contained",
    "C34_next_serialize_writes"
   ],
   "note": ""
  },
  {
   "property": "C35",
   "status": "proved",
   "theorems": [
    "C35_missing_file",
    "C35_read_raises",
    "C35_reported_and_retried"
   ],
   "note": ""
  },
  {
   "property": "C36",
   "status": "proved",
   "theorems": [
    "C36_preload_hides_missing_file"
   ],
   "note": ""
  },
  {
   "property": "C37",
   "status": "proved",
   "theorems": [
    "C37_like_a_list",
    "C37_options_kept"
   ],
   "note": ""
  },
  {
   "property": "C38",
   "status": "proved",
   "theorems": [
    "C38_order",
    "C38_like_a_dict"
   ],
   "note": ""
  },
  {
   "property": "C39",
   "status": "proved",
   "theorems": [
    "C39_never_reused",
    "C39_next_number",
    "C39_counter_saved",
    "C39_clear_restarts"
   ],
   "note": ""
  },
  {
   "property": "C40",
   "status": "proved",
   "theorems": [
    "C40_deleted_files_gone",
    "C40_rest_is_kept",
    "C40_deletes_exactly"
   ],
   "note": "C40_deleted_files_gone allows any pending deletions, C40_rest_is_kept needs that no removal hits what this save wrote, C40_deletes_exactly derives this from a condition on the model (deleted items in memory, or waiting records of storables that are no containers). A deleted record whose content was never loaded and is itself a container is covered by the first two. Keys without a directory of their own are included as long as their .gitignore is not itself one of the files written or read by the model (own_ignore)."
  },
  {
   "property": "C41",
   "status": "proved",
   "theorems": [
    "C41_moved_item_lost"
   ],
   "note": "C41_moved_item_lost: every successful save of such a model loses the file; C41_example shows that a later run cannot read the item. Keys without a directory of their own are included as long as their .gitignore is not itself one of the files written or read by the model (own_ignore)."
  },
  {
   "property": "C42",
   "status": "proved",
   "theorems": [
    "C42_edits_inserted",
    "C42_negative_edits_other",
    "C42_out_of_range"
   ],
   "note": ""
  },
  {
   "property": "C43",
   "status": "proved",
   "theorems": [
    "C43_modelclass_round_trip",
    "C43_none_takes_default"
   ],
   "note": ""
  },
  {
   "property": "C44",
   "status": "proved",
   "theorems": [
    "C44_instances_share_records",
    "C44_last_instance_wins",
    "C44_load_schedules_removal",
    "C44_first_load_misreads",
    "C44_own_values_without_load"
   ],
   "note": ""
  },
  {
   "property": "C45",
   "status": "proved",
   "theorems": [
    "C45_round_trip"
   ],
   "note": "Keys without a directory of their own are included as long as their .gitignore is not itself one of the files written or read by the model (own_ignore)."
  },
  {
   "property": "C46",
   "status": "proved",
   "theorems": [
    "C46_ignore_loses_first"
   ],
   "note": ""
  },
  {
   "property": "C47",
   "status": "proved",
   "theorems": [
    "C47_slash_key"
   ],
   "note": ""
  },
  {
   "property": "C48",
   "status": "proved",
   "theorems": [
    "C48_default_iff_no_file",
    "C48_existing_file_wins"
   ],
   "note": ""
  },
  {
   "property": "C49",
   "status": "proved",
   "theorems": [
    "C49_save_changes_only_its_directory",
    "C49_load_changes_only_its_directory",
    "C49_other_keys_unaffected"
   ],
   "note": ""
  },
  {
   "property": "C50",
   "status": "proved",
   "theorems": [
    "C50_previous_model_loads",
    "C50_previous_loaded_model_loads",
    "C50_untouched_files_intact",
    "C50_store_untouched_files_intact",
    "C50_not_atomic_refuted"
   ],
   "note": "C50_previous_model_loads (models built in memory) and C50_previous_loaded_model_loads (loaded and changed models): fresh targets, nothing cleaned and the json not opened are stated through the operations the interrupted save made. C50_not_atomic_refuted is the witness for the last sentence."
  },
  {
   "property": "C51",
   "status": "proved",
   "theorems": [
    "C51_clean_removes_what_save_wrote",
    "C51_clean_keeps_plain_values",
    "C51_without_gitignore_refuted",
    "C51_clean_knows_no_gitignore_option"
   ],
   "note": "C51_without_gitignore_refuted is the witness for the last sentence. Clean in a run without interruption (s_limit of the later run is None). Dataclasses are not in this model (C20-C29). Keys without a directory of their own are included as long as their .gitignore is not itself one of the files written or read by the model (own_ignore)."
  },
  {
   "property": "C52",
   "status": "proved",
   "theorems": [
    "C52_leaving_saves",
    "C52_failures",
    "C52_save_and_read_back",
    "C52_unload_failures"
   ],
   "note": "Keys without a directory of their own are included as long as their .gitignore is not itself one of the files written or read by the model (own_ignore)."
  },
  {
   "property": "C53",
   "status": "proved",
   "theorems": [
    "C53_block_completes",
    "C53_exception_loses_interrupts",
    "C53_inner_block_interrupts_outer"
   ],
   "note": ""
  },
  {
   "property": "C54",
   "status": "proved",
   "theorems": [
    "C54_stale_entries",
    "C54_level",
    "C54_indentation"
   ],
   "note": ""
  },
  {
   "property": "C55",
   "status": "proved",
   "theorems": [
    "C55_store",
    "C55_append_keeps_everything",
    "C55_mode_w_discards"
   ],
   "note": ""
  },
  {
   "property": "C56",
   "status": "proved",
   "theorems": [
    "C56_types",
    "C56_options_not_checked",
    "C56_descriptor_options",
    "C56_descriptor_accepts"
   ],
   "note": ""
  },
  {
   "property": "C57",
   "status": "proved",
   "theorems": [
    "C57_array_round_trip",
    "C57_empty_array",
    "C57_scalar_array",
    "C57_any_list_of_numbers",
    "C57_any_shape"
   ],
   "note": "Entries are booleans, integers and floats; the JSON text of a single number is assumed faithful."
  },
  {
   "property": "C58",
   "status": "proved",
   "theorems": [
    "C58_frame_round_trip",
    "C58_what_is_read",
    "C58_source_line_in_name",
    "C58_stack_round_trip",
    "C58_bracket_in_message",
    "C58_line_break_fails"
   ],
   "note": ""
  },
  {
   "property": "C59",
   "status": "proved",
   "theorems": [
    "C59_layer",
    "C59_resume_nested",
    "C59_sequential_loops_refuted"
   ],
   "note": "C59_sequential_loops_refuted is the witness for the last sentence."
  },
  {
   "property": "C60",
   "status": "proved",
   "theorems": [
    "C60_override_value",
    "C60_inplace_value",
    "C60_result_is_new",
    "C60_inplace_replaces_nested",
    "C60_types_kept"
   ],
   "note": ""
  },
  {
   "property": "C61",
   "status": "proved",
   "theorems": [
    "C61_non_init_field_never_loads"
   ],
   "note": ""
  },
  {
   "property": "C62",
   "status": "proved",
   "theorems": [
    "C62_subclass_loads_as_parent"
   ],
   "note": ""
  },
  {
   "property": "C63",
   "status": "proved",
   "theorems": [
    "C63_assigned_value_dropped"
   ],
   "note": ""
  },
  {
   "property": "C64",
   "status": "proved",
   "theorems": [
    "C64_saved_again",
    "C64_waiting_overwritten_refuted"
   ],
   "note": "C64_waiting_overwritten_refuted is the witness for the last sentence. Records wait in the sub directory they are saved in again (not moved). Keys without a directory of their own are included as long as their .gitignore is not itself one of the files written or read by the model (own_ignore)."
  },
  {
   "property": "C65",
   "status": "proved",
   "theorems": [
    "C65_saved_before_loading"
   ],
   "note": "Keys without a directory of their own are included as long as their .gitignore is not itself one of the files written or read by the model (own_ignore)."
  },
  {
   "property": "C66",
   "status": "proved",
   "theorems": [
    "C66_saving_leaves_the_object",
    "C66_loaded_once",
    "C66_track_saved"
   ],
   "note": "For saves that return. same_object and saved_content (the object a storable's record is stripped of) are what the program holds; objects that a failing save changed in part are not covered."
  },
  {
   "property": "C67",
   "status": "proved",
   "theorems": [
    "C67_replaced_list_item",
    "C67_replaced_dict_value",
    "C67_files_left_behind"
   ],
   "note": "Finding: the content, not the record, is put on the pending list, so the record's sub directory is lost. Stated for the outermost list or dict of a key and one assignment since the last save; the assignment to a record field of a modelclass (same code path) is not in the container model."
  },
  {
   "property": "C68",
   "status": "proved",
   "theorems": [
    "C68_like_attributes",
    "C68_keeps_its_file",
    "C68_record_assigned"
   ],
   "note": "For modelclasses that are not compact; compact ones are covered with CompactModel.v."
  },
  {
   "property": "C69",
   "status": "proved",
   "theorems": [
    "C69_removed_at_every_save",
    "C69_forever",
    "C69_cleared_field"
   ],
   "note": "The statement describes what the code does. C69_cleared_field links the assignment to the set of files; C69_forever is about any number of saves."
  },
  {
   "property": "C70",
   "status": "proved",
   "theorems": [
    "C70_list_keeps_track",
    "C70_dict_keeps_track",
    "C70_field_keeps_track",
    "C70_list_files",
    "C70_dict_files",
    "C70_field_files"
   ],
   "note": "For all operation sequences of ContainerModel/FieldModel under auto_clean: no record target is lost; the *_files theorems add the next save (container at rest). Operation sequences whose read of a record raises an uncaught exception end there (no Ok result)."
  },
  {
   "property": "C71",
   "status": "proved",
   "theorems": [
    "C71_unreadable_items_left",
    "C71_unreadable_values_left",
    "C71_validate_stops"
   ],
   "note": "The other values of the list or dict are plain (atoms) in the first two theorems; arbitrary in the third."
  },
  {
   "property": "C72",
   "status": "proved",
   "theorems": [
    "C72_list_files_counted",
    "C72_dict_files_counted",
    "C72_list_apart",
    "C72_dict_apart"
   ],
   "note": "Lists and dicts. Arguments that are records themselves (recorded values given by hand) and modelclass fields are outside this claim; see DESIGN.md."
  },
  {
   "property": "C73",
   "status": "proved",
   "theorems": [
    "C73_record_renames",
    "C73_old_file_stays",
    "C73_recording_again_nests"
   ],
   "note": "A loss of track of files, proved as it is. `C73_old_file_stays` covers records whose old and new contents are storables without records of their own."
  },
  {
   "property": "C74",
   "status": "proved",
   "theorems": [
    "C74_subdir_ignored",
    "C74_dict_files_at_top",
    "C74_list_files_in_subdir"
   ],
   "note": "The code ignores what the documentation of mdict offers; proved as it is. `mdict.record` is outside the operation sequences here (see C73)."
  },
  {
   "property": "C75",
   "status": "proved",
   "theorems": [
    "C75_new_files",
    "C75_files_pile_up"
   ],
   "note": "Storables written by __write__ that raise nothing; uuids give distinct file names that differ from the key's own files. Records and containers inside plain lists are not part of the statement."
  },
  {
   "property": "C76",
   "status": "proved",
   "theorems": [
    "C76_any_program",
    "C76_inherited_methods"
   ],
   "note": "Values put in are not records; == is a function of the two values; index without start and stop. Slices are not modelled."
  },
  {
   "property": "C77",
   "status": "proved",
   "theorems": [
    "C77_any_program",
    "C77_inherited_methods",
    "C77_popitem_differs",
    "C77_in_loads"
   ],
   "note": "Keys are strings; values put in are not records."
  },
  {
   "property": "C78",
   "status": "proved",
   "theorems": [
    "C78_saved_again",
    "C78_files_stay"
   ],
   "note": "for models without bare storables in plain lists or dicts (for those see C75) and with nothing pending for removal; the second save is assumed to return"
  },
  {
   "property": "C79",
   "status": "proved",
   "theorems": [
    "C79_load_and_save",
    "C79_visits_change_nothing"
   ],
   "note": "Proved for models built in memory whose mlists, mdicts and wrapped fields hold records (as the library's own methods leave them), for keys without a slash, with retouch auto or quit, and runs in which load and save return."
  },
  {
   "property": "C80",
   "status": "proved",
   "theorems": [
    "C80_json_data_exact",
    "C80_what_comes_back",
    "C80_objects_are_lost",
    "C80_no_init_no_read",
    "C80_which_files_can_be_read"
   ],
   "note": "The write and read methods of storable dataclasses; that writing and reading the file itself works is C30 to C36."
  },
  {
   "property": "C81",
   "status": "proved",
   "theorems": [
    "C81_template_round_trip",
    "C81_json_data_exact",
    "C81_nested_dataclass_lost"
   ],
   "note": "Classes with __convert__/__de_convert__ methods of their own are not covered."
  },
  {
   "property": "C82",
   "status": "proved",
   "theorems": [
    "C82_repository_is_a_dictionary",
    "C82_absent_keys",
    "C82_clean_deletes"
   ],
   "note": "Invariant over histories of calls by any number of runs; assumes the key clustered and named by one ordinary line."
  },
  {
   "property": "C83",
   "status": "proved",
   "theorems": [
    "C83_deserialize_without_context",
    "C83_detached_record_keeps_its_data"
   ],
   "note": "PropsDetached.v; both validation settings."
  },
  {
   "property": "C84",
   "status": "proved",
   "theorems": [
    "C84_store_refuses",
    "C84_store_writes_and_reads_back",
    "C84_stored_then_loaded_refuted"
   ],
   "note": "PropsStoreKey.v. Proved for contents with their own write and read methods; what load makes of stored keys is shown by witnesses."
  },
  {
   "property": "C85",
   "status": "proved",
   "theorems": [
    "C85_failure_is_saved_and_read_back",
    "C85_preload_keeps_a_stale_failure",
    "C85_failed_write_without_file"
   ],
   "note": "PropsFailure.v. Of a failure the class and the content type are modelled; messages and traces are not."
  },
  {
   "property": "C86",
   "status": "proved",
   "theorems": [
    "C86_reading_changes_no_file",
    "C86_load_changes_no_data",
    "C86_lazy_load_changes_nothing",
    "C86_missing_file_leaves_directory",
    "C86_load_changes_no_file_refuted"
   ],
   "note": "Reading: universal over outcomes. Loading: only the key's .gitignore may change (witness that it can); none without preload marks. Directories left behind by looking for a missing file are characterized exactly."
  },
  {
   "property": "C87",
   "status": "proved",
   "theorems": [
    "C87_written_in_place_is_untouched",
    "C87_copies_what_is_there_now",
    "C87_content_follows",
    "C87_vanished_source",
    "C87_stale_file_taken_over",
    "C87_swap_loses_one",
    "C87_refused",
    "C87_tex_stays",
    "C87_drawn_figure"
   ],
   "note": "The write methods are modelled on the file system directly, since they depend on files (the store model's write methods depend on the object only). Exchanging two figures loses one: proved for all pairs of places."
  },
  {
   "property": "C88",
   "status": "proved",
   "theorems": [
    "C88_each_cycle_wraps",
    "C88_never_what_was_saved",
    "C88_second_save_fails",
    "C88_first_save_works"
   ],
   "note": "Records of t_Figure are those of the store model; here the two write methods and the conversions are modelled."
  },
  {
   "property": "C89",
   "status": "proved",
   "theorems": [
    "C89_last_registration_wins",
    "C89_loaded_as_itself_iff",
    "C89_files_read_as_itself_iff",
    "C89_template_methods",
    "C89_methods_are_never_replaced",
    "C89_options_of_derived_ignored",
    "C89_order_decides_format",
    "C89_failed_decoration_registers"
   ],
   "note": "dataclass() itself and the bodies of the methods put in are not part of this model; single inheritance is a hypothesis of the theorems about methods."
  },
  {
   "property": "C90",
   "status": "proved",
   "theorems": [
    "C90_declared_record",
    "C90_declared_plain",
    "C90_declared_serialized",
    "C90_inherited_decided_anew",
    "C90_inherited_kept",
    "C90_derived_stores_elsewhere",
    "C90_ancestors_unaffected",
    "C90_cannot_be_derived_iff"
   ],
   "note": "Single inheritance; storable types and presets do not change while the classes are defined; dataclass's own check of the order of defaults is not modelled."
  },
  {
   "property": "C91",
   "status": "proved",
   "theorems": [
    "C91_shows_exactly",
    "C91_each_once",
    "C91_order",
    "C91_fails_iff",
    "C91_empty_json_hides_all",
    "C91_string_asks_for_more"
   ],
   "note": "Styles, icons, links and the printing itself are left out; no links or special files on disk."
  },
  {
   "property": "C92",
   "status": "proved",
   "theorems": [
    "C92_written",
    "C92_fails_iff",
    "C92_aliased_key",
    "C92_derived_is_lost",
    "C92_plain_data"
   ],
   "note": ""
  },
  {
   "property": "C93",
   "status": "proved",
   "theorems": [
    "C93_what_is_kept",
    "C93_never_ends_iff",
    "C93_sentence",
    "C93_sentence_marks_causes_refuted"
   ],
   "note": "C93_sentence_marks_causes_refuted is the witness for the last clause."
  },
  {
   "property": "C94",
   "status": "proved",
   "theorems": [
    "C94_yes_iff",
    "C94_raises_iff",
    "C94_results_recognised",
    "C94_dicts_not_recognised",
    "C94_yes_promises_nothing"
   ],
   "note": ""
  },
  {
   "property": "C95",
   "status": "proved",
   "theorems": [
    "C95_with_a_stem",
    "C95_smruns_factory_loses",
    "C95_smruns_factory_flat"
   ],
   "note": ""
  },
  {
   "property": "C96",
   "status": "proved",
   "theorems": [
    "C96_equal_iff",
    "C96_other_class",
    "C96_files_read",
    "C96_recordfields_ignored",
    "C96_unread_by_identity",
    "C96_itself",
    "C96_keeps_values"
   ],
   "note": ""
  },
  {
   "property": "C97",
   "status": "proved",
   "theorems": [
    "C97_plain",
    "C97_failure_leaks",
    "C97_settings_restored",
    "C97_formatters_restored_iff",
    "C97_shared_keeps_new",
    "C97_missing_setting"
   ],
   "note": ""
  },
  {
   "property": "C98",
   "status": "proved",
   "theorems": [
    "C98_field_reads",
    "C98_attribute_reads",
    "C98_unassigned",
    "C98_saved",
    "C98_saved_as_read",
    "C98_no_clash",
    "C98_get_record",
    "C98_set_record"
   ],
   "note": ""
  },
  {
   "property": "C99",
   "status": "proved",
   "theorems": [
    "C99_plain_method",
    "C99_run_iff",
    "C99_never_run",
    "C99_received",
    "C99_outcome",
    "C99_not_run"
   ],
   "note": "Signatures are lists of parameters by kind; for something without a signature the exception of inspect.signature is a parameter. Python's own binding of positional arguments is modelled; no keywords are ever passed."
  },
  {
   "property": "C100",
   "status": "proved",
   "theorems": [
    "C100_same_class_iff",
    "C100_presets",
    "C100_field_reads",
    "C100_not_an_array",
    "C100_saved_and_loaded",
    "C100_no_dimensions",
    "C100_barray_loses_subscripts"
   ],
   "note": "Entry types bool, int and float; np.save and np.load are taken to be faithful; non-compact modelclasses. Conversions of floats are parameters."
  },
  {
   "property": "C101",
   "status": "proved",
   "theorems": [
    "C101_nothing_without_force",
    "C101_fails_iff",
    "C101_after_failure",
    "C101_one_new_handler",
    "C101_handlers_given",
    "C101_message_handled",
    "C101_no_open_leftovers"
   ],
   "note": "Of a handler only where it writes, its format and whether it is closed are modelled; levels are valid numbers."
  },
  {
   "property": "C102",
   "status": "proved",
   "theorems": [
    "C102_layout",
    "C102_otherwise",
    "C102_fails_iff",
    "C102_only_spaces_added",
    "C102_pack",
    "C102_default"
   ],
   "note": "Formats are lists of literals and fields without widths or percent signs; Latin-1 text; colours and the rich renderer are not modelled."
  },
  {
   "property": "C103",
   "status": "proved",
   "theorems": [
    "C103_passed_on",
    "C103_length",
    "C103_without_state",
    "C103_with_state",
    "C103_fails_at_once_iff"
   ],
   "note": "The consumer takes all elements; what fields other than i and t give is a parameter; braces inside a field count as an error; the drawing of the bar is not modelled."
  },
  {
   "property": "C104",
   "status": "proved",
   "theorems": [
    "C104_zero",
    "C104_no_label",
    "C104_powers",
    "C104_fails_iff",
    "C104_default"
   ],
   "note": "Rationals in place of floats; the quotient of logarithms, the leading digit and the printing of numbers are parameters; the tolerance is at most one half (matplotlib: 1e-10)."
  },
  {
   "property": "C105",
   "status": "proved",
   "theorems": [
    "C105_never_fails",
    "C105_inside",
    "C105_outside",
    "C105_from_the_working_directory",
    "C105_distinct"
   ],
   "note": "No symbolic links."
  },
  {
   "property": "C106",
   "status": "proved",
   "theorems": [
    "C106_stays_inside",
    "C106_closed",
    "C106_quit",
    "C106_auto",
    "C106_ignore",
    "C106_missing"
   ],
   "note": "Text files in the modes 'r' and 'w'; policies that do not ask the user; how much of an interrupted block was flushed is a parameter."
  },
  {
   "property": "C107",
   "status": "proved",
   "theorems": [
    "C107_written",
    "C107_cut_off",
    "C107_old_contents_lost",
    "C107_fails_iff"
   ],
   "note": "No cycles and no recursion limit; Latin-1 text; the texts of numbers are given; that json.dump writes piece by piece with an indent is taken from Python's encoder."
  },
  {
   "property": "C108",
   "status": "proved",
   "theorems": [
    "C108_alone",
    "C108_as_gitignore",
    "C108_one_after_another",
    "C108_others_lost",
    "C108_emptied",
    "C108_mixed",
    "C108_nothing_foreign",
    "C108_nothing_foreign_refuted"
   ],
   "note": "Reading and writing are one step each; which lines a process drops (files gone from disk) does not change while they run; the removal of a file that would list only itself is left out."
  },
  {
   "property": "C109",
   "status": "proved",
   "theorems": [
    "C109_one_after_another",
    "C109_last_one_decides",
    "C109_last_one_gets_there",
    "C109_first_one_lost",
    "C109_values_of_another",
    "C109_never_broken"
   ],
   "note": "The processes only append; every file is written in one step; a record is given by the number in its file name."
  },
  {
   "property": "C110",
   "status": "proved",
   "theorems": [
    "C110_meaning",
    "C110_own_line",
    "C110_ignored"
   ],
   "note": "git's side is taken from gitignore(5) and is part of what is trusted; one .gitignore only, no trailing slashes, ** as two stars, no character classes by name."
  },
  {
   "property": "C111",
   "status": "proved",
   "theorems": [
    "C111_only_adds",
    "C111_every_text",
    "C111_lines",
    "C111_repeated",
    "C111_fails_iff"
   ],
   "note": "Every line ends with a line feed."
  },
  {
   "property": "C112",
   "status": "proved",
   "theorems": [
    "C112_alone",
    "C112_files",
    "C112_written",
    "C112_elsewhere",
    "C112_failures",
    "C112_raises",
    "C112_prepared"
   ],
   "note": "Fuel bounds the depth of the recursion; C112_alone says that enough of it exists, C112_failures lists OutOfFuel for the rest. C112_prepared takes the removal as one step, which C112_alone justifies when nobody acts during it."
  },
  {
   "property": "C113",
   "status": "proved",
   "theorems": [
    "C113_settings",
    "C113_refused_iff",
    "C113_added",
    "C113_new_instance",
    "C113_later_refused_iff",
    "C113_first_refused_iff"
   ],
   "note": "Single inheritance, plain hashable defaults; values and types are arbitrary."
  },
  {
   "property": "C114",
   "status": "proved",
   "theorems": [
    "C114_message",
    "C114_never_debug",
    "C114_only_hides",
    "C114_debug_level_refuted",
    "C114_context",
    "C114_context_never_notset"
   ],
   "note": "Handlers without levels and filters; C114_debug_level_refuted shows why debug is excluded in C114_only_hides."
  },
  {
   "property": "C115",
   "status": "proved",
   "theorems": [
    "C115_plain_message",
    "C115_live",
    "C115_recorded",
    "C115_all_called",
    "C115_order",
    "C115_every_handler_refuted"
   ],
   "note": "C115_every_handler_refuted: a stream handler after a rich one shows nothing. Assumes the behaviour of RichHandler.emit, whose source was not available; see the comment in TraceLogModel.v."
  }
 ]
}
