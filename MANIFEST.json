{
 "claims": [
  {
   "property": "C01",
   "status": "proved",
   "theorems": [
    "C01_fields_of_new_path",
    "C01_push_appends",
    "C01_pop_removes_last",
    "C01_pop_push",
    "C01_len_is_number_of_fields"
   ],
   "note": ""
  },
  {
   "property": "C02",
   "status": "proved",
   "theorems": [
    "C02_walk_visits_every_segment",
    "C02_len_decreases",
    "C02_end_is_empty_name",
    "C02_every_walk_terminates",
    "C02_peek_agrees_with_pop_front"
   ],
   "note": ""
  },
  {
   "property": "C03",
   "status": "proved",
   "theorems": [
    "C03_index_round_trip",
    "C03_lang_round_trip",
    "C03_empty_brackets_are_index_0",
    "C03_plain_name_has_no_index",
    "C03_append_index_on_path",
    "C03_append_lang_on_path"
   ],
   "note": "The rejection of indices below -1 is part of the GetPath/SetPath model."
  },
  {
   "property": "C04",
   "status": "proved",
   "theorems": [
    "C04_add_drops_only_empty_values",
    "C04_add_is_add_flags_0",
    "C04_unique_keeps_first_of_every_path"
   ],
   "note": ""
  },
  {
   "property": "C05",
   "status": "partial",
   "theorems": [
    "C05_diff_mentions_exactly_changed_paths",
    "C05_diff_flags_partial",
    "C05_replace_carries_new_value_refuted",
    "C05_empty_target_flag_refuted",
    "C05_empty_source_flag_refuted"
   ],
   "note": "Which paths are mentioned is proved for all lists; flags and carried values are proved for two non-empty lists. Applying the diff does not give y: REPLACE carries the old value and an empty side yields no flags (refuted theorems)."
  },
  {
   "property": "C06",
   "status": "proved",
   "theorems": [
    "C06_version_round_trip",
    "C06_parse_accepts_exactly",
    "C06_parse_never_panics"
   ],
   "note": ""
  },
  {
   "property": "C07",
   "status": "proved",
   "theorems": [
    "C07_exactly_one_comparison",
    "C07_before_is_strict_order",
    "C07_after_is_converse",
    "C07_equal_is_equality",
    "C07_before_is_lexicographic"
   ],
   "note": ""
  },
  {
   "property": "C08",
   "status": "partial",
   "theorems": [
    "C08_between_partial",
    "C08_between_open_below",
    "C08_inclusive_upper_bound_refuted",
    "C08_unbounded_refuted"
   ],
   "note": "Proved for a non-zero lower bound. With a zero (open) lower bound the upper bound is exclusive and no version matches an unbounded range (refuted theorems)."
  },
  {
   "property": "C09",
   "status": "proved",
   "theorems": [
    "C09_parse_union",
    "C09_union_unique",
    "C09_accepts_exactly_known_names",
    "C09_unknown_name_is_error"
   ],
   "note": ""
  },
  {
   "property": "C10",
   "status": "proved",
   "theorems": [
    "C10_get_namespace_is_last_registration",
    "C10_get_namespace_error_iff_unregistered",
    "C10_get_prefix_is_last_registration",
    "C10_group_lists_registrations_in_order",
    "C10_prefixes_lists_every_prefix_once",
    "C10_namespaces_lists_last_of_every_uri"
   ],
   "note": ""
  },
  {
   "property": "C11",
   "status": "partial",
   "theorems": [
    "C11_prefix_of_uri_resolves_partial",
    "C11_uri_of_prefix_resolves_partial",
    "C11_short_names_resolve_partial",
    "C11_prefix_uri_agree_refuted",
    "C11_uri_prefix_agree_refuted"
   ],
   "note": "Proved for histories in which prefix and URI determine each other; refuted for re-registration of a prefix under another URI (both directions)."
  },
  {
   "property": "C12",
   "status": "proved",
   "theorems": [
    "C12_linearizable",
    "C12_result_of_a_registration_prefix",
    "C12_effect_between_call_and_return",
    "C12_returned_registrations_are_visible",
    "C12_no_deadlock",
    "C12_readers_do_not_block_readers"
   ],
   "note": "sync.RWMutex is modelled (writer announcement, reader list); map accesses are single steps. Go memory-model effects below map-access granularity are not modelled."
  },
  {
   "property": "C13",
   "status": "proved",
   "theorems": [
    "C13_remove_dups",
    "C13_contains",
    "C13_contains_name",
    "C13_match_xml_name"
   ],
   "note": ""
  },
  {
   "property": "C14",
   "status": "proved",
   "theorems": [
    "C14_expand_splits",
    "C14_expand_has_prefix",
    "C14_split_rejoins",
    "C14_has_prefix_iff"
   ],
   "note": "Expand(\"\") is the bare prefix, so the local part is recovered for non-empty local names; the prefix for all."
  },
  {
   "property": "C15",
   "status": "partial",
   "theorems": [
    "C15_filter_keeps_exactly_partial",
    "C15_unknown_prefix_is_kept_refuted"
   ],
   "note": "With an include list the prefixes of all top-level nodes must be known; a node with an unknown prefix is kept (refuted)."
  },
  {
   "property": "C16",
   "status": "partial",
   "theorems": [
    "C16_filter_string_round_trip_partial",
    "C16_filter_string_round_trip_refuted",
    "C16_strict_accepts_exactly_registered_names",
    "C16_strict_unknown_name_is_error",
    "C16_lenient_agrees_with_strict"
   ],
   "note": "String round-trip proved for names that are not group keywords and contain no comma; refuted for prefix \"xmp\" which re-parses as the group. Strict parsing is characterised completely."
  },
  {
   "property": "C17",
   "status": "proved",
   "theorems": [
    "C17_children_stay_unique",
    "C17_add_node_in_place",
    "C17_attributes_stay_unique",
    "C17_add_attr_in_place",
    "C17_get_attr_returns_last_value"
   ],
   "note": "GetAttr ignores prefixes, so its theorem asks that no other attribute has the same name under another prefix."
  },
  {
   "property": "C18",
   "status": "proved",
   "theorems": [
    "C18_new_nodes_are_clean_and_unshared",
    "C18_double_close_shares_nodes"
   ],
   "note": "Any number of goroutines. The protocol (only live nodes are written or closed, each closed once) is a hypothesis; a double Close is shown to hand one node to two callers. Field resets of Close and NewNode are modelled field by field in one step each."
  },
  {
   "property": "C19",
   "status": "proved",
   "theorems": [
    "C19_copy_is_equal_and_independent"
   ],
   "note": "Memory model with node cells and attribute arrays; the copied subtree must be a finite tree."
  },
  {
   "property": "C20",
   "status": "partial",
   "theorems": [
    "C20_set_then_get_partial",
    "C20_create_succeeds",
    "C20_no_panic",
    "C20_attribute_refuted",
    "C20_array_without_index_refuted",
    "C20_missing_language_refuted",
    "C20_unique_language_refuted",
    "C20_index_into_alternative_refuted"
   ],
   "note": "Proved for all addressable paths (definition in SpecNode.v). Refuted for attributes, arrays without index, missing or duplicate languages, and indexes into alternatives."
  },
  {
   "property": "C21",
   "status": "proved",
   "theorems": [
    "C21_other_properties_unchanged"
   ],
   "note": "For nodes whose children carry no typed model; any flags, any outcome."
  },
  {
   "property": "C22",
   "status": "partial",
   "theorems": [
    "C22_listed_is_read_back",
    "C22_listed_is_stored",
    "C22_stored_is_listed_partial",
    "C22_output_is_sorted",
    "C22_simple_items_not_listed_refuted"
   ],
   "note": "Soundness for all trees of the XMP data model; completeness when array items hold their data in child nodes. Refuted for simple array items."
  },
  {
   "property": "C23",
   "status": "partial",
   "theorems": [
    "C23_compact_round_trip",
    "C23_indented_round_trip_partial",
    "C23_indented_text_lost_refuted"
   ],
   "note": "Token level; the lexer and printer of encoding/xml are not modelled. With indentation, text next to children is lost (refuted)."
  },
  {
   "property": "C24",
   "status": "proved",
   "theorems": [
    "C24_is_zero"
   ],
   "note": ""
  },
  {
   "property": "C25",
   "status": "partial",
   "theorems": [
    "C25_make_model",
    "C25_make_model_again",
    "C25_add_model",
    "C25_add_model_discards_refuted"
   ],
   "note": "All of MakeModel and AddModel is characterised for every document. AddModel onto a node that already has a model discards that model (refuted)."
  },
  {
   "property": "C26",
   "status": "proved",
   "theorems": [
    "C26_remove_namespace"
   ],
   "note": ""
  },
  {
   "property": "C27",
   "status": "partial",
   "theorems": [
    "C27_sync_before_export",
    "C27_set_path_marks_partial",
    "C27_nofail_set_path_does_not_mark_refuted"
   ],
   "note": "Order, early stop and dirty flag of syncToXMP for all models that do not add or remove models of other nodes. SetPath with NOFAIL can add a node without marking the document (refuted). Marking by MakeModel/AddModel/RemoveNamespace is part of C25 and C26."
  },
  {
   "property": "C28",
   "status": "partial",
   "theorems": [
    "C28_empty_value_needs_delete",
    "C28_existing_value_needs_update_flag",
    "C28_new_value_needs_create_flag",
    "C28_new_namespace_needs_create",
    "C28_equal_value_is_no_change",
    "C28_allowed_change_reaches_the_model",
    "C28_allowed_change_reaches_the_raw_node",
    "C28_namespace_path_removes_everything_refuted"
   ],
   "note": "All flags, values and models, for a namespace with a settled node or no node. A path that is just a namespace removes everything under the default flags (refuted)."
  },
  {
   "property": "C29",
   "status": "partial",
   "theorems": [
    "C29_adds_model",
    "C29_adds_node",
    "C29_new_model_partial",
    "C29_new_node_partial",
    "C29_set_then_get_partial",
    "C29_nofail_refuted"
   ],
   "note": "For settled namespaces and for namespaces the document does not have yet (a model or a raw node is added at the end), NOFAIL off; models must answer with the assigned value (hypothesis \"answers\"), raw nodes by C20. Refuted with NOFAIL."
  },
  {
   "property": "C30",
   "status": "partial",
   "theorems": [
    "C30_nofail_errors_partial",
    "C30_unknown_namespace_refuted",
    "C30_reading_fails_refuted"
   ],
   "note": "Exact list of the sources of an error under NOFAIL; two of them are reachable with valid paths (refuted)."
  },
  {
   "property": "C31",
   "status": "partial",
   "theorems": [
    "C31_failing_set_path_changes_nothing_partial",
    "C31_only_the_node_of_the_namespace",
    "C31_failing_create_adds_a_model_refuted"
   ],
   "note": "For settled namespaces. CREATE with an empty value adds a model before it fails (refuted)."
  },
  {
   "property": "C32",
   "status": "partial",
   "theorems": [
    "C32_sync_new_model",
    "C32_empty_model_refuted",
    "C32_sync_copies_when_allowed",
    "C32_sync_does_nothing_when_not_allowed",
    "C32_sync_source_is_kept",
    "C32_sync_reading_error",
    "C32_sync_given_model",
    "C32_sync_without_source_or_destination",
    "C32_sync_without_model_type_refuted"
   ],
   "note": "The complete decision table for models that exist and for models that Sync adds. If there is nothing to copy an empty model is added all the same (refuted). Sync with CREATE into a namespace without model type panics (refuted). SyncMulti is the iteration of Sync."
  },
  {
   "property": "C33",
   "status": "partial",
   "theorems": [
    "C33_merge_source",
    "C33_merge_of_present_values_partial",
    "C33_merge_keeps_other_namespaces_partial",
    "C33_merge_overwrites_refuted",
    "C33_merge_values_partial",
    "C33_merge_again_partial",
    "C33_library_models_partial",
    "C33_merge_replaces_lists_refuted",
    "C33_merge_new_partial",
    "C33_merge_new_again_partial"
   ],
   "note": "Source unchanged when it was not dirty; merging present values changes no node; nodes of other namespaces untouched. For models that hold simple values (shown for the simple properties of all typed models): what d says stays, what is missing is added, unlisted paths are untouched, and merging the same document again changes nothing. Refuted for raw nodes and for lists: their values are overwritten. The same where d has nothing for a namespace of b: a new model is added once and takes the values (C33_merge_new_partial, C33_merge_new_again_partial). Not proved: new raw nodes, language alternatives."
  },
  {
   "property": "C34",
   "status": "partial",
   "theorems": [
    "C34_typed_values_survive_partial",
    "C34_nodes_tell_values_apart",
    "C34_refuted"
   ],
   "note": "All types built from the described kinds and all storable values (SpecType.v); names must not contain blanks as tags never do. Wrapper mode (models at top level) is not included. Refuted for slices without methods, nil array items, empty arrays flagged empty."
  },
  {
   "property": "C35",
   "status": "partial",
   "theorems": [
    "C35_unknown_properties_kept",
    "C35_encoder_writes_unknown_partial",
    "C35_unknown_element_back_partial",
    "C35_unknown_attribute_back_partial",
    "C35_unknown_lost_refuted"
   ],
   "note": "What the document keeps is proved exactly, for every input tree, registry and set of model types. Written again: proved for non-empty properties whose names differ; of several unknown properties with one name only the last survives and empty ones are dropped (refuted). The whole way is stated for models whose Sync methods do nothing."
  },
  {
   "property": "C36",
   "status": "proved",
   "theorems": [
    "C36_lookup_finds_the_named_field",
    "C36_not_found_only_without_field",
    "C36_decoder_finds_the_named_field",
    "C36_decoder_not_found"
   ],
   "note": "Path access (findField) and the decoder (findStructField); with several fields of one local name the first is taken."
  },
  {
   "property": "C37",
   "status": "partial",
   "theorems": [
    "C37_get_reads_the_field",
    "C37_set_then_get_partial",
    "C37_no_overwrite",
    "C37_listed_reads_back_partial",
    "C37_default_listed_refuted",
    "C37_set_alternative_refuted",
    "C37_left_out_of_is_zero_refuted",
    "C37_add_language_panics_refuted",
    "C37_same_local_name_refuted",
    "C37_failing_set_grows_refuted"
   ],
   "note": "Typed fields, without extension types and raw nodes. Reading back needs the fields on the way to be shown (not zero for their type), setting an alternative needs flags without UNIQUE when it exists, listing needs distinct local names and languages; refutations show each is needed."
  },
  {
   "property": "C38",
   "status": "partial",
   "theorems": [
    "C38_edits_partial",
    "C38_unique_refuses",
    "C38_delete_beyond_the_end",
    "C38_deleted_element_returns_refuted",
    "C38_silently_not_added_refuted"
   ],
   "note": "Slices with MarshalXMP/UnmarshalXMP and every flag combination of the edits relation; a deleted last element can come back (refuted), so the slice must hold no leftovers behind its end."
  },
  {
   "property": "C39",
   "status": "partial",
   "theorems": [
    "C39_tag_gives_the_named_flags_and_bounds",
    "C39_any_tag_gives_exactly_its_flags",
    "C39_incomplete_version_refuted",
    "C39_equal_names_rejected_partial",
    "C39_rejected_fields_clash",
    "C39_contained_range_rejected",
    "C39_overlap_accepted_refuted"
   ],
   "note": "Tag texts: complete. Duplicate names: complete without versions; with versions a field is rejected only when its range lies inside an earlier one, other overlaps are accepted (refuted). Incomplete version signs crash (refuted)."
  },
  {
   "property": "C40",
   "status": "partial",
   "theorems": [
    "C40_one_default",
    "C40_get_last_stored_partial",
    "C40_get_last_stored_new_languages_partial",
    "C40_default_value",
    "C40_other_languages_untouched",
    "C40_add_on_present_language_refuted",
    "C40_remove_brings_back_refuted"
   ],
   "note": "All histories of calls on an AltString that starts empty. Get returns the value last stored unless Add/AddUnique is called for a language that is present, or RemoveLang after AddDefault for a language that was present (both refuted)."
  },
  {
   "property": "C41",
   "status": "partial",
   "theorems": [
    "C41_when_calls_panic_partial",
    "C41_no_panic_without_remove_partial",
    "C41_when_add_panics_partial",
    "C41_when_new_panics_partial",
    "C41_remove_default_panics_refuted",
    "C41_new_panics_refuted"
   ],
   "note": "Exact characterisation of the panics for every history, every AltString value and every constructor call; two witnesses of a panic."
  },
  {
   "property": "C42",
   "status": "partial",
   "theorems": [
    "C42_alternatives_survive_partial",
    "C42_written_items",
    "C42_refuted"
   ],
   "note": "Items with the same value as the default confuse the reader (refuted); otherwise every AltString in which each item but the default has a language."
  },
  {
   "property": "C43",
   "status": "partial",
   "theorems": [
    "C43_add",
    "C43_add_unique",
    "C43_index",
    "C43_contains",
    "C43_remove_absent_partial",
    "C43_remove_repeats_refuted",
    "C43_identifier_remove_repeats_refuted",
    "C43_new_drops_empty"
   ],
   "note": "Everything but Remove; Remove of a present value is shown to repeat the part up to the value and never to remove it (refuted for every list)."
  },
  {
   "property": "C44",
   "status": "proved",
   "theorems": [
    "C44_array_written",
    "C44_array_read",
    "C44_not_an_array",
    "C44_arrays_survive",
    "C44_plain_attribute_is_one_element"
   ],
   "note": ""
  },
  {
   "property": "C45",
   "status": "partial",
   "theorems": [
    "C45_bool",
    "C45_null_bool",
    "C45_null_int",
    "C45_rational",
    "C45_string_list_partial",
    "C45_string_list_refuted",
    "C45_null_string_partial"
   ],
   "note": "Bool, NullBool, NullInt and Rational without restriction (numbers are 64-bit). StringList: non-empty lists of items without newline and trailing carriage return. NullFloat is the subject of C117; float parsing is a parameter for Rational here."
  },
  {
   "property": "C46",
   "status": "partial",
   "theorems": [
    "C46_decimal_partial",
    "C46_bytes_partial",
    "C46_decimal_refuted",
    "C46_bytes_refuted"
   ],
   "note": "Decimal values below 2^31 and bytes below 128; every larger decimal value is rejected (refuted)."
  },
  {
   "property": "C47",
   "status": "proved",
   "theorems": [
    "C47_issuer",
    "C47_issuer_unique"
   ],
   "note": ""
  },
  {
   "property": "C48",
   "status": "partial",
   "theorems": [
    "C48_complete_unchanged_partial",
    "C48_short_zone_completed",
    "C48_idempotent_partial",
    "C48_basic_zone_changed_refuted",
    "C48_idempotent_refuted"
   ],
   "note": "Zones Z, +hh:mm (unchanged) and +h, +h:mm (completed). The complete zone +hhmm is damaged for every timestamp and the repair is not idempotent (refuted)."
  },
  {
   "property": "C49",
   "status": "partial",
   "theorems": [
    "C49_frame_rate_partial",
    "C49_frame_count_partial",
    "C49_part_partial",
    "C49_part_range_partial",
    "C49_part_range_refuted",
    "C49_part_list_partial",
    "C49_timecode_partial",
    "C49_refuted"
   ],
   "note": "Exact sets of values that survive; what is lost outside them is listed in C49_refuted."
  },
  {
   "property": "C50",
   "status": "partial",
   "theorems": [
    "C50_track_num",
    "C50_crs_point",
    "C50_qt_point",
    "C50_byte_array",
    "C50_cfa_pattern",
    "C50_device_settings",
    "C50_ixml_bool",
    "C50_ixml_lists",
    "C50_preferences",
    "C50_content_rating_refuted",
    "C50_identifier_refuted"
   ],
   "note": "ContentRating and Identifier never survive (refuted for all values); everything else is proved."
  },
  {
   "property": "C51",
   "status": "proved",
   "theorems": [
    "C51_flash_bits"
   ],
   "note": ""
  },
  {
   "property": "C52",
   "status": "partial",
   "theorems": [
    "C52_read_boundaries_partial",
    "C52_small_reads_lose_packets_refuted",
    "C52_adjacent_packets_refuted"
   ],
   "note": "For every stream that meets \"fits\" and every schedule of reads of 16 bytes or more. Smaller reads, or packets less than 15 bytes apart, can lose packets (refuted)."
  },
  {
   "property": "C53",
   "status": "partial",
   "theorems": [
    "C53_every_stream_decomposes",
    "C53_returns_the_packets_partial",
    "C53_split_consumes_what_it_is_given",
    "C53_split_makes_progress",
    "C53_scanning_terminates",
    "C53_long_packet_refuted",
    "C53_short_packet_panics_refuted"
   ],
   "note": "bufio.Scanner is modelled step by step (buffer, growth, shifting). Packets over 64 KiB fail the whole scan, and a header/trailer pair less than 51 bytes before the end of the buffer panics (refuted). The split function and termination are covered without restriction."
  },
  {
   "property": "C54",
   "status": "partial",
   "theorems": [
    "C54_never_exceeds_the_limit",
    "C54_is_a_writer",
    "C54_output_is_cut_at_the_limit",
    "C54_overflow_partial",
    "C54_empty_write_refuted"
   ],
   "note": "Bound for every io.Writer and every sequence of writes; output and overflow exactly for a writer that takes everything. An empty write at the limit is reported as overflow (refuted)."
  },
  {
   "property": "C55",
   "status": "proved",
   "theorems": [
    "C55_padded_size",
    "C55_trailer",
    "C55_unpadded",
    "C55_unlimited"
   ],
   "note": "The XML text is a parameter, in any non-empty pieces."
  },
  {
   "property": "C56",
   "status": "partial",
   "theorems": [
    "C56_export_import_partial",
    "C56_model_export_import_partial",
    "C56_default_text_lost_refuted",
    "C56_qualifier_lost_refuted",
    "C56_same_name_lost_refuted",
    "C56_single_default_doubled_refuted",
    "C56_list_in_list_lost_refuted",
    "C56_rdf_value_refuted",
    "C56_array_type_refuted",
    "C56_record_like_item_refuted"
   ],
   "note": "Trees holding records, texts, lists and alternatives (SpecJson.v) with distinct unreserved member names, no lists in lists and a well formed default; Bag/Seq and attribute/element are not kept. Refutations show what is lost otherwise."
  },
  {
   "property": "C57",
   "status": "partial",
   "theorems": [
    "C57_conversion_crashes_iff",
    "C57_reading_never_crashes_partial",
    "C57_mixed_list_refuted",
    "C57_wrong_member_refuted",
    "C57_number_list_refuted"
   ],
   "note": "Exact characterisation of the JSON values that crash the conversion; whole documents without such values are read without a crash unless a model has a list of numbers or booleans (refuted)."
  },
  {
   "property": "C58",
   "status": "partial",
   "theorems": [
    "C58_standard_prefix",
    "C58_standard_prefix_exists",
    "C58_names_stay_apart_partial",
    "C58_names_fall_together_refuted",
    "C58_undeclared_taken_for_known_refuted"
   ],
   "note": "Declared namespaces; the iff needs different prefixes for different URIs, without that names fall together (refuted)."
  },
  {
   "property": "C59",
   "status": "partial",
   "theorems": [
    "C59_declared_on_descriptions_partial",
    "C59_other_declarations_ignored_partial",
    "C59_declared_on_rdf_refuted",
    "C59_default_namespace_refuted"
   ],
   "note": "Declarations on x:xmpmeta and rdf:RDF do not count: proved for every document (so the property is refuted). Accepted placements are proved for documents without models."
  },
  {
   "property": "C60",
   "status": "partial",
   "theorems": [
    "C60_broken_chain_partial",
    "C60_fails_iff_a_property_fails",
    "C60_toolkit_changes_refuted",
    "C60_toolkit_lost"
   ],
   "note": "A broken chain leaves everything but the toolkit name unchanged; the toolkit name changes (refuted) and is lost by every successful Decode."
  },
  {
   "property": "C61",
   "status": "partial",
   "theorems": [
    "C61_log_of_runs",
    "C61_one_record",
    "C61_last_is_current",
    "C61_shared_entry_refuted"
   ],
   "note": "Pointers are modelled with a memory. An entry that was added twice changes in both places (refuted)."
  },
  {
   "property": "C62",
   "status": "partial",
   "theorems": [
    "C62_delete_partial",
    "C62_index_len_panics_refuted",
    "C62_index_first"
   ],
   "note": "The index equal to the length panics for every list (refuted)."
  },
  {
   "property": "C63",
   "status": "proved",
   "theorems": [
    "C63_filter",
    "C63_intersect_and_contains"
   ],
   "note": ""
  },
  {
   "property": "C64",
   "status": "partial",
   "theorems": [
    "C64_genre_number",
    "C64_genre_list_partial",
    "C64_genre_list_refuted"
   ],
   "note": "The list is read back when every name is in the table; an unknown name makes the whole text an entry (refuted)."
  },
  {
   "property": "C65",
   "status": "partial",
   "theorems": [
    "C65_oecf_refuted",
    "C65_negative_dimensions_panic_refuted"
   ],
   "note": "The positive part for CFAPattern and DeviceSettings is C50_cfa_pattern and C50_device_settings. OECF tables with names are rejected, negative dimensions panic (refuted)."
  },
  {
   "property": "C66",
   "status": "proved",
   "theorems": [
    "C66_media_time"
   ],
   "note": "Below 9e9 seconds (no overflow of int64 nanoseconds)."
  },
  {
   "property": "C67",
   "status": "partial",
   "theorems": [
    "C67_fields_of_the_version_partial",
    "C67_version_skips_untagged_fields_refuted"
   ],
   "note": "With a version set, no field without a version in its tag is ever read or written (refuted for all types); the range test itself is C08."
  },
  {
   "property": "C68",
   "status": "partial",
   "theorems": [
    "C68_sets_last_entry_refuted",
    "C68_ids_of_last_two"
   ],
   "note": "SetPreviousVersionId renames the last entry and never the previous one (refuted for every history)."
  },
  {
   "property": "C69",
   "status": "partial",
   "theorems": [
    "C69_same_rate_partial",
    "C69_different_rates_refuted"
   ],
   "note": "Exact arithmetic instead of float64. The code multiplies by the rate instead of dividing (refuted); correct for equal rates."
  },
  {
   "property": "C70",
   "status": "proved",
   "theorems": [
    "C70_every_caller_gets_the_description",
    "C70_no_data_race",
    "C70_maps_change_only_in_writing_steps",
    "C70_no_deadlock"
   ],
   "note": "Machine with single map accesses as steps and a model of sync.RWMutex; fairness of the lock is not modelled."
  },
  {
   "property": "C71",
   "status": "partial",
   "theorems": [
    "C71_decoding_never_crashes_partial",
    "C71_number_list_refuted"
   ],
   "note": "All trees, for model types without lists of numbers, booleans or plain lists (refuted for them) and with text readers that do not crash."
  },
  {
   "property": "C72",
   "status": "proved",
   "theorems": [
    "C72_models_survive_xml"
   ],
   "note": "For storable documents (SpecTrip.v): bare models, values that their field types can store. The text layer of encoding/xml is modelled by xml_read, not verified."
  },
  {
   "property": "C73",
   "status": "partial",
   "theorems": [
    "C73_models_survive_json_partial",
    "C73_blank_models_lost_refuted"
   ],
   "note": "For storable documents whose models JSON can hold (json_model in SpecTrip.v); a model whose written properties hold no text is lost (refuted), lists of type Alt and what C56 refutes are excluded."
  },
  {
   "property": "C74",
   "status": "proved",
   "theorems": [
    "C74_document_listing"
   ],
   "note": "For every sorting function; the models are arbitrary (any listing)."
  },
  {
   "property": "C75",
   "status": "partial",
   "theorems": [
    "C75_get_tag",
    "C75_set_tag_partial",
    "C75_unknown_tag",
    "C75_others_stay",
    "C75_refused_text_partial",
    "C75_set_stores_nothing_refuted",
    "C75_refused_text_refuted",
    "C75_blanks_refuted"
   ],
   "note": "For texts that mean something for the type of the field (reads_as). Refuted: lists and catch-all fields accept any text and store nothing; a refused text leaves an allocated pointer; blanks around strings are dropped."
  },
  {
   "property": "C76",
   "status": "partial",
   "theorems": [
    "C76_can_tag_partial",
    "C76_answer_depends_on_values_refuted"
   ],
   "note": "For fields whose value has a text. Refuted: CanTag of a list of structs or a language alternative is false once it has values."
  },
  {
   "property": "C77",
   "status": "partial",
   "theorems": [
    "C77_set_language_partial",
    "C77_other_types_refused",
    "C77_get_language_panics_refuted"
   ],
   "note": "For alternatives with one default at the front and fields that are not pointers. Refuted: GetLocaleField panics for fields of other types and cannot read pointers."
  },
  {
   "property": "C78",
   "status": "partial",
   "theorems": [
    "C78_listing_partial",
    "C78_listed_reads_back_partial",
    "C78_listing_panics_refuted"
   ],
   "note": "Exact description of the successful listings. Refuted: listing panics for lists without text form and fails altogether for structs."
  },
  {
   "property": "C79",
   "status": "partial",
   "theorems": [
    "C79_tag_list_survives_partial",
    "C79_dash_refuted"
   ],
   "note": "For keys without dash and different pairs of key and language; both restrictions are needed (refuted)."
  },
  {
   "property": "C80",
   "status": "partial",
   "theorems": [
    "C80_quicktime_tags",
    "C80_can_tag_refuted",
    "C80_embedded_refuted",
    "C80_copyright_tags_refuted"
   ],
   "note": "Storing and reading is proved; CanTag is refuted for every tag longer than the prefix (swapped arguments), and for the tags of embedded documents and tags with the sign of copyright."
  },
  {
   "property": "C81",
   "status": "partial",
   "theorems": [
    "C81_library_survives_xml_partial",
    "C81_marker_types_lost_refuted",
    "C81_track_type_not_writable_refuted",
    "C81_foreign_field_moves_refuted"
   ],
   "note": "For all models of the library and every text form; values with reading or writing methods that are not described (special in ModelTypes.v), and in five models fields of other namespaces, are excluded. Refuted for the marker and track types of xmpDM and for fields of other namespaces."
  },
  {
   "property": "C82",
   "status": "partial",
   "theorems": [
    "C82_library_survives_json_partial"
   ],
   "note": "As C81, for alternatives with the languages JSON needs, without lists of type Alt and without properties that hold no text at all."
  },
  {
   "property": "C83",
   "status": "partial",
   "theorems": [
    "C83_empty_records_partial",
    "C83_manage_ui_refuted",
    "C83_media_time_refuted"
   ],
   "note": "For twelve of the record types; refuted for ResourceRef (ManageUI) and MediaTime (numerator of the scale). OECF, CFAPattern and DeviceSettings are wrong too but can only be read as text."
  },
  {
   "property": "C84",
   "status": "partial",
   "theorems": [
    "C84_saving_keeps_what_is_said_partial",
    "C84_creation_date_refuted",
    "C84_comment_refuted"
   ],
   "note": "For title, creator, description and rights of Dublin Core and for the modification date and tool of the basic model, for all documents. Refuted for the creation date (ID3) and for the media properties (ID3, iXML). Native fields of EXIF and RIFF models are modelled (the same for all models of a document); those of QuickTime models (embedded XMP, iXML and location) are not."
  },
  {
   "property": "C85",
   "status": "partial",
   "theorems": [
    "C85_saving_fills_shared_properties_partial"
   ],
   "note": "For all 22 shared properties. Native fields of EXIF and RIFF models are modelled (the same for all models of a document); those of QuickTime models (embedded XMP, iXML and location) are not."
  },
  {
   "property": "C86",
   "status": "partial",
   "theorems": [
    "C86_saving_again_changes_nothing_partial"
   ],
   "note": "For all documents of models of the library. Native fields of EXIF and RIFF models are modelled (the same for all models of a document); those of QuickTime models (embedded XMP, iXML and location) are not."
  },
  {
   "property": "C87",
   "status": "partial",
   "theorems": [
    "C87_saving_changes_nothing_else_partial"
   ],
   "note": "For all documents of models of the library and all outcomes. Native fields of EXIF and RIFF models are modelled (the same for all models of a document); those of QuickTime models (embedded XMP, iXML and location) are not."
  },
  {
   "property": "C88",
   "status": "partial",
   "theorems": [
    "C88_saving_succeeds_partial",
    "C88_id3_date_refuted"
   ],
   "note": "Exact condition; refuted for ID3 models with a date and time of ID3 v2.3 but no recording time (panic). Native fields of EXIF and RIFF models are modelled (the same for all models of a document); those of QuickTime models (embedded XMP, iXML and location) are not."
  },
  {
   "property": "C89",
   "status": "partial",
   "theorems": [
    "C89_reading_copies_to_native_models_partial",
    "C89_reading_changes_nothing_else_partial",
    "C89_reading_succeeds_partial",
    "C89_exif_tool_refuted",
    "C89_exif_creators_refuted"
   ],
   "note": "For the 46 fields that are copied as they are; the 19 computed ones are only known to be the only others that change. Refuted for the tool of Exif (inverted test) and for a list of creators in Exif (comma and semicolon). Native fields of EXIF and RIFF models are modelled (the same for all models of a document); those of QuickTime models (embedded XMP, iXML and location) are not."
  },
  {
   "property": "C90",
   "status": "partial",
   "theorems": [
    "C90_reading_again_changes_nothing_partial",
    "C90_genres_grow_refuted"
   ],
   "note": "For all fields but the genres of ID3, for which it is refuted for every document with a genre. Native fields of EXIF and RIFF models are modelled (the same for all models of a document); those of QuickTime models (embedded XMP, iXML and location) are not."
  },
  {
   "property": "C91",
   "status": "partial",
   "theorems": [
    "C91_title_refuted"
   ],
   "note": "Refuted: PDFInfo has the same property, and the later node wins. For documents without such models C81 shows that the values set are read back."
  },
  {
   "property": "C92",
   "status": "partial",
   "theorems": [
    "C92_date_text_partial",
    "C92_whole_seconds",
    "C92_written_form",
    "C92_no_date",
    "C92_absent",
    "C92_fraction_refuted",
    "C92_far_year_refuted",
    "C92_odd_zone_refuted"
   ],
   "note": "For years 0 to 9999 and zones of whole minutes within a day, up to the second. Refuted: every fraction of a second is lost; years from 10000 on are not read back; seconds of a zone are lost."
  },
  {
   "property": "C93",
   "status": "partial",
   "theorems": [
    "C93_iso_forms",
    "C93_other_forms",
    "C93_as_value",
    "C93_list_text",
    "C93_basic_zone_refuted"
   ],
   "note": "All forms of the XMP specification and eleven others. Refuted: a timestamp with zone +hhmm, one of the listed layouts, is never read (repairTZ damages it)."
  },
  {
   "property": "C94",
   "status": "partial",
   "theorems": [
    "C94_time_text_partial",
    "C94_photo_mechanic_partial",
    "C94_time_stable",
    "C94_time_forms",
    "C94_day_refuted"
   ],
   "note": "Clock and zone, for zones of whole minutes within a day. Refuted for the day, which a time.Time carries."
  },
  {
   "property": "C95",
   "status": "partial",
   "theorems": [
    "C95_exif_forms",
    "C95_exif_text_partial",
    "C95_utc",
    "C95_zone_refuted",
    "C95_iso_refuted"
   ],
   "note": "All listed forms are read; the clock survives. Refuted: the zone is lost, so the moment changes by its offset; ISO days, months and minutes with zone are rejected."
  },
  {
   "property": "C96",
   "status": "partial",
   "theorems": [
    "C96_subseconds_refuted",
    "C96_error_refuted",
    "C96_whole_seconds_partial"
   ],
   "note": "Refuted: no sub-second text is ever added, and the error is reported exactly when there is none (inverted test)."
  },
  {
   "property": "C97",
   "status": "partial",
   "theorems": [
    "C97_time_read",
    "C97_time_written",
    "C97_date_text_partial",
    "C97_tdat_refuted",
    "C97_tdat_written_refuted"
   ],
   "note": "Times are right. Refuted for dates: the layout is MMDD, so days after the 12th are rejected and other days are taken for months."
  },
  {
   "property": "C98",
   "status": "partial",
   "theorems": [
    "C98_dates_exist",
    "C98_no_panic",
    "C98_normalised_partial",
    "C98_zone_refuted"
   ],
   "note": "Existence and panic freedom for all texts; normalisation for zones less than a day. Refuted for zones beyond 99:59, which are read but written as texts that are not."
  },
  {
   "property": "C99",
   "status": "partial",
   "theorems": [
    "C99_contains",
    "C99_add",
    "C99_del_partial",
    "C99_del_last",
    "C99_del_absent",
    "C99_del_refuted",
    "C99_built_by_add",
    "C99_is_default"
   ],
   "note": "Del for lists without duplicates; refuted for lists with a value twice (Del removes the last one)."
  },
  {
   "property": "C100",
   "status": "partial",
   "theorems": [
    "C100_merge",
    "C100_sub_partial",
    "C100_sub_self_refuted"
   ],
   "note": "Merge in full. Sub for lists in different arrays and without duplicates; refuted for a list minus itself."
  },
  {
   "property": "C101",
   "status": "partial",
   "theorems": [
    "C101_adds_full",
    "C101_merge_full",
    "C101_predefined_are_full",
    "C101_add",
    "C101_del_partial",
    "C101_sub_partial",
    "C101_del_refuted",
    "C101_sub_refuted",
    "C101_add_after_del_refuted"
   ],
   "note": "Add and Merge on lists without spare room, and every operation on lists in different arrays. Refuted for Del, Sub and Add after Del on copies of the predefined lists."
  },
  {
   "property": "C102",
   "status": "proved",
   "theorems": [
    "C102_take_types",
    "C102_flags_cleared",
    "C102_samples_existing",
    "C102_samples_new",
    "C102_no_samples",
    "C102_idempotent"
   ],
   "note": "For every record; the sizes of integers are not modelled."
  },
  {
   "property": "C103",
   "status": "partial",
   "theorems": [
    "C103_trip_partial",
    "C103_read",
    "C103_marked_twice_refuted",
    "C103_text_refuted",
    "C103_same_name_refuted"
   ],
   "note": "Names and nodes come back, attributes with one more. Refuted: after one trip the written element has two attributes of one name; the text is lost; of two extensions with one name the first is lost."
  },
  {
   "property": "C104",
   "status": "partial",
   "theorems": [
    "C104_goes_to_extension",
    "C104_name_refuted",
    "C104_simple_refuted",
    "C104_children_partial"
   ],
   "note": "Goes to the Extension field (decoder without version); child nodes are kept. Refuted for the name, the text and the attributes: nothing is left of a property without children."
  },
  {
   "property": "C105",
   "status": "partial",
   "theorems": [
    "C105_trip_partial",
    "C105_bag",
    "C105_undeclared_kept",
    "C105_add_pantry",
    "C105_attributes_refuted",
    "C105_add_pantry_refuted",
    "C105_about_refuted"
   ],
   "note": "For items of properties without a model, written as elements. Refuted: properties written as attributes are dropped; AddPantry items are written with an extra element for each model; rdf:about in an item makes decoding fail."
  },
  {
   "property": "C106",
   "status": "partial",
   "theorems": [
    "C106_trip_partial",
    "C106_forms_partial",
    "C106_scheme_refuted",
    "C106_written_form",
    "C106_resource_refuted"
   ],
   "note": "Ids without scheme and three forms, for a decoder without version. Refuted: every identifier with a scheme is read as an empty one."
  },
  {
   "property": "C107",
   "status": "partial",
   "theorems": [
    "C107_trip_partial",
    "C107_forms",
    "C107_value_refuted",
    "C107_left_out",
    "C107_numbers_refuted"
   ],
   "note": "Format and numbers (not negative) come back. Refuted: the value is never written, so a time code made from its text becomes 00:00:00:00; one with just numbers counts as empty."
  },
  {
   "property": "C108",
   "status": "partial",
   "theorems": [
    "C108_lost_refuted",
    "C108_empty",
    "C108_smpb_partial"
   ],
   "note": "Text form of SMPB. Refuted for eleven record types: what is read does not depend on what was written."
  },
  {
   "property": "C109",
   "status": "partial",
   "theorems": [
    "C109_text_partial",
    "C109_attribute_partial",
    "C109_resource_refuted"
   ],
   "note": "The text form. Refuted: an rdf:resource attribute is never found in a packet that declares the prefix."
  },
  {
   "property": "C110",
   "status": "partial",
   "theorems": [
    "C110_format_image_partial",
    "C110_swapped_refuted"
   ],
   "note": "Format and image. Refuted: width and height are swapped."
  },
  {
   "property": "C111",
   "status": "partial",
   "theorems": [
    "C111_contains",
    "C111_add_unique",
    "C111_remove_absent_partial",
    "C111_remove_refuted"
   ],
   "note": "Contains and AddUnique in full, Remove of absent ids. Refuted: Remove never removes."
  },
  {
   "property": "C112",
   "status": "partial",
   "theorems": [
    "C112_own_field_partial",
    "C112_no_other_keys_partial",
    "C112_riff_refuted",
    "C112_exifex_refuted"
   ],
   "note": "For the models whose type can be read: 26 of 28. Refuted: no native tag of the RIFF model works (two fields with tag IARL, two with ICMS); the tags of ExifEX are declared under another key."
  },
  {
   "property": "C113",
   "status": "partial",
   "theorems": [
    "C113_any_case_partial",
    "C113_no_tag_refuted",
    "C113_can_tag_refuted"
   ],
   "note": "GetTag, SetTag and the locale functions. Refuted: CanTag is case sensitive; the fifteen Aux fields declare tags that are never found."
  },
  {
   "property": "C114",
   "status": "partial",
   "theorems": [
    "C114_same_frame_partial",
    "C114_declared",
    "C114_other_lengths",
    "C114_genre_refuted",
    "C114_lost_tag_refuted",
    "C114_languages_refuted"
   ],
   "note": "For frames whose successor is listed right. Refuted: TCO stands for TMED instead of TCON; a lost frame; the languages of comments."
  },
  {
   "property": "C115",
   "status": "partial",
   "theorems": [
    "C115_clock_partial",
    "C115_frames_partial",
    "C115_frames_refuted",
    "C115_no_rate_refuted"
   ],
   "note": "Hours, minutes and seconds for numbers that do not overflow; frames when the numerator is 1000 times a whole rate. Refuted: with a rate such as 25/1 the frame is always 0; sample rate 0 with rate 0/1 crashes."
  },
  {
   "property": "C116",
   "status": "partial",
   "theorems": [
    "C116_exact_partial",
    "C116_near",
    "C116_non_drop_refuted"
   ],
   "note": "Rates are exact rational numbers. Refuted for 59.94 without drop frames, which gets the drop frame format."
  },
  {
   "property": "C117",
   "status": "partial",
   "theorems": [
    "C117_text",
    "C117_number_partial",
    "C117_capital_refuted",
    "C117_json_partial",
    "C117_json_refuted"
   ],
   "note": "Numbers are exact decimals, so rounding to 32 or 64 bits is not covered. Text in full; JSON for finite numbers and NaN. Refuted: JSON swaps the infinities; an exponent with a capital E is refused or read as another number."
  },
  {
   "property": "C118",
   "status": "partial",
   "theorems": [
    "C118_unit_partial",
    "C118_missing",
    "C118_unit_refuted"
   ],
   "note": "Units without digits, signs, points and the letter e. Refuted: with an e in the unit (sec, meter) every number is refused."
  },
  {
   "property": "C119",
   "status": "partial",
   "theorems": [
    "C119_float",
    "C119_whole",
    "C119_text_partial",
    "C119_unit_partial",
    "C119_fraction_refuted",
    "C119_negative_refuted",
    "C119_zero_refuted"
   ],
   "note": "Numbers from 1 on, and the fractions 1/n. Refuted: between 20/39 and 1 everything is read as 1/1; negative numbers as 1/0; zero has numerator 1."
  },
  {
   "property": "C120",
   "status": "partial",
   "theorems": [
    "C120_read_partial",
    "C120_write_partial",
    "C120_sign_refuted",
    "C120_minutes_refuted",
    "C120_range_refuted"
   ],
   "note": "Angles of both directions up to rounding. Refuted: the sign is dropped on reading; minutes can be written as 60; degrees beyond 360 and NaN are accepted."
  },
  {
   "property": "C121",
   "status": "partial",
   "theorems": [
    "C121_time_partial",
    "C121_whole_partial",
    "C121_unset_refuted",
    "C121_no_date"
   ],
   "note": "Fractions that are not negative, less than 3 ns off; whole numbers exactly. Refuted: a component with denominator 0 counts as one unit."
  },
  {
   "property": "C122",
   "status": "partial",
   "theorems": [
    "C122_native_fields_are_saved_partial"
   ],
   "note": "For all 13 computed properties of EXIF models and all 3 of RIFF models; the native fields are the same for all models of a document."
  },
  {
   "property": "C123",
   "status": "proved",
   "theorems": [
    "C123_duration_text",
    "C123_duration_notation"
   ],
   "note": "All durations, text and JSON."
  },
  {
   "property": "C124",
   "status": "partial",
   "theorems": [
    "C124_units_are_read",
    "C124_seconds_partial",
    "C124_many_seconds_refuted",
    "C124_blank_refuted"
   ],
   "note": "All texts with units (decimals that are whole nanoseconds), with white space anywhere; all whole numbers that fit. Refuted: more seconds than 64 bits hold wrap around; a number of seconds with white space is refused."
  },
  {
   "property": "C125",
   "status": "partial",
   "theorems": [
    "C125_truncate_partial",
    "C125_begun_partial",
    "C125_truncate_refuted",
    "C125_nearest_refuted"
   ],
   "note": "Exact behaviour where floating point quotients are exact (up to 2^53 ns): away from zero. Refuted: Truncate never truncates, RoundTo counts begun units."
  },
  {
   "property": "C126",
   "status": "partial",
   "theorems": [
    "C126_json_numbers",
    "C126_json_truth",
    "C126_null_refuted",
    "C126_placeholders"
   ],
   "note": "All values and placeholders; refuted for null, which is an error or sets false."
  },
  {
   "property": "C127",
   "status": "partial",
   "theorems": [
    "C127_collects_partial",
    "C127_again",
    "C127_library_ids",
    "C127_quicktime_refuted",
    "C127_same_text_refuted",
    "C127_overwritten",
    "C127_library_safe"
   ],
   "note": "Documents whose models do not crash when asked for an identifier; shown for all documents of library models with well-typed values. Refuted: four QuickTime identifiers are never collected; a value equal to the first identifier without its mark is skipped."
  },
  {
   "property": "C128",
   "status": "partial",
   "theorems": [
    "C128_location_partial",
    "C128_location_kept",
    "C128_iso6709_refuted",
    "C128_no_name_refuted"
   ],
   "note": "Locations with a name and without plus signs in the coordinates; altitudes are exact decimals. Refuted: the documented form +43.5968+005.4797+362.904/ gives an empty latitude and shifts the others; a location without a name is dropped."
  },
  {
   "property": "C129",
   "status": "proved",
   "theorems": [
    "C129_list_text",
    "C129_alt_text"
   ],
   "note": "All texts."
  },
  {
   "property": "C130",
   "status": "proved",
   "theorems": [
    "C130_names",
    "C130_distinct",
    "C130_zero"
   ],
   "note": "All pairs of factors."
  },
  {
   "property": "C131",
   "status": "proved",
   "theorems": [
    "C131_read_list",
    "C131_bad_entry",
    "C131_truncated",
    "C131_round_trip"
   ],
   "note": "All token streams of well-nested elements; the entries themselves are abstract (encoding/xml decodes them)."
  },
  {
   "property": "C132",
   "status": "partial",
   "theorems": [
    "C132_grow_partial",
    "C132_index_refuted",
    "C132_get",
    "C132_list",
    "C132_set_partial",
    "C132_history_partial",
    "C132_library",
    "C132_delete_language_refuted"
   ],
   "note": "All 24 models of the library whose types can be read, provided their MarshalText and UnmarshalText methods do not crash, and indices below the limits of memory. Refuted: deleting the default text of an alternative with three or more languages crashes; so does creating an entry at an index above 2^47."
  },
  {
   "property": "C133",
   "status": "partial",
   "theorems": [
    "C133_history_partial",
    "C133_library",
    "C133_delete_language_refuted",
    "C133_sync_refuted"
   ],
   "note": "The exact list of reasons for a crash: deleting a language, synchronizing to a namespace without a model type, a destination model that is not in the document. Both of the first are shown to crash (refuted). SyncToXMP is assumed not to crash; memory limits as in C132."
  },
  {
   "property": "C134",
   "status": "partial",
   "theorems": [
    "C134_exact_partial",
    "C134_unit_partial",
    "C134_decimal_partial",
    "C134_fraction_refuted",
    "C134_empty_refuted",
    "C134_zero_refuted"
   ],
   "note": "Names, whole numbers and ratios are exact, decimals with a unit are exact, decimals from 1 on without a unit are within 1/20000 (1/2000000 up to 2147). Refuted: fractions between 20/39 and 1 without a unit, the empty text and ratios with denominator 0 are read as 1. Floating point rounding is not modelled."
  },
  {
   "property": "C135",
   "status": "partial",
   "theorems": [
    "C135_binary",
    "C135_stranger_partial",
    "C135_length_partial",
    "C135_recovered",
    "C135_kept",
    "C135_once",
    "C135_same_text_refuted",
    "C135_letters_refuted",
    "C135_numbers",
    "C135_identifiers"
   ],
   "note": "Binary data is written as base64 (after RFC 4648) or left as it is; it is encoded if it has a byte foreign to base64 or a length that is not a multiple of 4; base64 stays as it is; the data of a base64 text is unique. Refuted: data and its own base64 have the same text; data that happens to look like base64 is not encoded. Floating point numbers are not modelled here."
  },
  {
   "property": "C136",
   "status": "partial",
   "theorems": [
    "C136_added",
    "C136_removed_refuted",
    "C136_replaced_refuted",
    "C136_walk_refuted",
    "C136_collected"
   ],
   "note": "Lists taken before stay as they were when nodes are added. Refuted for removal (the earlier list loses the node and repeats its last one) and for replacing; walking Document.Nodes() while removing leaves every other node but the last (for all lists). With the names collected first, as FilterNamespaces does, all nodes go."
  },
  {
   "property": "C137",
   "status": "partial",
   "theorems": [
    "C137_exact_partial",
    "C137_new_node_partial",
    "C137_self",
    "C137_two_refuted"
   ],
   "note": "The check refuses only a node added to itself; the nodes stay a tree exactly if the parent is not below the new child, as with new nodes. Refuted: two nodes added to each other form a loop. Modelled on AppendNode; AddNode has the same check."
  },
  {
   "property": "C138",
   "status": "proved",
   "theorems": [
    "C138_close_document",
    "C138_copy_and_close",
    "C138_clear",
    "C138_shared_nodes_come_twice"
   ],
   "note": "For documents whose nodes are in use and occur once; a node that is in two documents is given back twice (shown). Calls are uninterrupted; interleaved calls are the subject of C18."
  },
  {
   "property": "C139",
   "status": "partial",
   "theorems": [
    "C139_strict_weak_order",
    "C139_sorted_partial",
    "C139_maximum_refuted"
   ],
   "note": "No marker is lost; the order is right for markers of one positive frame rate that do not start at maximum. Refuted: maximum is sorted in front of 0. Different rates are refuted by C69. That sort.Sort ends is not modelled; that IsSmaller is a strict weak order, which it needs, is proved."
  },
  {
   "property": "C140",
   "status": "partial",
   "theorems": [
    "C140_counts",
    "C140_in_use_partial",
    "C140_closed_twice_refuted",
    "C140_never_too_much",
    "C140_in_turns",
    "C140_lost_counts_refuted"
   ],
   "note": "For uninterrupted calls: the pool number always, the number in use when only held nodes are closed. Refuted: a node closed twice makes the number negative; increments of several goroutines get lost (for every number of goroutines), as the counters are not protected. They never count too much. Counters are unbounded in the model."
  },
  {
   "property": "C141",
   "status": "partial",
   "theorems": [
    "C141_levels",
    "C141_formatted_partial",
    "C141_plain_refuted"
   ],
   "note": "Levels for all histories; the text for Errorf, Warnf, Infof and Debugf with string arguments and verbs %s. Refuted for Error, Warn, Info and Debug: every message comes out as %!(EXTRA ...) on a second line."
  },
  {
   "property": "C142",
   "status": "partial",
   "theorems": [
    "C142_namespaces",
    "C142_contains",
    "C142_contains_registered_partial",
    "C142_other_uri_refuted"
   ],
   "note": "Namespaces in full; Contains compares the prefix only, so it is right where no prefix is used for two URIs (refuted otherwise)."
  },
  {
   "property": "C143",
   "status": "partial",
   "theorems": [
    "C143_asked_for_partial",
    "C143_all",
    "C143_first_packet",
    "C143_no_packet",
    "C143_exit_code",
    "C143_quiet_partial",
    "C143_quiet_refuted",
    "C143_all_ignored_refuted",
    "C143_scan"
   ],
   "note": "For any functions in place of those of the library. The exit code in full (library without panics). The forms without -quiet and -debug. Refuted: -path prints with -quiet too; -all has no effect on -xmp, -json and -path, and with -orig switches them off."
  },
  {
   "property": "C144",
   "status": "partial",
   "theorems": [
    "C144_once",
    "C144_listed_partial",
    "C144_exact_partial",
    "C144_left_over_refuted",
    "C144_lost_refuted",
    "C144_decoded"
   ],
   "note": "A document just read lists exactly the declared namespaces (registrations as in C11), each once. New documents: each once for every history; exactly the namespaces of the models where every model has one namespace; without removals those of all models are listed. Changes to documents that were read are not covered. Refuted for models with two namespaces (exif): RemoveNamespace leaves one behind, and takes away one that another model still has."
  },
  {
   "property": "C145",
   "status": "proved",
   "theorems": [
    "C145_identifiers",
    "C145_rest",
    "C145_date",
    "C145_snapshot"
   ],
   "note": "Every history of assigning fields, making, changing and recording events (nil ones and the same one twice too) and making references."
  },
  {
   "property": "C146",
   "status": "partial",
   "theorems": [
    "C146_read_back_partial",
    "C146_stable",
    "C146_history_partial",
    "C146_semicolon_refuted",
    "C146_time_refuted"
   ],
   "note": "For all paths without semicolon and without the word time followed by a colon; writing again is stable for all paths. Refuted for the others: a semicolon splits the path, a time that is no number makes the history unreadable."
  },
  {
   "property": "C147",
   "status": "partial",
   "theorems": [
    "C147_deletes",
    "C147_earlier_list_refuted",
    "C147_earlier_list_partial",
    "C147_loop_leaves_refuted",
    "C147_down_empties"
   ],
   "note": "The list itself is right for every array (refinement of C62), and deleting from the last to the first empties it. Refuted: an earlier list is overwritten (exactly when it changes is proved), and deleting each reference in a range loop leaves the second of three or more."
  },
  {
   "property": "C148",
   "status": "partial",
   "theorems": [
    "C148_languages",
    "C148_one_language_partial",
    "C148_one_date_partial",
    "C148_empty_refuted",
    "C148_other_lists_refuted"
   ],
   "note": "Proved for dc:language and lists of dates with a text that is not blank. Refuted for a blank element and for every other list type: reading fails."
  },
  {
   "property": "C149",
   "status": "proved",
   "theorems": [
    "C149_any_text",
    "C149_lists",
    "C149_lists_total",
    "C149_timecode_flag",
    "C149_timecode_flag_refused",
    "C149_media_known",
    "C149_media_other",
    "C149_media_distinct",
    "C149_default"
   ],
   "note": "Holds. Words of a list may not hold a comma."
  }
 ]
}