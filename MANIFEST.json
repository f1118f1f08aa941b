{
 "claims": [
  {
   "property": "C01",
   "status": "proved",
   "theorems": [
    "C01_bisect_is_child",
    "C01_bisect_overflow_is_ub",
    "C01_parent_of_bisect",
    "C01_bisect_of_parent"
   ],
   "note": ""
  },
  {
   "property": "C02",
   "status": "proved",
   "theorems": [
    "C02_children_exact",
    "C02_children_are_one_level_down"
   ],
   "note": ""
  },
  {
   "property": "C03",
   "status": "proved",
   "theorems": [
    "C03_parents_chain",
    "C03_parents_invalid"
   ],
   "note": ""
  },
  {
   "property": "C04",
   "status": "proved",
   "theorems": [
    "C04_child_of_iff",
    "C04_reflexive",
    "C04_transitive",
    "C04_antisymmetric"
   ],
   "note": ""
  },
  {
   "property": "C05",
   "status": "proved",
   "theorems": [
    "C05_partial",
    "C05_refuted",
    "C05_ub_region",
    "C05_bad_depth_throws",
    "C05_invalid_key"
   ],
   "note": "Statement as written (with its parenthetical) is covered: C05_refuted shows the out-of-range conversion for d-depth >= 31; on the whole remaining region the function is proved correct and the failing region is characterised exactly."
  },
  {
   "property": "C06",
   "status": "proved",
   "theorems": [
    "C06_entry_is_32_bytes",
    "C06_entry_roundtrip",
    "C06_entry_layout"
   ],
   "note": ""
  },
  {
   "property": "C07",
   "status": "proved",
   "theorems": [
    "C07_bit_fields_independent",
    "C07_out_of_range_throws"
   ],
   "note": ""
  },
  {
   "property": "C08",
   "status": "proved",
   "theorems": [
    "C08_every_reachable_point_is_well_formed",
    "C08_record_length",
    "C08_layout",
    "C08_unpack_of_pack"
   ],
   "note": ""
  },
  {
   "property": "C09",
   "status": "proved",
   "theorems": [
    "C09_repack_gives_the_stored_integer",
    "C09_outside_the_region_it_can_fail"
   ],
   "note": ""
  },
  {
   "property": "C10",
   "status": "proved",
   "theorems": [
    "C10_finite_quotient",
    "C10_infinite_quotient_throws",
    "C10_pack_succeeds_iff_in_range",
    "C10_nan_is_not_rejected_refuted"
   ],
   "note": "The three cases finite / infinite / NaN quotient are characterised exactly; the NaN case is a defect of the code (UB), proved as C10_nan_is_not_rejected_refuted."
  },
  {
   "property": "C11",
   "status": "proved",
   "theorems": [
    "C11_pack_size_and_order",
    "C11_unpack_rejects_ragged_arrays",
    "C11_unpack_in_order",
    "C11_pack_of_unpack"
   ],
   "note": "Record lengths up to 65535 (LAS limit) and at most INT32_MAX points (beyond that the loop counter overflows)."
  },
  {
   "property": "C12",
   "status": "proved",
   "theorems": [
    "C12_containers_stay_uniform",
    "C12_mismatching_point_rejected",
    "C12_aliasing_refuted",
    "C12_long_records_refuted"
   ],
   "note": "Uniformity proved for every history without an aliased format change; the aliasing failure and the >65535-byte record failure are proved as _refuted witnesses."
  },
  {
   "property": "C13",
   "status": "proved",
   "theorems": [
    "C13_coordinate_arrays",
    "C13_integer_arrays",
    "C13_wrong_length_throws",
    "C13_colour_on_colourless_throws_first",
    "C13_source_id_refuted",
    "C13_duplicates_refuted"
   ],
   "note": "Proved for containers without repeated objects; source-id truncation and repeated-object failures proved as witnesses."
  },
  {
   "property": "C14",
   "status": "proved",
   "theorems": [
    "C14_to_point_format",
    "C14_other_formats_throw"
   ],
   "note": ""
  },
  {
   "property": "C15",
   "status": "proved",
   "theorems": [
    "C15_equality_symmetric",
    "C15_equality_reflexive",
    "C15_equal_points_agree",
    "C15_not_transitive_refuted"
   ],
   "note": "Symmetry, reflexivity and field agreement proved; non-transitivity proved by a witness."
  },
  {
   "property": "C16",
   "status": "proved",
   "theorems": [
    "C16_angle_within_one_unit",
    "C16_exact_refuted"
   ],
   "note": "Exact round trip is false of the code (witness); the +-1 bound is proved for all 65536 angles (finite domain, swept completely inside the kernel)."
  },
  {
   "property": "C17",
   "status": "proved",
   "theorems": [
    "C17_header_roundtrip",
    "C17_header_size",
    "C17_rejected",
    "C17_full_guid_refuted"
   ],
   "note": "Round trip for every header field and every rest of file; the full-length GUID defect is C17_full_guid_refuted. lazperf's header14 layout is modelled concretely (LAS 1.4 public header block)."
  },
  {
   "property": "C18",
   "status": "proved",
   "theorems": [
    "C18_legacy_counts",
    "C18_legacy_counts_on_disk"
   ],
   "note": "On the struct and on the bytes at their LAS 1.4 positions."
  },
  {
   "property": "C19",
   "status": "proved",
   "theorems": [
    "C19_bounds_track_points"
   ],
   "note": ""
  },
  {
   "property": "C20",
   "status": "proved",
   "theorems": [
    "C20_zero_offset_in_range",
    "C20_unit_scale_in_range",
    "C20_inverse_refuted",
    "C20_value",
    "C20_inverse",
    "C20_otherwise_off"
   ],
   "note": "C20_value: for every scale, offset and vector whose result is finite the result is v + offset/scale - offset up to rounding; C20_inverse (offset 0 or scale 1) and C20_otherwise_off follow; C20_inverse_refuted is the witness. The *_in_range theorems give ranges in which the result is finite."
  },
  {
   "property": "C21",
   "status": "proved",
   "theorems": [
    "C21_constructor",
    "C21_constructors_agree",
    "C21_two_dimensional_constructor",
    "C21_list_constructor_rejects_other_lengths",
    "C21_constructed_iff_ordered",
    "C21_contains_point",
    "C21_contains_box",
    "C21_intersects",
    "C21_relations"
   ],
   "note": "Every constructor and predicate of box.cpp."
  },
  {
   "property": "C22",
   "status": "proved",
   "theorems": [
    "C22_exact_children_tile_parent",
    "C22_exact_faces",
    "C22_binary64_exact_on_grids",
    "C22_binary64_boxes_ordered",
    "C22_binary64_lower_children_inside",
    "C22_binary64_upper_child_overhang_refuted",
    "C22_binary64_children_gap_refuted"
   ],
   "note": "Exact subdivision proved; binary64: ordering, lower-child nesting and grid-exact equality proved for all headers within 2^900 and depth < 900; overhang and gap proved by witnesses."
  },
  {
   "property": "C23",
   "status": "proved",
   "theorems": [
    "C23_key_relations",
    "C23_key_contains_point"
   ],
   "note": ""
  },
  {
   "property": "C24",
   "status": "proved",
   "theorems": [
    "C24_extents_roundtrip",
    "C24_extended_roundtrip",
    "C24_wrong_count_rejected",
    "C24_wrong_extended_rejected"
   ],
   "note": "Extents VLR and extended VLR, payload and announced length; up to 4095 dimensions (65535-byte VLR)."
  },
  {
   "property": "C25",
   "status": "proved",
   "theorems": [
    "C25_reslot"
   ],
   "note": "All dimensions by accessor; see SpecConfig.carried."
  },
  {
   "property": "C26",
   "status": "proved",
   "theorems": [
    "C26_constructor",
    "C26_copy_constructor",
    "C26_list_constructor_bounds",
    "C26_list_constructor_two",
    "C26_negative_variance_refuted"
   ],
   "note": "NaN bounds count as accepted (min > max is false), as in the code. Negative variance through the list constructor: C26_negative_variance_refuted."
  },
  {
   "property": "C27",
   "status": "proved",
   "theorems": [
    "C27_record_length",
    "C27_undocumented_type_refuted",
    "C27_overflow_refuted"
   ],
   "note": "Declared sizes are an independent table (SpecConfig.las_eb_size); the two failures are C27_undocumented_type_refuted and C27_overflow_refuted."
  },
  {
   "property": "C28",
   "status": "proved",
   "theorems": [
    "C28_chunks_kept"
   ],
   "note": "All histories, codecs and container orders."
  },
  {
   "property": "C29",
   "status": "proved",
   "theorems": [
    "C29_write_order",
    "C29_tiling",
    "C29_laz_tiling"
   ],
   "note": "COPC and LAZ; chunks of at most 2^31-1 bytes (larger ones are refused after being written, see C31)."
  },
  {
   "property": "C30",
   "status": "proved",
   "theorems": [
    "C30_point_count",
    "C30_laz_point_count",
    "C30_laz_running_counts"
   ],
   "note": "COPC and LAZ; counts modulo 2^64 in general, exact for totals below 2^64."
  },
  {
   "property": "C31",
   "status": "proved",
   "theorems": [
    "C31_bad_calls_throw",
    "C31_no_effect",
    "C31_same_file",
    "C31_oversize_refuted"
   ],
   "note": "Wrong calls of every kind throw without effect, refused calls can be dropped from the session; the oversize chunk is proved to be an exception (C31_oversize_refuted)."
  },
  {
   "property": "C32",
   "status": "proved",
   "theorems": [
    "C32_find_added",
    "C32_find_absent",
    "C32_other_page_refuted"
   ],
   "note": "For every session whose placement is settled (a key keeps its page) and whose counts are positive, after any earlier queries; C32_other_page_refuted: a key added again under another page."
  },
  {
   "property": "C33",
   "status": "proved",
   "theorems": [
    "C33_all_nodes",
    "C33_page_list"
   ],
   "note": "GetAllNodes and GetPageList on the file of every settled session, all container orders of both sides, after any earlier queries."
  },
  {
   "property": "C34",
   "status": "proved",
   "theorems": [
    "C34_compressed",
    "C34_records",
    "C34_points_of_records",
    "C34_points",
    "C34_absent"
   ],
   "note": "Compressed bytes, records, and points (rounded to the header scale, in order); lossless codec. Records of up to 255 bytes: for longer ones C55_long_records_refuted is the counterexample."
  },
  {
   "property": "C35",
   "status": "proved",
   "theorems": [
    "C35_opens_with_the_configuration",
    "C35_reader_in_use",
    "C35_constructor_settings",
    "C35_empty_descriptor_refuted"
   ],
   "note": "All complete sessions whose configuration the file's fields can hold (SpecRound.storable); C35_empty_descriptor_refuted is the counterexample for descriptors without bytes."
  },
  {
   "property": "C36",
   "status": "proved",
   "theorems": [
    "C36_directories",
    "C36_laz_directories"
   ],
   "note": "Up to 341 extra-byte descriptors (beyond, the 16-bit VLR length overflows). Descriptors of total size 0 leave unused bytes before the point data."
  },
  {
   "property": "C37",
   "status": "proved",
   "theorems": [
    "C37_close_twice",
    "C37_laz_close_twice"
   ],
   "note": "Any writer state, COPC and LAZ."
  },
  {
   "property": "C38",
   "status": "proved",
   "theorems": [
    "C38_other_calls",
    "C38_refuted"
   ],
   "note": "Statement with its parenthetical: C38_refuted is the defect, C38_other_calls the part that holds."
  },
  {
   "property": "C39",
   "status": "proved",
   "theorems": [
    "C39_close_succeeds",
    "C39_refuted"
   ],
   "note": "Statement with its parenthetical."
  },
  {
   "property": "C40",
   "status": "proved",
   "theorems": [
    "C40_positive",
    "C40_refuted"
   ],
   "note": "Statement with its parenthetical; the reader's view of the entry is C44/C32."
  },
  {
   "property": "C41",
   "status": "proved",
   "theorems": [
    "C41_hierarchy",
    "C41_move",
    "C41_move_to_current",
    "C41_second_move_refuted",
    "C41_move_back_refuted",
    "C41_dropped_page_refuted"
   ],
   "note": "Statement with its parenthetical: three refutations for later moves, exact storage for settled histories."
  },
  {
   "property": "C42",
   "status": "proved",
   "theorems": [
    "C42_readd",
    "C42_other_page_refuted"
   ],
   "note": "Statement with its parenthetical."
  },
  {
   "property": "C43",
   "status": "proved",
   "theorems": [
    "C43_refuted",
    "C43_first_failure",
    "C43_constructor_refuted",
    "C43_stays_failed",
    "C43_close_reports",
    "C43_closed_means_good"
   ],
   "note": "Statement with its parenthetical."
  },
  {
   "property": "C44",
   "status": "proved",
   "theorems": [
    "C44_find",
    "C44_history_independent",
    "C44_far_pages_refuted"
   ],
   "note": "For every file whose pages form a well-formed tree (copc_pages) and every reader in use whose stream is good. C44_far_pages_refuted is the parenthetical's witness."
  },
  {
   "property": "C45",
   "status": "proved",
   "theorems": [
    "C45_children",
    "C45_children_after_all_nodes",
    "C45_no_page",
    "C45_shallow_node_refuted"
   ],
   "note": "Exact subtree when node k is not stored in a shallower page than page k's parent, or after GetAllNodes; the other case is C45_shallow_node_refuted."
  },
  {
   "property": "C46",
   "status": "proved",
   "theorems": [
    "C46_terminates",
    "C46_well_formed_files_are_finite",
    "C46_self_reference_refuted"
   ],
   "note": "Termination for every file whose page references end (copc_finite), whatever its bytes; C46_self_reference_refuted shows the divergence."
  },
  {
   "property": "C47",
   "status": "proved",
   "theorems": [
    "C47_no_side_effects",
    "C47_find",
    "C47_all_nodes"
   ],
   "note": "Damaged pages (an entry with an invalid key or negative size) anywhere in the tree; FindNode and GetAllNodes."
  },
  {
   "property": "C48",
   "status": "proved",
   "theorems": [
    "C48_depth",
    "C48_max_depth"
   ],
   "note": ""
  },
  {
   "property": "C49",
   "status": "proved",
   "theorems": [
    "C49_nodes_at_resolution",
    "C49_all_nodes_without_limit"
   ],
   "note": ""
  },
  {
   "property": "C50",
   "status": "proved",
   "theorems": [
    "C50_boxes",
    "C50_within_subset_of_intersect"
   ],
   "note": "Subset theorem needs ordered node boxes (C22_binary64_boxes_ordered)."
  },
  {
   "property": "C51",
   "status": "proved",
   "theorems": [
    "C51_points_in_box",
    "C51_stray_points_refuted"
   ],
   "note": "Any box (NaN bounds included), same resolution for both queries; witness C51_stray_points_refuted."
  },
  {
   "property": "C52",
   "status": "proved",
   "theorems": [
    "C52_validate",
    "C52_verbose_agrees",
    "C52_verbose_overflow_refuted"
   ],
   "note": "Files whose chunks decompress; C52_verbose_overflow_refuted is the parenthetical's witness."
  },
  {
   "property": "C53",
   "status": "proved",
   "theorems": [
    "C53_evlr",
    "C53_laz_evlr",
    "C53_none",
    "C53_vlr_misread",
    "C53_vlr_refuted"
   ],
   "note": "Every file that opens: WKT and extra-byte descriptors taken from the first matching record; files with none; misread records in the VLR area and the refutation of the unconditional claim."
  },
  {
   "property": "C54",
   "status": "proved",
   "theorems": [
    "C54_config",
    "C54_records",
    "C54_points_of_records",
    "C54_points",
    "C54_is_copc_refuted",
    "C54_long_records_refuted",
    "C54_no_bytes_refuted"
   ],
   "note": "Configuration, records and points of every closed LazWriter session as read by a new LazReader (first GetPointData/GetPoints call; lazperf decompression assumed lossless and consuming exactly its chunk). Three refutations: IsCopc, records > 255 bytes, zero-byte descriptors."
  },
  {
   "property": "C55",
   "status": "proved",
   "theorems": [
    "C55_short_records",
    "C55_long_records_overrun",
    "C55_long_records_refuted"
   ],
   "note": "Works for record lengths from the base size to 255 bytes, undefined for every other length (C55_long_records_overrun: longer than 255 or shorter than the base size), which the writer accepts (C55_long_records_refuted)."
  },
  {
   "property": "C56",
   "status": "proved",
   "theorems": [
    "C56_find",
    "C56_absent",
    "C56_all_nodes",
    "C56_chunk",
    "C56_points",
    "C56_settings",
    "C56_bounds",
    "C56_schedule_independent",
    "C56_succeeds",
    "C56_close_succeeds",
    "C56_exceptions",
    "C56_binary_guid",
    "C56_binary_guid_refuted",
    "C56_other_format_refuted",
    "C56_laz_points",
    "C56_laz_settings"
   ],
   "note": "transform_multithreaded for Writer and LazWriter, all schedules; refutations for non-UTF-8 GUIDs and foreign record lengths"
  },
  {
   "property": "C57",
   "status": "proved",
   "theorems": [
    "C57_chunks",
    "C57_zero_chunk_throws",
    "C57_visits_once",
    "C57_chunk_by_chunk",
    "C57_any_order",
    "C57_exceptions",
    "C57_bad_arguments",
    "C57_all_nodes",
    "C57_nodes_of_resolution",
    "C57_given_nodes",
    "C57_concat",
    "C57_map",
    "C57_negative_chunk_refuted"
   ],
   "note": "model of concurrent.futures: tasks of a chunk run in any order on any workers, each worker with its own reader; as_completed yields in any order"
  },
  {
   "property": "C58",
   "status": "proved",
   "theorems": [
    "C58_key",
    "C58_vector",
    "C58_node",
    "C58_header",
    "C58_bytes",
    "C58_binary_guid_refuted"
   ],
   "note": "pybind11 casters and UTF-8 are modelled; Python's own pickling of primitive values is trusted. Binary GUID: C58_binary_guid_refuted."
  },
  {
   "property": "C59",
   "status": "proved",
   "theorems": [
    "C59_isolation",
    "C59_defined",
    "C59_writer_value",
    "C59_own_handle",
    "C59_own_handle_info",
    "C59_own_handle_extent",
    "C59_laz_writer_refuted"
   ],
   "note": "Pointer-level heap model (ModelConfig): any history of constructions, copies, writers and mutations. LazWriter sharing: C59_laz_writer_refuted."
  },
  {
   "property": "C60",
   "status": "proved",
   "theorems": [
    "C60_overrides",
    "C60_no_overrides_is_copy",
    "C60_bad_format_rejected",
    "C60_constructed_configs_qualify"
   ],
   "note": "All 64 override combinations at once; wrapping record lengths are excluded by hypothesis (C27_overflow_refuted shows the wrap)."
  },
  {
   "property": "C61",
   "status": "proved",
   "theorems": [
    "C61_queries_for_intact_data",
    "C61_truncated_chunk_refuted",
    "C61_truncated_data_refuted"
   ],
   "note": "After queries for intact data the reader keeps answering as if fresh; witnesses for truncated chunks."
  },
  {
   "property": "C62",
   "status": "proved",
   "theorems": [
    "C62_header_remove_scale",
    "C62_out_of_range_is_not_rejected_refuted"
   ],
   "note": "Exact characterisation, including the undefined conversions."
  },
  {
   "property": "C63",
   "status": "proved",
   "theorems": [
    "C63_root_box_starts_at_header_min",
    "C63_root_box_contains_header_box",
    "C63_root_box_misses_header_max_refuted",
    "C63_span",
    "C63_root_box_contains_usual_header_box"
   ],
   "note": "min corner and conditional containment proved; the rounding failure is proved by a witness."
  },
  {
   "property": "C64",
   "status": "proved",
   "theorems": [
    "C64_reslot_shares_refuted",
    "C64_copy_is_independent"
   ],
   "note": "Sharing of every carried base dimension proved for all extents; copies proved independent."
  },
  {
   "property": "C65",
   "status": "proved",
   "theorems": [
    "C65_copy",
    "C65_copy_equal"
   ],
   "note": "copy constructor, field by field, pack and equality"
  },
  {
   "property": "C66",
   "status": "proved",
   "theorems": [
    "C66_text_identifies_key"
   ],
   "note": "key_string is injective on all keys"
  },
  {
   "property": "C67",
   "status": "proved",
   "theorems": [
    "C67_get_within",
    "C67_within"
   ],
   "note": "Theorems over every uniform container and NaN-free box (order and multiplicity kept). GetWithin's points are references, as in the code."
  },
  {
   "property": "C68",
   "status": "proved",
   "theorems": [
    "C68_find_node",
    "C68_returned_node",
    "C68_moved_page_refuted"
   ],
   "note": "C68_moved_page_refuted is the witness for the '(False of the code ...)' sentence; the rest is proved for every call history."
  },
  {
   "property": "C69",
   "status": "proved",
   "theorems": [
    "C69_get_item",
    "C69_set_item",
    "C69_get_slice",
    "C69_zero_step_throws",
    "C69_set_slice",
    "C69_set_slice_wrong_length_throws",
    "C69_iter",
    "C69_contains",
    "C69_empty_slice_refuted",
    "C69_assignment_breaks_uniformity_refuted",
    "C69_none_refuted",
    "C69_self_assignment_refuted",
    "C69_contains_equal_refuted"
   ],
   "note": "Slices follow CPython's documented PySlice semantics; the five _refuted theorems are the witnesses for the '(False of the code ...)' sentence."
  },
  {
   "property": "C70",
   "status": "proved",
   "theorems": [
    "C70_key_equality",
    "C70_equal_keys_equal_hashes",
    "C70_node_equality",
    "C70_vector_equality",
    "C70_extent_equality",
    "C70_extra_byte_fields",
    "C70_extra_byte_fields_refuted",
    "C70_key_from_list",
    "C70_vector_from_list",
    "C70_colour_from_list",
    "C70_max_box"
   ],
   "note": "C70_extra_byte_fields_refuted is the witness for the '(False of the code ...)' sentence; C70_extra_byte_fields says what is compared."
  },
  {
   "property": "C71",
   "status": "proved",
   "theorems": [
    "C71_compresses_or_throws",
    "C71_round_trip",
    "C71_header_overloads",
    "C71_no_points",
    "C71_long_record_refuted"
   ],
   "note": "Under 'lossless' (lazperf restores what it compressed). C71_long_record_refuted is the witness for the '(False of the code ...)' sentence. Decompressing fewer records than were compressed is not covered by 'lossless'."
  },
  {
   "property": "C72",
   "status": "proved",
   "theorems": [
    "C72_compressed_outside",
    "C72_laz_compressed_outside"
   ],
   "note": "Same state and same result, for every reachable writer; for LazWriter with uniform containers."
  },
  {
   "property": "C73",
   "status": "proved",
   "theorems": [
    "C73_resolution_exact",
    "C73_child_has_half",
    "C73_depth_of_resolution",
    "C73_no_spacing_refuted"
   ],
   "note": "C73_no_spacing_refuted is the witness for the '(False of the code ...)' sentence."
  },
  {
   "property": "C74",
   "status": "proved",
   "theorems": [
    "C74_getters",
    "C74_setters",
    "C74_extra_bytes",
    "C74_gps_bit",
    "C74_laz_config"
   ],
   "note": "Slots hold values (null pointers given to setters are not modelled)."
  },
  {
   "property": "C75",
   "status": "proved",
   "theorems": [
    "C75_trace",
    "C75_laz_trace",
    "C75_unclosed",
    "C75_laz_unclosed",
    "C75_interrupted",
    "C75_interrupted_copc",
    "C75_laz_interrupted",
    "C75_failed_close"
   ],
   "note": "C75_trace and C75_laz_trace tie the traces to the writer model. The cut point is a prefix of the byte sequence in write order (a killed process; not a machine that loses or reorders cached pages). lazperf's own check for the LASZIP VLR is outside the model, so nothing is claimed about whether files cut between byte 394 and the end of the header area open."
  },
  {
   "property": "C76",
   "status": "proved",
   "theorems": [
    "C76_chunk_survives",
    "C76_moments",
    "C76_laz_chunks_survive"
   ],
   "note": "C76_moments: every cut file of a session is a cut of its first calls or one to which C76_chunk_survives applies."
  },
  {
   "property": "C77",
   "status": "proved",
   "theorems": [
    "C77_add_after_failed_close_refuted",
    "C77_destructor_after_failed_close_refuted",
    "C77_close_retried_refuted",
    "C77_chunk_table_retried_refuted",
    "C77_failed_close_keeps_chunks"
   ],
   "note": "The desired property is false of the code: C77_destructor_after_failed_close_refuted (all histories), C77_close_retried_refuted and C77_chunk_table_retried_refuted (witnesses), C77_add_after_failed_close_refuted (PropDisk; also for FileWriter). C77_failed_close_keeps_chunks proves the part that holds. ComputePageHierarchy's partial links of a throwing Close are not kept by the model (they are set insertions that the next Close repeats)."
  },
  {
   "property": "C78",
   "status": "proved",
   "theorems": [
    "C78_disk_after_close",
    "C78_laz_disk_after_close",
    "C78_killed",
    "C78_killed_not_mistaken",
    "C78_laz_killed",
    "C78_chunks_once_closing",
    "C78_last_flush_lost",
    "C78_close_reports_refuted",
    "C78_chunk_lost_refuted"
   ],
   "note": "The disk after Close, a killed program, chunks once Close has begun: proved for every buffering schedule. Reporting of a failed last flush and presence of a chunk on disk when AddNode returns are false of the code: C78_close_reports_refuted, C78_chunk_lost_refuted; C78_last_flush_lost proves that such a file is at least not taken for a complete one."
  },
  {
   "property": "C79",
   "status": "proved",
   "theorems": [
    "C79_closed_file_is_final",
    "C79_add_after_close_refuted",
    "C79_closed_laz_file_is_final",
    "C79_laz_write_after_close_refuted"
   ],
   "note": "The file is final after Close (proved for all later calls); that later AddNode/WritePointsCompressed calls are refused is false of the code: C79_add_after_close_refuted, C79_laz_write_after_close_refuted (for every closed writer)."
  },
  {
   "property": "C80",
   "status": "proved",
   "theorems": [
    "C80_never_wrong",
    "C80_nodes_survive",
    "C80_find",
    "C80_point_data_gone",
    "C80_after_close_refuted"
   ],
   "note": "C80_never_wrong: any sequence of queries and Close; C80_nodes_survive, C80_find: after GetAllNodes. Refusal instead of undefined behaviour is false of the code: C80_point_data_gone, C80_after_close_refuted."
  },
  {
   "property": "C81",
   "status": "proved",
   "theorems": [
    "C81_independent",
    "C81_truncated_chunk_refuted"
   ],
   "note": "C81_independent for any number of Readers and any interleaving of queries for data the file has; C81_truncated_chunk_refuted shows that the condition is needed."
  },
  {
   "property": "C82",
   "status": "proved",
   "theorems": [
    "C82_defined",
    "C82_nodes_defined",
    "C82_cut_page_refuted",
    "C82_record_length_refuted",
    "C82_deepest_node_refuted"
   ],
   "note": "C82_defined for all queries but the verbose validation (C52) under the three conditions on the file; C82_nodes_defined: queries about nodes and pages need only the first two. C82_cut_page_refuted, C82_record_length_refuted and C82_deepest_node_refuted: each condition is needed."
  },
  {
   "property": "C83",
   "status": "proved",
   "theorems": [
    "C83_opening_defined",
    "C83_laz_opening_defined",
    "C83_session_defined",
    "C83_full_guid_refuted"
   ],
   "note": "C83_opening_defined (Reader), C83_laz_opening_defined (LazReader), C83_session_defined (opening and all queries); C83_full_guid_refuted: a GUID of 16 non-zero bytes makes opening undefined. What lazperf does with records that do not fit in the file is not modelled."
  },
  {
   "property": "C84",
   "status": "proved",
   "theorems": [
    "C84_find",
    "C84_absent",
    "C84_all_nodes",
    "C84_chunk",
    "C84_records",
    "C84_points",
    "C84_page_list",
    "C84_configuration",
    "C84_succeeds",
    "C84_same_pages",
    "C84_own_chunks",
    "C84_recompressed",
    "C84_other_format_refuted"
   ],
   "note": "Stated for the loop of the examples (ModelCopy.copy_nodes, recompress_nodes) over any selection of stored nodes with a positive count. chunk_records (the chunk decompresses to the records whatever follows it) is a hypothesis on the source; C84_own_chunks proves it for files this library wrote with a lossless codec. C84_other_format_refuted: nothing checks the format of the chunks."
  },
  {
   "property": "C85",
   "status": "proved",
   "theorems": [
    "C85_built",
    "C85_when_built",
    "C85_refused",
    "C85_overrides_refused",
    "C85_overrides_never_terminate",
    "C85_terminated_refuted",
    "C85_laz",
    "C85_laz_terminated_refuted",
    "C85_from_reader",
    "C85_laz_from_reader",
    "C85_from_format",
    "C85_path_refused",
    "C85_old_file_lost_refuted"
   ],
   "note": "Desired statement false of the code in two ways (C85_terminated_refuted, C85_laz_terminated_refuted: exactly for formats outside 6..8; C85_old_file_lost_refuted). All constructor outcomes are characterised; the constructors' behaviour under exceptions (subobject destruction, noexcept destructors) is the C++ standard's."
  },
  {
   "property": "C86",
   "status": "proved",
   "theorems": [
    "C86_settled",
    "C86_accepted",
    "C86_find",
    "C86_all_nodes",
    "C86_page_list",
    "C86_compressed",
    "C86_records",
    "C86_points",
    "C86_configuration",
    "C86_repeated_key_refuted"
   ],
   "note": "Both sessions are complete sessions of C28-C35 with files below 2^63 bytes. C86_settled: the placement hypothesis of C32-C34 is implied. Records and points as in C34 (lossless codec, storable configuration, records of at most 255 bytes). The condition 'every key once' is needed (C86_repeated_key_refuted)."
  },
  {
   "property": "C87",
   "status": "proved",
   "theorems": [
    "C87_find",
    "C87_absent",
    "C87_all_nodes",
    "C87_points",
    "C87_all_points",
    "C87_same_as_query",
    "C87_succeeds",
    "C87_empty_crossing_refuted"
   ],
   "note": "Proved for lossless codecs, records of at most 255 bytes (C55) and scale and offset in the exact region of C09/C11; that the loop never throws is refuted (C87_empty_crossing_refuted), and C87_succeeds gives the condition under which it does not. A Writer of another format is C84_other_format_refuted."
  },
  {
   "property": "C88",
   "status": "proved",
   "theorems": [
    "C88_files",
    "C88_one_session",
    "C88_find",
    "C88_left_behind",
    "C88_copy_destroyed_refuted",
    "C88_vector_growth_refuted",
    "C88_laz_closed_copies",
    "C88_laz_copies_refuted"
   ],
   "note": "C88_files is the projection of every program onto each file; C88_one_session and C88_find give the file's contents when the calls precede the first closing; C88_left_behind: a file without objects is closed and final. Refuted parts: C88_copy_destroyed_refuted, C88_vector_growth_refuted, C88_laz_copies_refuted; C88_laz_closed_copies is the part of the LazWriter claim that holds."
  },
  {
   "property": "C89",
   "status": "proved",
   "theorems": [
    "C89_results",
    "C89_same_state",
    "C89_same_file",
    "C89_chunks",
    "C89_laz_results",
    "C89_longer_refuted",
    "C89_second_file_refuted",
    "C89_laz_second_file_refuted"
   ],
   "note": "standing at the beginning, any old contents: same results, chunks in place; same file when overwritten completely; longer contents and un-rewound streams refuted"
  },
  {
   "property": "C90",
   "status": "proved",
   "theorems": [
    "C90_all_nodes",
    "C90_once_each",
    "C90_all_points",
    "C90_added_again_refuted"
   ],
   "note": "C90_all_nodes: listed nodes hold at most h_pcount points, equality iff no key was added twice; C90_all_points the same for the points GetAllPoints returns at full resolution (lossless codec, records up to 255 bytes); C90_once_each for programs that add each node once. Desired exactness for all programs refuted by C90_added_again_refuted (header 9, nodes 8). Chunks up to 2^31-1 bytes (chunks_fit), as for C30."
  },
  {
   "property": "C91",
   "status": "proved",
   "theorems": [
    "C91_all_points",
    "C91_depth",
    "C91_nodes",
    "C91_same_resolution",
    "C91_gap_refuted"
   ],
   "note": "The loop of the resolution-trimming example for every source file, resolution and reader state: C91_all_points (same points as GetAllPoints(resolution) of the source), C91_nodes, C91_depth (equality under no_gaps), C91_same_resolution. C91_gap_refuted: the unconditional claim about the depth is false of the code."
  },
  {
   "property": "C92",
   "status": "proved",
   "theorems": [
    "C92_as_edits",
    "C92_file",
    "C92_other_scale_refuted",
    "C92_other_format_refuted",
    "C92_not_copc_refuted"
   ],
   "note": "C92_as_edits (any stream capacity, any codec), C92_file (the file is that of a complete session with member-wise edits, to which C28-C43, C32-C35, C90 apply). The unconditional claim is false of the code: C92_other_scale_refuted, C92_other_format_refuted, C92_not_copc_refuted."
  },
  {
   "property": "C93",
   "status": "proved",
   "theorems": [
    "C93_records",
    "C93_points",
    "C93_configuration",
    "C93_ready",
    "C93_succeeds",
    "C93_own_chunks",
    "C93_through_points",
    "C93_empty_node_refuted"
   ],
   "note": "C93_records and C93_points (compressed loop, any COPC file and reader state, any list of nodes with points whose chunks decompress exactly; records up to 255 bytes), C93_configuration and C93_ready (LazWriter made from the reader's configuration), C93_succeeds (no exception below 2^32 nodes), C93_own_chunks (chunks this library wrote are decompressed exactly), C93_through_points (GetPoints/WritePoints loop). The unconditional claim is false of the code: C93_empty_node_refuted."
  },
  {
   "property": "C94",
   "status": "proved",
   "theorems": [
    "C94_same_file",
    "C94_same_runs",
    "C94_calls",
    "C94_succeeds",
    "C94_protected_argument",
    "C94_reserved_name",
    "C94_reserved_name_refuted"
   ],
   "note": "C94_same_file and C94_same_runs (any writer, any files: a callback does not change what can be written; two-way for callbacks that raise nothing), C94_calls (one call per node, before it is written, with node, count, compressed bytes, dictionary; what remains done when a call raises; COPC writers, points that can be packed), C94_succeeds, C94_protected_argument, C94_reserved_name. The claim for all dictionaries is false of the code: C94_reserved_name_refuted. The callback acts on the program's state; one that uses the writer itself is not modelled."
  },
  {
   "property": "C95",
   "status": "proved",
   "theorems": [
    "C95_validates",
    "C95_points",
    "C95_grid_points",
    "C95_box_query",
    "C95_read_points_on_grid",
    "C95_rounding_refuted"
   ],
   "note": "C95_validates (the iff for every program), C95_points (in terms of the points added), C95_grid_points (points on the grid validate), C95_read_points_on_grid (points read from a file are on the grid, in the region of C09), C95_box_query (box queries on a file that validates). C95_rounding_refuted: the desired statement without rounding is false."
  },
  {
   "property": "C96",
   "status": "proved",
   "theorems": [
    "C96_same_writer",
    "C96_file",
    "C96_put_shows",
    "C96_value_stays",
    "C96_later_change",
    "C96_shared_refuted",
    "C96_two_dimensions_refuted"
   ],
   "note": "C96_same_writer (any program with extent objects leaves the Writer that its other calls and setting every extent make; same results), C96_file (so what Close writes is a session of SpecFile, to which C28-C43 and C35 apply), C96_put_shows, C96_value_stays, C96_later_change (an object given stays connected), C96_nonvacuous; C96_shared_refuted and C96_two_dimensions_refuted show that setters do not store values"
  },
  {
   "property": "C97",
   "status": "proved",
   "theorems": [
    "C97_as_members",
    "C97_shares",
    "C97_other_flag_refuted",
    "C97_fewer_refuted",
    "C97_more_refuted"
   ],
   "note": "C97_as_members (a whole extents object of the Writer's shape acts like setting every extent), C96_same_writer and C96_file (any program with such assignments and shared objects), C97_shares (the objects stay shared), C97_nonvacuous; C97_other_flag_refuted, C97_fewer_refuted and C97_more_refuted show what other shapes do"
  },
  {
   "property": "C98",
   "status": "proved",
   "theorems": [
    "C98_copy_validates",
    "C98_same_answer",
    "C98_box_query",
    "C98_same_query"
   ],
   "note": "copies made by AddNodeCompressed with the source's configuration and no overrides; the source's nodes are readable and their chunks hold the claimed records (C84); the two-node and the whole copy of a sample file meet the hypotheses"
  },
  {
   "property": "C99",
   "status": "proved",
   "theorems": [
    "C99_configuration",
    "C99_copy",
    "C99_generations",
    "C99_points",
    "C99_validates",
    "C99_written_sound"
   ],
   "note": "sound files: ready and storable configuration, record length at most 255, positive counts and chunks that hold the claimed records; all files the library writes with a lossless codec are sound; three generations of a sample file computed"
  },
  {
   "property": "C100",
   "status": "proved",
   "theorems": [
    "C100_recompressed",
    "C100_points",
    "C100_validates",
    "C100_succeeds"
   ],
   "note": "the source need only be readable; lossless codec, the Writer has the source's configuration without overrides, record length at most 255, fewer than 2^32-2 nodes; the sample file recompressed and then copied meets the hypotheses"
  }
 ]
}