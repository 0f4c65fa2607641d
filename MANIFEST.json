{
 "claims": [
  {
   "property": "C01",
   "status": "proved",
   "theorems": [
    "color_text_round_trip",
    "color_text_canonical",
    "color_channels_independent",
    "color_argb_round_trip",
    "color_from_bytes"
   ],
   "note": ""
  },
  {
   "property": "C02",
   "status": "proved",
   "theorems": [
    "color_parse_correct",
    "color_parse_short_prefixed_refuted",
    "color_parse_in_bounds_refuted"
   ],
   "note": "Part of the property is false of the code: see the _refuted theorems; the others state what does hold."
  },
  {
   "property": "C03",
   "status": "proved",
   "theorems": [
    "expansion_terminates",
    "expansion_replaces_all",
    "replacement_spec_deterministic",
    "expansion_shorter_value_refuted",
    "expansion_value_contains_key_refuted"
   ],
   "note": "Part of the property is false of the code: see the _refuted theorems; the others state what does hold."
  },
  {
   "property": "C04",
   "status": "proved",
   "theorems": [
    "split_single_lossless",
    "split_single_of_join",
    "split_terminates",
    "split_empty_separator_refuted",
    "split_long_separator_refuted"
   ],
   "note": "Part of the property is false of the code: see the _refuted theorems; the others state what does hold."
  },
  {
   "property": "C05",
   "status": "proved",
   "theorems": [
    "csv_quoted_round_trip",
    "csv_split_terminates"
   ],
   "note": ""
  },
  {
   "property": "C06",
   "status": "proved",
   "theorems": [
    "csv_plain_round_trip"
   ],
   "note": ""
  },
  {
   "property": "C07",
   "status": "proved",
   "theorems": [
    "csv_lines_correct"
   ],
   "note": ""
  },
  {
   "property": "C08",
   "status": "proved",
   "theorems": [
    "ends_with_iff_suffix",
    "case_equal_equivalence",
    "case_equal_is_lower_equal",
    "case_equal_nul_refuted"
   ],
   "note": "Part of the property is false of the code: see the _refuted theorems; the others state what does hold."
  },
  {
   "property": "C09",
   "status": "proved",
   "theorems": [
    "attributes_are_maps",
    "attributes_cut_returns",
    "attributes_split_returns",
    "attributes_find_key",
    "attributes_from_vector"
   ],
   "note": ""
  },
  {
   "property": "C10",
   "status": "proved",
   "theorems": [
    "attributes_serialize_read_back",
    "attributes_serialize_quote_refuted",
    "attributes_serialize_ampersand_refuted"
   ],
   "note": "Part of the property is false of the code: see the _refuted theorems; the others state what does hold."
  },
  {
   "property": "C11",
   "status": "proved",
   "theorems": [
    "net_cache_is_fifo_queue",
    "net_cache_bounded",
    "net_cache_save_visible",
    "net_cache_refetch_is_hit",
    "net_cache_zero_capacity_refuted",
    "net_cache_null_item_refuted"
   ],
   "note": "Part of the property is false of the code: see the _refuted theorems; the others state what does hold."
  },
  {
   "property": "C12",
   "status": "proved",
   "theorems": [
    "date_time_seconds",
    "date_time_leap_years",
    "date_time_monotone",
    "date_time_before_1970_refuted",
    "date_time_before_1970_as_1970"
   ],
   "note": "Part of the property is false of the code: see the _refuted theorems; the others state what does hold."
  },
  {
   "property": "C13",
   "status": "proved",
   "theorems": [
    "path_split",
    "path_split_no_dir",
    "path_split_total",
    "path_split_join",
    "path_join_split",
    "path_join_separator",
    "path_join_assoc",
    "path_split_join_double_refuted",
    "path_split_join_trailing_refuted"
   ],
   "note": "Part of the property is false of the code: see the _refuted theorems; the others state what does hold."
  },
  {
   "property": "C14",
   "status": "proved",
   "theorems": [
    "entry_name_safe_without_dotdot",
    "entry_name_absolute_rejected",
    "entry_name_escape_refuted",
    "entry_name_dot_escape_refuted",
    "entry_name_harmless_rejected_refuted"
   ],
   "note": "Part of the property is false of the code: see the _refuted theorems; the others state what does hold."
  },
  {
   "property": "C15",
   "status": "proved",
   "theorems": [
    "at_most_one_parent",
    "child_occurs_once",
    "never_adopted_twice",
    "adopted_in_same_file",
    "children_forest",
    "cycle_refuted",
    "self_child_refuted",
    "child_knows_parent",
    "fresh_no_parent",
    "calls_defined",
    "calls_do"
   ],
   "note": "Part of the property is false of the code: see the _refuted theorems; the others state what does hold."
  },
  {
   "property": "C16",
   "status": "proved",
   "theorems": [
    "never_adopted_twice",
    "removed_not_reusable_refuted",
    "dangling_parent_refuted"
   ],
   "note": "Part of the property is false of the code: see the _refuted theorems; the others state what does hold."
  },
  {
   "property": "C17",
   "status": "proved",
   "theorems": [
    "element_id_correct",
    "element_names_distinct",
    "element_id_name_id",
    "element_name_id_name",
    "element_name_total",
    "element_name_icon_refuted"
   ],
   "note": "Part of the property is false of the code: see the _refuted theorems; the others state what does hold."
  },
  {
   "property": "C18",
   "status": "proved",
   "theorems": [
    "enum_value_round_trip",
    "enum_accepted_text",
    "enum_value_out_of_range_refuted"
   ],
   "note": "Part of the property is false of the code: see the _refuted theorems; the others state what does hold."
  },
  {
   "property": "C19",
   "status": "proved",
   "theorems": [
    "serializer_total",
    "serialize_raw_well_formed",
    "serialize_indented_well_formed",
    "unbalanced_end_refuted"
   ],
   "note": "Part of the property is false of the code: see the _refuted theorems; the others state what does hold."
  },
  {
   "property": "C20",
   "status": "proved",
   "theorems": [
    "field_value_survives",
    "quoted_value_survives",
    "value_with_cdata_end_refuted",
    "value_cdata_two_ampersands_refuted",
    "value_cdata_quote_refuted",
    "value_carriage_return_refuted",
    "value_control_character_refuted"
   ],
   "note": "Part of the property is false of the code: see the _refuted theorems; the others state what does hold."
  },
  {
   "property": "C21",
   "status": "proved",
   "theorems": [
    "parse_builds_tree",
    "parse_text_builds_tree",
    "tree_known_child",
    "tree_unknown_child",
    "tree_description"
   ],
   "note": ""
  },
  {
   "property": "C22",
   "status": "proved",
   "theorems": [
    "known_root_parses",
    "unknown_root_rejected",
    "nested_description_refuted"
   ],
   "note": "Part of the property is false of the code: see the _refuted theorems; the others state what does hold."
  },
  {
   "property": "C23",
   "status": "proved",
   "theorems": [
    "too_deep_rejected",
    "result_depth",
    "parse_stack_bounded",
    "stack_bound_refuted"
   ],
   "note": "Part of the property is false of the code: see the _refuted theorems; the others state what does hold."
  },
  {
   "property": "C24",
   "status": "proved",
   "theorems": [
    "notifications_in_order",
    "veto_removes_child",
    "observers_exact",
    "stop_is_final",
    "add_child_after_veto_refuted",
    "stop_empty_tag_refuted"
   ],
   "note": "Part of the property is false of the code: see the _refuted theorems; the others state what does hold."
  },
  {
   "property": "C25",
   "status": "proved",
   "theorems": [
    "coordinates_parsed",
    "coordinates_terminate",
    "decimal_literals_are_numbers",
    "coordinates_hang_refuted",
    "newline_separated_refuted",
    "space_before_comma_refuted",
    "leading_point_refuted",
    "lone_minus_refuted",
    "long_token_refuted",
    "token_limit",
    "coordinates_digits_kept"
   ],
   "note": "Part of the property is false of the code: see the _refuted theorems; the others state what does hold."
  },
  {
   "property": "C26",
   "status": "proved",
   "theorems": [
    "pretty_coordinates_round_trip",
    "pretty_coordinates_document",
    "raw_coordinates_one",
    "raw_coordinates_refuted",
    "coordinates_digits_kept"
   ],
   "note": "Part of the property is false of the code: see the _refuted theorems; the others state what does hold."
  },
  {
   "property": "C27",
   "status": "proved",
   "theorems": [
    "preorder_visits",
    "postorder_visits",
    "visited_child_lists",
    "visit_author_refuted"
   ],
   "note": "Part of the property is false of the code: see the _refuted theorems; the others state what does hold."
  },
  {
   "property": "C28",
   "status": "proved",
   "theorems": [
    "resolve_precedence",
    "resolve_inline_over_shared",
    "resolve_document",
    "pair_state"
   ],
   "note": ""
  },
  {
   "property": "C29",
   "status": "proved",
   "theorems": [
    "resolve_defined",
    "resolve_terminates"
   ],
   "note": ""
  },
  {
   "property": "C30",
   "status": "proved",
   "theorems": [
    "url_limit_total",
    "url_limit_nesting_refuted"
   ],
   "note": "Part of the property is false of the code: see the _refuted theorems; the others state what does hold."
  },
  {
   "property": "C31",
   "status": "proved",
   "theorems": [
    "merge_correct",
    "merge_same",
    "merge_text_refuted",
    "merge_pairs_refuted",
    "merge_track_refuted"
   ],
   "note": "Part of the property is false of the code: see the _refuted theorems; the others state what does hold."
  },
  {
   "property": "C32",
   "status": "proved",
   "theorems": [
    "split_preserves",
    "split_complete",
    "split_own_id_refuted",
    "split_used_id_refuted",
    "split_dangling_refuted",
    "split_late_reference_refuted",
    "split_two_styles_refuted",
    "split_defined",
    "split_keeps_looks",
    "split_any_defined"
   ],
   "note": "Part of the property is false of the code: see the _refuted theorems; the others state what does hold."
  },
  {
   "property": "C33",
   "status": "proved",
   "theorems": [
    "inline_preserves",
    "inline_forward_reference_refuted",
    "inline_document_reference_refuted",
    "inline_both_refuted",
    "inline_map_reference_refuted",
    "inline_defined",
    "inline_keeps_looks"
   ],
   "note": "Part of the property is false of the code: see the _refuted theorems; the others state what does hold."
  },
  {
   "property": "C34",
   "status": "proved",
   "theorems": [
    "object_by_id_correct",
    "strict_parse_iff_distinct",
    "import_object_by_id",
    "import_strict_iff_distinct"
   ],
   "note": ""
  },
  {
   "property": "C35",
   "status": "proved",
   "theorems": [
    "clear_ids_correct",
    "clear_ids_all",
    "clear_ids_duplicate_refuted",
    "clear_ids_misplaced_refuted"
   ],
   "note": "Part of the property is false of the code: see the _refuted theorems; the others state what does hold."
  },
  {
   "property": "C36",
   "status": "proved",
   "theorems": [
    "delete_correct",
    "delete_equal_ids_refuted",
    "delete_misplaced_refuted"
   ],
   "note": "Part of the property is false of the code: see the _refuted theorems; the others state what does hold."
  },
  {
   "property": "C37",
   "status": "proved",
   "theorems": [
    "clone_parsed",
    "clone_correct",
    "clone_simple_refuted",
    "clone_misplaced_refuted",
    "clone_empty_text_refuted",
    "clone_link_refuted",
    "document_cloned"
   ],
   "note": "Part of the property is false of the code: see the _refuted theorems; the others state what does hold."
  },
  {
   "property": "C38",
   "status": "proved",
   "theorems": [
    "kmz_split_path",
    "kmz_split_archive",
    "kmz_split_none",
    "kmz_split_shape",
    "kmz_split_lost_byte_refuted",
    "texture_relative_to_model",
    "texture_without_model",
    "uri_parts"
   ],
   "note": "Part of the property is false of the code: see the _refuted theorems; the others state what does hold."
  },
  {
   "property": "C39",
   "status": "proved",
   "theorems": [
    "href_relative",
    "href_relative_path",
    "href_absolute_exact",
    "href_absolute_fragment_refuted",
    "href_host_only_refuted",
    "href_fragment"
   ],
   "note": "Part of the property is false of the code: see the _refuted theorems; the others state what does hold."
  },
  {
   "property": "C40",
   "status": "proved",
   "theorems": [
    "bbox_contains_points",
    "bbox_keeps_contents",
    "bbox_smallest",
    "bbox_order_irrelevant",
    "bbox_expand_from",
    "bbox_expand_empty_refuted",
    "bbox_nan_ignored",
    "feature_bounds_exact",
    "feature_place"
   ],
   "note": "Part of the property is false of the code: see the _refuted theorems; the others state what does hold."
  },
  {
   "property": "C41",
   "status": "proved",
   "theorems": [
    "align_gives_cell",
    "align_depth_refuted"
   ],
   "note": "Part of the property is false of the code: see the _refuted theorems; the others state what does hold."
  },
  {
   "property": "C42",
   "status": "proved",
   "theorems": [
    "labels_correct",
    "labels_leak_refuted",
    "labels_undeclared_refuted"
   ],
   "note": "Part of the property is false of the code: see the _refuted theorems; the others state what does hold."
  },
  {
   "property": "C43",
   "status": "proved",
   "theorems": [
    "bbox_split_partition",
    "bbox_split_exhausts",
    "region_split_without_box"
   ],
   "note": ""
  },
  {
   "property": "C44",
   "status": "proved",
   "theorems": [
    "sort_correct",
    "sort_determined",
    "sort_idempotent"
   ],
   "note": ""
  },
  {
   "property": "C45",
   "status": "proved",
   "theorems": [
    "csv_parse_correct",
    "csv_bad_header",
    "csv_blank_text",
    "csv_parse_total",
    "csv_line_numbers",
    "csv_blank_line_refuted",
    "csv_quoted_line_end_refuted"
   ],
   "note": "Part of the property is false of the code: see the _refuted theorems; the others state what does hold."
  },
  {
   "property": "C46",
   "status": "proved",
   "theorems": [
    "simplify_keeps",
    "simplify_dropped",
    "simplify_no_tolerance",
    "simplify_close_refuted",
    "simplify_ring_refuted",
    "simplify_again_refuted"
   ],
   "note": "Part of the property is false of the code: see the _refuted theorems; the others state what does hold."
  },
  {
   "property": "C47",
   "status": "proved",
   "theorems": [
    "gpx_points_correct",
    "gpx_missing_coordinates_refuted",
    "gpx_blank_number_refuted",
    "gpx_no_coordinates_no_points"
   ],
   "note": "Part of the property is false of the code: see the _refuted theorems; the others state what does hold."
  },
  {
   "property": "C48",
   "status": "proved",
   "theorems": [
    "regionate_complete",
    "regionate_exact",
    "regionate_names",
    "regionate_links",
    "regionate_root",
    "regionate_order",
    "regionate_full",
    "regionate_list_complete",
    "regionate_owned_refuted",
    "regionate_stop_refuted",
    "regionate_stopped",
    "regionate_root_name_refuted"
   ],
   "note": "Part of the property is false of the code: see the _refuted theorems; the others state what does hold."
  },
  {
   "property": "C49",
   "status": "proved",
   "theorems": [
    "qid_distinct",
    "qid_depth_distance",
    "child_regions_inside",
    "child_regions_cover",
    "child_regions_meet",
    "node_inside_ancestor",
    "midpoint_between",
    "child_regions_overflow_refuted",
    "child_region_correct",
    "region_link_correct"
   ],
   "note": "Part of the property is false of the code: see the _refuted theorems; the others state what does hold."
  },
  {
   "property": "C50",
   "status": "proved",
   "theorems": [
    "outline_closed_refuted"
   ],
   "note": "Part of the property is false of the code: see the _refuted theorems; the others state what does hold."
  },
  {
   "property": "C51",
   "status": "proved",
   "theorems": [
    "hierarchy_correct",
    "hierarchy_terminates_iff",
    "search_correct",
    "search_cyclic",
    "elements_of_type_correct",
    "hierarchy_cyclic_refuted"
   ],
   "note": "Part of the property is false of the code: see the _refuted theorems; the others state what does hold."
  },
  {
   "property": "C52",
   "status": "proved",
   "theorems": [
    "bool_text_round_trip",
    "bool_text_accepts",
    "decimal_text_accepts"
   ],
   "note": ""
  },
  {
   "property": "C53",
   "status": "proved",
   "theorems": [
    "unknown_attributes_survive",
    "unknown_attributes_reserved_refuted",
    "unknown_attributes_second_batch_refuted"
   ],
   "note": "Part of the property is false of the code: see the _refuted theorems; the others state what does hold."
  },
  {
   "property": "C54",
   "status": "proved",
   "theorems": [
    "zip_find_first",
    "zip_get_entry",
    "zip_data_detection"
   ],
   "note": ""
  },
  {
   "property": "C55",
   "status": "proved",
   "theorems": [
    "type_string_correct_below",
    "type_string_wrong_refuted",
    "type_string_out_of_bounds_refuted"
   ],
   "note": "Part of the property is false of the code: see the _refuted theorems; the others state what does hold."
  },
  {
   "property": "C56",
   "status": "proved",
   "theorems": [
    "pretty_text_content_refuted"
   ],
   "note": "Part of the property is false of the code: see the _refuted theorems; the others state what does hold."
  },
  {
   "property": "C57",
   "status": "proved",
   "theorems": [
    "parse_never_crashes",
    "old_schema_crash_refuted",
    "parse_atom_root_refuted",
    "parse_atom_deep_refuted"
   ],
   "note": "Part of the property is false of the code: see the _refuted theorems; the others state what does hold."
  },
  {
   "property": "C58",
   "status": "proved",
   "theorems": [
    "simple_attributes_dropped"
   ],
   "note": ""
  },
  {
   "property": "C59",
   "status": "proved",
   "theorems": [
    "gx_coord_round_trip",
    "gx_coord_spacing_refuted",
    "gx_coord_extra_ignored",
    "gx_coord_trailing_space_refuted"
   ],
   "note": "Part of the property is false of the code: see the _refuted theorems; the others state what does hold."
  },
  {
   "property": "C60",
   "status": "proved",
   "theorems": [
    "read_write_read",
    "read_pretty_read",
    "write_read",
    "parsed_well_formed",
    "pretty_is_stable",
    "document_read_again",
    "document_text_stable",
    "document_well_formed"
   ],
   "note": ""
  },
  {
   "property": "C61",
   "status": "proved",
   "theorems": [
    "locality_name_lost_refuted",
    "every_other_slot_written"
   ],
   "note": "Part of the property is false of the code: see the _refuted theorems; the others state what does hold."
  },
  {
   "property": "C62",
   "status": "proved",
   "theorems": [
    "enum_value_lost_refuted",
    "enum_value_kept"
   ],
   "note": "Part of the property is false of the code: see the _refuted theorems; the others state what does hold."
  },
  {
   "property": "C63",
   "status": "proved",
   "theorems": [
    "simple_markup_lost_refuted",
    "simple_attributes_lost_refuted"
   ],
   "note": "Part of the property is false of the code: see the _refuted theorems; the others state what does hold."
  },
  {
   "property": "C64",
   "status": "proved",
   "theorems": [
    "link_marks_drift_refuted",
    "link_without_marks_kept",
    "link_unmarked_once"
   ],
   "note": "Part of the property is false of the code: see the _refuted theorems; the others state what does hold."
  },
  {
   "property": "C65",
   "status": "proved",
   "theorems": [
    "last_child_wins",
    "last_value_wins",
    "blank_number_keeps_previous",
    "last_value_wins_refuted"
   ],
   "note": "Part of the property is false of the code: see the _refuted theorems; the others state what does hold."
  },
  {
   "property": "C66",
   "status": "proved",
   "theorems": [
    "child_is_kept",
    "snippet_child_lost_refuted"
   ],
   "note": "Part of the property is false of the code: see the _refuted theorems; the others state what does hold."
  },
  {
   "property": "C67",
   "status": "proved",
   "theorems": [
    "fetchable_plain",
    "fetchable_ignores",
    "archive_query_lost_refuted",
    "fetchable_no_host_refuted"
   ],
   "note": "Part of the property is false of the code: see the _refuted theorems; the others state what does hold."
  },
  {
   "property": "C68",
   "status": "proved",
   "theorems": [
    "fetch_inside_first",
    "fetch_plain",
    "fetch_beside",
    "fetch_archive_document",
    "fetch_missing_absolute_refuted"
   ],
   "note": "Part of the property is false of the code: see the _refuted theorems; the others state what does hold."
  },
  {
   "property": "C69",
   "status": "proved",
   "theorems": [
    "archive_read_back",
    "archive_empty_file_refuted",
    "archive_same_name_refuted",
    "archive_name_test_refuted"
   ],
   "note": "Part of the property is false of the code: see the _refuted theorems; the others state what does hold."
  },
  {
   "property": "C70",
   "status": "proved",
   "theorems": [
    "pack_error_count",
    "kmz_packed",
    "kmz_files_once",
    "kmz_document",
    "kmz_doc_link_refuted"
   ],
   "note": "Part of the property is false of the code: see the _refuted theorems; the others state what does hold."
  },
  {
   "property": "C71",
   "status": "proved",
   "theorems": [
    "ext_add_new",
    "ext_add_other",
    "ext_add_again_refuted",
    "ext_set_read",
    "ext_set_erases_refuted"
   ],
   "note": "Part of the property is false of the code: see the _refuted theorems; the others state what does hold."
  },
  {
   "property": "C72",
   "status": "proved",
   "theorems": [
    "xsd_parse_correct",
    "xsd_anonymous_type_refuted",
    "xsd_nested_type_refuted",
    "xsd_root_element_refuted",
    "children_correct",
    "children_of_base_refuted",
    "element_declaration",
    "reference_declaration",
    "hierarchy_no_schema",
    "search_no_schema",
    "primitive_base_refuted"
   ],
   "note": "Part of the property is false of the code: see the _refuted theorems; the others state what does hold."
  },
  {
   "property": "C73",
   "status": "proved",
   "theorems": [
    "element_id_vector_correct",
    "element_id_all_refuted"
   ],
   "note": "Part of the property is false of the code: see the _refuted theorems; the others state what does hold."
  },
  {
   "property": "C74",
   "status": "proved",
   "theorems": [
    "circle_vertices",
    "circle_even_refuted",
    "circle_covers_refuted"
   ],
   "note": "Part of the property is false of the code: see the _refuted theorems; the others state what does hold."
  },
  {
   "property": "C75",
   "status": "proved",
   "theorems": [
    "csv_file_correct",
    "csv_file_empty_line_refuted",
    "csv_file_bad_number_refuted"
   ],
   "note": "Part of the property is false of the code: see the _refuted theorems; the others state what does hold."
  },
  {
   "property": "C76",
   "status": "proved",
   "theorems": [
    "entity_map_correct",
    "entity_map_distinct",
    "entity_own_name_refuted"
   ],
   "note": "Part of the property is false of the code: see the _refuted theorems; the others state what does hold."
  },
  {
   "property": "C77",
   "status": "proved",
   "theorems": [
    "balloon_total",
    "balloon_style_text",
    "balloon_default",
    "balloon_cells_refuted"
   ],
   "note": "Part of the property is false of the code: see the _refuted theorems; the others state what does hold."
  },
  {
   "property": "C78",
   "status": "proved",
   "theorems": [
    "shared_style_correct",
    "unnamed_shared_style_refuted"
   ],
   "note": "Part of the property is false of the code: see the _refuted theorems; the others state what does hold."
  },
  {
   "property": "C79",
   "status": "proved",
   "theorems": [
    "get_links_correct",
    "get_relative_links_correct",
    "link_parents_are",
    "link_parents_correct"
   ],
   "note": ""
  },
  {
   "property": "C80",
   "status": "proved",
   "theorems": [
    "remap_ids_correct"
   ],
   "note": ""
  },
  {
   "property": "C81",
   "status": "proved",
   "theorems": [
    "change_correct",
    "change_unknown",
    "target_id_spec",
    "update_not_in_map"
   ],
   "note": ""
  },
  {
   "property": "C82",
   "status": "proved",
   "theorems": [
    "create_correct",
    "created_unknown_refuted"
   ],
   "note": "Part of the property is false of the code: see the _refuted theorems; the others state what does hold."
  },
  {
   "property": "C83",
   "status": "proved",
   "theorems": [
    "remote_style_same",
    "remote_style_alone",
    "remote_icon_refuted",
    "remote_style_map_refuted"
   ],
   "note": "Part of the property is false of the code: see the _refuted theorems; the others state what does hold."
  },
  {
   "property": "C84",
   "status": "proved",
   "theorems": [
    "namespaces_declared",
    "namespaces_change_root_only",
    "namespaces_only_used",
    "namespaces_once",
    "serialize_file_twice",
    "simple_prefix_undeclared_refuted",
    "misplaced_prefix_undeclared_refuted",
    "namespace_replaced_refuted",
    "empty_file_refuted",
    "namespace_table",
    "stream_text",
    "string_text"
   ],
   "note": "Part of the property is false of the code: see the _refuted theorems; the others state what does hold."
  },
  {
   "property": "C85",
   "status": "proved",
   "theorems": [
    "links_checked",
    "links_check_no_document",
    "own_reference_missing_refuted",
    "packed_archive_checked",
    "packed_archive_refuted"
   ],
   "note": "Part of the property is false of the code: see the _refuted theorems; the others state what does hold."
  },
  {
   "property": "C86",
   "status": "proved",
   "theorems": [
    "xmlns_table_correct",
    "translate_correct",
    "translate_plain",
    "parse_atom_correct",
    "parse_atom_root_refuted",
    "parse_atom_deep_refuted",
    "parse_ns_correct",
    "prefixes_irrelevant",
    "atom_foreign_unknown",
    "parse_atom_text_correct",
    "parse_ns_text_correct",
    "ns_foreign_taken_refuted",
    "ns_gx_lost_refuted",
    "parse_by_prefix_refuted",
    "atom_foreign_written_refuted"
   ],
   "note": "Part of the property is false of the code: see the _refuted theorems; the others state what does hold."
  },
  {
   "property": "C87",
   "status": "proved",
   "theorems": [
    "rel_url_correct",
    "link_correct",
    "category_correct",
    "entry_by_title_correct",
    "next_feed_correct",
    "entry_for_feature_correct",
    "feed_features_correct",
    "resource_id_correct",
    "resource_id_refuted",
    "feed_changed_refuted",
    "feed_twice_refuted",
    "container_link_refuted",
    "entry_feature_second_refuted",
    "basic_link_written",
    "basic_entry_written"
   ],
   "note": "Part of the property is false of the code: see the _refuted theorems; the others state what does hold."
  },
  {
   "property": "C88",
   "status": "proved",
   "theorems": [
    "pieces_irrelevant",
    "stream_correct",
    "stream_malformed",
    "stream_blocks",
    "string_correct",
    "stream_not_good_refuted",
    "stream_broken_refuted",
    "empty_text_refuted"
   ],
   "note": "Part of the property is false of the code: see the _refuted theorems; the others state what does hold."
  },
  {
   "property": "C89",
   "status": "proved",
   "theorems": [
    "old_schema_converted",
    "old_schema_other",
    "old_schema_parsed",
    "instances_added",
    "instances_elsewhere",
    "old_schema_not_converted_refuted",
    "old_schema_nested_refuted",
    "old_schema_data_refuted",
    "old_schema_placemarks"
   ],
   "note": "Part of the property is false of the code: see the _refuted theorems; the others state what does hold."
  },
  {
   "property": "C90",
   "status": "proved",
   "theorems": [
    "header_found",
    "header_added",
    "headers_appended",
    "client_named",
    "request_text",
    "request_defined_iff",
    "request_none_refuted",
    "login_request",
    "login_correct",
    "login_failed",
    "login_token_refuted",
    "login_data_refuted",
    "login_data_distinct",
    "login_again_refuted",
    "header_case_refuted",
    "method_names"
   ],
   "note": "Part of the property is false of the code: see the _refuted theorems; the others state what does hold."
  },
  {
   "property": "C91",
   "status": "proved",
   "theorems": [
    "elements_found",
    "descendants_found",
    "children_found",
    "find_misplaced_refuted",
    "find_root_refuted"
   ],
   "note": "Part of the property is false of the code: see the _refuted theorems; the others state what does hold."
  },
  {
   "property": "C92",
   "status": "proved",
   "theorems": [
    "features_visited",
    "root_feature_correct",
    "visit_update_refuted"
   ],
   "note": "Part of the property is false of the code: see the _refuted theorems; the others state what does hold."
  },
  {
   "property": "C93",
   "status": "proved",
   "theorems": [
    "map_kml_correct",
    "map_kml_clones",
    "document_of_feeds",
    "feed_loop_refuted",
    "add_feature_correct",
    "add_feature_defined",
    "post_duplicate_refuted",
    "create_map_correct",
    "post_placemarks_correct",
    "post_placemark_root",
    "post_no_geometry_refuted",
    "search_feed_uri_correct",
    "search_feed_uri_none",
    "search_feed_query_refuted",
    "search_box_uri",
    "search_box_append_refuted",
    "kml_uri_correct",
    "kml_uri_no_query_refuted",
    "download_correct",
    "download_none",
    "post_table_correct",
    "post_kml_correct",
    "document_not_copied"
   ],
   "note": "Part of the property is false of the code: see the _refuted theorems; the others state what does hold."
  },
  {
   "property": "C94",
   "status": "proved",
   "theorems": [
    "boolean_child",
    "colour_child",
    "enum_child",
    "states_child",
    "states_newline_refuted",
    "link_open_marks",
    "link_short_marks",
    "link_end_lost_refuted",
    "text_child",
    "number_child",
    "blank_number_child",
    "element_digits_kept"
   ],
   "note": "Part of the property is false of the code: see the _refuted theorems; the others state what does hold."
  },
  {
   "property": "C95",
   "status": "proved",
   "theorems": [
    "features_saved",
    "listed_features",
    "rest_without_features",
    "saved_whole",
    "rebase_correct",
    "rebase_nothing",
    "listed_elements",
    "styles_saved",
    "save_features_correct",
    "rebase_short_refuted",
    "saved_update_refuted",
    "saved_root_refuted"
   ],
   "note": "Part of the property is false of the code: see the _refuted theorems; the others state what does hold."
  },
  {
   "property": "C96",
   "status": "proved",
   "theorems": [
    "elements_counted",
    "count_hidden_refuted"
   ],
   "note": "Part of the property is false of the code: see the _refuted theorems; the others state what does hold."
  },
  {
   "property": "C97",
   "status": "proved",
   "theorems": [
    "schemas_by_name"
   ],
   "note": ""
  },
  {
   "property": "C98",
   "status": "proved",
   "theorems": [
    "cached_data_same",
    "cached_icon_same",
    "icon_followed",
    "icon_in_archive",
    "packed_icon"
   ],
   "note": ""
  },
  {
   "property": "C99",
   "status": "proved",
   "theorems": [
    "cached_kml_genuine",
    "cached_kml_content",
    "cached_kml_again",
    "cached_link",
    "cached_absolute",
    "archive_again_refuted",
    "linked_archive_refuted",
    "address_fetched",
    "link_followed",
    "link_to_archive",
    "link_into_archive",
    "url_fetched",
    "packed_document"
   ],
   "note": "Part of the property is false of the code: see the _refuted theorems; the others state what does hold."
  },
  {
   "property": "C100",
   "status": "proved",
   "theorems": [
    "written_is_zip",
    "inflate_prefix",
    "inflate_enough",
    "rfc1951_inflates",
    "stored_inflates",
    "archive_rfc1951",
    "archive_listed",
    "archive_opened",
    "archive_entry_read",
    "archive_is_list",
    "archive_exists",
    "archive_local_header",
    "archive_checksum_refuted",
    "archive_long_name_refuted",
    "archive_long_comment_refuted",
    "archive_comment_record_refuted",
    "archive_case_refuted",
    "upper_same",
    "small_archive",
    "archive_position_refuted"
   ],
   "note": "Part of the property is false of the code: see the _refuted theorems; the others state what does hold."
  },
  {
   "property": "C101",
   "status": "proved",
   "theorems": [
    "rfc1951_progresses",
    "damaged_rfc1951",
    "any_data_parsed",
    "any_data_rfc1951",
    "overlong_parsed_refuted",
    "open_from_file_none",
    "damaged_open",
    "damaged_open_refuted",
    "damaged_read",
    "memory_read_inside",
    "archive_parts_empty"
   ],
   "note": "Part of the property is false of the code: see the _refuted theorems; the others state what does hold."
  },
  {
   "property": "C102",
   "status": "proved",
   "theorems": [
    "update_in_turn",
    "update_changed_id_refuted",
    "update_created_refuted"
   ],
   "note": "Part of the property is false of the code: see the _refuted theorems; the others state what does hold."
  },
  {
   "property": "C103",
   "status": "proved",
   "theorems": [
    "service_headers",
    "service_addresses",
    "service_scope",
    "services_distinct",
    "service_names",
    "service_variables",
    "meta_feed_address",
    "service_version",
    "default_addresses",
    "scope_variables",
    "meta_feed_correct",
    "service_version_refuted",
    "service_empty_scope_refuted",
    "download_address_refuted",
    "download_address_distinct"
   ],
   "note": "Part of the property is false of the code: see the _refuted theorems; the others state what does hold."
  },
  {
   "property": "C104",
   "status": "proved",
   "theorems": [
    "view_inside",
    "view_of_place",
    "view_range",
    "places_correct",
    "view_refuted"
   ],
   "note": "Part of the property is false of the code: see the _refuted theorems; the others state what does hold."
  },
  {
   "property": "C105",
   "status": "proved",
   "theorems": [
    "region_link_correct",
    "move_point_correct",
    "move_line_refuted",
    "fly_to_correct",
    "fly_to_feature_correct",
    "computed_view_element",
    "view_elements",
    "region_element",
    "placemark_elements",
    "wait_element",
    "move_element"
   ],
   "note": "Part of the property is false of the code: see the _refuted theorems; the others state what does hold."
  },
  {
   "property": "C106",
   "status": "proved",
   "theorems": [
    "distance_great_circle",
    "distance_symmetric",
    "distance_zero",
    "distance_triangle",
    "radial_distance",
    "azimuth_range",
    "distance_zero_degrees",
    "radial_round_trip",
    "distance3d_correct",
    "range_elevation",
    "elevation_correct",
    "circle_points_correct",
    "radial_longitude_refuted",
    "azimuth_self"
   ],
   "note": "Part of the property is false of the code: see the _refuted theorems; the others state what does hold."
  },
  {
   "property": "C107",
   "status": "proved",
   "theorems": [
    "is_a_derives",
    "cast_correct",
    "cast_array_field_refuted",
    "visit_one",
    "visit_nearest",
    "visit_hotspot_refuted"
   ],
   "note": "Part of the property is false of the code: see the _refuted theorems; the others state what does hold."
  },
  {
   "property": "C108",
   "status": "proved",
   "theorems": [
    "xst_alias_correct",
    "xst_text_lines",
    "xst_idempotent",
    "xst_space_refuted",
    "xsd_create_correct"
   ],
   "note": "Part of the property is false of the code: see the _refuted theorems; the others state what does hold."
  },
  {
   "property": "C109",
   "status": "proved",
   "theorems": [
    "import_fails_iff",
    "import_lookup",
    "import_of_parsed",
    "import_replaced_refuted",
    "import_style_refuted",
    "import_order_refuted"
   ],
   "note": "Part of the property is false of the code: see the _refuted theorems; the others state what does hold."
  },
  {
   "property": "C110",
   "status": "proved",
   "theorems": [
    "text_utf8",
    "name_utf8",
    "bytes_kept",
    "surrogates_refuted",
    "entity_declaration_rejected",
    "entity_declaration_rejected_blocks",
    "entity_declaration_no_element",
    "no_entity_declaration",
    "xsd_no_entity_declaration",
    "xsd_empty_refuted",
    "xsd_no_schema_refuted",
    "text_past_end",
    "name_past_end",
    "target_namespace_read",
    "foreign_root_stops"
   ],
   "note": "Part of the property is false of the code: see the _refuted theorems; the others state what does hold."
  },
  {
   "property": "C111",
   "status": "proved",
   "theorems": [
    "stats_count_written",
    "stats_balanced",
    "stats_elements",
    "stats_colour_refuted",
    "stats_misplaced_refuted"
   ],
   "note": "Part of the property is false of the code: see the _refuted theorems; the others state what does hold."
  },
  {
   "property": "C112",
   "status": "proved",
   "theorems": [
    "fields_written",
    "getters_match_written",
    "typed_getters_match_written",
    "values_match_written",
    "link_href_written",
    "model_href_written",
    "icon_href_written",
    "iconstyle_href_written",
    "locality_name_refuted",
    "fields_written_as_text"
   ],
   "note": "Part of the property is false of the code: see the _refuted theorems; the others state what does hold."
  },
  {
   "property": "C113",
   "status": "proved",
   "theorems": [
    "date_time_accepts",
    "date_time_round_trip",
    "date_time_parts_defined",
    "date_time_canonical",
    "date_text_seconds",
    "no_date_no_seconds",
    "date_time_trailing_refuted",
    "date_time_february_refuted",
    "date_time_xsd_refuted",
    "date_time_early_refuted",
    "date_time_initial",
    "month_name_read",
    "month_short_read"
   ],
   "note": "Part of the property is false of the code: see the _refuted theorems; the others state what does hold."
  },
  {
   "property": "C114",
   "status": "proved",
   "theorems": [
    "set_then_get",
    "clear_then_get",
    "other_fields_kept",
    "new_element_unset",
    "child_then_get",
    "unset_default",
    "unset_default_refuted",
    "absent_is_schema_default",
    "open_default_refuted",
    "attribute_defaults",
    "other_defaults",
    "fields_are_simple_children",
    "simple_children_have_fields",
    "fields_written",
    "fields_written_as_text"
   ],
   "note": "Part of the property is false of the code: see the _refuted theorems; the others state what does hold."
  },
  {
   "property": "C115",
   "status": "proved",
   "theorems": [
    "referenced_alive",
    "descendants_alive",
    "unreferenced_deleted",
    "nothing_lost",
    "all_deleted",
    "cycle_leaks_refuted"
   ],
   "note": "Part of the property is false of the code: see the _refuted theorems; the others state what does hold."
  },
  {
   "property": "C116",
   "status": "proved",
   "theorems": [
    "old_schema_document",
    "old_schema_text",
    "instance_becomes_placemark",
    "instance_data",
    "old_data_written",
    "instance_has_data",
    "stray_field_refuted",
    "instance_before_schema_refuted",
    "second_schema_refuted"
   ],
   "note": "Part of the property is false of the code: see the _refuted theorems; the others state what does hold."
  },
  {
   "property": "C117",
   "status": "proved",
   "theorems": [
    "split_only_styles",
    "inline_only_styles",
    "parsed_documents",
    "bare_sees",
    "styles_end",
    "split_nothing",
    "inline_nothing",
    "split_written",
    "inline_written"
   ],
   "note": ""
  },
  {
   "property": "C118",
   "status": "proved",
   "theorems": [
    "element_written",
    "written_kmz",
    "text_or_archive",
    "packed_element_parsed",
    "kmz_on_disk",
    "kml_file_packed",
    "kml_file_not_packed",
    "bad_file_packed_refuted",
    "document_saved",
    "saved_is_loaded",
    "saved_in_archive",
    "element_in_archive"
   ],
   "note": "Part of the property is false of the code: see the _refuted theorems; the others state what does hold."
  },
  {
   "property": "C119",
   "status": "proved",
   "theorems": [
    "link_resolved",
    "absolute_link",
    "fragment_link",
    "resolved_again",
    "link_in_archive",
    "fetched_url",
    "fetched_literal_refuted",
    "local_style_url",
    "style_id_refuted",
    "style_id_space_refuted",
    "style_of_host_refuted",
    "style_of_query_refuted"
   ],
   "note": "Part of the property is false of the code: see the _refuted theorems; the others state what does hold."
  },
  {
   "property": "C120",
   "status": "proved",
   "theorems": [
    "names_in_bounds",
    "long_name_refuted",
    "name_there_and_back",
    "name_is_uri",
    "backslash_refuted",
    "drive_refuted",
    "normalize_href_same",
    "uri_forms",
    "windows_uri_forms",
    "long_uri_refuted",
    "huge_uri",
    "wrapped_uri_refuted",
    "wrapped_size",
    "escape_read",
    "network_name"
   ],
   "note": "Part of the property is false of the code: see the _refuted theorems; the others state what does hold."
  },
  {
   "property": "C121",
   "status": "proved",
   "theorems": [
    "int_kept",
    "int_text_stable",
    "int_value",
    "int_range_refuted",
    "numbers_are_stable",
    "fields_written_as_text",
    "document_read_again",
    "document_text_stable",
    "document_well_formed",
    "document_cloned",
    "document_saved",
    "element_digits_kept",
    "coordinates_digits_kept",
    "number_written_again",
    "number_text_stable",
    "written_is_numeral",
    "read_nearest",
    "digits_kept",
    "zero_kept",
    "number_error",
    "written_nearest",
    "sixteen_digits_refuted",
    "double_kept_refuted",
    "out_of_range_refuted",
    "special_values_refuted",
    "no_number_is_zero"
   ],
   "note": "Part of the property is false of the code: see the _refuted theorems; the others state what does hold."
  },
  {
   "property": "C122",
   "status": "proved",
   "theorems": [
    "element_written",
    "written_is_zip",
    "written_is_read",
    "written_kmz",
    "rfc1951_inflates",
    "stored_inflates",
    "written_rfc1951",
    "archive_parsed",
    "packed_element_parsed",
    "kmz_on_disk",
    "kmz_full_disk_refuted",
    "kml_file_packed",
    "kml_file_not_packed",
    "bad_file_packed_refuted"
   ],
   "note": "Part of the property is false of the code: see the _refuted theorems; the others state what does hold."
  },
  {
   "property": "C123",
   "status": "proved",
   "theorems": [
    "read_file_spec",
    "write_file_spec",
    "write_then_read",
    "delete_spec",
    "temp_file_spec",
    "create_temp_fails",
    "drop_temp_spec",
    "temp_file_life",
    "write_full_disk_refuted",
    "read_error_unnoticed_refuted",
    "nul_in_name_refuted",
    "kmz_on_disk",
    "kmz_not_made",
    "open_from_file_none",
    "directory_packed_refuted",
    "kmz_full_disk_refuted"
   ],
   "note": "Part of the property is false of the code: see the _refuted theorems; the others state what does hold."
  },
  {
   "property": "C124",
   "status": "proved",
   "theorems": [
    "locale_c_blocks",
    "locale_c_no_memory_refuted",
    "locale_c_crossed_refuted",
    "locale_c_frees_others_refuted",
    "to_string_any_locale",
    "region_file_digits",
    "region_files_differ",
    "region_file_locale_refuted",
    "freed_locale_undefined"
   ],
   "note": "Part of the property is false of the code: see the _refuted theorems; the others state what does hold."
  }
 ]
}