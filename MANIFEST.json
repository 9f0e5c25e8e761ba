{
 "claims": [
  {
   "property": "C01",
   "status": "proved",
   "theorems": [
    "C01_line_end"
   ],
   "note": ""
  },
  {
   "property": "C02",
   "status": "proved",
   "theorems": [
    "C02_arc_end",
    "C02_arc_first_use",
    "C02_first_use_refuted"
   ],
   "note": ""
  },
  {
   "property": "C03",
   "status": "proved",
   "theorems": [
    "C03_spiral_end"
   ],
   "note": ""
  },
  {
   "property": "C04",
   "status": "proved",
   "theorems": [
    "C04_reverse_inverts",
    "C04_parampoly3_refuted"
   ],
   "note": ""
  },
  {
   "property": "C05",
   "status": "proved",
   "theorems": [
    "C05_parampoly3_end"
   ],
   "note": ""
  },
  {
   "property": "C06",
   "status": "proved",
   "theorems": [
    "C06_forward_chain",
    "C06_forward_succeeds"
   ],
   "note": ""
  },
  {
   "property": "C07",
   "status": "proved",
   "theorems": [
    "C07_forward_consistent"
   ],
   "note": ""
  },
  {
   "property": "C08",
   "status": "proved",
   "theorems": [
    "C08_backward_succeeds",
    "C08_backward_chain",
    "C08_backward_consistent"
   ],
   "note": ""
  },
  {
   "property": "C09",
   "status": "proved",
   "theorems": [
    "C09_backward_s_values",
    "C09_single_geometry",
    "C09_refuted"
   ],
   "note": ""
  },
  {
   "property": "C10",
   "status": "proved",
   "theorems": [
    "C10_total_length",
    "C10_recorded_lengths"
   ],
   "note": ""
  },
  {
   "property": "C11",
   "status": "proved",
   "theorems": [
    "C11_planview_ctor"
   ],
   "note": ""
  },
  {
   "property": "C12",
   "status": "proved",
   "theorems": [
    "C12_spiral_ctor",
    "C12_arc_ctor",
    "C12_poly_ctor"
   ],
   "note": ""
  },
  {
   "property": "C13",
   "status": "proved",
   "theorems": [
    "C13_terminates",
    "C13_sweeps",
    "C13_exceptions"
   ],
   "note": ""
  },
  {
   "property": "C14",
   "status": "proved",
   "theorems": [
    "C14_all_placed"
   ],
   "note": ""
  },
  {
   "property": "C15",
   "status": "proved",
   "theorems": [
    "C15_attached",
    "C15_lateral"
   ],
   "note": ""
  },
  {
   "property": "C16",
   "status": "proved",
   "theorems": [
    "C16_fixed_stay"
   ],
   "note": ""
  },
  {
   "property": "C17",
   "status": "proved",
   "theorems": [
    "C17_undefined",
    "C17_refuted_second_call"
   ],
   "note": ""
  },
  {
   "property": "C18",
   "status": "proved",
   "theorems": [
    "C18_connected"
   ],
   "note": ""
  },
  {
   "property": "C19",
   "status": "proved",
   "theorems": [
    "C19_junction_id_must_be_road_id",
    "C19_refuted"
   ],
   "note": ""
  },
  {
   "property": "C20",
   "status": "proved",
   "theorems": [
    "C20_frame"
   ],
   "note": ""
  },
  {
   "property": "C21",
   "status": "proved",
   "theorems": [
    "C21_history",
    "C21_forever",
    "C21_second_refused",
    "C21_first_added"
   ],
   "note": ""
  },
  {
   "property": "C22",
   "status": "proved",
   "theorems": [
    "C22_history",
    "C22_add"
   ],
   "note": ""
  },
  {
   "property": "C23",
   "status": "proved",
   "theorems": [
    "C23_numbering",
    "C23_sequence"
   ],
   "note": ""
  },
  {
   "property": "C24",
   "status": "proved",
   "theorems": [
    "C24_apply",
    "C24_forever",
    "C24_only_new",
    "C24_again"
   ],
   "note": ""
  },
  {
   "property": "C25",
   "status": "proved",
   "theorems": [
    "C25_consecutive",
    "C25_refuted_without_contact"
   ],
   "note": ""
  },
  {
   "property": "C26",
   "status": "proved",
   "theorems": [
    "C26_last_section",
    "C26_raises",
    "C26_refuted_equal",
    "C26_refuted_different"
   ],
   "note": ""
  },
  {
   "property": "C27",
   "status": "proved",
   "theorems": [
    "C27_refuted_fewer",
    "C27_connecting",
    "C27_unrelated",
    "C27_refuted_no_predecessor",
    "C27_refuted_sections",
    "C27_refuted_uturn"
   ],
   "note": ""
  },
  {
   "property": "C28",
   "status": "proved",
   "theorems": [
    "C28_not_consecutive",
    "C28_refuted",
    "C28_refuted_ring"
   ],
   "note": ""
  },
  {
   "property": "C29",
   "status": "proved",
   "theorems": [
    "C29_sequence",
    "C29_automatic",
    "C29_distinct",
    "C29_forever",
    "C29_refuted"
   ],
   "note": ""
  },
  {
   "property": "C30",
   "status": "proved",
   "theorems": [
    "C30_connections"
   ],
   "note": ""
  },
  {
   "property": "C31",
   "status": "proved",
   "theorems": [
    "C31_predecessor",
    "C31_successor",
    "C31_covers",
    "C31_refuted"
   ],
   "note": ""
  },
  {
   "property": "C32",
   "status": "proved",
   "theorems": [
    "C32_pairs",
    "C32_create_junction_roads",
    "C32_line_length",
    "C32_real"
   ],
   "note": ""
  },
  {
   "property": "C33",
   "status": "proved",
   "theorems": [
    "C33_unique",
    "C33_added",
    "C33_used",
    "C33_kept"
   ],
   "note": ""
  },
  {
   "property": "C34",
   "status": "proved",
   "theorems": [
    "C34_search",
    "C34_adding_succeeds"
   ],
   "note": ""
  },
  {
   "property": "C35",
   "status": "proved",
   "theorems": [
    "C35_refuted",
    "C35_once"
   ],
   "note": ""
  },
  {
   "property": "C36",
   "status": "proved",
   "theorems": [
    "C36_roadside",
    "C36_not_adjusted"
   ],
   "note": ""
  },
  {
   "property": "C37",
   "status": "proved",
   "theorems": [
    "C37_attributes",
    "C37_line_iff",
    "C37_line",
    "C37_refuted_space",
    "C37_refuted_zero"
   ],
   "note": ""
  },
  {
   "property": "C38",
   "status": "proved",
   "theorems": [
    "C38_names",
    "C38_words",
    "C38_roadmark",
    "C38_lane",
    "C38_link",
    "C38_neighbor",
    "C38_object"
   ],
   "note": ""
  },
  {
   "property": "C39",
   "status": "proved",
   "theorems": [
    "C39_read",
    "C39_order",
    "C39_dependency",
    "C39_refuted_class"
   ],
   "note": ""
  },
  {
   "property": "C40",
   "status": "proved",
   "theorems": [
    "C40_written",
    "C40_read",
    "C40_distinct"
   ],
   "note": ""
  },
  {
   "property": "C41",
   "status": "proved",
   "theorems": [
    "C41_lane",
    "C41_section",
    "C41_road",
    "C41_network",
    "C41_reachable"
   ],
   "note": ""
  },
  {
   "property": "C42",
   "status": "proved",
   "theorems": [
    "C42_create_road"
   ],
   "note": ""
  },
  {
   "property": "C43",
   "status": "proved",
   "theorems": [
    "C43_refuted",
    "C43_iff",
    "C43_refuted_new",
    "C43_new"
   ],
   "note": ""
  },
  {
   "property": "C44",
   "status": "proved",
   "theorems": [
    "C44_create_straight_road"
   ],
   "note": ""
  },
  {
   "property": "C45",
   "status": "proved",
   "theorems": [
    "C45_create_cloth_arc_cloth",
    "C45_turns",
    "C45_exact"
   ],
   "note": ""
  },
  {
   "property": "C46",
   "status": "proved",
   "theorems": [
    "C46_refuted",
    "C46_equal",
    "C46_nothing",
    "C46_iff",
    "C46_first_two",
    "C46_never",
    "C46_refuted_sections",
    "C46_all_pairs"
   ],
   "note": ""
  },
  {
   "property": "C47",
   "status": "proved",
   "theorems": [
    "C47_stable"
   ],
   "note": ""
  },
  {
   "property": "C48",
   "status": "proved",
   "theorems": [
    "C48_dimensions",
    "C48_values"
   ],
   "note": ""
  },
  {
   "property": "C49",
   "status": "proved",
   "theorems": [
    "C49_entry",
    "C49_complete",
    "C49_signal",
    "C49_refuted_height"
   ],
   "note": ""
  },
  {
   "property": "C50",
   "status": "proved",
   "theorems": [
    "C50_second_adjustment",
    "C50_twice",
    "C50_length_doubles",
    "C50_refuted"
   ],
   "note": ""
  },
  {
   "property": "C51",
   "status": "proved",
   "theorems": [
    "C51_end_to_end",
    "C51_lanes",
    "C51_joined",
    "C51_one_curve"
   ],
   "note": ""
  },
  {
   "property": "C52",
   "status": "proved",
   "theorems": [
    "C52_forward",
    "C52_backward",
    "C52_network",
    "C52_refuted"
   ],
   "note": ""
  },
  {
   "property": "C53",
   "status": "proved",
   "theorems": [
    "C53_plain_tree",
    "C53_pretty_tree",
    "C53_file",
    "C53_plain_file",
    "C53_different_files",
    "C53_refuted_newline",
    "C53_refuted_link"
   ],
   "note": ""
  },
  {
   "property": "C54",
   "status": "proved",
   "theorems": [
    "C54_pretty",
    "C54_plain",
    "C54_raises",
    "C54_no_other"
   ],
   "note": ""
  },
  {
   "property": "C55",
   "status": "proved",
   "theorems": [
    "C55_found",
    "C55_links_fit",
    "C55_connected",
    "C55_order"
   ],
   "note": ""
  },
  {
   "property": "C56",
   "status": "proved",
   "theorems": [
    "C56_pair",
    "C56_adds",
    "C56_succeeds",
    "C56_lanes",
    "C56_refuted_connecting",
    "C56_refuted_ring"
   ],
   "note": ""
  },
  {
   "property": "C57",
   "status": "proved",
   "theorems": [
    "C57_frame",
    "C57_keeps",
    "C57_ids",
    "C57_history"
   ],
   "note": ""
  },
  {
   "property": "C58",
   "status": "proved",
   "theorems": [
    "C58_road",
    "C58_network",
    "C58_written",
    "C58_history",
    "C58_two_networks"
   ],
   "note": ""
  },
  {
   "property": "C59",
   "status": "proved",
   "theorems": [
    "C59_sums",
    "C59_measures",
    "C59_ascending",
    "C59_error",
    "C59_whole",
    "C59_refuted_arc"
   ],
   "note": ""
  },
  {
   "property": "C60",
   "status": "proved",
   "theorems": [
    "C60_keeps",
    "C60_road",
    "C60_placed",
    "C60_lanes"
   ],
   "note": ""
  },
  {
   "property": "C61",
   "status": "proved",
   "theorems": [
    "C61_last",
    "C61_none",
    "C61_road",
    "C61_successor",
    "C61_predecessor",
    "C61_lane_add",
    "C61_linked"
   ],
   "note": ""
  },
  {
   "property": "C62",
   "status": "proved",
   "theorems": [
    "C62_line",
    "C62_spiral",
    "C62_arc",
    "C62_parampoly3",
    "C62_planview",
    "C62_lane",
    "C62_standard_lane",
    "C62_section",
    "C62_lanes",
    "C62_linker",
    "C62_connection",
    "C62_junction",
    "C62_road",
    "C62_opendrive",
    "C62_signal",
    "C62_object"
   ],
   "note": ""
  },
  {
   "property": "C63",
   "status": "proved",
   "theorems": [
    "C63_add_geometry",
    "C63_set_start_point",
    "C63_lane_link",
    "C63_roadmark",
    "C63_linker",
    "C63_lanelink",
    "C63_add_road",
    "C63_add_junction"
   ],
   "note": ""
  },
  {
   "property": "C64",
   "status": "proved",
   "theorems": [
    "C64_local",
    "C64_outcomes",
    "C64_objects",
    "C64_schedules",
    "C64_commute",
    "C64_networks",
    "C64_any_local",
    "C64_any_outcomes",
    "C64_any_objects",
    "C64_any_schedules"
   ],
   "note": ""
  },
  {
   "property": "C65",
   "status": "proved",
   "theorems": [
    "C65_unchanged",
    "C65_existing_kept",
    "C65_halfway"
   ],
   "note": ""
  },
  {
   "property": "C66",
   "status": "proved",
   "theorems": [
    "C66_exceptions",
    "C66_never_raises",
    "C66_each_is_raised"
   ],
   "note": ""
  },
  {
   "property": "C67",
   "status": "proved",
   "theorems": [
    "C67_refused",
    "C67_placed",
    "C67_startpoints",
    "C67_roads_and_lanes"
   ],
   "note": ""
  },
  {
   "property": "C68",
   "status": "proved",
   "theorems": [
    "C68_by_id",
    "C68_in_network",
    "C68_consecutive",
    "C68_one_next",
    "C68_stays",
    "C68_become"
   ],
   "note": ""
  },
  {
   "property": "C69",
   "status": "proved",
   "theorems": [
    "C69_runs",
    "C69_not_run",
    "C69_refuted_spaces"
   ],
   "note": ""
  },
  {
   "property": "C70",
   "status": "proved",
   "theorems": [
    "C70_exact",
    "C70_exact_road",
    "C70_file",
    "C70_refuted_order",
    "C70_refuted_neighbor",
    "C70_refuted_links",
    "C70_refuted_lanes",
    "C70_refuted_unit",
    "C70_refuted_height",
    "C70_marks",
    "C70_refuted_chain",
    "C70_refuted_cases",
    "C70_lane_links",
    "C70_lane_order",
    "C70_adjusted",
    "C70_refuted_position",
    "C70_refuted_sections",
    "C70_refuted_two_sections",
    "C70_refuted_from_end"
   ],
   "note": ""
  },
  {
   "property": "C71",
   "status": "proved",
   "theorems": [
    "C71_exact",
    "C71_adjust",
    "C71_intersection",
    "C71_refuted_loose",
    "C71_refuted_junction"
   ],
   "note": ""
  },
  {
   "property": "C72",
   "status": "proved",
   "theorems": [
    "C72_forward",
    "C72_placed",
    "C72_schema",
    "C72_refuted_blocked",
    "C72_ordered",
    "C72_intersection"
   ],
   "note": ""
  },
  {
   "property": "C73",
   "status": "proved",
   "theorems": [
    "C73_sweep",
    "C73_ordered",
    "C73_lanes"
   ],
   "note": ""
  }
 ]
}