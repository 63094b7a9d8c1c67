{
 "claims": [
  {
   "property": "C01",
   "status": "proved",
   "theorems": [
    "C01_key_roundtrip",
    "C01_key_injective",
    "C01_key_surjective",
    "C01_key_out_of_range_panics",
    "C01_key_formula"
   ],
   "note": ""
  },
  {
   "property": "C02",
   "status": "proved",
   "theorems": [
    "C02_index_roundtrip",
    "C02_position_unique_index",
    "C02_index_alias"
   ],
   "note": ""
  },
  {
   "property": "C03",
   "status": "proved",
   "theorems": [
    "C03_area_iteration"
   ],
   "note": "Areas whose coordinates are strictly below the i32 maximum in absolute value."
  },
  {
   "property": "C04",
   "status": "proved",
   "theorems": [
    "C04_inverse_iteration",
    "C04_inverse_rejects"
   ],
   "note": ""
  },
  {
   "property": "C05",
   "status": "proved",
   "theorems": [
    "C05_contained_range",
    "C05_touching_range",
    "C05_contains_block",
    "C05_touches_block"
   ],
   "note": "Coordinates up to 10^9 (areas) and 10^8 (block positions); beyond that i32 wraps."
  },
  {
   "property": "C06",
   "status": "proved",
   "theorems": [
    "C06_absolute_overlap",
    "C06_relative_overlap",
    "C06_intersection"
   ],
   "note": "Coordinates up to 10^9 (areas) and 5*10^7 (block positions); beyond that i32 wraps."
  },
  {
   "property": "C07",
   "status": "proved",
   "theorems": [
    "C07_visited_blocks"
   ],
   "note": "query_keys on an open transaction without I/O faults; keys are keys of block positions."
  },
  {
   "property": "C08",
   "status": "proved",
   "theorems": [
    "C08_unordered",
    "C08_corner_order",
    "C08_corner_box"
   ],
   "note": ""
  },
  {
   "property": "C09",
   "status": "proved",
   "theorems": [
    "C09_string16_roundtrip",
    "C09_string32_roundtrip",
    "C09_string16_truncated",
    "C09_string32_truncated",
    "C09_string16_no_length",
    "C09_string32_no_length",
    "C09_string16_too_long_panics",
    "C09_string32_too_long_panics"
   ],
   "note": ""
  },
  {
   "property": "C10",
   "status": "proved",
   "theorems": [
    "C10_name_id_map",
    "C10_node_data",
    "C10_metadata",
    "C10_objects",
    "C10_timers"
   ],
   "note": ""
  },
  {
   "property": "C11",
   "status": "proved",
   "theorems": [
    "C11_saved_format",
    "C11_format_loads",
    "C11_roundtrip"
   ],
   "note": ""
  },
  {
   "property": "C12",
   "status": "proved",
   "theorems": [
    "C12_load_save_load",
    "C12_loaded_wf",
    "C12_loaded_lighting",
    "C12_norm_idempotent",
    "C12_versions"
   ],
   "note": ""
  },
  {
   "property": "C13",
   "status": "proved",
   "theorems": [
    "C13_version",
    "C13_empty",
    "C13_bad_zstd",
    "C13_width_25_26",
    "C13_width_27_28",
    "C13_width_29",
    "C13_accepted_only",
    "C13_nimap_version",
    "C13_metadata_version",
    "C13_objects_version",
    "C13_timers_version"
   ],
   "note": ""
  },
  {
   "property": "C14",
   "status": "proved",
   "theorems": [
    "C14_truncated_payload",
    "C14_truncated_sections"
   ],
   "note": ""
  },
  {
   "property": "C15",
   "status": "proved",
   "theorems": [
    "C15_clean_keeps_nodes",
    "C15_clean_twice"
   ],
   "note": ""
  },
  {
   "property": "C16",
   "status": "proved",
   "theorems": [
    "C16_remove_shift"
   ],
   "note": ""
  },
  {
   "property": "C17",
   "status": "proved",
   "theorems": [
    "C17_copy_box"
   ],
   "note": ""
  },
  {
   "property": "C18",
   "status": "proved",
   "theorems": [
    "C18_copy_metadata"
   ],
   "note": ""
  },
  {
   "property": "C19",
   "status": "proved",
   "theorems": [
    "C19_fill"
   ],
   "note": ""
  },
  {
   "property": "C20",
   "status": "partial",
   "theorems": [
    "C20_fill_partial",
    "C20_fill_refuted",
    "C20_replacenodes",
    "C20_setparam2",
    "C20_deletemeta",
    "C20_deletetimers",
    "C20_deleteobjects",
    "C20_setmetavar",
    "C20_replaceininv",
    "C20_fill_inverted"
   ],
   "note": "Exact for all commands except fill with --invert on partly covered blocks, where the refutation shows the wrong number; C20_fill_inverted says which number is reported then."
  },
  {
   "property": "C21",
   "status": "partial",
   "theorems": [
    "C21_fill_refuted",
    "C21_clone",
    "C21_overlay_offset",
    "C21_overlay_refuted"
   ],
   "note": "Proved for clone and overlay with offset. fill changes blocks that are not generated, and overlay without offset copies from them in partly selected blocks (both refuted by runs)."
  },
  {
   "property": "C22",
   "status": "proved",
   "theorems": [
    "C22_replacenodes"
   ],
   "note": ""
  },
  {
   "property": "C23",
   "status": "proved",
   "theorems": [
    "C23_setparam2"
   ],
   "note": ""
  },
  {
   "property": "C24",
   "status": "partial",
   "theorems": [
    "C24_param2_refuted",
    "C24_never_arrives"
   ],
   "note": "False of the code: the value is looked up under a name that is not declared, so it never arrives (refuted); proved that the map then stays unchanged."
  },
  {
   "property": "C25",
   "status": "proved",
   "theorems": [
    "C25_deletemeta"
   ],
   "note": ""
  },
  {
   "property": "C26",
   "status": "proved",
   "theorems": [
    "C26_deletetimers"
   ],
   "note": ""
  },
  {
   "property": "C27",
   "status": "proved",
   "theorems": [
    "C27_deleteobjects"
   ],
   "note": ""
  },
  {
   "property": "C28",
   "status": "proved",
   "theorems": [
    "C28_setmetavar"
   ],
   "note": ""
  },
  {
   "property": "C29",
   "status": "proved",
   "theorems": [
    "C29_replaceininv"
   ],
   "note": ""
  },
  {
   "property": "C30",
   "status": "partial",
   "theorems": [
    "C30_readable_partial",
    "C30_readable_refuted"
   ],
   "note": "A new item name such as x:EndInventory makes a block unreadable (refuted by a run); proved for all other names and inventories without EndInventory in odd places."
  },
  {
   "property": "C31",
   "status": "proved",
   "theorems": [
    "C31_deleteblocks"
   ],
   "note": ""
  },
  {
   "property": "C32",
   "status": "partial",
   "theorems": [
    "C32_clone_partial",
    "C32_clone_refuted",
    "C32_ids_refuted"
   ],
   "note": "All areas, offsets, row orders. Consistent blocks with enough free IDs (`room`: destination IDs up to n, source IDs up to s, n + p*(s+1) <= 65534, where p is 1, 2, 4 or 8 depending on how many coordinates of the offset are multiples of 16). Source blocks at -1938 (nodes -31000 to -30993) are not copied (C32_clone_refuted). With larger IDs, a name of the destination block is overwritten and nodes outside the area change (C32_ids_refuted)."
  },
  {
   "property": "C33",
   "status": "partial",
   "theorems": [
    "C33_overlay_partial",
    "C33_ids_refuted"
   ],
   "note": "Consistent blocks with enough free IDs (`room`: destination IDs up to n, source IDs up to s, n + p*(s+1) <= 65534, where p is 1, 2, 4 or 8 depending on how many coordinates of the offset are multiples of 16). With larger IDs, nodes outside the area change (C33_ids_refuted). What becomes of input blocks that are not generated is stated as the code does it; see C21."
  },
  {
   "property": "C34",
   "status": "partial",
   "theorems": [
    "C34_overlay_partial",
    "C34_overlay_refuted",
    "C34_ids_refuted"
   ],
   "note": "Consistent blocks with enough free IDs (`room`: destination IDs up to n, source IDs up to s, n + p*(s+1) <= 65534, where p is 1, 2, 4 or 8 depending on how many coordinates of the offset are multiples of 16). Source blocks at -1938 are not copied (C34_overlay_refuted). With larger IDs, nodes outside the area change (C34_ids_refuted)."
  },
  {
   "property": "C35",
   "status": "proved",
   "theorems": [
    "C35_input_unchanged"
   ],
   "note": "All commands, faults and crash points."
  },
  {
   "property": "C36",
   "status": "proved",
   "theorems": [
    "C36_filter_keeps"
   ],
   "note": "In terms of the keys found by the query; the raw data of versions 25-28 and 29."
  },
  {
   "property": "C37",
   "status": "proved",
   "theorems": [
    "C37_unreadable_skipped"
   ],
   "note": "All eight in-place commands, on all maps whose readable blocks do not crash the command (`harmless` in SpecSafe.v; see C38)."
  },
  {
   "property": "C38",
   "status": "partial",
   "theorems": [
    "C38_copies_partial",
    "C38_clone_refuted",
    "C38_overlay_refuted",
    "C38_exact",
    "C38_completes_partial",
    "C38_sturdy",
    "C38_completes_refuted"
   ],
   "note": "replacenodes, setparam2, deleteobjects, deleteblocks, vacuum, and deletemeta, deletetimers, setmetavar and replaceininv without a node name complete on every map (C38_sturdy). With a node name: if metadata and timers are at positions in the block. fill: if the IDs of nodes do not exceed the largest named ID and that is at most 65533. clone, overlay: consistent blocks with enough free IDs (`room`); with one ID more, they panic (C38_clone_refuted, C38_overlay_refuted). A block with an empty name-ID map stops fill (refuted by a run). C38_exact: for the commands that edit in place, the blocks that crash are characterised exactly (`fatal` in SpecCrash.v): if the command gets to one, the worker panics, the map is left as it was and nothing is reported; if not, it completes and skips only unreadable blocks."
  },
  {
   "property": "C39",
   "status": "partial",
   "theorems": [
    "C39_atomic",
    "C39_atomic_errors",
    "C39_overlay_errors_refuted",
    "C39_done"
   ],
   "note": "All commands with kills; errors of the main map too. Overlay can silently skip blocks on read errors of the input map (refuted by a run)."
  },
  {
   "property": "C40",
   "status": "proved",
   "theorems": [
    "C40_no_consent"
   ],
   "note": "Arguments as supplied by the command line (see C53)."
  },
  {
   "property": "C41",
   "status": "proved",
   "theorems": [
    "C41_accepted"
   ],
   "note": ""
  },
  {
   "property": "C42",
   "status": "proved",
   "theorems": [
    "C42_search",
    "C42_block",
    "C42_node",
    "C42_index",
    "C42_size",
    "C42_copy",
    "C42_order"
   ],
   "note": "Every wrapping operation on coordinates, for accepted arguments, equals the integer operation: block search, block corners, node positions, indices, sizes, copy offsets and the order of keys."
  },
  {
   "property": "C43",
   "status": "proved",
   "theorems": [
    "C43_vacuum_unchanged",
    "C43_vacuum_reports"
   ],
   "note": ""
  },
  {
   "property": "C44",
   "status": "partial",
   "theorems": [
    "C44_store_partial",
    "C44_store_refuted"
   ],
   "note": "Proved for call sequences ending with their only commit; after a commit the next-but-one call fails (refuted by a run)."
  },
  {
   "property": "C45",
   "status": "proved",
   "theorems": [
    "C45_fifo",
    "C45_bounded",
    "C45_transparent"
   ],
   "note": ""
  },
  {
   "property": "C46",
   "status": "proved",
   "theorems": [
    "C46_behaviour",
    "C46_in_order",
    "C46_complete",
    "C46_no_deadlock",
    "C46_ends",
    "C46_bounded"
   ],
   "note": "All interleavings of the two threads, any timing of the receive timeouts, any input line. Panics of the interface thread are modelled (progress above 1, which C47 excludes)."
  },
  {
   "property": "C47",
   "status": "proved",
   "theorems": [
    "C47_progress"
   ],
   "note": "All commands, worlds and observation points; below 2^64 blocks."
  },
  {
   "property": "C48",
   "status": "proved",
   "theorems": [
    "C48_duration"
   ],
   "note": ""
  },
  {
   "property": "C49",
   "status": "partial",
   "theorems": [
    "C49_accuracy_partial",
    "C49_digits_refuted"
   ],
   "note": "Accuracy within 0.51% proved for all 64-bit counts; 999999 is shown as 1000k (refuted)."
  },
  {
   "property": "C50",
   "status": "partial",
   "theorems": [
    "C50_rows_any",
    "C50_crashes",
    "C50_order_partial",
    "C50_rows",
    "C50_order_refuted"
   ],
   "note": "C50_order_partial: for all commands, in a world without faults, for all row orders, hash orders and compressors (same decompressor), both runs end normally, log the same messages and leave maps with the same keys and contents. Missing: maps with contradictory blocks and unusual item names, as listed in `plausible` in SpecOrder.v, and runs that panic. C50_rows: with the same hash order the stored bytes are the same for all row orders. C50_order_refuted: replaceininv with a new item called x:EndInventory leaves a block whose contents depend on the hash order. C50_rows_any, C50_crashes: runs that crash crash in every order."
  },
  {
   "property": "C51",
   "status": "partial",
   "theorems": [
    "C51_saved_whole_refuted",
    "C51_saved_whole_partial"
   ],
   "note": ""
  },
  {
   "property": "C52",
   "status": "partial",
   "theorems": [
    "C52_registered_twice_refuted",
    "C52_gone_partial",
    "C52_remaining"
   ],
   "note": "Only one of the IDs is replaced (refuted by a run). Proved where names are registered once (C52_gone_partial); otherwise exactly the nodes that had another than the lowest ID of the name are left (C52_remaining; see also C77)."
  },
  {
   "property": "C53",
   "status": "proved",
   "theorems": [
    "C53_given"
   ],
   "note": "clap is assumed to report exactly declared arguments with the declared number of values; param2 is C24."
  },
  {
   "property": "C54",
   "status": "proved",
   "theorems": [
    "C54_prompt"
   ],
   "note": ""
  },
  {
   "property": "C55",
   "status": "proved",
   "theorems": [
    "C55_own_lines",
    "C55_last_line"
   ],
   "note": "All interleavings. Output is modelled as a sequence of writes; terminal cursor control is not."
  },
  {
   "property": "C56",
   "status": "proved",
   "theorems": [
    "C56_layout"
   ],
   "note": "Both known behaviours of str::lines at a final carriage return. A carriage return inside a line is printed as it is."
  },
  {
   "property": "C57",
   "status": "proved",
   "theorems": [
    "C57_progress",
    "C57_nothing",
    "C57_plain",
    "C57_never_back"
   ],
   "note": "f32 arithmetic with exact rounding. Needs that no more blocks are done than there are, which is C47."
  },
  {
   "property": "C58",
   "status": "partial",
   "theorems": [
    "C58_overwrites_partial",
    "C58_after_query",
    "C58_query",
    "C58_vacuum",
    "C58_overwrites_refuted"
   ],
   "note": "True of all displays except when the remaining time falls below an hour: it then has two characters less, and two letters of the previous display stay (refuted)."
  },
  {
   "property": "C59",
   "status": "proved",
   "theorems": [
    "C59_run",
    "C59_session"
   ],
   "note": "All twelve commands in any order. At most 3185 runs of replacenodes on maps whose IDs are below 4096: each can leave one unused name in a block, and clone adds up the IDs of up to nine blocks."
  },
  {
   "property": "C60",
   "status": "partial",
   "theorems": [
    "C60_again_partial",
    "C60_clone_refuted",
    "C60_private_refuted",
    "C60_idle",
    "C60_found_nothing"
   ],
   "note": "All twelve commands. Clone only if it does not overwrite nodes that it copies (refuted otherwise), and if no block of a version below 28 holds variables marked private, whose marks the program drops when it stores the block. Without the latter it is false too (C60_private_refuted)."
  },
  {
   "property": "C61",
   "status": "partial",
   "theorems": [
    "C61_displays_partial",
    "C61_displays_any",
    "C61_all_done_refuted"
   ],
   "note": "True of all commands but replacenodes, which does not count blocks that it cannot read, so its last display falls short by the number of skipped blocks (refuted). The refused or declined runs are those of C61_displays_any with no display."
  },
  {
   "property": "C62",
   "status": "partial",
   "theorems": [
    "C62_objects_gone_partial",
    "C62_objects_gone_refuted"
   ],
   "note": "Proved when every object is stored in the block in which it is (without an area: always). False otherwise: an object inside the area that is stored in a block outside the area is not deleted (refuted)."
  },
  {
   "property": "C63",
   "status": "proved",
   "theorems": [
    "C63_error_true",
    "C63_refused"
   ],
   "note": "C63_error_true for messages that appear, C63_refused for runs that cannot start. \"Cannot be read\" covers any failing database statement."
  },
  {
   "property": "C64",
   "status": "partial",
   "theorems": [
    "C64_accepted",
    "C64_error",
    "C64_found",
    "C64_unique_partial",
    "C64_unique_refuted"
   ],
   "note": "The first sentence is proved (C64_accepted, C64_found). The second is false: further columns may belong to the primary key (C64_unique_refuted); proved for tables whose primary key is pos alone."
  },
  {
   "property": "C65",
   "status": "proved",
   "theorems": [
    "C65_node_by_node"
   ],
   "note": "Maps and arguments as in C50 (plausible). Which objects are deleted is a function of arguments, block position and object, known exactly for objects whose nearest position fits the integers."
  },
  {
   "property": "C66",
   "status": "partial",
   "theorems": [
    "C66_order",
    "C66_split_partial",
    "C66_objects_refuted"
   ],
   "note": "Exchange is proved for all pairs of in-place commands (C66_order). Splitting is proved for all of them, and areas may overlap; for deleteobjects only if objects are stored in the block they are in, and it is false otherwise (C66_objects_refuted, from C62)."
  },
  {
   "property": "C67",
   "status": "partial",
   "theorems": [
    "C67_restore_partial",
    "C67_whole",
    "C67_timers_refuted",
    "C67_objects_refuted",
    "C67_generated_refuted",
    "C67_added_refuted"
   ],
   "note": "Proved for all commands but overlay without offset, on maps whose blocks say that they are generated; for deleteobjects and deletetimers the area of the overlay must contain all of each block (C67_restore_partial). Without these limits it is false: overlay restores no timers and objects of partly selected blocks (C67_timers_refuted, C67_objects_refuted), copies no blocks that are not generated (C67_generated_refuted) and deletes no blocks (C67_added_refuted). The second sentence is proved for such maps (C67_whole)."
  },
  {
   "property": "C68",
   "status": "proved",
   "theorems": [
    "C68_overlay",
    "C68_clone"
   ],
   "note": "The input map is another file with the same contents."
  },
  {
   "property": "C69",
   "status": "partial",
   "theorems": [
    "C69_run_partial",
    "C69_session_partial",
    "C69_run_refuted",
    "C69_contents_partial",
    "C69_contents_refuted",
    "C69_contents_session_partial"
   ],
   "note": "Partial: logs and contents agree for maps on which storing loses nothing: no metadata entry without variables and items, and no private mark in a block of a version below 28 (C69_run_partial, C69_session_partial). Otherwise the logs may differ: deletemeta counts empty entries, which disappear whenever the block is stored (C69_run_refuted). The contents agree even so, except for clone and overlay with private variables in blocks of versions below 28 (C69_contents_partial, C69_contents_session_partial, C69_contents_refuted)."
  },
  {
   "property": "C70",
   "status": "proved",
   "theorems": [
    "C70_clone_is_overlay"
   ],
   "note": ""
  },
  {
   "property": "C71",
   "status": "partial",
   "theorems": [
    "C71_copy_partial",
    "C71_overlay_partial",
    "C71_private_refuted"
   ],
   "note": "Partial: private variables in blocks of versions below 28 are excluded; C71_private_refuted shows that the program, which drops the mark when it stores such a block, then depends on the order."
  },
  {
   "property": "C72",
   "status": "partial",
   "theorems": [
    "C72_split_partial",
    "C72_overlay_partial",
    "C72_halves_refuted"
   ],
   "note": "Partial: private variables in blocks of versions below 28 are excluded for clone and overlay with offset (as in C71); overlay without offset can only be split between blocks, C72_halves_refuted."
  },
  {
   "property": "C73",
   "status": "partial",
   "theorems": [
    "C73_copy_partial",
    "C73_overlay_partial",
    "C73_private_refuted"
   ],
   "note": "Partial: private variables in blocks of versions below 28 are excluded; C73_private_refuted shows why."
  },
  {
   "property": "C74",
   "status": "partial",
   "theorems": [
    "C74_copies_partial",
    "C74_overlays",
    "C74_private_refuted"
   ],
   "note": "Partial: for clone and overlay with offset, private variables in blocks of versions below 28 are excluded (C74_private_refuted). C74_overlays has no such limit."
  },
  {
   "property": "C75",
   "status": "partial",
   "theorems": [
    "C75_overwritten_partial",
    "C75_private_refuted"
   ],
   "note": "Partial: private variables in blocks of versions below 28 are excluded; C75_private_refuted shows why. In-place commands only on maps whose blocks say that they are generated, since copies leave other blocks alone."
  },
  {
   "property": "C76",
   "status": "partial",
   "theorems": [
    "C76_chain_partial",
    "C76_old_refuted"
   ],
   "note": "Partial: blocks of version 28 or 29. Older blocks on the way drop the marks of private variables (C76_old_refuted)."
  },
  {
   "property": "C77",
   "status": "proved",
   "theorems": [
    "C77_replacenodes",
    "C77_setparam2",
    "C77_deletemeta",
    "C77_deletetimers",
    "C77_setmetavar",
    "C77_replaceininv"
   ],
   "note": "C22, C23, C25, C26, C28, C29 without unique names; complements the refuted C52."
  },
  {
   "property": "C78",
   "status": "proved",
   "theorems": [
    "C78_counts",
    "C78_told_apart"
   ],
   "note": ""
  },
  {
   "property": "C79",
   "status": "partial",
   "theorems": [
    "C79_add_partial",
    "C79_blank_refuted",
    "C79_objects_refuted",
    "C79_fill_refuted"
   ],
   "note": "Partial: for deleteobjects, objects must be stored in the block they are in (as in C62, C66); deletemeta counts metadata without variables and items, which storing a block loses, so maps with such entries are excluded for it; fill without --invert only (C20). Each limit is needed (C79_objects_refuted, C79_blank_refuted, C79_fill_refuted)."
  },
  {
   "property": "C80",
   "status": "proved",
   "theorems": [
    "C80_undo"
   ],
   "note": ""
  },
  {
   "property": "C81",
   "status": "proved",
   "theorems": [
    "C81_override"
   ],
   "note": ""
  },
  {
   "property": "C82",
   "status": "proved",
   "theorems": [
    "C82_in_a_row"
   ],
   "note": ""
  },
  {
   "property": "C83",
   "status": "proved",
   "theorems": [
    "C83_independent"
   ],
   "note": ""
  },
  {
   "property": "C84",
   "status": "partial",
   "theorems": [
    "C84_told_partial",
    "C84_blank_refuted"
   ],
   "note": "Partial: deletemeta counts metadata without variables and items, which any edit of the block loses, so maps with such entries are excluded for it (C84_blank_refuted shows why)."
  },
  {
   "property": "C85",
   "status": "proved",
   "theorems": [
    "C85_copies",
    "C85_source_needed",
    "C85_overlay",
    "C85_deleted_blocks"
   ],
   "note": ""
  }
 ]
}