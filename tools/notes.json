{
 "C03": {
  "note": "Areas whose coordinates are strictly below the i32 maximum in absolute value."
 },
 "C05": {
  "note": "Coordinates up to 10^9 (areas) and 10^8 (block positions); beyond that i32 wraps."
 },
 "C06": {
  "note": "Coordinates up to 10^9 (areas) and 5*10^7 (block positions); beyond that i32 wraps."
 },
 "C07": {
  "note": "query_keys on an open transaction without I/O faults; keys are keys of block positions."
 },
 "C20": {
  "note": "Exact for all commands except fill with --invert on partly covered blocks, where the refutation shows the wrong number; C20_fill_inverted says which number is reported then."
 },
 "C21": {
  "note": "Proved for clone and overlay with offset. fill changes blocks that are not generated, and overlay without offset copies from them in partly selected blocks (both refuted by runs)."
 },
 "C30": {
  "note": "A new item name such as x:EndInventory makes a block unreadable (refuted by a run); proved for all other names and inventories without EndInventory in odd places."
 },
 "C36": {
  "note": "In terms of the keys found by the query; the raw data of versions 25-28 and 29."
 },
 "C37": {
  "note": "All eight in-place commands, on all maps whose readable blocks do not crash the command (`harmless` in SpecSafe.v; see C38)."
 },
 "C52": {
  "note": "Only one of the IDs is replaced (refuted by a run). Proved where names are registered once (C52_gone_partial); otherwise exactly the nodes that had another than the lowest ID of the name are left (C52_remaining; see also C77)."
 },
 "C24": {
  "note": "False of the code: the value is looked up under a name that is not declared, so it never arrives (refuted); proved that the map then stays unchanged."
 },
 "C35": {
  "note": "All commands, faults and crash points."
 },
 "C38": {
  "note": "replacenodes, setparam2, deleteobjects, deleteblocks, vacuum, and deletemeta, deletetimers, setmetavar and replaceininv without a node name complete on every map (C38_sturdy). With a node name: if metadata and timers are at positions in the block. fill: if the IDs of nodes do not exceed the largest named ID and that is at most 65533. clone, overlay: consistent blocks with enough free IDs (`room`); with one ID more, they panic (C38_clone_refuted, C38_overlay_refuted). A block with an empty name-ID map stops fill (refuted by a run). C38_exact: for the commands that edit in place, the blocks that crash are characterised exactly (`fatal` in SpecCrash.v): if the command gets to one, the worker panics, the map is left as it was and nothing is reported; if not, it completes and skips only unreadable blocks."
 },
 "C39": {
  "note": "All commands with kills; errors of the main map too. Overlay can silently skip blocks on read errors of the input map (refuted by a run)."
 },
 "C40": {
  "note": "Arguments as supplied by the command line (see C53)."
 },
 "C44": {
  "note": "Proved for call sequences ending with their only commit; after a commit the next-but-one call fails (refuted by a run)."
 },
 "C47": {
  "note": "All commands, worlds and observation points; below 2^64 blocks."
 },
 "C49": {
  "note": "Accuracy within 0.51% proved for all 64-bit counts; 999999 is shown as 1000k (refuted)."
 },
 "C53": {
  "note": "clap is assumed to report exactly declared arguments with the declared number of values; param2 is C24."
 },
 "C54": {
  "note": ""
 },
 "C32": {
  "note": "All areas, offsets, row orders. Consistent blocks with enough free IDs (`room`: destination IDs up to n, source IDs up to s, n + p*(s+1) <= 65534, where p is 1, 2, 4 or 8 depending on how many coordinates of the offset are multiples of 16). Source blocks at -1938 (nodes -31000 to -30993) are not copied (C32_clone_refuted). With larger IDs, a name of the destination block is overwritten and nodes outside the area change (C32_ids_refuted)."
 },
 "C33": {
  "note": "Consistent blocks with enough free IDs (`room`: destination IDs up to n, source IDs up to s, n + p*(s+1) <= 65534, where p is 1, 2, 4 or 8 depending on how many coordinates of the offset are multiples of 16). With larger IDs, nodes outside the area change (C33_ids_refuted). What becomes of input blocks that are not generated is stated as the code does it; see C21."
 },
 "C34": {
  "note": "Consistent blocks with enough free IDs (`room`: destination IDs up to n, source IDs up to s, n + p*(s+1) <= 65534, where p is 1, 2, 4 or 8 depending on how many coordinates of the offset are multiples of 16). Source blocks at -1938 are not copied (C34_overlay_refuted). With larger IDs, nodes outside the area change (C34_ids_refuted)."
 },
 "C46": {
  "note": "All interleavings of the two threads, any timing of the receive timeouts, any input line. Panics of the interface thread are modelled (progress above 1, which C47 excludes)."
 },
 "C55": {
  "note": "All interleavings. Output is modelled as a sequence of writes; terminal cursor control is not."
 },
 "C50": {
  "note": "C50_order_partial: for all commands, in a world without faults, for all row orders, hash orders and compressors (same decompressor), both runs end normally, log the same messages and leave maps with the same keys and contents. Missing: maps with contradictory blocks and unusual item names, as listed in `plausible` in SpecOrder.v, and runs that panic. C50_rows: with the same hash order the stored bytes are the same for all row orders. C50_order_refuted: replaceininv with a new item called x:EndInventory leaves a block whose contents depend on the hash order. C50_rows_any, C50_crashes: runs that crash crash in every order."
 },
 "C42": {
  "note": "Every wrapping operation on coordinates, for accepted arguments, equals the integer operation: block search, block corners, node positions, indices, sizes, copy offsets and the order of keys."
 },
 "C56": {
  "note": "Both known behaviours of str::lines at a final carriage return. A carriage return inside a line is printed as it is."
 },
 "C57": {
  "note": "f32 arithmetic with exact rounding. Needs that no more blocks are done than there are, which is C47."
 },
 "C58": {
  "note": "True of all displays except when the remaining time falls below an hour: it then has two characters less, and two letters of the previous display stay (refuted)."
 },
 "C59": {
  "note": "All twelve commands in any order. At most 3185 runs of replacenodes on maps whose IDs are below 4096: each can leave one unused name in a block, and clone adds up the IDs of up to nine blocks."
 },
 "C60": {
  "note": "All twelve commands. Clone only if it does not overwrite nodes that it copies (refuted otherwise), and if no block of a version below 28 holds variables marked private, whose marks the program drops when it stores the block. Without the latter it is false too (C60_private_refuted)."
 },
 "C61": {
  "note": "True of all commands but replacenodes, which does not count blocks that it cannot read, so its last display falls short by the number of skipped blocks (refuted). The refused or declined runs are those of C61_displays_any with no display."
 },
 "C62": {
  "note": "Proved when every object is stored in the block in which it is (without an area: always). False otherwise: an object inside the area that is stored in a block outside the area is not deleted (refuted)."
 },
 "C63": {
  "note": "C63_error_true for messages that appear, C63_refused for runs that cannot start. \"Cannot be read\" covers any failing database statement."
 },
 "C64": {
  "note": "The first sentence is proved (C64_accepted, C64_found). The second is false: further columns may belong to the primary key (C64_unique_refuted); proved for tables whose primary key is pos alone."
 },
 "C65": {
  "note": "Maps and arguments as in C50 (plausible). Which objects are deleted is a function of arguments, block position and object, known exactly for objects whose nearest position fits the integers."
 },
 "C66": {
  "note": "Exchange is proved for all pairs of in-place commands (C66_order). Splitting is proved for all of them, and areas may overlap; for deleteobjects only if objects are stored in the block they are in, and it is false otherwise (C66_objects_refuted, from C62)."
 },
 "C67": {
  "note": "Proved for all commands but overlay without offset, on maps whose blocks say that they are generated; for deleteobjects and deletetimers the area of the overlay must contain all of each block (C67_restore_partial). Without these limits it is false: overlay restores no timers and objects of partly selected blocks (C67_timers_refuted, C67_objects_refuted), copies no blocks that are not generated (C67_generated_refuted) and deletes no blocks (C67_added_refuted). The second sentence is proved for such maps (C67_whole)."
 },
 "C68": {
  "note": "The input map is another file with the same contents."
 },
 "C69": {
  "note": "Partial: logs and contents agree for maps on which storing loses nothing: no metadata entry without variables and items, and no private mark in a block of a version below 28 (C69_run_partial, C69_session_partial). Otherwise the logs may differ: deletemeta counts empty entries, which disappear whenever the block is stored (C69_run_refuted). The contents agree even so, except for clone and overlay with private variables in blocks of versions below 28 (C69_contents_partial, C69_contents_session_partial, C69_contents_refuted)."
 },
 "C71": {
  "note": "Partial: private variables in blocks of versions below 28 are excluded; C71_private_refuted shows that the program, which drops the mark when it stores such a block, then depends on the order."
 },
 "C72": {
  "note": "Partial: private variables in blocks of versions below 28 are excluded for clone and overlay with offset (as in C71); overlay without offset can only be split between blocks, C72_halves_refuted."
 },
 "C73": {
  "note": "Partial: private variables in blocks of versions below 28 are excluded; C73_private_refuted shows why."
 },
 "C74": {
  "note": "Partial: for clone and overlay with offset, private variables in blocks of versions below 28 are excluded (C74_private_refuted). C74_overlays has no such limit."
 },
 "C75": {
  "note": "Partial: private variables in blocks of versions below 28 are excluded; C75_private_refuted shows why. In-place commands only on maps whose blocks say that they are generated, since copies leave other blocks alone."
 },
 "C76": {
  "note": "Partial: blocks of version 28 or 29. Older blocks on the way drop the marks of private variables (C76_old_refuted)."
 },
 "C77": {
  "note": "C22, C23, C25, C26, C28, C29 without unique names; complements the refuted C52."
 },
 "C78": {
  "note": ""
 },
 "C79": {
  "note": "Partial: for deleteobjects, objects must be stored in the block they are in (as in C62, C66); deletemeta counts metadata without variables and items, which storing a block loses, so maps with such entries are excluded for it; fill without --invert only (C20). Each limit is needed (C79_objects_refuted, C79_blank_refuted, C79_fill_refuted)."
 },
 "C84": {
  "note": "Partial: deletemeta counts metadata without variables and items, which any edit of the block loses, so maps with such entries are excluded for it (C84_blank_refuted shows why)."
 }
}