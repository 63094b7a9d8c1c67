{"id": "C01", "title": "Block key and block position are inverse encodings", "statement": "For every block position with all coordinates in [-2048, 2047], converting it to a database key and back yields the same position, distinct positions get distinct keys, and every key in the corresponding range is the key of the position it decodes to. Converting an out-of-range position panics rather than producing a wrong key.", "quantifier": "all block positions (2^36 of them) and all 64-bit keys", "why_tests_cant": "The space has 2^36 positions; the unit tests sample 16 of them at hand-picked boundaries.", "anchors": ["src/spatial/vec3.rs: Vec3::from_block_key, Vec3::to_block_key"]}
{"id": "C02", "title": "Node index and in-block position are inverse encodings", "statement": "For every node index below 4096, the position decoded from it lies in the 16x16x16 cube and x + 16*y + 256*z gives the index back; every position of the cube has exactly one such index. Indices of 4096 and above alias the index modulo 4096.", "quantifier": "all 16-bit indices and all in-block positions", "why_tests_cant": "Unit tests sample six values; every command that addresses metadata, timers or nodes relies on all of them.", "anchors": ["src/spatial/vec3.rs: Vec3::from_u16_key"]}
{"id": "C03", "title": "Iterating an area visits every position exactly once, in order", "statement": "For every valid area, iterating it yields each position contained in the area exactly once, ordered by z, then y, then x, and then stops.", "quantifier": "all valid areas of any size whose coordinates are below the i32 maximum", "why_tests_cant": "Areas are unbounded in size; tests iterate three small ones.", "anchors": ["src/spatial/area.rs: AreaIterator, Area::into_iter"]}
{"id": "C04", "title": "Inverse iteration visits exactly the indices outside an in-block area", "statement": "For every valid area inside the 16x16x16 cube, the inverse iterator yields, in increasing order and without repetition, exactly the node indices below 4096 whose position is not contained in the area.", "quantifier": "all valid sub-boxes of a mapblock (about 2.5 million) and every step of the iterator", "why_tests_cant": "Tests cover 1000 of about 2.5 million boxes; the skipping logic is stateful.", "anchors": ["src/spatial/mod.rs: InverseBlockIterator"]}
{"id": "C05", "title": "Contained and touching block ranges are exact", "statement": "For every area, the contained-block range holds exactly the blocks all of whose 4096 nodes are in the area (and is absent exactly when there are none), and the touching-block range holds exactly the blocks with at least one node in the area. The per-block tests agree with them.", "quantifier": "all areas and all block positions within the map", "why_tests_cant": "Negative coordinates, partial blocks and empty ranges make the rounding case analysis infinite.", "anchors": ["src/spatial/area.rs: Area::to_contained_block_area, to_touching_block_area, contains_block, touches_block"]}
{"id": "C06", "title": "Block/area overlaps are exact intersections", "statement": "For every area and block, the absolute overlap contains exactly the positions in both, the relative overlap is the same box shifted to block-relative coordinates in 0..15, and both are absent exactly when area and block share no node. Area intersection is exact likewise.", "quantifier": "all areas, block positions and node positions", "why_tests_cant": "Three-dimensional interval arithmetic over unbounded coordinates.", "anchors": ["src/spatial/area.rs: Area::abs_block_overlap, rel_block_overlap, intersection"]}
{"id": "C07", "title": "A command visits exactly the blocks its selection covers", "statement": "Given any database and selection, the set of visited keys is: with an area, the blocks touching it (or, for deleteblocks, fully inside it); with an inverted area, the blocks not fully inside it (or, for deleteblocks, fully outside it); without area, all blocks; further restricted only by the node/object name filter. Each key is visited at most once, in database row order.", "quantifier": "all databases whose keys are keys of block positions, all areas, inversion/partiality flags and row orders", "why_tests_cant": "Every combination of database content and area; an off-by-one loses or corrupts user terrain.", "anchors": ["src/utils.rs: query_keys"]}
{"id": "C08", "title": "Corner order does not matter", "statement": "Any two opposite corners given as p1/p2 select the same area: the box containing exactly the positions coordinatewise between them, and it is always valid.", "quantifier": "all pairs of corners", "why_tests_cant": "All pairs of integer vectors.", "anchors": ["src/spatial/area.rs: Area::from_unsorted, Area::contains"]}
{"id": "C09", "title": "Length-prefixed strings round-trip and reject truncation", "statement": "Reading back a written 16-bit or 32-bit length-prefixed string yields the same bytes and leaves what follows untouched; any input with fewer bytes than announced is rejected as bad data; writing a string too long for its prefix panics instead of truncating.", "quantifier": "all byte strings and all continuations", "why_tests_cant": "Unbounded strings.", "anchors": ["src/map_block/mod.rs: try_read_n, read_string16, read_string32, write_string16, write_string32"]}
{"id": "C10", "title": "Each mapblock section round-trips", "statement": "Name-ID maps, static object lists, node timer lists, node data and node metadata lists that fit their on-disk counts are read back exactly as written, with what follows in the stream untouched, whatever order the variables of a metadata entry are written in; metadata entries that are empty are dropped, and privacy flags are dropped for block versions below 28.", "quantifier": "all section values, all hash-map iteration orders, all continuations", "why_tests_cant": "Unbounded lists and nondeterministic hash iteration order.", "anchors": ["src/map_block/name_id_map.rs: NameIdMap::serialize/deserialize", "src/map_block/static_object.rs", "src/map_block/node_timer.rs", "src/map_block/node_data.rs", "src/map_block/metadata.rs"]}
{"id": "C11", "title": "Mapblocks survive a save/load cycle", "statement": "For every supported version (25 to 29) and every representable block, decoding the encoded block gives the same block (up to dropped empty metadata, and, below version 28, privacy flags, and below 27, the lighting field which is not stored).", "quantifier": "all mapblocks of all five supported versions", "why_tests_cant": "Three recorded sample blocks are tested; the format has five versions with different section orders.", "anchors": ["src/map_block/map_block.rs: MapBlock::serialize, MapBlock::deserialize"]}
{"id": "C12", "title": "Any block that can be loaded can be saved again without loss", "statement": "If stored bytes decode to a block, then encoding that block never panics and decodes to the same block up to empty metadata (and privacy flags below version 28).", "quantifier": "all byte strings accepted as a mapblock", "why_tests_cant": "The set of accepted inputs is infinite and includes hostile ones.", "anchors": ["src/map_block/map_block.rs: MapBlock::deserialize, MapBlock::serialize"]}
{"id": "C13", "title": "Unsupported or malformed data is rejected with an error, never a crash", "statement": "Decoding any byte string terminates with either a block or an error: an unsupported block version gives the version error, wrong content or parameter width the feature error, and missing bytes the bad-data error.", "quantifier": "all byte strings", "why_tests_cant": "All byte strings, including adversarial length fields.", "anchors": ["src/map_block/map_block.rs: MapBlock::deserialize", "src/map_block/mod.rs: MapBlockError"]}
{"id": "C14", "title": "Truncated block data is never accepted as a complete block", "statement": "If an uncompressed block payload decodes successfully, then no proper prefix of the bytes that were consumed decodes successfully.", "quantifier": "all payloads and all truncation points", "why_tests_cant": "Every truncation point of every payload.", "anchors": ["src/map_block/map_block.rs: MapBlock::deserialize"]}
{"id": "C15", "title": "Cleaning the name-ID map never changes which node is where", "statement": "For every block whose node IDs are all named and below 65535, cleaning keeps the node name at each of the 4096 positions, and afterwards the IDs are exactly 0..n-1, each used by some node, with pairwise distinct names. Cleaning twice is the same as cleaning once.", "quantifier": "all blocks with complete name-ID maps and IDs below 65535", "why_tests_cant": "All assignments of IDs and names, including duplicates and gaps.", "anchors": ["src/block_utils.rs: clean_name_id_map"]}
{"id": "C16", "title": "Removing a name ID shifts the remaining IDs down consistently", "statement": "Removing an ID from a name-ID map leaves lower IDs alone and moves each name of a higher ID down by one, for maps with arbitrary gaps.", "quantifier": "all name-ID maps and IDs below 65535", "why_tests_cant": "All maps; the in-place loop mutates what it iterates.", "anchors": ["src/map_block/name_id_map.rs: NameIdMap::remove_shift"]}
{"id": "C17", "title": "Copying part of a block copies exactly the chosen nodes", "statement": "For every pair of equal-sized boxes, after copying a source box into a destination box, each destination position in the box has the node name, param1 and param2 of the corresponding source position, and every other position keeps its name, param1 and param2.", "quantifier": "all pairs of blocks (with complete name maps that fit 16-bit IDs) and all box pairs of equal size, including overlapping and shifted in any direction", "why_tests_cant": "All blocks and 2.5 million box shapes with all relative shifts.", "anchors": ["src/block_utils.rs: merge_blocks"]}
{"id": "C18", "title": "Copying part of a block copies exactly the metadata of the chosen nodes", "statement": "After copying a source box into a destination box, each destination position in the box has exactly the metadata of the corresponding source position (none if it had none), and metadata elsewhere is unchanged.", "quantifier": "all metadata lists with positions 0..4095 and equal-sized box pairs", "why_tests_cant": "All metadata maps and boxes.", "anchors": ["src/block_utils.rs: merge_metadata"]}
{"id": "C19", "title": "fill sets exactly the selected nodes", "statement": "After fill, every node position that is inside (with invert: outside) the area and lies in a stored, readable block has the new node name; every other node keeps its name; param1, param2, metadata, objects, timers and all other block fields are unchanged; unreadable blocks and blocks outside the selection are byte-for-byte unchanged.", "quantifier": "all databases (readable blocks consistent: every node ID named, IDs at most 65533; other blocks arbitrary bytes), areas, invert flags, node names, row orders", "why_tests_cant": "Whole-database functional correctness over all worlds.", "anchors": ["src/commands/fill.rs: fill, fill_area"]}
{"id": "C20", "title": "Reported counts equal the number of affected items", "statement": "The number reported by fill, replacenodes, setparam2, deletemeta, deletetimers, deleteobjects, setmetavar and replaceininv equals the number of nodes (objects, timers, item stacks) in the selection that the command affected.", "quantifier": "all databases and arguments", "why_tests_cant": "All worlds and selections; partial, whole and inverted blocks use different counting code.", "anchors": ["src/commands/fill.rs: fill", "src/commands/set_param2.rs: set_param2_partial", "src/commands/replace_nodes.rs: do_replace", "src/commands/delete_objects.rs: delete_objects"]}
{"id": "C21", "title": "Blocks that are not generated are left alone", "statement": "fill, clone and overlay do not change (or copy from) mapblocks that are stored but flagged as not yet generated, as the manual promises.", "quantifier": "all databases containing not-generated blocks, all arguments", "why_tests_cant": "All worlds; the flag must be honoured on every code path.", "anchors": ["src/commands/fill.rs: fill", "src/commands/clone.rs: get_cached", "src/commands/overlay.rs: overlay_no_offset", "src/map_block/map_block.rs: is_valid_generated", "Manual.md: fill, clone"]}
{"id": "C22", "title": "replacenodes renames exactly the selected nodes", "statement": "After replacenodes, every node in the selection (area, inverted area or everywhere) in a readable block that had the old name has the new name; every other node keeps its name; nothing else about any block changes.", "quantifier": "all databases (readable blocks consistent: every node ID named, no name registered twice, IDs at most 65533; other blocks arbitrary bytes), areas, invert flags, names, row orders", "why_tests_cant": "Whole-database functional correctness including ID renumbering.", "anchors": ["src/commands/replace_nodes.rs: replace_nodes, do_replace"]}
{"id": "C23", "title": "setparam2 sets param2 of exactly the selected nodes", "statement": "After setparam2 is executed with a value, every selected node (by area/invert and optional node name) has that param2; all other param2 values and everything else are unchanged.", "quantifier": "all databases (no name registered twice in a readable block, if a node name is given), areas, invert flags, optional node names, values", "why_tests_cant": "Whole-database functional correctness.", "anchors": ["src/commands/set_param2.rs: set_param2, set_param2_partial"]}
{"id": "C24", "title": "setparam2 can be run from the command line", "statement": "Whenever the command line accepts a setparam2 invocation with a param2 value, the value reaches the command.", "quantifier": "all command lines", "why_tests_cant": "Argument plumbing by string keys is only exercised end to end; no test runs the command line.", "anchors": ["src/cmd_line.rs: parse_cmd_line_args, to_cmd_line_args", "src/commands/set_param2.rs: set_param2"]}
{"id": "C25", "title": "deletemeta deletes exactly the selected metadata", "statement": "After deletemeta, metadata of every node that is selected by area/invert and optional node name is gone; all other (non-empty) metadata and everything else is unchanged.", "quantifier": "all databases (readable blocks: metadata positions below 4096, and no name registered twice if a node name is given) and arguments", "why_tests_cant": "Whole-database functional correctness.", "anchors": ["src/commands/delete_meta.rs: delete_metadata"]}
{"id": "C26", "title": "deletetimers deletes exactly the selected timers", "statement": "After deletetimers, exactly the timers whose node is not selected remain, in the original order; everything else is unchanged.", "quantifier": "all databases (readable blocks: timer positions below 4096, and no name registered twice if a node name is given) and arguments", "why_tests_cant": "Index-based removal while iterating, over all lists.", "anchors": ["src/commands/delete_timers.rs: delete_timers"]}
{"id": "C27", "title": "deleteobjects deletes exactly the selected objects", "statement": "After deleteobjects, exactly the objects of visited blocks that do not match (area/invert of rounded position, entity name, item name) remain, in order; unparsable objects are kept when a name is given; everything else is unchanged.", "quantifier": "all databases (object coordinates at most 214747.8647 if an area is given) and arguments", "why_tests_cant": "All object lists, positions and serialized entity payloads.", "anchors": ["src/commands/delete_objects.rs: delete_objects, can_delete, get_item_name", "src/map_block/static_object.rs: LuaEntityData::deserialize"]}
{"id": "C28", "title": "setmetavar sets or deletes only the named variable where it already exists", "statement": "After setmetavar, in selected nodes' metadata that had the variable it has the new value (same privacy) or is gone; no variable is ever created; all other variables, inventories and everything else are unchanged, except that metadata left empty disappears.", "quantifier": "all databases (readable blocks: metadata positions below 4096, and no name registered twice if node names are given) and arguments", "why_tests_cant": "Whole-database functional correctness.", "anchors": ["src/commands/set_meta_var.rs: set_meta_var"]}
{"id": "C29", "title": "replaceininv rewrites exactly the matching item lines", "statement": "In selected inventories, each stack line of the named item becomes the new item with count, wear and metadata kept (or metadata dropped with --deletemeta, or 'Empty' with --delete); all other non-blank lines are unchanged and in order; inventories without the item are byte-for-byte unchanged.", "quantifier": "all databases (readable blocks as for setmetavar; selected inventories end in an EndInventory line and do not contain that word before a space), item names not ending in EndInventory, and flags", "why_tests_cant": "All inventory texts.", "anchors": ["src/commands/replace_in_inv.rs: do_replace, replace_in_inv"]}
{"id": "C30", "title": "replaceininv leaves inventories readable", "statement": "For every accepted item name, the rewritten inventory is stored so that it is read back unchanged (it still ends at its first 'EndInventory' line).", "quantifier": "all inventories and all accepted item names", "why_tests_cant": "All inventory texts and names.", "anchors": ["src/commands/replace_in_inv.rs: do_replace", "src/map_block/metadata.rs: NodeMetadata::deserialize", "src/instance.rs: is_valid_name"]}
{"id": "C31", "title": "deleteblocks deletes exactly the blocks fully inside (or fully outside) the area", "statement": "After deleteblocks, the remaining blocks are exactly those not fully inside the area (with invert: not fully outside), with their bytes untouched.", "quantifier": "all databases and areas", "why_tests_cant": "All worlds; a mistake erases user data.", "anchors": ["src/commands/delete_blocks.rs: delete_blocks"]}
{"id": "C32", "title": "clone copies the original contents even when source and destination overlap", "statement": "After clone, each node in the destination area whose own block and whose source block are generated and readable has the name, param1, param2 and metadata that the source position had before the command; everything else is unchanged. This holds for overlapping areas and any offset direction, whatever the row order and cache eviction.", "quantifier": "all databases of well-formed blocks, areas, offsets, row orders", "why_tests_cant": "Depends on processing order, cache contents and evictions over arbitrarily large areas.", "anchors": ["src/commands/clone.rs: clone, get_cached", "src/utils.rs: CacheMap"]}
{"id": "C33", "title": "overlay without offset copies the selection from the input map", "statement": "After overlay without offset, whole selected generated blocks equal the input map's bytes; partially selected blocks present in both maps have the input's nodes and metadata inside the selection and their own outside; all other blocks are unchanged.", "quantifier": "all pairs of databases, areas, invert flags", "why_tests_cant": "All pairs of worlds.", "anchors": ["src/commands/overlay.rs: overlay_no_offset"]}
{"id": "C34", "title": "overlay with offset copies the shifted selection", "statement": "After overlay with an offset, each node in the shifted area whose block is generated in the main map and whose source block is generated in the input map has the input's name, param1, param2 and metadata; everything else is unchanged.", "quantifier": "all pairs of databases, areas, offsets", "why_tests_cant": "All pairs of worlds and offsets.", "anchors": ["src/commands/overlay.rs: overlay_with_offset, get_cached"]}
{"id": "C35", "title": "overlay never modifies the input map", "statement": "Whatever the arguments, faults or crash point, the input map database is unchanged.", "quantifier": "all runs, including crashed and failed ones", "why_tests_cant": "All executions.", "anchors": ["src/commands/overlay.rs", "src/instance.rs: compute_thread"]}
{"id": "C36", "title": "The name search filter never skips a block that contains the name", "statement": "If a stored block of version 28 or lower is readable and its name-ID map contains the searched node name (or one of its objects is an entity of the searched name), the raw-bytes filter keeps it.", "quantifier": "all readable old-version blocks and names", "why_tests_cant": "A false negative silently leaves blocks unedited; all byte layouts.", "anchors": ["src/utils.rs: query_keys"]}
{"id": "C37", "title": "Unreadable blocks are skipped, counted and left byte-for-byte unchanged", "statement": "A visited block that cannot be decoded is left byte-for-byte unchanged by every command that edits blocks in place, does not stop the processing of other blocks, and is counted exactly once in the reported number of skipped blocks.", "quantifier": "all databases with arbitrary garbage values (readable blocks may be inconsistent as long as the command does not crash on them, see C38)", "why_tests_cant": "All garbage contents.", "anchors": ["src/commands/*.rs", "src/instance.rs: compute_thread"]}
{"id": "C38", "title": "No stored block content can crash a command", "statement": "Every command runs to completion on every database: blocks that are decodable but inconsistent (for example with an empty name-ID map or IDs without names) are skipped, not fatal.", "quantifier": "all databases", "why_tests_cant": "All decodable contents.", "anchors": ["src/block_utils.rs: clean_name_id_map, merge_blocks", "src/commands/fill.rs: fill", "src/commands/replace_nodes.rs: do_replace"]}
{"id": "C39", "title": "Edits are all-or-nothing under crashes", "statement": "If the process is killed or panics at any point of any command, the map database on disk is either exactly as before or exactly as after the complete command (given that SQLite transactions are atomic).", "quantifier": "all commands, databases, arguments and crash points", "why_tests_cant": "All crash points of all runs.", "anchors": ["src/map_database.rs: MapDatabase", "src/instance.rs: compute_thread"]}
{"id": "C40", "title": "Nothing is changed without consent or with invalid arguments", "statement": "If argument verification fails, or confirmation is requested and not answered with 'y', the map database is unchanged and the command is not run.", "quantifier": "all arguments, answers and databases", "why_tests_cant": "All inputs and answers.", "anchors": ["src/instance.rs: compute_thread, verify_args", "src/cmd_line.rs: get_confirmation"]}
{"id": "C41", "title": "Accepted arguments are exactly the documented ones", "statement": "Arguments are accepted exactly when: inversion comes with an area, area corners are within +-31000, offsets within +-62000, and every node/object/item name is 'air', 'ignore' or mod:item with the allowed characters; plus the per-command rules of the manual.", "quantifier": "all argument records", "why_tests_cant": "All strings and coordinates.", "anchors": ["src/instance.rs: verify_args, is_valid_name", "src/commands/*.rs: verify_args"]}
{"id": "C42", "title": "Coordinate arithmetic never overflows for accepted arguments", "statement": "For every accepted area and offset and every block position of the map, the 32-bit coordinate computations made by the commands give the mathematically exact result.", "quantifier": "all accepted arguments and block positions", "why_tests_cant": "All coordinates.", "anchors": ["src/spatial/area.rs", "src/spatial/vec3.rs", "src/commands/clone.rs", "src/commands/overlay.rs"]}
{"id": "C43", "title": "vacuum does not change the map contents", "statement": "After vacuum, whether it succeeds, fails or crashes, the stored blocks are the same. It reports completion only if the database has done everything, reports failure only if a statement failed, and one of the two whenever it ends normally.", "quantifier": "all databases, faults and crash points", "why_tests_cant": "All executions.", "anchors": ["src/commands/vacuum.rs", "src/map_database.rs: vacuum"]}
{"id": "C44", "title": "The database wrapper commits every write that was acknowledged", "statement": "For any sequence of get, set, delete, iterate and commit calls on the map database without I/O errors, no call fails, reads return the latest write, and after commit the file holds all writes.", "quantifier": "all operation sequences", "why_tests_cant": "All histories.", "anchors": ["src/map_database.rs: MapDatabase::begin_if_needed, commit_if_needed, get_block, set_block, delete_block"]}
{"id": "C45", "title": "The block cache is bounded and transparent", "statement": "A cache of capacity n filled on misses never holds more than max(n,1) entries, never holds two values for a key, evicts the oldest insertion first, and a lookup returns only the value last inserted for that key.", "quantifier": "all sequences of lookups and insertions and all capacities", "why_tests_cant": "All histories.", "anchors": ["src/utils.rs: CacheMap", "src/commands/clone.rs: get_cached", "src/commands/overlay.rs: get_cached"]}
{"id": "C46", "title": "Every log message reaches the user, in order, and the program terminates", "statement": "For every interleaving of worker and interface threads, every message logged by the worker is printed exactly once and in order, the confirmation handshake never deadlocks or panics, and the interface loop ends after the worker has ended.", "quantifier": "all schedules of the two threads", "why_tests_cant": "All interleavings.", "anchors": ["src/cmd_line.rs: run_cmd_line", "src/instance.rs: status_link, StatusServer, StatusClient, spawn_compute_thread"]}
{"id": "C47", "title": "Progress never exceeds 100 percent", "statement": "At every point observable by the interface thread, the number of processed blocks does not exceed the total, so the progress bar computation cannot go out of range.", "quantifier": "all interleavings, databases and commands", "why_tests_cant": "All observation points of all runs.", "anchors": ["src/cmd_line.rs: print_editing_status", "src/instance.rs: StatusServer"]}
{"id": "C48", "title": "Elapsed times are displayed correctly", "statement": "The formatted duration denotes exactly the whole number of seconds of the duration, with minutes and seconds below 60 and two digits each.", "quantifier": "all durations", "why_tests_cant": "All 64-bit second counts.", "anchors": ["src/utils.rs: fmt_duration"]}
{"id": "C49", "title": "Large counts are abbreviated faithfully", "statement": "The abbreviated count is within rounding distance of the real count and has at most three significant digits before the suffix.", "quantifier": "all 64-bit counts", "why_tests_cant": "All 64-bit values through single-precision rounding.", "anchors": ["src/utils.rs: fmt_big_num"]}
{"id": "C50", "title": "Results do not depend on database row order or hash iteration order", "statement": "Two runs of the same command on the same database contents, with different physical row orders and hash seeds, produce databases whose blocks decode to the same contents.", "quantifier": "all pairs of row orders and hash orders", "why_tests_cant": "Nondeterminism is not controllable from a test.", "anchors": ["src/utils.rs: query_keys", "src/map_block/metadata.rs: NodeMetadata::serialize"]}
{"id": "C51", "title": "Saving a block never cuts strings short", "statement": "Every name, metadata variable and object datum of a saved block is stored whole, for every behaviour of the compressing writers that the standard Write contract allows (a single write may take only part of a buffer).", "quantifier": "all representable blocks and all permitted short writes of the zlib and zstd encoders", "why_tests_cant": "Short writes occur only for large incompressible data at particular internal buffer states.", "anchors": ["src/map_block/mod.rs: write_string16, write_string32"]}
{"id": "C52", "title": "replacenodes finds every node of the name", "statement": "After replacenodes, no selected node has the old name, even in blocks whose name-ID map registers the old name under two IDs.", "quantifier": "all databases of readable blocks whose node IDs are all named", "why_tests_cant": "The game never writes such blocks, so example maps do not contain them; only a proof attempt shows that uniqueness of names is needed.", "anchors": ["src/commands/replace_nodes.rs: do_replace", "src/map_block/name_id_map.rs: get_id"]}
{"id": "C53", "title": "The run gets exactly the arguments of the command line", "statement": "For every command line that the argument parser accepts, the arguments of the run are those given: names, lists and flags unchanged, corner and offset numbers exactly as written in decimal, the area being the box spanned by the two corners in whatever order; arguments the command needs are always there; the only error is a coordinate that is not a 32-bit decimal integer, and reading never panics.", "quantifier": "all commands and accepted command lines", "why_tests_cant": "All argument combinations and all number texts; plumbing is by string keys.", "anchors": ["src/cmd_line.rs: arg_to_pos, to_cmd_line_args, parse_cmd_line_args", "src/spatial/area.rs: Area::from_unsorted", "src/commands/*.rs: get_command"]}
{"id": "C54", "title": "Only an explicit y counts as consent", "statement": "The confirmation prompt is answered positively exactly when the line read, without surrounding white space, is the single letter y or Y.", "quantifier": "all input lines", "why_tests_cant": "All texts.", "anchors": ["src/cmd_line.rs: get_confirmation"]}
{"id": "C55", "title": "Messages and prompts start on a line of their own", "statement": "For every interleaving, no message or prompt is ever printed in the middle of a progress line, and after a run that neither panics nor is killed the terminal is left at the beginning of a line.", "quantifier": "all runs and all schedules of the two threads", "why_tests_cant": "Depends on the relative timing of progress updates, state changes and messages.", "anchors": ["src/cmd_line.rs: run_cmd_line, newline_if", "src/utils.rs: query_keys", "src/commands/*.rs: begin_editing, end_editing"]}
{"id": "C56", "title": "Messages are printed whole, line by line, with their kind", "statement": "Every log message is printed as its kind (info, warning or error), a colon and a blank, then its lines; lines after the first are indented by the width of that prefix, every line ends with a newline, and no line is lost or changed. So a line that begins with a kind is always the beginning of a message, even if a message quotes text with line breaks.", "quantifier": "all messages, all texts", "why_tests_cant": "Messages can quote any text of the command line.", "anchors": ["src/cmd_line.rs: print_log", "src/instance.rs: LogType"]}
{"id": "C57", "title": "The progress display shows correct values", "statement": "For every number of blocks done out of a total, the display consists of a bar of width 25, a percentage with one decimal, the time elapsed and the time remaining. The bar and the percentage are within rounding of the exact ratio (bar: rounded down up to 0.00001, percentage: within 0.051), are full exactly at the end and empty at the beginning, and never go back. The remaining time is shown from 10 percent on and is within a second plus 0.001 percent of the time already needed of the exact extrapolation. The display never crashes.", "quantifier": "all counts up to 2^64, all times up to 2^60 seconds", "why_tests_cant": "Single-precision arithmetic over all pairs of counts; rounding effects occur only at particular ratios.", "anchors": ["src/cmd_line.rs: print_editing_status"]}
{"id": "C58", "title": "A progress display covers the previous one", "statement": "Progress displays are written over the previous one on the same line; nothing of the previous display remains visible behind a new one.", "quantifier": "all successive displays of a run", "why_tests_cant": "Depends on the lengths of all numbers and times shown.", "anchors": ["src/cmd_line.rs: print_editing_status, run_cmd_line"]}
{"id": "C59", "title": "Maps stay consistent through any sequence of commands", "statement": "If the blocks of a map (and of the input maps) are free of contradictions - every node has a name, no name is registered twice, metadata and timers belong to nodes, inventories are terminated - then every command with accepted arguments ends normally and leaves such a map, on which the next command ends normally, and so on. Only replacenodes can use up node IDs, one per run and block.", "quantifier": "all finite sequences of runs of all commands, all accepted arguments, all consistent maps, at most 3185 runs of replacenodes", "why_tests_cant": "Sequences of commands grow exponentially in number, and corruption by one command may show only several commands later.", "anchors": ["src/instance.rs: compute_thread", "src/map_block/map_block.rs: MapBlock", "src/commands/*.rs"]}
{"id": "C60", "title": "Running a command again does nothing new", "statement": "Running the same command with the same arguments a second time, in whatever order the database returns its rows, leaves a map with the same contents as after the first run. Commands that remove what they look for (deletemeta, deletetimers, deleteobjects, setmetavar --delete, replaceininv, replacenodes) report that they found nothing; of these all but replacenodes, and also deleteblocks and vacuum, leave every byte of the map as it is. A clone can be repeated when the copied nodes are not among those overwritten.", "quantifier": "all commands and accepted arguments, all consistent maps, all row orders of both runs", "why_tests_cant": "A command that misses some of the affected data in the first run, or that finds its own output in the second, does so only for particular combinations of arguments and map contents.", "anchors": ["src/instance.rs: compute_thread", "src/commands/*.rs"]}
{"id": "C61", "title": "Progress displays are complete and never go back", "statement": "However the two threads interleave, the progress displays of a finished run are first at least two counts of blocks found, never decreasing and ending with the number of blocks that the command has to look at, then at least two counts of blocks worked on out of that number, never decreasing and ending with all of them. Vacuum shows at least two displays without numbers; a refused or declined run shows none.", "quantifier": "all commands, arguments, maps, row orders, database errors that do not stop the run, and interleavings", "why_tests_cant": "What is displayed depends on when the interface thread looks at the shared status; a count that goes back, or a last display that comes before the last update, appears only for particular timings.", "anchors": ["src/cmd_line.rs:259-358", "src/instance.rs: StatusServer, query_keys", "src/commands/*.rs"]}
{"id": "C62", "title": "deleteobjects leaves exactly the objects that were not wanted", "statement": "After deleteobjects, over the whole map and wherever they are stored, the objects left in each readable block are exactly those that are not (nearest to a selected position with the given name and one of the given items), in their old order; blocks keep being readable or unreadable and no block appears or disappears.", "quantifier": "all maps, areas (inverted or not), names, item lists and row orders", "why_tests_cant": "The area is used twice, once to choose blocks and once to choose objects; only objects whose block and position disagree tell the two apart, and ordinary maps have few of those.", "anchors": ["src/commands/delete_objects.rs", "src/utils.rs: query_keys", "src/map_block/static_object.rs"]}
{"id": "C63", "title": "Error messages tell the truth, and a run that cannot start changes nothing", "statement": "Whatever fails: if a run ends with an error message, what the message says is the case (the named corner, offset, name or option violates its rule; or the arguments are fine and the main map cannot be opened, or is no map or cannot be read; or likewise the input map with the main map being fine; or the final commit failed). Unless it is the commit message it is the only message and the main map is unchanged. Conversely a run whose arguments or maps are unusable ends with exactly one such message, unless the process is killed first.", "quantifier": "all commands, arguments that the parser lets through, files, database failures, process deaths and maps", "why_tests_cant": "Each combination of several wrong arguments and unusable files has its own first complaint; tests look at one mistake at a time.", "anchors": ["src/instance.rs:238-384", "src/commands/*.rs: verify_args", "src/map_database.rs:71-81"]}
{"id": "C64", "title": "Files are accepted exactly if their table is a map table", "statement": "A file is accepted as a map exactly if the first two columns of its table `blocks` are `pos INT`, first column of the primary key, and `data BLOB`, not part of the primary key. Other files are reported as invalid, or as a database failure if the columns are missing. In accepted tables no two blocks have the same position.", "quantifier": "all table layouts and contents", "why_tests_cant": "Maps made by the game all have one layout; the check meets other layouts only in files made by other programs.", "anchors": ["src/map_database.rs:17-37"]}
{"id": "C65", "title": "In-place commands work node by node", "statement": "After fill, replacenodes, setparam2, deletemeta, deletetimers, deleteobjects, setmetavar or replaceininv, the name, params and metadata of every node of every readable block depend only on what they were at that node, on the node's position and on the arguments: nodes that are selected and have a searched name are changed as the command says, all others are the same. Timers and objects are the old ones, in order, without those to be deleted. Version, flags, light data, widths and timestamp of blocks are the same; no block appears or disappears and unreadable ones stay as they are.", "quantifier": "all eight commands, arguments, maps without contradictory blocks, areas, row orders", "why_tests_cant": "Influence of one node on another would show only for particular neighbours, IDs or name tables; a test compares a few nodes.", "anchors": ["src/commands/fill.rs", "src/commands/replace_nodes.rs", "src/commands/set_param2.rs", "src/commands/delete_meta.rs", "src/commands/delete_timers.rs", "src/commands/delete_objects.rs", "src/commands/set_meta_var.rs", "src/commands/replace_in_inv.rs"]}
{"id": "C66", "title": "Commands on separate areas can be exchanged, and areas can be split", "statement": "Two runs of in-place commands whose selections have no node in common leave the same contents in either order. A run on an area leaves the same contents as two runs of the same command on two areas that together make up that area, for example two halves, or an area and its inversion instead of the whole map.", "quantifier": "all pairs of in-place commands, all arguments, areas, maps without contradictory blocks, and row orders of each run", "why_tests_cant": "Areas cut blocks in arbitrary ways and the runs renumber node names, so the stored bytes differ; agreement has to hold for every pair of commands and every cut.", "anchors": ["src/commands/*.rs", "src/utils.rs: query_keys", "src/spatial/mod.rs", "src/block_utils.rs"]}
{"id": "C67", "title": "An overlay of a backup restores the map", "statement": "After any command, overlay without offset of a copy of the map made before, on an area with all nodes that the command may have changed, gives a map with the contents from before: names, params and metadata of all nodes, and deleted blocks. With no area, every block of the backup is restored byte for byte, whatever happened to the map, and blocks that the backup does not have stay.", "quantifier": "all commands and arguments, all areas that contain the changed nodes, maps without contradictory blocks, row orders of both runs", "why_tests_cant": "The two runs cut blocks differently and renumber node names; a test restores one map after one command.", "anchors": ["src/commands/overlay.rs", "src/commands/*.rs"]}
{"id": "C68", "title": "Copies onto the same place change nothing", "statement": "An overlay without offset whose input map is a copy of the map itself, and a clone with offset (0, 0, 0), leave the contents of the map as they were, on any area.", "quantifier": "all areas, inverted or not, maps with room for node IDs, row orders", "why_tests_cant": "Merging blocks renumbers names and rewrites data for every part of every block; only a proof covers all blocks and areas.", "anchors": ["src/commands/overlay.rs", "src/commands/clone.rs", "src/block_utils.rs: merge_blocks"]}
{"id": "C69", "title": "Only the contents of a map matter", "statement": "Two maps may hold the same contents in different bytes: other numbers for the same node names, unused names, variables in another order. Running the same command on both, with input maps that also have the same contents, gives the same log messages with the same counts, and again maps with the same contents; so does any sequence of commands, with any row order and hash order in each run.", "quantifier": "all commands and arguments, all pairs of maps with the same contents and without contradictory blocks, sequences of runs of any length, all row and hash orders", "why_tests_cant": "It compares runs on all pairs of equivalent encodings, after any number of earlier runs.", "anchors": ["src/commands/*.rs", "src/map_block.rs", "src/block_utils.rs"]}
{"id": "C70", "title": "Clone is overlay of a copy of the map", "statement": "Cloning an area by a non-zero offset leaves the same contents as overlaying a copy of the map onto it with the same area and offset, and both report the same number of blocks that could not be read.", "quantifier": "all areas, offsets, maps with room for node IDs, row and hash orders", "why_tests_cant": "The two commands find their blocks in different ways and write while they read; only a proof covers all areas, offsets and overlaps of source and destination.", "anchors": ["src/commands/clone.rs", "src/commands/overlay.rs: overlay_with_offset", "src/block_utils.rs: merge_blocks"]}
{"id": "C71", "title": "Edits elsewhere can be exchanged with copies", "statement": "An in-place command and a clone or overlay can be run in either order with the same resulting contents, provided the command applies to no node that is copied or overwritten (for overlay without offset, except deletetimers and deleteobjects).", "quantifier": "all in-place commands, areas, offsets and maps without contradictory blocks and without private variables in blocks older than version 28, all row and hash orders", "why_tests_cant": "Blocks may hold both edited and copied nodes, and names are renumbered differently in each order; only a proof covers all interleavings of areas and blocks.", "anchors": ["src/commands/*.rs", "src/block_utils.rs: merge_blocks, merge_metadata"]}
{"id": "C72", "title": "Copies can be split into parts", "statement": "A clone or overlay with offset on one area after another leaves the same contents as on both at once, if a clone does not read from the second area what it has just written there. An overlay without offset can be split where no block has nodes in both parts.", "quantifier": "all pairs of areas, offsets and maps without contradictory blocks, all row and hash orders", "why_tests_cant": "It compares runs over all ways to divide an area, across and within blocks.", "anchors": ["src/commands/clone.rs", "src/commands/overlay.rs", "src/block_utils.rs: merge_blocks"]}
{"id": "C73", "title": "Edits of everything commute with copies", "statement": "An in-place command without area (deletetimers only without a node name) can be run on the whole map before or after a clone, and on both maps before or on the result after an overlay, with the same resulting contents.", "quantifier": "all in-place commands, clones, overlays with and without offset, maps without contradictory blocks and without private variables in blocks older than version 28, all row and hash orders", "why_tests_cant": "It says that editing a node and copying it are interchangeable for every node, name, variable and inventory.", "anchors": ["src/commands/*.rs", "src/block_utils.rs: merge_blocks, merge_metadata"]}
{"id": "C74", "title": "Copies to separate places can be exchanged", "statement": "Two clones or overlays can be run in either order with the same resulting contents if neither changes what the other copies or changes; for two overlays without offset it is enough that their areas have no node in common.", "quantifier": "all pairs of clones and overlays with offset, and all pairs of overlays without offset on (not inverted) areas; all maps without contradictory blocks, all row and hash orders", "why_tests_cant": "It compares two orders of two runs for all areas, including areas that share blocks without sharing nodes.", "anchors": ["src/commands/clone.rs", "src/commands/overlay.rs", "src/block_utils.rs: merge_blocks, merge_metadata"]}
{"id": "C75", "title": "What is overwritten makes no difference", "statement": "If a run changes only nodes that the following clone or overlay with offset overwrites and does not copy, the result is the same as that of the clone or overlay alone.", "quantifier": "all commands that change nodes or metadata, followed by clone or overlay with offset; maps without contradictory blocks, all row and hash orders", "why_tests_cant": "Left-overs of overwritten nodes (names, metadata, numbering) could survive in some combination of blocks; only a proof excludes all of them.", "anchors": ["src/commands/clone.rs", "src/commands/overlay.rs: overlay_with_offset", "src/block_utils.rs: merge_blocks, merge_metadata"]}
{"id": "C76", "title": "Copies of copies are copies", "statement": "Nodes that are cloned (or overlaid with offset) and then cloned on arrive as if they had been copied to their last place at once.", "quantifier": "all areas and offsets, overlapping or not; maps with blocks of version 28 or 29, all row and hash orders", "why_tests_cant": "The statement is about all positions and all overlaps of the three places.", "anchors": ["src/commands/clone.rs", "src/commands/overlay.rs: overlay_with_offset"]}
{"id": "C77", "title": "Names registered twice: the lowest ID counts", "statement": "In a block whose name table registers a name under several IDs, replacenodes, setparam2, deletemeta, deletetimers, setmetavar and replaceininv act on exactly the selected nodes that have the lowest of these IDs: those are changed and counted, all other nodes, metadata and timers stay, and the final message states the number.", "quantifier": "all databases (also with names registered several times), arguments, areas and node names", "why_tests_cant": "The game never writes such tables; which of several nodes of the same name is touched depends on every layout of the table and of the block.", "anchors": ["src/map_block/name_id_map.rs: get_id", "src/commands/replace_nodes.rs: do_replace", "src/commands/set_param2.rs: set_param2", "src/commands/delete_meta.rs: delete_metadata", "src/commands/delete_timers.rs: delete_timers", "src/commands/set_meta_var.rs: set_meta_var", "src/commands/replace_in_inv.rs: replace_in_inv"]}
{"id": "C78", "title": "Messages say which command did how much, or what is wrong", "statement": "Every message with counts is the wording that belongs to it with the counts in their places, each written exactly below 1000 and within 0.51% otherwise. Two different messages (other than those with SQLite's own text) never have the same wording, except that counts of at least 1000 which differ by about one percent at most may be written alike; in particular the wrong name, the wrong corner and the reason of a refusal can be read off.", "quantifier": "all messages, all 64-bit counts, all names and coordinates, all ways of rounding ties", "why_tests_cant": "There are infinitely many messages; that no two of them coincide can only be tested for a few pairs.", "anchors": ["src/commands/*.rs: log_info!", "src/instance.rs: verify_args", "src/utils.rs: fmt_big_num", "src/spatial/vec3.rs: Display"]}
{"id": "C79", "title": "Counts of parts add up", "statement": "If the selected nodes are divided into two parts without common nodes, running an in-place command on one part and then on the other reports numbers (of nodes, entries, timers, objects, items) that add up to the number reported by one run on the whole.", "quantifier": "all in-place commands and arguments, all ways to divide a selection, all maps without contradictory blocks, all row and hash orders", "why_tests_cant": "The second run works on blocks that the first has rewritten and renumbered; only a proof covers all divisions across and within blocks and all contents.", "anchors": ["src/commands/*.rs", "src/block_utils.rs", "src/map_block/map_block.rs"]}
{"id": "C80", "title": "Replacing nodes can be undone exactly if the new name did not occur", "statement": "If replacenodes turns nodes named A into B and is then run with A and B swapped in the same area, the map has its former contents afterwards if and only if no node in the area was named B before; then both runs report the same number of nodes.", "quantifier": "all names, areas (inverted or not), maps without contradictory blocks, row and hash orders of either run", "why_tests_cant": "Ids are renumbered, merged and dropped by both runs, and blocks are rewritten twice; a test only sees a few tables.", "anchors": ["src/commands/replace_nodes.rs", "src/commands/fill.rs", "src/block_utils.rs", "src/map_block/map_block.rs"]}
{"id": "C81", "title": "A later edit overrides an earlier one", "statement": "After fill (on all nodes of an earlier fill or replacenodes), setparam2 (on all nodes of an earlier setparam2 with the same or no name), deletemeta (on all nodes of an earlier deletemeta, setmetavar or replaceininv), or setmetavar setting or deleting a variable set before, the map has the contents it would have if only the later edit had been run.", "quantifier": "all such pairs of commands and arguments, all areas containing one another, all maps without contradictory blocks, all row and hash orders", "why_tests_cant": "The first run may change which blocks are rewritten, their tables of names and their order; that nothing of it is left needs all blocks and areas.", "anchors": ["src/commands/fill.rs", "src/commands/set_param2.rs", "src/commands/delete_meta.rs", "src/commands/set_meta_var.rs", "src/block_utils.rs"]}
{"id": "C82", "title": "Replacements in a row", "statement": "Replacing nodes A by B and then B by C leaves a map with the same contents as replacing B by C first and then A by C.", "quantifier": "all names (also equal ones), areas, maps without contradictory blocks, row and hash orders of all four runs", "why_tests_cant": "The two ways pass through different tables of names with different merges of ids.", "anchors": ["src/commands/replace_nodes.rs", "src/commands/fill.rs", "src/block_utils.rs", "src/map_block/map_block.rs"]}
{"id": "C83", "title": "Independent edits can be exchanged on any areas", "statement": "Two in-place commands leave the same contents in either order, whatever their areas (also overlapping or the same), if they change different things (names, param2, metadata variables, inventories, timers, objects), or different metadata variables, or one deletes what the other changes; provided that neither changes node names for which the other looks.", "quantifier": "all pairs of in-place commands and arguments that are independent in this sense, all areas, all maps without contradictory blocks, all row and hash orders of the four runs", "why_tests_cant": "Pairs of commands, overlaps of areas and contents of blocks (e.g. metadata that becomes empty on the way and is not stored) are too many to try.", "anchors": ["src/commands/*.rs", "src/map_block/metadata.rs", "src/block_utils.rs"]}
{"id": "C84", "title": "Reports do not depend on unrelated edits before", "statement": "An in-place command reports the same numbers before and after another in-place command that does not change what it counts: e.g. the number of nodes found or painted if no name it looks for has changed, of timers unless timers were deleted, of variables set unless they or their metadata were deleted.", "quantifier": "all pairs of in-place commands and arguments that are unrelated in this sense, all areas, all maps without contradictory blocks, all row and hash orders", "why_tests_cant": "The first run rewrites and renumbers blocks; that no count changes needs all contents, areas and pairs of commands.", "anchors": ["src/commands/*.rs", "src/map_block/metadata.rs", "src/block_utils.rs"]}
{"id": "C85", "title": "deleteblocks can be exchanged with edits and copies", "statement": "deleteblocks before or after any in-place command leaves the same contents and logs the same, whatever the areas. If it deletes every block with a node to which the other command applies, the map is as if only deleteblocks had been run (deleteobjects excepted). deleteblocks can also be exchanged with clone and with overlay with an offset, unless it deletes blocks with nodes that are cloned; then the order matters. The same holds of overlay without an offset if it applies to no node of the deleted blocks.", "quantifier": "all in-place commands, clones, overlays and arguments, all areas of both (inverted or not), all maps without contradictory blocks, all row and hash orders of the four runs", "why_tests_cant": "It needs that no in-place command looks at other blocks than the one it edits, for all contents and areas.", "anchors": ["src/commands/delete_blocks.rs", "src/commands/*.rs", "src/utils.rs: query_keys"]}
