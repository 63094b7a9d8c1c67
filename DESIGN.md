# Formal model of MapEditr in Rocq (Coq 8.16.1)

Sources read: every file of `/repo/src`, `/repo/Manual.md`. Nothing is built or run.
The properties are listed in `properties.jsonl`, the theorems for each of them in
`MANIFEST.json`, and the mutants tried against the theorems in `seeded/LOG.jsonl`
(`failed` there are the theorems whose proofs no longer build, `failed_lemmas` the
first lemma of each file at which the build stops).

## Trusted base

1. Coq 8.16.1's kernel, including `vm_compute` (used for examples and for the
   witnesses of `_refuted` theorems).
2. Axioms: none. `Print Assumptions` stands beneath every theorem in `Props*.v`,
   and for each of them Coq answers "Closed under the global context". No axiom
   of the standard library is used either. std++ is used as a library of
   definitions and lemmas; it adds no axiom. `coqchk -o` on the whole library lists
   `Coq.ssr.ssrunder.Under_rel.*`: parameters of a module type of Coq's own ssreflect
   library, which std++ loads. No theorem depends on them.
3. That the definitions of the model files say what the Rust code does. Every
   definition cites the lines it models. What is left out is listed below.
4. That the definitions of the `Spec*.v` files say what is meant.
5. The assumptions about libraries and the operating system listed below. They are
   hypotheses of the theorems (`ext_ok E`, `full_writes E`, `world_ok W`,
   `clap_ok d m`), not axioms. `Toy.v` and `ToyRun.v` contain instances which satisfy
   them, so they are not contradictory.

## Assumptions about the outside

| what | where | assumed |
|---|---|---|
| flate2 | `ext_ok` in `Codec.v` | decompression undoes compression and stops where the compressed data stops; it consumes no more than there is |
| zstd | `ext_ok` | `decode_all` undoes `encode_all`; the streaming decoder yields the same first byte; nothing comes out of nothing |
| `Write::write` | `ext_ok` | takes at most what it is given, at least one byte, everything for a `Cursor<Vec<u8>>` |
| `Write::write` | `full_writes E` | encoders take each string in one call. C51 shows what happens without this: strings are cut short |
| `HashMap` iteration | `ext_ok` (`vars_iter`) | some permutation of the entries, possibly different each time |
| SQLite | `conn`, `st_*` in `Sys.v` | a map from `i64` to blobs; transactions; atomic commit; a dead process leaves what was committed |
| SQLite rows | `world_ok` | `SELECT` returns every row once, in any order |
| faults | `faults W` | each statement works, fails (with or without rollback), or the process dies before or after it |
| files | `is_file`, `can_open`, `valid_map` | arbitrary, but they do not change during a run |
| sqlite crate | `field` in `Schema.v` | reading a text past the last row is an error |
| SQLite | `contents_ok` in `SpecTable.v` | no two rows with the same primary key |
| clap | `clap_ok` in `SpecCli.v` | reports exactly the declared arguments with the declared number of values, and obeys `required` and `requires` |
| f32 | `Fmt.v` | IEEE round-to-nearest-even; `{:.p}` prints the nearest decimal, ties either way |
| channels, mutex | `Ui.v` | unbounded first-in-first-out channels; receive fails when the other end is dropped; status reads and writes are atomic |
| memmem | `find_sub` in `Base.v` | finds the first occurrence if there is one |

## Modelling decisions

* **Profile.** Integer arithmetic is that of the release profile documented in
  README.md (`cargo install`, `cargo build --release`): fixed-width operations
  wrap. The wrap is written explicitly (`w16`, `w32`, `w64`, `u32`, `u64` in
  `Base.v`). Panics (`unwrap`, `assert!`, slice indexing, `try_from().unwrap()`)
  are an explicit outcome (`Panic`, `Panicked`).
* **Bytes** are `Byte.byte`, so decoders are total functions on all byte strings
  with no side condition.
* **Maps** (`BTreeMap`, `HashMap`) are std++ `gmap`s. Iteration over a `BTreeMap`
  is over its sorted list; iteration over a `HashMap` is an oracle.
* **Actions** of the compute thread have type `M A` (`Sys.v`): they read the world
  and change the system (two databases, status, trace of events). A run ends
  with a result, a panic, or the death of the process.
* **Loops** over `u32`/`u16` counts use fuel larger than the input; lemmas show that
  the fuel does not run out. Iterators are state machines run with fuel; the
  theorems give the exact output, so running out is excluded.
* **Threads** (`Ui.v`): a transition system with one step per access to a shared
  object. The compute thread is reduced to the events it sends, which are proved to
  be those of the sequential model (`C46_behaviour`).

## What is modelled

| file | models |
|---|---|
| `Base.v` | machine integers, bytes, outcomes, ordered maps (Rust and its standard library) |
| `Spatial.v` | `src/spatial/{mod,vec3,area}.rs`: all functions used by the program |
| `Codec.v` | `src/map_block/{mod,metadata,name_id_map,node_data,node_timer,static_object}.rs`: readers and writers |
| `Block.v` | `src/map_block/map_block.rs`: all five block versions |
| `BlockUtils.v` | `src/block_utils.rs` and the lookups of `name_id_map.rs` |
| `Sys.v` | `src/map_database.rs`; status and logging of `src/instance.rs:59-184`; SQLite, faults |
| `Utils.v` | `src/utils.rs`: `query_keys`, `CacheMap` |
| `Fmt.v` | `src/utils.rs`: `fmt_duration`, `fmt_big_num` |
| `Cmd.v` | `src/commands/*.rs`: what each command does with one block |
| `Commands.v` | `src/commands/*.rs`: argument checks and the commands as a whole |
| `Instance.v` | `src/instance.rs:233-404`: general argument checks, opening maps, compute thread |
| `Schema.v` | `src/map_database.rs:17-37`: the table check |
| `Cli.v` | `src/cmd_line.rs:26-190, 250-256`: declared arguments, reading of clap's matches, answer to the prompt |
| `Ui.v` | `src/cmd_line.rs:259-358`, `src/instance.rs:107-230, 387-404`: interface loop, channels, interleavings |
| `Text.v` | `src/cmd_line.rs:196-247`: wording of messages, `print_log`, `print_editing_status` |

Specifications, which do not refer to how the program works: `Spec.v` (boxes, positions),
`SpecBlock.v`, `SpecFormat.v` (what values fit the format; the format as a relation),
`SpecNodes.v` (which node is where), `SpecRun.v` (selections, arguments, runs),
`SpecCmd.v` (commands that edit in place), `SpecCopy.v` (clone, overlay), `SpecCli.v`,
`SpecFmt.v`, `SpecStore.v` (database wrapper, cache), `SpecUi.v` (two threads),
`SpecExact.v` (coordinate computations without overflow), `SpecSafe.v` (blocks that do not
crash a command), `SpecCrash.v` (blocks that do), `SpecOrder.v` (runs with different orders), `SpecKeep.v`
(sequences of runs), `SpecAgain.v` (a run and the same run again), `SpecLocal.v` (commands
node by node), `SpecRestore.v` (restoring from a backup), `SpecCong.v` and `SpecSeq.v` (runs on maps
with the same contents), `SpecLaws.v` (clone and overlay, with other runs before or after),
`SpecPair.v` (several copies), `SpecPick.v` (names registered twice), `SpecShow.v`
(progress displays), `SpecGone.v` (objects left after deleteobjects),
`SpecRefuse.v` (errors), `SpecTable.v` (tables that are maps), `SpecText.v` (texts),
`SpecTell.v` (what texts tell), `SpecAdd.v` (counts on parts of an area), `SpecUndo.v`
(edits that undo or override others). `SpecSeq.v` also says when deleteblocks spares what
is cloned.

`*Proofs.v`, `CodecRound.v`, `CopyRun.v`, `OverlayRun.v` and `*Facts.v` hold lemmas.
`Props*.v` hold the property theorems, each closed by one lemma, with an example
beside it. `Toy.v` and `ToyRun.v` hold the externals, maps and arguments of examples.

## What is not modelled

* Help texts, names and layout of command line options (`src/cmd_line.rs:26-131` apart
  from what is declared to be required), and clap itself.
* Runs and threads are modelled with messages as constructors of `msg` and displays as
  numbers; `Text.v` gives the texts. The texts of SQLite errors are left open.
* Time: when a receive times out and whether a display is due is left open (any choice).
* SQL text, prepared statements, `PRAGMA`s. In runs the outcome of the table check of
  `src/map_database.rs:17-37` is the oracle `valid_map`; `Schema.v` models the check
  itself on the list of columns, and `C64_found` joins the two.
* Paths that are not Unix paths. Text encoding: names are byte strings; clap's
  refusal of invalid UTF-8 is not modelled.
* Exhaustion of memory; failure of stdout or of the thread spawn.
* `src/testing.rs`, `#[cfg(test)]` modules, `src/main.rs` (calls `run_cmd_line`).
* Debug builds, where integer overflow panics. Where a theorem shows that wrapped
  arithmetic is exact (C42), debug builds agree.
* Two maps that are the same file (overlay of a map onto itself).

## How the properties are proved

* C01, C02, C08: arithmetic on `Z` with explicit wrap; `lia` with div/mod.
* C03, C04: the iterators as state machines; invariant "remaining output is the tail of
  the sorted enumeration".
* C05, C06: interval arithmetic.
* C09 - C14, C51: parser/printer round trips, canonical-form and prefix lemmas per
  section, composed for the five block versions. The format is a relation
  (`SpecFormat.v`) which both directions are proved against.
* C15 - C18: lemmas about node names at a position (`name_at`).
* C07, C36: `query_keys` over the row list against a set specification; the
  substring search is complete for the layouts the decoders accept.
* C19 - C34, C37, C52: a small program logic (`SysProofs.v`) turns a command into a
  fold over the visited blocks; each fold step is related to the specification of
  one block.
* C20, C21, C24, C30, C32, C33, C34, C38, C39, C44, C49, C50, C51, C52,
  C58, C60, C61, C62, C64, C66, C67, C69, C71,
  C72, C73, C74, C75, C76, C79, C84: false of the code in part.
  The true part is proved, the false part is shown by a `_refuted` witness.
* C37, C38: each way for a command body to panic is excluded separately
  (`PanicProofs.v`). `C38_exact`: conversely, each remaining way does panic, at the
  first such row (`CrashProofs.v`, `CrashRun.v`).
* C35, C39, C40, C43, C47: invariants over all faults and deaths.
* C41, C53, C54: decision procedures against the written rules.
* C42: the computations on 32-bit integers against the same on unbounded integers.
* C45: invariant by induction over operations.
* C46, C55: invariants and a termination measure over all interleavings.
* C48, C49, C57: exact rational arithmetic with rounding.
* C58: lengths of the texts.
* C59: the specifications of the commands imply that results satisfy the hypotheses of
  the next run.
* C60: the specifications of the commands, applied twice, leave nothing to change.
* C61: what the compute thread announces at each point of a run (`ShowTrace.v`), and an
  invariant of the interleavings about what was displayed of it (`ShowProofs.v`).
* C62: the specification of deleteobjects, block by block, read from the objects.
* C63: cases of opening and checking under all faults; an invariant that commands log no
  such errors and that commits without faults work.
* C64: case analysis on the first two columns.
* C65: the specifications of the single commands, read as functions of one node
  (`LocalProofs.v`).
* C66: follows from C65; what a command makes of a node does not change when done twice.
* C67, C68: a command leaves nodes outside its selection as they were, so that the
  specification of overlay determines all nodes; the source of each copied node is itself.
* C69: the specifications of the commands, for two maps with the same contents, side by
  side; sequences by induction with C59. Where storing loses metadata, node by node as
  for C70 (`LooseProofs.v`), and again by induction (`SeqProofs.v`): no command makes
  private variables in old blocks.
* C70 - C73: clone and overlay as functions of single nodes, like C65 (`LawProofs.v`): a
  node becomes what the format of the destination keeps of the node copied to it, and
  in-place commands treat a node like its copy.
* C74 - C76: the same (`PairProofs.v`); a run leaves the nodes it does not affect as they
  were, so that a copy made after it finds the same nodes.
* C77: the proofs of the commands with node names work with the ID that is looked up
  (`picked`); names that are registered once are the special case in which it is `chosen`.
* C78: beginnings and ends of the texts tell kinds of messages apart; numbers are read
  back with C49.
* C79: counts as sums over nodes of what there is at the node, which the first run leaves
  as it is in the second part (C65).
* C80-C85: both ways are followed node by node (C65); contents are the same if all nodes
  and the rest of each block are.
* C50: the specifications of the commands determine log and contents, whatever the
  orders; two runs are compared through them.

## Checking time

The examples evaluate whole runs on small maps. They are written as one boolean
per run, over small areas, because `coqchk` replays `vm_compute` without the virtual
machine.
