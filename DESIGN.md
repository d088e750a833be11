# Formal model of pwil3058/rs_diff_patch in Rocq (Coq 8.16.1)

## Layout (rocq/theories)

Model files contain only definitions (each citing the /repo file and lines it models); `Spec*.v` the
vocabulary in which properties are stated, which mentions the data types of the model but not its functions;
proof files only lemmas; the `Properties_*.v` files only the property theorems, each closed by `exact`, with
`Print Assumptions` below and a concrete `Example` beside.

| file | content |
|---|---|
| `Base.v` | results (`Ok`/`Panic`/`OutOfFuel`), checked machine arithmetic, slices |
| `Model_Seq.v` | range.rs, snippet.rs (data), sequence.rs: lines, UTF-8 validation, index tables |
| `Model_Changes.v` | common_subsequence.rs, changes.rs: longest common blocks, change lists, clumps |
| `Model_IO.v` | `io::Write` with a limited room, `ConsumableSeq`, `WriteDataInto` |
| `Model_Text.v` | text_diff.rs, apply_text.rs: fuzzy application, statistics, conflict blocks |
| `Model_Bytes.v` | byte_diff.rs, apply_bytes.rs |
| `Model_Snippet.v` | the public functions of snippet.rs and sequence.rs nothing else calls |
| `Model_Json.v` | derived serde implementations and serde_json, down to the bytes of the file |
| `Model_Alone.v` | change diffs saved and loaded on their own |
| `Model_Files.v` | file system with faults, diff.rs (`Diff::new`), pw_diff/src/main.rs, pw_patch/src/main.rs |
| `Model_Log.v` | the messages given while applying and by the two programs, and which of them are shown |
| `Model_Count.v` | the loops over clumps with the number of the clump as an `i32` |
| `Model_Cli.v` | the command lines of the two programs (clap), and the programs from the command line on |
| `Model_Conc.v` | several runs of pw_patch at the same time: their file operations interleaved |
| `Model_Cost.v` | the generator of changes.rs:140-255 with a count of the rounds of its loops |
| `Model_Work.v` | apply_text.rs:101-192, 258-351 with a count of comparisons and rounds |
| `Model_ByteWork.v` | apply_bytes.rs:34-71, sequence.rs:31-40 with a count of bytes compared |
| `Model_Watch.v` | diff.rs:22-58 and the readers it calls, operation by operation, with files that others change in between |
| `Model_Links.v` | pw_patch on a file system with symbolic and hard links |
| `Model_Open.v` | several runs of pw_patch at the same time, with open files |
| `Model_Regex.v` | the part of the regex crate that is used (leftmost-first backtracking) |
| `Model_Unified.v` | pw_cub_diff_lib: unified diff parser and printer |
| `Model_Basics.v` | the `ChangeBasics` trait: positions of changes, clumps and unified clumps, its default methods |
| `Spec.v`, `Spec_*.v` | specification vocabulary (`Spec_Json.v`: the JSON grammar of RFC 8259 and which trees stand for a diff) |
| `Tests.v` | the repository's own unit tests replayed on the model by `vm_compute`, and spot checks of the Rust primitives of `Base.v` (validation of the model, not proofs) |
| `Cases.v` | notation for concrete inputs |
| `Proof_*.v` | lemmas; `Proof_Props_X.v` has the property lemmas `p_NAME` and examples `e_NAME` |
| `Properties_X.v` | the property theorems, generated from `Proof_Props_X.v` by `tools/mkthms.py` |

`tools/mkprops.py` writes `properties.jsonl`, `tools/mkthms.py` the `Properties_*.v`, `tools/mkmanifest.py`
`MANIFEST.json` (from the theorem names and `tools/notes.json`). All of their output is committed; none is needed to
build. `seeded/LOG.jsonl` records trials of the theorems against wrong programs.

## Modelling decisions

* `Seq<T>` is `list T`; `u8` is Coq's 256-constructor `byte`; `String` is `list byte` (its UTF-8 bytes);
  UTF-8 validity is a table-driven check in the model and "encoding of a list of scalar values" in the specification.
* In the diff generator `usize` is `nat`: all values are bounded by the lengths of slices in memory, so
  overflow is impossible; *underflow* and out-of-range slicing are explicit `Panic`s.
* In patch application, positions come from an untrusted JSON file and are mixed with signed offsets:
  there `usize`/`isize` are `Z` with explicit 64-bit range, wrap-around casts, and a flag `dbg`
  (`true` = debug build: overflow checks and `debug_assert!` panic; `false` = release build: wrap, no asserts).
  A 64-bit machine is assumed.
* Theorems on fuzzy application assume `fits_lines` (24 bytes per line, fewer than 2^63 bytes: what Rust
  allows a `Vec<String>` to hold) and, for patches not made by the generator, `hunk_ok` (positions below 2^61,
  context lengths not longer than the lines). C54/C55 say what happens beyond.
* `io::Write` is a byte accumulator with an arbitrary number of bytes it accepts before failing
  (`w_room : option nat`), so every write-failure point is covered.
* `HashMap` is an association list (only get/insert are used; it is never iterated).
* `rayon::par_sort` is a sort by the derived total order; independence from the sorting algorithm and
  schedule is itself a theorem (C12).
* Unbounded `while`/`for` loops are recursion on fuel with an explicit `OutOfFuel` outcome which theorems exclude
  (C08, C54, C65), and which is shown not to depend on the amount.
* Files: a path denotes a file directly (no aliases, no relative paths; no links except in C99, where a name may be a symbolic link
  and a file may have several names, but directories on the way to a file are still not followed); each operation may fail or
  the process may be killed at each operation (`e_fault`); a state is what another process would see. Other
  processes change nothing during a run, except in C98, where several runs of pw_patch are interleaved operation by
  operation (reading an open file gives its content at the opening, although another file may have its name by then). C129 removes this simplification: there an open file is read when it is read, and written byte by byte. Data not yet synced at a power loss: C122. Standard output is
  line-buffered as in Rust's std, its last buffer flushed at exit with errors ignored.

## Not modelled

* Human-readable error texts (what `{err}` shows, also those of clap). Of messages, `Model_Log.v` has the
  source, level and meaning, `Model_Words.v` the wording, with the text of the error as a parameter; a text of
  serde_json may quote a part of the patch, so nothing is proved of that part. The colours and timestamps of
  stderrlog are not modelled. The clump number (an `i32`) is a natural number, except in C130.
* The source of dependencies. serde's derive, serde_json, regex, tempfile-free std functions are modelled from
  knowledge of their documented behaviour, as noted at the head of each model file: stderrlog with
  `.module(module_path!())` shows messages of the program's own module only, errors at verbosity 0, warnings from 1
  (`-v`), information from 2 (`-vv`); struct fields in any order,
  unknown fields skipped, duplicates rejected; clap: arguments from left to right, an option's value may not begin
  with `-` unless attached, `--` ends options, a second `-c` or `-r` and an empty path are refused; `regex` leftmost-first semantics, `\s` = Unicode White_Space; the
  Unicode digits beyond ASCII (`\d`) are a parameter `nd` of the model, and theorems hold for every choice.
* Kinds of I/O errors. serde_json's recursion limit of 128 is not reached: the types nest at most eight levels, and
  skipped values are handled with an explicit stack (`ignore_value`) to which the limit does not apply.
* `pw_diff_lib/src/data.rs`: commented out of `lib.rs` (line 8), i.e. dead code.
* Memory exhaustion, apart from the number of entries the generator holds (C120), and time, apart from termination and
  the number of rounds of the loops of the generator (C107), of the search for a clump (C111) and of applying a byte
  patch (C115).

## What is proved, and how

Properties are listed in `properties.jsonl`, the theorems for each in `MANIFEST.json`. A property that is false of the
code has a theorem `…_refuted` (with a concrete witness) and `…_partial` theorems with the strongest form
found; the comment above each says what is missing.

* C01-C03 lines and index tables: induction on the byte list; UTF-8 automaton against the encoding of scalar values.
* C04-C13, C71, C72 change generation: invariant of the length table (maximal common suffixes); the LIFO work
  list refines an in-order recursion; the sorted permutation is unique; the block structure is characterised by a
  simple recursive rule, in both directions.
* C14-C17, C48, C49 clumps: induction over the change list with the state of the clump iterator.
* C18-C30, C50-C55 text patches: induction over clumps with the invariant (lines consumed, output so far);
  C73, C74 give the complete outcome for every patch and text, and its uniqueness.
* C31-C36, C75 byte patches: the same, simpler.
* C90-C92 undoing a patch: the clumps describe the original and whatever they make of it exactly, so the reverse
  patch fits the result even where changes were overlooked; `nearly` (C18, C19, C31, C32, C92) bounds what is overlooked.
* C93, C94 texts edited elsewhere: the outcome of C73 when every clump is found at its best place; the shifts of the
  reverse patch are the same ones, so it is within the same reach. C95: each of two patches is carried over to what the
  other one made of the text.
* C37-C41, C58-C65 the programs: a program is a sequence of file operations; every prefix is a possible crash state.
* C42, C56, C57 JSON: print/parse round trip, truncation, totality. C79, C80: the loader against the grammar of
  RFC 8259, sound and complete by induction on the type read (skipped values: on the grammar); the printer's layout.
  C88, C89: the same for change diffs on their own; the grammar is unambiguous, so texts can be compared by trees.
* C43-C47, C66-C70 unified diffs: printer and parser, regular expressions characterised as languages.
* C86, C87 whole runs without outside faults: `Spec_Run.v` lists the kinds of run; every run is one of them, and no two of them agree on the files and differ in anything else.
* C97 command lines: the parser against a grammar of spellings, by induction on the arguments in one direction and on
  the derivation in the other. C96 follows from C58, C40 and C42.
* C98 runs at the same time: an invariant over what each run has done so far (before reading, holding what it has read,
  temporary file made, ready, done), preserved by every operation of every run; alone, a run is that of `Model_Files.v`.
* C99 links: what a run does to names and files is read off its program for any file system; where there are no links, runs
  correspond operation by operation to those of `Model_Files.v`.
* C100-C102 how a diff depends on its inputs: through the exact characterisation of the changes (C72).
* C103 context: the patched text as a function of the list of changes, by induction on the division into clumps.
* C104, C105 parts of a diff: hunks that are in their places in a text are applied there, whichever they are.
* C106 size: a sum over the clumps bounded by the cover of the texts they come from; the length of the printed form, field by field.
* C107 work: the count is carried along by a copy of the generator proved to give the same results; a potential over the
  work list bounds the searches; the blocks found in the family of bad inputs follow from the rule for the search (C05, C07).
* C108 series: induction on the list of patches over C18, C19, C31, C32, C90, C91.
* C109 a diff in a changing world: a program of looks at the files, proved to be that of `Model_Files.v` when nothing changes;
  the moments are followed through it, and C98 says what the files hold at each of them.
* C110 patching again: C22, C52, C40 for the files.
* C111 work of applying: the count is carried along by a copy of the functions proved to give the same results; the place reached
  and the offset stay within bounds given by the exact outcome of each clump (C73).
* C112-C114 content of patched files: a judgement on what a computation writes, for every outcome; for sizes, what is written and
  what is left of the target never add up to more than was there, because nothing is cut off a clump that it does not have; the
  shortest JSON text of a diff (C113) by induction over the grammar of C79; conflicts from the exact outcome (C73).
* C115 work of a byte patch: pairs of bytes compared are counted (`Model_ByteWork.v`); a bound for one clump gives one for all.
* C116 already applied: by induction over the exact outcome (C73, C75).
* C117 builds: each function is shown to be the same in both builds unless the debug build panics, from the arithmetic up.
* C118 fewer context lines: every item of a clump is close to a change and what is close to a change is in a clump, so the windows with less context lie in those with more; the result is compared block by block.
* C119 byte patches at the end of the data: the outcome told by C75, with the clumps that start before the end in their places and the others passed over.
* C120 memory: the generator once more, with a record of the largest number of entries it holds at one time (Model_Space.v says what is counted); the record changes no result.
* C121 creating and removing at the same time: the runs of C98 (Model_Conc.v).  Runs that create a file and runs that remove or change the same file are not mixed in the theorems, since the model writes to a path and not to an open file; they are in C129.
* C122 power failures: Spec_Power.v says what may be on the disk, given the states a run of Model_Links.v goes through: names of some moment, files that did not change, and any content for the others (`torn`) or their content of that moment or a later one (`ordered`).  Systems that lose or reorder changes of names are not covered.
* C123 edits in one place: Spec_Edit.v defines what an edit with new lines is and the change list with one change; proved from the description of the chosen blocks (C72).
* C124 texts of messages: Model_Words.v gives the text of each message, with Rust's `Debug` of paths; which characters count as printable, whether `'` is escaped, and the reason (`{err}`) are parameters, and the theorems hold for every choice.
* C125 more context: Spec_Group.v says what it means that one list of clumps gathers another; proved from the description of the clumps (C16), which is shown to have one solution.
* C126 what is looked at: a relation between two runs, kept by every operation of the programs (Proof_Blind.v).
* C127 what a unified diff says: the text that results is put together from the changes and compared with every clump (Proof_Carry.v).
* C128 how much is overlooked: an overlooked pair has an equal one in front of it that is reported too, so that they are at most half; texts in which every other line is the same have this many (Proof_Overlook.v).
* C129 open files: runs of any kind are interleaved on the file system of C99, where an open file is the file and not its name (Model_Open.v); bytes are appended one by one. Each run has a phase; nothing it has put in place is taken back, and each file made during the runs belongs to one of them (Proof_Open.v). A run alone is the run of C99, by an equivalence of states with the same names and files.
* C130 numbers of clumps: the loops of apply_text.rs and apply_bytes.rs with an `i32` counter (Model_Count.v), compared with those of Model_Log.v; a step says one thing, which depends on the number only in showing it (`speaks`, `tells`).
* C131 lines: on the text a patch was made for, an item that is overlooked is never the last one (`nearly_common`), so no line without a newline is followed by another; on other targets by induction on `outcome` (C73): a hunk that is placed takes away at least one line, so what is copied before it does not reach the end of the target.
* C132 converted lines: a relation between two runs that write the same pieces, one of them with the lines replaced, closed under sequencing; every decision compares lines only through `zip_all_eq`, which a one-to-one replacement leaves unchanged; the diff by C100.
* C133 whole unified diffs: induction on the carrying out of the printed clumps (C127) with the outcome of reading one clump wherever it stands (C46); the next header begins with `@`, so it is not taken for the mark of a missing newline.
* C134 lines added behind: whatever comes to an end with the shorter text does the same with the longer one (slices within it are the same); that every clump is found in place follows from the count of clean clumps. Otherwise by the outcome (C73): the search goes further, but finds nothing there.
* C135 reading conflicts: induction on the outcome (C73); reading is unique because conflicts have no marks inside.
* C136 distance from the new text: witnesses found with the Python port; the positive part from C103 (exact results), blocks start with an equal pair.
* C137 repeated rounds: the places that are wrong get fewer with every round that changes something; the first leaves at most half (C128).
* C138 patches without their rejected hunks: a hunk found where expected is found there whatever follows, so the exact outcome (C73) carries over.
* C139 lines taken out: for every patch whose hunks were found apart (`apart`), the result is an edit of the text (`edited`) at the places matched.
* C140 diffs put in partly: if every clump put in stands where the new text has it and every other where the old text has it (`stands`, which follows if all clumps up to the last one put in have as many old items as new ones, `put_in`), the whole diff completes the text; the statistics tell which clumps were there.
* C83-C85 messages: programs that collect messages, equal to the models without them; each message against the fate of its clump.
* C76-C78 snippet and sequence functions; C81, C82 positions and lines of changes and unified clumps.

### Findings (false properties, with the code that makes them so)

| property | code | what happens |
|---|---|---|
| C06, C10, C11, C18, C19, C31, C32, C38, C45 | changes.rs:193-206 | the extension of a common block restarts one item after the mismatch, so a differing item is reported as unchanged and lost |
| C17 | changes.rs `ChangeClump::before_end` | uses the first instead of the last change |
| C22, C52 | apply_text.rs | applying a patch twice may change the text again, or panic |
| C26, C28 | apply_text.rs:73-90 | with reduced context the lines written are taken from a displaced window of the new lines |
| C27, C51 | apply_text.rs | panics on slices beyond the end, and on underflow in debug builds |
| C31, C33, C34, C91, C92 | sequence.rs:31-40 | an insertion at the very end of bytes is never found, so a binary file emptied by a patch cannot be restored |
| C40 | pw_patch/src/main.rs | exit status 0 although clumps were rejected |
| C44, C46, C47 | unified_diff.rs | panics on certain input, marker column and lengths not checked |
| C50, C93, C95 | apply_text.rs:156-190 | the forward search stops before the last possible place, and before the expected place of the next clump: with the default context, six lines inserted in front of two close clumps are enough for the first to be rejected |
| C55 | apply_text.rs | a practically endless search for huge positions |
| C59-C62, C64 | pw_patch/src/main.rs, pw_diff/src/main.rs, diff.rs | temporary file left, creation not atomic, permissions lost, incomplete output unnoticed, failed existence check taken for absence |
| C67, C68, C70 | unified_diff.rs | names with blanks, "no newline" marker, positions counted from 0 |
| C84 | pw_patch/src/main.rs:29-33 | the messages about failed clumps are filtered out (and the status is 0), so without `-vv`, and for bytes at all, a failure is reported nowhere |
| C89 | text_diff.rs:85-110 | unknown fields are ignored, so a saved `ByteChangeDiff` without clumps is accepted as a `TextChangeDiff` |
| C96 | pw_patch/src/main.rs:53, 101, 125 | the path in a patch is used unchecked: a patch can delete any file, whatever it contains, and create or change files anywhere |
| C98 | pw_patch/src/main.rs:54-80, 150-176 | no lock: of two runs on one file at the same time one loses its changes, although both end with status 0 |
| C99 | pw_patch/src/main.rs:80, 176 | renaming the temporary file replaces the name: a symbolic link is lost and the file it led to, or the file under its other names, keeps the old content; status 0 |
| C129 | pw_patch/src/main.rs:110-122, 126-137, 206-218, 222-233 | a file is created under its own name and then filled: a change that comes in between is made to a beginning of it, and the rest is lost; status 0 for both |
| C130 | apply_text.rs:267, 356, apply_bytes.rs:42, 59 | the clump number is an `i32`: with 2^31 clumps a debug build panics, a release build shows negative numbers |
| C131 | apply_text.rs (`apply_into`) | a missing newline at the end of the old, new or target text can make one line of two, with every clump applied cleanly |
| C132 | apply_text.rs (`write_failure_data_into`) | the marks around a conflict end in a newline alone, also in a text whose lines end in carriage return and newline |
| C133 | unified_diff.rs (`UnifiedClumpIter::next`, `get_from_at`) | a written diff of texts without a newline at the end cannot be read, or says to add the newline |
| C134 | apply_text.rs:149-192, sequence.rs:31-40 | lines added behind a text draw a displaced clump to them if they are nearer; a byte clump at the end without context is put in only if something follows |
| C135 | apply_text.rs:226-232 | the marks are not told from equal lines of the text or the patch: a rejected diff that resolves a conflict makes a text whose conflicts cannot be read |
| C136 | changes.rs:148-168 | a text that differs from the new one in 3 of 255 lines differs from it in 4 after patching; a second diff and patch can be needed to arrive at the new text |
| C137 | changes.rs:148-168 | repeating diff and patch can stop before the new text is reached |
| C138 | apply_text.rs:156-160, 285 | a rejected hunk limits the search for the one before it, which then goes elsewhere or is rejected too |
| C139 | apply_text.rs:271-283 | a clump is looked for at its place even if that part of the text has been dealt with; other lines are then dropped without a message |
| C140 | apply_text.rs:271-283 | a diff applied to a text that has its first clump already can put the second in at a wrong place without a message |
| C101 | changes.rs:148-168 | of several longest common blocks the first in the new text is kept, so the diff in the other direction may keep another |
| C102 | changes.rs:140-210 | the longest block of adjacent lines is kept first, at the cost of any number of common lines |
| C103 | changes.rs:193-206 | what is overlooked is corrected inside the context of a change only, so the result depends on the context |
| C105 | apply_text.rs | clumps applied in two steps may be found in the wrong place in the second |
| C107 | changes.rs:152-168 | every search starts afresh and visits all pairs of equal lines again: cubic on repetitive input |
| C108 | changes.rs:193-206 | what one diff overlooks makes the next of a series fail |
| C109 | diff.rs:22-58 | the two files are read one after the other, and once more after the attempt to read texts |
| C110 | apply_text.rs:271 | whether a clump applies is asked before whether it is applied already: added lines are added again |
| C111 | apply_text.rs:164-190 | the search goes back line by line from the stated line, even if that is far behind the end of the text |
| C114 | apply_text.rs:226-232, 345 | a conflict is written where the previous clump ended, not where the clump belongs; after a line without newline the mark is on the same line |
| C116 | apply_text.rs:271-300 | the query can say that a patch has been applied and applying it changes the text all the same, because old lines are looked for first |
| C77 | snippet.rs:32-46 | wrap-around in release builds |

## Checks of the model that are not proofs

`tools/difftest/port.py` is a second transcription, in Python, of changes.rs, apply_text.rs,
apply_bytes.rs and what they use. `gen.py SEED N` writes a Coq file that compares it with the model
on random inputs (`python3 tools/difftest/gen.py 1 300 > /tmp/d.v; coqc -Q rocq/theories Verif /tmp/d.v`;
every list printed should be empty). 20 seeds, about 11100 cases for each of generator, text
applying and byte applying (fewer for the text query), both build modes, gave no difference. Four
deliberate errors in the port were all reported. Limits:

- The port has the same author as the model. It was drafted from memory and then read against the
  Rust text, so a misreading shared by both would not show. No Rust code was run.
- Inputs have at most 4 different items and about 14 lines. Searches of more than 20000 rounds are
  left out. Few cases have a search window near 2^63.
- Logs and the programs as a whole are not covered.

`uport.py` and `ugen.py` do the same for unified_diff.rs: reading a clump, printing the clumps of a
difference, and the two path lines. The port was written from the Rust text. Eight seeds of 1000 cases
each gave no difference. Eight deliberate errors in the port were all reported. Input is ASCII; the
pattern matching is Python's `re` with the crate's patterns, so it checks the order of preference of
the model's matcher but not the regex crate itself.

`jgen.py` compares the writing and reading of saved diffs with Python's own `json` module, the test of
UTF-8 and the splitting into lines with Python's decoder and `split`, and the list of white space with
Python's Unicode table. Those were not written for this project. What the derived serde readers make of
the parsed JSON (missing, repeated, unknown and misplaced members, ranges of numbers, lone surrogates)
is again the same author's reading. 16 seeds of 1000 documents (about a third accepted) gave no
difference. Of the deliberate errors tried in the reference, two were not reported at first; the
generator was extended until they were. Skipped members holding invalid UTF-8 are not generated.

`fgen.py` runs random sequences of the file operations the programs use (open, read, create, create
only if new, write, rename, remove, test for existence) on Linux as an ordinary user, with hard and
symbolic links, directories and unreadable files, and compares results and final state with
Model_Links.v and, without links, with Model_Files.v. 6500 sequences of each kind gave no difference;
six deliberate errors were all reported. Errors from outside (full disk, no permission to write) and
other processes do not occur in it.

`seeded/LOG.jsonl` lists a theorem as failed when its proof no longer went through. That is not in
itself a proof that the theorem is false of the wrong program. Until entry 399 the tool also did not
tell a proof error from a time-out (240 s) or lack of memory. Runs shorter than 240 s cannot hold a
time-out; the 114 longer ones were run again with the
reason recorded, and every lemma listed failed again with a proof error.

## Trusted base

* Coq's kernel (8.16.1). No `Admitted`, no axioms, no kernel check switched off, no plugins.
* `Print Assumptions` answers "Closed under the global context" for every theorem. Checking the compiled
  library as a whole (`coqchk -o`, `vcheck`) lists seven entries of the standard library's
  `Coq.ssr.ssrunder.Under_rel` (a module type's fields, loaded with `Lia`'s dependencies); no theorem uses them.
* The reading of the Rust source recorded in the comments of `Model_*.v`, and of the dependencies as said above.
* That the statements say what the English properties say: the `Spec*.v` files are there to be read for this.
