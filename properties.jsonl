{"id": "C01", "title": "Splitting text into lines loses nothing", "statement": "Splitting any text into lines and concatenating the lines gives back exactly the original bytes; every line is non-empty, a newline occurs only as the last byte of a line, and only the last line may lack one. This is the only decomposition with these properties.", "quantifier": "every byte string", "why_tests_cant": "inputs are unbounded strings with arbitrary newline placement; tests try a handful", "anchors": ["pw_diff_lib/src/sequence.rs: Seq::<String>::from, Seq::<String>::read", "pw_diff_lib/src/text_diff.rs: PathAndLines::new"]}
{"id": "C02", "title": "A file is read as text exactly when it is valid UTF-8", "statement": "Reading a file as lines succeeds if and only if its whole content is well-formed UTF-8 (reading validates line by line), and on success yields exactly the lines of its content.", "quantifier": "every file content (byte string)", "why_tests_cant": "well-formedness is a property of all byte strings; only some split points can be sampled", "anchors": ["pw_diff_lib/src/sequence.rs: Seq::<String>::read", "pw_diff_lib/src/text_diff.rs: PathAndLines::new"]}
{"id": "C03", "title": "The content index is exact", "statement": "For both the line index and the byte index, looking up an item returns the complete, duplicate-free, ascending list of its positions in the indexed sequence, and nothing when the item does not occur.", "quantifier": "every sequence and every looked-up item", "why_tests_cant": "unbounded sequences, arbitrary repetition patterns", "anchors": ["pw_diff_lib/src/sequence.rs: StringItemIndices::generate_from/indices, ByteItemIndices::generate_from/indices"]}
{"id": "C04", "title": "The longest-common-block search is total and stays in bounds", "statement": "For all in-bounds ranges the search returns without panicking; it returns nothing exactly when the two ranges share no item, and otherwise a non-empty block lying inside both ranges.", "quantifier": "every pair of sequences and every pair of in-bounds ranges", "why_tests_cant": "boundary arithmetic over all sizes and all sub-ranges", "anchors": ["pw_diff_lib/src/changes.rs: ChangesGenerator::longest_common_subsequence"]}
{"id": "C05", "title": "The longest-common-block search misses no longer block", "statement": "No common contiguous block of the two given ranges is longer than the block returned.", "quantifier": "every pair of sequences, in-bounds ranges and every competing common block", "why_tests_cant": "optimality quantifies over all competing blocks", "anchors": ["pw_diff_lib/src/changes.rs: ChangesGenerator::longest_common_subsequence"]}
{"id": "C06", "title": "The block returned by the longest-common-block search really is common", "statement": "The items of the returned block in the before sequence equal, position by position, those in the after sequence.", "quantifier": "every pair of sequences and in-bounds ranges", "why_tests_cant": "a counterexample needs a specific shape (an isolated differing item) that example tests missed", "anchors": ["pw_diff_lib/src/changes.rs: ChangesGenerator::longest_common_subsequence"]}
{"id": "C07", "title": "Ties between equally long blocks are broken deterministically", "statement": "When the trailing extension does not fire, the block returned is the one of maximal length that ends first in the after sequence and, among those, ends first in the before sequence: the result is a function of the inputs alone.", "quantifier": "every pair of sequences and in-bounds ranges", "why_tests_cant": "uniqueness among all equally long blocks", "anchors": ["pw_diff_lib/src/changes.rs: ChangesGenerator::longest_common_subsequence"]}
{"id": "C08", "title": "Computing changes always terminates normally", "statement": "Computing the changes between any two sequences terminates and never panics (no index out of bounds, no arithmetic underflow).", "quantifier": "every pair of sequences of lines or bytes", "why_tests_cant": "termination and absence of panics for all inputs", "anchors": ["pw_diff_lib/src/changes.rs: ChangesGenerator::generate, longest_common_subsequences, Changes::new"]}
{"id": "C09", "title": "The change list partitions both sequences in order", "statement": "Read in order, the changes cover every position of the before sequence and every position of the after sequence exactly once, from 0 to the end, without gap or overlap; unchanged blocks and real changes strictly alternate; every change is non-empty (deletes have items to delete, inserts items to insert, replaces both, unchanged blocks at least one item).", "quantifier": "every pair of sequences", "why_tests_cant": "structural invariant for all sizes and contents", "anchors": ["pw_diff_lib/src/changes.rs: ChangesGenerator::generate, Change"]}
{"id": "C10", "title": "Every block reported unchanged is in fact unchanged", "statement": "For every unchanged block in the change list, the before items and the after items it refers to are equal.", "quantifier": "every pair of sequences", "why_tests_cant": "fails only on particular shapes which the test inputs avoid", "anchors": ["pw_diff_lib/src/changes.rs: ChangesGenerator::generate, longest_common_subsequence"]}
{"id": "C11", "title": "A diff is empty exactly when the inputs are equal", "statement": "Diffing two equal sequences yields no clumps for any context; diffing two different sequences yields at least one clump.", "quantifier": "every pair of sequences and every context size", "why_tests_cant": "both directions quantify over all pairs", "anchors": ["pw_diff_lib/src/changes.rs: Changes::new, Changes::change_clumps", "pw_diff_lib/src/text_diff.rs: TextChangeDiff::new"]}
{"id": "C12", "title": "The result does not depend on the thread schedule of the parallel sort", "statement": "Whatever order-respecting permutation of the collected blocks the parallel sort produces, the change list is the same.", "quantifier": "every pair of sequences and every possible sorted arrangement", "why_tests_cant": "schedules of the rayon pool cannot be enumerated by tests", "anchors": ["pw_diff_lib/src/changes.rs: ChangesGenerator::longest_common_subsequences (par_sort)", "pw_diff_lib/src/common_subsequence.rs: CommonSubsequence Ord"]}
{"id": "C13", "title": "Pure prefix/suffix additions and removals are diffed faithfully", "statement": "If one sequence occurs contiguously inside the other, the change list has exactly one unchanged block, it is genuinely unchanged and covers the whole shorter sequence.", "quantifier": "every pair of sequences one of which is a contiguous part of the other", "why_tests_cant": "all sizes and positions", "anchors": ["pw_diff_lib/src/changes.rs: ChangesGenerator::generate"]}
{"id": "C14", "title": "Clumps carry every real change exactly once, in order", "statement": "Iterating the clumps of a change list terminates; the real changes (deletes, inserts, replaces) of all clumps, concatenated, are exactly those of the change list in order; every clump contains at least one real change.", "quantifier": "every pair of sequences and every context size 0..255", "why_tests_cant": "all change lists and all context sizes", "anchors": ["pw_diff_lib/src/changes.rs: ChangeClumpIter::next, Changes::change_clumps"]}
{"id": "C15", "title": "Clumps are ordered, disjoint and leave out only unchanged items", "statement": "Clumps appear in increasing position order and do not overlap in either sequence; each clump is a gap-free run over both sequences; everything between, before and after the clumps lies inside blocks reported unchanged and has the same length on both sides.", "quantifier": "every pair of sequences and every context size", "why_tests_cant": "global positional invariant", "anchors": ["pw_diff_lib/src/changes.rs: ChangeClumpIter::next, ChangeClump::starts/ends/ranges"]}
{"id": "C16", "title": "Context is limited as requested and close changes are grouped", "statement": "Leading and trailing context of a clump never exceeds the requested number of items and is as long as the unchanged neighbourhood allows; two neighbouring changes are in the same clump exactly when fewer than 2*context unchanged items separate them. The recorded context lengths are those actual lengths and are not truncated by the 8-bit representation.", "quantifier": "every pair of sequences and every context size", "why_tests_cant": "all gap lengths around the 2*context boundary and 8-bit truncation", "anchors": ["pw_diff_lib/src/changes.rs: ChangeClumpIter::next, ChangeClump::context_lengths", "pw_diff_lib/src/common_subsequence.rs: starts_trimmed, ends_trimmed, split"]}
{"id": "C17", "title": "The positional accessors of a clump agree with each other", "statement": "The start, end, length and range accessors of a clump of changes agree with the start of its first and the end of its last change.", "quantifier": "every clump", "why_tests_cant": "all clump shapes", "anchors": ["pw_diff_lib/src/changes.rs: ChangeClump (before_start, before_end, starts, ends, ranges)"]}
{"id": "C18", "title": "Patching the original text gives the new text", "statement": "For texts a and b, applying the text diff of a and b (any context, debug or release build) to a writes exactly b, and every clump is counted as clean.", "quantifier": "every pair of texts and every context size", "why_tests_cant": "round trip over all pairs of texts", "anchors": ["pw_diff_lib/src/text_diff.rs: TextChangeDiff::new", "pw_diff_lib/src/apply_text.rs: ApplyClumpsFuzzy::apply_into"]}
{"id": "C19", "title": "Reverse-patching the new text gives the original text", "statement": "For texts a and b, applying the text diff of a and b in reverse to b writes exactly a, and every clump is counted as clean.", "quantifier": "every pair of texts and every context size", "why_tests_cant": "round trip over all pairs of texts", "anchors": ["pw_diff_lib/src/text_diff.rs: TextChangeDiff::new", "pw_diff_lib/src/apply_text.rs: ApplyClumpsFuzzy::apply_into"]}
{"id": "C20", "title": "A text diff always applies cleanly to the text it was made from", "statement": "Applying a text diff to the text it was made from (or, in reverse, to the other text) never panics, never fails, counts every clump as clean, and replaces exactly the lines of each clump, copying all others.", "quantifier": "every pair of texts, every context size, both directions, both builds", "why_tests_cant": "all pairs", "anchors": ["pw_diff_lib/src/apply_text.rs: ApplyClumpsFuzzy::apply_into, ApplyClumpFuzzy::will_apply"]}
{"id": "C21", "title": "A diff is recognised as already applied to the new text", "statement": "Asking whether the text diff of a and b is already applied to b answers yes (and, in reverse, for a).", "quantifier": "every pair of texts and every context size", "why_tests_cant": "all pairs", "anchors": ["pw_diff_lib/src/apply_text.rs: ApplyClumpsFuzzy::is_already_applied"]}
{"id": "C22", "title": "Re-applying a patch leaves the patched text alone", "statement": "Applying the text diff of a and b to b writes b unchanged, counting all clumps as already applied.", "quantifier": "every pair of texts and every context size", "why_tests_cant": "all pairs; the failure needs repeated lines", "anchors": ["pw_diff_lib/src/apply_text.rs: ApplyClumpsFuzzy::apply_into, already_applied_into"]}
{"id": "C23", "title": "Every clump is accounted for exactly once", "statement": "Whenever applying a text patch finishes, the five statistics counters add up to the number of clumps in the patch.", "quantifier": "every patch (also malformed), every target text, both directions, both builds", "why_tests_cant": "all patches and targets", "anchors": ["pw_diff_lib/src/apply_text.rs: Statistics, ApplyClumpsFuzzy::apply_into"]}
{"id": "C24", "title": "The applicability decision is exact", "statement": "A clump is reported to apply cleanly exactly when its before-lines occur verbatim at its start shifted by the offset; with reductions (r,s) exactly when it does not apply cleanly and r,s are the smallest equal trimming (capped by each context length, and less than the larger context length) for which the trimmed before-lines occur verbatim at the shifted start plus r; and otherwise as not applicable. The decision never panics for such clumps.", "quantifier": "every clump produced by a diff, every target, every offset", "why_tests_cant": "all clumps, targets, offsets", "anchors": ["pw_diff_lib/src/apply_text.rs: ApplyClumpFuzzy::will_apply, before_is_subsequence_in_at"]}
{"id": "C25", "title": "The nearby search returns the nearest applicable position", "statement": "The nearby search returns an offset adjustment only if the clump applies there as reported; no smaller displacement inside the search window applies, backward is preferred on ties, nothing is returned only if no displacement in the window applies; the search always terminates.", "quantifier": "every clump, target, consumed position, next clump and offset", "why_tests_cant": "search over unbounded displacement", "anchors": ["pw_diff_lib/src/apply_text.rs: ApplyClumpFuzzy::will_apply_nearby"]}
{"id": "C26", "title": "Applying with reduced context replaces exactly the trimmed lines", "statement": "When a clump applies with reductions (r,s), applying it writes its after-lines without the first r and last s lines.", "quantifier": "every clump, target and reduction", "why_tests_cant": "needs clumps whose after-start is non-zero; the one fuzzy test in the repo does not write", "anchors": ["pw_diff_lib/src/apply_text.rs: ApplyClumpFuzzy::apply_into, before_write_into", "pw_diff_lib/src/snippet.rs: Snippet::items"]}
{"id": "C27", "title": "Applying a text patch never panics", "statement": "Applying a text diff to an arbitrary text finishes without panicking.", "quantifier": "every pair of texts, context, target, direction and build", "why_tests_cant": "all targets; panics need short targets or mixed states", "anchors": ["pw_diff_lib/src/apply_text.rs: ApplyClumpsFuzzy::apply_into, will_apply_nearby, write_remainder"]}
{"id": "C28", "title": "Nothing of the target is lost: unpatched lines are preserved in order", "statement": "If no clump of a diff is classified as already applied, the output is the target with each applied clump's matched lines replaced, conflict blocks for the failed clumps inserted, and every other target line kept, once and in order. In particular if no clump applies, the output is the conflict blocks followed by the whole target.", "quantifier": "every pair of texts, every target", "why_tests_cant": "all targets and all mixes of clean, displaced and failed clumps", "anchors": ["pw_diff_lib/src/apply_text.rs: ApplyClumpsFuzzy::apply_into, write_failure_data_into", "pw_diff_lib/src/sequence.rs: ConsumableSeq"]}
{"id": "C29", "title": "A write error never yields corrupt success (text)", "statement": "If the writer fails after any number of bytes, applying a text patch reports the error and what was written is a prefix of what would have been written; if the writer accepts everything the patch would write, the result is as if it never failed.", "quantifier": "every patch, target, and every failure point", "why_tests_cant": "failure points are unbounded", "anchors": ["pw_diff_lib/src/apply_text.rs: ApplyClumpsFuzzy::apply_into", "pw_diff_lib/src/sequence.rs: WriteDataInto"]}
{"id": "C30", "title": "Reverse application is forward application of the swapped patch", "statement": "Applying a patch in reverse behaves identically (output, statistics, errors, panics) to applying forward the patch with before and after exchanged; the same holds for the already-applied query.", "quantifier": "every patch, target, writer and build", "why_tests_cant": "all patches", "anchors": ["pw_diff_lib/src/apply_text.rs: ApplyClumpFuzzy, ApplyClumpsFuzzy", "pw_diff_lib/src/apply_bytes.rs: ApplyClumpsClean", "pw_diff_lib/src/text_diff.rs: TextChangeClump", "pw_diff_lib/src/byte_diff.rs: ByteChangeClump"]}
{"id": "C31", "title": "Patching the original bytes gives the new bytes", "statement": "For byte strings a and b, applying the byte diff of a and b (any context) to a writes exactly b.", "quantifier": "every pair of byte strings and every context size", "why_tests_cant": "round trip over all pairs", "anchors": ["pw_diff_lib/src/byte_diff.rs: ByteChangeDiff::new", "pw_diff_lib/src/apply_bytes.rs: ApplyClumpsClean::apply_into"]}
{"id": "C32", "title": "Reverse-patching the new bytes gives the original bytes", "statement": "For byte strings a and b, applying the byte diff of a and b in reverse to b writes exactly a.", "quantifier": "every pair of byte strings and every context size", "why_tests_cant": "round trip over all pairs", "anchors": ["pw_diff_lib/src/byte_diff.rs: ByteChangeDiff::new", "pw_diff_lib/src/apply_bytes.rs: ApplyClumpsClean::apply_into"]}
{"id": "C33", "title": "A byte diff is recognised as already applied to the new bytes", "statement": "Asking whether the byte diff of a and b is already applied to b answers yes.", "quantifier": "every pair of byte strings and every context size", "why_tests_cant": "all pairs", "anchors": ["pw_diff_lib/src/apply_bytes.rs: ApplyClumpsClean::already_applied"]}
{"id": "C34", "title": "Subsequence test is exact", "statement": "Asking whether a sequence contains given items at a position answers yes exactly when the items occur there verbatim.", "quantifier": "every sequence, item list and position", "why_tests_cant": "all positions incl. the end position and empty item list", "anchors": ["pw_diff_lib/src/sequence.rs: Seq::has_subsequence_at"]}
{"id": "C35", "title": "Byte clumps that match nowhere leave the data alone", "statement": "If no clump of a byte patch matches the target (neither before- nor after-bytes), the output is exactly the target, and no error is reported.", "quantifier": "every byte patch and target", "why_tests_cant": "all patches and targets", "anchors": ["pw_diff_lib/src/apply_bytes.rs: ApplyClumpsClean::apply_into"]}
{"id": "C36", "title": "A write error never yields corrupt success (bytes)", "statement": "If the writer fails after any number of bytes, applying a byte patch reports the error and what was written is a prefix of what would have been written.", "quantifier": "every byte patch, target and failure point", "why_tests_cant": "failure points are unbounded", "anchors": ["pw_diff_lib/src/apply_bytes.rs: ApplyClumpsClean::apply_into", "pw_diff_lib/src/sequence.rs: WriteDataInto for Seq<u8>"]}
{"id": "C37", "title": "The kind of diff follows from the two files", "statement": "Diffing two paths gives: a text change if both exist and are readable valid UTF-8; a byte change if both exist and are readable but not both valid UTF-8; a removal (text or bytes, by the same rule) if only the first exists; an addition recorded under the first path if only the second exists; an error if neither exists or a needed file cannot be read.", "quantifier": "every file system state and pair of paths", "why_tests_cant": "all combinations of existence, readability and content", "anchors": ["pw_diff_lib/src/diff.rs: Diff::new"]}
{"id": "C38", "title": "Diff then patch brings the first file to the content of the second", "statement": "Running the diff tool on two paths and the patch tool on its output leaves the first path with the content of the second (created or deleted where the second exists alone or not at all), the reverse run restores it, and no other path changes.", "quantifier": "every file system state, pair of paths and context", "why_tests_cant": "end-to-end composition over all contents", "anchors": ["pw_diff_lib/src/diff.rs: Diff::new", "pw_patch/src/main.rs: main", "pw_diff/src/main.rs: main"]}
{"id": "C39", "title": "Patching a file is all-or-nothing at every crash point", "statement": "While the patch tool applies a change diff, whatever the point at which it is interrupted or an operation fails, the target path holds either its complete old content or the complete patched content.", "quantifier": "every diff, file system state, fault and crash point", "why_tests_cant": "crash points cannot be enumerated by tests", "anchors": ["pw_patch/src/main.rs: main (TempFile, apply_into, rename)"]}
{"id": "C40", "title": "The patch tool reports failure", "statement": "If the patch tool could not bring about the requested result (clump failed, file could not be created, written or removed) it exits with a non-zero status, and leaves the target unchanged.", "quantifier": "every diff, file system state and fault", "why_tests_cant": "all fault combinations", "anchors": ["pw_patch/src/main.rs: main"]}
{"id": "C41", "title": "Creating a file never overwrites one", "statement": "Applying an addition (or a removal in reverse) never modifies a path that already exists.", "quantifier": "every diff and file system state", "why_tests_cant": "all states", "anchors": ["pw_patch/src/main.rs: main (File::create_new)"]}
{"id": "C42", "title": "A diff survives being saved and reloaded", "statement": "Writing a diff as JSON and reading it back yields the same diff.", "quantifier": "every diff value whose paths are valid Unicode", "why_tests_cant": "all diff values", "anchors": ["pw_diff_lib/src/diff.rs: Diff::to_writer/from_reader", "pw_diff_lib/src/text_diff.rs: TextChangeClump", "pw_diff_lib/src/byte_diff.rs: ByteChangeClump", "pw_diff_lib/src/snippet.rs: Snippet"]}
{"id": "C43", "title": "Unified clump headers round-trip", "statement": "Printing the positions of a unified clump header and parsing the printed line gives back the same positions and lengths, with or without a trailing newline.", "quantifier": "every pair of starts and lengths that fit the machine word", "why_tests_cant": "all numbers incl. the length-1 short form", "anchors": ["pw_cub_diff_lib/src/unified_diff.rs: StartsAndLengths Display, starts_and_lengths"]}
{"id": "C44", "title": "Parsing a unified clump never panics", "statement": "Trying to parse a unified clump at any in-range line of any text returns a clump, nothing, or an error, without panicking.", "quantifier": "every sequence of lines and every start index within it", "why_tests_cant": "all inputs", "anchors": ["pw_cub_diff_lib/src/unified_diff.rs: UnifiedDiffClump::get_from_at"]}
{"id": "C45", "title": "Printed unified clumps match their header", "statement": "For every clump of every diff, printing it as a unified clump succeeds, the header carries the clump's start positions and lengths, the number of context-or-minus lines equals the before length, the number of context-or-plus lines equals the after length, and stripping the marker column gives the before and after lines respectively.", "quantifier": "every pair of texts and context size", "why_tests_cant": "all clumps", "anchors": ["pw_cub_diff_lib/src/unified_diff.rs: UnifiedClumpIter::next"]}
{"id": "C46", "title": "Printing a unified clump and parsing it gives the same clump", "statement": "For texts whose lines all end in a newline, parsing the printed form of a clump returns its positions, its context lengths and its before and after lines, and consumes exactly the lines printed.", "quantifier": "every pair of texts and context size", "why_tests_cant": "all clumps", "anchors": ["pw_cub_diff_lib/src/unified_diff.rs: UnifiedClumpIter::next, UnifiedDiffClump::get_from_at"]}
{"id": "C47", "title": "A parsed unified clump is consistent with its header", "statement": "A successfully parsed unified clump has exactly as many before and after lines as its header announces.", "quantifier": "every sequence of lines and start index", "why_tests_cant": "all inputs", "anchors": ["pw_cub_diff_lib/src/unified_diff.rs: UnifiedDiffClump::get_from_at"]}
{"id": "C48", "title": "Trimming and splitting unchanged blocks is exact", "statement": "Trimming the start (end) of an unchanged block to n items keeps exactly its last (first) min(n,len) items on both sides; splitting yields its first n and last n items, disjoint, exactly when it has at least 2n items. Growing a block at its start moves both starts back together and keeps both ends, and panics when a start would fall below zero; growing it at its end keeps both starts.", "quantifier": "every block and every n (0..255 for trimming)", "why_tests_cant": "all block sizes", "anchors": ["pw_diff_lib/src/common_subsequence.rs: starts_trimmed, ends_trimmed, split, incr_size_moving_starts, incr_size_moving_ends"]}
{"id": "C49", "title": "Clump snippets are the referenced slices", "statement": "Every clump of a text or byte diff records the exact items of before and after between its positions, within bounds; the recorded leading and trailing context items fit in both snippets, and the diff itself can always be built without panicking.", "quantifier": "every pair of inputs and every context size", "why_tests_cant": "all clumps", "anchors": ["pw_diff_lib/src/text_diff.rs: TextChangeClump::from", "pw_diff_lib/src/byte_diff.rs: ByteChangeClump::from", "pw_diff_lib/src/sequence.rs: Seq::extract_snippet"]}
{"id": "C50", "title": "Where unaltered lines determine the position, displaced text is patched correctly", "statement": "If lines are added in front of the original text and a single-clump diff's before-lines occur only at the displaced place, patching yields the added lines followed by the new text, with the clump counted as fuzzy.", "quantifier": "every pair of texts, every prefix", "why_tests_cant": "all displacements", "anchors": ["pw_diff_lib/src/apply_text.rs: will_apply_nearby, apply_into"]}
{"id": "C51", "title": "Applying a byte diff never panics", "statement": "Applying any byte diff to any data finishes without panicking.", "quantifier": "every pair of byte strings, context size, target and build mode", "why_tests_cant": "all targets", "anchors": ["pw_diff_lib/src/apply_bytes.rs: ApplyClumpsClean::apply_into", "pw_diff_lib/src/byte_diff.rs: ByteChangeClump::apply_into"]}
{"id": "C52", "title": "Re-applying a byte diff leaves the data alone", "statement": "Applying the byte diff of a and b to b writes b unchanged.", "quantifier": "every pair of byte strings and context size", "why_tests_cant": "all pairs", "anchors": ["pw_diff_lib/src/apply_bytes.rs: ApplyClumpsClean::apply_into"]}
{"id": "C53", "title": "Reverse application of a byte patch is forward application of the swapped patch", "statement": "Applying any byte patch in reverse to any target does exactly what applying the patch with the two sides of every clump exchanged does forward; likewise for the already-applied query.", "quantifier": "every byte patch, target and writer", "why_tests_cant": "all patches and targets", "anchors": ["pw_diff_lib/src/apply_bytes.rs: ApplyClumpsClean", "pw_diff_lib/src/byte_diff.rs: ByteChangeClump"]}
{"id": "C54", "title": "Applying any text patch terminates", "statement": "Applying any text patch whatever (hand-made or damaged, with any positions and context lengths) to any text comes to an end, in either direction and in both build modes, and so does the already-applied query; the rounds the model allows the search never influence the result.", "quantifier": "every patch whose fields have their Rust types and whose lines fit in memory, every text, direction, writer and build mode", "why_tests_cant": "positions up to 2^64 cannot be enumerated, and non-termination cannot be observed by a test", "anchors": ["pw_diff_lib/src/apply_text.rs: will_apply_nearby, apply_into, is_already_applied"]}
{"id": "C55", "title": "The search for a displaced clump is bounded by the text", "statement": "Looking for a displaced clump takes a number of rounds that is at most the number of lines of the text plus a constant.", "quantifier": "every patch and text", "why_tests_cant": "a search of 2^61 rounds cannot be run", "anchors": ["pw_diff_lib/src/apply_text.rs: will_apply_nearby"]}
{"id": "C56", "title": "A damaged patch file is not mistaken for a patch", "statement": "A saved diff that was cut short anywhere is rejected when loaded, and so is a document followed by anything but blanks.", "quantifier": "every diff with Unicode paths and every strict prefix of its saved form; every accepted document and every continuation", "why_tests_cant": "all diffs and cut points", "anchors": ["pw_diff_lib/src/diff.rs: Diff::from_reader, Diff::to_writer"]}
{"id": "C57", "title": "Loading a patch file is total and yields only well-formed diffs", "statement": "Loading any bytes ends with an error or with a diff whose context lengths fit u8, whose positions fit usize, and whose lines and paths are UTF-8.", "quantifier": "every byte string", "why_tests_cant": "all inputs, including hostile ones", "anchors": ["pw_diff_lib/src/diff.rs: Diff::from_reader"]}
{"id": "C58", "title": "Only the target and the temporary file are touched", "statement": "At no moment, whatever fails, does the patch tool change any other path than the target of the diff and its own temporary file; if the patch file holds no diff, nothing is touched and the status is 1.", "quantifier": "every file system state, patch, direction and fault", "why_tests_cant": "all paths at all moments", "anchors": ["pw_patch/src/main.rs: main"]}
{"id": "C59", "title": "The temporary file does not stay behind", "statement": "When the patch tool has ended, its temporary file is gone; a file that already had that name is never touched.", "quantifier": "every file system state, change diff and fault", "why_tests_cant": "all fault points", "anchors": ["pw_patch/src/main.rs: main (TempFile)"]}
{"id": "C60", "title": "Creating a file is all-or-nothing", "statement": "While the patch tool creates a file, at every moment the path is absent or holds the complete content.", "quantifier": "every file system state, addition (or removal in reverse) and fault", "why_tests_cant": "crash points cannot be enumerated by tests", "anchors": ["pw_patch/src/main.rs: main (File::create_new)"]}
{"id": "C61", "title": "Patching keeps the permissions of the target", "statement": "After a change diff has been applied the target has the permission bits it had before.", "quantifier": "every file system state and diff", "why_tests_cant": "all modes", "anchors": ["pw_patch/src/main.rs: main (TempFile, rename)"]}
{"id": "C62", "title": "The diff tool notices incomplete output", "statement": "If the diff tool ends with status 0, its complete output has been written, and loads as the diff of the two files.", "quantifier": "every file system state, pair of paths, context size and capacity of the output", "why_tests_cant": "all points at which the output may fail", "anchors": ["pw_diff/src/main.rs: main", "pw_diff_lib/src/diff.rs: Diff::to_writer"]}
{"id": "C63", "title": "The diff tool changes no file", "statement": "Whatever happens, running the diff tool leaves every path as it was.", "quantifier": "every file system state, pair of paths and fault", "why_tests_cant": "all states and faults", "anchors": ["pw_diff/src/main.rs: main", "pw_diff_lib/src/diff.rs: Diff::new"]}
{"id": "C64", "title": "An unreadable path is not taken for an absent one", "statement": "A diff is reported as an addition or a removal only if one of the two paths does not exist; whatever a diff records is the actual content of the files.", "quantifier": "every file system state, pair of paths and fault", "why_tests_cant": "all fault points", "anchors": ["pw_diff_lib/src/diff.rs: Diff::new (Path::exists)"]}
{"id": "C65", "title": "The patch tool ends", "statement": "Whatever the patch file holds and whatever fails, the patch tool ends, with status 0, 1 or 101 (panic).", "quantifier": "every file system state whose files fit in memory, direction and fault", "why_tests_cant": "non-termination cannot be observed by a test", "anchors": ["pw_patch/src/main.rs: main", "pw_diff_lib/src/apply_text.rs: apply_into"]}
{"id": "C66", "title": "Clump headers are recognised exactly", "statement": "A line is taken for a clump header exactly if it has the form \"@@ -b,bl +a,al @@ anything\" with optional lengths, the numbers read are the numbers written, and numbers that do not fit a machine word are reported as an error.", "quantifier": "every line of text", "why_tests_cant": "all spellings, Unicode blanks and digits, numbers up to and beyond the machine word", "anchors": ["pw_cub_diff_lib/src/unified_diff.rs: CLUMP_HEADER_REGEX, starts_and_lengths"]}
{"id": "C67", "title": "File header lines give the path and time stamp", "statement": "For every line \"--- NAME\" or \"+++ NAME\", optionally followed by blanks and a time stamp, the name and the time stamp are returned; no line makes the functions panic.", "quantifier": "every line of text", "why_tests_cant": "all names, quoting and time stamp forms", "anchors": ["pw_cub_diff_lib/src/unified_diff.rs: PATH_RE, TIMESTAMP_RE, path_and_time_stamp_from_captures"]}
{"id": "C68", "title": "Printed clumps survive being written and read", "statement": "Writing out a printed clump, splitting the text into lines again and parsing them gives back the printed old and new lines, also if the last line of a text has no newline.", "quantifier": "every pair of texts and context size", "why_tests_cant": "all texts with and without a final newline", "anchors": ["pw_cub_diff_lib/src/unified_diff.rs: UnifiedClumpIter::next, UnifiedDiffClump::get_from_at"]}
{"id": "C69", "title": "The outcome of parsing a clump is known for every input", "statement": "For every sequence of lines and every start index the outcome (nothing, a clump and its fields, which error with which line number, panic) is the one the format prescribes, stated without reference to the code.", "quantifier": "every sequence of lines, every index, both builds", "why_tests_cant": "all inputs", "anchors": ["pw_cub_diff_lib/src/unified_diff.rs: UnifiedDiffClump::get_from_at"]}
{"id": "C70", "title": "Positions in printed headers are those of the unified format", "statement": "The printed positions count lines from 1, and are the number of the line before for a side without lines.", "quantifier": "every pair of texts and context size", "why_tests_cant": "all clumps", "anchors": ["pw_cub_diff_lib/src/unified_diff.rs: UnifiedClumpIter::next, StartsAndLengths"]}
{"id": "C71", "title": "A replacement has nothing in common", "statement": "No item of the part of before that a replacement takes out occurs in the part of after that it puts in.", "quantifier": "every pair of sequences, every replacement in their change list", "why_tests_cant": "needs the search to be repeated until nothing common is left, for all inputs", "anchors": ["pw_diff_lib/src/changes.rs: ChangesGenerator::generate, longest_common_subsequences"]}
{"id": "C72", "title": "The change list is determined by a simple rule", "statement": "The changes between two sequences are exactly those that report as unchanged the blocks found by taking the first longest common block (with what the forward extension adds) and continuing in the same way before and after it.", "quantifier": "every pair of sequences", "why_tests_cant": "all inputs; both directions: nothing else is a possible result", "anchors": ["pw_diff_lib/src/changes.rs: ChangesGenerator::generate, longest_common_subsequence, longest_common_subsequences"]}
{"id": "C73", "title": "The outcome of applying a text patch is known for every patch and text", "statement": "For every list of clumps and every text, what is written, the statistics returned, or the panic, is exactly what a specification of placing, searching, trimming, skipping and rejecting prescribes; the specification allows one outcome only.", "quantifier": "every clump list (generated or not) whose positions are below 2^61 and whose context fits its lines, every text, both builds, both directions, every writer", "why_tests_cant": "all patches, all texts", "anchors": ["pw_diff_lib/src/apply_text.rs: ApplyClumpsFuzzy::apply_into, ApplyClumpFuzzy"]}
{"id": "C74", "title": "The already-applied query answers exactly what it should", "statement": "For every list of clumps and every text the query is true exactly if the new lines of every clump are found where expected or nearby; when it panics is known too.", "quantifier": "every clump list whose positions are below 2^61 and whose context fits its lines, every text, both builds, both directions", "why_tests_cant": "all patches, all texts", "anchors": ["pw_diff_lib/src/apply_text.rs: ApplyClumpsFuzzy::is_already_applied"]}
{"id": "C75", "title": "The outcome of applying a byte patch is known for every patch and input", "statement": "For every list of byte clumps and all bytes, each clump is replaced if its old bytes are at its place, kept if its new bytes are, ignored otherwise; what is written and whether there is a panic follows.", "quantifier": "every list of byte clumps (also overlapping or out of order), all bytes, both builds, both directions, every writer", "why_tests_cant": "all patches, all inputs", "anchors": ["pw_diff_lib/src/apply_bytes.rs: ApplyClumps::apply_into, ApplyClumps::already_applied_into"]}
{"id": "C76", "title": "Writing a trimmed snippet writes exactly what is left", "statement": "Writing a snippet without its first r0 and last r1 items writes the others and nothing else; if there are fewer than r0 + r1 it panics having written nothing.", "quantifier": "every snippet, all reductions, both builds, every writer", "why_tests_cant": "all sizes, wrap-around in release builds", "anchors": ["pw_diff_lib/src/snippet.rs: SnippetWrite::write_into"]}
{"id": "C77", "title": "Adjusted length and start of a snippet are right", "statement": "The adjusted length is the number of items left after the reductions and the adjusted start is the displaced position of the first one left, or there is a panic.", "quantifier": "every snippet, offset and reduction, both builds", "why_tests_cant": "wrap-around at the limits of the machine word", "anchors": ["pw_diff_lib/src/snippet.rs: adj_length, adj_start"]}
{"id": "C78", "title": "Writing from a position on writes everything from there", "statement": "Writing a sequence from a position on writes exactly the items from there to the end; a position beyond the end is a panic with nothing written.", "quantifier": "every sequence and position, both builds, every writer", "why_tests_cant": "all positions", "anchors": ["pw_diff_lib/src/sequence.rs: WriteDataInto::write_into_all_from"]}
{"id": "C79", "title": "Loading accepts exactly the JSON texts that stand for a diff", "statement": "Loading some bytes yields a diff exactly if the bytes are a JSON text by RFC 8259 whose tree stands for that diff: fields in any order, each once, other members ignored, arrays in place of records, any escapes; everything else is an error.", "quantifier": "every byte string, every diff", "why_tests_cant": "all texts, including ones no writer produces", "anchors": ["pw_diff_lib/src/diff.rs: Diff::from_reader", "pw_diff_lib/src/text_diff.rs: derived Deserialize", "pw_diff_lib/src/byte_diff.rs: derived Deserialize"]}
{"id": "C80", "title": "What is written for a diff is exactly determined, JSON and UTF-8", "statement": "Saving a diff writes its tree with the fields in declared order, two blanks per level and one item per line; this is JSON by RFC 8259, valid UTF-8, and stands for the diff.", "quantifier": "every diff with Unicode paths", "why_tests_cant": "all contents, including control characters and characters outside the basic plane", "anchors": ["pw_diff_lib/src/diff.rs: Diff::to_writer", "pw_diff_lib/src/text_diff.rs: derived Serialize", "pw_diff_lib/src/byte_diff.rs: derived Serialize"]}
{"id": "C81", "title": "The positions of a change are its extents in the two sequences", "statement": "Start, end, length and range of a change in a change list are where it lies in the old sequence, or in the new one in reverse; reductions move both ends inwards or panic or wrap around, exactly as stated.", "quantifier": "every change of every proper change list, all reductions, both directions, both builds", "why_tests_cant": "all sizes, wrap-around in release builds", "anchors": ["pw_diff_lib/src/changes.rs: ChangeBasics"]}
{"id": "C82", "title": "The positions and lines of a parsed unified clump are those of its text", "statement": "Start and length of a clump read from a unified diff are the numbers written in its header and its lines are the lines read; a range of the lines is given exactly if it exists; there are always as many lines as the header says.", "quantifier": "every text, header and digit table, both directions, both builds", "why_tests_cant": "all texts, numbers up to the machine word", "anchors": ["pw_cub_diff_lib/src/unified_diff.rs: impl ChangeBasics for UnifiedDiffClump, impl TextClumpBasics for UnifiedDiffClump", "pw_diff_lib/src/changes.rs: ChangeBasics"]}
{"id": "C83", "title": "The messages about clumps say what happened to them", "statement": "Applying a patch gives one message per clump, numbered from 1 in order, saying truly whether it applied, with what displacement and reductions, was already applied, or failed; the statistics count the same. The already-applied queries report likewise. Giving messages changes nothing else.", "quantifier": "every clump list (text: positions below 2^61, context fitting the lines), every text or bytes, both directions, both builds, every writer", "why_tests_cant": "all patches, all texts, all places where writing may fail", "anchors": ["pw_diff_lib/src/apply_text.rs: ApplyClumpsFuzzy::apply_into, ApplyClumpsFuzzy::is_already_applied", "pw_diff_lib/src/apply_bytes.rs: ApplyClumps::apply_into, ApplyClumps::already_applied"]}
{"id": "C84", "title": "A clump that could not be applied is reported to the user", "statement": "If a clump could not be applied, the patch tool ends with a status other than 0 or shows a message saying so.", "quantifier": "every patch file, file system and verbosity", "why_tests_cant": "all patches and verbosities", "anchors": ["pw_patch/src/main.rs: main"]}
{"id": "C85", "title": "Every failure of the programs is shown as exactly one error", "statement": "A run that ends with a status other than 0 shows exactly one message, an error, at every verbosity; a successful run of the diff tool shows none; a file to be created is not created completely exactly if an error is shown.", "quantifier": "every patch file, file system, fault and verbosity", "why_tests_cant": "all faults at all operations", "anchors": ["pw_patch/src/main.rs: main", "pw_diff/src/main.rs: main"]}
{"id": "C86", "title": "The patch tool as a whole: messages, status and files", "statement": "When nothing outside of it fails, every run of the patch tool is one of twelve kinds, each given by the files alone: which message it gives, which status it ends with, and what every file is afterwards. The kinds exclude each other.", "quantifier": "every file system and patch path with no stale temporary file, both directions, both builds; text patches and targets that fit in memory", "why_tests_cant": "all combinations of missing, unreadable, foreign and directory paths with all patches", "anchors": ["pw_patch/src/main.rs: main"]}
{"id": "C87", "title": "The diff tool as a whole: messages, status and output", "statement": "When nothing outside of it fails, every run of the diff tool writes exactly the saved form of the diff of the right kind; or, if a path is not Unicode, exactly that form up to the path, with status 5; or nothing, with status 1. Which, is given by the files alone. No file is changed.", "quantifier": "every file system, pair of paths and context up to 255; files that fit in memory", "why_tests_cant": "all combinations of missing, unreadable, binary and directory paths, and paths that are not Unicode", "anchors": ["pw_diff/src/main.rs: main", "pw_diff_lib/src/diff.rs: Diff::new"]}
{"id": "C88", "title": "A change diff saved and loaded on its own", "statement": "TextChangeDiff::from_reader and ByteChangeDiff::from_reader accept exactly the JSON texts (RFC 8259) whose tree stands for such a diff; to_writer writes the one tree with the fields in order, and loading that gives the diff back. Such a text with the name of the kind in front is exactly the text of the whole diff, and no text is both.", "quantifier": "every byte sequence and every valid diff", "why_tests_cant": "all byte sequences", "anchors": ["pw_diff_lib/src/text_diff.rs: TextChangeDiff::from_reader", "pw_diff_lib/src/text_diff.rs: TextChangeDiff::to_writer", "pw_diff_lib/src/byte_diff.rs: ByteChangeDiff::from_reader", "pw_diff_lib/src/byte_diff.rs: ByteChangeDiff::to_writer"]}
{"id": "C89", "title": "A saved change diff is not loaded as one of the other kind", "statement": "A saved TextChangeDiff is not accepted as a ByteChangeDiff, nor a saved ByteChangeDiff as a TextChangeDiff.", "quantifier": "every valid diff", "why_tests_cant": "all diffs", "anchors": ["pw_diff_lib/src/text_diff.rs: TextChangeDiff::from_reader", "pw_diff_lib/src/byte_diff.rs: ByteChangeDiff::from_reader"]}
{"id": "C90", "title": "Undoing a text patch restores the original text", "statement": "Patching a text and then patching the result in reverse with the same clumps restores the text byte for byte, every clump applying cleanly both times, even where the generator overlooked changes.", "quantifier": "every two texts that fit in memory, every context up to 255, both builds", "why_tests_cant": "all texts, including those on which the diff is incomplete", "anchors": ["pw_diff_lib/src/apply_text.rs: ApplyClumpsFuzzy::apply_into", "pw_diff_lib/src/text_diff.rs: TextChangeDiff::new"]}
{"id": "C91", "title": "Undoing a byte patch restores the original bytes", "statement": "Patching bytes and then patching the result in reverse with the same clumps restores the bytes.", "quantifier": "every two byte sequences that fit in memory, every context, both builds", "why_tests_cant": "all contents, including those on which the diff is incomplete", "anchors": ["pw_diff_lib/src/apply_bytes.rs: ApplyClumps::apply_into", "pw_diff_lib/src/byte_diff.rs: ByteChangeDiff::new"]}
{"id": "C92", "title": "Patching a file and then patching it in reverse restores it", "statement": "Running the diff tool on two paths, the patch tool on its output and then the patch tool in reverse leaves the first path with its original content, and no other path changed.", "quantifier": "every file system state, pair of paths and context", "why_tests_cant": "end-to-end composition over all contents, including those on which the diff is incomplete", "anchors": ["pw_diff_lib/src/diff.rs: Diff::new", "pw_patch/src/main.rs: main", "pw_diff/src/main.rs: main"]}
{"id": "C93", "title": "A patch carries over to a text edited elsewhere", "statement": "If the old lines of all clumps of a diff are found in order in some other text, each clump fitting nowhere nearer to where it is expected, then patching that text replaces exactly these lines by the new ones, keeps everything else, rejects no clump, and counts as fuzzy exactly the clumps that were not where expected; the patch tool does this to a file.", "quantifier": "every diff, every target text that contains the old lines, both builds and both directions", "why_tests_cant": "all ways of editing the rest of the text, with any number of clumps, displacements and repeated lines", "anchors": ["pw_diff_lib/src/apply_text.rs: ApplyClumpsFuzzy::apply_into", "pw_diff_lib/src/apply_text.rs: ApplyClumpFuzzy::will_apply_nearby", "pw_patch/src/main.rs: main"]}
{"id": "C94", "title": "Undoing a patch on a text edited elsewhere restores it", "statement": "If a text edited elsewhere was patched with all clumps found, and the new lines of each clump fit the result at one place only, then patching the result in reverse restores the edited text, with the same clumps displaced.", "quantifier": "every diff and every target text, both builds", "why_tests_cant": "all ways of editing the rest of the text", "anchors": ["pw_diff_lib/src/apply_text.rs: ApplyClumpsFuzzy::apply_into", "pw_diff_lib/src/apply_text.rs: ApplyClumpFuzzy::will_apply_nearby"]}
{"id": "C95", "title": "Patches that change different places of a text can be applied in either order", "statement": "If two diffs made from the same text change different places of it (no clump of one overlaps a clump of the other, context included) and every clump fits only one place of the texts involved, then applying the first and then the second gives the same text as applying the second and then the first, without rejects: the text with the changes of both. The same holds for the patch tool run with two saved diffs on one file.", "quantifier": "all texts and pairs of diffs made from them, context lengths, debug and release builds; for files: all file systems when nothing fails", "why_tests_cant": "Needs every pair of edits of every text and every way their clumps interleave; tests apply single patches.", "anchors": ["pw_diff_lib/src/apply_text.rs: ApplyClumpsFuzzy::apply_into", "pw_diff_lib/src/apply_text.rs: ApplyClumpFuzzy::will_apply_nearby", "pw_patch/src/main.rs: main"]}
{"id": "C96", "title": "A patch changes nothing outside the current directory", "statement": "Whatever a patch file contains, the patch tool started in some directory creates, changes and removes no file outside that directory: not through an absolute path and not through one that climbs out with \"..\".", "quantifier": "all patch files, file systems, environments (faults of any operation), both directions", "why_tests_cant": "A patch file is untrusted input; tests apply well-meaning patches only, and the claim is about every path and every moment of the run.", "anchors": ["pw_patch/src/main.rs: main"]}
{"id": "C97", "title": "The command lines of the two programs", "statement": "A list of arguments runs pw_diff (or pw_patch) with given verbosity, context, direction and paths if and only if it spells them in the documented grammar (flags by letter, clustered or by name, the context attached or as the next argument, \"--\" before paths that begin with \"-\"); it never has two meanings; -h or --help before any mistake gives status 0; every other list gives status 2; in the last two cases no file is touched. Any two non-empty paths can be given.", "quantifier": "all lists of arguments (byte strings), environments and file systems", "why_tests_cant": "There are infinitely many argument lists and clusters of letters; no test of the repository calls the programs.", "anchors": ["pw_diff/src/main.rs: Cli, main", "pw_patch/src/main.rs: Cli, main"]}
{"id": "C98", "title": "Several runs of the patch tool at the same time", "statement": "When several runs of pw_patch at the same time, changing files and using different temporary files, all report success, every file holds the result of all the patches to it, carried out one after the other in some order; no other file changes; and no state in between shows part of a patch.", "quantifier": "all file systems, numbers of runs, saved diffs (changes of text or bytes), directions, interleavings of the file operations, faults of any operation, and runs killed at any moment", "why_tests_cant": "Interleavings cannot be enumerated by running the programs, and a test does not control the scheduler.", "anchors": ["pw_patch/src/main.rs: main"]}
{"id": "C99", "title": "Patching a file with several names", "statement": "Patching a path changes the file the path names, so that the new content is found under each of its names (symbolic and hard links) and a link stays a link; removing a path removes this name only; adding a path that is taken, if only by a link that leads nowhere, changes nothing; and where there are no links the run is the one of the other claims.", "quantifier": "all file systems with any names, symbolic links (chains, loops, links that lead nowhere) and hard links, all saved diffs, directions, and faults of any operation", "why_tests_cant": "The existing tests patch plain files in a directory of their own; the combinations of links, kinds of diff and points of failure cannot be enumerated.", "anchors": ["pw_patch/src/main.rs: main"]}
{"id": "C100", "title": "The changes depend only on which items are equal", "statement": "The changes found between two sequences depend on nothing but which items of the one are equal to which items of the other: replacing lines by other lines, different ones by different ones, or by bytes, gives the same changes.", "quantifier": "all pairs of texts and of byte strings with equal items at the same places", "why_tests_cant": "A relation between runs on infinitely many inputs; hashing and byte order of lines could matter for some of them only.", "anchors": ["pw_diff_lib/src/changes.rs: ChangesGenerator::longest_common_subsequence, ChangesGenerator::longest_common_subsequences, ChangesGenerator::generate", "pw_diff_lib/src/sequence.rs: StringItemIndices, ByteItemIndices"]}
{"id": "C101", "title": "Exchanging the two inputs exchanges the sides of the diff", "statement": "Diffing two texts in the other order gives the same changes, and the same clumps, with the sides exchanged.", "quantifier": "all pairs of texts and of byte strings, and all numbers of context lines", "why_tests_cant": "A relation between two runs on arbitrary inputs; it breaks only if there are several longest common blocks.", "anchors": ["pw_diff_lib/src/changes.rs: ChangesGenerator::longest_common_subsequence, ChangeClump", "pw_diff_lib/src/text_diff.rs: TextChangeDiff::new", "pw_diff_lib/src/byte_diff.rs: ByteChangeDiff::new"]}
{"id": "C102", "title": "A diff is as small as possible", "statement": "A diff keeps as many lines as the longest common subsequence of the two texts has, so that there is no shorter diff.", "quantifier": "all pairs of texts and of byte strings", "why_tests_cant": "The number of common subsequences grows exponentially, and the distance to the best one is not bounded.", "anchors": ["pw_diff_lib/src/changes.rs: ChangesGenerator::longest_common_subsequence, ChangesGenerator::longest_common_subsequences"]}
{"id": "C103", "title": "The result of a patch does not depend on the number of context lines", "statement": "Patching a text with a diff made from it gives the same result whatever number of context lines the diff was made with; the result has exactly the lines of the new text, except for those reported as unchanged and farther than the context from every change.", "quantifier": "all pairs of texts and of byte strings, all numbers of context lines up to 255, both directions", "why_tests_cant": "A relation between the outputs of runs with different options on arbitrary inputs.", "anchors": ["pw_diff_lib/src/changes.rs: ChangeClumpIter::next", "pw_diff_lib/src/text_diff.rs: TextChangeDiff::new", "pw_diff_lib/src/apply_text.rs: ApplyClumpsFuzzy::apply_into"]}
{"id": "C104", "title": "Some of the clumps of a diff can be applied alone", "statement": "Any selection of the clumps of a diff applies cleanly to the text the diff was made from, each clump in its own place and nothing else changed; in reverse the same on the new text.", "quantifier": "all pairs of texts and of byte strings, all numbers of context lines up to 255, all selections of clumps, both directions", "why_tests_cant": "A diff with n clumps has 2^n selections, on unboundedly many inputs.", "anchors": ["pw_diff_lib/src/apply_text.rs: ApplyClumpsFuzzy::apply_into", "pw_diff_lib/src/apply_bytes.rs: ApplyClumpsClean::apply_into"]}
{"id": "C105", "title": "A diff can be applied in two steps", "statement": "Applying some of the clumps of a diff to the text it was made from and then the others to the result gives what applying all of them at once gives.", "quantifier": "all pairs of texts and of byte strings, all numbers of context lines up to 255, all divisions of the clumps, both directions", "why_tests_cant": "A diff with n clumps has 2^n divisions, and where clumps are found depends on the whole text.", "anchors": ["pw_diff_lib/src/apply_text.rs: ApplyClumpsFuzzy::apply_into, ApplyClumpFuzzy::will_apply_nearby", "pw_diff_lib/src/apply_bytes.rs: ApplyClumpsClean::apply_into"]}
{"id": "C106", "title": "The size of a saved diff is at most proportional to the size of the two files", "statement": "The clumps of a diff together hold no more lines and no more bytes than the two files, whatever the number of context lines, and there are no more clumps than lines; the output of the diff tool is at most a constant times as large as the two files, plus a constant times the length of the paths.", "quantifier": "all pairs of files, all paths, all numbers of context lines up to 255, all behaviours of the environment", "why_tests_cant": "A bound that has to hold for files of every size: overlapping contexts, escapes and numbers all add to the size.", "anchors": ["pw_diff_lib/src/changes.rs: ChangeClumpIter::next", "pw_diff_lib/src/text_diff.rs: TextChangeDiff::new, to_writer", "pw_diff_lib/src/byte_diff.rs: ByteChangeDiff::new, to_writer", "pw_diff_lib/src/diff.rs: Diff::to_writer", "pw_diff/src/main.rs: main"]}
{"id": "C107", "title": "The work of finding the changes is at most proportional to the product of the two lengths", "statement": "The number of rounds of the loops that search for common blocks is at most a constant times the product of the lengths of the two sequences.", "quantifier": "all pairs of sequences of lines and of bytes", "why_tests_cant": "A bound on running time over inputs of every size; the worst inputs are of a special shape.", "anchors": ["pw_diff_lib/src/changes.rs: ChangesGenerator::longest_common_subsequence, longest_common_subsequences"]}
{"id": "C108", "title": "Patches can be applied one after another and undone in reverse order", "statement": "The diffs between successive versions of a text, applied one after another to the first version, give the last one; applied in reverse to the last version, the last diff first, they give the first one back.", "quantifier": "all series of versions of any length, all numbers of context lines up to 255, both builds", "why_tests_cant": "Series of any length of arbitrary texts; what one patch leaves out affects the next.", "anchors": ["pw_diff_lib/src/apply_text.rs: ApplyClumpsFuzzy::apply_into", "pw_diff_lib/src/apply_bytes.rs: ApplyClumpsClean::apply_into", "pw_diff_lib/src/text_diff.rs: TextChangeDiff::new", "pw_diff_lib/src/byte_diff.rs: ByteChangeDiff::new"]}
{"id": "C109", "title": "A diff made while the patch tool is at work is one that could have been made at some moment", "statement": "When the diff tool compares two files while runs of the patch tool are changing them, the diff it makes is the one it would have made, without disturbance, at some moment.", "quantifier": "all files, all numbers of runs of the patch tool in all interleavings, all moments of looking", "why_tests_cant": "The states in between and their order cannot be produced at will, nor all of them.", "anchors": ["pw_diff_lib/src/diff.rs: Diff::new", "pw_diff_lib/src/text_diff.rs: TextChangeDiff::new", "pw_diff_lib/src/byte_diff.rs: ByteChangeDiff::new", "pw_diff/src/main.rs: main"]}
{"id": "C110", "title": "Running the patch tool again with the same patch leaves the files as they are", "statement": "When the patch tool has brought a file to its new content, a second run with the same patch changes nothing.", "quantifier": "all files, all diffs made from them, with all numbers of context lines up to 255, both builds", "why_tests_cant": "Whether a clump fits the new content a second time depends on repetitions in arbitrary contents.", "anchors": ["pw_patch/src/main.rs: main", "pw_diff_lib/src/apply_text.rs: ApplyClumpsFuzzy::apply_into", "pw_diff_lib/src/apply_bytes.rs: ApplyClumpsClean::apply_into"]}
{"id": "C111", "title": "The work of applying a text patch is at most proportional to the size of the patch and of the text", "statement": "The number of comparisons made while a text patch is applied, and of rounds of the search for other places, is at most a constant times the product of the sizes of the patch and of the text.", "quantifier": "all patches, all texts, both directions, both builds", "why_tests_cant": "A bound on running time over patches and texts of every size, including patches that fit nowhere and patches made by hand.", "anchors": ["pw_diff_lib/src/apply_text.rs: TextChangeClump::will_apply, will_apply_nearby", "pw_diff_lib/src/apply_text.rs: ApplyClumpsFuzzy::apply_into"]}
{"id": "C112", "title": "A patched file contains nothing but lines of the target, lines of the patch and conflict marks", "statement": "Whatever is written when a patch is applied is a sequence of lines of the target, old and new lines of clumps and the three conflict marks; without rejected clumps, of lines of the target and new lines only. For byte patches: of stretches of the data and new bytes of clumps. So a file that is patched with a text patch is unchanged or valid UTF-8, at every moment.", "quantifier": "all clump lists (also malformed ones), all targets, both directions, both builds, all outcomes including panics; all runs of the patch tool", "why_tests_cant": "All patches, all targets, all interruptions.", "anchors": ["pw_diff_lib/src/apply_text.rs: ApplyClumpsFuzzy::apply_into", "pw_diff_lib/src/apply_text.rs: ApplyClumpFuzzy::write_failure_data_into", "pw_diff_lib/src/apply_bytes.rs: apply_into"]}
{"id": "C113", "title": "The size of a patched file is bounded by the sizes of the target and the patch", "statement": "Applying a text patch writes at most the bytes of the target, the old and new lines of all clumps and 24 bytes for each clump; if nothing is rejected, at most the bytes of the target and the new lines. Applying a byte patch writes at most the bytes of the data and the new bytes. A target file grows by at most 12/11 of the size of the patch file, for byte patches by at most its size.", "quantifier": "all clump lists and targets that fit into memory, both directions, both builds; all runs of the patch tool on files that fit into memory", "why_tests_cant": "A bound over files and patches of every size, with positions and context lengths made up by hand that could make the same lines be written again.", "anchors": ["pw_diff_lib/src/apply_text.rs: ApplyClumpsFuzzy::apply_into", "pw_diff_lib/src/apply_bytes.rs: apply_into", "pw_diff_lib/src/sequence.rs: ConsumableSeq"]}
{"id": "C114", "title": "A rejected clump is shown as a conflict where it belongs, on lines of its own", "statement": "For every rejected clump the result contains the three marks and the old and new lines of the clump, each of them a line of the result, at the place where the clump belongs.", "quantifier": "all patches, all texts, both builds", "why_tests_cant": "All patches, all texts; files without a final newline.", "anchors": ["pw_diff_lib/src/apply_text.rs: ApplyClumpFuzzy::write_failure_data_into", "pw_diff_lib/src/apply_text.rs: ApplyClumpsFuzzy::apply_into"]}
{"id": "C115", "title": "The work of applying a byte patch is at most proportional to the size of the patch", "statement": "Applying a byte patch compares at most as many bytes as its clumps have, old and new together, whatever positions and context lengths they state; asking whether it has been applied compares at most the new bytes. No clump compares more than twice the bytes of the data. Exactly: a side of a clump takes the bytes up to the first that differs, nothing if it lies outside; the new side is looked at only if the old one does not fit; the query ends with the first clump that is not applied. If every clump fits and the patch is applied, exactly the old bytes are compared.", "quantifier": "all clump lists (also malformed ones), all data, both directions, both builds, all outcomes including panics", "why_tests_cant": "A bound over patches and data of every size; for text patches the corresponding bound is false (C111).", "anchors": ["pw_diff_lib/src/apply_bytes.rs: apply_into", "pw_diff_lib/src/apply_bytes.rs: already_applied", "pw_diff_lib/src/sequence.rs: has_subsequence_at"]}
{"id": "C116", "title": "A patch reported as already applied leaves the text as it is", "statement": "If applying a text patch reports every clump as already applied (none clean, fuzzy or failed), what is written is exactly the text. A byte patch of which the old bytes of no clump are at their place leaves the data as they are. If the query says that a patch has been applied, applying it leaves the text as it is.", "quantifier": "all hunk lists, all texts and data that fit into memory, both directions, both builds", "why_tests_cant": "All patches and all texts, also ones the patch was not made from, with displaced and reduced matches.", "anchors": ["pw_diff_lib/src/apply_text.rs: ApplyClumpsFuzzy::apply_into", "pw_diff_lib/src/apply_text.rs: ApplyClumpFuzzy::is_already_applied_into", "pw_diff_lib/src/apply_text.rs: ApplyClumpsFuzzy::is_already_applied", "pw_diff_lib/src/apply_bytes.rs: apply_into"]}
{"id": "C117", "title": "Debug and release builds do the same unless the debug build panics", "statement": "If applying a text or byte patch, the query for text patches, or reading a unified clump does not panic in a debug build, then a release build does exactly the same: same result, same bytes written. The same holds for a whole run of pw_patch: same messages, same exit status, same states of the file system. So a release build panics only where a debug build does.", "quantifier": "all patches (also damaged ones), all texts and data, both directions, all writers, all faults of the file system", "why_tests_cant": "Tests run one build; agreement on all inputs, in particular those near the limits of the machine words, cannot be tested.", "anchors": ["pw_diff_lib/src/apply_text.rs: ApplyClumpsFuzzy::apply_into", "pw_diff_lib/src/apply_bytes.rs: apply_into", "pw_diff_lib/src/snippet.rs: Snippet::items", "pw_cub_diff_lib/src/unified_diff.rs: UnifiedDiffClump::get_from_at", "pw_patch/src/main.rs: main"]}
{"id": "C118", "title": "Where a diff applies cleanly, the diff with fewer context lines does too", "statement": "If the diff of two texts with more context lines applies to some text with every clump exactly where it is expected, then the diff of the same texts with fewer context lines does so too, in either direction, and the result is the same. For byte patches likewise, where all bytes to be replaced are at their places; and for the patch tool with two saved diffs.", "quantifier": "all pairs of texts or data, all pairs of context lengths, all texts to be patched, both directions", "why_tests_cant": "The clumps of two diffs with different contexts are divided differently; tests compare a few divisions only.", "anchors": ["pw_diff_lib/src/changes.rs: ChangeClumpIter::next", "pw_diff_lib/src/apply_text.rs: ApplyClumpsFuzzy::apply_into", "pw_diff_lib/src/text_diff.rs: TextChangeDiff::new"]}
{"id": "C119", "title": "A byte patch puts in everything when applied to the data it was made from, whatever the context", "statement": "Applied to the data it was made from, forwards or in reverse, with any number of context bytes (also none) and for any data (also empty), a byte patch puts in the new bytes of every clump.", "quantifier": "all pairs of byte strings, all numbers of context bytes up to 255, both directions, both builds", "why_tests_cant": "Tests use the default context and data that are not empty; where a clump is at the very end, without any old byte, cannot be found by a few examples.", "anchors": ["pw_diff_lib/src/apply_bytes.rs: ApplyClumpsClean::apply_into", "pw_diff_lib/src/sequence.rs: Seq::has_subsequence_at", "pw_diff_lib/src/byte_diff.rs: ByteChangeDiff::new"]}
{"id": "C120", "title": "What is held while the changes are found is proportional to the old file alone", "statement": "At no time does the generator hold more than 4 times as many entries as the old sequence has items, and 4 (positions in its index, entries of its two hash tables, pairs of ranges still to be searched, blocks found and changes), however long the new sequence is. It can need 3 times as many.", "quantifier": "all pairs of sequences of lines and all pairs of byte strings, of any length", "why_tests_cant": "A test measures the memory taken by a few pairs of files; no number of pairs bounds it for all of them, and the time taken (C107), which can be cubic, says nothing about it.", "anchors": ["pw_diff_lib/src/changes.rs: ChangesGenerator::longest_common_subsequence", "pw_diff_lib/src/changes.rs: ChangesGenerator::longest_common_subsequences", "pw_diff_lib/src/changes.rs: ChangesGenerator::generate", "pw_diff_lib/src/sequence.rs: StringItemIndices::generate_from", "pw_diff_lib/src/sequence.rs: ByteItemIndices::generate_from"]}
{"id": "C121", "title": "Runs at the same time that create, remove and change one file", "statement": "When several runs of the patch tool work at the same time, a file that one of them reports as removed is gone at the end unless another creates it, and a run that is to create a file reports success only if the file gets its content.", "quantifier": "all file systems, any number of runs with their own temporary files, all patches, every interleaving of their operations, whatever fails and wherever runs are killed", "why_tests_cant": "Which operations of two processes meet is up to the scheduler: a test sees a few interleavings, and the harmful one (a removal between the reading and the renaming of a change) takes place in a very short time.", "anchors": ["pw_patch/src/main.rs: main", "pw_patch/src/main.rs: main (Diff::TextAdd)", "pw_patch/src/main.rs: main (Diff::TextRemove)", "pw_patch/src/main.rs: main (Diff::ByteAdd)", "pw_patch/src/main.rs: main (Diff::ByteRemove)"]}
{"id": "C122", "title": "A power failure does not damage the target", "statement": "Whenever the power fails during or after a run of the patch tool, the target is found with its old content or with the complete result of the patch, and with the latter if the run has ended with status 0; no other file is affected.", "quantifier": "all file systems with links, all patches, both directions, whatever fails, a failure of the power at every moment; disks that get names in the order of their changes, with contents at any time or before the names", "why_tests_cant": "What a disk holds after a power failure depends on what the system had put on it; a test would have to cut the power at every moment on every kind of file system.", "anchors": ["pw_patch/src/main.rs: main"]}
{"id": "C123", "title": "An edit in one place is one change", "statement": "If a text or byte string is edited in one place, the diff reports one change, at that place, and the patch has one clump with the edited lines and up to the requested number of lines around them; if the items common to both are in the same order in both, exactly these are reported as unchanged.", "quantifier": "all texts and byte strings, edited in one place or in several, all contexts up to 255", "why_tests_cant": "The longest-block search may prefer a block that is displaced whenever lines repeat; tests with distinct lines see nothing of this.", "anchors": ["pw_diff_lib/src/changes.rs: ChangesGenerator::generate, ChangesGenerator::longest_common_subsequence, ChangeClumpIter::next", "pw_diff_lib/src/text_diff.rs: TextDiff::new", "pw_diff_lib/src/byte_diff.rs: ByteDiff::new"]}
{"id": "C124", "title": "The text of a message tells which message it is", "statement": "When a program fails because of a file, its message names the file; the text of a message determines the message with its clump number, reductions, offset, counts and path, and the reason given; no path, whatever its bytes, makes one message look like another or breaks its line or puts a control character on the terminal.", "quantifier": "all messages, paths of any bytes (also not UTF-8), all reasons, all runs of both programs", "why_tests_cant": "Paths with quotes, backslashes, line breaks, escape sequences or invalid UTF-8 are endless; tests see a few.", "anchors": ["pw_patch/src/main.rs: main", "pw_diff/src/main.rs: main", "pw_diff_lib/src/apply_text.rs: ApplyClumpsFuzzy::apply_into", "pw_diff_lib/src/apply_bytes.rs: ApplyClumpsClean::apply_into"]}
{"id": "C125", "title": "More context lines gather clumps and never divide them", "statement": "If a diff is made with more context, each of its clumps has exactly the changes of one or more consecutive clumps of the diff made with less, and covers everything these cover, in both files; so it has no more clumps and no fewer lines.", "quantifier": "all texts and byte strings (all change lists that tile two sequences), all pairs of contexts, without bound", "why_tests_cant": "Where a clump ends depends on the lengths of all unchanged blocks and the context; tests try few contexts.", "anchors": ["pw_diff_lib/src/changes.rs: ChangeClumpIter::next", "pw_diff_lib/src/common_subsequence.rs: starts_trimmed, ends_trimmed, split", "pw_diff_lib/src/text_diff.rs: TextDiff::new", "pw_diff_lib/src/byte_diff.rs: ByteDiff::new"]}
{"id": "C126", "title": "The programs look at nothing but the files they are told of", "statement": "What the diff tool prints, its messages and status depend only on what can be read of the two files; what the patch tool does depends only on the patch, the file to be patched and its temporary file, not on any other file - not even the one named as the new one.", "quantifier": "all pairs of file systems that agree on these files, all arguments, all failures of operations", "why_tests_cant": "Concerns pairs of runs: every other file and every permission bit may differ between them.", "anchors": ["pw_diff_lib/src/diff.rs: Diff::new", "pw_diff/src/main.rs: main", "pw_patch/src/main.rs: main"]}
{"id": "C127", "title": "A printed unified diff says how the first text becomes the second", "statement": "The clumps printed for two texts, carried out line by line in the way unified diffs are, make the first text into the second; what they make is determined by them, and they can be undone.", "quantifier": "all pairs of texts and context sizes", "why_tests_cant": "Quantifies over all pairs of texts and over every way to read the printed clumps.", "anchors": ["pw_cub_diff_lib/src/unified_diff.rs: UnifiedClumpIter::next", "pw_diff_lib/src/changes.rs: ChangeClumpIter::next"]}
{"id": "C128", "title": "How much a diff can overlook", "statement": "There is a bound on the number of changed lines or bytes that a diff does not report. Of what is reported as unchanged at most half is changed, and of a patched file at most half of the lines or bytes are not those of the new file.", "quantifier": "all pairs of texts and byte sequences, all context sizes, both directions and build modes", "why_tests_cant": "Quantifies over all inputs: it bounds what can be wrong with any of them, and gives inputs of every size that reach the bound.", "anchors": ["pw_diff_lib/src/changes.rs: ChangesGenerator::longest_common_subsequence", "pw_diff_lib/src/apply_text.rs: ApplyClumpsFuzzy::apply_into", "pw_diff_lib/src/apply_bytes.rs: ApplyClumpsClean::apply_into"]}
{"id": "C129", "title": "What runs at the same time leave, they could leave one after the other", "statement": "When several runs of the patch tool change, create and remove one file at the same time and all report success, the file is left as they could have left it one after the other in some order. Runs on different files do not disturb each other.", "quantifier": "all file systems with links of both kinds, any number of runs of any kind with their own temporary files, all patches, every interleaving of their operations and of the bytes they write, whatever fails and wherever runs are killed", "why_tests_cant": "A test sees a few interleavings; the harmful one (a change between two writes of a creation) needs a file large enough to be written in several portions and a reader at that moment.", "anchors": ["pw_patch/src/main.rs: main (Diff::TextChange)", "pw_patch/src/main.rs: main (Diff::TextAdd)", "pw_patch/src/main.rs: main (Diff::TextRemove)", "pw_patch/src/main.rs: main (Diff::ByteChange)", "pw_patch/src/main.rs: main (Diff::ByteAdd)", "pw_patch/src/main.rs: main (Diff::ByteRemove)"]}
{"id": "C130", "title": "Counting the clumps makes no difference", "statement": "The number of the clump, which is counted for messages only, has no influence on what is applied and answered, and each message shows the number of its clump.", "quantifier": "all text and byte patches with any number of clumps, all targets, both directions, applying and asking, debug and release builds, whatever the writer accepts", "why_tests_cant": "It needs a patch with 2^31 clumps.", "anchors": ["pw_diff_lib/src/apply_text.rs: ApplyClumpsFuzzy::apply_into", "pw_diff_lib/src/apply_text.rs: ApplyClumpsFuzzy::is_already_applied", "pw_diff_lib/src/apply_bytes.rs: ApplyClumpsClean::apply_into", "pw_diff_lib/src/apply_bytes.rs: ApplyClumpsClean::already_applied"]}
{"id": "C131", "title": "Lines do not run together", "statement": "When every clump is applied, or found to be applied already, every line of the patched text is a line of the target or of the new text.", "quantifier": "all texts before and after, any context, all targets, both directions, debug and release builds; also all text patches", "why_tests_cant": "The place where a line without a newline is followed by another depends on the last lines of three texts and on where the clumps are found.", "anchors": ["pw_diff_lib/src/apply_text.rs: ApplyClumpsFuzzy::apply_into", "pw_diff_lib/src/changes.rs: ChangesGenerator::longest_common_subsequence"]}
{"id": "C132", "title": "Converted line ends", "statement": "When the line ends of the texts of a diff and of the text to be patched are all converted, the diff and the patched text are those of the original texts with their line ends converted; and so for any replacement of lines or bytes by others that keeps different ones different.", "quantifier": "all texts before, after and to be patched, any context, all text and byte patches, both directions, all writers, debug and release builds, all one-to-one replacements", "why_tests_cant": "The contents of the lines could matter at any comparison, search position or written piece; tests use a few texts and one kind of line end.", "anchors": ["pw_diff_lib/src/apply_text.rs: ApplyClumpsFuzzy::apply_into", "pw_diff_lib/src/apply_text.rs: ApplyClumpFuzzy::write_failure_data_into", "pw_diff_lib/src/apply_bytes.rs: ApplyClumpsClean::apply_into", "pw_diff_lib/src/changes.rs: ChangesGenerator::generate"]}
{"id": "C133", "title": "A written unified diff is read back whole", "statement": "The clumps of a printed unified diff, written one after another, are read from the lines of the file one after another, each starting where the one before says it ends, up to the end of the file, and in one way only; what is read, carried out on the first text, gives the second.", "quantifier": "all pairs of texts, any context, any lines in front, debug and release builds, any table of Unicode digits", "why_tests_cant": "Where a clump ends depends on its header, on the marks of its lines and on what follows; tests read single clumps.", "anchors": ["pw_cub_diff_lib/src/unified_diff.rs: UnifiedDiffClump::get_from_at", "pw_cub_diff_lib/src/unified_diff.rs: UnifiedClumpIter::next"]}
{"id": "C134", "title": "What is added behind a text does not matter", "statement": "If a patch can be applied to a text, it can be applied in the same way to the text with any lines added behind it, and the result is the same with these lines behind it; and so for byte patches and data.", "quantifier": "all lists of text and byte clumps, all texts and data, all additions, both directions, debug and release builds", "why_tests_cant": "Every comparison with the end of the text, and every slice up to it, could let the lines added have an effect; tests patch a few texts of fixed length.", "anchors": ["pw_diff_lib/src/apply_text.rs: ApplyClumpsFuzzy::apply_into", "pw_diff_lib/src/apply_text.rs: ApplyClumpFuzzy::will_apply", "pw_diff_lib/src/apply_bytes.rs: ApplyClumpsClean::apply_into", "pw_diff_lib/src/sequence.rs: ConsumableSeq::write_remainder"]}
{"id": "C135", "title": "The rejected clumps can be read from the patched text", "statement": "Read line by line with the help of the marks, a patched text contains exactly one conflict for every rejected clump, in order, with its old and new lines, and taking the conflicts out leaves what the other clumps made of the text; in particular there is a line <<<<<<< exactly if a clump was rejected.", "quantifier": "all lists of text clumps, all texts, both directions, debug and release builds; the patch tool for all files and patch files", "why_tests_cant": "Whether conflicts can be told from the lines around them depends on the lines of the text and of every clump; tests look at a few conflicts with plain lines.", "anchors": ["pw_diff_lib/src/apply_text.rs: ApplyClumpFuzzy::write_failure_data_into", "pw_diff_lib/src/apply_text.rs: ApplyClumpsFuzzy::apply_into", "pw_patch/src/main.rs: main"]}
{"id": "C136", "title": "Patching brings a text no further from the new one", "statement": "Given two texts with the same number of lines, patching the first with the diff of the two leaves it with no more lines different from those of the second than it had; and a diff of the patched text and the second has no clumps. The same for bytes.", "quantifier": "all pairs of texts or byte sequences, every context of up to 255, both directions, debug and release builds", "why_tests_cant": "The shortest example of a text that gets further away that is known has more than a hundred lines, some of which are repeated at a distance; it is not met by chance: three million random pairs did not show one.", "anchors": ["pw_diff_lib/src/changes.rs: ChangesGenerator::longest_common_subsequence", "pw_diff_lib/src/apply_text.rs: ApplyClumpsFuzzy::apply_into", "pw_diff_lib/src/apply_bytes.rs: ApplyClumpsClean::apply_into"]}
{"id": "C137", "title": "Making a diff and patching over and over comes to an end", "statement": "When a diff of a text and a new text is made and the text is patched with it, and this is repeated with the patched text, only finitely many rounds change anything, and the last one leaves the new text.", "quantifier": "all pairs of texts, every context of up to 255 lines, debug and release builds, any number of rounds", "why_tests_cant": "Each round depends on what the one before it overlooked; how often this can happen is a property of sequences of runs of any length.", "anchors": ["pw_diff_lib/src/changes.rs: ChangesGenerator::longest_common_subsequence", "pw_diff_lib/src/apply_text.rs: ApplyClumpsFuzzy::apply_into"]}
{"id": "C138", "title": "A rejected hunk makes no difference to the others", "statement": "When a hunk of a patch is rejected, applying the patch without it gives the same text with the same statistics, only without its conflict and its failure.", "quantifier": "all patches (lists of hunks) and all texts or bytes, both directions, debug and release builds, every writer", "why_tests_cant": "The place up to which a hunk is searched for depends on the hunk after it; a difference shows only when that one is rejected and the first one is found in two places.", "anchors": ["pw_diff_lib/src/apply_text.rs: ApplyClumpsFuzzy::apply_into", "pw_diff_lib/src/apply_bytes.rs: ApplyClumps::apply_into"]}
{"id": "C139", "title": "The lines that are taken out are the lines that were found", "statement": "However a patch is applied to a text or to bytes, the result is the text with the lines (bytes) found by the clumps replaced, in order; every other line is still there (beside conflicts).", "quantifier": "all patches (lists of hunks, generated or not) and all texts, both directions, debug and release builds", "why_tests_cant": "The line lost lies elsewhere than the one matched, and only if an earlier clump is already there and has moved the rest; nothing is reported.", "anchors": ["pw_diff_lib/src/apply_text.rs: ApplyClumpsFuzzy::apply_into, ApplyClumpFuzzy::apply_into", "pw_diff_lib/src/apply_bytes.rs: ApplyClumps::apply_into"]}
{"id": "C140", "title": "A diff that was put in partly is completed by applying it", "statement": "Applied to a text into which some of its clumps have been put already, a diff gives the same as applied to the original text: the clumps that are there are recognised and the others are put in.", "quantifier": "all pairs of texts (or byte files), all contexts up to 255, all selections of the clumps, both directions, debug and release builds", "why_tests_cant": "It depends on which clumps are there, on how many lines each of them adds, and on whether its lines recur elsewhere; nothing is reported where it goes wrong.", "anchors": ["pw_diff_lib/src/apply_text.rs: ApplyClumpsFuzzy::apply_into, ApplyClumpFuzzy::is_already_applied"]}
