{
 "claims": [
  {
   "property": "C01",
   "status": "proved",
   "theorems": [
    "C01_split_lines"
   ],
   "note": ""
  },
  {
   "property": "C02",
   "status": "proved",
   "theorems": [
    "C02_read_lines"
   ],
   "note": ""
  },
  {
   "property": "C03",
   "status": "proved",
   "theorems": [
    "C03_indices"
   ],
   "note": ""
  },
  {
   "property": "C04",
   "status": "proved",
   "theorems": [
    "C04_search_total"
   ],
   "note": ""
  },
  {
   "property": "C05",
   "status": "proved",
   "theorems": [
    "C05_longest"
   ],
   "note": ""
  },
  {
   "property": "C06",
   "status": "partial",
   "theorems": [
    "C06_block_is_common_refuted",
    "C06_block_is_common_partial"
   ],
   "note": "False as stated: the trailing extension (changes.rs:193-206) skips a mismatching item. The block is proved common except for such isolated mismatches, and common if the input has none."
  },
  {
   "property": "C07",
   "status": "proved",
   "theorems": [
    "C07_tie_break"
   ],
   "note": ""
  },
  {
   "property": "C08",
   "status": "proved",
   "theorems": [
    "C08_changes_total"
   ],
   "note": ""
  },
  {
   "property": "C09",
   "status": "proved",
   "theorems": [
    "C09_partition"
   ],
   "note": ""
  },
  {
   "property": "C10",
   "status": "partial",
   "theorems": [
    "C10_unchanged_is_unchanged_refuted",
    "C10_unchanged_is_unchanged_bytes_refuted",
    "C10_unchanged_is_unchanged_partial"
   ],
   "note": "False as stated because of changes.rs:193-206; proved that an unchanged block differs at most by isolated mismatches, and not at all without them in the input."
  },
  {
   "property": "C11",
   "status": "partial",
   "theorems": [
    "C11_equal_empty",
    "C11_empty_equal_refuted",
    "C11_empty_equal_bytes_refuted",
    "C11_empty_equal_partial"
   ],
   "note": "First half (equal inputs give an empty diff) proved; second half false (an isolated changed line gives an empty diff), proved without isolated mismatches."
  },
  {
   "property": "C12",
   "status": "proved",
   "theorems": [
    "C12_any_sort"
   ],
   "note": ""
  },
  {
   "property": "C13",
   "status": "proved",
   "theorems": [
    "C13_contained_text",
    "C13_contained_bytes"
   ],
   "note": ""
  },
  {
   "property": "C14",
   "status": "proved",
   "theorems": [
    "C14_clumps_carry_changes"
   ],
   "note": ""
  },
  {
   "property": "C15",
   "status": "proved",
   "theorems": [
    "C15_clumps_spread"
   ],
   "note": ""
  },
  {
   "property": "C16",
   "status": "proved",
   "theorems": [
    "C16_context_limits"
   ],
   "note": ""
  },
  {
   "property": "C17",
   "status": "partial",
   "theorems": [
    "C17_first_change_partial",
    "C17_accessors_refuted",
    "C17_accessors_partial"
   ],
   "note": "ChangeClump::before_end uses first() instead of last(): refuted; the other accessors and the ranges are proved."
  },
  {
   "property": "C18",
   "status": "partial",
   "theorems": [
    "C18_patch_gives_new_refuted",
    "C18_patch_gives_new_partial",
    "C18_patch_file_partial",
    "C18_patch_nearly_new_partial"
   ],
   "note": "False in general because changes can be overlooked (C10). Proved under faithfulness of the change list or absence of isolated mismatches; for all texts, that the result differs from the new text at most by lines different from their old counterparts in isolation. C20 gives the exact result always."
  },
  {
   "property": "C19",
   "status": "partial",
   "theorems": [
    "C19_reverse_gives_old_refuted",
    "C19_reverse_gives_old_partial",
    "C19_reverse_nearly_old_partial"
   ],
   "note": "As C18, in reverse."
  },
  {
   "property": "C20",
   "status": "proved",
   "theorems": [
    "C20_own_text",
    "C20_own_text_exact"
   ],
   "note": ""
  },
  {
   "property": "C21",
   "status": "proved",
   "theorems": [
    "C21_already_applied"
   ],
   "note": ""
  },
  {
   "property": "C22",
   "status": "partial",
   "theorems": [
    "C22_reapply_refuted",
    "C22_reapply_panics_refuted",
    "C22_reapply_partial"
   ],
   "note": "False: an addition is applied again, and re-applying can panic. Proved when no clump fits the new text."
  },
  {
   "property": "C23",
   "status": "proved",
   "theorems": [
    "C23_all_accounted"
   ],
   "note": ""
  },
  {
   "property": "C24",
   "status": "proved",
   "theorems": [
    "C24_decision",
    "C24_decision_unique"
   ],
   "note": ""
  },
  {
   "property": "C25",
   "status": "proved",
   "theorems": [
    "C25_nearest",
    "C25_nearest_reverse",
    "C25_nearest_unique"
   ],
   "note": ""
  },
  {
   "property": "C26",
   "status": "partial",
   "theorems": [
    "C26_reduced_lines_refuted",
    "C26_reduced_lines_panic_refuted",
    "C26_reduced_lines_partial",
    "C26_no_reduction"
   ],
   "note": "False: positions of the after file index the clump's own lines, giving wrong lines or a panic. Exact behaviour proved for every clump and reduction."
  },
  {
   "property": "C27",
   "status": "partial",
   "theorems": [
    "C27_no_panic_refuted",
    "C27_no_panic_debug_refuted",
    "C27_no_panic_partial"
   ],
   "note": "False in both build modes (witnesses). Proved for calm clumps (Spec.v)."
  },
  {
   "property": "C28",
   "status": "partial",
   "theorems": [
    "C28_nothing_lost_refuted",
    "C28_nothing_lost_partial",
    "C28_no_clump_fits_partial"
   ],
   "note": "False with reduced context (C26). Proved with the window really written, and at full strength for context <= 1 or clumps at the file start."
  },
  {
   "property": "C29",
   "status": "proved",
   "theorems": [
    "C29_write_errors"
   ],
   "note": ""
  },
  {
   "property": "C30",
   "status": "proved",
   "theorems": [
    "C30_reverse_is_swap"
   ],
   "note": ""
  },
  {
   "property": "C31",
   "status": "partial",
   "theorems": [
    "C31_patch_gives_new_bytes_refuted",
    "C31_empty_file_refuted",
    "C31_patch_gives_new_bytes_partial",
    "C31_any_context_partial",
    "C31_patch_nearly_new_partial"
   ],
   "note": "False: overlooked changes, empty file, context 0. Proved otherwise, and that what is overlooked are bytes different from their counterparts in isolation."
  },
  {
   "property": "C32",
   "status": "partial",
   "theorems": [
    "C32_reverse_gives_old_bytes_refuted",
    "C32_empty_file_refuted",
    "C32_reverse_gives_old_bytes_partial",
    "C32_reverse_nearly_old_partial"
   ],
   "note": "As C31, in reverse."
  },
  {
   "property": "C33",
   "status": "partial",
   "theorems": [
    "C33_already_applied_bytes_refuted",
    "C33_already_applied_bytes_partial"
   ],
   "note": "False for an empty file or context 0; proved otherwise."
  },
  {
   "property": "C34",
   "status": "partial",
   "theorems": [
    "C34_subsequence_refuted",
    "C34_subsequence_partial"
   ],
   "note": "False only for no items at the end position; proved to be the only exception."
  },
  {
   "property": "C35",
   "status": "proved",
   "theorems": [
    "C35_no_match"
   ],
   "note": ""
  },
  {
   "property": "C36",
   "status": "proved",
   "theorems": [
    "C36_write_errors_bytes"
   ],
   "note": ""
  },
  {
   "property": "C37",
   "status": "proved",
   "theorems": [
    "C37_kind"
   ],
   "note": ""
  },
  {
   "property": "C38",
   "status": "partial",
   "theorems": [
    "C38_pipeline_refuted",
    "C38_pipeline_partial"
   ],
   "note": "False because the generator overlooks changes (C10). Proved through JSON and both programs, forward and back, for contents without isolated mismatches (byte diffs: non-empty contents, context >= 1), when nothing fails."
  },
  {
   "property": "C39",
   "status": "proved",
   "theorems": [
    "C39_all_or_nothing",
    "C39_one_step"
   ],
   "note": ""
  },
  {
   "property": "C40",
   "status": "partial",
   "theorems": [
    "C40_failed_clump_refuted",
    "C40_not_created_refuted",
    "C40_truncated_refuted",
    "C40_failure_unchanged_partial",
    "C40_success_change_partial",
    "C40_success_remove_partial",
    "C40_create_partial"
   ],
   "note": "False: conflicts are written with status 0, and failures to create or write a new file are only logged. Proved: what a non-zero status and what status 0 guarantee in each case."
  },
  {
   "property": "C41",
   "status": "proved",
   "theorems": [
    "C41_no_overwrite"
   ],
   "note": ""
  },
  {
   "property": "C42",
   "status": "proved",
   "theorems": [
    "C42_save_load",
    "C42_save_injective",
    "C42_bad_path"
   ],
   "note": "serde and serde_json are modelled from knowledge of their behaviour (they are not part of /repo)."
  },
  {
   "property": "C43",
   "status": "proved",
   "theorems": [
    "C43_header_round_trip"
   ],
   "note": ""
  },
  {
   "property": "C44",
   "status": "partial",
   "theorems": [
    "C44_never_panics_refuted",
    "C44_long_context_refuted",
    "C44_never_panics_partial"
   ],
   "note": "False: a header announcing no lines followed by a backslash line panics in both builds; more than 255 context lines in a row panic in the debug build. Proved that these are the only ways."
  },
  {
   "property": "C45",
   "status": "partial",
   "theorems": [
    "C45_printed_refuted",
    "C45_printed_partial"
   ],
   "note": "False for the new lines of inputs with an isolated mismatch (C10). Everything else in the statement is proved for all inputs."
  },
  {
   "property": "C46",
   "status": "partial",
   "theorems": [
    "C46_print_parse_refuted",
    "C46_debug_refuted",
    "C46_print_parse_partial"
   ],
   "note": "False: parsed lines keep their marker column, and the debug build can panic with more than 128 lines of context. Proved exactly what is returned otherwise."
  },
  {
   "property": "C47",
   "status": "partial",
   "theorems": [
    "C47_lengths_refuted",
    "C47_lengths_partial"
   ],
   "note": "False: one side can have more lines than announced. Proved: never fewer, at least one side exact, and which lines they are."
  },
  {
   "property": "C48",
   "status": "proved",
   "theorems": [
    "C48_trim_split",
    "C48_grow"
   ],
   "note": ""
  },
  {
   "property": "C49",
   "status": "proved",
   "theorems": [
    "C49_snippets"
   ],
   "note": ""
  },
  {
   "property": "C50",
   "status": "partial",
   "theorems": [
    "C50_displaced_refuted",
    "C50_displaced_partial"
   ],
   "note": "False when nothing follows the clump's changed lines; proved otherwise."
  },
  {
   "property": "C51",
   "status": "partial",
   "theorems": [
    "C51_no_panic_bytes_refuted",
    "C51_no_panic_bytes_partial"
   ],
   "note": "False: a clump seen as already applied and an overlapping applied one consume too much. Proved if no clump is merely already applied."
  },
  {
   "property": "C52",
   "status": "partial",
   "theorems": [
    "C52_reapply_bytes_refuted",
    "C52_reapply_bytes_partial"
   ],
   "note": "False (a repeated byte is added again). Proved for data to which no clump applies."
  },
  {
   "property": "C53",
   "status": "proved",
   "theorems": [
    "C53_reverse_is_swap_bytes"
   ],
   "note": ""
  },
  {
   "property": "C54",
   "status": "proved",
   "theorems": [
    "C54_terminates",
    "C54_rounds_irrelevant"
   ],
   "note": ""
  },
  {
   "property": "C55",
   "status": "partial",
   "theorems": [
    "C55_search_length_refuted",
    "C55_search_length_partial"
   ],
   "note": "False: the search counts down from the position in the patch, however far outside the text (2^61 rounds for a one-line text). Proved for positions within the text."
  },
  {
   "property": "C56",
   "status": "proved",
   "theorems": [
    "C56_truncated",
    "C56_trailing"
   ],
   "note": ""
  },
  {
   "property": "C57",
   "status": "proved",
   "theorems": [
    "C57_load"
   ],
   "note": ""
  },
  {
   "property": "C58",
   "status": "proved",
   "theorems": [
    "C58_only_target"
   ],
   "note": ""
  },
  {
   "property": "C59",
   "status": "partial",
   "theorems": [
    "C59_temp_removed_refuted",
    "C59_temp_removed_partial",
    "C59_temp_removed_after_panic_partial"
   ],
   "note": "False: process::exit after a failed write or rename leaves the temporary file. Proved after success and after a panic, and that a file of that name is never touched."
  },
  {
   "property": "C60",
   "status": "partial",
   "theorems": [
    "C60_creation_atomic_refuted",
    "C60_creation_partial"
   ],
   "note": "False: the file is created under its own name and then filled. Proved that it always holds a beginning of the content."
  },
  {
   "property": "C61",
   "status": "partial",
   "theorems": [
    "C61_mode_kept_refuted",
    "C61_mode_partial"
   ],
   "note": "False: the target is replaced by a new file with default permissions. Proved that no other file's mode and no unreplaced target's mode changes."
  },
  {
   "property": "C62",
   "status": "partial",
   "theorems": [
    "C62_output_complete_refuted",
    "C62_output_complete_partial"
   ],
   "note": "False: the closing brace is written when the process ends, where errors are ignored. Proved that at most this byte is missing, and that the patch tool rejects such output."
  },
  {
   "property": "C63",
   "status": "proved",
   "theorems": [
    "C63_diff_reads_only"
   ],
   "note": ""
  },
  {
   "property": "C64",
   "status": "partial",
   "theorems": [
    "C64_absence_refuted",
    "C64_recorded_content_partial"
   ],
   "note": "False: Path::exists answers false when it fails. Proved that what a diff records is the actual content, whatever fails."
  },
  {
   "property": "C65",
   "status": "proved",
   "theorems": [
    "C65_ends"
   ],
   "note": ""
  },
  {
   "property": "C66",
   "status": "proved",
   "theorems": [
    "C66_header_exact"
   ],
   "note": "The regex crate is modelled from knowledge of its behaviour; the table of digits beyond ASCII is a parameter."
  },
  {
   "property": "C67",
   "status": "partial",
   "theorems": [
    "C67_file_header_refuted",
    "C67_file_header_partial"
   ],
   "note": "False for names with blanks and for names at the end of the input. Proved the exact result for every line."
  },
  {
   "property": "C68",
   "status": "partial",
   "theorems": [
    "C68_no_newline_refuted",
    "C68_no_newline_partial"
   ],
   "note": "False in three ways when the last line has no newline. Proved for the remaining cases."
  },
  {
   "property": "C69",
   "status": "proved",
   "theorems": [
    "C69_parse_exact",
    "C69_builds"
   ],
   "note": ""
  },
  {
   "property": "C70",
   "status": "partial",
   "theorems": [
    "C70_positions_refuted",
    "C70_positions_partial"
   ],
   "note": "False: positions are counted from 0. Proved exactly which numbers are printed."
  },
  {
   "property": "C71",
   "status": "proved",
   "theorems": [
    "C71_nothing_in_common"
   ],
   "note": ""
  },
  {
   "property": "C72",
   "status": "proved",
   "theorems": [
    "C72_changes_exact"
   ],
   "note": ""
  },
  {
   "property": "C73",
   "status": "proved",
   "theorems": [
    "C73_outcome",
    "C73_outcome_reverse"
   ],
   "note": ""
  },
  {
   "property": "C74",
   "status": "proved",
   "theorems": [
    "C74_query",
    "C74_query_reverse"
   ],
   "note": ""
  },
  {
   "property": "C75",
   "status": "proved",
   "theorems": [
    "C75_byte_outcome",
    "C75_overlap_panics"
   ],
   "note": ""
  },
  {
   "property": "C76",
   "status": "proved",
   "theorems": [
    "C76_snippet_write_text",
    "C76_snippet_write_bytes"
   ],
   "note": ""
  },
  {
   "property": "C77",
   "status": "partial",
   "theorems": [
    "C77_adjusted_refuted",
    "C77_adjusted_partial",
    "C77_range"
   ],
   "note": "False in release builds: too few items give a length near 2^64, and a start beyond the machine word wraps. Proved the exact value for every input, which also says when it is right."
  },
  {
   "property": "C78",
   "status": "proved",
   "theorems": [
    "C78_all_from"
   ],
   "note": ""
  },
  {
   "property": "C79",
   "status": "proved",
   "theorems": [
    "C79_accepts",
    "C79_rejects",
    "C79_one_tree",
    "C79_unambiguous"
   ],
   "note": ""
  },
  {
   "property": "C80",
   "status": "proved",
   "theorems": [
    "C80_saved",
    "C80_unique"
   ],
   "note": ""
  },
  {
   "property": "C81",
   "status": "proved",
   "theorems": [
    "C81_change_positions"
   ],
   "note": ""
  },
  {
   "property": "C82",
   "status": "proved",
   "theorems": [
    "C82_positions",
    "C82_lines"
   ],
   "note": ""
  },
  {
   "property": "C83",
   "status": "proved",
   "theorems": [
    "C83_text",
    "C83_text_reverse",
    "C83_bytes",
    "C83_queries",
    "C83_queries_exact",
    "C83_byte_queries",
    "C83_nothing_else"
   ],
   "note": ""
  },
  {
   "property": "C84",
   "status": "partial",
   "theorems": [
    "C84_failure_told_refuted",
    "C84_byte_failure_told_refuted",
    "C84_statistics_shown_partial"
   ],
   "note": "False: messages about clumps come from the library, which stderrlog filters out, and the status is 0; for bytes nothing tells at any verbosity. Proved that for text the statistics shown with -vv count the failures exactly."
  },
  {
   "property": "C85",
   "status": "proved",
   "theorems": [
    "C85_error_shown",
    "C85_diff_error_shown",
    "C85_levels",
    "C85_diff_silent",
    "C85_creation"
   ],
   "note": ""
  },
  {
   "property": "C86",
   "status": "proved",
   "theorems": [
    "C86_run",
    "C86_determined",
    "C86_shown"
   ],
   "note": ""
  },
  {
   "property": "C87",
   "status": "proved",
   "theorems": [
    "C87_run",
    "C87_determined"
   ],
   "note": ""
  },
  {
   "property": "C88",
   "status": "proved",
   "theorems": [
    "C88_accepts",
    "C88_rejects",
    "C88_saved",
    "C88_wrapped",
    "C88_not_both"
   ],
   "note": ""
  },
  {
   "property": "C89",
   "status": "partial",
   "theorems": [
    "C89_kinds_refuted",
    "C89_kinds_partial"
   ],
   "note": "False: a byte change without clumps (equal files) is accepted as a text change, the field \"compressed\" being ignored. Proved exactly when that happens, and that the other direction never does."
  },
  {
   "property": "C90",
   "status": "proved",
   "theorems": [
    "C90_undo_text"
   ],
   "note": ""
  },
  {
   "property": "C91",
   "status": "partial",
   "theorems": [
    "C91_undo_bytes_refuted",
    "C91_undo_no_context_refuted",
    "C91_undo_bytes_partial",
    "C91_undo_any_context_partial"
   ],
   "note": "False: nothing is put back into an empty file, nor at the end without context. Proved otherwise, whatever the generator overlooks."
  },
  {
   "property": "C92",
   "status": "partial",
   "theorems": [
    "C92_undo_files_refuted",
    "C92_undo_files_partial"
   ],
   "note": "False for a binary file emptied by the patch, or without context (C91). Proved for all other files, through JSON and both programs, when nothing fails."
  },
  {
   "property": "C93",
   "status": "partial",
   "theorems": [
    "C93_merge_refuted",
    "C93_merge_partial",
    "C93_merge_any_partial",
    "C93_merge_file_partial"
   ],
   "note": "False when a clump that is not the last has moved forward by 2*lead + trail + (lines up to the next clump) or more, or when nothing follows the changed lines of the last one. Proved within that reach, for any patch, text and direction, and for the patch tool."
  },
  {
   "property": "C94",
   "status": "proved",
   "theorems": [
    "C94_undo_merge"
   ],
   "note": ""
  },
  {
   "property": "C95",
   "status": "partial",
   "theorems": [
    "C95_commute_refuted",
    "C95_commute_partial",
    "C95_commute_files_partial"
   ],
   "note": "False when one patch adds as many lines in front of a clump of the other as C93 allows at most. Proved below that, for any interleaving of the clumps, on texts and for the patch tool on files."
  },
  {
   "property": "C96",
   "status": "partial",
   "theorems": [
    "C96_confined_refuted",
    "C96_reach",
    "C96_confined_partial"
   ],
   "note": "False: the path in the patch is used as it is, so a patch can delete any file and create one at any (Unicode) path that is free. Proved below that: when the path named in the patch does not lead out, nothing outside is touched at any moment."
  },
  {
   "property": "C97",
   "status": "proved",
   "theorems": [
    "C97_diff",
    "C97_patch",
    "C97_diff_program",
    "C97_patch_program",
    "C97_exclusive",
    "C97_any_path",
    "C97_diff_run",
    "C97_patch_run"
   ],
   "note": ""
  },
  {
   "property": "C98",
   "status": "partial",
   "theorems": [
    "C98_alone",
    "C98_all_kept_refuted",
    "C98_some_kept_partial",
    "C98_states",
    "C98_apart"
   ],
   "note": "False: of two runs that read a file before either replaces it, one loses its changes although both report success. Proved below that: at every moment every file holds the result of some of the patches to it, one after the other, each once and completely and none of a run that failed; each run that reports success has put its result in place at some moment; runs on different files do not disturb each other; a run by itself is the one of the other claims."
  },
  {
   "property": "C99",
   "status": "partial",
   "theorems": [
    "C99_symbolic_link_refuted",
    "C99_hard_link_refuted",
    "C99_change_partial",
    "C99_remove",
    "C99_add",
    "C99_calm",
    "C99_linkless"
   ],
   "note": "False for changes: the path becomes the name of a new file, so a symbolic link is lost and the file keeps its old content under its other names, with status 0. Proved below that, for changes: all files there were keep content and mode and all other names stay, at every moment; the path is what it was or the name of a new file with the complete result of the patch on what was found through the links, the latter at the end exactly if the run reports success. Where nothing fails, whatever can be patched, removed or added is. The statements on removal, addition and systems without links are proved in full."
  },
  {
   "property": "C100",
   "status": "proved",
   "theorems": [
    "C100_only_equality",
    "C100_renaming"
   ],
   "note": ""
  },
  {
   "property": "C101",
   "status": "partial",
   "theorems": [
    "C101_exchange_refuted",
    "C101_exchange_bytes_refuted",
    "C101_exchange_partial"
   ],
   "note": "False if there are several longest common blocks to choose from: which one is kept depends on the order. Proved below for all inputs where at no step there are two (Spec_Shape.untied), for the changes and, with any context, for the clumps."
  },
  {
   "property": "C102",
   "status": "partial",
   "theorems": [
    "C102_minimal_refuted",
    "C102_maximal_partial"
   ],
   "note": "False by any amount: for every n there are texts with a common subsequence of n lines of which one line is kept, because the longest block of adjacent lines is taken first. Proved below that a block as long as the longest common block is kept, and that every pair of equal lines is kept or crosses a kept one, so that nothing can be added to what is kept."
  },
  {
   "property": "C103",
   "status": "partial",
   "theorems": [
    "C103_any_context_refuted",
    "C103_result",
    "C103_result_bytes_partial",
    "C103_more_context_partial",
    "C103_enough_context_partial"
   ],
   "note": "False: a change the generator overlooks is carried out if it lies in the context of another change, so the result depends on the context. Proved below: exactly which lines the result has, for every context and both directions (bytes: with context and a file that is not empty); that a line right with some context is right with more; and that a context as long as the longest unchanged block gives exactly the new text."
  },
  {
   "property": "C104",
   "status": "partial",
   "theorems": [
    "C104_selection",
    "C104_lines",
    "C104_selection_bytes_refuted",
    "C104_selection_bytes_partial"
   ],
   "note": "Proved in full for texts. For bytes proved for selections of clumps that start before the end of the file; a clump at the very end is never found (C31)."
  },
  {
   "property": "C105",
   "status": "partial",
   "theorems": [
    "C105_in_parts_refuted",
    "C105_in_parts_partial",
    "C105_last_first_partial",
    "C105_bytes_partial"
   ],
   "note": "False: the clumps applied first may move the places of the others, which are then found elsewhere in a text that repeats itself. Proved below, in both directions, if the clumps applied first put in as many lines as they take out or come after all the others, and for bytes likewise."
  },
  {
   "property": "C106",
   "status": "proved",
   "theorems": [
    "C106_content",
    "C106_saved",
    "C106_output"
   ],
   "note": ""
  },
  {
   "property": "C107",
   "status": "partial",
   "theorems": [
    "C107_refuted",
    "C107_partial",
    "C107_apart",
    "C107_search"
   ],
   "note": "False for every constant: m equal lines against m times that line and two others take at least m*m*(m+1)/2 rounds, since every search visits all pairs of equal lines again. Proved below: with at most r occurrences of each line in the old sequence, at most the shorter length times (1 + the new length times (r + 3)); r can always be the old length. Counted are rounds of loops and comparisons in the search, not the time of hash table look-ups, of sorting or of merging."
  },
  {
   "property": "C108",
   "status": "partial",
   "theorems": [
    "C108_series_refuted",
    "C108_series_partial",
    "C108_undo",
    "C108_undo_order_refuted",
    "C108_bytes_partial"
   ],
   "note": "False: what one diff overlooks (C10) is missing when the next is applied. Proved below if no step changes a single line between unchanged ones (bytes: with context and without empty versions); and for all texts that patches each made from the text as it is can be undone in reverse order. Undoing in another order may fail."
  },
  {
   "property": "C109",
   "status": "partial",
   "theorems": [
    "C109_alone",
    "C109_one_moment_refuted",
    "C109_kind_refuted",
    "C109_contents_partial",
    "C109_patched_partial",
    "C109_one_moment_partial"
   ],
   "note": "False: the second file is read after the first, and the reading as bytes comes after the attempt to read a text. Proved below: for any changes whatsoever, the diff describes the first file at one moment and the second at one not before it; with runs of the patch tool, each content is the result of complete patches; if at most one of two texts is being patched, there is such a moment. A file is read as it was when it was opened, since the patch tool replaces files by renaming."
  },
  {
   "property": "C110",
   "status": "partial",
   "theorems": [
    "C110_again_refuted",
    "C110_panic_refuted",
    "C110_text_partial",
    "C110_bytes_partial",
    "C110_create_partial",
    "C110_remove_partial"
   ],
   "note": "False: a clump may fit the new content as well and is then applied again, or the search for it panics. Proved below: the content stays if no clump fits the new text, even with reduced context (bytes: if no clump's old bytes are at their place); creations and removals are not repeated."
  },
  {
   "property": "C111",
   "status": "partial",
   "theorems": [
    "C111_same",
    "C111_work_refuted",
    "C111_work_partial",
    "C111_diff_partial",
    "C111_own_text",
    "C111_search"
   ],
   "note": "False: a clump of one line makes the search take as many rounds as the line number it states, below 2^60 in the proof. Proved below: for hunks within the first m lines and with at most k lines of context, and a text of t lines, at most 2 * ((k + 1) + (t + m + k + 3) * (2 k + 3)) for each hunk; for saved diffs m is the length of the longer of the two texts. What one comparison takes is not counted."
  },
  {
   "property": "C112",
   "status": "proved",
   "theorems": [
    "C112_pieces",
    "C112_bytes",
    "C112_utf8",
    "C112_file"
   ],
   "note": ""
  },
  {
   "property": "C113",
   "status": "proved",
   "theorems": [
    "C113_text",
    "C113_bytes",
    "C113_file"
   ],
   "note": ""
  },
  {
   "property": "C114",
   "status": "partial",
   "theorems": [
    "C114_lines_refuted",
    "C114_place_refuted",
    "C114_lines_partial",
    "C114_top_partial",
    "C114_reverse_partial"
   ],
   "note": "False in both respects: a last line without newline is followed by the mark on the same line, and the conflict is written right after what the previous clumps made of the target, which can be far in front of the place of the clump. Proved: if all lines end in a newline, the lines written are one piece for every clump, in order, and then the rest of the target, and the piece of a rejected clump is exactly its conflict; if all clumps are rejected, all conflicts are in front of the target."
  },
  {
   "property": "C115",
   "status": "proved",
   "theorems": [
    "C115_same",
    "C115_work",
    "C115_data",
    "C115_exact",
    "C115_stops",
    "C115_total",
    "C115_query"
   ],
   "note": ""
  },
  {
   "property": "C116",
   "status": "partial",
   "theorems": [
    "C116_query_refuted",
    "C116_text_partial",
    "C116_bytes_partial"
   ],
   "note": "The part about the query is false: applying looks for old lines first, so a patch that has been applied can be applied again (b = x, a = x x). The parts about the statistics and about bytes are proved."
  },
  {
   "property": "C117",
   "status": "proved",
   "theorems": [
    "C117_text",
    "C117_query",
    "C117_bytes",
    "C117_unified",
    "C117_program",
    "C117_files",
    "C117_panics"
   ],
   "note": ""
  },
  {
   "property": "C118",
   "status": "partial",
   "theorems": [
    "C118_same_result_refuted",
    "C118_clean_partial",
    "C118_same_result_partial",
    "C118_bytes_partial",
    "C118_bytes_reverse_partial",
    "C118_file_partial"
   ],
   "note": "False only in the last part: a change the generator overlooks is carried out if it lies in the context of another change, so the results may differ. Proved below: the diff with less context applies with every clump in its place (any text, both directions, both builds), what the result is, and that it is the same if every line left out of the clumps with less context but not of those with more is the same in both texts. Bytes: for clumps with at least one old byte. In either direction for bytes too, and for the patch tool with two saved text diffs."
  },
  {
   "property": "C119",
   "status": "partial",
   "theorems": [
    "C119_end_refuted",
    "C119_partial"
   ],
   "note": "False: a clump without old bytes at the end of the data (no context, or empty data) is not found (has_subsequence_at wants a start before the end) and its new bytes are lost without a sign. Proved below: exactly the clumps that start before the end are applied, for every context, all data and both directions; with the new bytes of the others added at the end the result is the one told by C103; there are no others with context and data that are not empty."
  },
  {
   "property": "C120",
   "status": "proved",
   "theorems": [
    "C120",
    "C120_needed"
   ],
   "note": ""
  },
  {
   "property": "C121",
   "status": "partial",
   "theorems": [
    "C121_removed_refuted",
    "C121_created_refuted",
    "C121_removed_partial",
    "C121_apart",
    "C121_removed_once",
    "C121_created_partial"
   ],
   "note": "False in both respects: a change that has read the file before it is removed puts it back, and a creation that fails is only logged. Proved: with changes and removals, every file is at every moment gone, removed by a run that did not fail, or the result of some complete changes, and each success has had its effect at some moment; runs on different files do not disturb each other; of several runs that remove a file exactly one reports success; of several that create a file one alone has written to it, completely if nothing fails. Runs that create and runs that change or remove the same file are mixed in C129."
  },
  {
   "property": "C122",
   "status": "partial",
   "theorems": [
    "C122_torn_refuted",
    "C122_lost_refuted",
    "C122_torn_partial",
    "C122_ordered_partial",
    "C122_others_partial"
   ],
   "note": "False in both parts, since nothing is ever synced: after a successful run the name may be that of the new file with any content, or nothing of the run may be on the disk. Proved, whatever fails: all files there were and all names but the target and the temporary file are as they were, and the target is what it was or - only for a run that succeeds - the name of a new file; on systems that write contents before names with the complete result. Removals: gone or as it was; creations: not there or new, with a beginning of the content on such systems."
  },
  {
   "property": "C123",
   "status": "partial",
   "theorems": [
    "C123_one_change_refuted",
    "C123_one_change_partial",
    "C123_one_clump_partial",
    "C123_in_order"
   ],
   "note": "False in general: a line replaced by another gives no change at all, and two new lines inserted between repeated ones give an insertion elsewhere and a removal. Proved: one change exactly at the place and one clump, if the removed lines are not in the new text nor the inserted in the old, no single differing pair is between equal ones, and (unless lines are replaced) the part after the place is not longer than the one before it or occurs nowhere else. The last part (common items in order) is proved without other conditions than the second of these."
  },
  {
   "property": "C124",
   "status": "partial",
   "theorems": [
    "C124_names_file_refuted",
    "C124_told_apart_partial",
    "C124_all_said",
    "C124_one_line"
   ],
   "note": "The first part is false of pw_diff: its message is the same whichever of the two files cannot be read. The other parts are proved; of the text of an error itself nothing is said."
  },
  {
   "property": "C125",
   "status": "proved",
   "theorems": [
    "C125_grouped",
    "C125_text",
    "C125_bytes"
   ],
   "note": ""
  },
  {
   "property": "C126",
   "status": "proved",
   "theorems": [
    "C126_diff",
    "C126_patch"
   ],
   "note": ""
  },
  {
   "property": "C127",
   "status": "partial",
   "theorems": [
    "C127_carried_refuted",
    "C127_complete_refuted",
    "C127_carried_partial",
    "C127_determined"
   ],
   "note": "False: positions are counted from 0 (C70), and changes the generator overlooks (C10) are not printed. Proved with positions counted from 0: for any two texts the clumps can be carried out, and whatever the context they give one and the same text, the second one except for lines that differ in isolation; without such lines, the second one. Determinacy and undoing are proved for both ways of counting."
  },
  {
   "property": "C128",
   "status": "partial",
   "theorems": [
    "C128_every_other",
    "C128_bounded_refuted",
    "C128_half",
    "C128_patched_half",
    "C128_patched_half_bytes_partial"
   ],
   "note": "The first part is false by any amount: two texts of 2n+1 lines with n differing lines have an empty diff whenever every other line is the same and they have no other line in common. The second part is proved: at most half of what is reported as unchanged, and at most half of the lines of a patched text (bytes: with context and data that are not empty), whatever the context."
  },
  {
   "property": "C129",
   "status": "partial",
   "theorems": [
    "C129_serial_refuted",
    "C129_serial_partial",
    "C129_apart",
    "C129_alone"
   ],
   "note": "False: a creation makes the file first and fills it then; a change that reads it in between replaces it by the result on the beginning, the rest is written to the file that has no name any more, and both report success. Proved: with runs of all kinds at the same time, files that were there at the start keep their content and other names stay; a target is at every moment what it was, gone by a removal, or has what some complete changes have made of what was there or of a beginning of what is created; failed runs leave no trace there, and each success of a change or removal has had its effect at some moment. Runs on different names end as they would alone, and a run alone is the run of C99."
  },
  {
   "property": "C130",
   "status": "partial",
   "theorems": [
    "C130_numbers_refuted",
    "C130_text_partial",
    "C130_bytes_partial",
    "C130_queries_partial",
    "C130_debug"
   ],
   "note": "False: the number is an i32, so with 2^31 clumps a debug build panics where the patch would be applied, and a release build shows negative numbers. Proved: with fewer than 2^31 clumps it makes no difference, in release builds none apart from the numbers shown (which are the true ones modulo 2^32), and in debug builds an otherwise successful run panics after exactly 2^31 - 1 clumps, each reported with its number."
  },
  {
   "property": "C131",
   "status": "partial",
   "theorems": [
    "C131_lines_refuted",
    "C131_no_context_refuted",
    "C131_own_text",
    "C131_lines_partial",
    "C131_diff_partial"
   ],
   "note": "False: a diff that removes the newline at the end of a text joins two lines of a target that goes on after it; without context a line added at the end is put right behind a last line without newline. Proved: on the text the patch was made for, any context, both directions (and the result ends in a newline exactly if the new text does); on any target for every patch whose hunks have old lines and whose new lines end in newlines; hence for diffs with context when the old text is not empty and the new one ends in a newline."
  },
  {
   "property": "C132",
   "status": "partial",
   "theorems": [
    "C132_crlf_refuted",
    "C132_apply",
    "C132_diff",
    "C132_crlf_partial",
    "C132_bytes"
   ],
   "note": "False for texts with a conflict: its marks are always written with a newline alone. Proved: for any replacement of lines that keeps different lines different, the diff is the diff with its lines replaced, and applying any clumps to any target takes the same decisions, ends the same way and writes the same pieces with the lines replaced, marks apart; hence converting line ends converts the result when no clump failed. For bytes in full."
  },
  {
   "property": "C133",
   "status": "partial",
   "theorems": [
    "C133_reread_refuted",
    "C133_last_line_refuted",
    "C133_reread_partial"
   ],
   "note": "False for texts without a newline at the end: a line printed behind the unterminated one is joined to it, and an unterminated context line gets a newline on the new side. Proved for diffs in whose clumps all printed lines end in newlines, as they do for texts whose lines do, or all but the last, which is an old or new line not ending in a blank (debug builds: at most 128 lines of context): the whole file is read in exactly one way, the clumps have the printed lines, and carried out (positions counted from 0) they give the second text except for overlooked lines."
  },
  {
   "property": "C134",
   "status": "partial",
   "theorems": [
    "C134_behind_refuted",
    "C134_bytes_refuted",
    "C134_behind_partial",
    "C134_elsewhere_partial",
    "C134_foreign",
    "C134_bytes_partial",
    "C134_query"
   ],
   "note": "False for a displaced clump, which may be found among the lines added, and for a byte clump without old bytes at the end. Proved for any clumps and texts if all clumps are found where they are expected; and for every run that comes to an end, whatever becomes of the clumps, if they have context and the lines added make no new place for them, as when none of these is a line of the patch."
  },
  {
   "property": "C135",
   "status": "partial",
   "theorems": [
    "C135_read_refuted",
    "C135_count_refuted",
    "C135_reading",
    "C135_read_partial",
    "C135_read_reverse_partial",
    "C135_file_partial"
   ],
   "note": "False if the patch has the marks among its lines (a diff that resolves a conflict), if the text has them (an earlier conflict), or if a line has no newline (C114). Proved for whole lines none of which is a mark, in both directions and builds and for the patch tool; reading is unique for any text."
  },
  {
   "property": "C136",
   "status": "partial",
   "theorems": [
    "C136_closer_refuted",
    "C136_again_refuted",
    "C136_closer_partial",
    "C136_closer_bytes_partial"
   ],
   "note": "Both parts are false, with the context of 3 lines of the programs. Proved if no line (byte) of the old text stands at another place of the new one: every wrong line of the patched text was wrong before, in both directions and builds."
  },
  {
   "property": "C137",
   "status": "partial",
   "theorems": [
    "C137_arrives_refuted",
    "C137_ends_partial"
   ],
   "note": "That the last round leaves the new text is false. That there is a last round is proved if no line of the old text stands at another place of the new one and the new lines are all different: at most half as many rounds as lines, and one. In general it is open: patching can make more lines wrong (C136), but no endless sequence is known."
  },
  {
   "property": "C138",
   "status": "partial",
   "theorems": [
    "C138_moved_refuted",
    "C138_hidden_refuted",
    "C138_without_partial",
    "C138_without_reverse_partial",
    "C138_one_partial",
    "C138_bytes"
   ],
   "note": "False for texts: a rejected hunk limits the search for the one before it. Proved if every hunk before a rejected one was found where expected or rejected (all rejected hunks taken out at once), or if the hunk before the one taken out was found where expected. For bytes it holds without restriction."
  },
  {
   "property": "C139",
   "status": "partial",
   "theorems": [
    "C139_taken_refuted",
    "C139_twice_refuted",
    "C139_taken_partial",
    "C139_taken_reverse_partial",
    "C139_diff_partial",
    "C139_bytes_refuted",
    "C139_bytes_partial",
    "C139_bytes_reverse_partial"
   ],
   "note": "False if an earlier clump is already there, or for clumps that overlap. Proved for every patch if no clump was found in a part dealt with before, in particular if the old lines of every clump begin behind the lines of the earlier ones, or no clump was already there."
  },
  {
   "property": "C140",
   "status": "partial",
   "theorems": [
    "C140_completed_refuted",
    "C140_again_refuted",
    "C140_completed_partial",
    "C140_completed_reverse_partial",
    "C140_both_ways_partial",
    "C140_bytes_refuted",
    "C140_bytes_partial",
    "C140_bytes_reverse_partial",
    "C140_bytes_moved_partial",
    "C140_bytes_moved_reverse_partial",
    "C140_bytes_both_ways_partial",
    "C140_file_partial",
    "C140_file_moved_partial",
    "C140_bytes_file_partial",
    "C140_bytes_file_moved_partial"
   ],
   "note": "False if a clump that was put in moves the lines behind it: the place expected for the next one is wrong and may fit. Proved if every clump put in stands where the new text has it, every other where the old text has it, and the old lines of those put in are found nowhere any more (bytes: not at their old place, and every clump has old bytes)."
  }
 ]
}