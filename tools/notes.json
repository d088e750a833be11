{
 "C06": "False as stated: the trailing extension (changes.rs:193-206) skips a mismatching item. The block is proved common except for such isolated mismatches, and common if the input has none.",
 "C10": "False as stated because of changes.rs:193-206; proved that an unchanged block differs at most by isolated mismatches, and not at all without them in the input.",
 "C11": "First half (equal inputs give an empty diff) proved; second half false (an isolated changed line gives an empty diff), proved without isolated mismatches.",
 "C17": "ChangeClump::before_end uses first() instead of last(): refuted; the other accessors and the ranges are proved.",
 "C18": "False in general because changes can be overlooked (C10). Proved under faithfulness of the change list or absence of isolated mismatches; for all texts, that the result differs from the new text at most by lines different from their old counterparts in isolation. C20 gives the exact result always.",
 "C19": "As C18, in reverse.",
 "C22": "False: an addition is applied again, and re-applying can panic. Proved when no clump fits the new text.",
 "C26": "False: positions of the after file index the clump's own lines, giving wrong lines or a panic. Exact behaviour proved for every clump and reduction.",
 "C27": "False in both build modes (witnesses). Proved for calm clumps (Spec.v).",
 "C28": "False with reduced context (C26). Proved with the window really written, and at full strength for context <= 1 or clumps at the file start.",
 "C31": "False: overlooked changes, empty file, context 0. Proved otherwise, and that what is overlooked are bytes different from their counterparts in isolation.",
 "C32": "As C31, in reverse.",
 "C33": "False for an empty file or context 0; proved otherwise.",
 "C34": "False only for no items at the end position; proved to be the only exception.",
 "C38": "False because the generator overlooks changes (C10). Proved through JSON and both programs, forward and back, for contents without isolated mismatches (byte diffs: non-empty contents, context >= 1), when nothing fails.",
 "C40": "False: conflicts are written with status 0, and failures to create or write a new file are only logged. Proved: what a non-zero status and what status 0 guarantee in each case.",
 "C42": "serde and serde_json are modelled from knowledge of their behaviour (they are not part of /repo).",
 "C44": "False: a header announcing no lines followed by a backslash line panics in both builds; more than 255 context lines in a row panic in the debug build. Proved that these are the only ways.",
 "C45": "False for the new lines of inputs with an isolated mismatch (C10). Everything else in the statement is proved for all inputs.",
 "C46": "False: parsed lines keep their marker column, and the debug build can panic with more than 128 lines of context. Proved exactly what is returned otherwise.",
 "C47": "False: one side can have more lines than announced. Proved: never fewer, at least one side exact, and which lines they are.",
 "C50": "False when nothing follows the clump's changed lines; proved otherwise.",
 "C51": "False: a clump seen as already applied and an overlapping applied one consume too much. Proved if no clump is merely already applied.",
 "C52": "False (a repeated byte is added again). Proved for data to which no clump applies.",
 "C55": "False: the search counts down from the position in the patch, however far outside the text (2^61 rounds for a one-line text). Proved for positions within the text.",
 "C59": "False: process::exit after a failed write or rename leaves the temporary file. Proved after success and after a panic, and that a file of that name is never touched.",
 "C60": "False: the file is created under its own name and then filled. Proved that it always holds a beginning of the content.",
 "C61": "False: the target is replaced by a new file with default permissions. Proved that no other file's mode and no unreplaced target's mode changes.",
 "C62": "False: the closing brace is written when the process ends, where errors are ignored. Proved that at most this byte is missing, and that the patch tool rejects such output.",
 "C64": "False: Path::exists answers false when it fails. Proved that what a diff records is the actual content, whatever fails.",
 "C66": "The regex crate is modelled from knowledge of its behaviour; the table of digits beyond ASCII is a parameter.",
 "C67": "False for names with blanks and for names at the end of the input. Proved the exact result for every line.",
 "C68": "False in three ways when the last line has no newline. Proved for the remaining cases.",
 "C70": "False: positions are counted from 0. Proved exactly which numbers are printed.",
 "C77": "False in release builds: too few items give a length near 2^64, and a start beyond the machine word wraps. Proved the exact value for every input, which also says when it is right.",
 "C84": "False: messages about clumps come from the library, which stderrlog filters out, and the status is 0; for bytes nothing tells at any verbosity. Proved that for text the statistics shown with -vv count the failures exactly.",
 "C89": "False: a byte change without clumps (equal files) is accepted as a text change, the field \"compressed\" being ignored. Proved exactly when that happens, and that the other direction never does.",
 "C91": "False: nothing is put back into an empty file, nor at the end without context. Proved otherwise, whatever the generator overlooks.",
 "C92": "False for a binary file emptied by the patch, or without context (C91). Proved for all other files, through JSON and both programs, when nothing fails.",
 "C93": "False when a clump that is not the last has moved forward by 2*lead + trail + (lines up to the next clump) or more, or when nothing follows the changed lines of the last one. Proved within that reach, for any patch, text and direction, and for the patch tool.",
 "C95": "False when one patch adds as many lines in front of a clump of the other as C93 allows at most. Proved below that, for any interleaving of the clumps, on texts and for the patch tool on files.",
 "C96": "False: the path in the patch is used as it is, so a patch can delete any file and create one at any (Unicode) path that is free. Proved below that: when the path named in the patch does not lead out, nothing outside is touched at any moment.",
 "C98": "False: of two runs that read a file before either replaces it, one loses its changes although both report success. Proved below that: at every moment every file holds the result of some of the patches to it, one after the other, each once and completely and none of a run that failed; each run that reports success has put its result in place at some moment; runs on different files do not disturb each other; a run by itself is the one of the other claims.",
 "C99": "False for changes: the path becomes the name of a new file, so a symbolic link is lost and the file keeps its old content under its other names, with status 0. Proved below that, for changes: all files there were keep content and mode and all other names stay, at every moment; the path is what it was or the name of a new file with the complete result of the patch on what was found through the links, the latter at the end exactly if the run reports success. Where nothing fails, whatever can be patched, removed or added is. The statements on removal, addition and systems without links are proved in full.",
 "C101": "False if there are several longest common blocks to choose from: which one is kept depends on the order. Proved below for all inputs where at no step there are two (Spec_Shape.untied), for the changes and, with any context, for the clumps.",
 "C102": "False by any amount: for every n there are texts with a common subsequence of n lines of which one line is kept, because the longest block of adjacent lines is taken first. Proved below that a block as long as the longest common block is kept, and that every pair of equal lines is kept or crosses a kept one, so that nothing can be added to what is kept.",
 "C103": "False: a change the generator overlooks is carried out if it lies in the context of another change, so the result depends on the context. Proved below: exactly which lines the result has, for every context and both directions (bytes: with context and a file that is not empty); that a line right with some context is right with more; and that a context as long as the longest unchanged block gives exactly the new text.",
 "C104": "Proved in full for texts. For bytes proved for selections of clumps that start before the end of the file; a clump at the very end is never found (C31).",
 "C105": "False: the clumps applied first may move the places of the others, which are then found elsewhere in a text that repeats itself. Proved below, in both directions, if the clumps applied first put in as many lines as they take out or come after all the others, and for bytes likewise.",
 "C107": "False for every constant: m equal lines against m times that line and two others take at least m*m*(m+1)/2 rounds, since every search visits all pairs of equal lines again. Proved below: with at most r occurrences of each line in the old sequence, at most the shorter length times (1 + the new length times (r + 3)); r can always be the old length. Counted are rounds of loops and comparisons in the search, not the time of hash table look-ups, of sorting or of merging.",
 "C108": "False: what one diff overlooks (C10) is missing when the next is applied. Proved below if no step changes a single line between unchanged ones (bytes: with context and without empty versions); and for all texts that patches each made from the text as it is can be undone in reverse order. Undoing in another order may fail.",
 "C109": "False: the second file is read after the first, and the reading as bytes comes after the attempt to read a text. Proved below: for any changes whatsoever, the diff describes the first file at one moment and the second at one not before it; with runs of the patch tool, each content is the result of complete patches; if at most one of two texts is being patched, there is such a moment. A file is read as it was when it was opened, since the patch tool replaces files by renaming.",
 "C110": "False: a clump may fit the new content as well and is then applied again, or the search for it panics. Proved below: the content stays if no clump fits the new text, even with reduced context (bytes: if no clump's old bytes are at their place); creations and removals are not repeated.",
 "C111": "False: a clump of one line makes the search take as many rounds as the line number it states, below 2^60 in the proof. Proved below: for hunks within the first m lines and with at most k lines of context, and a text of t lines, at most 2 * ((k + 1) + (t + m + k + 3) * (2 k + 3)) for each hunk; for saved diffs m is the length of the longer of the two texts. What one comparison takes is not counted.",
 "C114": "False in both respects: a last line without newline is followed by the mark on the same line, and the conflict is written right after what the previous clumps made of the target, which can be far in front of the place of the clump. Proved: if all lines end in a newline, the lines written are one piece for every clump, in order, and then the rest of the target, and the piece of a rejected clump is exactly its conflict; if all clumps are rejected, all conflicts are in front of the target.",
 "C116": "The part about the query is false: applying looks for old lines first, so a patch that has been applied can be applied again (b = x, a = x x). The parts about the statistics and about bytes are proved.",
 "C118": "False only in the last part: a change the generator overlooks is carried out if it lies in the context of another change, so the results may differ. Proved below: the diff with less context applies with every clump in its place (any text, both directions, both builds), what the result is, and that it is the same if every line left out of the clumps with less context but not of those with more is the same in both texts. Bytes: for clumps with at least one old byte. In either direction for bytes too, and for the patch tool with two saved text diffs.",
 "C119": "False: a clump without old bytes at the end of the data (no context, or empty data) is not found (has_subsequence_at wants a start before the end) and its new bytes are lost without a sign. Proved below: exactly the clumps that start before the end are applied, for every context, all data and both directions; with the new bytes of the others added at the end the result is the one told by C103; there are no others with context and data that are not empty.",
 "C121": "False in both respects: a change that has read the file before it is removed puts it back, and a creation that fails is only logged. Proved: with changes and removals, every file is at every moment gone, removed by a run that did not fail, or the result of some complete changes, and each success has had its effect at some moment; runs on different files do not disturb each other; of several runs that remove a file exactly one reports success; of several that create a file one alone has written to it, completely if nothing fails. Runs that create and runs that change or remove the same file are mixed in C129.",
 "C122": "False in both parts, since nothing is ever synced: after a successful run the name may be that of the new file with any content, or nothing of the run may be on the disk. Proved, whatever fails: all files there were and all names but the target and the temporary file are as they were, and the target is what it was or - only for a run that succeeds - the name of a new file; on systems that write contents before names with the complete result. Removals: gone or as it was; creations: not there or new, with a beginning of the content on such systems.",
 "C123": "False in general: a line replaced by another gives no change at all, and two new lines inserted between repeated ones give an insertion elsewhere and a removal. Proved: one change exactly at the place and one clump, if the removed lines are not in the new text nor the inserted in the old, no single differing pair is between equal ones, and (unless lines are replaced) the part after the place is not longer than the one before it or occurs nowhere else. The last part (common items in order) is proved without other conditions than the second of these.",
 "C124": "The first part is false of pw_diff: its message is the same whichever of the two files cannot be read. The other parts are proved; of the text of an error itself nothing is said.",
 "C127": "False: positions are counted from 0 (C70), and changes the generator overlooks (C10) are not printed. Proved with positions counted from 0: for any two texts the clumps can be carried out, and whatever the context they give one and the same text, the second one except for lines that differ in isolation; without such lines, the second one. Determinacy and undoing are proved for both ways of counting.",
 "C128": "The first part is false by any amount: two texts of 2n+1 lines with n differing lines have an empty diff whenever every other line is the same and they have no other line in common. The second part is proved: at most half of what is reported as unchanged, and at most half of the lines of a patched text (bytes: with context and data that are not empty), whatever the context.",
 "C129": "False: a creation makes the file first and fills it then; a change that reads it in between replaces it by the result on the beginning, the rest is written to the file that has no name any more, and both report success. Proved: with runs of all kinds at the same time, files that were there at the start keep their content and other names stay; a target is at every moment what it was, gone by a removal, or has what some complete changes have made of what was there or of a beginning of what is created; failed runs leave no trace there, and each success of a change or removal has had its effect at some moment. Runs on different names end as they would alone, and a run alone is the run of C99.",
 "C130": "False: the number is an i32, so with 2^31 clumps a debug build panics where the patch would be applied, and a release build shows negative numbers. Proved: with fewer than 2^31 clumps it makes no difference, in release builds none apart from the numbers shown (which are the true ones modulo 2^32), and in debug builds an otherwise successful run panics after exactly 2^31 - 1 clumps, each reported with its number.",
 "C131": "False: a diff that removes the newline at the end of a text joins two lines of a target that goes on after it; without context a line added at the end is put right behind a last line without newline. Proved: on the text the patch was made for, any context, both directions (and the result ends in a newline exactly if the new text does); on any target for every patch whose hunks have old lines and whose new lines end in newlines; hence for diffs with context when the old text is not empty and the new one ends in a newline.",
 "C132": "False for texts with a conflict: its marks are always written with a newline alone. Proved: for any replacement of lines that keeps different lines different, the diff is the diff with its lines replaced, and applying any clumps to any target takes the same decisions, ends the same way and writes the same pieces with the lines replaced, marks apart; hence converting line ends converts the result when no clump failed. For bytes in full.",
 "C133": "False for texts without a newline at the end: a line printed behind the unterminated one is joined to it, and an unterminated context line gets a newline on the new side. Proved for diffs in whose clumps all printed lines end in newlines, as they do for texts whose lines do, or all but the last, which is an old or new line not ending in a blank (debug builds: at most 128 lines of context): the whole file is read in exactly one way, the clumps have the printed lines, and carried out (positions counted from 0) they give the second text except for overlooked lines.",
 "C134": "False for a displaced clump, which may be found among the lines added, and for a byte clump without old bytes at the end. Proved for any clumps and texts if all clumps are found where they are expected; and for every run that comes to an end, whatever becomes of the clumps, if they have context and the lines added make no new place for them, as when none of these is a line of the patch.",
 "C135": "False if the patch has the marks among its lines (a diff that resolves a conflict), if the text has them (an earlier conflict), or if a line has no newline (C114). Proved for whole lines none of which is a mark, in both directions and builds and for the patch tool; reading is unique for any text.",
 "C136": "Both parts are false, with the context of 3 lines of the programs. Proved if no line (byte) of the old text stands at another place of the new one: every wrong line of the patched text was wrong before, in both directions and builds.",
 "C137": "That the last round leaves the new text is false. That there is a last round is proved if no line of the old text stands at another place of the new one and the new lines are all different: at most half as many rounds as lines, and one. In general it is open: patching can make more lines wrong (C136), but no endless sequence is known.",
 "C138": "False for texts: a rejected hunk limits the search for the one before it. Proved if every hunk before a rejected one was found where expected or rejected (all rejected hunks taken out at once), or if the hunk before the one taken out was found where expected. For bytes it holds without restriction.",
 "C139": "False if an earlier clump is already there, or for clumps that overlap. Proved for every patch if no clump was found in a part dealt with before, in particular if the old lines of every clump begin behind the lines of the earlier ones, or no clump was already there.",
 "C140": "False if a clump that was put in moves the lines behind it: the place expected for the next one is wrong and may fit. Proved if every clump put in stands where the new text has it, every other where the old text has it, and the old lines of those put in are found nowhere any more (bytes: not at their old place, and every clump has old bytes)."
}