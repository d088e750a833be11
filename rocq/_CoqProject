-Q theories Verif
theories/Base.v
theories/Model_Seq.v
theories/Model_Changes.v
theories/Model_IO.v
theories/Model_Text.v
theories/Model_Bytes.v
theories/Model_Json.v
theories/Model_Regex.v
theories/Model_Unified.v
theories/Model_Basics.v
theories/Model_Files.v
theories/Model_Log.v
theories/Spec.v
theories/Spec_Unified.v
theories/Spec_Files.v
theories/Proof_Seq.v
theories/Proof_Utf8.v
theories/Spec_Json.v
theories/Proof_Json.v
theories/Proof_Grammar.v
theories/Proof_Unique.v
theories/Model_Alone.v
theories/Spec_Alone.v
theories/Spec_Nearly.v
theories/Spec_Merge.v
theories/Spec_Commute.v
theories/Proof_Nearly.v
theories/Proof_Alone.v
theories/Proof_Values.v
theories/Proof_Accepts.v
theories/Proof_Saved.v
theories/Proof_Regex.v
theories/Proof_Lcs.v
theories/Proof_Changes.v
theories/Proof_Clumps.v
theories/Proof_IO.v
theories/Proof_Diff.v
theories/Proof_Arith.v
theories/Proof_Unified.v
theories/Proof_Paths.v
theories/Proof_UClump.v
theories/Proof_Text.v
theories/Proof_Nearby.v
theories/Proof_Apply.v
theories/Proof_Fuzzy.v
theories/Proof_Bytes.v
theories/Proof_Contained.v
theories/Proof_Blocks.v
theories/Model_Snippet.v
theories/Spec_Outcome.v
theories/Spec_Log.v
theories/Spec_Run.v
theories/Proof_Outcome.v
theories/Proof_Term.v
theories/Proof_Files.v
theories/Proof_Log.v
theories/Proof_LogMain.v
theories/Proof_Run.v
theories/Cases.v
theories/Tests.v
theories/Proof_Props_Gen.v
theories/Properties_Gen.v
theories/Proof_Props_Text.v
theories/Properties_Text.v
theories/Proof_Props_Bytes.v
theories/Properties_Bytes.v
theories/Proof_Props_Json.v
theories/Properties_Json.v
theories/Proof_Props_Grammar.v
theories/Properties_Grammar.v
theories/Proof_Props_Alone.v
theories/Properties_Alone.v
theories/Proof_Props_Unified.v
theories/Proof_Props_Outcome.v
theories/Properties_Unified.v
theories/Proof_Props_Basics.v
theories/Properties_Basics.v
theories/Properties_Outcome.v
theories/Proof_Props_Files.v
theories/Properties_Files.v
theories/Proof_Props_Log.v
theories/Properties_Log.v
theories/Proof_Props_Run.v
theories/Properties_Run.v
theories/Proof_Props_Undo.v
theories/Properties_Undo.v
theories/Proof_Merge.v
theories/Proof_Props_Merge.v
theories/Properties_Merge.v
theories/Proof_Commute.v
theories/Proof_Props_Commute.v
theories/Properties_Commute.v
theories/Model_Cli.v
theories/Spec_Cli.v
theories/Proof_Cli.v
theories/Proof_Props_Cli.v
theories/Properties_Cli.v
theories/Model_Conc.v
theories/Spec_Conc.v
theories/Proof_Conc.v
theories/Proof_Props_Conc.v
theories/Properties_Conc.v
theories/Model_Links.v
theories/Spec_Links.v
theories/Proof_Links.v
theories/Proof_Props_Links.v
theories/Properties_Links.v
theories/Spec_Shape.v
theories/Proof_Shape.v
theories/Proof_Props_Shape.v
theories/Properties_Shape.v
theories/Proof_Context.v
theories/Proof_Props_Context.v
theories/Properties_Context.v
theories/Proof_Select.v
theories/Proof_Props_Select.v
theories/Properties_Select.v
theories/Spec_Size.v
theories/Proof_Size.v
theories/Proof_Props_Size.v
theories/Properties_Size.v
theories/Model_Cost.v
theories/Spec_Cost.v
theories/Proof_Cost.v
theories/Proof_Props_Cost.v
theories/Properties_Cost.v
theories/Spec_Series.v
theories/Proof_Props_Series.v
theories/Properties_Series.v
theories/Model_Watch.v
theories/Spec_Watch.v
theories/Proof_Watch.v
theories/Proof_Props_Watch.v
theories/Properties_Watch.v
theories/Proof_Props_Again.v
theories/Properties_Again.v
theories/Model_Work.v
theories/Spec_Work.v
theories/Proof_Work.v
theories/Proof_Props_Work.v
theories/Properties_Work.v
theories/Spec_Result.v
theories/Proof_Result.v
theories/Proof_Weight.v
theories/Proof_Conflicts.v
theories/Proof_Props_Result.v
theories/Properties_Result.v
theories/Model_ByteWork.v
theories/Proof_ByteWork.v
theories/Proof_Props_ByteWork.v
theories/Properties_ByteWork.v
theories/Proof_Seen.v
theories/Proof_Props_Seen.v
theories/Properties_Seen.v
theories/Proof_Builds.v
theories/Proof_Props_Builds.v
theories/Properties_Builds.v
theories/Proof_Fewer.v
theories/Proof_Props_Fewer.v
theories/Properties_Fewer.v
theories/Proof_Props_Ends.v
theories/Properties_Ends.v
theories/Model_Space.v
theories/Proof_Space.v
theories/Proof_Props_Space.v
theories/Properties_Space.v
theories/Proof_Race.v
theories/Proof_Props_Race.v
theories/Properties_Race.v
theories/Spec_Power.v
theories/Proof_Props_Power.v
theories/Properties_Power.v
theories/Spec_Edit.v
theories/Proof_Edit.v
theories/Proof_Props_Edit.v
theories/Properties_Edit.v
theories/Model_Words.v
theories/Spec_Words.v
theories/Proof_Words.v
theories/Proof_Props_Words.v
theories/Properties_Words.v
theories/Spec_Group.v
theories/Proof_Group.v
theories/Proof_Props_Group.v
theories/Properties_Group.v
theories/Spec_Blind.v
theories/Proof_Blind.v
theories/Proof_Props_Blind.v
theories/Properties_Blind.v
theories/Spec_Carry.v
theories/Proof_Carry.v
theories/Proof_Props_Carry.v
theories/Properties_Carry.v
theories/Spec_Overlook.v
theories/Proof_Overlook.v
theories/Proof_Props_Overlook.v
theories/Properties_Overlook.v
theories/Model_Open.v
theories/Spec_Open.v
theories/Proof_Open.v
theories/Proof_Props_Open.v
theories/Properties_Open.v
theories/Model_Count.v
theories/Spec_Count.v
theories/Proof_Count.v
theories/Proof_Props_Count.v
theories/Properties_Count.v
theories/Proof_Lines.v
theories/Proof_Props_Lines.v
theories/Properties_Lines.v
theories/Spec_Recode.v
theories/Proof_Recode.v
theories/Proof_Props_Recode.v
theories/Properties_Recode.v
theories/Spec_Reread.v
theories/Proof_Reread.v
theories/Proof_Props_Reread.v
theories/Properties_Reread.v
theories/Spec_Behind.v
theories/Proof_Behind.v
theories/Proof_Behind2.v
theories/Proof_Props_Behind.v
theories/Properties_Behind.v
theories/Spec_Conflict.v
theories/Proof_ReadConflict.v
theories/Proof_Props_Conflict.v
theories/Properties_Conflict.v
theories/Spec_Closer.v
theories/Proof_Props_Closer.v
theories/Properties_Closer.v
theories/Spec_Rounds.v
theories/Proof_Props_Rounds.v
theories/Properties_Rounds.v
theories/Spec_Without.v
theories/Proof_Props_Without.v
theories/Properties_Without.v
theories/Spec_Taken.v
theories/Proof_Props_Taken.v
theories/Properties_Taken.v
theories/Spec_Half.v
theories/Proof_Props_Half.v
theories/Properties_Half.v
