(* Spec_Watch.v - the vocabulary for a diff made while its files are being changed. *)
From Verif Require Import Base Model_Seq Model_Changes Model_IO Model_Text Model_Bytes Model_Json Model_Files Model_Conc Spec Spec_Files Spec_Conc.

(* the moments at which the files are looked at, in the order of the states the files go through *)
Definition in_order (states : list fs) (at_ : nat -> fs) : Prop :=
  exists moment : nat -> nat, (forall n m, n <= m -> moment n <= moment m) /\ forall n, nth_error states (moment n) = Some (at_ n).
(* as [describes], with the first file as [hb] has it and the second one as [ha] has it *)
Definition describes_at (hb ha : fs) (before after : path) (context : nat) (d : diff) : Prop :=
  match d with
  | TextChange d => td_before d = before /\ td_after d = after /\ exists lb la, text_of hb before lb /\ text_of ha after la /\
      text_diff_clumps lb la context = Ok (td_clumps d)
  | ByteChange d => bd_before d = before /\ bd_after d = after /\ bd_compressed d = false /\ exists cb ca, content hb before = Some cb /\ content ha after = Some ca /\
      byte_diff_clumps cb ca context = Ok (bd_clumps d)
  | TextRemove p => pl_path p = before /\ text_of hb before (pl_lines p)
  | ByteRemove p => pb_path p = before /\ pb_compressed p = false /\ content hb before = Some (pb_bytes p)
  | TextAdd p => pl_path p = before /\ text_of ha after (pl_lines p)
  | ByteAdd p => pb_path p = before /\ pb_compressed p = false /\ content ha after = Some (pb_bytes p)
  end.
(* what [p] holds is what it held at the beginning, or what complete patches to it have made of that *)
Definition whole (f : fs) (js : list job) (p : path) (n : option node) : Prop :=
  (In p (targets js) -> exists is, after_jobs f js p is n) /\ (~ In p (targets js) -> n = f p).
