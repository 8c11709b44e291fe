(** * PropsRespan: positions move with the text. *)

From Verif Require Import Samples RespanOk.
From Verif Require Import Api Parser Layout Lex.
From Verif Require Import Respan.

(** Layout put before a text moves every place in the answer, and changes nothing else. *)
Theorem C70_checked : forall g t, gap g -> parse_dbml (g ++ t) = option_map (after g t) (parse_dbml t).
Proof. exact checked_after. Qed.
Print Assumptions C70_checked.
Theorem C70_unchecked : forall g t, gap g -> parse_dbml_unchecked (g ++ t) = option_map (after g t) (parse_dbml_unchecked t).
Proof. exact unchecked_after. Qed.
Print Assumptions C70_unchecked.

Definition lead : str := s "// x" ++ [10] ++ s " /* y */" ++ [9].
Example C70_meets_gap : gap lead.
Proof.
  unfold lead. change (gap (s "//" ++ s " x" ++ 10 :: (s " /* y */" ++ [9]))). apply gap_line; [repeat constructor; intros [H|H]; discriminate H|left; reflexivity|].
  apply gap_ws; [left; reflexivity|]. change (gap (s "/*" ++ s " y " ++ s "*/" ++ [9])). apply gap_block; [|apply gap_ws; [right; left; reflexivity|constructor]].
  intros a b H. do 4 (destruct a as [|? a]; [discriminate H|injection H as _ H]). destruct a; discriminate H.
Qed.
(** An accepted text; a broken rule, at its place; the rule without a place; a rule about the
    whole text; something that does not fit; no DBML. *)
Example C70_meets_fine : exists x, parse_dbml (s "Project p{}Table t{a int[pk]}") = Some (Ok x) /\ List.length (sb_blocks x) = 2%nat.
Proof. eexists. split; vm_compute; reflexivity. Qed.
Example C70_meets_broken :
  parse_dbml (s "Project p{}Table t{a int[pk] a int}") = Some (Err (ErSem DuplicateColumnName (29, 34))) /\
  parse_dbml (lead ++ s "Project p{}Table t{a int[pk] a int}") = Some (Err (ErSem DuplicateColumnName (43, 48))).
Proof. split; vm_compute; reflexivity. Qed.
Example C70_meets_whole :
  parse_dbml (s "Table t{a int}") = Some (Err (ErSem ProjectSettingNotFound (0, 14))) /\
  parse_dbml (lead ++ s "Table t{a int}") = Some (Err (ErSem ProjectSettingNotFound (0, 28))).
Proof. split; vm_compute; reflexivity. Qed.
Example C70_meets_nowhere : exists e,
  parse_dbml (s "Project p{}Ref:t.a>u.b") = Some (Err (ErSem e (0, 0))) /\
  parse_dbml (lead ++ s "Project p{}Ref:t.a>u.b") = Some (Err (ErSem e (0, 0))).
Proof. eexists. split; vm_compute; reflexivity. Qed.
Example C70_meets_misfit :
  parse_dbml (s "Project p{}Table t{a int[99999999999]}") = Some (Err (ErMsg (s "number too large to fit in target type") (25, 36))) /\
  parse_dbml (lead ++ s "Project p{}Table t{a int[99999999999]}") = Some (Err (ErMsg (s "number too large to fit in target type") (39, 50))).
Proof. split; vm_compute; reflexivity. Qed.
Example C70_meets_panic : parse_dbml (lead ++ s "Project p{}Table t{a varchar[default:'']}") = Some Panic.
Proof. vm_compute. reflexivity. Qed.
