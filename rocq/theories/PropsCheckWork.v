(** * PropsCheckWork: how much work checking is (C77).

    Nothing but statements, examples and assumption audits.  The clock is in [CheckWork]. *)

From Verif Require Import Samples CheckWorkSame CheckWorkMain Parser Api Analyzer CheckWork.
From Verif Require Import Syntax Size.

(** The clock measures the checks: with it and without it the outcome is the same. *)
Theorem C77_same_verdict : forall x, fst (analyze_c x) = analyze x.
Proof. exact analyze_same. Qed.
Print Assumptions C77_same_verdict.
(** Checking what was parsed from a text is cubic in the length of the text. *)
Theorem C77_cubic : forall t x, parse_dbml_unchecked t = Some (Ok x) -> (check_work x <= 200 * (List.length t + 1) ^ 3)%nat.
Proof. exact text_check_cost. Qed.
Print Assumptions C77_cubic.

Example C77_shop : parse_dbml_unchecked shop = Some (Ok shop_ast) /\ N.of_nat (check_work shop_ast) = 7550%N.
Proof. split; [exact shop_parsed|]. vm_compute. reflexivity. Qed.
