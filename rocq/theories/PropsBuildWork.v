(** * PropsBuildWork: how much work building the AST, and all of [parse_dbml], is (C78).

    Nothing but statements, examples and assumption audits.  The clock is in [BuildWork]. *)

From Verif Require Import Samples Parser Api BuildWork BuildWorkSame BuildWorkMain.
Local Open Scope N_scope.

(** The clock measures [parse_dbml]: with it and without it the answer is the same. *)
Theorem C78_same_answer : forall inp, fst (parse_dbml_c inp) = parse_dbml inp.
Proof. exact parse_same. Qed.
Print Assumptions C78_same_answer.
(** Building the AST from the tokens is linear in the text. *)
Theorem C78_build_linear : forall inp, N.of_nat (build_work inp) <= 8000 * (N.of_nat (List.length inp) + 1).
Proof. exact build_cost. Qed.
Print Assumptions C78_build_linear.
(** All of [parse_dbml], whatever the text and the answer. *)
Theorem C78_polynomial : forall inp, snd (parse_dbml_c inp) <= 25000000 * (N.of_nat (List.length inp) + 1) ^ 5.
Proof. exact parse_cost. Qed.
Print Assumptions C78_polynomial.

Example C78_shop : snd (parse_dbml_c shop) = 30804 /\ N.of_nat (build_work shop) = 3085 /\ fst (parse_dbml_c shop) = Some (Ok shop_ast).
Proof. repeat split; vm_compute; reflexivity. Qed.
