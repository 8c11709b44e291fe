(** * PropsWork: how much work parsing is (C65).

    Nothing but statements, examples and assumption audits.  The clock is in [Work]. *)

From Verif Require Import Samples Work Optim WorkOk.

(** The clock measures the parser: with it and without it the outcome is the same. *)
Theorem C65_same_parse : forall inp, fst (run_w schema inp) = run schema NonAtomic 0 inp.
Proof. exact (run_w_same schema). Qed.
Print Assumptions C65_same_parse.
(** Whatever the text, the work is polynomial in its length: backtracking never multiplies up. *)
Theorem C65_polynomial : forall inp, parse_work inp <= 24000000 * (N.of_nat (List.length inp) + 1) ^ 5.
Proof. exact schema_work. Qed.
Print Assumptions C65_polynomial.
(** So it is with the grammar as pest rewrites it (C64). *)
Theorem C65_polynomial_optimized : forall inp, snd (run_w oschema inp) <= 36000000 * (N.of_nat (List.length inp) + 1) ^ 5.
Proof. exact oschema_work. Qed.
Print Assumptions C65_polynomial_optimized.
(** The tree of pairs is linear in the text, and its depth does not depend on the text. *)
Theorem C65_pairs : forall inp t r ps, run schema NonAtomic 0 inp = ROk t r ps ->
  pairs_count ps <= 84 * N.of_nat (List.length inp) + 2 /\ pairs_depth ps <= 12.
Proof. exact run_pairs. Qed.
Print Assumptions C65_pairs.

Example C65_shop : parse_work shop = 20169 /\ match run schema NonAtomic 0 shop with ROk _ _ ps => pairs_count ps = 366 /\ pairs_depth ps = 12 | _ => False end.
Proof. vm_compute. repeat split; reflexivity. Qed.
