(** * DecOk: [parse::<f64>] reads a decimal literal as the nearest binary64 number. *)

From Coq Require Import QArith Qpower Lqa.
From Verif Require Import F64Ok.
From Verif Require Export TextSpec.
Local Open Scope N_scope.

Lemma split_none c d : ~ In c d -> split_on c d = [d].
Proof.
  induction d as [|a d IH]; intros H; [reflexivity|]. cbn [split_on]. destruct (N.eqb_spec a c) as [->|Hn]; [exfalso; apply H; left; reflexivity|].
  rewrite IH; [reflexivity|]. intros G. apply H. right. exact G.
Qed.
Lemma split_one c d1 d2 : ~ In c d1 -> ~ In c d2 -> split_on c (d1 ++ c :: d2) = [d1; d2].
Proof.
  intros H1 H2. induction d1 as [|a d1 IH]; cbn [app split_on].
  - rewrite N.eqb_refl, (split_none _ _ H2). reflexivity.
  - destruct (N.eqb_spec a c) as [->|Hn]; [exfalso; apply H1; left; reflexivity|]. rewrite IH; [reflexivity|]. intros G. apply H1. right. exact G.
Qed.
Lemma digits_no_dot d : Forall digit d -> ~ In 46 d.
Proof. intros H G. rewrite Forall_forall in H. apply H in G. unfold digit in G. lia. Qed.
Lemma digits_value_N d acc : digits_value acc d = fold_left (fun a c => 10 * a + digit_val c) d acc.
Proof. revert acc. induction d as [|c d IH]; intros acc; cbn [digits_value fold_left]; [reflexivity|]. apply IH. Qed.
Lemma lit_parts d1 d2 : Forall digit d1 -> Forall digit d2 -> f64_of_lit (d1 ++ s "." ++ d2) = f64_of_parts d1 d2.
Proof.
  intros H1 H2. unfold f64_of_lit. change (s "." ++ d2) with ((46 : char) :: d2).
  rewrite (split_one _ _ _ (digits_no_dot _ H1) (digits_no_dot _ H2)). reflexivity.
Qed.
Lemma nq_pow10 n : (nq (10 ^ N.of_nat n) == 10 ^ Z.of_nat n)%Q.
Proof. unfold nq. rewrite N2Z.inj_pow, nat_N_Z. apply Zpower_Qpower. lia. Qed.
Lemma nearest64_wd x y v : (x == y)%Q -> nearest64 x v -> nearest64 y v.
Proof.
  intros E. destruct v as [m e|]; cbn [nearest64].
  - intros (H1 & H2 & H3). split; [rewrite <- E; exact H1|]. split; [exact H2|]. intros m' e' Hf. rewrite <- E. apply H3. exact Hf.
  - rewrite E. auto.
Qed.
Lemma decimal_ok d1 d2 : Forall digit d1 -> Forall digit d2 -> nearest64 (decimal_value d1 d2) (f64_of_lit (d1 ++ s "." ++ d2)).
Proof.
  intros H1 H2. rewrite (lit_parts _ _ H1 H2). unfold f64_of_parts.
  eapply nearest64_wd; [|apply f64_of_ratio_ok; pose proof (N.pow_nonzero 10 (N.of_nat (List.length d2))); lia].
  unfold decimal_value, N_of_digits. rewrite nq_pow10, digits_value_N. reflexivity.
Qed.
Lemma decimal_eq d1 d2 f : Forall digit d1 -> Forall digit d2 -> nearest64 (decimal_value d1 d2) f -> f = f64_of_lit (d1 ++ s "." ++ d2).
Proof. intros H1 H2 H. exact (nearest64_unique _ _ _ H (decimal_ok d1 d2 H1 H2)). Qed.
Lemma decimal_ex d1 d2 : Forall digit d1 -> Forall digit d2 -> exists v, nearest64 (decimal_value d1 d2) v.
Proof. intros H1 H2. eexists. exact (decimal_ok d1 d2 H1 H2). Qed.
Lemma decimal_at d1 d2 v : Forall digit d1 -> Forall digit d2 -> f64_of_lit (d1 ++ s "." ++ d2) = v -> nearest64 (decimal_value d1 d2) v.
Proof. intros H1 H2 <-. apply decimal_ok; assumption. Qed.
Lemma digits_dec d : forallb (fun c => (48 <=? c) && (c <=? 57)) d = true -> Forall digit d.
Proof.
  intros H. rewrite forallb_forall in H. apply Forall_forall. intros c Hc. apply H, andb_true_iff in Hc as [H1 H2].
  apply N.leb_le in H1, H2. split; assumption.
Qed.
