(** * F64Ok: [f64_of_ratio] rounds to the nearest binary64 number, ties to even. *)

From Coq Require Import QArith Qabs Qpower Lqa.
From Verif Require Export F64 F64Spec.
Local Open Scope Q_scope.

Definition nq (n : N) : Q := inject_Z (Z.of_N n).
Lemma pow2_pos e : 0 < 2 ^ e.
Proof. apply Qpower_0_lt. reflexivity. Qed.
Lemma pow2_add a b : 2 ^ (a + b) == 2 ^ a * 2 ^ b.
Proof. apply Qpower_plus. discriminate. Qed.
Lemma nq_add a b : nq (a + b) == nq a + nq b.
Proof. unfold nq. rewrite N2Z.inj_add, inject_Z_plus. reflexivity. Qed.
Lemma nq_mul a b : nq (a * b) == nq a * nq b.
Proof. unfold nq. rewrite N2Z.inj_mul, inject_Z_mult. reflexivity. Qed.
Lemma nq_le a b : (a <= b)%N <-> nq a <= nq b.
Proof. unfold nq. rewrite <- Zle_Qle. lia. Qed.
Lemma nq_lt a b : (a < b)%N <-> nq a < nq b.
Proof. unfold nq. rewrite <- Zlt_Qlt. lia. Qed.
Lemma nq_pow k : nq (2 ^ k) == 2 ^ Z.of_N k.
Proof. unfold nq. rewrite N2Z.inj_pow. apply Zpower_Qpower. lia. Qed.
Lemma nq_pos d : (0 < d)%N -> 0 < nq d.
Proof. intros H. apply (nq_lt 0 d). exact H. Qed.
Lemma nq_nonneg d : 0 <= nq d.
Proof. apply (nq_le 0 d). lia. Qed.

(** ** Scaling *)
Lemma shiftl_q a p : nq (N.shiftl a p) == nq a * 2 ^ Z.of_N p.
Proof. rewrite N.shiftl_mul_pow2, nq_mul, nq_pow. reflexivity. Qed.
Lemma scale2_ok num den e n d : (0 < den)%N -> scale2 num den e = (n, d) ->
  (0 < d)%N /\ nq num / nq den == nq n / nq d * 2 ^ e.
Proof.
  intros Hd. pose proof (nq_pos _ Hd) as Hq. unfold scale2. destruct e as [|p|p]; intros [= <- <-].
  - split; [exact Hd|]. cbn [Qpower]. field. lra.
  - assert (Hs : (0 < N.shiftl den (N.pos p))%N) by (rewrite N.shiftl_mul_pow2; pose proof (N.pow_nonzero 2 (N.pos p)); nia).
    split; [exact Hs|]. rewrite shiftl_q. change (Z.of_N (N.pos p)) with (Z.pos p). pose proof (pow2_pos (Z.pos p)). field. split; lra.
  - split; [exact Hd|]. rewrite shiftl_q. change (Z.of_N (N.pos p)) with (Z.pos p).
    assert (E : 2 ^ Z.pos p * 2 ^ Z.neg p == 1) by (rewrite <- pow2_add, Pos2Z.add_pos_neg, Z.pos_sub_diag; reflexivity).
    transitivity (nq num / nq den * (2 ^ Z.pos p * 2 ^ Z.neg p)); [rewrite E|]; field; lra.
Qed.

(** ** Nearest integer *)
Lemma rne_N n d : (0 < d)%N ->
  (2 * (rne n d * d) <= 2 * n + d /\ 2 * n <= 2 * (rne n d * d) + d)%N /\
  (2 * (rne n d * d) = 2 * n + d \/ 2 * n = 2 * (rne n d * d) + d -> N.even (rne n d) = true)%N.
Proof.
  intros Hd. pose proof (N.div_mod n d ltac:(lia)) as E. pose proof (N.mod_lt n d ltac:(lia)) as L. unfold rne.
  set (q := (n / d)%N) in *. set (r := (n mod d)%N) in *.
  destruct (N.compare_spec (2 * r) d) as [H|H|H].
  - destruct (N.even q) eqn:Ev.
    + split; [nia|]. intros _. exact Ev.
    + split; [nia|]. intros _. rewrite N.add_1_r, N.even_succ, <- N.negb_even, Ev. reflexivity.
  - split; [nia|]. intros [G|G]; nia.
  - split; [nia|]. intros [G|G]; nia.
Qed.
Lemma rne_Q n d y : (0 < d)%N -> y == nq n / nq d ->
  nq (rne n d) - (1 # 2) <= y /\ y <= nq (rne n d) + (1 # 2) /\
  (nq (rne n d) - (1 # 2) == y \/ y == nq (rne n d) + (1 # 2) -> N.even (rne n d) = true).
Proof.
  intros Hd Hy. destruct (rne_N n d Hd) as [[H1 H2] H3]. pose proof (nq_pos _ Hd) as Hq.
  assert (En : nq n == y * nq d) by (rewrite Hy; field; lra).
  assert (E2 : forall a, nq (2 * a) == 2 * nq a) by (intros a; rewrite nq_mul; reflexivity).
  set (q := rne n d) in *. apply nq_le in H1, H2. rewrite nq_add, !E2, nq_mul, En in H1. rewrite nq_add, !E2, nq_mul, En in H2.
  set (k := nq d) in *. split; [|split].
  - apply (Qmult_le_r _ _ k Hq). lra.
  - apply (Qmult_le_r _ _ k Hq). lra.
  - intros H. apply H3. destruct H as [H|H]; [left|right]; apply N2Z.inj; apply inject_Z_injective; fold (nq (2 * (q * d))) (nq (2 * n)).
    + change (nq (2 * (q * d)) == nq (2 * n + d)). rewrite nq_add, !E2, nq_mul, En. fold k. rewrite <- H. ring.
    + change (nq (2 * n) == nq (2 * (q * d) + d)). rewrite nq_add, !E2, nq_mul, En. fold k. rewrite H. ring.
Qed.

Lemma abs_le a b : Qabs a <= b <-> - b <= a /\ a <= b.
Proof. rewrite Qabs_Qle_condition. tauto. Qed.
Lemma int_gap (a b : Z) : a <> b -> inject_Z a - inject_Z b <= -(1) \/ 1 <= inject_Z a - inject_Z b.
Proof.
  intros H. assert (a <= b - 1 \/ b + 1 <= a)%Z as [G|G] by lia; rewrite Zle_Qle in G; [left|right].
  - unfold Z.sub in G. rewrite inject_Z_plus in G. change (inject_Z (- (1))) with (-(1)) in G. lra.
  - rewrite inject_Z_plus in G. change (inject_Z 1) with 1 in G. lra.
Qed.
(** [q], within one half of [y], is as near to [y] as any integer [k]. *)
Lemma nearest_int y q (k : Z) : nq q - (1 # 2) <= y -> y <= nq q + (1 # 2) ->
  (nq q - (1 # 2) == y \/ y == nq q + (1 # 2) -> N.even q = true) ->
  Qabs (y - nq q) <= Qabs (y - inject_Z k) /\ (Qabs (y - nq q) == Qabs (y - inject_Z k) -> nq q == inject_Z k \/ N.even q = true).
Proof.
  intros H1 H2 H3. destruct (Z.eq_dec (Z.of_N q) k) as [<-|Hk]; [split; [apply Qle_refl|left; reflexivity]|].
  destruct (int_gap _ _ Hk) as [G|G]; change (inject_Z (Z.of_N q)) with (nq q) in G.
  - (* q + 1 <= k *)
    assert (E : Qabs (y - inject_Z k) == inject_Z k - y) by (rewrite Qabs_neg; [ring|lra]). rewrite E. split.
    + apply abs_le. lra.
    + intros Ha. right. apply H3. right. destruct (Qlt_le_dec (y - nq q) 0) as [L|L].
      * rewrite Qabs_neg in Ha by lra. lra.
      * rewrite Qabs_pos in Ha by lra. lra.
  - assert (E : Qabs (y - inject_Z k) == y - inject_Z k) by (rewrite Qabs_pos; [ring|lra]). rewrite E. split.
    + apply abs_le. lra.
    + intros Ha. right. apply H3. left. destruct (Qlt_le_dec (y - nq q) 0) as [L|L].
      * rewrite Qabs_neg in Ha by lra. lra.
      * rewrite Qabs_pos in Ha by lra. lra.
Qed.

(** ** The rounding *)
Definition p52 : Q := inject_Z (2 ^ 52).
Definition p53 : Q := inject_Z (2 ^ 53).
Lemma p5253 : p53 == 2 * p52.
Proof. reflexivity. Qed.
Lemma p52_big : 2 <= p52.
Proof. unfold p52, Qle. cbn. lia. Qed.
Lemma nq_p52 : nq (2 ^ 52) == p52. Proof. reflexivity. Qed.
Lemma nq_p53 : nq (2 ^ 53) == p53. Proof. reflexivity. Qed.
Lemma pow2_succ e : 2 ^ (e + 1) == 2 * 2 ^ e.
Proof. rewrite pow2_add. change (2 ^ 1) with 2. ring. Qed.
Lemma pow2_le a b : (a <= b)%Z -> 2 ^ a <= 2 ^ b.
Proof. intros H. apply Qpower_le_compat_l; [exact H|discriminate]. Qed.
Lemma scale_abs u a b : 0 < u -> Qabs (a * u - b * u) == Qabs (a - b) * u.
Proof.
  intros Hu. transitivity (Qabs ((a - b) * u)); [apply Qabs_wd; ring|]. rewrite Qabs_Qmult, (Qabs_pos u) by lra. reflexivity.
Qed.
(** With [x = y * 2^e], [y] below [2^53], and [2^52 <= y] unless [e] is least, rounding [y]
    to an integer rounds [x]. *)
Lemma round_core x y q e : x == y * 2 ^ e -> (-1074 <= e)%Z -> y < p53 -> (e = (-1074)%Z \/ p52 <= y) ->
  nq q - (1 # 2) <= y -> y <= nq q + (1 # 2) -> (nq q - (1 # 2) == y \/ y == nq q + (1 # 2) -> N.even q = true) ->
  (q <= 2 ^ 53)%N /\ (e = (-1074)%Z \/ (2 ^ 52 <= q)%N) /\
  forall m' e', finite64 m' e' -> Qabs (x - nq q * 2 ^ e) <= Qabs (x - bin m' e') /\
    (Qabs (x - nq q * 2 ^ e) == Qabs (x - bin m' e') -> nq q * 2 ^ e == bin m' e' \/ N.even q = true).
Proof.
  intros Hx He Hy Hn H1 H2 H3. pose proof (pow2_pos e) as Hu. pose proof p52_big as Hb. pose proof p5253 as H53.
  assert (Hq1 : (q <= 2 ^ 53)%N).
  { destruct (N.le_gt_cases q (2 ^ 53)) as [G|G]; [exact G|exfalso]. assert (G' : (2 ^ 53 + 1 <= q)%N) by lia. apply nq_le in G'.
    rewrite nq_add, nq_p53 in G'. change (nq 1) with 1 in G'. lra. }
  assert (Hq2 : p52 <= y -> (2 ^ 52 <= q)%N).
  { intros Hp. destruct (N.le_gt_cases (2 ^ 52) q) as [G|G]; [exact G|exfalso]. assert (G' : (q + 1 <= 2 ^ 52)%N) by lia. apply nq_le in G'.
    rewrite nq_add, nq_p52 in G'. change (nq 1) with 1 in G'. lra. }
  split; [exact Hq1|]. split; [destruct Hn as [Hn|Hn]; [left; exact Hn|right; auto]|].
  intros m' e' [Hm He'].
  assert (Hred : forall w, bin m' e' == w * 2 ^ e -> (Qabs (y - nq q) <= Qabs (y - w) /\ (Qabs (y - nq q) == Qabs (y - w) -> nq q == w \/ N.even q = true)) ->
    Qabs (x - nq q * 2 ^ e) <= Qabs (x - bin m' e') /\ (Qabs (x - nq q * 2 ^ e) == Qabs (x - bin m' e') -> nq q * 2 ^ e == bin m' e' \/ N.even q = true)).
  { intros w Hw [G1 G2]. rewrite Hx, Hw, !scale_abs by exact Hu. split; [apply Qmult_le_compat_r; lra|].
    intros G. destruct G2 as [G2|G2]; [|left; rewrite G2; reflexivity|right; exact G2]. apply (Qmult_inj_r _ _ (2 ^ e)); [lra|exact G]. }
  destruct (Z.le_gt_cases e e') as [L|L].
  - apply (Hred (inject_Z (Z.of_N m' * 2 ^ (e' - e)))); [|apply nearest_int; assumption].
    unfold bin. replace e' with ((e' - e) + e)%Z at 1 by lia. rewrite pow2_add, inject_Z_mult, Zpower_Qpower by lia. change (inject_Z 2) with 2. ring.
  - assert (Hp : p52 <= y) by (destruct Hn as [Hn|Hn]; [lia|exact Hn]).
    set (w := nq m' * 2 ^ (e' - e)). apply (Hred w).
    { unfold bin, w. change (inject_Z (Z.of_N m')) with (nq m'). replace e' with ((e' - e) + e)%Z at 1 by lia. rewrite pow2_add. ring. }
    assert (Hw : w < p52).
    { assert (Hm' : (m' + 1 <= 2 ^ 53)%N) by lia. apply nq_le in Hm'. rewrite nq_add, nq_p53 in Hm'. change (nq 1) with 1 in Hm'.
      assert (Ht : 2 ^ (e' - e) <= 1 # 2) by (change (1 # 2) with (2 ^ (-1)); apply pow2_le; lia). pose proof (pow2_pos (e' - e)) as Hp2. pose proof (nq_nonneg m').
      assert (Hl : w <= nq m' * (1 # 2)) by (unfold w; rewrite !(Qmult_comm (nq m')); apply Qmult_le_compat_r; assumption). lra. }
    destruct (nearest_int y q (2 ^ 52) H1 H2 H3) as [G _]. change (inject_Z (2 ^ 52)) with p52 in G. rewrite (Qabs_pos (y - p52)) in G by lra.
    rewrite (Qabs_pos (y - w)) by lra. split; [lra|]. intros Ha. lra.
Qed.

(** The first guess at the exponent. *)
Lemma log_bounds num den y : (0 < num)%N -> (0 < den)%N ->
  nq num / nq den == y * 2 ^ (Z.of_N (N.log2 num) - Z.of_N (N.log2 den) - 52) -> (1 # 2) * p52 < y /\ y < p53.
Proof.
  intros Hn Hd Hy. destruct (N.log2_spec num Hn) as [N1 N2]. destruct (N.log2_spec den Hd) as [D1 D2].
  set (a := N.log2 num) in *. set (b := N.log2 den) in *.
  apply nq_le in N1, D1. apply nq_lt in N2, D2. rewrite nq_pow in *. rewrite N2Z.inj_succ, <- Z.add_1_r, pow2_succ in N2, D2.
  pose proof (nq_pos _ Hn) as Pn. pose proof (nq_pos _ Hd) as Pd.
  assert (E : 2 ^ Z.of_N a == 2 ^ (Z.of_N a - Z.of_N b - 52) * p52 * 2 ^ Z.of_N b).
  { replace (Z.of_N a) with ((Z.of_N a - Z.of_N b - 52) + 52 + Z.of_N b)%Z at 1 by lia. rewrite !pow2_add. reflexivity. }
  set (u := 2 ^ (Z.of_N a - Z.of_N b - 52)) in *. assert (Hu : 0 < u) by apply pow2_pos.
  set (A := 2 ^ Z.of_N a) in *. set (B := 2 ^ Z.of_N b) in *. assert (HB : 0 < B) by apply pow2_pos.
  assert (En : nq num == y * u * nq den) by (rewrite <- Hy; field; lra).
  pose proof p52_big as Hb. pose proof p5253 as H53. split.
  - apply (Qmult_lt_r _ _ u Hu). apply (Qmult_lt_r _ _ (nq den) Pd). rewrite <- En.
    assert (G : (1 # 2) * p52 * u * nq den < (1 # 2) * p52 * u * (2 * B)).
    { rewrite !(Qmult_comm ((1 # 2) * p52 * u)). apply Qmult_lt_r; [|exact D2]. apply Qmult_lt_0_compat; [lra|exact Hu]. }
    lra.
  - apply (Qmult_lt_r _ _ u Hu). apply (Qmult_lt_r _ _ (nq den) Pd). rewrite <- En.
    assert (G : p53 * u * B <= p53 * u * nq den).
    { rewrite !(Qmult_comm (p53 * u)). apply Qmult_le_compat_r; [exact D1|]. apply Qlt_le_weak, Qmult_lt_0_compat; [lra|exact Hu]. }
    rewrite H53 in *. lra.
Qed.

Lemma f64_of_ratio_ok num den : (0 < den)%N -> nearest64 (nq num / nq den) (f64_of_ratio num den).
Proof.
  intros Hd. pose proof (nq_pos _ Hd) as Pd. pose proof p52_big as Hb. pose proof p5253 as H53.
  unfold f64_of_ratio. destruct (N.eqb_spec num 0) as [->|Hnum].
  { assert (E : nq 0 / nq den == 0) by (change (nq 0) with 0; field; lra). cbn [nearest64]. rewrite E. split; [|split].
    - reflexivity.
    - split; [|left; reflexivity]. split; [reflexivity|lia].
    - intros m' e' _. assert (E0 : bin 0 (-1074) == 0) by reflexivity. rewrite E0, E. split; [apply (Qabs_nonneg (0 - bin m' e'))|]. intros _. right. reflexivity. }
  set (x := nq num / nq den).
  set (e0 := (Z.of_N (N.log2 num) - Z.of_N (N.log2 den) - 52)%Z).
  destruct (scale2 num den e0) as [n0 d0] eqn:S0. destruct (scale2_ok _ _ _ _ _ Hd S0) as [Hd0 Hx0]. fold x in Hx0.
  set (y0 := nq n0 / nq d0) in *. destruct (log_bounds num den y0) as [L1 L2]; [lia|exact Hd|exact Hx0|].
  pose proof (nq_pos _ Hd0) as Pd0. assert (En0 : nq n0 == y0 * nq d0) by (unfold y0; field; lra).
  set (e1 := if (n0 / d0 <? 2 ^ 52)%N then (e0 - 1)%Z else e0).
  assert (H1 : exists y1, x == y1 * 2 ^ e1 /\ p52 <= y1 /\ y1 < p53).
  { unfold e1. destruct (N.ltb_spec (n0 / d0) (2 ^ 52)) as [G|G].
    - exists (2 * y0). split; [|split; [lra|]].
      + rewrite Hx0. replace e0 with ((e0 - 1) + 1)%Z at 1 by lia. rewrite pow2_succ. ring.
      + assert (G' : (n0 < 2 ^ 52 * d0)%N).
        { pose proof (N.div_mod n0 d0 ltac:(lia)). pose proof (N.mod_lt n0 d0 ltac:(lia)). nia. }
        apply nq_lt in G'. rewrite nq_mul, nq_p52, En0 in G'. apply (proj1 (Qmult_lt_r _ _ _ Pd0)) in G'. lra.
    - exists y0. split; [exact Hx0|]. split; [|exact L2].
      assert (G' : (2 ^ 52 * d0 <= n0)%N). { pose proof (N.mul_div_le n0 d0 ltac:(lia)) as M. apply (N.mul_le_mono_r _ _ d0) in G. rewrite (N.mul_comm (n0 / d0)) in G. lia. }
      apply nq_le in G'. rewrite nq_mul, nq_p52, En0 in G'. apply (proj1 (Qmult_le_r _ _ _ Pd0)) in G'. exact G'. }
  clearbody e1. destruct H1 as (y1 & Hx1 & B1 & B2). clear S0 Hx0 L1 L2 En0 Hd0 Pd0 y0 n0 d0 e0.
  set (e2 := Z.max e1 (-1074)).
  destruct (scale2 num den e2) as [n2 d2] eqn:S2. destruct (scale2_ok _ _ _ _ _ Hd S2) as [Hd2 Hx2]. fold x in Hx2.
  set (y := nq n2 / nq d2) in *. assert (He2 : (-1074 <= e2)%Z) by (unfold e2; lia).
  assert (Hy : y < p53 /\ (e2 = (-1074)%Z \/ p52 <= y)).
  { assert (Hyy : y == y1 * 2 ^ (e1 - e2)).
    { apply (Qmult_inj_r _ _ (2 ^ e2)); [pose proof (pow2_pos e2); lra|]. rewrite <- Hx2, Hx1. replace e1 with ((e1 - e2) + e2)%Z at 1 by lia. rewrite pow2_add. ring. }
    assert (Hle : 2 ^ (e1 - e2) <= 1) by (change (2 ^ (e1 - e2) <= 2 ^ 0); apply pow2_le; unfold e2; lia).
    split.
    - assert (y <= y1 * 1); [|lra]. rewrite Hyy, !(Qmult_comm y1). apply Qmult_le_compat_r; lra.
    - destruct (Z.le_gt_cases e1 (-1074)) as [G|G]; [left; unfold e2; lia|right]. assert (E : (e1 - e2 = 0)%Z) by (unfold e2; lia). rewrite Hyy, E. change (2 ^ 0) with 1. lra. }
  clearbody e2. clear Hx1 B1 B2 y1 e1. destruct Hy as [Hy Hn].
  destruct (rne_Q n2 d2 y Hd2 (Qeq_refl _)) as (R1 & R2 & R3). set (q := rne n2 d2) in *. clearbody q.
  destruct (round_core x y q e2 Hx2 He2 Hy Hn R1 R2 R3) as (Q1 & Q2 & Q3).
  pose proof (pow2_pos e2) as Hu.
  destruct (N.eqb_spec q (2 ^ 53)) as [Hq|Hq].
  - (* carried to the next power of two *)
    assert (Eb : bin (2 ^ 52) (e2 + 1) == nq q * 2 ^ e2).
    { unfold bin. rewrite Hq, nq_p53, pow2_succ, H53. change (inject_Z (Z.of_N (2 ^ 52))) with p52. ring. }
    assert (Hyq : p53 - (1 # 2) <= y) by (rewrite Hq, nq_p53 in R1; exact R1).
    destruct (Z.ltb_spec 971 (e2 + 1)) as [G|G]; cbn [nearest64].
    + unfold overflow. change (2 ^ 53 - (1 # 2)) with (p53 - (1 # 2)). rewrite Hx2.
      assert (Hp : 2 ^ 971 <= 2 ^ e2) by (apply pow2_le; lia). pose proof (pow2_pos 971).
      apply (Qle_trans _ ((p53 - (1 # 2)) * 2 ^ e2)); [rewrite !(Qmult_comm (p53 - (1 # 2))); apply Qmult_le_compat_r; lra|apply Qmult_le_compat_r; lra].
    + split; [|split].
      * unfold overflow. change (2 ^ 53 - (1 # 2)) with (p53 - (1 # 2)). rewrite Hx2.
        assert (Hp : 2 ^ (e2 + 1) <= 2 ^ 971) by (apply pow2_le; lia). rewrite pow2_succ in Hp.
        apply (Qlt_le_trans _ ((p53 - (1 # 2)) * (2 * 2 ^ e2))); [|rewrite !(Qmult_comm (p53 - (1 # 2))); apply Qmult_le_compat_r; lra].
        rewrite Qmult_assoc. apply Qmult_lt_r; [exact Hu|]. lra.
      * split; [split; [reflexivity|lia]|right; discriminate].
      * intros m' e' Hf. rewrite Eb. destruct (Q3 m' e' Hf) as [G1 G2]. split; [exact G1|]. intros _. right. reflexivity.
  - assert (Hq' : (q < 2 ^ 53)%N) by lia.
    destruct (Z.ltb_spec 971 e2) as [G|G]; cbn [nearest64].
    + assert (p52 <= y) by (destruct Hn; [lia|assumption]). unfold overflow. change (2 ^ 53 - (1 # 2)) with (p53 - (1 # 2)). rewrite Hx2.
      assert (Hp : 2 ^ (971 + 1) <= 2 ^ e2) by (apply pow2_le; lia). rewrite pow2_succ in Hp. pose proof (pow2_pos 971).
      apply (Qle_trans _ (y * (2 * 2 ^ 971))); [|rewrite !(Qmult_comm y); apply Qmult_le_compat_r; lra].
      rewrite Qmult_assoc. apply Qmult_le_compat_r; lra.
    + split; [|split].
      * unfold overflow. change (2 ^ 53 - (1 # 2)) with (p53 - (1 # 2)). rewrite Hx2.
        assert (Hys : y < p53 - (1 # 2)).
        { assert (Hm : (q + 1 <= 2 ^ 53)%N) by lia. apply nq_le in Hm. rewrite nq_add, nq_p53 in Hm. change (nq 1) with 1 in Hm.
          destruct (Qlt_le_dec y (p53 - (1 # 2))) as [A|A]; [exact A|exfalso].
          assert (Ey : y == nq q + (1 # 2)) by lra. assert (Eq' : nq q + 1 == p53) by lra.
          assert (Ev : N.even q = true) by (apply R3; right; exact Ey).
          assert (Eqn : q = (2 ^ 53 - 1)%N).
          { apply N2Z.inj, inject_Z_injective. change (nq q == nq (2 ^ 53 - 1)). change (nq (2 ^ 53 - 1)) with (p53 - 1). lra. }
          rewrite Eqn in Ev. discriminate. }
        assert (Hp : 2 ^ e2 <= 2 ^ 971) by (apply pow2_le; lia).
        apply (Qlt_le_trans _ ((p53 - (1 # 2)) * 2 ^ e2)); [apply Qmult_lt_r; assumption|]. rewrite !(Qmult_comm (p53 - (1 # 2))). apply Qmult_le_compat_r; lra.
      * split; [split; [exact Hq'|lia]|]. destruct Q2 as [Q2|Q2]; [left; exact Q2|right; lia].
      * intros m' e' Hf. exact (Q3 m' e' Hf).
Qed.

(** ** The nearest number is unique *)
Lemma bin_shift m e d : (d <= e)%Z -> bin m e == inject_Z (Z.of_N m * 2 ^ (e - d)) * 2 ^ d.
Proof.
  intros H. unfold bin. replace e with ((e - d) + d)%Z at 1 by lia. rewrite pow2_add, inject_Z_mult, Zpower_Qpower by lia. change (inject_Z 2) with 2. ring.
Qed.
Lemma bin_above m e m' e' : normal64 m e -> finite64 m' e' -> bin m e < bin m' e' -> bin (m + 1) e <= bin m' e'.
Proof.
  intros [[Hm He] Hn] [Hm' He'] H. pose proof (pow2_pos e) as Hu. destruct (Z.le_gt_cases e e') as [L|L].
  - rewrite (bin_shift m' e' e L) in *. unfold bin in *. apply Qmult_lt_r in H; [|exact Hu]. rewrite <- Zlt_Qlt in H.
    apply Qmult_le_compat_r; [|lra]. rewrite <- Zle_Qle. lia.
  - exfalso. assert (G : (2 ^ 52 <= Z.of_N m)%Z) by lia. rewrite (bin_shift m e e') in H by lia. unfold bin in H. apply Qmult_lt_r in H; [|apply pow2_pos].
    rewrite <- Zlt_Qlt in H. assert (P : (2 ^ 1 <= 2 ^ (e - e'))%Z) by (apply Z.pow_le_mono_r; lia). assert (Z.of_N m' < 2 ^ 53)%Z by lia.
    change (2 ^ 1)%Z with 2%Z in P. change (2 ^ 53)%Z with (2 * 2 ^ 52)%Z in *. nia.
Qed.
Lemma normal_unique m e m' e' : normal64 m e -> normal64 m' e' -> bin m e == bin m' e' -> m = m' /\ e = e'.
Proof.
  assert (W : forall m e m' e', normal64 m e -> normal64 m' e' -> bin m e == bin m' e' -> (e < e')%Z -> False).
  { clear. intros m e m' e' [[Hm He] Hn] [[Hm' He'] Hn'] H L. rewrite (bin_shift m' e' e) in H by lia. unfold bin in H.
    apply Qmult_inj_r in H; [|pose proof (pow2_pos e); lra]. apply (proj1 (inject_Z_injective _ _)) in H.
    assert (P : (2 ^ 1 <= 2 ^ (e' - e))%Z) by (apply Z.pow_le_mono_r; lia). assert (Z.of_N m < 2 ^ 53)%Z by lia.
    change (2 ^ 1)%Z with 2%Z in P. change (2 ^ 53)%Z with (2 * 2 ^ 52)%Z in *. nia. }
  intros H1 H2 H. assert (e = e') as <-.
  { destruct (Z.lt_trichotomy e e') as [L|[L|L]]; [exfalso; eapply (W m e m' e'); eassumption|exact L|exfalso; eapply (W m' e' m e); try eassumption; symmetry; exact H]. }
  split; [|reflexivity]. unfold bin in H. apply Qmult_inj_r in H; [|pose proof (pow2_pos e); lra]. apply (proj1 (inject_Z_injective _ _)) in H. lia.
Qed.
Lemma tie_impossible x m e m' e' : nearest64 x (FFin m e) -> nearest64 x (FFin m' e') -> bin m e < bin m' e' -> N.even m = true -> N.even m' = true -> False.
Proof.
  intros (_ & N1 & D1) (_ & N2 & D2) L Ev Ev'. pose proof N1 as [F1 C1]. pose proof N2 as [F2 C2].
  assert (Hs : (m + 1 < 2 ^ 53)%N).
  { destruct F1 as [G _]. destruct (N.eq_dec (m + 1) (2 ^ 53)) as [G'|G']; [|lia]. exfalso. assert (Em : m = (2 ^ 53 - 1)%N) by lia. rewrite Em in Ev. discriminate. }
  assert (Fs : normal64 (m + 1) e) by (split; [split; [exact Hs|apply F1]|destruct C1; [left|right]; lia]).
  pose proof (bin_above _ _ _ _ N1 F2 L) as Hle.
  assert (Hlt : bin m e < bin (m + 1) e).
  { unfold bin. apply Qmult_lt_r; [apply pow2_pos|]. rewrite <- Zlt_Qlt. lia. }
  pose proof (proj1 (D1 _ _ F2)) as A1. pose proof (proj1 (D2 _ _ F1)) as A2. pose proof (proj1 (D1 _ _ (proj1 Fs))) as A3.
  assert (Hw : bin m' e' == bin (m + 1) e).
  { destruct (Qlt_le_dec (bin (m + 1) e) (bin m' e')) as [G|G]; [exfalso|apply Qle_antisym; assumption].
    revert A1 A2 A3. set (v := bin m e) in *. set (w := bin m' e') in *. set (t := bin (m + 1) e) in *. clearbody v w t. clear - Hlt G.
    intros A1 A2 A3. destruct (Qlt_le_dec (x - v) 0) as [a|a]; [rewrite (Qabs_neg (x - v)) in * by lra|rewrite (Qabs_pos (x - v)) in * by lra];
      (destruct (Qlt_le_dec (x - w) 0) as [b|b]; [rewrite (Qabs_neg (x - w)) in * by lra|rewrite (Qabs_pos (x - w)) in * by lra]);
      (destruct (Qlt_le_dec (x - t) 0) as [c|c]; [rewrite (Qabs_neg (x - t)) in * by lra|rewrite (Qabs_pos (x - t)) in * by lra]); lra. }
  destruct (normal_unique _ _ _ _ N2 Fs Hw) as [-> _]. rewrite N.add_1_r, N.even_succ, <- N.negb_even, Ev in Ev'. discriminate.
Qed.
Lemma nearest64_unique x f g : nearest64 x f -> nearest64 x g -> f = g.
Proof.
  destruct f as [m e|], g as [m' e'|]; intros H1 H2; try reflexivity.
  - pose proof H1 as (_ & N1 & D1). pose proof H2 as (_ & N2 & D2). destruct (D1 _ _ (proj1 N2)) as [A1 T1]. destruct (D2 _ _ (proj1 N1)) as [A2 T2].
    assert (E : Qabs (x - bin m e) == Qabs (x - bin m' e')) by (apply Qle_antisym; assumption).
    assert (Hb : bin m e == bin m' e').
    { destruct (T1 E) as [G|Ev]; [exact G|]. destruct (T2 (Qeq_sym _ _ E)) as [G|Ev']; [symmetry; exact G|].
      destruct (Q_dec (bin m e) (bin m' e')) as [[G|G]|G]; [exfalso; exact (tie_impossible _ _ _ _ _ H1 H2 G Ev Ev')|exfalso; exact (tie_impossible _ _ _ _ _ H2 H1 G Ev' Ev)|exact G]. }
    destruct (normal_unique _ _ _ _ N1 N2 Hb) as [-> ->]. reflexivity.
  - exfalso. destruct H1 as [H1 _]. cbn [nearest64] in H2. apply (Qlt_not_le _ _ H1). exact H2.
  - exfalso. destruct H2 as [H2 _]. cbn [nearest64] in H1. apply (Qlt_not_le _ _ H2). exact H1.
Qed.
