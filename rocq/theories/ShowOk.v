(** * ShowOk: printed values read back. *)

From Coq Require Import QArith Qabs Qpower Lqa.
From Verif Require Import F64Ok DecOk Ast MessageOk NodesOk Nodes Api SpansOk ParseFacts2 ParseFacts.
From Verif Require Export TextSpec.
Local Open Scope Q_scope.

(** ** Numbers near a binary64 number round to it *)
Lemma bin_below m e m' e' : normal64 m e -> finite64 m' e' -> bin m' e' < bin m e -> bin m' e' + 2 ^ (e - 1) <= bin m e.
Proof.
  intros [[Hm He] Hn] [Hm' He'] H. pose proof (pow2_pos (e - 1)) as Hu. destruct (Z.le_gt_cases (e - 1) e') as [L|L].
  - rewrite (bin_shift m' e' (e - 1) L), (bin_shift m e (e - 1)) in * by lia. apply Qmult_lt_r in H; [|exact Hu]. rewrite <- Zlt_Qlt in H.
    set (a := (Z.of_N m' * 2 ^ (e' - (e - 1)))%Z) in *. set (b := (Z.of_N m * 2 ^ (e - (e - 1)))%Z) in *.
    assert (G : inject_Z (a + 1) <= inject_Z b) by (rewrite <- Zle_Qle; lia). rewrite inject_Z_plus in G. change (inject_Z 1) with 1 in G.
    let E := fresh in assert (E : (inject_Z a * 2 ^ (e - 1) + 2 ^ (e - 1)) == ((inject_Z a + 1) * 2 ^ (e - 1))) by ring; rewrite E; clear E. apply Qmult_le_compat_r; lra.
  - assert (G : (2 ^ 52 <= Z.of_N m)%Z) by lia. rewrite (bin_shift m e e') by lia. unfold bin. set (k := (e - 1 - e')%Z).
    replace (e - 1)%Z with (k + e')%Z by lia. rewrite pow2_add. assert (Ek : 2 ^ k == inject_Z (2 ^ k)) by (rewrite Zpower_Qpower by lia; reflexivity). rewrite Ek.
    assert (Es : inject_Z (Z.of_N m') * 2 ^ e' + inject_Z (2 ^ k) * 2 ^ e' == (inject_Z (Z.of_N m' + 2 ^ k)) * 2 ^ e') by (rewrite inject_Z_plus; ring). rewrite Es.
    apply Qmult_le_compat_r; [|pose proof (pow2_pos e'); lra]. rewrite <- Zle_Qle. replace (e - e')%Z with (1 + k)%Z by lia. rewrite Z.pow_add_r by lia.
    assert (P : (2 ^ 1 <= 2 ^ k)%Z) by (apply Z.pow_le_mono_r; lia). change (2 ^ 1)%Z with 2%Z in *. assert (Z.of_N m' < 2 ^ 53)%Z by lia.
    change (2 ^ 53)%Z with (2 * 2 ^ 52)%Z in *. set (w := (2 ^ k)%Z) in *. set (h := (2 ^ 52)%Z) in *. assert (1 <= h)%Z by (unfold h; lia). nia.
Qed.
Lemma close_nearest x m e : normal64 m e -> Qabs (x - bin m e) < (1 # 4) * 2 ^ e -> nearest64 x (FFin m e).
Proof.
  intros Nm H. pose proof (pow2_pos e) as Hu. assert (B : - ((1 # 4) * 2 ^ e) < x - bin m e < (1 # 4) * 2 ^ e).
  { apply Qabs_Qlt_condition in H. exact H. }
  destruct B as [B1 B2]. split; [|split; [exact Nm|]].
  - destruct Nm as [[Hm He] _]. assert (Hp : 2 ^ e <= 2 ^ 971) by (apply pow2_le; lia).
    assert (Hm' : nq m <= p53 - 1) by (assert (G : (m + 1 <= 2 ^ 53)%N) by lia; apply nq_le in G; rewrite nq_add, nq_p53 in G; change (nq 1) with 1 in G; lra).
    unfold overflow. change (2 ^ 53 - (1 # 2)) with (p53 - (1 # 2)). unfold bin in *. fold (nq m) in *.
    apply (Qlt_le_trans _ ((nq m + (1 # 4)) * 2 ^ e)); [lra|].
    apply (Qle_trans _ ((p53 - (1 # 2)) * 2 ^ e)); [apply Qmult_le_compat_r; lra|]. rewrite !(Qmult_comm (p53 - (1 # 2))).
    apply Qmult_le_compat_r; [exact Hp|]. pose proof p52_big. pose proof p5253. lra.
  - intros m' e' Hf. destruct (Q_dec (bin m e) (bin m' e')) as [[L|L]|E].
    + pose proof (bin_above _ _ _ _ Nm Hf L) as G. assert (E1 : bin (m + 1) e == bin m e + 2 ^ e).
      { unfold bin. rewrite N2Z.inj_add, inject_Z_plus. change (inject_Z (Z.of_N 1)) with 1. ring. }
      rewrite (Qabs_neg (x - bin m' e')) by lra. assert (Qabs (x - bin m e) < - (x - bin m' e')) by lra. split; [lra|]. intros E. lra.
    + pose proof (bin_below _ _ _ _ Nm Hf L) as G. assert (E1 : 2 ^ e == 2 * 2 ^ (e - 1)).
      { replace e with (e - 1 + 1)%Z at 1 by lia. apply pow2_succ. }
      rewrite (Qabs_pos (x - bin m' e')) by lra. assert (Qabs (x - bin m e) < x - bin m' e') by lra. split; [lra|]. intros E. lra.
    + split; [rewrite E; apply Qle_refl|]. auto.
Qed.

(** ** Decimals *)
Definition dec (d : N) (k : Z) : Q := nq d * 10 ^ k.
Lemma pow10_pos k : 0 < 10 ^ k.
Proof. apply Qpower_0_lt. reflexivity. Qed.
Lemma nq_pow10' p : nq (10 ^ Npos p) == 10 ^ Zpos p.
Proof. unfold nq. rewrite N2Z.inj_pow. apply Zpower_Qpower. lia. Qed.
Lemma of_dec_ok d k : nearest64 (dec d k) (f64_of_dec d k).
Proof.
  unfold f64_of_dec, dec. destruct k as [|p|p].
  - eapply nearest64_wd; [|apply f64_of_ratio_ok; lia]. rewrite nq_mul. change (nq (10 ^ Z.to_N 0)) with 1. change (nq 1) with 1. change (10 ^ 0) with 1. field.
  - eapply nearest64_wd; [|apply f64_of_ratio_ok; lia]. change (Z.to_N (Zpos p)) with (Npos p). rewrite nq_mul, nq_pow10'. change (nq 1) with 1. field.
  - eapply nearest64_wd; [|apply f64_of_ratio_ok; pose proof (N.pow_nonzero 10 (Npos p)); lia]. rewrite nq_pow10'. change (Zneg p) with (- Zpos p)%Z.
    rewrite Qpower_opp. reflexivity.
Qed.
Lemma ratio10_ok m e k n d : ratio10 m e k = (n, d) -> (0 < d)%N /\ bin m e == nq n / nq d * 10 ^ k.
Proof.
  unfold ratio10. intros H. assert (S : exists n0 d0, match e with Z0 => (m, 1%N) | Zpos p => (N.shiftl m (Npos p), 1%N) | Zneg p => (m, N.shiftl 1 (Npos p)) end = (n0, d0) /\
    (0 < d0)%N /\ bin m e == nq n0 / nq d0).
  { destruct e as [|p|p]; eexists _, _; (split; [reflexivity|]).
    - split; [lia|]. unfold bin. fold (nq m). change (2 ^ 0) with 1. change (nq 1) with 1. field.
    - split; [lia|]. rewrite shiftl_q. change (nq 1) with 1. unfold bin. fold (nq m). change (Z.of_N (Npos p)) with (Zpos p). field.
    - split; [rewrite N.shiftl_mul_pow2, N.mul_1_l; pose proof (N.pow_nonzero 2 (Npos p)); lia|]. rewrite shiftl_q. change (nq 1) with 1. unfold bin. fold (nq m).
      change (Zneg p) with (- Zpos p)%Z. rewrite Qpower_opp. change (Z.of_N (Npos p)) with (Zpos p). pose proof (pow2_pos (Zpos p)). field. lra. }
  destruct S as (n0 & d0 & E & Hd & Hv). rewrite E in H. rewrite Hv. pose proof (nq_pos _ Hd) as Pd. destruct k as [|p|p]; pose proof (f_equal fst H) as Hf; pose proof (f_equal snd H) as Hs; cbn [fst snd] in Hf, Hs; subst n d; clear H.
  - split; [exact Hd|]. change (10 ^ 0) with 1. field. lra.
  - assert (0 < 10 ^ Npos p)%N by (pose proof (N.pow_nonzero 10 (Npos p)); lia). split; [nia|]. rewrite nq_mul, nq_pow10'. pose proof (pow10_pos (Zpos p)). field. lra.
  - split; [exact Hd|]. rewrite nq_mul, nq_pow10'. change (Zneg p) with (- Zpos p)%Z. rewrite Qpower_opp. pose proof (pow10_pos (Zpos p)). field. lra.
Qed.
Lemma f64_eqb_eq a b : f64_eqb a b = true -> a = b.
Proof.
  destruct a as [m e|], b as [m' e'|]; cbn; try discriminate; try reflexivity. intros H. apply andb_true_iff in H as [H1 H2].
  apply N.eqb_eq in H1. apply Z.eqb_eq in H2. congruence.
Qed.
Lemma f64_eqb_refl a : f64_eqb a a = true.
Proof. destruct a as [m e|]; [|reflexivity]. cbn. rewrite N.eqb_refl, Z.eqb_refl. reflexivity. Qed.
Lemma try_some m e v k d : try_k m e v k = Some d -> f64_of_dec d k = v.
Proof.
  unfold try_k. destruct (ratio10 m e k) as [n' d'].
  destruct (f64_eqb (f64_of_dec (rne n' d') k) v) eqn:E1; [intros [= <-]; apply f64_eqb_eq, E1|].
  destruct (f64_eqb (f64_of_dec (n' / d') k) v) eqn:E2; [intros [= <-]; apply f64_eqb_eq, E2|].
  destruct (f64_eqb (f64_of_dec (n' / d' + 1) k) v) eqn:E3; [intros [= <-]; apply f64_eqb_eq, E3|discriminate].
Qed.
Lemma try_fine m e k : normal64 m e -> 2 * 10 ^ k < 2 ^ e -> try_k m e (FFin m e) k <> None.
Proof.
  intros Nm Hk. unfold try_k. destruct (ratio10 m e k) as [n d] eqn:R. apply ratio10_ok in R as [Hd Hv].
  destruct (rne_Q n d _ Hd (Qeq_refl _)) as (A & B & _). pose proof (pow10_pos k) as Hp.
  assert (E : f64_of_dec (rne n d) k = FFin m e).
  { apply (nearest64_unique (dec (rne n d) k)); [apply of_dec_ok|]. apply close_nearest; [exact Nm|]. apply Qabs_Qlt_condition. rewrite Hv. unfold dec.
    set (q := nq (rne n d)) in *. set (y := nq n / nq d) in *. set (t := 10 ^ k) in *. clearbody q y t. split; nra. }
  rewrite E, f64_eqb_refl. discriminate.
Qed.
Lemma dec0 k : f64_of_dec 0 k = FFin 0 (-1074).
Proof. destruct k; reflexivity. Qed.
Lemma shortest_ok fuel m e : normal64 m e -> m <> 0%N -> forall k, (exists j, (j < fuel)%nat /\ 2 * 10 ^ (k - Z.of_nat j) < 2 ^ e) ->
  forall d k', shortest fuel m e (FFin m e) k = (d, k') -> d <> 0%N /\ f64_of_dec d k' = FFin m e.
Proof.
  intros Nm Hm. induction fuel as [|f IH]; intros k (j & Hj & Hk) d k' H; [lia|]. cbn [shortest] in H.
  assert (Next : try_k m e (FFin m e) k <> None \/ exists j, (j < f)%nat /\ 2 * 10 ^ (k - 1 - Z.of_nat j) < 2 ^ e).
  { destruct j as [|j]; [left; apply try_fine; [exact Nm|]; replace k with (k - Z.of_nat 0)%Z by lia; exact Hk|]. right. exists j. split; [lia|].
    replace (k - 1 - Z.of_nat j)%Z with (k - Z.of_nat (S j))%Z by lia. exact Hk. }
  destruct (try_k m e (FFin m e) k) as [d0|] eqn:T.
  - apply try_some in T. destruct (N.eqb_spec d0 0) as [->|Hd0].
    + exfalso. rewrite dec0 in T. injection T as T _. congruence.
    + injection H as <- <-. auto.
  - destruct Next as [G|G]; [congruence|]. exact (IH _ G _ _ H).
Qed.
(** The search goes down far enough: a finite computation over all exponents. *)
Definition reach (b e : Z) : bool :=
  let k := (b * 30103 / 100000 + 2 - 23)%Z in
  (2 * 10 ^ (Z.max k 0) * 2 ^ (Z.max (- e) 0) <? 2 ^ (Z.max e 0) * 10 ^ (Z.max (- k) 0))%Z.
Fixpoint upto (n : nat) (f : Z -> bool) : bool := match n with O => true | S n => f (Z.of_nat n) && upto n f end.
Lemma upto_at n f i : upto n f = true -> (0 <= i < Z.of_nat n)%Z -> f i = true.
Proof.
  induction n as [|n IH]; intros H Hi; [lia|]. cbn [upto] in H. apply andb_true_iff in H as [H1 H2].
  destruct (Z.eq_dec i (Z.of_nat n)) as [->|Hn]; [exact H1|]. apply IH; [exact H2|lia].
Qed.
Lemma reach_low : upto 53 (fun l => reach (l - 1074) (-1074)) = true.
Proof. vm_compute. reflexivity. Qed.
Lemma reach_all : upto 2046 (fun i => reach (52 + (i - 1074)) (i - 1074)) = true.
Proof. vm_compute. reflexivity. Qed.
Lemma log_normal m e : normal64 m e -> m <> 0%N -> reach (Z.of_N (N.log2 m) + e) e = true.
Proof.
  intros [[Hm He] Hn] H0. assert (L : (N.log2 m < 53)%N) by (apply N.log2_lt_pow2; lia).
  destruct Hn as [->|Hn].
  - pose proof (upto_at _ _ (Z.of_N (N.log2 m)) reach_low ltac:(lia)) as G. exact G.
  - assert (E : N.log2 m = 52%N).
    { apply N.le_antisymm; [lia|]. assert (N.log2 (2 ^ 52) <= N.log2 m)%N by (apply N.log2_le_mono; lia). rewrite N.log2_pow2 in * by lia. lia. }
    rewrite E. pose proof (upto_at _ _ (e + 1074)%Z reach_all ltac:(lia)) as G. cbv beta in G. replace (e + 1074 - 1074)%Z with e in G by lia. exact G.
Qed.
Lemma q_split (b : Q) (z : Z) : ~ b == 0 -> b ^ z == b ^ Z.max z 0 / b ^ Z.max (- z) 0.
Proof.
  intros Hb. destruct (Z.le_gt_cases 0 z) as [H|H].
  - rewrite Z.max_l, Z.max_r by lia. change (b ^ 0) with 1. field.
  - rewrite Z.max_r, Z.max_l by lia. change (b ^ 0) with 1. rewrite Qpower_opp. unfold Qdiv. rewrite Qinv_involutive. ring.
Qed.
Lemma reach_q b e : reach b e = true -> 2 * 10 ^ (b * 30103 / 100000 + 2 - 23) < 2 ^ e.
Proof.
  unfold reach. set (k := (b * 30103 / 100000 + 2 - 23)%Z). intros H. apply Z.ltb_lt in H. rewrite Zlt_Qlt, !inject_Z_mult in H.
  rewrite !Zpower_Qpower in H by lia. change (inject_Z 2) with 2 in H. change (inject_Z 10) with 10 in H.
  rewrite (q_split 10 k), (q_split 2 e) by discriminate.
  pose proof (pow10_pos (Z.max (- k) 0)) as P1. pose proof (pow2_pos (Z.max (- e) 0)) as P2.
  set (a := 10 ^ Z.max k 0) in *. set (a' := 10 ^ Z.max (- k) 0) in *. set (c := 2 ^ Z.max e 0) in *. set (c' := 2 ^ Z.max (- e) 0) in *. clearbody a a' c c'.
  assert (G : 2 * (a / a') * (a' * c') < c / c' * (a' * c')).
  { let E := fresh in assert (E : (2 * (a / a') * (a' * c')) == (2 * a * c')) by (field; lra); rewrite E; clear E. let E := fresh in assert (E : (c / c' * (a' * c')) == (c * a')) by (field; lra); rewrite E; clear E. exact H. }
  apply Qmult_lt_r in G; [exact G|]. nra.
Qed.

(** ** The digits *)
Local Open Scope N_scope.
Lemma strip_ok fuel : forall d k d' k', strip_zeros fuel d k = (d', k') -> (dec d k == dec d' k')%Q.
Proof.
  induction fuel as [|f IH]; intros d k d' k' H; cbn [strip_zeros] in H; [injection H as <- <-; reflexivity|].
  destruct ((d mod 10 =? 0) && negb (d =? 0)) eqn:E; [|injection H as <- <-; reflexivity].
  apply andb_true_iff in E as [E _]. apply N.eqb_eq in E. apply IH in H. rewrite <- H. unfold dec.
  pose proof (N.div_mod d 10 ltac:(discriminate)) as D. rewrite E, N.add_0_r in D. rewrite D at 1. rewrite nq_mul, Qpower_plus by discriminate. change (nq 10) with 10%Q. change (10 ^ 1)%Q with 10%Q. ring.
Qed.
Lemma zeros_digits n : Forall digit (zeros n).
Proof. unfold zeros. induction n; cbn; constructor; [vm_compute; split; discriminate|exact IHn]. Qed.
Lemma zeros_value n k : digits_value k (zeros n) = k * 10 ^ N.of_nat n.
Proof.
  revert k. induction n as [|n IH]; intros k; [cbn; lia|]. change (zeros (S n)) with (48 :: zeros n). cbn [digits_value]. rewrite IH, Nat2N.inj_succ, N.pow_succ_r'. lia.
Qed.
Definition written (t : str) (x : Q) : Prop :=
  exists d1 d2, digits d1 /\ Forall digit d2 /\ (t = d1 /\ d2 = [] \/ d2 <> [] /\ t = d1 ++ s "." ++ d2) /\ (decimal_value d1 d2 == x)%Q.
Lemma show_ok d k : written (show_dec d k) (dec d k).
Proof.
  destruct (dec_of_N_ok d) as [[N0 F] V]. unfold show_dec. set (ds := dec_of_N d) in *.
  assert (Pos : forall n, k = Z.of_nat n -> written (ds ++ zeros n) (dec d k)).
  { intros n ->. exists (ds ++ zeros n), []. split; [|split; [constructor|split; [left; auto|]]].
    - split; [destruct ds; [contradiction|discriminate]|]. apply Forall_app. split; [exact F|apply zeros_digits].
    - unfold decimal_value, dec. rewrite app_nil_r, digits_value_app, V, zeros_value. cbn [List.length Z.of_nat]. fold (nq (d * 10 ^ N.of_nat n)).
      rewrite nq_mul, nq_pow10. field. }
  destruct k as [|p|p].
  - apply (Pos 0%nat). reflexivity.
  - change (Z.to_nat (Z.pos p)) with (Pos.to_nat p). apply Pos. rewrite positive_nat_Z. reflexivity.
  - assert (Neg : forall d1 d2, digits d1 -> Forall digit d2 -> List.length d2 = Pos.to_nat p -> digits_value 0 (d1 ++ d2) = d -> written (d1 ++ s "." ++ d2) (dec d (Zneg p))).
    { intros d1 d2 H1 H2 H3 H4. exists d1, d2. split; [exact H1|]. split; [exact H2|]. split.
      - right. split; [|reflexivity]. intros ->. cbn in H3. pose proof (Pos2Nat.is_pos p). lia.
      - unfold decimal_value, dec. rewrite H4, H3, positive_nat_Z. fold (nq d). change (Zneg p) with (- Zpos p)%Z. rewrite Qpower_opp. reflexivity. }
    destruct (Nat.leb_spec (List.length ds) (Pos.to_nat p)) as [L|L].
    + apply (Neg (s "0") (zeros (Pos.to_nat p - List.length ds) ++ ds)).
      * split; [discriminate|]. constructor; [vm_compute; split; discriminate|constructor].
      * apply Forall_app. split; [apply zeros_digits|exact F].
      * rewrite app_length. unfold zeros. rewrite repeat_length. lia.
      * cbn [app s digits_value]. rewrite digits_value_app, zeros_value. exact V.
    + apply Neg.
      * split; [|apply Forall_forall; intros c Hc; rewrite Forall_forall in F; apply F; rewrite <- (firstn_skipn (List.length ds - Pos.to_nat p) ds); apply in_or_app; auto].
        intros E. apply (f_equal (@List.length _)) in E. rewrite firstn_length in E. change (List.length (@nil char)) with 0%nat in E. pose proof (Pos2Nat.is_pos p). revert E L. generalize (List.length ds) (Pos.to_nat p). intros a b E L. lia.
      * apply Forall_forall; intros c Hc; rewrite Forall_forall in F; apply F; rewrite <- (firstn_skipn (List.length ds - Pos.to_nat p) ds); apply in_or_app; auto.
      * rewrite skipn_length. lia.
      * rewrite firstn_skipn. exact V.
Qed.
Lemma written_wd t x y : (x == y)%Q -> written t x -> written t y.
Proof. intros E (d1 & d2 & H1 & H2 & H3 & H4). exists d1, d2. rewrite <- E. auto. Qed.

Theorem f64_shown m e : normal64 m e -> exists x, written (f64_to_string (FFin m e)) x /\ nearest64 x (FFin m e).
Proof.
  intros Nm. cbn [f64_to_string]. destruct (N.eqb_spec m 0) as [->|Hm].
  - exists 0%Q. split.
    + exists (s "0"), []. split; [split; [discriminate|constructor; [vm_compute; split; discriminate|constructor]]|]. split; [constructor|]. split; [auto|]. reflexivity.
    + destruct Nm as [F [->|G]]; [|lia]. pose proof (of_dec_ok 0 0) as H. rewrite dec0 in H. eapply nearest64_wd; [|exact H]. reflexivity.
  - set (b := (Z.of_N (N.log2 m) + e)%Z). destruct (shortest 24 m e (FFin m e) (b * 30103 / 100000 + 2)) as [d k] eqn:S.
    destruct (strip_zeros 400 d k) as [d' k'] eqn:T. apply (shortest_ok _ _ _ Nm Hm) in S as [_ S].
    + exists (dec d' k'). split; [apply show_ok|]. eapply nearest64_wd; [exact (strip_ok _ _ _ _ _ T)|]. rewrite <- S. apply of_dec_ok.
    + exists 23%nat. split; [lia|]. change (Z.of_nat 23) with 23%Z. apply reach_q. apply log_normal; assumption.
Qed.

(** ** Values *)
Lemma decimal_reads f raw : spells raw (VDecimal f) -> f <> FInf ->
  spells (f64_to_string f) (VDecimal f) \/ spells (f64_to_string f ++ s ".") (VDecimal f).
Proof.
  intros H Hf. destruct f as [m e|]; [|congruence]. assert (Nm : normal64 m e) by (inversion H; subst; match goal with G : nearest64 _ _ |- _ => apply G end).
  destruct (f64_shown m e Nm) as (x & (d1 & d2 & H1 & H2 & H3 & H4) & Hx).
  assert (Hn : nearest64 (decimal_value d1 d2) (FFin m e)) by (eapply nearest64_wd; [symmetry; exact H4|exact Hx]).
  destruct H3 as [[-> ->]|[_ ->]]; [right|left].
  - change (s ".") with (s "." ++ []). apply sp_dec; assumption.
  - apply sp_dec; assumption.
Qed.
Lemma integer_reads z raw : spells raw (VInteger z) -> spells (dec_of_Z z) (VInteger z).
Proof.
  intros H. inversion H as [| | | |d Hd Hm| | | | | |]; subst. assert (E : dec_of_Z (Z.of_N (digits_value 0 raw)) = dec_of_N (digits_value 0 raw)) by (destruct (digits_value 0 raw); reflexivity).
  rewrite E. destruct (dec_of_N_ok (digits_value 0 raw)) as [G V]. pose proof (sp_int _ G) as K. rewrite V in K. exact (K Hm).
Qed.
Definition reads_back (v : value_t) : Prop :=
  match v with
  | VString t | VExpr t => value_to_string v = t
  | VDecimal FInf => value_to_string v = s "inf"
  | VDecimal _ => spells (value_to_string v) v \/ spells (value_to_string v ++ s ".") v
  | _ => spells (value_to_string v) v
  end.
Theorem spelled_reads raw v : spells raw v -> reads_back v.
Proof.
  intros H. pose proof H as H0. destruct H as [| | | |d H1 H2|d1 d2 f H1 H2 H3| | | |h H1 H2|raw H1]; cbn [reads_back value_to_string]; try reflexivity; try constructor; auto.
  - eapply integer_reads. exact H0.
  - destruct f as [m e|]; [|reflexivity]. eapply decimal_reads; [exact H0|discriminate].
Qed.
Lemma p_printed inp x : parse_dbml_unchecked inp = Some (Ok x) -> forall l, In l (all_literals x) -> reads_back (lit_value l).
Proof. intros P l H. apply (n_lit _ _ (unchecked_ok inp x P)) in H as (_ & H). eapply spelled_reads. exact H. Qed.
