(** * WorkOk: bounds on the work of a parse and on the size of its result (C65). *)

From Verif Require Import Work PegFacts LexRules OptimOk Lex.

Definition len (x : str) : N := N.of_nat (List.length x).
Lemma len_app a b : len (a ++ b) = len a + len b.
Proof. unfold len. rewrite app_length. lia. Qed.

(** ** The clock changes nothing *)
Section Same.
  Variable sw : str -> timed.
  Let sk (i : str) : pres := fst (sw i).

  Lemma bind_w_fst r off g g' : (forall o i, fst (g o i) = g' o i) -> fst (bind_w r off g) = bind_res (fst r) off g'.
  Proof.
    intros H. destruct r as [res n]. destruct res as [t i ps| |]; try reflexivity.
    cbn [bind_w fst bind_res]. rewrite <- H. destruct (g (off + blen t) i) as [res2 n2]. reflexivity.
  Qed.
  Lemma repeat_w_fst f f' : (forall o i, fst (f o i) = f' o i) -> forall fuel off inp, fst (repeat_w f fuel off inp) = Peg.repeat f' fuel off inp.
  Proof.
    intros H. induction fuel as [|fuel IH]; intros off inp; [reflexivity|]. cbn [repeat_w Peg.repeat].
    specialize (H off inp). destruct (f off inp) as [res n]. cbn [fst] in H. rewrite <- H.
    destruct res as [t i ps| |]; try reflexivity.
    rewrite <- IH. destruct (repeat_w f fuel (off + blen t) i) as [res2 n2]. reflexivity.
  Qed.
  Lemma do_skip_w_fst a i : fst (do_skip_w sw a i) = do_skip sk a i.
  Proof. destruct a; reflexivity. Qed.
  Lemma eval_w_fst e : forall a off inp, fst (eval_w sw e a off inp) = eval sk e a off inp.
  Proof.
    induction e as [x|x|lo hi| | | |e1 IH1 e2 IH2|e1 IH1 e2 IH2|e IH|e IH|e IH|r t b IH]; intros a off inp; try reflexivity; cbn [eval_w eval tick fst].
    - rewrite (bind_w_fst _ _ _ (eval sk e2 a)) by auto.
      rewrite (bind_w_fst _ _ _ (fun _ i => do_skip sk a i)) by (intros; apply do_skip_w_fst). now rewrite IH1.
    - specialize (IH1 a off inp). destruct (eval_w sw e1 a off inp) as [res n]. cbn in IH1. rewrite <- IH1. destruct res; try reflexivity. cbn [tick fst]. apply IH2.
    - specialize (IH a off inp). destruct (eval_w sw e a off inp) as [res n]. cbn in IH. rewrite <- IH. destruct res; reflexivity.
    - assert (Hs : forall o i, fst (bind_w (do_skip_w sw a i) o (eval_w sw e a)) = bind_res (do_skip sk a i) o (eval sk e a)).
      { intros o i. rewrite (bind_w_fst _ _ _ (eval sk e a)) by auto. now rewrite do_skip_w_fst. }
      destruct a; [|apply repeat_w_fst; auto..].
      pose proof (IH NonAtomic off inp) as E. destruct (eval_w sw e NonAtomic off inp) as [res n]. cbn [fst] in E. rewrite <- E.
      destruct res as [t i ps| |]; try reflexivity.
      rewrite (bind_w_fst _ _ _ (fun off1 inp1 => Peg.repeat (fun o i => bind_res (do_skip sk NonAtomic i) o (eval sk e NonAtomic)) (fuel_for inp1) off1 inp1)); [reflexivity|].
      intros o i0. apply repeat_w_fst. exact Hs.
    - specialize (IH a off inp). destruct (eval_w sw e a off inp) as [res n]. cbn in *. now rewrite IH.
    - destruct t; [specialize (IH a off inp); destruct (eval_w sw b a off inp)|specialize (IH Atomic off inp); destruct (eval_w sw b Atomic off inp)|specialize (IH CompoundAtomic off inp); destruct (eval_w sw b CompoundAtomic off inp)];
        cbn [fst] in *; now rewrite IH.
  Qed.
End Same.

(** ** Bounds *)
Lemma pow_mono X p q : 1 <= X -> p <= q -> X ^ p <= X ^ q.
Proof. intros. apply N.pow_le_mono_r; lia. Qed.
Lemma pow_pos' X p : 1 <= X -> 1 <= X ^ p.
Proof. intros. pose proof (N.pow_nonzero X p). lia. Qed.

(** A successful run takes at most [pA * (k + 1) * X^pP + rC * X^rP] where [k] is the length consumed, a failing run at
    most [fB * X^fP]; [X] is anything above the length of the input.  [wd]: at most that much is consumed. *)
Record bnd := Bnd { wd : option N; pA : N; pP : N; rC : N; rP : N; fB : N; fP : N }.

Definition ok_cost (b : bnd) (k X : N) : N := pA b * (k + 1) * X ^ pP b + rC b * X ^ rP b.
Definition fail_cost (b : bnd) (X : N) : N := fB b * X ^ fP b.
(** A bound on successful runs whatever they consume: [full b * X ^ fullP b]. *)
Definition full (b : bnd) : N := (match wd b with Some w => pA b * (w + 1) | None => pA b end) + rC b.
Definition fullP (b : bnd) : N := N.max (match wd b with Some _ => pP b | None => pP b + 1 end) (rP b).

Definition width_ok (b : bnd) (t : str) : Prop := match wd b with Some w => len t <= w | None => True end.
Definition meets (b : bnd) (inp : str) (x : timed) : Prop :=
  match fst x with
  | ROk t r _ => inp = t ++ r /\ width_ok b t /\ forall X, len inp + 1 <= X -> snd x <= ok_cost b (len t) X
  | RFail => forall X, len inp + 1 <= X -> snd x <= fail_cost b X
  | RLoop => True
  end.

Lemma full_ok b t inp X : width_ok b t -> len t <= len inp -> len inp + 1 <= X -> ok_cost b (len t) X <= full b * X ^ fullP b.
Proof.
  intros W L HX. unfold ok_cost, full, fullP, width_ok in *.
  assert (rC b * X ^ rP b <= rC b * X ^ N.max (match wd b with Some _ => pP b | None => pP b + 1 end) (rP b)).
  { apply N.mul_le_mono_l, pow_mono; lia. }
  destruct (wd b) as [w|].
  - assert (pA b * (len t + 1) * X ^ pP b <= pA b * (w + 1) * X ^ N.max (pP b) (rP b)).
    { apply N.mul_le_mono; [apply N.mul_le_mono_l; lia|apply pow_mono; lia]. }
    rewrite N.mul_add_distr_r. lia.
  - assert (pA b * (len t + 1) * X ^ pP b <= pA b * X ^ N.max (pP b + 1) (rP b)).
    { transitivity (pA b * X ^ (pP b + 1)); [|apply N.mul_le_mono_l, pow_mono; lia].
      rewrite N.pow_add_r, N.pow_1_r, <- N.mul_assoc. apply N.mul_le_mono_l. rewrite (N.mul_comm (X ^ pP b)). apply N.mul_le_mono_r. lia. }
    rewrite N.mul_add_distr_r. lia.
Qed.

(** The combinations.  [sb] bounds the skipping between the parts of a sequence. *)
Definition leaf (w c : N) : bnd := Bnd (Some w) c 0 0 0 c 0.
Definition none_b : bnd := leaf 0 0.
Definition max3 a b c := N.max a (N.max b c).
Definition wsum (x y : option N) : option N := match x, y with Some a, Some b => Some (a + b) | _, _ => None end.
Definition wmax (x y : option N) : option N := match x, y with Some a, Some b => Some (N.max a b) | _, _ => None end.
Definition seq_b (b1 sb b2 : bnd) : bnd :=
  Bnd (wsum (wd b1) (wsum (wd sb) (wd b2)))
      (1 + pA b1 + pA sb + pA b2) (max3 (pP b1) (pP sb) (pP b2))
      (rC b1 + rC sb + rC b2) (max3 (rP b1) (rP sb) (rP b2))
      (1 + fB b1 + full b1 + full sb + fB b2) (N.max (fP b1) (max3 (fullP b1) (fullP sb) (fP b2))).
Definition alt_b (b1 b2 : bnd) : bnd :=
  Bnd (wmax (wd b1) (wd b2)) (1 + pA b1 + pA b2) (N.max (pP b1) (pP b2))
      (fB b1 + rC b1 + rC b2) (max3 (fP b1) (rP b1) (rP b2))
      (1 + fB b1 + fB b2) (N.max (fP b1) (fP b2)).
Definition opt_b (b : bnd) : bnd :=
  Bnd (wd b) (1 + pA b) (pP b) (rC b + fB b) (N.max (rP b) (fP b)) 0 0.
(** Each round consumes something. *)
Definition rep_b (sb b : bnd) : bnd :=
  Bnd None (3 + 2 * pA b + 2 * pA sb + rC b + rC sb) (N.max (N.max (pP b) (rP b)) (N.max (pP sb) (rP sb)))
      (fB b + full sb) (N.max (fP b) (fullP sb)) 0 0.
Definition not_b (b : bnd) : bnd :=
  Bnd (Some 0) 1 0 (fB b) (fP b) (1 + full b) (fullP b).
Definition rule_b (b : bnd) : bnd :=
  Bnd (wd b) (1 + pA b) (pP b) (rC b) (rP b) (1 + fB b) (fP b).

(** The analysis; [sb] bounds [hidden::skip] together with its tick. *)
Fixpoint bound (sb : bnd) (e : pexp) (a : atomicity) : bnd :=
  let gap := match a with NonAtomic => sb | _ => none_b end in
  match e with
  | EStr x | EInsens x => leaf (len x) (1 + len x)
  | ERange _ _ | EAny => leaf 1 1
  | ESoi | EEnd => leaf 0 1
  | ESeq e1 e2 => seq_b (bound sb e1 a) gap (bound sb e2 a)
  | EAlt e1 e2 => alt_b (bound sb e1 a) (bound sb e2 a)
  | EOpt e1 => opt_b (bound sb e1 a)
  | ERep e1 => rep_b gap (bound sb e1 a)
  | ENot e1 => not_b (bound sb e1 a)
  | ERule _ t b => rule_b (bound sb b (match t with TNormal => a | TAtomic => Atomic | TCompound => CompoundAtomic end))
  end.

Lemma term_le A y p A' y' P X : 1 <= X -> A <= A' -> y <= y' -> p <= P -> A * y * X ^ p <= A' * y' * X ^ P.
Proof. intros. apply N.mul_le_mono; [now apply N.mul_le_mono|now apply pow_mono]. Qed.
Lemma term_le' A p P X : 1 <= X -> p <= P -> A * X ^ p <= A * X ^ P.
Proof. intros. apply N.mul_le_mono_l. now apply pow_mono. Qed.

Section Bounds.
  Variable sw : str -> timed.
  Let sk (i : str) : pres := fst (sw i).
  Variable sb : bnd.
  (** What is known of skipping. *)
  Hypothesis Ssk : forall i t r ps, sk i = ROk t r ps -> i = t ++ r /\ ps = [].
  Hypothesis Snf : forall i, sk i <> RFail.
  Hypothesis Sb : forall i, meets sb i (tick 1 (sw i)).

  Definition gap_b (a : atomicity) : bnd := match a with NonAtomic => sb | _ => none_b end.
  Lemma gap_meets a i : meets (gap_b a) i (do_skip_w sw a i).
  Proof.
    destruct a; cbn [gap_b do_skip_w]; [apply Sb|..]; (split; [reflexivity|]); (split; [cbn; lia|]); intros X _; unfold ok_cost; cbn; lia.
  Qed.
  Lemma gap_nofail a i n : do_skip_w sw a i <> (RFail, n).
  Proof. destruct a; cbn [do_skip_w]; [|discriminate..]. unfold tick. intros [= H _]. exact (Snf _ H). Qed.

  Lemma tick_meets b b' inp x : meets b inp x -> wd b' = wd b -> pA b' = 1 + pA b -> pP b' = pP b -> rC b' = rC b -> rP b' = rP b -> fB b' = 1 + fB b -> fP b' = fP b -> meets b' inp (tick 1 x).
  Proof.
    unfold meets, tick, width_ok. cbn [fst snd]. intros H E1 E2 E3 E4 E5 E6 E7. destruct (fst x) as [t r ps| |]; [|intros X HX; specialize (H X HX)|exact I].
    - destruct H as (-> & W & H). rewrite E1. do 2 (split; auto). intros X HX. specialize (H X HX). unfold ok_cost in *. rewrite E2, E3, E4, E5.
      pose proof (pow_pos' X (pP b)). rewrite len_app in HX. assert (1 <= (len t + 1) * X ^ pP b) by (apply (N.mul_le_mono 1 _ 1); lia). lia.
    - unfold fail_cost in *. rewrite E6, E7. pose proof (pow_pos' X (fP b)). lia.
  Qed.

  Lemma seq_meets b1 b2 a x1 g off inp : meets b1 inp x1 -> (forall o i, meets b2 i (g o i)) ->
    meets (seq_b b1 (gap_b a) b2) inp (tick 1 (bind_w (bind_w x1 off (fun _ i => do_skip_w sw a i)) off g)).
  Proof.
    intros H1 H2. destruct x1 as [[t1 i1 ps1| |] n1].
    - destruct H1 as (E1 & W1 & H1). cbn [snd] in H1. cbn [bind_w].
      pose proof (gap_meets a i1) as Hg. pose proof (gap_nofail a i1) as Hnf. destruct (do_skip_w sw a i1) as [[gp i2 psg| |] ng]; [|congruence|exact I].
      destruct Hg as (Eg & Wg & Hg). cbn [snd] in Hg. cbn [bind_w].
      specialize (H2 (off + blen (t1 ++ gp)) i2). destruct (g (off + blen (t1 ++ gp)) i2) as [[t2 i3 ps2| |] n2]; [| |exact I].
      + destruct H2 as (E2 & W2 & H2). cbn [snd] in H2. split; [cbn [fst]; subst; now rewrite <- !app_assoc|]. split.
        * cbn [fst]. clear - W1 W2 Wg. unfold width_ok in *. cbn [wd seq_b]. destruct (wd b1), (wd (gap_b a)), (wd b2); cbn [wsum]; trivial. rewrite !len_app. lia.
        * intros X HX. cbn [snd fst tick].
          assert (L : len inp = len t1 + (len gp + (len t2 + len i3))) by (subst; rewrite !len_app; lia).
          assert (L1 : len i1 + 1 <= X) by (subst; rewrite !len_app in *; lia). assert (L2 : len i2 + 1 <= X) by (subst; rewrite !len_app in *; lia).
          specialize (H1 X HX). specialize (Hg X L1). specialize (H2 X L2). unfold ok_cost in *. cbn [seq_b pA pP rC rP].
          rewrite !len_app. set (Y := len t1 + len gp + len t2 + 1). set (P := max3 (pP b1) (pP (gap_b a)) (pP b2)). set (R := max3 (rP b1) (rP (gap_b a)) (rP b2)).
          assert (X1 : 1 <= X) by lia.
          pose proof (term_le (pA b1) (len t1 + 1) (pP b1) (pA b1) Y P X X1 ltac:(lia) ltac:(lia) ltac:(unfold P, max3; lia)).
          pose proof (term_le (pA (gap_b a)) (len gp + 1) (pP (gap_b a)) (pA (gap_b a)) Y P X X1 ltac:(lia) ltac:(lia) ltac:(unfold P, max3; lia)).
          pose proof (term_le (pA b2) (len t2 + 1) (pP b2) (pA b2) Y P X X1 ltac:(lia) ltac:(lia) ltac:(unfold P, max3; lia)).
          pose proof (term_le' (rC b1) (rP b1) R X X1 ltac:(unfold R, max3; lia)).
          pose proof (term_le' (rC (gap_b a)) (rP (gap_b a)) R X X1 ltac:(unfold R, max3; lia)).
          pose proof (term_le' (rC b2) (rP b2) R X X1 ltac:(unfold R, max3; lia)).
          assert (1 <= Y * X ^ P) by (apply (N.mul_le_mono 1 _ 1); [lia|now apply pow_pos']). clearbody Y P R. lia.
      + intros X HX. cbn [snd fst tick].
        assert (L : len inp = len t1 + (len gp + len i2)) by (subst; rewrite !len_app; lia).
        assert (L1 : len i1 + 1 <= X) by (subst; rewrite !len_app in *; lia). assert (L2 : len i2 + 1 <= X) by (subst; rewrite !len_app in *; lia).
        specialize (H1 X HX). specialize (Hg X L1). specialize (H2 X L2). cbn [snd] in H2. unfold fail_cost in *. cbn [seq_b fB fP].
        set (Q := N.max (fP b1) _). assert (X1 : 1 <= X) by lia.
        pose proof (full_ok b1 t1 inp X W1 ltac:(lia) HX). pose proof (full_ok (gap_b a) gp i1 X Wg ltac:(rewrite Eg, len_app; lia) L1).
        pose proof (term_le' (full b1) (fullP b1) Q X X1 ltac:(unfold Q, max3; lia)).
        pose proof (term_le' (full (gap_b a)) (fullP (gap_b a)) Q X X1 ltac:(unfold Q, max3; lia)).
        pose proof (term_le' (fB b2) (fP b2) Q X X1 ltac:(unfold Q, max3; lia)).
        pose proof (pow_pos' X Q X1). clearbody Q. lia.
    - intros X HX. cbn [snd fst tick bind_w]. specialize (H1 X HX). cbn [snd] in H1. unfold fail_cost in *. cbn [seq_b fB fP].
      set (Q := N.max (fP b1) _). assert (X1 : 1 <= X) by lia.
      pose proof (term_le' (fB b1) (fP b1) Q X X1 ltac:(unfold Q, max3; lia)). pose proof (pow_pos' X Q X1). clearbody Q. lia.
    - exact I.
  Qed.

  Lemma alt_meets b1 b2 inp x1 x2 : meets b1 inp x1 -> meets b2 inp x2 ->
    meets (alt_b b1 b2) inp (tick 1 (let '(res, n) := x1 in match res with RFail => tick n x2 | _ => (res, n) end)).
  Proof.
    intros H1 H2. destruct x1 as [[t1 i1 ps1| |] n1]; [| |exact I].
    - destruct H1 as (-> & W & H1). cbn [snd] in H1. split; [reflexivity|]. cbn [fst tick snd]. split.
      + unfold width_ok in *. cbn [alt_b wd]. destruct (wd b1), (wd b2); cbn [wmax]; trivial. lia.
      + intros X HX. specialize (H1 X HX). unfold ok_cost in *. cbn [alt_b pA pP rC rP]. assert (X1 : 1 <= X) by lia.
        set (P := N.max _ _). set (R := max3 _ _ _).
        pose proof (term_le (pA b1) (len t1 + 1) (pP b1) (pA b1) (len t1 + 1) P X X1 ltac:(lia) ltac:(lia) ltac:(unfold P; lia)).
        pose proof (term_le' (rC b1) (rP b1) R X X1 ltac:(unfold R, max3; lia)).
        assert (1 <= (len t1 + 1) * X ^ P) by (apply (N.mul_le_mono 1 _ 1); [lia|now apply pow_pos']). clearbody P R. lia.
    - destruct x2 as [[t2 i2 ps2| |] n2]; [| |exact I].
      + destruct H2 as (-> & W & H2). cbn [snd] in H2. split; [reflexivity|]. cbn [fst tick snd]. split.
        * unfold width_ok in *. cbn [alt_b wd]. destruct (wd b1), (wd b2); cbn [wmax]; trivial. lia.
        * intros X HX. specialize (H1 X HX). specialize (H2 X HX). cbn [snd] in H1. unfold ok_cost, fail_cost in *. cbn [alt_b pA pP rC rP]. assert (X1 : 1 <= X) by lia.
          set (P := N.max _ _). set (R := max3 _ _ _).
          pose proof (term_le (pA b2) (len t2 + 1) (pP b2) (pA b2) (len t2 + 1) P X X1 ltac:(lia) ltac:(lia) ltac:(unfold P; lia)).
          pose proof (term_le' (rC b2) (rP b2) R X X1 ltac:(unfold R, max3; lia)).
          pose proof (term_le' (fB b1) (fP b1) R X X1 ltac:(unfold R, max3; lia)).
          assert (1 <= (len t2 + 1) * X ^ P) by (apply (N.mul_le_mono 1 _ 1); [lia|now apply pow_pos']). clearbody P R. lia.
      + intros X HX. cbn [fst tick snd]. specialize (H1 X HX). specialize (H2 X HX). cbn [snd] in *. unfold fail_cost in *. cbn [alt_b fB fP]. assert (X1 : 1 <= X) by lia.
        set (Q := N.max _ _).
        pose proof (term_le' (fB b1) (fP b1) Q X X1 ltac:(unfold Q; lia)). pose proof (term_le' (fB b2) (fP b2) Q X X1 ltac:(unfold Q; lia)).
        pose proof (pow_pos' X Q X1). clearbody Q. lia.
  Qed.

  Lemma opt_meets b inp x : meets b inp x -> meets (opt_b b) inp (tick 1 (let '(res, n) := x in match res with RFail => (ROk [] inp [], n) | _ => (res, n) end)).
  Proof.
    intros H1. destruct x as [[t1 i1 ps1| |] n1]; [| |exact I].
    - destruct H1 as (-> & W & H1). cbn [snd] in H1. split; [reflexivity|]. cbn [fst tick snd]. split; [exact W|].
      intros X HX. specialize (H1 X HX). unfold ok_cost in *. cbn [opt_b pA pP rC rP]. assert (X1 : 1 <= X) by lia.
      set (R := N.max _ _). pose proof (term_le' (rC b) (rP b) R X X1 ltac:(unfold R; lia)).
      assert (1 <= (len t1 + 1) * X ^ pP b) by (apply (N.mul_le_mono 1 _ 1); [lia|now apply pow_pos']). clearbody R. lia.
    - split; [reflexivity|]. cbn [fst tick snd]. split; [unfold width_ok; cbn [opt_b wd]; destruct (wd b); trivial; cbn; lia|].
      intros X HX. specialize (H1 X HX). cbn [snd] in H1. unfold ok_cost, fail_cost in *. cbn [opt_b pA pP rC rP]. assert (X1 : 1 <= X) by lia.
      set (R := N.max _ _). pose proof (term_le' (fB b) (fP b) R X X1 ltac:(unfold R; lia)).
      assert (1 <= (len [] + 1) * X ^ pP b) by (apply (N.mul_le_mono 1 _ 1); [lia|now apply pow_pos']). clearbody R. lia.
  Qed.

  Lemma not_meets b inp x : meets b inp x ->
    meets (not_b b) inp (tick 1 (let '(res, n) := x in (match res with RFail => ROk [] inp [] | ROk _ _ _ => RFail | RLoop => RLoop end, n))).
  Proof.
    intros H1. destruct x as [[t1 i1 ps1| |] n1]; [| |exact I].
    - destruct H1 as (E & W & H1). cbn [snd] in H1. intros X HX. cbn [fst tick snd]. specialize (H1 X HX). unfold fail_cost. cbn [not_b fB fP].
      pose proof (full_ok b t1 inp X W ltac:(rewrite E, len_app; lia) HX). pose proof (pow_pos' X (fullP b)). lia.
    - split; [reflexivity|]. cbn [fst tick snd]. split; [cbn; lia|].
      intros X HX. specialize (H1 X HX). cbn [snd] in H1. unfold ok_cost, fail_cost in *. cbn [not_b pA pP rC rP]. rewrite N.pow_0_r. lia.
  Qed.

  (** The rounds of a loop after the first match; [st]: one round, which consumes something when it succeeds. *)
  Section Loop.
    Variables (b : bnd) (a : atomicity) (f : N -> str -> timed).
    Hypothesis Hf : forall o i, meets b i (f o i).
    Hypothesis Hn : forall o i t r ps n, f o i = (ROk t r ps, n) -> t <> [].
    Let gb := gap_b a.
    Definition round_ok (k X : N) : N := (2 + 2 * pA b + 2 * pA gb + rC b + rC gb) * k * X ^ N.max (N.max (pP b) (rP b)) (N.max (pP gb) (rP gb)).
    Definition last_ok (X : N) : N := 1 + (fB b + full gb) * X ^ N.max (fP b) (fullP gb).

    Lemma loop_meets fuel : forall o m t r ps n, repeat_w (fun o i => bind_w (do_skip_w sw a i) o (f)) fuel o m = (ROk t r ps, n) ->
      m = t ++ r /\ forall X, len m + 1 <= X -> n <= round_ok (len t) X + last_ok X.
    Proof.
      induction fuel as [|fuel IH]; intros o m t r ps n; cbn [repeat_w]; [discriminate|].
      pose proof (gap_meets a m) as Hg. pose proof (gap_nofail a m) as Hnf. destruct (do_skip_w sw a m) as [[gp i2 psg| |] ng]; [|congruence|discriminate].
      destruct Hg as (Eg & Wg & Hg). cbn [snd] in Hg. fold gb in Wg, Hg. cbn [bind_w].
      pose proof (Hf (o + blen gp) i2) as H1. pose proof (Hn (o + blen gp) i2) as Hne. destruct (f (o + blen gp) i2) as [[t1 i1 ps1| |] n1]; [| |discriminate].
      - destruct H1 as (E1 & W1 & H1). cbn [snd] in H1. specialize (IH (o + blen (gp ++ t1)) i1).
        destruct (repeat_w _ fuel (o + blen (gp ++ t1)) i1) as [[t2 i3 ps2| |] n2]; intros E; [|discriminate..].
        pose proof (f_equal snd E) as En. pose proof (f_equal fst E) as Er. cbn [fst snd] in En, Er. clear E. injection Er as <- <- <-. subst n.
        destruct (IH _ _ _ _ eq_refl) as (E2 & H2). subst. split; [now rewrite <- !app_assoc|]. intros X HX. rewrite !len_app in *.
        specialize (Hg X ltac:(lia)). specialize (H1 X ltac:(lia)). specialize (H2 X ltac:(lia)).
        specialize (Hne _ _ _ _ eq_refl). assert (1 <= len t1) by (destruct t1; [congruence|unfold len; cbn [List.length]; lia]).
        unfold round_ok, ok_cost in *. assert (X1 : 1 <= X) by lia. set (P := N.max (N.max (pP b) (rP b)) _) in *.
        pose proof (term_le (pA b) (len t1 + 1) (pP b) (pA b) (2 * (len gp + len t1)) P X X1 ltac:(lia) ltac:(lia) ltac:(unfold P; lia)).
        pose proof (term_le (pA gb) (len gp + 1) (pP gb) (pA gb) (2 * (len gp + len t1)) P X X1 ltac:(lia) ltac:(lia) ltac:(unfold P; lia)).
        pose proof (term_le (rC b) 1 (rP b) (rC b) (len gp + len t1) P X X1 ltac:(lia) ltac:(lia) ltac:(unfold P; lia)).
        pose proof (term_le (rC gb) 1 (rP gb) (rC gb) (len gp + len t1) P X X1 ltac:(lia) ltac:(lia) ltac:(unfold P; lia)).
        assert (1 <= (len gp + len t1) * X ^ P) by (apply (N.mul_le_mono 1 _ 1); [lia|now apply pow_pos']). clearbody P. lia.
      - intros E. pose proof (f_equal snd E) as En. pose proof (f_equal fst E) as Er. cbn [fst snd] in En, Er. clear E. injection Er as <- <- <-. subst n.
        split; [reflexivity|]. intros X HX.
        specialize (Hg X HX). specialize (H1 X ltac:(subst; rewrite len_app in *; lia)). cbn [snd] in H1. unfold last_ok, fail_cost in *.
        assert (X1 : 1 <= X) by lia. set (Q := N.max (fP b) _) in *. pose proof (full_ok gb gp m X Wg ltac:(subst; rewrite len_app; lia) HX).
        pose proof (term_le' (fB b) (fP b) Q X X1 ltac:(unfold Q; lia)). pose proof (term_le' (full gb) (fullP gb) Q X X1 ltac:(unfold Q; lia)).
        cbn [len List.length]. clearbody Q. lia.
    Qed.
  End Loop.

  Lemma bind_none f o i a : a <> NonAtomic -> bind_w (do_skip_w sw a i) o f = f o i.
  Proof. intros Ha. destruct a; [congruence|..]; cbn [do_skip_w bind_w blen]; rewrite N.add_0_r; destruct (f o i) as [[? ? ?| |] n]; reflexivity. Qed.
  Lemma repeat_w_ext f g : (forall o i, f o i = g o i) -> forall fuel o i, repeat_w f fuel o i = repeat_w g fuel o i.
  Proof. intros H. induction fuel as [|fuel IH]; intros o i; [reflexivity|]. cbn [repeat_w]. rewrite H. destruct (g o i) as [[? ? ?| |] n]; try reflexivity. now rewrite IH. Qed.

  Lemma eval_w_nonnull e a o i t r ps n : nonnull e = true -> eval_w sw e a o i = (ROk t r ps, n) -> t <> [].
  Proof.
    intros Hn H. pose proof (eval_w_fst sw e a o i) as E. rewrite H in E. cbn [fst] in E. symmetry in E.
    apply (eval_der _ Ssk) in E as [_ E]. eapply nonnull_der; eassumption.
  Qed.
  Lemma eval_w_app e a o i t r ps n : eval_w sw e a o i = (ROk t r ps, n) -> i = t ++ r.
  Proof.
    intros H. pose proof (eval_w_fst sw e a o i) as E. rewrite H in E. cbn [fst] in E. symmetry in E.
    now apply (eval_der _ Ssk) in E as [E _].
  Qed.

  (** A whole loop. *)
  Lemma last_le b a X n k : 1 <= X -> n <= 1 + round_ok b a k X + last_ok b a X -> n <= ok_cost (rep_b (gap_b a) b) k X.
  Proof.
    intros X1 H. unfold round_ok, last_ok, ok_cost in *. cbn [rep_b pA pP rC rP].
    set (P := N.max (N.max (pP b) (rP b)) _) in *. set (Q := N.max (fP b) _) in *.
    pose proof (pow_pos' X P X1). assert (k * X ^ P <= (k + 1) * X ^ P) by (apply N.mul_le_mono_r; lia).
    transitivity ((2 + 2 * pA b + 2 * pA (gap_b a) + rC b + rC (gap_b a)) * (k * X ^ P) + 2 + (fB b + full (gap_b a)) * X ^ Q); [lia|].
    assert (2 <= (3 + (2 * pA b + 2 * pA (gap_b a) + rC b + rC (gap_b a))) * X ^ P).
    { transitivity (3 * 1); [lia|]. apply N.mul_le_mono; lia. }
    clearbody P Q. lia.
  Qed.

  Theorem bound_meets e : loop_free e = true -> forall a off inp, meets (bound sb e a) inp (eval_w sw e a off inp).
  Proof.
    induction e as [x|x|lo hi| | | |e1 IH1 e2 IH2|e1 IH1 e2 IH2|e IH|e IH|e IH|r t b IH]; intros LF a off inp; cbn [loop_free] in LF; cbn [bound].
    - cbn [eval_w]. unfold meets, tick. cbn [fst snd eval]. destruct (strip_prefix x inp) as [r|] eqn:E.
      + apply strip_prefix_spec in E. split; [exact E|]. split; [cbn; lia|]. intros X HX. unfold ok_cost. cbn. fold (len x). lia.
      + intros X HX. unfold fail_cost. cbn. fold (len x). lia.
    - cbn [eval_w]. unfold meets, tick. cbn [fst snd eval]. destruct (strip_prefix_ci x inp) as [[t r]|] eqn:E.
      + apply strip_prefix_ci_spec in E as [E C]. split; [exact E|].
        assert (L : len t = len x) by (unfold len; f_equal; apply (f_equal (@List.length _)) in C; rewrite !map_length in C; lia).
        split; [cbn; lia|]. intros X HX. unfold ok_cost. cbn [pA pP rC rP leaf]. fold (len x). rewrite L. rewrite N.pow_0_r. lia.
      + intros X HX. unfold fail_cost. cbn. fold (len x). lia.
    - cbn [eval_w]. unfold meets, tick. cbn [fst snd eval]. destruct inp as [|c r]; [intros X HX; cbn; lia|].
      destruct ((lo <=? c) && (c <=? hi)); [|intros X HX; cbn; lia]. split; [reflexivity|]. split; [cbn; lia|]. intros X HX. cbn. lia.
    - cbn [eval_w]. unfold meets, tick. cbn [fst snd eval]. destruct inp as [|c r]; [intros X HX; cbn; lia|].
      split; [reflexivity|]. split; [cbn; lia|]. intros X HX. cbn. lia.
    - cbn [eval_w]. unfold meets, tick. cbn [fst snd eval]. destruct (off =? 0); [|intros X HX; cbn; lia].
      split; [reflexivity|]. split; [cbn; lia|]. intros X HX. cbn. lia.
    - cbn [eval_w]. unfold meets, tick. cbn [fst snd eval]. destruct inp as [|c r]; [|intros X HX; cbn; lia].
      split; [reflexivity|]. split; [cbn; lia|]. intros X HX. cbn. lia.
    - apply andb_true_iff in LF as [L1 L2]. cbn [eval_w]. apply seq_meets; auto.
    - apply andb_true_iff in LF as [L1 L2]. cbn [eval_w]. apply alt_meets; auto.
    - cbn [eval_w]. apply opt_meets; auto.
    - apply andb_true_iff in LF as [N1 L1]. specialize (IH L1). fold (gap_b a).
      pose proof (loop_meets (bound sb e a) a (eval_w sw e a) (IH a) (fun o i t r ps n => eval_w_nonnull e a o i t r ps n N1)) as Lm.
      assert (At : a <> NonAtomic -> meets (rep_b (gap_b a) (bound sb e a)) inp (tick 1 (repeat_w (eval_w sw e a) (fuel_for inp) off inp))).
      { intros Ha. specialize (Lm (fuel_for inp) off inp).
        rewrite (repeat_w_ext _ (eval_w sw e a)) in Lm by (intros; now apply bind_none).
        destruct (repeat_w (eval_w sw e a) (fuel_for inp) off inp) as [[t i ps| |] n] eqn:Er; [| |exact I].
        - destruct (Lm _ _ _ _ eq_refl) as (E & H). split; [exact E|]. split; [exact I|]. intros X HX. cbn [fst snd tick]. specialize (H X HX).
          apply last_le; lia.
        - exfalso. pose proof (repeat_w_fst _ _ (eval_w_fst sw e a) (fuel_for inp) off inp) as F. rewrite Er in F. cbn [fst] in F. symmetry in F.
          clear - F. revert F. generalize (fuel_for inp) as fuel. intros fuel. revert off inp. induction fuel as [|fuel IHf]; intros off inp; cbn [Peg.repeat]; [discriminate|].
          destruct (eval _ e a off inp) as [t i ps| |]; try discriminate. destruct (Peg.repeat _ fuel _ i) eqn:E; try discriminate. intros _. now apply IHf in E. }
      destruct a; [|apply At; discriminate..].
      cbn [eval_w]. pose proof (IH NonAtomic off inp) as H1. pose proof (eval_w_nonnull e NonAtomic off inp) as Hne. destruct (eval_w sw e NonAtomic off inp) as [[t1 i1 ps1| |] n1]; [| |exact I].
      + destruct H1 as (E1 & W1 & H1). cbn [snd] in H1. cbn [bind_w]. specialize (Lm (fuel_for i1) (off + blen t1) i1).
        destruct (repeat_w _ (fuel_for i1) (off + blen t1) i1) as [[t2 i2 ps2| |] n2] eqn:Er; [| |exact I].
        * destruct (Lm _ _ _ _ eq_refl) as (E & H). split; [cbn [fst]; subst; now rewrite <- app_assoc|]. split; [exact I|]. intros X HX. cbn [fst snd tick].
          specialize (H1 X HX). specialize (H X ltac:(subst; rewrite !len_app in *; lia)). apply last_le; [lia|].
          specialize (Hne _ _ _ _ N1 eq_refl). assert (1 <= len t1) by (destruct t1; [congruence|unfold len; cbn [List.length]; lia]).
          unfold round_ok, ok_cost in *. rewrite len_app. set (b := bound sb e NonAtomic) in *. set (P := N.max (N.max (pP b) (rP b)) _) in *. assert (X1 : 1 <= X) by lia.
          pose proof (term_le (pA b) (len t1 + 1) (pP b) (pA b) (2 * len t1) P X X1 ltac:(lia) ltac:(lia) ltac:(unfold P; lia)).
          pose proof (term_le (rC b) 1 (rP b) (rC b) (len t1) P X X1 ltac:(lia) ltac:(lia) ltac:(unfold P; lia)).
          clearbody P b. lia.
        * exfalso. assert (Hb : forall o i, fst (bind_w (do_skip_w sw NonAtomic i) o (eval_w sw e NonAtomic)) = bind_res (sk i) o (eval sk e NonAtomic)).
          { intros o i. rewrite (bind_w_fst _ _ _ (eval sk e NonAtomic)) by (intros; apply eval_w_fst). reflexivity. }
          pose proof (repeat_w_fst _ _ Hb (fuel_for i1) (off + blen t1) i1) as F. rewrite Er in F. cbn [fst] in F. symmetry in F.
          clear - F. revert F. generalize (fuel_for i1) as fuel. generalize (off + blen t1) as o. intros o fuel. revert o i1. induction fuel as [|fuel IHf]; intros o1 j1; cbn [Peg.repeat]; [discriminate|].
          destruct (bind_res _ o1 _) as [t i ps| |]; try discriminate. destruct (Peg.repeat _ fuel _ i) eqn:E; try discriminate. intros _. now apply IHf in E.
      + split; [reflexivity|]. split; [exact I|]. intros X HX. specialize (H1 X HX). cbn [snd fst tick] in *. apply last_le; [lia|].
        unfold round_ok, last_ok, fail_cost in *. set (b := bound sb e NonAtomic) in *. set (Q := N.max (fP b) _) in *.
        pose proof (term_le' (fB b) (fP b) Q X ltac:(lia) ltac:(unfold Q; lia)). clearbody b Q. lia.
    - cbn [eval_w]. apply not_meets; auto.
    - assert (Em : forall bd aa res, meets bd inp res -> meets bd inp (let '(res, n) := res in (emit aa r off res, n))).
      { intros bd aa [res n]. unfold meets. cbn [fst snd]. destruct res; cbn [emit]; auto. destruct aa; auto. }
      destruct t; cbn [eval_w]; (eapply tick_meets; [apply Em, IH, LF|reflexivity..]).
  Qed.
End Bounds.

(** ** The skipping *)
Lemma skip_w_fst i : fst (skip_w i) = skip i.
Proof. unfold skip_w. rewrite eval_w_fst. reflexivity. Qed.
Definition skip_b : bnd := rule_b (bound (leaf 0 1) skip_exp Atomic).
Lemma skip_w_meets i : meets skip_b i (tick 1 (skip_w i)).
Proof.
  eapply tick_meets; [apply bound_meets with (sb := leaf 0 1)|reflexivity..].
  - intros i0 t r ps [= <- <- <-]. auto.
  - discriminate.
  - intros i0. split; [reflexivity|]. split; [cbn; lia|]. intros X HX. unfold ok_cost. cbn. lia.
  - vm_compute. reflexivity.
Qed.

(** ** The whole parse *)
Lemma run_w_meets e a off inp : loop_free e = true -> meets (bound skip_b e a) inp (eval_w skip_w e a off inp).
Proof.
  intros LF. apply bound_meets; [| |apply skip_w_meets|exact LF].
  - intros i t r ps. rewrite skip_w_fst. apply skip_app.
  - intros i. rewrite skip_w_fst. destruct (skip_spec i) as (g & r & E & _). rewrite E. discriminate.
Qed.
Lemma work_of e b K P : loop_free e = true -> bound skip_b e NonAtomic = b -> N.max (full b) (fB b) <= K -> N.max (fullP b) (fP b) <= P ->
  forall inp, snd (run_w e inp) <= K * (len inp + 1) ^ P.
Proof.
  intros LF <- HK HP inp. unfold run_w. pose proof (run_w_meets e NonAtomic 0 inp LF) as M.
  assert (NL : fst (eval_w skip_w e NonAtomic 0 inp) <> RLoop).
  { rewrite eval_w_fst. apply eval_noloop; [| |exact LF].
    - intros i t r ps. rewrite skip_w_fst. apply skip_app.
    - intros i. rewrite skip_w_fst. apply skip_noloop. }
  set (b := bound skip_b e NonAtomic) in *. clearbody b. assert (X1 : 1 <= len inp + 1) by lia.
  destruct (eval_w skip_w e NonAtomic 0 inp) as [[t r ps| |] n]; cbn [snd fst] in *; [| |congruence].
  - destruct M as (E & W & M). cbn [snd fst] in *. specialize (M (len inp + 1) ltac:(lia)).
    pose proof (full_ok b t inp (len inp + 1) W ltac:(rewrite E, len_app; lia) ltac:(lia)).
    pose proof (N.mul_le_mono (full b) K ((len inp + 1) ^ fullP b) ((len inp + 1) ^ P) ltac:(lia) ltac:(apply pow_mono; lia)). lia.
  - cbn [meets fst snd] in M. specialize (M (len inp + 1) ltac:(lia)). unfold fail_cost in M. cbn [snd] in M.
    pose proof (N.mul_le_mono (fB b) K ((len inp + 1) ^ fP b) ((len inp + 1) ^ P) ltac:(lia) ltac:(apply pow_mono; lia)). lia.
Qed.
Theorem schema_work inp : parse_work inp <= 24000000 * (len inp + 1) ^ 5.
Proof. apply (work_of schema (bound skip_b schema NonAtomic)); [vm_compute; reflexivity|reflexivity|apply N.leb_le; vm_compute; reflexivity..]. Qed.
Theorem oschema_work inp : snd (run_w oschema inp) <= 36000000 * (len inp + 1) ^ 5.
Proof. apply (work_of oschema (bound skip_b oschema NonAtomic)); [vm_compute; reflexivity|reflexivity|apply N.leb_le; vm_compute; reflexivity..]. Qed.

(** ** The pairs *)
(** At most [fst * k + snd] pairs over a text of length [k]. *)
Fixpoint pairs_b (e : pexp) (a : atomicity) : N * N :=
  match e with
  | EStr _ | EInsens _ | ERange _ _ | EAny | ESoi | EEnd | ENot _ => (0, 0)
  | ESeq e1 e2 => let x := pairs_b e1 a in let y := pairs_b e2 a in (N.max (fst x) (fst y), snd x + snd y)
  | EAlt e1 e2 => let x := pairs_b e1 a in let y := pairs_b e2 a in (N.max (fst x) (fst y), N.max (snd x) (snd y))
  | EOpt e1 => pairs_b e1 a
  | ERep e1 => let x := pairs_b e1 a in (fst x + snd x, 0)
  | ERule _ t b => if emits t a then let x := pairs_b b (body_atom t a) in (fst x, 1 + snd x) else (0, 0)
  end.
Fixpoint depth_b (e : pexp) (a : atomicity) : N :=
  match e with
  | EStr _ | EInsens _ | ERange _ _ | EAny | ESoi | EEnd | ENot _ => 0
  | ESeq e1 e2 => N.max (depth_b e1 a) (depth_b e2 a)
  | EAlt e1 e2 => N.max (depth_b e1 a) (depth_b e2 a)
  | EOpt e1 => depth_b e1 a
  | ERep e1 => depth_b e1 a
  | ERule _ t b => if emits t a then 1 + depth_b b (body_atom t a) else 0
  end.
Lemma pairs_count_app a b : pairs_count (a ++ b) = pairs_count a + pairs_count b.
Proof. induction a as [|p a IH]; cbn [app pairs_count fold_right]; [reflexivity|]. fold (pairs_count (a ++ b)). fold (pairs_count a). lia. Qed.
Lemma pairs_depth_app a b : pairs_depth (a ++ b) = N.max (pairs_depth a) (pairs_depth b).
Proof. induction a as [|p a IH]; cbn [app pairs_depth fold_right]; [fold (pairs_depth b); lia|]. fold (pairs_depth (a ++ b)). fold (pairs_depth a). lia. Qed.
Lemma len_pos t : t <> [] -> 1 <= len t.
Proof. destruct t; [congruence|]. intros _. unfold len. cbn [List.length]. lia. Qed.

Section Pairs.
  Variable sk : str -> pres.
  Lemma lin_le c c' k k' : c <= c' -> k <= k' -> c * k <= c' * k'.
  Proof. intros. now apply N.mul_le_mono. Qed.
  Lemma der_pairs :
    (forall e a off t r ps, der sk e a off t r ps -> loop_free e = true -> pairs_count ps <= fst (pairs_b e a) * len t + snd (pairs_b e a) /\ pairs_depth ps <= depth_b e a)
    /\ (forall e a off t r ps, dtail sk e a off t r ps -> loop_free e = true -> nonnull e = true ->
          pairs_count ps <= (fst (pairs_b e a) + snd (pairs_b e a)) * len t /\ pairs_depth ps <= depth_b e a).
  Proof.
    apply der_dtail_ind; intros; cbn [pairs_b depth_b loop_free fst snd] in *;
      repeat match goal with H : _ && _ = true |- _ => apply andb_true_iff in H as [? ?] end;
      repeat match goal with H : loop_free ?x = true -> _, H' : loop_free ?x = true |- _ => specialize (H H') end;
      try (cbn [pairs_count pairs_depth fold_right]; lia).
    - destruct H, H0. rewrite pairs_count_app, pairs_depth_app, !len_app. set (M := N.max (fst _) _).
      pose proof (lin_le (fst (pairs_b e1 a)) M (len t1) (len t1) ltac:(lia) ltac:(lia)).
      pose proof (lin_le (fst (pairs_b e2 a)) M (len t2) (len g + len t2) ltac:(lia) ltac:(lia)). clearbody M. lia.
    - destruct H. split; [|lia]. set (M := N.max (fst _) _). pose proof (lin_le (fst (pairs_b e1 a)) M (len t) (len t) ltac:(lia) ltac:(lia)). lia.
    - destruct H. split; [|lia]. set (M := N.max (fst _) _). pose proof (lin_le (fst (pairs_b e2 a)) M (len t) (len t) ltac:(lia) ltac:(lia)). lia.
    - destruct H as [H Hd]. match goal with N1 : nonnull e1 = true |- _ => specialize (H0 N1); pose proof (len_pos t1 (nonnull_der _ _ _ _ _ _ _ d N1)) end.
      destruct H0 as [H0 Hd0]. rewrite pairs_count_app, pairs_depth_app, len_app. split; [|lia].
      pose proof (lin_le (snd (pairs_b e1 a)) (snd (pairs_b e1 a)) 1 (len t1) ltac:(lia) ltac:(lia)). lia.
    - destruct (emits t a); cbn [pairs_count pairs_depth fold_right pair_count pair_depth fst snd]; [|lia]. destruct H as [H Hd].
      fold (pairs_count ps). fold (pairs_depth ps). split; lia.
    - match goal with N1 : nonnull e1 = true |- _ => specialize (H0 N1); pose proof (len_pos t1 (nonnull_der _ _ _ _ _ _ _ d N1)) end.
      destruct H as [H Hd], H0 as [H0 Hd0]. rewrite pairs_count_app, pairs_depth_app, !len_app. split; [|lia].
      pose proof (lin_le (snd (pairs_b e1 a)) (snd (pairs_b e1 a)) 1 (len t1) ltac:(lia) ltac:(lia)).
      pose proof (lin_le (fst (pairs_b e1 a) + snd (pairs_b e1 a)) (fst (pairs_b e1 a) + snd (pairs_b e1 a)) 0 (len g) ltac:(lia) ltac:(lia)). lia.
  Qed.
End Pairs.

(** ** What the properties say *)
Lemma repeat_ext f g : (forall o i, f o i = g o i) -> forall fuel o i, Peg.repeat f fuel o i = Peg.repeat g fuel o i.
Proof. intros H. induction fuel as [|fuel IH]; intros o i; [reflexivity|]. cbn [Peg.repeat]. rewrite H. destruct (g o i); try reflexivity. now rewrite IH. Qed.
Lemma bind_ext x o f g : (forall o i, f o i = g o i) -> bind_res x o f = bind_res x o g.
Proof. intros H. destruct x; cbn [bind_res]; try reflexivity. now rewrite H. Qed.
Lemma eval_ext sk sk' : (forall i, sk i = sk' i) -> forall e a o i, eval sk e a o i = eval sk' e a o i.
Proof.
  intros H. assert (D : forall a i, do_skip sk a i = do_skip sk' a i) by (destruct a; intros; cbn [do_skip]; auto).
  induction e as [x|x|lo hi| | | |e1 IH1 e2 IH2|e1 IH1 e2 IH2|e IH|e IH|e IH|r t b IH]; intros a o i; try reflexivity; cbn [eval].
  - rewrite IH1. rewrite (bind_ext _ _ _ (eval sk' e2 a)) by auto. f_equal. apply bind_ext. auto.
  - rewrite IH1, IH2. reflexivity.
  - rewrite IH. reflexivity.
  - assert (R : forall o i, bind_res (do_skip sk a i) o (eval sk e a) = bind_res (do_skip sk' a i) o (eval sk' e a)) by (intros; rewrite D; apply bind_ext; auto).
    destruct a; [|apply repeat_ext; auto..]. rewrite IH. destruct (eval sk' e NonAtomic o i); try reflexivity. apply bind_ext. intros. now apply repeat_ext.
  - rewrite IH. reflexivity.
  - rewrite !IH. reflexivity.
Qed.
Theorem run_w_same e inp : fst (run_w e inp) = run e NonAtomic 0 inp.
Proof. unfold run_w, run. rewrite eval_w_fst. apply eval_ext. exact skip_w_fst. Qed.
Theorem run_pairs inp t r ps : run schema NonAtomic 0 inp = ROk t r ps -> pairs_count ps <= 84 * len inp + 2 /\ pairs_depth ps <= 12.
Proof.
  intros H. apply (eval_der _ skip_app) in H as [E H]. apply (proj1 (der_pairs skip)) in H; [|vm_compute; reflexivity].
  rewrite E, len_app. replace (depth_b schema NonAtomic) with 12 in H by (vm_compute; reflexivity).
  replace (pairs_b schema NonAtomic) with (84, 2) in H by (vm_compute; reflexivity). cbn [fst snd] in H. lia.
Qed.
