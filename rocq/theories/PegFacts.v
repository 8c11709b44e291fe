(** * PegFacts: facts about [eval] that hold for every expression and input. *)

From Verif Require Import Peg.

Lemma blen_app a b : blen (a ++ b) = blen a + blen b.
Proof. induction a as [|c a IH]; cbn [app blen]; [reflexivity | rewrite IH; lia]. Qed.

Lemma ulen_pos c : 1 <= ulen c.
Proof. unfold ulen. destruct (c <? 128), (c <? 2048), (c <? 65536); lia. Qed.

Lemma blen_0 x : blen x = 0 -> x = [].
Proof. destruct x as [|c x]; [reflexivity|]. cbn [blen]. pose proof (ulen_pos c). lia. Qed.

Lemma drop_bytes_app a b : drop_bytes (a ++ b) (blen a) = Some b.
Proof.
  induction a as [|c a IH]; cbn [app blen drop_bytes].
  - destruct b; reflexivity.
  - pose proof (ulen_pos c). destruct (N.eqb_spec (ulen c + blen a) 0); [lia|].
    destruct (N.ltb_spec (ulen c + blen a) (ulen c)); [lia|].
    replace (ulen c + blen a - ulen c) with (blen a) by lia. exact IH.
Qed.

Lemma take_bytes_app a b : take_bytes (a ++ b) (blen a) = Some a.
Proof.
  induction a as [|c a IH]; cbn [app blen take_bytes].
  - destruct b; reflexivity.
  - pose proof (ulen_pos c). destruct (N.eqb_spec (ulen c + blen a) 0); [lia|].
    destruct (N.ltb_spec (ulen c + blen a) (ulen c)); [lia|].
    replace (ulen c + blen a - ulen c) with (blen a) by lia. rewrite IH. reflexivity.
Qed.

Lemma drop_bytes_inv x n y : drop_bytes x n = Some y -> exists a, x = a ++ y /\ blen a = n.
Proof.
  revert n; induction x as [|c x IH]; intros n; cbn [drop_bytes];
    destruct (N.eqb_spec n 0) as [->|Hn].
  - intros [= <-]. exists []. auto.
  - discriminate.
  - intros [= <-]. exists []. auto.
  - destruct (N.ltb_spec n (ulen c)); [discriminate|]. intros H1.
    apply IH in H1 as (a & -> & Ha). exists (c :: a). cbn [app blen]. split; [reflexivity|lia].
Qed.

Lemma take_bytes_inv x n y : take_bytes x n = Some y -> exists b, x = y ++ b /\ blen y = n.
Proof.
  revert n y; induction x as [|c x IH]; intros n y; cbn [take_bytes];
    destruct (N.eqb_spec n 0) as [->|Hn].
  - intros [= <-]. exists []. auto.
  - discriminate.
  - intros [= <-]. exists (c :: x). auto.
  - destruct (N.ltb_spec n (ulen c)); [discriminate|].
    destruct (take_bytes x (n - ulen c)) as [t|] eqn:E; [|discriminate]. intros [= <-].
    apply IH in E as (b & -> & Hb). exists b. cbn [app blen]. split; [reflexivity|lia].
Qed.

(** [slice] finds exactly the factor of the text at those byte offsets. *)
Lemma slice_mid a t b : slice (a ++ t ++ b) (blen a) (blen a + blen t) = Some t.
Proof.
  unfold slice. destruct (N.leb_spec (blen a) (blen a + blen t)); [|lia].
  rewrite drop_bytes_app. replace (blen a + blen t - blen a) with (blen t) by lia.
  apply take_bytes_app.
Qed.

Lemma slice_inv x lo hi t : slice x lo hi = Some t ->
  exists a b, x = a ++ t ++ b /\ blen a = lo /\ lo + blen t = hi.
Proof.
  unfold slice. destruct (N.leb_spec lo hi); [|discriminate].
  destruct (drop_bytes x lo) as [y|] eqn:E; [|discriminate]. intros H1.
  apply drop_bytes_inv in E as (a & -> & Ha). apply take_bytes_inv in H1 as (b & -> & Hb).
  exists a, b. repeat split; auto; lia.
Qed.

Lemma strip_prefix_spec x inp r : strip_prefix x inp = Some r <-> inp = x ++ r.
Proof.
  revert inp; induction x as [|c x IH]; intros inp; cbn [strip_prefix app].
  - split; congruence.
  - destruct inp as [|d inp]; [split; discriminate|].
    destruct (N.eqb_spec c d) as [->|Hn].
    + rewrite IH. split; congruence.
    + split; [discriminate | congruence].
Qed.

Lemma strip_prefix_None x inp : strip_prefix x inp = None <-> (forall r, inp <> x ++ r).
Proof.
  split.
  - intros E r ->. assert (E2 : strip_prefix x (x ++ r) = Some r) by (apply strip_prefix_spec; reflexivity).
    congruence.
  - intros H. destruct (strip_prefix x inp) as [r|] eqn:E; [|reflexivity].
    apply strip_prefix_spec in E. exfalso; eapply H; eassumption.
Qed.

(** Same text up to ASCII letter case. *)
Definition ci_eq (x t : str) : Prop := map lower x = map lower t.

Lemma strip_prefix_ci_spec x inp t r :
  strip_prefix_ci x inp = Some (t, r) <-> inp = t ++ r /\ ci_eq x t.
Proof.
  unfold ci_eq. revert inp t; induction x as [|c x IH]; intros inp t; cbn [strip_prefix_ci map].
  - split.
    + intros [= <- <-]. auto.
    + intros [-> H]. destruct t; [reflexivity|discriminate].
  - destruct inp as [|d inp].
    + split; [discriminate|]. intros [H1 H2]. destruct t; discriminate.
    + destruct (N.eqb_spec (lower c) (lower d)) as [Hcd|Hcd].
      * destruct (strip_prefix_ci x inp) as [[t' r']|] eqn:E.
        -- split.
           ++ intros [= <- <-]. apply IH in E as [-> E]. cbn [app map]. rewrite Hcd, E. auto.
           ++ intros [H1 H2]. destruct t as [|t0 t]; [discriminate|]. cbn [app map] in *.
              injection H1 as -> ->. injection H2 as _ H2.
              assert (E2 : Some (t', r') = Some (t, r)) by (rewrite <- E; apply IH; auto).
              injection E2 as -> ->. reflexivity.
        -- split; [discriminate|]. intros [H1 H2]. destruct t as [|t0 t]; [discriminate|].
           cbn [app map] in *. injection H1 as -> ->. injection H2 as _ H2.
           assert (E2 : strip_prefix_ci x (t ++ r) = Some (t, r)) by (apply IH; auto). congruence.
      * split; [discriminate|]. intros [H1 H2]. destruct t as [|t0 t]; [discriminate|].
        cbn [app map] in *. congruence.
Qed.

(** ** Where pairs lie.

    [placed off t ps]: the text [t], starting at byte [off], is cut by the pairs
    [ps], in order, into gaps and pair texts, and each pair's text is cut by its
    inner pairs likewise. *)
Inductive placed : N -> str -> list pair -> Prop :=
| placed_nil off t : placed off t []
| placed_cons off gap txt inner rest r ps :
    placed (off + blen gap) txt inner ->
    placed (off + blen gap + blen txt) rest ps ->
    placed off (gap ++ txt ++ rest)
      (Pair r (off + blen gap) (off + blen gap + blen txt) txt inner :: ps).

Lemma placed_gap off g t ps : placed (off + blen g) t ps -> placed off (g ++ t) ps.
Proof.
  intros H. remember (off + blen g) as o eqn:Eo. revert off g Eo.
  induction H as [o t | o gap txt inner rest r ps H1 IH1 H2 IH2]; intros off g ->.
  - constructor.
  - replace (off + blen g + blen gap) with (off + blen (g ++ gap)) in * by (rewrite blen_app; lia).
    replace (g ++ gap ++ txt ++ rest) with ((g ++ gap) ++ txt ++ rest) by (rewrite <- app_assoc; reflexivity).
    constructor; assumption.
Qed.

Lemma placed_app off t1 ps1 t2 ps2 :
  placed off t1 ps1 -> placed (off + blen t1) t2 ps2 -> placed off (t1 ++ t2) (ps1 ++ ps2).
Proof.
  intros H. revert t2 ps2.
  induction H as [o t | o gap txt inner rest r ps H1 IH1 H2 IH2]; intros t2 ps2 H3; cbn [app].
  - apply placed_gap; exact H3.
  - rewrite <- !app_assoc. constructor; [exact H1|]. apply IH2.
    rewrite !blen_app in H3. replace (o + blen gap + blen txt + blen rest) with (o + (blen gap + (blen txt + blen rest))) by lia.
    exact H3.
Qed.

(** ** Big-step view of a successful run. *)
Section Der.
  Variable skip : str -> pres.
  Hypothesis skip_app : forall inp t r ps, skip inp = ROk t r ps -> inp = t ++ r /\ ps = [].

  Lemma do_skip_app a inp t r ps : do_skip skip a inp = ROk t r ps -> inp = t ++ r /\ ps = [].
  Proof.
    destruct a; cbn [do_skip].
    - apply skip_app.
    - intros [= <- <- <-]. auto.
    - intros [= <- <- <-]. auto.
  Qed.

  (** The rule's own atomicity and whether a pair is emitted. *)
  Definition body_atom (t : rtype) (a : atomicity) : atomicity :=
    match t with TNormal => a | TAtomic => Atomic | TCompound => CompoundAtomic end.
  Definition emits (t : rtype) (a : atomicity) : bool :=
    match t, a with
    | TCompound, _ => true
    | _, Atomic => false
    | _, _ => true
    end.

  Inductive der : pexp -> atomicity -> N -> str -> str -> list pair -> Prop :=
  | d_str x a off r : der (EStr x) a off x r []
  | d_insens x a off t r : ci_eq x t -> der (EInsens x) a off t r []
  | d_range lo hi a off c r : lo <= c -> c <= hi -> der (ERange lo hi) a off [c] r []
  | d_any a off c r : der EAny a off [c] r []
  | d_soi a off r : off = 0 -> der ESoi a off [] r []
  | d_end a off : der EEnd a off [] [] []
  | d_seq e1 e2 a off t1 g t2 r ps1 ps2 :
      der e1 a off t1 (g ++ t2 ++ r) ps1 ->
      do_skip skip a (g ++ t2 ++ r) = ROk g (t2 ++ r) [] ->
      der e2 a (off + blen t1 + blen g) t2 r ps2 ->
      der (ESeq e1 e2) a off (t1 ++ g ++ t2) r (ps1 ++ ps2)
  | d_alt_l e1 e2 a off t r ps : der e1 a off t r ps -> der (EAlt e1 e2) a off t r ps
  | d_alt_r e1 e2 a off t r ps :
      eval skip e1 a off (t ++ r) = RFail -> der e2 a off t r ps -> der (EAlt e1 e2) a off t r ps
  | d_opt_none e1 a off r : eval skip e1 a off r = RFail -> der (EOpt e1) a off [] r []
  | d_opt_some e1 a off t r ps : der e1 a off t r ps -> der (EOpt e1) a off t r ps
  | d_rep_nil e1 a off r : eval skip e1 a off r = RFail -> der (ERep e1) a off [] r []
  | d_rep_cons e1 a off t1 t2 r ps1 ps2 :
      der e1 a off t1 (t2 ++ r) ps1 -> dtail e1 a (off + blen t1) t2 r ps2 ->
      der (ERep e1) a off (t1 ++ t2) r (ps1 ++ ps2)
  | d_not e1 a off r : eval skip e1 a off r = RFail -> der (ENot e1) a off [] r []
  | d_rule r t body a off x rest ps :
      der body (body_atom t a) off x rest ps ->
      eval skip (ERule r t body) a off (x ++ rest) =
        ROk x rest (if emits t a then [Pair r off (off + blen x) x ps] else []) ->
      der (ERule r t body) a off x rest
        (if emits t a then [Pair r off (off + blen x) x ps] else [])
  with dtail : pexp -> atomicity -> N -> str -> str -> list pair -> Prop :=
  | dt_nil e1 a off r :
      bind_res (do_skip skip a r) off (eval skip e1 a) = RFail -> dtail e1 a off [] r []
  | dt_cons e1 a off g t1 t2 r ps1 ps2 :
      do_skip skip a (g ++ t1 ++ t2 ++ r) = ROk g (t1 ++ t2 ++ r) [] ->
      der e1 a (off + blen g) t1 (t2 ++ r) ps1 ->
      dtail e1 a (off + blen g + blen t1) t2 r ps2 ->
      dtail e1 a off (g ++ t1 ++ t2) r (ps1 ++ ps2).

  Scheme der_ind2 := Induction for der Sort Prop
    with dtail_ind2 := Induction for dtail Sort Prop.
  Combined Scheme der_dtail_ind from der_ind2, dtail_ind2.

  Lemma bind_res_ROk x off g t r ps :
    bind_res x off g = ROk t r ps ->
    exists t1 i1 ps1 t2 ps2,
      x = ROk t1 i1 ps1 /\ g (off + blen t1) i1 = ROk t2 r ps2 /\ t = t1 ++ t2 /\ ps = ps1 ++ ps2.
  Proof.
    destruct x as [t1 i1 ps1| |]; cbn [bind_res]; try discriminate.
    destruct (g (off + blen t1) i1) as [t2 i2 ps2| |] eqn:E; try discriminate.
    intros [= <- <- <-]. exists t1, i1, ps1, t2, ps2. auto.
  Qed.

  (** The two shapes of the [repeat] loop. *)
  Lemma repeat_gap_dtail e1 (a : atomicity) :
    (forall off inp t r ps, eval skip e1 a off inp = ROk t r ps ->
        inp = t ++ r /\ der e1 a off t r ps) ->
    forall fuel off inp t r ps,
      repeat (fun o i => bind_res (do_skip skip a i) o (eval skip e1 a)) fuel off inp = ROk t r ps ->
      inp = t ++ r /\ dtail e1 a off t r ps.
  Proof.
    intros IHe fuel. induction fuel as [|n IH]; intros off inp t r ps; cbn [repeat]; [discriminate|].
    destruct (bind_res (do_skip skip a inp) off (eval skip e1 a)) as [t1 i1 ps1| |] eqn:E; try discriminate.
    - apply bind_res_ROk in E as (g & i2 & ps0 & t0 & ps0' & Eg & Ee & -> & ->).
      destruct (repeat _ n _ i1) as [t2 i3 ps2| |] eqn:Er; try discriminate.
      intros [= <- <- <-].
      apply IH in Er as [-> Hd].
      pose proof (do_skip_app _ _ _ _ _ Eg) as [-> ->].
      apply IHe in Ee as [-> He]. cbn [app].
      split; [rewrite <- !app_assoc; reflexivity|].
      rewrite <- app_assoc. econstructor; [exact Eg|exact He|].
      rewrite blen_app in Hd. replace (off + blen g + blen t0) with (off + (blen g + blen t0)) by lia. exact Hd.
    - intros [= <- <- <-]. split; [reflexivity|]. constructor. exact E.
  Qed.

  Lemma repeat_nogap_dtail e1 (a : atomicity) : a <> NonAtomic ->
    (forall off inp t r ps, eval skip e1 a off inp = ROk t r ps ->
        inp = t ++ r /\ der e1 a off t r ps) ->
    forall fuel off inp t r ps,
      repeat (eval skip e1 a) fuel off inp = ROk t r ps ->
      inp = t ++ r /\ dtail e1 a off t r ps.
  Proof.
    intros Ha IHe fuel.
    assert (Hskip : forall i, do_skip skip a i = ROk [] i []) by (destruct a; congruence || reflexivity).
    induction fuel as [|n IH]; intros off inp t r ps; cbn [repeat]; [discriminate|].
    destruct (eval skip e1 a off inp) as [t1 i1 ps1| |] eqn:E; try discriminate.
    - destruct (repeat _ n _ i1) as [t2 i3 ps2| |] eqn:Er; try discriminate.
      intros [= <- <- <-].
      apply IH in Er as [-> Hd]. apply IHe in E as [-> He].
      split; [rewrite <- !app_assoc; reflexivity|].
      change (t1 ++ t2) with ([] ++ t1 ++ t2). econstructor.
      + cbn [app]. apply Hskip.
      + cbn [blen]. rewrite N.add_0_r. exact He.
      + cbn [blen]. rewrite N.add_0_r. exact Hd.
    - intros [= <- <- <-]. split; [reflexivity|]. constructor. rewrite Hskip. cbn [bind_res blen].
      rewrite N.add_0_r, E. reflexivity.
  Qed.

  Lemma eval_der e : forall a off inp t r ps,
    eval skip e a off inp = ROk t r ps -> inp = t ++ r /\ der e a off t r ps.
  Proof.
    induction e as [x|x|lo hi| | | |e1 IH1 e2 IH2|e1 IH1 e2 IH2|e1 IH1|e1 IH1|e1 IH1|rl ty body IH];
      intros a off inp t r ps;
      [cbn [eval]..|intros H; pose proof H as H'; cbn [eval] in H'].
    - destruct (strip_prefix x inp) as [r'|] eqn:E; [|discriminate]. intros [= <- <- <-].
      apply strip_prefix_spec in E as ->. split; [reflexivity|constructor].
    - destruct (strip_prefix_ci x inp) as [[t' r']|] eqn:E; [|discriminate]. intros [= <- <- <-].
      apply strip_prefix_ci_spec in E as [-> E]. split; [reflexivity|constructor; exact E].
    - destruct inp as [|c inp]; [discriminate|].
      destruct (N.leb_spec lo c); cbn [andb]; [|discriminate].
      destruct (N.leb_spec c hi); [|discriminate]. intros [= <- <- <-].
      split; [reflexivity|constructor; assumption].
    - destruct inp as [|c inp]; [discriminate|]. intros [= <- <- <-]. split; [reflexivity|constructor].
    - destruct (N.eqb_spec off 0); [|discriminate]. intros [= <- <- <-]. split; [reflexivity|constructor; assumption].
    - destruct inp; [|discriminate]. intros [= <- <- <-]. split; [reflexivity|constructor].
    - intros H. apply bind_res_ROk in H as (t1 & i1 & ps1 & t2 & ps2 & H1 & H2 & -> & ->).
      apply bind_res_ROk in H1 as (t0 & i0 & ps0 & g & psg & H0 & Hg & -> & ->).
      apply IH1 in H0 as [-> H0]. pose proof (do_skip_app _ _ _ _ _ Hg) as [-> ->].
      apply IH2 in H2 as [-> H2]. rewrite app_nil_r.
      split; [rewrite <- !app_assoc; reflexivity|].
      rewrite <- app_assoc. econstructor; [exact H0|exact Hg|].
      rewrite blen_app in H2. replace (off + blen t0 + blen g) with (off + (blen t0 + blen g)) by lia. exact H2.
    - destruct (eval skip e1 a off inp) as [t1 i1 ps1| |] eqn:E; try discriminate.
      + intros [= <- <- <-]. apply IH1 in E as [-> E]. split; [reflexivity|apply d_alt_l; exact E].
      + intros H. pose proof (IH2 _ _ _ _ _ _ H) as [-> H2]. split; [reflexivity|].
        apply d_alt_r; assumption.
    - destruct (eval skip e1 a off inp) as [t1 i1 ps1| |] eqn:E; try discriminate.
      + intros [= <- <- <-]. apply IH1 in E as [-> E]. split; [reflexivity|apply d_opt_some; exact E].
      + intros [= <- <- <-]. split; [reflexivity|apply d_opt_none; exact E].
    - destruct a.
      + destruct (eval skip e1 NonAtomic off inp) as [t1 i1 ps1| |] eqn:E; try discriminate.
        * intros H. apply bind_res_ROk in H as (t1' & i1' & ps1' & t2 & ps2 & [= <- <- <-] & H & -> & ->).
          apply IH1 in E as [-> E]. apply repeat_gap_dtail in H as [-> H]; [|apply IH1].
          split; [rewrite <- app_assoc; reflexivity|]. econstructor; eassumption.
        * intros [= <- <- <-]. split; [reflexivity|apply d_rep_nil; exact E].
      + intros H. apply repeat_nogap_dtail in H as [-> H]; [|discriminate|apply IH1].
        split; [reflexivity|]. inversion H; subst.
        * apply d_rep_nil. cbn [do_skip bind_res blen] in *. rewrite N.add_0_r in *.
          destruct (eval skip e1 CompoundAtomic off r) as [? ? ?| |]; try discriminate; reflexivity.
        * cbn [do_skip] in *. match goal with H : ROk [] _ _ = ROk _ _ _ |- _ => injection H as Hg _; subst end.
          cbn [app blen] in *. rewrite N.add_0_r in *. econstructor; eassumption.
      + intros H. apply repeat_nogap_dtail in H as [-> H]; [|discriminate|apply IH1].
        split; [reflexivity|]. inversion H; subst.
        * apply d_rep_nil. cbn [do_skip bind_res blen] in *. rewrite N.add_0_r in *.
          destruct (eval skip e1 Atomic off r) as [? ? ?| |]; try discriminate; reflexivity.
        * cbn [do_skip] in *. match goal with H : ROk [] _ _ = ROk _ _ _ |- _ => injection H as Hg _; subst end.
          cbn [app blen] in *. rewrite N.add_0_r in *. econstructor; eassumption.
    - destruct (eval skip e1 a off inp) as [t1 i1 ps1| |] eqn:E; try discriminate.
      intros [= <- <- <-]. split; [reflexivity|constructor; exact E].
    - assert (Hr : forall b res, emit b rl off res = ROk t r ps ->
        exists ps0, res = ROk t r ps0 /\
          ps = match b with Atomic => [] | _ => [Pair rl off (off + blen t) t ps0] end).
      { intros b res. destruct res as [t0 r0 ps0| |]; cbn [emit]; try discriminate.
        destruct b; intros [= <- <- <-]; eauto. }
      assert (Hx : exists ps0, eval skip body (body_atom ty a) off inp = ROk t r ps0 /\
                     ps = (if emits ty a then [Pair rl off (off + blen t) t ps0] else [])).
      { destruct ty; apply Hr in H' as (ps0 & H' & ->); exists ps0; (split; [exact H'|]); destruct a; reflexivity. }
      destruct Hx as (ps0 & H0 & ->). apply IH in H0 as [-> H0]. split; [reflexivity|].
      apply d_rule; [exact H0|]. exact H.
  Qed.

  Lemma der_placed : (forall e a off t r ps, der e a off t r ps -> placed off t ps)
    /\ (forall e a off t r ps, dtail e a off t r ps -> placed off t ps).
  Proof.
    apply der_dtail_ind; intros; try constructor; try assumption.
    - apply placed_app; [assumption|]. apply placed_gap. assumption.
    - apply placed_app; assumption.
    - destruct (emits t a); [|constructor].
      assert (Hp : placed off ([] ++ x ++ []) [Pair r (off + blen []) (off + blen [] + blen x) x ps]).
      { constructor; [|constructor]. cbn [blen]. rewrite N.add_0_r. assumption. }
      cbn [app blen] in Hp. rewrite N.add_0_r, app_nil_r in Hp. exact Hp.
    - apply placed_gap. apply placed_app; assumption.
  Qed.
End Der.

(** ** Termination: a [*] whose body cannot match the empty string never loops. *)
Section NoLoop.
  Variable skip : str -> pres.
  Hypothesis skip_app : forall inp t r ps, skip inp = ROk t r ps -> inp = t ++ r /\ ps = [].
  Hypothesis skip_noloop : forall inp, skip inp <> RLoop.

  Fixpoint nonnull (e : pexp) : bool :=
    match e with
    | EStr x | EInsens x => match x with [] => false | _ => true end
    | ERange _ _ | EAny => true
    | ESoi | EEnd | EOpt _ | ERep _ | ENot _ => false
    | ESeq a b => nonnull a || nonnull b
    | EAlt a b => nonnull a && nonnull b
    | ERule _ _ b => nonnull b
    end.

  (** Every [*] in the expression has a non-nullable body. *)
  Fixpoint loop_free (e : pexp) : bool :=
    match e with
    | ESeq a b | EAlt a b => loop_free a && loop_free b
    | EOpt a | ENot a | ERule _ _ a => loop_free a
    | ERep a => nonnull a && loop_free a
    | _ => true
    end.

  Lemma nonnull_der e a off t r ps : der skip e a off t r ps -> nonnull e = true -> t <> [].
  Proof.
    revert a off t r ps.
    induction e as [x|x|lo hi| | | |e1 IHe1 e2 IHe2|e1 IHe1 e2 IHe2|e1 IHe1|e1 IHe1|e1 IHe1|rl ty body IHe];
      intros a off t r ps H Hn; inversion H; subst; cbn [nonnull] in Hn; try discriminate.
    - destruct t; [discriminate|congruence].
    - destruct x; [discriminate|]. unfold ci_eq in *. destruct t; [discriminate|congruence].
    - apply orb_true_iff in Hn as [Hn|Hn].
      + intros Ht. apply app_eq_nil in Ht as [-> _]. eapply IHe1; eauto.
      + intros Ht. apply app_eq_nil in Ht as [_ Ht]. apply app_eq_nil in Ht as [_ ->]. eapply IHe2; eauto.
    - apply andb_true_iff in Hn as [Hn1 Hn2]. eapply IHe1; eauto.
    - apply andb_true_iff in Hn as [Hn1 Hn2]. eapply IHe2; eauto.
    - eapply IHe; eauto.
  Qed.

  Lemma do_skip_noloop a inp : do_skip skip a inp <> RLoop.
  Proof. destruct a; cbn [do_skip]; [apply skip_noloop|discriminate|discriminate]. Qed.

  Lemma bind_res_noloop x off g :
    x <> RLoop -> (forall o i, g o i <> RLoop) -> bind_res x off g <> RLoop.
  Proof.
    intros Hx Hg. destruct x as [t i ps| |]; cbn [bind_res]; try congruence.
    specialize (Hg (off + blen t) i). destruct (g (off + blen t) i); congruence.
  Qed.

  Lemma repeat_noloop f :
    (forall off inp, f off inp <> RLoop) ->
    (forall off inp t r ps, f off inp = ROk t r ps -> inp = t ++ r /\ t <> []) ->
    forall fuel off inp, (List.length inp < fuel)%nat -> repeat f fuel off inp <> RLoop.
  Proof.
    intros Hf Hp fuel. induction fuel as [|n IH]; intros off inp Hl; [lia|]. cbn [repeat].
    specialize (Hf off inp). destruct (f off inp) as [t i ps| |] eqn:E; try congruence.
    apply Hp in E as [-> Ht]. rewrite app_length in Hl.
    assert (Hl2 : (List.length i < n)%nat) by (destruct t; [congruence|cbn [List.length] in Hl; lia]).
    specialize (IH (off + blen t) i Hl2). destruct (repeat f n (off + blen t) i); congruence.
  Qed.

  Lemma eval_noloop e : loop_free e = true -> forall a off inp, eval skip e a off inp <> RLoop.
  Proof.
    induction e as [x|x|lo hi| | | |e1 IH1 e2 IH2|e1 IH1 e2 IH2|e1 IH1|e1 IH1|e1 IH1|rl ty body IH];
      intros Hlf a off inp; cbn [loop_free] in Hlf; cbn [eval].
    - destruct (strip_prefix x inp); discriminate.
    - destruct (strip_prefix_ci x inp) as [[? ?]|]; discriminate.
    - destruct inp as [|c inp]; [discriminate|]. destruct ((lo <=? c) && (c <=? hi)); discriminate.
    - destruct inp; discriminate.
    - destruct (off =? 0); discriminate.
    - destruct inp; discriminate.
    - apply andb_true_iff in Hlf as [H1 H2].
      apply bind_res_noloop; [apply bind_res_noloop|]; auto. intros _ i. apply do_skip_noloop.
    - apply andb_true_iff in Hlf as [H1 H2].
      specialize (IH1 H1 a off inp). destruct (eval skip e1 a off inp); auto; discriminate.
    - specialize (IH1 Hlf a off inp). destruct (eval skip e1 a off inp); congruence.
    - apply andb_true_iff in Hlf as [H1 H2]. specialize (IH1 H2).
      assert (Hne : forall a off inp t r ps, eval skip e1 a off inp = ROk t r ps -> inp = t ++ r /\ t <> []).
      { intros a' off' inp' t r ps E. apply eval_der in E as [-> E]; [|exact skip_app].
        split; [reflexivity|]. eapply nonnull_der; eassumption. }
      destruct a.
      + pose proof (IH1 NonAtomic off inp) as Hn. destruct (eval skip e1 NonAtomic off inp) as [t i ps| |]; try congruence.
        apply bind_res_noloop; [discriminate|]. intros o i'.
        apply repeat_noloop; [| |unfold fuel_for; lia].
        * intros o' i''. apply bind_res_noloop; [apply do_skip_noloop|apply IH1].
        * intros o' i'' t' r' ps' E.
          apply bind_res_ROk in E as (g & i2 & ps0 & t0 & ps0' & Eg & Ee & -> & ->).
          pose proof (do_skip_app _ skip_app _ _ _ _ _ Eg) as [-> ->].
          apply Hne in Ee as [-> Ht]. split; [rewrite <- app_assoc; reflexivity|].
          intros Hnil. apply app_eq_nil in Hnil as [_ Hnil]. congruence.
      + apply repeat_noloop; [apply IH1|apply Hne|unfold fuel_for; lia].
      + apply repeat_noloop; [apply IH1|apply Hne|unfold fuel_for; lia].
    - specialize (IH1 Hlf a off inp). destruct (eval skip e1 a off inp); congruence.
    - assert (He : forall b res, res <> RLoop -> emit b rl off res <> RLoop).
      { intros b res Hr. destruct res; cbn [emit]; [destruct b|..]; congruence. }
      destruct ty; apply He, IH; exact Hlf.
  Qed.
End NoLoop.
