(** * EndsTrack: a grammar error in a text whose line ends are written in another way. *)

From Verif Require Import LexRules LinesOk LinesMain TrackShift TrackFacts TrackOk OptimOk PegFacts SynEval ShownOk DrawOk LocSound.
From Coq Require Import Lia.
From Verif Require Import Track Shown Draw DrawSpec Grammar Layout Lex Syntax Lines LineEnds.

(** ** Expressions that do not look at line ends *)
Definition plain_char (c : char) : bool := negb (c =? 10) && negb (c =? 13).
Definition plain_str (x : str) : bool := forallb plain_char x.
Definition dense (c : char) : bool := negb (c =? 32) && negb (c =? 9).
Fixpoint plain_exp (e : pexp) : bool :=
  match e with
  | EStr x | EInsens x => plain_str x
  | ERange lo hi => 13 <? lo
  | EAny | ESoi => false
  | EEnd => true
  | ESeq a b | EAlt a b => plain_exp a && plain_exp b
  | EOpt a | ERep a | ENot a => plain_exp a
  | ERule _ TAtomic (ERep (ESeq (ENot (EStr (c :: q))) EAny)) => plain_str (c :: q) && dense c
  | ERule _ _ b => plain_exp b
  end.
Lemma plain_ne c : plain_char c = true -> c <> 10 /\ c <> 13.
Proof. unfold plain_char. rewrite andb_true_iff, !negb_true_iff, !N.eqb_neq. tauto. Qed.
Section Ends.
Variables nl_as cr_as : str.
Hypothesis nl_break : breaks nl_as.
Hypothesis cr_break : breaks cr_as.
Notation ea := (ends_as nl_as cr_as).
Lemma cr_app (a b : str) : ea (a ++ b) = ea a ++ ea b.
Proof. induction a as [|c a IH]; cbn [app ends_as]; [reflexivity|]. rewrite IH, app_assoc. reflexivity. Qed.
Lemma cr_cons c (i : str) : ~ is_nl c -> ea (c :: i) = c :: ea i.
Proof. intros H. cbn [ends_as]. destruct (N.eqb_spec c 10); [exfalso; apply H; left; assumption|]. destruct (N.eqb_spec c 13); [exfalso; apply H; right; assumption|]. reflexivity. Qed.
Lemma cr_nl c : is_nl c -> exists d w, is_nl d /\ Forall is_ws w /\ forall i, ea (c :: i) = d :: w ++ ea i.
Proof.
  intros Hc. assert (K : exists b, breaks b /\ forall i, ea (c :: i) = b ++ ea i).
  { destruct Hc as [-> | ->]; [exists nl_as|exists cr_as]; (split; [assumption|reflexivity]). }
  destruct K as (b & (d & w & -> & Hd & Hw) & K). exists d, w. auto.
Qed.
Lemma nl_dec c : {is_nl c} + {~ is_nl c}.
Proof. unfold is_nl. destruct (N.eq_dec c 10); [left; auto|]. destruct (N.eq_dec c 13); [left; auto|]. right. intuition. Defined.
Lemma cr_len (i : str) : (List.length i <= List.length (ea i))%nat.
Proof.
  induction i as [|c i IH]; [cbn; lia|]. destruct (nl_dec c) as [H|H]; [destruct (cr_nl c H) as (d & w & _ & _ & ->); cbn [List.length]; rewrite app_length; lia|rewrite cr_cons by exact H; cbn [List.length]; lia].
Qed.
Theorem ends_lines t : same_lines t (ea t).
Proof.
  induction t as [|c t IH]; [constructor|]. destruct (nl_dec c) as [H|H]; [|rewrite cr_cons by exact H; constructor; exact IH].
  cbn [ends_as]. destruct H as [-> | ->].
  - apply (sl_break [10] nl_as); [exists 10, []; repeat split; [left; reflexivity|constructor]|exact nl_break|exact IH].
  - apply (sl_break [13] cr_as); [exists 13, []; repeat split; [right; reflexivity|constructor]|exact cr_break|exact IH].
Qed.
Lemma cr_strip x : plain_str x = true -> forall i, strip_prefix x (ea i) = option_map ea (strip_prefix x i).
Proof.
  induction x as [|c x IH]; intros H i; [reflexivity|]. cbn [plain_str forallb] in H. apply andb_true_iff in H as [Hc H]. apply plain_ne in Hc as [H1 H2].
  destruct i as [|d i]; [reflexivity|]. destruct (nl_dec d) as [Hd|Hd].
  - destruct (cr_nl d Hd) as (e & w & He & _ & ->). cbn [strip_prefix]. unfold is_nl in *. destruct (N.eqb_spec c d); [lia|]. destruct (N.eqb_spec c e); [lia|]. reflexivity.
  - rewrite cr_cons by exact Hd. cbn [strip_prefix]. destruct (c =? d); [apply IH; exact H|reflexivity].
Qed.
Lemma lower_nl c d : plain_char c = true -> d = 10 \/ d = 13 -> (lower c =? lower d) = false.
Proof.
  intros H Hd. apply plain_ne in H as [H1 H2]. apply N.eqb_neq. unfold lower.
  destruct Hd as [-> | ->]; cbn [N.leb N.compare Pos.compare Pos.compare_cont andb]; destruct (N.leb_spec 65 c), (N.leb_spec c 90); cbn [andb]; lia.
Qed.
Lemma cr_strip_ci x : plain_str x = true -> forall i, strip_prefix_ci x (ea i) = match strip_prefix_ci x i with Some (t, r) => Some (ea t, ea r) | None => None end.
Proof.
  induction x as [|c x IH]; intros H i; [reflexivity|]. cbn [plain_str forallb] in H. apply andb_true_iff in H as [Hc H].
  destruct i as [|d i]; [reflexivity|]. destruct (nl_dec d) as [Hd|Hd].
  - destruct (cr_nl d Hd) as (e & w & He & _ & ->). cbn [strip_prefix_ci]. rewrite !lower_nl by assumption. reflexivity.
  - rewrite cr_cons by exact Hd. cbn [strip_prefix_ci]. destruct (lower c =? lower d); [|reflexivity]. rewrite (IH H). destruct (strip_prefix_ci x i) as [[t r]|]; [|reflexivity]. rewrite cr_cons by exact Hd. reflexivity.
Qed.
Lemma plain_cr x : plain_str x = true -> ea x = x.
Proof. induction x as [|c x IH]; intros H; [reflexivity|]. cbn [plain_str forallb] in H. apply andb_true_iff in H as [Hc H]. apply plain_ne in Hc as [H1 H2]. rewrite cr_cons, (IH H); [reflexivity|]. unfold is_nl. tauto. Qed.
Lemma ci_split x : forall i t r, strip_prefix_ci x i = Some (t, r) -> i = t ++ r.
Proof.
  induction x as [|c x IH]; intros i t r H; cbn [strip_prefix_ci] in H; [injection H as <- <-; reflexivity|]. destruct i as [|d i]; [discriminate|].
  destruct (lower c =? lower d); [|discriminate]. destruct (strip_prefix_ci x i) as [[t' r']|] eqn:E; [|discriminate]. injection H as <- <-. cbn [app]. f_equal. apply IH. exact E.
Qed.
Lemma cr_until c q : plain_str (c :: q) = true -> dense c = true -> forall i, before (starts (c :: q)) (ea i) = ea (before (starts (c :: q)) i) /\ after (starts (c :: q)) (ea i) = ea (after (starts (c :: q)) i).
Proof.
  intros H Hb i. unfold dense in Hb. assert (S : forall j, starts (c :: q) (ea j) = starts (c :: q) j).
  { intros j. unfold starts. rewrite (cr_strip _ H). destruct (strip_prefix (c :: q) j); reflexivity. }
  assert (S10 : forall d j, d = 10 \/ d = 13 -> starts (c :: q) (d :: j) = false).
  { intros d j Hd. cbn [plain_str forallb] in H. apply andb_true_iff in H as [Hc _]. apply plain_ne in Hc as [H1 H2]. unfold starts. cbn [strip_prefix]. destruct (N.eqb_spec c d); [subst; lia|reflexivity]. }
  assert (SW : forall w j, Forall is_ws w -> before (starts (c :: q)) (w ++ j) = w ++ before (starts (c :: q)) j /\ after (starts (c :: q)) (w ++ j) = after (starts (c :: q)) j).
  { intros w j Hw. induction Hw as [|d w Hd Hw [I1 I2]]; [split; reflexivity|]. cbn [app].
    assert (N0 : starts (c :: q) (d :: w ++ j) = false).
    { unfold starts. cbn [strip_prefix]. destruct (N.eqb_spec c d); [|reflexivity]. exfalso. subst d. unfold is_ws in Hd. cbn [plain_str forallb] in H. apply andb_true_iff in H as [H _]. apply plain_ne in H as [H1 H2]. apply andb_true_iff in Hb as [B1 B2]. apply negb_true_iff, N.eqb_neq in B1, B2. intuition congruence. }
    cbn [before after]. rewrite N0, I1, I2. split; reflexivity. }
  induction i as [|d i [IH1 IH2]].
  - cbn [ends_as]. split; unfold before, after; destruct (starts (c :: q) []); reflexivity.
  - pose proof (S (d :: i)) as Sd. destruct (nl_dec d) as [Hd|Hd].
    + destruct (cr_nl d Hd) as (e & w & He & Hw & Ed). rewrite Ed. cbn [before after]. rewrite !S10 by assumption.
      destruct (SW w (ea i) Hw) as [-> ->]. rewrite IH1, IH2. split; [symmetry; apply Ed|reflexivity].
    + rewrite cr_cons in Sd |- * by exact Hd. cbn [before after]. rewrite Sd. destruct (starts (c :: q) (d :: i)); [rewrite cr_cons by exact Hd; split; reflexivity|]. rewrite IH1, IH2, cr_cons by exact Hd. split; reflexivity.
Qed.

(** ** Layout *)
Lemma cr_nonl (x : str) : Forall (fun c => ~ is_nl c) x -> ea x = x.
Proof. induction 1 as [|c x H _ IH]; [reflexivity|]. rewrite cr_cons, IH; [reflexivity|exact H]. Qed.
Lemma cr_lay i r : lay i r -> lay (ea i) (ea r).
Proof.
  intros (g & -> & Hg & Hr). exists (ea g). split; [apply cr_app|]. split; [|eapply e_nls; [apply ends_lines|exact Hr]].
  destruct Hg as [Hg|[-> Hg]]; [left; exact (e_gap _ Hg _ (ends_lines g))|right]. split; [reflexivity|].
  destruct Hg as [g Hg|g body Hg Hb]; [apply ge_gap; exact (e_gap _ Hg _ (ends_lines g))|]. rewrite !cr_app, (cr_nonl body Hb). apply ge_line; [exact (e_gap _ Hg _ (ends_lines g))|exact Hb].
Qed.
Lemma cr_fin i : fin (ea i) = ea (fin i).
Proof. apply lay_fin. apply cr_lay, lay_of. Qed.
Lemma cr_skip a i : do_skip skip a (ea i) = ROk (ea (fst (skipf a i))) (ea (snd (skipf a i))) [].
Proof.
  rewrite do_skip_skipf. destruct (skipf a i) as [g m] eqn:E1, (skipf a (ea i)) as [g' m'] eqn:E2. cbn [fst snd].
  pose proof (OptimOk.skipf_app _ _ _ _ E1) as A1. pose proof (OptimOk.skipf_app _ _ _ _ E2) as A2.
  assert (Em : m' = ea m).
  { destruct a; [apply skipf_fin in E1, E2; subst; apply cr_fin|cbn in E1, E2; injection E1 as _ <-; injection E2 as _ <-; reflexivity..]. }
  subst m'. rewrite A1, cr_app in A2. apply app_inv_tail in A2. subst. reflexivity.
Qed.

(** ** Values *)
Definition value_exp (q : str) : pexp := ERep (ESeq (ENot (EStr q)) EAny).
Lemma repeat_still f n : (forall o i w, snd (f o i w) = w) -> forall o i w, snd (repeat_t f n o i w) = w.
Proof.
  intros H. induction n as [|n IH]; intros o i w; cbn [repeat_t]; [reflexivity|]. specialize (H o i w). destruct (f o i w) as [x w1]. cbn [snd] in H. subst w1.
  destruct x as [t j ps| |]; try reflexivity. specialize (IH (o + blen t) j w). destruct (repeat_t f n (o + blen t) j w) as [u v]. exact IH.
Qed.
Lemma value_still q lk o i w : snd (eval_t skip (value_exp q) Atomic lk o i w) = w.
Proof.
  unfold value_exp. cbn [eval_t]. apply repeat_still. clear. intros o i w. unfold bind_t. destruct (eval skip (EStr q) Atomic o i); cbn [do_skip]; try reflexivity.
Qed.
Lemma value_t q lk o i w : q <> [] -> eval_t skip (value_exp q) Atomic lk o i w = (ROk (before (starts q) i) (after (starts q) i) [], w).
Proof.
  intros Hq. pose proof (value_still q lk o i w) as S. pose proof (eval_t_fst (value_exp q) Atomic lk o i w) as F.
  destruct (eval_t skip (value_exp q) Atomic lk o i w) as [x v]. cbn [fst snd] in *. subst v. f_equal. rewrite F. apply (eval_rep_until _ _ _ Atomic _ _ (tests_str q)). discriminate.
Qed.
Lemma repeat_mono f n : forall m o i w, (n <= m)%nat -> fst (repeat_t f n o i w) <> RLoop -> repeat_t f m o i w = repeat_t f n o i w.
Proof.
  induction n as [|n IH]; intros m o i w Hm H; cbn [repeat_t] in H |- *; [cbn in H; congruence|]. destruct m as [|m]; [lia|]. cbn [repeat_t].
  destruct (f o i w) as [x w1]. destruct x as [t j ps| |]; try reflexivity.
  assert (K : fst (repeat_t f n (o + blen t) j w1) <> RLoop) by (intros K; destruct (repeat_t f n (o + blen t) j w1) as [u v]; cbn [fst] in K; subst u; cbn in H; congruence).
  rewrite (IH m (o + blen t) j w1 ltac:(lia) K). reflexivity.
Qed.

Section Sim.
  Variable T : str.
  Definition pr (p p' : N) : Prop := exists a b, T = a ++ b /\ p = blen a /\ p' = blen (ea a).
  Definition here (o o' : N) (i : str) : Prop := exists a, T = a ++ i /\ o = blen a /\ o' = blen (ea a).
  Lemma here_pr o o' i : here o o' i -> pr o o'.
  Proof. intros (a & E & H). exists a, i. auto. Qed.
  Lemma blen_pos (x : str) : x <> [] -> 0 < blen x.
  Proof. destruct x as [|c x]; [congruence|]. intros _. cbn [blen]. pose proof (PegFacts.ulen_pos c). lia. Qed.
  Lemma cr_nil (x : str) : x <> [] -> ea x <> [].
  Proof. destruct x as [|c x]; [congruence|]. intros _. destruct (nl_dec c) as [H|H]; [destruct (cr_nl c H) as (d & w & _ & _ & ->)|rewrite cr_cons by exact H]; discriminate. Qed.
  Lemma pr_cmp p p' q q' : pr p p' -> pr q q' -> (p < q /\ p' < q') \/ (p = q /\ p' = q') \/ (q < p /\ q' < p').
  Proof.
    intros (a & b & E & -> & ->) (a2 & b2 & E2 & -> & ->). rewrite E in E2. destruct (prefix_cases _ _ _ _ E2) as [(x & ->)|(x & ->)]; rewrite ?cr_app, ?blen_app.
    - destruct x as [|c x]; [cbn; right; left; rewrite ?N.add_0_r; auto|]. left. pose proof (blen_pos (c :: x) ltac:(discriminate)). pose proof (blen_pos (ea (c :: x)) (cr_nil (c :: x) ltac:(discriminate))). lia.
    - destruct x as [|c x]; [cbn; right; left; rewrite ?N.add_0_r; auto|]. right. right. pose proof (blen_pos (c :: x) ltac:(discriminate)). pose proof (blen_pos (ea (c :: x)) (cr_nil (c :: x) ltac:(discriminate))). lia.
  Qed.
  Lemma pr_eqb p p' q q' : pr p p' -> pr q q' -> (p' =? q') = (p =? q).
  Proof. intros H1 H2. destruct (pr_cmp _ _ _ _ H1 H2) as [?|[?|?]]; destruct (N.eqb_spec p q), (N.eqb_spec p' q'); try reflexivity; lia. Qed.
  Lemma pr_ltb p p' q q' : pr p p' -> pr q q' -> (p' <? q') = (p <? q).
  Proof. intros H1 H2. destruct (pr_cmp _ _ _ _ H1 H2) as [?|[?|?]]; destruct (N.ltb_spec p q), (N.ltb_spec p' q'); try reflexivity; lia. Qed.
  Definition wr (w w' : tracked) : Prop := pr (attempt_pos w) (attempt_pos w') /\ pos_attempts w' = pos_attempts w /\ neg_attempts w' = neg_attempts w.
  Definition sr (i : str) (r r' : pres) : Prop :=
    match r, r' with ROk t m _, ROk t' m' _ => i = t ++ m /\ t' = ea t /\ m' = ea m | RFail, RFail => True | _, _ => False end.
  Definition rl (i : str) (x y : pres * tracked) : Prop := fst x = RLoop \/ (sr i (fst x) (fst y) /\ wr (snd x) (snd y)).
  Lemma here_step o o' i t m : here o o' i -> i = t ++ m -> here (o + blen t) (o' + blen (ea t)) m.
  Proof. intros (a & E & -> & ->) ->. exists (a ++ t). rewrite cr_app, !blen_app, <- app_assoc. auto. Qed.

  Lemma at_sim w w' p p' : wr w w' -> pr p p' -> attempts_at w' p' = attempts_at w p.
  Proof. intros (H & E1 & E2) Hp. unfold attempts_at. rewrite (pr_eqb _ _ _ _ H Hp), E1, E2. reflexivity. Qed.
  Lemma track_in_sim lk r p p' pi ni w w' : wr w w' -> pr p p' -> wr (track_in lk r p pi ni w) (track_in lk r p' pi ni w').
  Proof.
    intros (H & E1 & E2) Hp. unfold track_in. rewrite (pr_eqb _ _ _ _ Hp H), E1, E2.
    set (w1 := if p =? attempt_pos w then mkTracked (attempt_pos w) (firstn pi (pos_attempts w)) (firstn ni (neg_attempts w)) else w).
    set (w1' := if p =? attempt_pos w then mkTracked (attempt_pos w') (firstn pi (pos_attempts w)) (firstn ni (neg_attempts w)) else w').
    assert (W1 : wr w1 w1') by (unfold w1, w1'; destruct (p =? attempt_pos w); repeat split; auto).
    clearbody w1 w1'. clear H E1 E2 w w'. destruct W1 as (H & E1 & E2). rewrite (pr_ltb _ _ _ _ H Hp).
    set (w2 := if attempt_pos w1 <? p then mkTracked p [] [] else w1). set (w2' := if attempt_pos w1 <? p then mkTracked p' [] [] else w1').
    assert (W2 : wr w2 w2') by (unfold w2, w2'; destruct (attempt_pos w1 <? p); repeat split; auto).
    clearbody w2 w2'. clear H E1 E2 w1 w1'. destruct W2 as (H & E1 & E2). rewrite (pr_eqb _ _ _ _ Hp H), E1, E2.
    destruct (p =? attempt_pos w2); [|repeat split; auto]. destruct lk; repeat split; auto.
  Qed.
  Lemma track_sim a lk r p p' pi ni prev w w' : wr w w' -> pr p p' -> wr (track a lk r p pi ni prev w) (track a lk r p' pi ni prev w').
  Proof.
    intros H Hp. unfold track. rewrite (at_sim _ _ _ _ H Hp). pose proof (track_in_sim lk r p p' pi ni w w' H Hp) as K.
    destruct a; try exact H; destruct (Nat.eqb _ _); try exact H; exact K.
  Qed.
  Lemma rule_sim i a lk r p p' w w' run run' : wr w w' -> pr p p' -> (forall w w', wr w w' -> rl i (run w) (run' w')) ->
    rl i (rule_tracked a lk r p w run) (rule_tracked a lk r p' w' run').
  Proof.
    intros H Hp R. unfold rule_tracked. rewrite (at_sim _ _ _ _ H Hp). destruct H as (H0 & E1 & E2). rewrite (pr_eqb _ _ _ _ H0 Hp), E1, E2.
    specialize (R w w' (conj H0 (conj E1 E2))). destruct (run w) as [x w1], (run' w') as [y w1']. destruct R as [L|[S M]]; cbn [fst snd] in *.
    - subst x. left. destruct lk; reflexivity.
    - destruct x as [t j ps| |], y as [t' j' ps'| |]; cbn in S; try contradiction; destruct lk; right; (split; [exact S|]); cbn [snd]; try exact M; apply track_sim; assumption.
  Qed.
  Lemma emit_sim i a r o o' x y : rl i x y -> rl i (emit_t a r o x) (emit_t a r o' y).
  Proof.
    unfold emit_t. intros [L|[S M]]; [left; rewrite L; destruct a; reflexivity|right]. cbn [fst snd]. split; [|exact M].
    destruct (fst x) as [t j ps| |], (fst y) as [t' j' ps'| |]; cbn in S; try contradiction; cbn [emit]; [destruct a; exact S|exact Logic.I].
  Qed.
  Lemma bind_sim i o o' x y g g' : here o o' i -> rl i x y -> (forall o o' m w w', here o o' m -> wr w w' -> rl m (g o m w) (g' o' (ea m) w')) -> rl i (bind_t x o g) (bind_t y o' g').
  Proof.
    intros Hh R H. destruct x as [x w], y as [y w']. unfold bind_t. destruct R as [L|[S M]]; cbn [fst snd] in *; [subst x; left; reflexivity|].
    destruct x as [t m ps| |], y as [t' m' ps'| |]; cbn in S; try contradiction; [|right; split; [exact Logic.I|exact M]].
    destruct S as (E & -> & ->). specialize (H _ _ _ w w' (here_step _ _ _ _ _ Hh E) M).
    destruct (g (o + blen t) m w) as [u v], (g' (o' + blen (ea t)) (ea m) w') as [u' v']. destruct H as [L|[S M']]; cbn [fst snd] in *; [subst u; left; reflexivity|].
    right. split; [|exact M']. cbn [fst]. destruct u as [t2 m2 p2| |], u' as [t3 m3 p3| |]; cbn in S |- *; try contradiction; [|exact Logic.I].
    destruct S as (E2 & -> & ->). subst. rewrite cr_app, app_assoc. auto.
  Qed.
  Lemma repeat_sim g g' n : (forall o o' m w w', here o o' m -> wr w w' -> rl m (g o m w) (g' o' (ea m) w')) -> forall o o' i w w', here o o' i -> wr w w' ->
    rl i (repeat_t g n o i w) (repeat_t g' n o' (ea i) w').
  Proof.
    intros H. induction n as [|n IH]; intros o o' i w w' Hh M; cbn [repeat_t]; [left; reflexivity|].
    pose proof (H o o' i w w' Hh M) as R. destruct (g o i w) as [x w1], (g' o' (ea i) w') as [y w1']. destruct R as [L|[S M1]]; cbn [fst snd] in *; [subst x; left; reflexivity|].
    destruct x as [t m ps| |], y as [t' m' ps'| |]; cbn in S; try contradiction; [|right; split; [cbn; auto|exact M1]].
    destruct S as (E & -> & ->). specialize (IH _ _ _ w1 w1' (here_step _ _ _ _ _ Hh E) M1).
    destruct (repeat_t g n (o + blen t) m w1) as [u v], (repeat_t g' n (o' + blen (ea t)) (ea m) w1') as [u' v']. destruct IH as [L|[S M']]; cbn [fst snd] in *; [subst u; left; reflexivity|].
    right. split; [|exact M']. cbn [fst]. destruct u as [t2 m2 p2| |], u' as [t3 m3 p3| |]; cbn in S |- *; try contradiction; [|exact Logic.I].
    destruct S as (E2 & -> & ->). subst. rewrite cr_app, app_assoc. auto.
  Qed.
  (** The other text has more fuel. *)
  Lemma repeat_fuel i g g' o o' w w' : rl i (repeat_t g (fuel_for i) o i w) (repeat_t g' (fuel_for i) o' (ea i) w') ->
    rl i (repeat_t g (fuel_for i) o i w) (repeat_t g' (fuel_for (ea i)) o' (ea i) w').
  Proof.
    intros [L|[S M]]; [left; exact L|]. rewrite (repeat_mono g' (fuel_for i) (fuel_for (ea i))); [right; auto|unfold fuel_for; pose proof (cr_len i); lia|].
    intros K. rewrite K in S. destruct (fst (repeat_t g (fuel_for i) o i w)); exact S.
  Qed.
  Lemma skip_sim a i w w' : wr w w' -> rl i (do_skip skip a i, w) (do_skip skip a (ea i), w').
  Proof.
    intros M. right. split; [|exact M]. cbn [fst]. rewrite cr_skip, do_skip_skipf. cbn [sr]. split; [|auto].
    destruct (skipf a i) as [g m] eqn:E. cbn [fst snd]. apply (OptimOk.skipf_app a). exact E.
  Qed.
  Lemma eval_sim e : plain_exp e = true -> forall a lk o o' i w w', here o o' i -> wr w w' -> rl i (eval_t skip e a lk o i w) (eval_t skip e a lk o' (ea i) w').
  Proof.
    induction e as [x|x|lo hi| | | |e1 IH1 e2 IH2|e1 IH1 e2 IH2|e IH|e IH|e IH|r t b IH]; intros H a lk o o' i w w' Hh M; cbn [plain_exp] in H; try discriminate; cbn [eval_t].
    - right. split; [|exact M]. cbn [fst eval]. rewrite (cr_strip x H). destruct (strip_prefix x i) as [r|] eqn:E; cbn [option_map sr]; [|exact Logic.I].
      apply strip_prefix_spec in E. rewrite (plain_cr x H). auto.
    - right. split; [|exact M]. cbn [fst eval]. rewrite (cr_strip_ci x H). destruct (strip_prefix_ci x i) as [[t r]|] eqn:E; cbn [sr]; [|exact Logic.I]. apply ci_split in E. auto.
    - right. split; [|exact M]. cbn [fst eval]. apply N.ltb_lt in H. destruct i as [|c i]; [exact Logic.I|]. destruct (nl_dec c) as [Hc|Hc].
      + destruct (cr_nl c Hc) as (d & ww & Hd & _ & ->). unfold is_nl in *. destruct (N.leb_spec lo c); [lia|]. destruct (N.leb_spec lo d); [lia|]. exact Logic.I.
      + rewrite cr_cons by exact Hc. destruct ((lo <=? c) && (c <=? hi)); cbn [sr]; [|exact Logic.I]. split; [reflexivity|]. split; [|reflexivity]. symmetry. apply cr_cons. exact Hc.
    - right. split; [|exact M]. cbn [fst eval]. destruct i as [|c i]; [cbn; auto|]. destruct (nl_dec c) as [Hc|Hc]; [destruct (cr_nl c Hc) as (d & ww & _ & _ & ->)|rewrite cr_cons by exact Hc]; exact Logic.I.
    - apply andb_true_iff in H as [H1 H2]. apply (bind_sim i o o'); [exact Hh| |intros; apply (IH2 H2); assumption]. apply (bind_sim i o o'); [exact Hh|apply (IH1 H1); assumption|]. intros. apply skip_sim. assumption.
    - apply andb_true_iff in H as [H1 H2]. pose proof (IH1 H1 a lk o o' i w w' Hh M) as R.
      destruct (eval_t skip e1 a lk o i w) as [x w1], (eval_t skip e1 a lk o' (ea i) w') as [y w1']. destruct R as [L|[S M1]]; cbn [fst snd] in *; [subst x; left; reflexivity|].
      destruct x, y; cbn in S; try contradiction; [right; split; [exact S|exact M1]|]. apply (IH2 H2); assumption.
    - pose proof (IH H a lk o o' i w w' Hh M) as R.
      destruct (eval_t skip e a lk o i w) as [x w1], (eval_t skip e a lk o' (ea i) w') as [y w1']. destruct R as [L|[S M1]]; cbn [fst snd] in *; [subst x; left; reflexivity|].
      destruct x, y; cbn in S; try contradiction; right; (split; [|exact M1]); [exact S|cbn; auto].
    - destruct a; try (apply repeat_fuel, repeat_sim; [intros; apply (IH H); assumption|exact Hh|exact M]).
      pose proof (IH H NonAtomic lk o o' i w w' Hh M) as R.
      destruct (eval_t skip e NonAtomic lk o i w) as [x w1], (eval_t skip e NonAtomic lk o' (ea i) w') as [y w1'].
      assert (K : rl i (bind_t (x, w1) o (fun off1 inp1 => repeat_t (fun o i0 w => bind_t (do_skip skip NonAtomic i0, w) o (eval_t skip e NonAtomic lk)) (fuel_for inp1) off1 inp1))
                       (bind_t (y, w1') o' (fun off1 inp1 => repeat_t (fun o i0 w => bind_t (do_skip skip NonAtomic i0, w) o (eval_t skip e NonAtomic lk)) (fuel_for inp1) off1 inp1))).
      { apply (bind_sim i o o'); [exact Hh|exact R|]. intros p p' j v v' Hj Mv. apply repeat_fuel, repeat_sim; [|exact Hj|exact Mv]. intros p1 p1' j' u u' Hj' Mu.
        apply (bind_sim j' p1 p1'); [exact Hj'|apply skip_sim; exact Mu|]. intros. apply (IH H); assumption. }
      destruct R as [L|[S M1]]; cbn [fst snd] in *; [subst x; left; reflexivity|]. destruct x, y; cbn in S; try contradiction; [exact K|]. right. split; [cbn; auto|exact M1].
    - pose proof (IH H a (flip lk) o o' i w w' Hh M) as R.
      destruct (eval_t skip e a (flip lk) o i w) as [x w1], (eval_t skip e a (flip lk) o' (ea i) w') as [y w1']. destruct R as [L|[S M1]]; cbn [fst snd] in *; [subst x; left; reflexivity|].
      right. split; [|exact M1]. cbn [fst]. destruct x, y; cbn in S; try contradiction; cbn; auto.
    - assert (V : (exists c q, t = TAtomic /\ b = value_exp (c :: q) /\ plain_str (c :: q) && dense c = true) \/ plain_exp b = true).
      { destruct t; try (right; exact H). destruct b; try (right; exact H). destruct b; try (right; exact H). destruct b1; try (right; exact H). destruct b1; try (right; exact H).
        destruct x as [|c q]; [right; exact H|]. destruct b2; try (right; exact H). left. exists c, q. auto. }
      destruct V as [(c & q & -> & -> & Hq)|V].
      + apply emit_sim, rule_sim; [exact M|apply here_pr in Hh; exact Hh|]. intros v v' Mv. rewrite !value_t by discriminate. right. split; [|exact Mv]. cbn [fst sr].
        apply andb_true_iff in Hq as [Hq Hq2]. destruct (cr_until c q Hq Hq2 i) as [-> ->]. split; [|auto]. symmetry. apply before_after.
      + pose proof (here_pr _ _ _ Hh) as Hp. destruct t; apply emit_sim, rule_sim; try exact M; try exact Hp; intros; apply (IH V); assumption.
  Qed.
End Sim.

(** ** The whole text *)
Lemma rest_plain : plain_exp rest_e = true.
Proof. vm_compute. reflexivity. Qed.
Lemma rest_loop_free : loop_free rest_e = true.
Proof. vm_compute. reflexivity. Qed.
Local Opaque rest_e.
Lemma body_ends t : rl t (fin t) (body_run t) (body_run (ea t)).
Proof.
  unfold body_run. rewrite cr_fin. destruct (fin_len t) as (g & E & _).
  assert (O1 : blen t - blen (fin t) = blen g) by (apply (f_equal blen) in E; rewrite blen_app in E; lia).
  assert (O2 : blen (ea t) - blen (ea (fin t)) = blen (ea g)) by (apply (f_equal ea) in E; rewrite cr_app in E; apply (f_equal blen) in E; rewrite blen_app in E; lia).
  rewrite O1, O2. apply (eval_sim t); [apply rest_plain|exists g; auto|]. split; [|split; reflexivity]. exists [], t. auto.
Qed.
Lemma body_no_loop t : fst (body_run t) <> RLoop.
Proof. unfold body_run. rewrite eval_t_fst. apply eval_loopless, rest_loop_free. Qed.
(** The same report, at the same place. *)
Definition same_report (t : str) (r r' : option grammar_report) : Prop :=
  match r, r' with
  | None, None => True
  | Some p, Some p' => exists a b, t = a ++ b /\ rep_pos p = blen a /\ rep_pos p' = blen (ea a) /\ rep_positives p' = rep_positives p /\ rep_negatives p' = rep_negatives p
  | _, _ => False
  end.
Theorem report_ends t : same_report t (grammar_error t) (grammar_error (ea t)).
Proof.
  rewrite !report_body. pose proof (body_ends t) as R. pose proof (body_no_loop t) as L. destruct (body_run t) as [x w], (body_run (ea t)) as [y w'].
  destruct R as [R|[S M]]; cbn [fst snd] in *; [contradiction|]. destruct x as [u m ps| |], y as [u' m' ps'| |]; cbn [sr] in S; try contradiction; [exact Logic.I|].
  cbv zeta. assert (Z : pr t 0 0) by (exists [], t; auto). destruct (track_sim t NonAtomic LkNone R_schema 0 0 0 0 0 w w' M Z) as ((a & b & E & E1 & E2) & E3 & E4).
  exists a, b. cbn [rep_pos rep_positives rep_negatives]. rewrite E3, E4. auto.
Qed.

End Ends.
