(** * SameTrack: a grammar error in texts that differ in line ends and indentation. *)

From Verif Require Import LexRules LinesOk LinesMain TrackShift TrackFacts TrackOk OptimOk PegFacts SynEval ShownOk DrawOk LocSound EndsTrack.
From Coq Require Import Lia.
From Verif Require Import Track Shown Draw DrawSpec Grammar Layout Lex Syntax Lines LineEnds.

(** ** A text, and how each of its characters is written in another one *)
Definition script : Type := list (char * str).
Definition okseg (p : char * str) : Prop := (~ is_nl (fst p) /\ snd p = [fst p]) \/ (is_nl (fst p) /\ breaks (snd p)).
Definition U (s : script) : str := map fst s.
Definition V (s : script) : str := List.concat (map snd s).
Definition ok (s : script) : Prop := Forall okseg s.
Lemma U_app a b : U (a ++ b) = U a ++ U b.
Proof. apply map_app. Qed.
Lemma V_app a b : V (a ++ b) = V a ++ V b.
Proof. unfold V. rewrite map_app, concat_app. reflexivity. Qed.
Lemma V_cons c x z : V ((c, x) :: z) = x ++ V z.
Proof. reflexivity. Qed.
Lemma ok_app a b : ok (a ++ b) -> ok a /\ ok b.
Proof. apply Forall_app. Qed.
Lemma seg_len p : okseg p -> (1 <= List.length (snd p))%nat.
Proof. intros [[_ ->]|[_ (d & w & -> & _)]]; cbn [List.length]; lia. Qed.
Lemma sc_len z : ok z -> (List.length (U z) <= List.length (V z))%nat.
Proof. induction 1 as [|[c x] z H _ IH]; [cbn; lia|]. rewrite V_cons, app_length. apply seg_len in H. cbn [U map List.length snd] in *. unfold U in IH. lia. Qed.
Lemma ok_lines z : ok z -> same_lines (U z) (V z).
Proof.
  induction 1 as [|[c x] z H _ IH]; [constructor|]. rewrite V_cons. destruct H as [[H E]|[H B]]; cbn [fst snd] in *.
  - subst x. constructor. exact IH.
  - apply (sl_break [c] x); [exists c, []; repeat split; [exact H|constructor]|exact B|exact IH].
Qed.
Lemma sc_split (g r : str) z : U z = g ++ r -> exists p q, z = p ++ q /\ U p = g /\ U q = r.
Proof.
  intros H. exists (firstn (List.length g) z), (skipn (List.length g) z). split; [symmetry; apply firstn_skipn|]. unfold U in *. rewrite <- firstn_map, <- skipn_map, H. split.
  - rewrite firstn_app, firstn_all, Nat.sub_diag. cbn [firstn]. apply app_nil_r.
  - rewrite skipn_app, skipn_all, Nat.sub_diag. reflexivity.
Qed.
Lemma U_same p q a b : p ++ q = a ++ b -> U p = U a -> p = a /\ q = b.
Proof.
  intros H E. assert (L : List.length p = List.length a) by (apply (f_equal (@List.length char)) in E; unfold U in E; rewrite !map_length in E; exact E).
  revert a H E L. induction p as [|x p IH]; intros [|y a] H E L; try discriminate; [auto|]. cbn [app] in H. injection H as -> H. cbn [U map] in E. injection E as E. cbn [List.length] in L. injection L as L.
  destruct (IH a H E L) as [-> ->]. auto.
Qed.

Lemma sc_strip x : plain_str x = true -> forall z, ok z ->
  match strip_prefix x (U z) with
  | Some r => exists p q, z = p ++ q /\ U p = x /\ V p = x /\ U q = r /\ strip_prefix x (V z) = Some (V q)
  | None => strip_prefix x (V z) = None
  end.
Proof.
  induction x as [|c x IH]; intros H z Hz; [exists [], z; auto|]. cbn [plain_str forallb] in H. apply andb_true_iff in H as [Hc H]. apply plain_ne in Hc as [H1 H2].
  destruct Hz as [|[d y] z Hd Hz]; [reflexivity|]. cbn [U map fst strip_prefix]. fold (U z). rewrite V_cons. unfold okseg in Hd; cbn [fst snd] in Hd; destruct Hd as [[Hd E]|[Hd (e & w & -> & He & _)]]; cbn [fst snd] in *.
  - subst y. cbn [app strip_prefix]. destruct (N.eqb_spec c d) as [->|]; [|reflexivity]. specialize (IH H z Hz). destruct (strip_prefix x (U z)) as [r|]; [|exact IH].
    destruct IH as (p & q & -> & E1 & E2 & E3 & E4). exists ((d, [d]) :: p), q. cbn [U map fst app]. rewrite V_cons. fold (U p). rewrite E1, E2. auto.
  - unfold is_nl in *. cbn [app strip_prefix]. destruct (N.eqb_spec c d); [lia|]. destruct (N.eqb_spec c e); [lia|]. reflexivity.
Qed.
Lemma sc_strip_ci x : plain_str x = true -> forall z, ok z ->
  match strip_prefix_ci x (U z) with
  | Some (t, r) => exists p q, z = p ++ q /\ U p = t /\ U q = r /\ strip_prefix_ci x (V z) = Some (V p, V q)
  | None => strip_prefix_ci x (V z) = None
  end.
Proof.
  induction x as [|c x IH]; intros H z Hz; [exists [], z; auto|]. cbn [plain_str forallb] in H. apply andb_true_iff in H as [Hc H].
  destruct Hz as [|[d y] z Hd Hz]; [reflexivity|]. cbn [U map fst strip_prefix_ci]. fold (U z). rewrite V_cons. unfold okseg in Hd; cbn [fst snd] in Hd; destruct Hd as [[Hd E]|[Hd (e & w & -> & He & _)]]; cbn [fst snd] in *.
  - subst y. cbn [app strip_prefix_ci]. destruct (lower c =? lower d); [|reflexivity]. specialize (IH H z Hz). destruct (strip_prefix_ci x (U z)) as [[t r]|]; [|rewrite IH; reflexivity].
    destruct IH as (p & q & -> & E1 & E2 & E3). rewrite E3. exists ((d, [d]) :: p), q. cbn [U map fst app]. fold (U p). rewrite E1. auto.
  - cbn [app strip_prefix_ci]. rewrite !lower_nl by assumption. reflexivity.
Qed.
Lemma sc_until c q : plain_str (c :: q) = true -> dense c = true -> forall z, ok z -> exists p r, z = p ++ r /\
  before (starts (c :: q)) (U z) = U p /\ after (starts (c :: q)) (U z) = U r /\ before (starts (c :: q)) (V z) = V p /\ after (starts (c :: q)) (V z) = V r.
Proof.
  intros H Hb. unfold dense in Hb.
  assert (S : forall z, ok z -> starts (c :: q) (V z) = starts (c :: q) (U z)).
  { intros z Hz. unfold starts. pose proof (sc_strip _ H z Hz) as K. destruct (strip_prefix (c :: q) (U z)); [destruct K as (? & ? & _ & _ & _ & _ & ->)|rewrite K]; reflexivity. }
  assert (W0 : forall d j, is_ws d -> starts (c :: q) (d :: j) = false).
  { intros d j Hd. unfold starts. cbn [strip_prefix]. destruct (N.eqb_spec c d); [|reflexivity]. exfalso. subst d. unfold is_ws in Hd. cbn [plain_str forallb] in H. apply andb_true_iff in H as [H _]. apply plain_ne in H as [H1 H2]. apply andb_true_iff in Hb as [B1 B2]. apply negb_true_iff, N.eqb_neq in B1, B2. intuition congruence. }
  assert (SW : forall w j, Forall is_ws w -> before (starts (c :: q)) (w ++ j) = w ++ before (starts (c :: q)) j /\ after (starts (c :: q)) (w ++ j) = after (starts (c :: q)) j).
  { intros w j Hw. induction Hw as [|d w Hd Hw [I1 I2]]; [split; reflexivity|]. cbn [app before after]. rewrite (W0 d (w ++ j) Hd), I1, I2. split; reflexivity. }
  assert (NW : forall d, is_nl d -> is_ws d) by (unfold is_nl, is_ws; tauto).
  intros z Hz. induction Hz as [|[d y] z Hd Hz IH].
  - exists [], []. cbn [U V map List.concat app]. unfold before, after. destruct (starts (c :: q) []); auto.
  - pose proof (S ((d, y) :: z) (Forall_cons _ Hd Hz)) as Sd. rewrite V_cons in Sd |- *. cbn [U map fst] in Sd |- *. fold (U z) in Sd |- *. cbn [before after].
    destruct IH as (p & r & -> & I1 & I2 & I3 & I4).
    unfold okseg in Hd; cbn [fst snd] in Hd; destruct Hd as [[Hd E]|[Hd (e & w & -> & He & Hw)]]; cbn [fst snd] in *.
    + subst y. cbn [app] in Sd |- *. cbn [before after]. rewrite Sd. destruct (starts (c :: q) (d :: U (p ++ r))).
      * exists [], ((d, [d]) :: p ++ r). auto.
      * exists ((d, [d]) :: p), r. rewrite V_cons, I1, I2, I3, I4. auto.
    + rewrite (W0 d _ (NW d Hd)). cbn [app before after]. rewrite (W0 e _ (NW e He)). destruct (SW w (V (p ++ r)) Hw) as [-> ->]. rewrite I1, I2, I3, I4.
      exists ((d, e :: w) :: p), r. rewrite V_cons. auto.
Qed.

(** ** Layout *)
Lemma sc_nonl p : ok p -> Forall (fun c => ~ is_nl c) (U p) -> V p = U p.
Proof.
  induction 1 as [|[c x] p H _ IH]; intros K; [reflexivity|]. cbn [U map fst] in K |- *. fold (U p) in K |- *. inversion K; subst. rewrite V_cons, (IH ltac:(assumption)).
  unfold okseg in H. cbn [fst snd] in H. destruct H as [[_ ->]|[H _]]; [reflexivity|]. contradiction.
Qed.
Lemma sc_lay p q : ok (p ++ q) -> (gap (U p) \/ (U q = [] /\ gap_eof (U p))) -> no_layout_start (U q) -> lay (V (p ++ q)) (V q).
Proof.
  intros Ho Hg Hr. apply ok_app in Ho as [Hp Hq]. exists (V p). split; [apply V_app|]. split; [|eapply e_nls; [apply ok_lines; exact Hq|exact Hr]].
  destruct Hg as [Hg|[Eq Hg]]; [left; exact (e_gap _ Hg _ (ok_lines p Hp))|right].
  split; [destruct q; [reflexivity|discriminate]|].
  remember (U p) as u eqn:Eu. destruct Hg as [g Hg|g body Hg Hb]; [apply ge_gap; subst g; exact (e_gap _ Hg _ (ok_lines p Hp))|].
  destruct (sc_split g (s "//" ++ body) p (eq_sym Eu)) as (p1 & p2 & -> & E1 & E2). apply ok_app in Hp as [Hp1 Hp2]. rewrite V_app. rewrite (sc_nonl p2 Hp2).
  - rewrite E2. apply ge_line; [|exact Hb]. subst g. exact (e_gap _ Hg _ (ok_lines p1 Hp1)).
  - rewrite E2. apply (Forall_cons 47); [unfold is_nl; lia|]. apply (Forall_cons 47); [unfold is_nl; lia|exact Hb].
Qed.
Lemma sc_fin z : ok z -> exists p q, z = p ++ q /\ fin (U z) = U q /\ fin (V z) = V q.
Proof.
  intros Hz. pose proof (lay_of (U z)) as (g & E & Hg & Hr). destruct (sc_split g (fin (U z)) z E) as (p & q & -> & E1 & E2). exists p, q.
  split; [reflexivity|]. split; [symmetry; exact E2|]. apply lay_fin. subst g. rewrite <- E2 in Hg, Hr. apply sc_lay; assumption.
Qed.
Lemma sc_skip a z : ok z -> exists p q, z = p ++ q /\ do_skip skip a (U z) = ROk (U p) (U q) [] /\ do_skip skip a (V z) = ROk (V p) (V q) [].
Proof.
  intros Hz. rewrite !do_skip_skipf. destruct (skipf a (U z)) as [g m] eqn:E1, (skipf a (V z)) as [g' m'] eqn:E2. cbn [fst snd].
  pose proof (OptimOk.skipf_app _ _ _ _ E1) as A1. pose proof (OptimOk.skipf_app _ _ _ _ E2) as A2.
  assert (K : exists p q, z = p ++ q /\ m = U q /\ m' = V q).
  { destruct a; [apply skipf_fin in E1, E2; subst; apply sc_fin; exact Hz|(exists [], z; cbn in E1, E2; injection E1 as _ <-; injection E2 as _ <-; auto)..]. }
  destruct K as (p & q & -> & -> & ->). exists p, q. rewrite U_app in A1. rewrite V_app in A2. apply app_inv_tail in A1, A2. subst. auto.
Qed.

Section Sim.
  Variable T : script.
  Hypothesis okT : ok T.
  Definition pr (p p' : N) : Prop := exists a b, T = a ++ b /\ p = blen (U a) /\ p' = blen (V a).
  Definition here (o o' : N) (z : script) : Prop := exists a, T = a ++ z /\ o = blen (U a) /\ o' = blen (V a).
  Lemma here_ok o o' z : here o o' z -> ok z.
  Proof. intros (a & E & _). rewrite E in okT. apply ok_app in okT. tauto. Qed.
  Lemma here_pr o o' i : here o o' i -> pr o o'.
  Proof. intros (a & E & H). exists a, i. auto. Qed.
  Lemma U_pos x z : 0 < blen (U (x :: z)).
  Proof. cbn [U map blen]. pose proof (PegFacts.ulen_pos (fst x)). lia. Qed.
  Lemma V_pos x z : ok (x :: z) -> 0 < blen (V (x :: z)).
  Proof.
    intros H. inversion H as [|? ? Hx _]; subst. apply seg_len in Hx. destruct x as [c [|d y]]; [cbn in Hx; lia|]. rewrite V_cons. cbn [app blen]. pose proof (PegFacts.ulen_pos d). lia.
  Qed.
  Lemma sc_cases (a b c d : script) : a ++ b = c ++ d -> (exists x, c = a ++ x) \/ (exists x, a = c ++ x).
  Proof.
    revert c. induction a as [|x a IH]; intros [|y c] H; [left; exists []; reflexivity|left; exists (y :: c); reflexivity|right; exists (x :: a); reflexivity|].
    cbn [app] in H. injection H as -> H. destruct (IH c H) as [(z & ->)|(z & ->)]; [left|right]; exists z; reflexivity.
  Qed.
  Lemma pr_cmp p p' q q' : pr p p' -> pr q q' -> (p < q /\ p' < q') \/ (p = q /\ p' = q') \/ (q < p /\ q' < p').
  Proof.
    intros (a & b & E & -> & ->) (a2 & b2 & E2 & -> & ->).
    assert (Oa : ok a) by (rewrite E in okT; apply ok_app in okT; tauto). assert (Oa2 : ok a2) by (rewrite E2 in okT; apply ok_app in okT; tauto).
    rewrite E in E2. destruct (sc_cases _ _ _ _ E2) as [(x & ->)|(x & ->)]; rewrite ?U_app, ?V_app, ?blen_app.
    - apply ok_app in Oa2 as [_ Ox]. destruct x as [|c x]; [cbn; right; left; rewrite ?N.add_0_r; auto|]. left. pose proof (U_pos c x). pose proof (V_pos c x Ox). lia.
    - apply ok_app in Oa as [_ Ox]. destruct x as [|c x]; [cbn; right; left; rewrite ?N.add_0_r; auto|]. right. right. pose proof (U_pos c x). pose proof (V_pos c x Ox). lia.
  Qed.
  Lemma pr_eqb p p' q q' : pr p p' -> pr q q' -> (p' =? q') = (p =? q).
  Proof. intros H1 H2. destruct (pr_cmp _ _ _ _ H1 H2) as [?|[?|?]]; destruct (N.eqb_spec p q), (N.eqb_spec p' q'); try reflexivity; lia. Qed.
  Lemma pr_ltb p p' q q' : pr p p' -> pr q q' -> (p' <? q') = (p <? q).
  Proof. intros H1 H2. destruct (pr_cmp _ _ _ _ H1 H2) as [?|[?|?]]; destruct (N.ltb_spec p q), (N.ltb_spec p' q'); try reflexivity; lia. Qed.
  Definition wr (w w' : tracked) : Prop := pr (attempt_pos w) (attempt_pos w') /\ pos_attempts w' = pos_attempts w /\ neg_attempts w' = neg_attempts w.
  Definition sr (i : script) (r r' : pres) : Prop :=
    match r, r' with ROk t m _, ROk t' m' _ => exists p q, i = p ++ q /\ t = U p /\ m = U q /\ t' = V p /\ m' = V q | RFail, RFail => True | _, _ => False end.
  Definition rl (i : script) (x y : pres * tracked) : Prop := fst x = RLoop \/ (sr i (fst x) (fst y) /\ wr (snd x) (snd y)).
  Lemma here_step o o' i p q : here o o' i -> i = p ++ q -> here (o + blen (U p)) (o' + blen (V p)) q.
  Proof. intros (a & E & -> & ->) ->. exists (a ++ p). rewrite U_app, V_app, !blen_app, <- app_assoc. auto. Qed.

  Lemma at_sim w w' p p' : wr w w' -> pr p p' -> attempts_at w' p' = attempts_at w p.
  Proof. intros (H & E1 & E2) Hp. unfold attempts_at. rewrite (pr_eqb _ _ _ _ H Hp), E1, E2. reflexivity. Qed.
  Lemma track_in_sim lk r p p' pi ni w w' : wr w w' -> pr p p' -> wr (track_in lk r p pi ni w) (track_in lk r p' pi ni w').
  Proof.
    intros (H & E1 & E2) Hp. unfold track_in. rewrite (pr_eqb _ _ _ _ Hp H), E1, E2.
    set (w1 := if p =? attempt_pos w then mkTracked (attempt_pos w) (firstn pi (pos_attempts w)) (firstn ni (neg_attempts w)) else w).
    set (w1' := if p =? attempt_pos w then mkTracked (attempt_pos w') (firstn pi (pos_attempts w)) (firstn ni (neg_attempts w)) else w').
    assert (W1 : wr w1 w1') by (unfold w1, w1'; destruct (p =? attempt_pos w); repeat split; auto).
    clearbody w1 w1'. clear H E1 E2 w w'. destruct W1 as (H & E1 & E2). rewrite (pr_ltb _ _ _ _ H Hp).
    set (w2 := if attempt_pos w1 <? p then mkTracked p [] [] else w1). set (w2' := if attempt_pos w1 <? p then mkTracked p' [] [] else w1').
    assert (W2 : wr w2 w2') by (unfold w2, w2'; destruct (attempt_pos w1 <? p); repeat split; auto).
    clearbody w2 w2'. clear H E1 E2 w1 w1'. destruct W2 as (H & E1 & E2). rewrite (pr_eqb _ _ _ _ Hp H), E1, E2.
    destruct (p =? attempt_pos w2); [|repeat split; auto]. destruct lk; repeat split; auto.
  Qed.
  Lemma track_sim a lk r p p' pi ni prev w w' : wr w w' -> pr p p' -> wr (track a lk r p pi ni prev w) (track a lk r p' pi ni prev w').
  Proof.
    intros H Hp. unfold track. rewrite (at_sim _ _ _ _ H Hp). pose proof (track_in_sim lk r p p' pi ni w w' H Hp) as K.
    destruct a; try exact H; destruct (Nat.eqb _ _); try exact H; exact K.
  Qed.
  Lemma rule_sim i a lk r p p' w w' run run' : wr w w' -> pr p p' -> (forall w w', wr w w' -> rl i (run w) (run' w')) ->
    rl i (rule_tracked a lk r p w run) (rule_tracked a lk r p' w' run').
  Proof.
    intros H Hp R. unfold rule_tracked. rewrite (at_sim _ _ _ _ H Hp). destruct H as (H0 & E1 & E2). rewrite (pr_eqb _ _ _ _ H0 Hp), E1, E2.
    specialize (R w w' (conj H0 (conj E1 E2))). destruct (run w) as [x w1], (run' w') as [y w1']. destruct R as [L|[S M]]; cbn [fst snd] in *.
    - subst x. left. destruct lk; reflexivity.
    - destruct x as [t j ps| |], y as [t' j' ps'| |]; cbn in S; try contradiction; destruct lk; right; (split; [exact S|]); cbn [snd]; try exact M; apply track_sim; assumption.
  Qed.
  Lemma emit_sim i a r o o' x y : rl i x y -> rl i (emit_t a r o x) (emit_t a r o' y).
  Proof.
    unfold emit_t. intros [L|[S M]]; [left; rewrite L; destruct a; reflexivity|right]. cbn [fst snd]. split; [|exact M].
    destruct (fst x) as [t j ps| |], (fst y) as [t' j' ps'| |]; cbn in S; try contradiction; cbn [emit]; [destruct a; exact S|exact Logic.I].
  Qed.
  Lemma bind_sim i o o' x y g g' : here o o' i -> rl i x y -> (forall o o' m w w', here o o' m -> wr w w' -> rl m (g o (U m) w) (g' o' (V m) w')) -> rl i (bind_t x o g) (bind_t y o' g').
  Proof.
    intros Hh R H. destruct x as [x w], y as [y w']. unfold bind_t. destruct R as [L|[S M]]; cbn [fst snd] in *; [subst x; left; reflexivity|].
    destruct x as [t m ps| |], y as [t' m' ps'| |]; cbn in S; try contradiction; [|right; split; [exact Logic.I|exact M]].
    destruct S as (p & q & E & -> & -> & -> & ->). specialize (H _ _ _ w w' (here_step _ _ _ _ _ Hh E) M).
    destruct (g (o + blen (U p)) (U q) w) as [u v], (g' (o' + blen (V p)) (V q) w') as [u' v']. destruct H as [L|[S M']]; cbn [fst snd] in *; [subst u; left; reflexivity|].
    right. split; [|exact M']. cbn [fst]. destruct u as [t2 m2 p2| |], u' as [t3 m3 p3| |]; cbn in S |- *; try contradiction; [|exact Logic.I].
    destruct S as (p4 & q4 & -> & -> & -> & -> & ->). exists (p ++ p4), q4. rewrite U_app, V_app, E, app_assoc. auto 6.
  Qed.
  Lemma repeat_sim g g' n : (forall o o' m w w', here o o' m -> wr w w' -> rl m (g o (U m) w) (g' o' (V m) w')) -> forall o o' i w w', here o o' i -> wr w w' ->
    rl i (repeat_t g n o (U i) w) (repeat_t g' n o' (V i) w').
  Proof.
    intros H. induction n as [|n IH]; intros o o' i w w' Hh M; cbn [repeat_t]; [left; reflexivity|].
    pose proof (H o o' i w w' Hh M) as R. destruct (g o (U i) w) as [x w1], (g' o' (V i) w') as [y w1']. destruct R as [L|[S M1]]; cbn [fst snd] in *; [subst x; left; reflexivity|].
    destruct x as [t m ps| |], y as [t' m' ps'| |]; cbn in S; try contradiction; [|right; split; [exists [], i; auto 6|exact M1]].
    destruct S as (p & q & E & -> & -> & -> & ->). specialize (IH _ _ _ w1 w1' (here_step _ _ _ _ _ Hh E) M1).
    destruct (repeat_t g n (o + blen (U p)) (U q) w1) as [u v], (repeat_t g' n (o' + blen (V p)) (V q) w1') as [u' v']. destruct IH as [L|[S M']]; cbn [fst snd] in *; [subst u; left; reflexivity|].
    right. split; [|exact M']. cbn [fst]. destruct u as [t2 m2 p2| |], u' as [t3 m3 p3| |]; cbn in S |- *; try contradiction; [|exact Logic.I].
    destruct S as (p4 & q4 & -> & -> & -> & -> & ->). exists (p ++ p4), q4. rewrite U_app, V_app, E, app_assoc. auto 6.
  Qed.
  (** The other text has more fuel. *)
  Lemma repeat_fuel i g g' o o' w w' : ok i -> rl i (repeat_t g (fuel_for (U i)) o (U i) w) (repeat_t g' (fuel_for (U i)) o' (V i) w') ->
    rl i (repeat_t g (fuel_for (U i)) o (U i) w) (repeat_t g' (fuel_for (V i)) o' (V i) w').
  Proof.
    intros Ho [L|[S M]]; [left; exact L|]. rewrite (repeat_mono g' (fuel_for (U i)) (fuel_for (V i))); [right; auto|unfold fuel_for; pose proof (sc_len i Ho); lia|].
    intros K. rewrite K in S. destruct (fst (repeat_t g (fuel_for (U i)) o (U i) w)); exact S.
  Qed.
  Lemma skip_sim a i w w' : ok i -> wr w w' -> rl i (do_skip skip a (U i), w) (do_skip skip a (V i), w').
  Proof.
    intros Ho M. right. split; [|exact M]. cbn [fst]. destruct (sc_skip a i Ho) as (p & q & -> & -> & ->). exists p, q. auto 6.
  Qed.
  Lemma eval_sim e : plain_exp e = true -> forall a lk o o' i w w', here o o' i -> wr w w' -> rl i (eval_t skip e a lk o (U i) w) (eval_t skip e a lk o' (V i) w').
  Proof.
    induction e as [x|x|lo hi| | | |e1 IH1 e2 IH2|e1 IH1 e2 IH2|e IH|e IH|e IH|r t b IH]; intros H a lk o o' i w w' Hh M; cbn [plain_exp] in H; try discriminate; cbn [eval_t]; pose proof (here_ok _ _ _ Hh) as Ho.
    - right. split; [|exact M]. cbn [fst eval]. pose proof (sc_strip x H i Ho) as K. destruct (strip_prefix x (U i)) as [r|]; [|rewrite K; exact Logic.I].
      destruct K as (p & q & -> & E1 & E2 & E3 & ->). exists p, q. auto 6.
    - right. split; [|exact M]. cbn [fst eval]. pose proof (sc_strip_ci x H i Ho) as K. destruct (strip_prefix_ci x (U i)) as [[t r]|]; [|rewrite K; exact Logic.I].
      destruct K as (p & q & -> & E1 & E2 & ->). exists p, q. auto 6.
    - right. split; [|exact M]. cbn [fst]. apply N.ltb_lt in H. destruct Ho as [|[c x] i Hc Ho]; [exact Logic.I|]. rewrite V_cons. unfold okseg in Hc. cbn [fst snd] in Hc.
      cbn [U map fst eval]. fold (U i). destruct Hc as [[Hc ->]|[Hc (d & y & -> & Hd & _)]]; cbn [app].
      + destruct ((lo <=? c) && (c <=? hi)); cbn [sr]; [|exact Logic.I]. exists [(c, [c])], i. auto 6.
      + unfold is_nl in *. destruct (N.leb_spec lo c); [lia|]. destruct (N.leb_spec lo d); [lia|]. exact Logic.I.
    - right. split; [|exact M]. cbn [fst eval]. destruct Ho as [|[c x] i Hc Ho]; [exists [], []; auto 6|]. rewrite V_cons. apply seg_len in Hc. cbn [snd] in Hc. destruct x as [|d x]; [cbn in Hc; lia|]. exact Logic.I.
    - apply andb_true_iff in H as [H1 H2]. apply (bind_sim i o o'); [exact Hh| |intros; apply (IH2 H2); assumption]. apply (bind_sim i o o'); [exact Hh|apply (IH1 H1); assumption|]. intros ? ? ? ? ? Hm ?. apply skip_sim; [exact (here_ok _ _ _ Hm)|assumption].
    - apply andb_true_iff in H as [H1 H2]. pose proof (IH1 H1 a lk o o' i w w' Hh M) as R.
      destruct (eval_t skip e1 a lk o (U i) w) as [x w1], (eval_t skip e1 a lk o' (V i) w') as [y w1']. destruct R as [L|[S M1]]; cbn [fst snd] in *; [subst x; left; reflexivity|].
      destruct x, y; cbn in S; try contradiction; [right; split; [exact S|exact M1]|]. apply (IH2 H2); assumption.
    - pose proof (IH H a lk o o' i w w' Hh M) as R.
      destruct (eval_t skip e a lk o (U i) w) as [x w1], (eval_t skip e a lk o' (V i) w') as [y w1']. destruct R as [L|[S M1]]; cbn [fst snd] in *; [subst x; left; reflexivity|].
      destruct x, y; cbn in S; try contradiction; right; (split; [|exact M1]); [exact S|exists [], i; auto 6].
    - destruct a; try (apply (repeat_fuel i _ _ _ _ _ _ Ho), repeat_sim; [intros; apply (IH H); assumption|exact Hh|exact M]).
      pose proof (IH H NonAtomic lk o o' i w w' Hh M) as R.
      destruct (eval_t skip e NonAtomic lk o (U i) w) as [x w1], (eval_t skip e NonAtomic lk o' (V i) w') as [y w1'].
      assert (K : rl i (bind_t (x, w1) o (fun off1 inp1 => repeat_t (fun o i0 w => bind_t (do_skip skip NonAtomic i0, w) o (eval_t skip e NonAtomic lk)) (fuel_for inp1) off1 inp1))
                       (bind_t (y, w1') o' (fun off1 inp1 => repeat_t (fun o i0 w => bind_t (do_skip skip NonAtomic i0, w) o (eval_t skip e NonAtomic lk)) (fuel_for inp1) off1 inp1))).
      { apply (bind_sim i o o'); [exact Hh|exact R|]. intros p p' j v v' Hj Mv. apply (repeat_fuel j _ _ _ _ _ _ (here_ok _ _ _ Hj)), repeat_sim; [|exact Hj|exact Mv]. intros p1 p1' j' u u' Hj' Mu.
        apply (bind_sim j' p1 p1'); [exact Hj'|apply skip_sim; [exact (here_ok _ _ _ Hj')|exact Mu]|]. intros. apply (IH H); assumption. }
      destruct R as [L|[S M1]]; cbn [fst snd] in *; [subst x; left; reflexivity|]. destruct x, y; cbn in S; try contradiction; [exact K|]. right. split; [exists [], i; auto 6|exact M1].
    - pose proof (IH H a (flip lk) o o' i w w' Hh M) as R.
      destruct (eval_t skip e a (flip lk) o (U i) w) as [x w1], (eval_t skip e a (flip lk) o' (V i) w') as [y w1']. destruct R as [L|[S M1]]; cbn [fst snd] in *; [subst x; left; reflexivity|].
      right. split; [|exact M1]. cbn [fst]. destruct x, y; cbn in S; try contradiction; [exact Logic.I|exists [], i; auto 6].
    - assert (B : (exists c q, t = TAtomic /\ b = value_exp (c :: q) /\ plain_str (c :: q) && dense c = true) \/ plain_exp b = true).
      { destruct t; try (right; exact H). destruct b; try (right; exact H). destruct b; try (right; exact H). destruct b1; try (right; exact H). destruct b1; try (right; exact H).
        destruct x as [|c q]; [right; exact H|]. destruct b2; try (right; exact H). left. exists c, q. auto. }
      destruct B as [(c & q & -> & -> & Hq)|B].
      + apply emit_sim, rule_sim; [exact M|apply here_pr in Hh; exact Hh|]. intros v v' Mv. rewrite !EndsTrack.value_t by discriminate. right. split; [|exact Mv]. cbn [fst sr].
        apply andb_true_iff in Hq as [Hq Hq2]. destruct (sc_until c q Hq Hq2 i Ho) as (p & r0 & E & -> & -> & -> & ->). exists p, r0. auto 6.
      + pose proof (here_pr _ _ _ Hh) as Hp. destruct t; apply emit_sim, rule_sim; try exact M; try exact Hp; intros; apply (IH B); assumption.
  Qed.
End Sim.

(** ** The whole text *)
Lemma body_script z : ok z -> exists i, rl z i (body_run (U z)) (body_run (V z)).
Proof.
  intros Hz. destruct (sc_fin z Hz) as (p & q & E & E1 & E2). exists q. unfold body_run. rewrite E1, E2.
  assert (O1 : blen (U z) - blen (U q) = blen (U p)) by (rewrite E, U_app, blen_app; lia).
  assert (O2 : blen (V z) - blen (V q) = blen (V p)) by (rewrite E, V_app, blen_app; lia).
  rewrite O1, O2. apply (eval_sim z Hz); [apply rest_plain|exists p; auto|]. split; [|split; reflexivity]. exists [], z. auto.
Qed.
Definition same_at (z : script) (r r' : option grammar_report) : Prop :=
  match r, r' with
  | None, None => True
  | Some p, Some p' => exists a b, z = a ++ b /\ rep_pos p = blen (U a) /\ rep_pos p' = blen (V a) /\ rep_positives p' = rep_positives p /\ rep_negatives p' = rep_negatives p
  | _, _ => False
  end.
Theorem report_script z : ok z -> same_at z (grammar_error (U z)) (grammar_error (V z)).
Proof.
  intros Hz. rewrite !report_body. destruct (body_script z Hz) as (i & R). pose proof (body_no_loop (U z)) as L. destruct (body_run (U z)) as [x w], (body_run (V z)) as [y w'].
  destruct R as [R|[S M]]; cbn [fst snd] in *; [contradiction|]. destruct x as [u m ps| |], y as [u' m' ps'| |]; cbn [sr] in S; try contradiction; [exact Logic.I|].
  cbv zeta. assert (Z : pr z 0 0) by (exists [], z; auto). destruct (track_sim z Hz NonAtomic LkNone R_schema 0 0 0 0 0 w w' M Z) as ((a & b & E & E1 & E2) & E3 & E4).
  exists a, b. cbn [rep_pos rep_positives rep_negatives]. rewrite E3, E4. auto.
Qed.

(** ** Any two such texts *)
Lemma nl_breaks c : is_nl c -> breaks [c].
Proof. intros H. exists c, []. split; [reflexivity|]. split; [exact H|constructor]. Qed.
Lemma scripts t t' : same_lines t t' -> exists z z', ok z /\ ok z' /\ U z = U z' /\ V z = t /\ V z' = t'.
Proof.
  assert (N10 : is_nl 10) by (left; reflexivity).
  induction 1 as [|c x y _ (z & z' & O & O' & EU & <- & <-)|n m x y Hn Hm _ (z & z' & O & O' & EU & <- & <-)].
  - exists [], []. repeat split; constructor.
  - destruct (nl_dec c) as [H|H].
    + exists ((10, [c]) :: z), ((10, [c]) :: z'). split; [constructor; [right; split; [exact N10|apply nl_breaks; exact H]|exact O]|]. split; [constructor; [right; split; [exact N10|apply nl_breaks; exact H]|exact O']|].
      split; [cbn [U map fst]; f_equal; exact EU|auto].
    + exists ((c, [c]) :: z), ((c, [c]) :: z'). split; [constructor; [left; auto|exact O]|]. split; [constructor; [left; auto|exact O']|]. split; [cbn [U map fst]; f_equal; exact EU|auto].
  - exists ((10, n) :: z), ((10, m) :: z'). split; [constructor; [right; auto|exact O]|]. split; [constructor; [right; auto|exact O']|]. split; [cbn [U map fst]; f_equal; exact EU|auto].
Qed.
Lemma V_same a b : ok a -> ok b -> U a = U b -> same_lines (V a) (V b).
Proof.
  intros Ha. revert b. induction Ha as [|[c x] a Hc Ha IH]; intros b Hb E; destruct Hb as [|[d y] b Hd Hb]; try discriminate; [constructor|].
  cbn [U map fst] in E. injection E as -> E. rewrite !V_cons. specialize (IH b Hb E). unfold okseg in Hc, Hd. cbn [fst snd] in Hc, Hd.
  destruct Hc as [[Hc ->]|[Hc Bx]], Hd as [[Hd ->]|[Hd By]]; try contradiction; [constructor; exact IH|]. apply sl_break; assumption.
Qed.
Lemma same_place (a b c d : str) : a ++ b = c ++ d -> blen a = blen c -> a = c /\ b = d.
Proof.
  revert c. induction a as [|x a IH]; intros [|y c] H L; [auto| | |].
  - cbn [blen] in L. pose proof (PegFacts.ulen_pos y). lia.
  - cbn [blen] in L. pose proof (PegFacts.ulen_pos x). lia.
  - cbn [app] in H. injection H as -> H. cbn [blen] in L. destruct (IH c H) as [-> ->]; [lia|auto].
Qed.
Theorem report_same t t' : same_lines t t' ->
  match grammar_error t, grammar_error t' with
  | None, None => True
  | Some p, Some p' => exists a b a' b', t = a ++ b /\ t' = a' ++ b' /\ same_lines a a' /\ same_lines b b' /\ rep_pos p = blen a /\ rep_pos p' = blen a' /\
      rep_positives p' = rep_positives p /\ rep_negatives p' = rep_negatives p
  | _, _ => False
  end.
Proof.
  intros H. destruct (scripts t t' H) as (z & z' & O & O' & EU & <- & <-). pose proof (report_script z O) as R. pose proof (report_script z' O') as R'. rewrite <- EU in R'.
  destruct (grammar_error (U z)) as [p|]; [|destruct (grammar_error (V z)); [contradiction|]; destruct (grammar_error (V z')); [contradiction|exact Logic.I]].
  destruct (grammar_error (V z)) as [q|]; [|contradiction]. destruct (grammar_error (V z')) as [q'|]; [|contradiction].
  destruct R as (a & b & -> & E1 & E2 & E3 & E4), R' as (a' & b' & -> & F1 & F2 & F3 & F4).
  rewrite !U_app in EU. destruct (same_place _ _ _ _ EU) as [Ea Eb]; [rewrite <- E1, <- F1; reflexivity|].
  apply ok_app in O as [Oa Ob]. apply ok_app in O' as [Oa' Ob'].
  exists (V a), (V b), (V a'), (V b'). rewrite !V_app, E3, E4, F3, F4. repeat split; auto using V_same.
Qed.
Theorem message_same t t' sh : same_lines t t' -> show_error t ErGrammar = Some sh ->
  exists sh' a b a' b', show_error t' ErGrammar = Some sh' /\ sh_message sh' = sh_message sh /\
    t = a ++ b /\ t' = a' ++ b' /\ same_lines a a' /\ same_lines b b' /\ sh_from sh = blen a /\ sh_from sh' = blen a'.
Proof.
  intros H S. cbn [show_error] in S |- *. pose proof (report_same t t' H) as R. destruct (grammar_error t) as [p|]; [|discriminate]. destruct (grammar_error t') as [p'|]; [|contradiction].
  destruct R as (a & b & a' & b' & Et & Et' & L1 & L2 & E1 & E2 & E3 & E4). injection S as <-. eexists. exists a, b, a', b'. split; [reflexivity|]. unfold from_pos. cbn [sh_from sh_message].
  rewrite E3, E4. repeat split; assumption.
Qed.
