(** * TrackShift: a grammar error moves with the text. *)

From Verif Require Import TrackOk TrackFacts SynEval RespanLoc LocSound.
From Coq Require Import Lia.
From Verif Require Import Track Grammar Layout Syntax.

Fixpoint no_soi (e : pexp) : bool :=
  match e with
  | ESoi => false
  | ESeq a b | EAlt a b => no_soi a && no_soi b
  | EOpt a | ERep a | ENot a => no_soi a
  | ERule _ _ b => no_soi b
  | _ => true
  end.

Section Shift.
  Variable d : N.
  Definition sh (w : tracked) : tracked := mkTracked (attempt_pos w + d) (pos_attempts w) (neg_attempts w).
  Definition fresh : tracked := mkTracked 0 [] [].
  Definition moved_w (w w' : tracked) : Prop := w' = sh w \/ (w = fresh /\ w' = fresh).
  Definition same_res (r r' : pres) : Prop :=
    match r, r' with
    | ROk t i _, ROk t' i' _ => t = t' /\ i = i'
    | RFail, RFail | RLoop, RLoop => True
    | _, _ => False
    end.
  Definition rel (x y : pres * tracked) : Prop := same_res (fst x) (fst y) /\ moved_w (snd x) (snd y).
  Lemma same_refl r : same_res r r.
  Proof. destruct r; cbn; auto. Qed.
  Lemma eqb_shift a b : (a + d =? b + d) = (a =? b).
  Proof. destruct (N.eqb_spec a b), (N.eqb_spec (a + d) (b + d)); try reflexivity; lia. Qed.
  Lemma ltb_shift a b : (a + d <? b + d) = (a <? b).
  Proof. destruct (N.ltb_spec a b), (N.ltb_spec (a + d) (b + d)); try reflexivity; lia. Qed.
  Lemma attempts_shift w w' pos : moved_w w w' -> attempts_at w' (pos + d) = attempts_at w pos.
  Proof.
    intros [->|[-> ->]]; unfold attempts_at; [cbn [sh attempt_pos pos_attempts neg_attempts]; rewrite eqb_shift; reflexivity|].
    cbn [fresh attempt_pos pos_attempts neg_attempts List.length Nat.add]. destruct (0 =? pos), (0 =? pos + d); reflexivity.
  Qed.
  Definition track_in (lk : look) (r : rule) (pos : N) (pi ni : nat) (w : tracked) : tracked :=
    let w1 := if pos =? attempt_pos w then mkTracked (attempt_pos w) (firstn pi (pos_attempts w)) (firstn ni (neg_attempts w)) else w in
    let w2 := if attempt_pos w1 <? pos then mkTracked pos [] [] else w1 in
    if pos =? attempt_pos w2 then
      match lk with
      | LkNegative => mkTracked pos (pos_attempts w2) (neg_attempts w2 ++ [r])
      | _ => mkTracked pos (pos_attempts w2 ++ [r]) (neg_attempts w2)
      end
    else w2.
  Lemma track_in_sh lk r pos pi ni w : track_in lk r (pos + d) pi ni (sh w) = sh (track_in lk r pos pi ni w).
  Proof.
    destruct w as [p P Q]. unfold track_in, sh. cbn [attempt_pos pos_attempts neg_attempts]. rewrite eqb_shift.
    destruct (pos =? p) eqn:E; cbn [attempt_pos pos_attempts neg_attempts]; rewrite ltb_shift; destruct (p <? pos) eqn:E2; cbn [attempt_pos pos_attempts neg_attempts];
      rewrite ?N.eqb_refl, ?eqb_shift, ?E; destruct lk; reflexivity.
  Qed.
  Lemma track_in_fresh lk r pos pi ni : track_in lk r (pos + d) pi ni fresh = sh (track_in lk r pos pi ni fresh).
  Proof.
    assert (K : forall p, track_in lk r p pi ni fresh = match lk with LkNegative => mkTracked p [] [r] | _ => mkTracked p [r] [] end).
    { intros p. unfold track_in, fresh. cbn [attempt_pos pos_attempts neg_attempts]. rewrite !firstn_nil.
      destruct (N.eqb_spec p 0) as [->|Hp]; cbn [attempt_pos pos_attempts neg_attempts]; [destruct lk; reflexivity|].
      destruct (N.ltb_spec 0 p); [|lia]. cbn [attempt_pos pos_attempts neg_attempts]. rewrite N.eqb_refl. destruct lk; reflexivity. }
    rewrite !K. destruct lk; reflexivity.
  Qed.
  Lemma track_shift a lk r pos pi ni prev w w' : moved_w w w' -> moved_w (track a lk r pos pi ni prev w) (track a lk r (pos + d) pi ni prev w').
  Proof.
    intros H. unfold track. rewrite (attempts_shift _ _ pos H).
    assert (K : moved_w (track_in lk r pos pi ni w) (track_in lk r (pos + d) pi ni w')).
    { left. destruct H as [-> | [-> ->]]; [apply track_in_sh|apply track_in_fresh]. }
    destruct a; try exact H; destruct (Nat.eqb _ _); try exact H; exact K.
  Qed.
  Lemma rule_shift a lk r pos w w' run run' : moved_w w w' -> (forall w w', moved_w w w' -> rel (run w) (run' w')) ->
    rel (rule_tracked a lk r pos w run) (rule_tracked a lk r (pos + d) w' run').
  Proof.
    intros H R. unfold rule_tracked. rewrite (attempts_shift _ _ pos H).
    assert (E1 : (if attempt_pos w' =? pos + d then List.length (pos_attempts w') else O) = (if attempt_pos w =? pos then List.length (pos_attempts w) else O)).
    { destruct H as [->|[-> ->]]; cbn [sh fresh attempt_pos pos_attempts]; [rewrite eqb_shift; reflexivity|]. destruct (_ =? _), (_ =? _); reflexivity. }
    assert (E2 : (if attempt_pos w' =? pos + d then List.length (neg_attempts w') else O) = (if attempt_pos w =? pos then List.length (neg_attempts w) else O)).
    { destruct H as [->|[-> ->]]; cbn [sh fresh attempt_pos neg_attempts]; [rewrite eqb_shift; reflexivity|]. destruct (_ =? _), (_ =? _); reflexivity. }
    rewrite E1, E2. specialize (R w w' H). destruct (run w) as [x w1], (run' w') as [y w1']. destruct R as [S M]. cbn [fst snd] in *.
    destruct x as [t i ps| |], y as [t' i' ps'| |]; cbn in S; try contradiction; destruct lk; (split; [exact S|]); cbn [snd]; try exact M; apply track_shift; exact M.
  Qed.
  Lemma emit_shift a r off x y : rel x y -> rel (emit_t a r off x) (emit_t a r (off + d) y).
  Proof.
    intros [S M]. split; [|exact M]. unfold emit_t. cbn [fst]. destruct (fst x) as [t i ps| |], (fst y) as [t' i' ps'| |]; cbn in S; try contradiction; cbn [emit]; try exact Logic.I.
    destruct a; cbn; exact S.
  Qed.
  Lemma bind_shift x y off g g' : rel x y -> (forall o i w w', moved_w w w' -> rel (g o i w) (g' (o + d) i w')) -> rel (bind_t x off g) (bind_t y (off + d) g').
  Proof.
    intros [S M] H. destruct x as [x w], y as [y w']. cbn [fst snd] in *. unfold bind_t. destruct x as [t i ps| |], y as [t' i' ps'| |]; cbn in S; try contradiction; try (split; [exact S|exact M]).
    destruct S as [<- <-]. specialize (H (off + blen t) i w w' M). replace (off + d + blen t) with (off + blen t + d) by lia.
    destruct (g (off + blen t) i w) as [u v], (g' (off + blen t + d) i w') as [u' v']. destruct H as [S M']. cbn [fst snd] in *. split; [|exact M']. cbn [fst].
    destruct u as [t2 i2 p2| |], u' as [t3 i3 p3| |]; cbn in *; try contradiction; try exact Logic.I. destruct S as [<- <-]. auto.
  Qed.
  Lemma repeat_shift g g' n : (forall o i w w', moved_w w w' -> rel (g o i w) (g' (o + d) i w')) -> forall off i w w', moved_w w w' ->
    rel (repeat_t g n off i w) (repeat_t g' n (off + d) i w').
  Proof.
    intros H. induction n as [|n IH]; intros off i w w' M; cbn [repeat_t]; [split; [exact Logic.I|exact M]|].
    pose proof (H off i w w' M) as R. destruct (g off i w) as [x w1], (g' (off + d) i w') as [y w1']. destruct R as [S M1]. cbn [fst snd] in *.
    destruct x as [t j ps| |], y as [t' j' ps'| |]; cbn in S; try contradiction; try (split; [cbn; auto|exact M1]).
    destruct S as [<- <-]. replace (off + d + blen t) with (off + blen t + d) by lia. specialize (IH (off + blen t) j w1 w1' M1).
    destruct (repeat_t g n (off + blen t) j w1) as [u v], (repeat_t g' n (off + blen t + d) j w1') as [u' v']. destruct IH as [S M']. cbn [fst snd] in *. split; [|exact M']. cbn [fst].
    destruct u as [t2 i2 p2| |], u' as [t3 i3 p3| |]; cbn in *; try contradiction; try exact Logic.I. destruct S as [<- <-]. auto.
  Qed.
  Lemma skip_rel a i w w' : moved_w w w' -> rel (do_skip skip a i, w) (do_skip skip a i, w').
  Proof. intros M. split; [apply same_refl|exact M]. Qed.
  Lemma eval_shift e : no_soi e = true -> forall a lk off i w w', moved_w w w' -> rel (eval_t skip e a lk off i w) (eval_t skip e a lk (off + d) i w').
  Proof.
    induction e as [x|x|lo hi| | | |e1 IH1 e2 IH2|e1 IH1 e2 IH2|e IH|e IH|e IH|r t b IH]; intros H a lk off i w w' M;
      try (split; [apply same_refl|exact M]); try discriminate H; cbn [no_soi] in H; cbn [eval_t].
    - apply andb_true_iff in H as [H1 H2]. apply bind_shift; [|intros; apply (IH2 H2); assumption]. apply bind_shift; [apply (IH1 H1); exact M|]. intros. apply skip_rel. assumption.
    - apply andb_true_iff in H as [H1 H2]. pose proof (IH1 H1 a lk off i w w' M) as R.
      destruct (eval_t skip e1 a lk off i w) as [x w1], (eval_t skip e1 a lk (off + d) i w') as [y w1']. destruct R as [S M1]. cbn [fst snd] in *.
      destruct x, y; cbn in S; try contradiction; try (split; [exact S|exact M1]). apply (IH2 H2). exact M1.
    - pose proof (IH H a lk off i w w' M) as R.
      destruct (eval_t skip e a lk off i w) as [x w1], (eval_t skip e a lk (off + d) i w') as [y w1']. destruct R as [S M1]. cbn [fst snd] in *.
      destruct x, y; cbn in S; try contradiction; (split; [cbn; auto|exact M1]).
    - destruct a; try (apply repeat_shift; [intros; apply (IH H); assumption|exact M]).
      pose proof (IH H NonAtomic lk off i w w' M) as R.
      destruct (eval_t skip e NonAtomic lk off i w) as [x w1], (eval_t skip e NonAtomic lk (off + d) i w') as [y w1'].
      assert (K : rel (bind_t (x, w1) off (fun off1 inp1 => repeat_t (fun o i0 w => bind_t (do_skip skip NonAtomic i0, w) o (eval_t skip e NonAtomic lk)) (fuel_for inp1) off1 inp1))
                      (bind_t (y, w1') (off + d) (fun off1 inp1 => repeat_t (fun o i0 w => bind_t (do_skip skip NonAtomic i0, w) o (eval_t skip e NonAtomic lk)) (fuel_for inp1) off1 inp1))).
      { apply bind_shift; [exact R|]. intros o j v v' Mv. apply repeat_shift; [|exact Mv]. intros o' j' u u' Mu. apply bind_shift; [apply skip_rel; exact Mu|]. intros. apply (IH H). assumption. }
      destruct R as [S M1]. cbn [fst snd] in *. destruct x, y; cbn in S; try contradiction; try exact K. split; [cbn; auto|exact M1].
    - pose proof (IH H a (flip lk) off i w w' M) as R.
      destruct (eval_t skip e a (flip lk) off i w) as [x w1], (eval_t skip e a (flip lk) (off + d) i w') as [y w1']. destruct R as [S M1]. cbn [fst snd] in *.
      split; [|exact M1]. cbn [fst]. destruct x, y; cbn in S; try contradiction; cbn; auto.
    - destruct t; apply emit_shift, rule_shift; try exact M; intros; apply (IH H); assumption.
  Qed.
End Shift.

Lemma track_some a lk r pos pi ni prev w : a <> Atomic -> track a lk r pos pi ni prev w <> fresh.
Proof.
  intros Ha E.
  assert (K : (if Nat.eqb (attempts_at w pos) (S prev) then w else track_in lk r pos pi ni w) = fresh) by (destruct a; [exact E|congruence|exact E] || (destruct a; congruence || exact E)).
  clear E. destruct (Nat.eqb (attempts_at w pos) (S prev)) eqn:Ea.
  - apply Nat.eqb_eq in Ea. rewrite K in Ea. unfold attempts_at, fresh in Ea. cbn [attempt_pos pos_attempts neg_attempts List.length Nat.add] in Ea. destruct (0 =? pos); discriminate.
  - unfold track_in in K. set (w1 := if pos =? attempt_pos w then _ else w) in K. set (w2 := if attempt_pos w1 <? pos then _ else w1) in K.
    assert (Hle : pos <= attempt_pos w2) by (unfold w2; destruct (N.ltb_spec (attempt_pos w1) pos); cbn [attempt_pos]; lia).
    destruct (pos =? attempt_pos w2) eqn:E2.
    + destruct lk; [apply (f_equal pos_attempts) in K|apply (f_equal pos_attempts) in K|apply (f_equal neg_attempts) in K]; cbn [fresh pos_attempts neg_attempts] in K; apply app_eq_nil in K as [_ K]; discriminate.
    + rewrite K in E2, Hle. cbn [fresh attempt_pos] in E2, Hle. apply N.eqb_neq in E2. lia.
Qed.

(** ** The whole text *)
Definition rest_e : pexp := ESeq (ERep odecls) EOI.
Definition body_run (inp : str) : pres * tracked := eval_t skip rest_e NonAtomic LkNone (blen inp - blen (fin inp)) (fin inp) fresh.
Lemma rest_no_soi : no_soi rest_e = true.
Proof. vm_compute. reflexivity. Qed.
Local Opaque odecls skip.
Lemma soi_skip inp : exists ps, bind_t (eval_t skip ESoi NonAtomic LkNone 0 inp fresh) 0 (fun _ i w => (do_skip skip NonAtomic i, w)) = (ROk (fst (skipf NonAtomic inp)) (fin inp) ps, fresh).
Proof.
  change (eval_t skip ESoi NonAtomic LkNone 0 inp fresh) with (ROk [] inp [], fresh). unfold bind_t. rewrite do_skip_skipf. unfold fin.
  destruct (skipf NonAtomic inp) as [g i]. exists []. reflexivity.
Qed.
Lemma skip_len inp : 0 + blen (fst (skipf NonAtomic inp)) = blen inp - blen (fin inp).
Proof. destruct (fin_len inp) as (g & E & E2). pose proof (f_equal blen E) as K. rewrite blen_app in K. lia. Qed.
Lemma report_body inp : grammar_error inp =
  match body_run inp with
  | (RFail, w) => let w' := track NonAtomic LkNone R_schema 0 0 0 0 w in Some (mkReport (attempt_pos w') (sort_dedup (pos_attempts w')) (sort_dedup (neg_attempts w')))
  | _ => None
  end.
Proof.
  unfold grammar_error, body_run. rewrite oschema_shape. destruct (soi_skip inp) as (ps & E).
  change (eval_t skip (N_ R_schema (ESeq ESoi (ESeq (ERep odecls) EOI))) NonAtomic LkNone 0 inp (mkTracked 0 [] []))
    with (emit_t NonAtomic R_schema 0 (rule_tracked NonAtomic LkNone R_schema 0 fresh (fun w =>
      bind_t (bind_t (eval_t skip ESoi NonAtomic LkNone 0 inp w) 0 (fun _ i w => (do_skip skip NonAtomic i, w))) 0 (eval_t skip rest_e NonAtomic LkNone)))).
  unfold rule_tracked. rewrite E. unfold bind_t. rewrite skip_len.
  destruct (eval_t skip rest_e NonAtomic LkNone (blen inp - blen (fin inp)) (fin inp) fresh) as [[t i p| |] w]; reflexivity.
Qed.
Lemma body_not_fresh inp w : body_run inp = (RFail, w) -> w <> fresh.
Proof.
  unfold body_run, rest_e. set (off := blen inp - blen (fin inp)). generalize off (fin inp). clear off inp. intros off i.
  change (eval_t skip (ESeq (ERep odecls) EOI) NonAtomic LkNone off i fresh)
    with (bind_t (bind_t (eval_t skip (ERep odecls) NonAtomic LkNone off i fresh) off (fun _ i w => (do_skip skip NonAtomic i, w))) off (eval_t skip EOI NonAtomic LkNone)).
  assert (Hr : fst (eval_t skip (ERep odecls) NonAtomic LkNone off i fresh) <> RFail).
  { rewrite eval_t_fst. cbn [eval]. intros Er. destruct (eval skip odecls NonAtomic off i) as [t1 m1 ps1| |]; try discriminate. cbn [bind_res] in Er.
    match type of Er with context [Peg.repeat ?f ?n ?a ?b] => pose proof (repeat_never_fails f n a b) as Hn; destruct (Peg.repeat f n a b); congruence end. }
  destruct (eval_t skip (ERep odecls) NonAtomic LkNone off i fresh) as [x w0]. cbn [fst] in Hr. unfold bind_t at 2.
  destruct x as [t i1 ps| |]; [|congruence|discriminate]. rewrite do_skip_skipf. destruct (skipf NonAtomic i1) as [g i2]. unfold bind_t.
  set (o := off + _). change (eval_t skip EOI NonAtomic LkNone o i2 w0) with (emit_t NonAtomic R_EOI o (rule_tracked NonAtomic LkNone R_EOI o w0 (eval_t skip EEnd NonAtomic LkNone o i2))).
  unfold rule_tracked. cbn [eval_t]. destruct i2 as [|c i2]; cbn [eval]; unfold emit_t; cbn [fst snd emit]; [discriminate|].
  intros K. apply (f_equal snd) in K. cbn [snd] in K. rewrite <- K. apply track_some. discriminate.
Qed.
Lemma fin_gap g t : gap g -> fin (g ++ t) = fin t.
Proof. intros Hg. apply lay_fin. apply gap_lay; [exact Hg|]. apply lay_of. Qed.
Lemma body_gap g t : gap g -> rel (blen g) (body_run t) (body_run (g ++ t)).
Proof.
  intros Hg. unfold body_run. rewrite (fin_gap g t Hg).
  assert (E : blen (g ++ t) - blen (fin t) = (blen t - blen (fin t)) + blen g).
  { destruct (fin_len t) as (x & E & _). apply (f_equal blen) in E. rewrite blen_app in *. lia. }
  rewrite E. apply eval_shift; [apply rest_no_soi|]. right. auto.
Qed.
Lemma end_track w : (0 < attempt_pos w -> track NonAtomic LkNone R_schema 0 0 0 0 w = w) /\ (attempt_pos w = 0 -> attempt_pos (track NonAtomic LkNone R_schema 0 0 0 0 w) = 0).
Proof.
  split; intros H; unfold track.
  - assert (E : (attempt_pos w =? 0) = false) by (apply N.eqb_neq; lia). assert (E' : (0 =? attempt_pos w) = false) by (apply N.eqb_neq; lia).
    unfold attempts_at. rewrite E. cbn [Nat.eqb]. rewrite E'. destruct (N.ltb_spec (attempt_pos w) 0); [lia|]. rewrite E'. reflexivity.
  - destruct (Nat.eqb _ _); [exact H|]. rewrite H. cbn [N.eqb attempt_pos N.ltb N.compare]. reflexivity.
Qed.
Theorem report_after g t rep : gap g -> grammar_error t = Some rep ->
  exists rep', grammar_error (g ++ t) = Some rep' /\ rep_pos rep' = rep_pos rep + blen g /\
    (0 < rep_pos rep -> rep_positives rep' = rep_positives rep /\ rep_negatives rep' = rep_negatives rep).
Proof.
  intros Hg H. destruct (N.eq_dec (blen g) 0) as [Z|Z].
  { destruct g as [|c g]; [|exfalso; cbn [blen] in Z; pose proof (PegFacts.ulen_pos c); lia]. cbn [app]. exists rep. split; [exact H|]. split; [cbn [blen]; rewrite N.add_0_r; reflexivity|auto]. }
  rewrite report_body in H |- *. pose proof (body_gap g t Hg) as R.
  destruct (body_run t) as [x w] eqn:B. destruct x; try discriminate. pose proof (body_not_fresh _ _ B) as Hn.
  destruct (body_run (g ++ t)) as [y w']. destruct R as [S [M | [M _]]]; cbn [fst snd] in *; [|congruence].
  destruct y; cbn in S; try contradiction. subst w'.
  assert (P : 0 < attempt_pos (sh (blen g) w)) by (cbn [sh attempt_pos]; lia). rewrite (proj1 (end_track _) P).
  pose proof (end_track w) as [Q1 Q2]. cbv zeta in H |- *. remember (track NonAtomic LkNone R_schema 0 0 0 0 w) as v eqn:Ev. injection H as <-.
  eexists. split; [reflexivity|]. cbn [rep_pos rep_positives rep_negatives sh attempt_pos pos_attempts neg_attempts].
  destruct (N.eq_dec (attempt_pos w) 0) as [Z0|Z0].
  - rewrite (Q2 Z0), Z0. split; [reflexivity|lia].
  - rewrite Q1 by lia. auto.
Qed.
