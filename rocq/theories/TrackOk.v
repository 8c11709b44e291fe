(** * TrackOk: the error bookkeeping of [Track] reports what [TrackSpec] describes. *)

From Verif Require Import TrackSpec OptimOk.
From Coq Require Import Lia.

(** ** The bookkeeping does not disturb parsing *)
Lemma repeat_t_fst (f : N -> str -> tracked -> pres * tracked) g : (forall o i w, fst (f o i w) = g o i) ->
  forall n off inp w, fst (repeat_t f n off inp w) = repeat g n off inp.
Proof.
  intros H. induction n as [|n IH]; intros off inp w; [reflexivity|]. cbn [repeat_t Peg.repeat].
  specialize (H off inp w). destruct (f off inp w) as [res w1]. cbn in H. subst res. destruct (g off inp) as [t i ps| |]; try reflexivity.
  specialize (IH (off + blen t) i w1). destruct (repeat_t f n (off + blen t) i w1) as [r2 w2]. cbn in *. now rewrite IH.
Qed.
Lemma bind_t_fst r off (f : N -> str -> tracked -> pres * tracked) g : (forall o i w, fst (f o i w) = g o i) ->
  fst (bind_t r off f) = bind_res (fst r) off g.
Proof.
  intros H. destruct r as [res w]. cbn. destruct res as [t i ps| |]; try reflexivity.
  specialize (H (off + blen t) i w). destruct (f (off + blen t) i w) as [r2 w2]. cbn in *. now rewrite H.
Qed.
Lemma rule_tracked_fst a lk r pos w run : fst (rule_tracked a lk r pos w run) = fst (run w).
Proof. unfold rule_tracked. destruct (run w) as [res w']. destruct res, lk; reflexivity. Qed.

Lemma eval_t_fst e : forall a lk off inp w, fst (eval_t skip e a lk off inp w) = eval skip e a off inp.
Proof.
  induction e as [x|x|lo hi| | | |e1 IH1 e2 IH2|e1 IH1 e2 IH2|e IH|e IH|e IH|r t b IH]; intros a lk off inp w; try reflexivity.
  - cbn [eval_t eval]. rewrite (bind_t_fst _ _ _ (eval skip e2 a)) by auto.
    rewrite (bind_t_fst _ _ _ (fun _ i => do_skip skip a i)) by auto. now rewrite IH1.
  - cbn [eval_t eval]. specialize (IH1 a lk off inp w). destruct (eval_t skip e1 a lk off inp w) as [res w1]. cbn in IH1. subst res.
    destruct (eval skip e1 a off inp); try reflexivity. apply IH2.
  - cbn [eval_t eval]. specialize (IH a lk off inp w). destruct (eval_t skip e a lk off inp w) as [res w1]. cbn in IH. subst res.
    destruct (eval skip e a off inp); reflexivity.
  - cbn [eval_t eval]. assert (Hs : forall o i w, fst (bind_t (do_skip skip a i, w) o (eval_t skip e a lk)) = bind_res (do_skip skip a i) o (eval skip e a)).
    { intros o i w0. rewrite (bind_t_fst _ _ _ (eval skip e a)) by auto. reflexivity. }
    destruct a.
    + pose proof (IH NonAtomic lk off inp w) as E. destruct (eval_t skip e NonAtomic lk off inp w) as [res w1]. cbn in E. subst res.
      destruct (eval skip e NonAtomic off inp) as [t i ps| |] eqn:E; try reflexivity.
      rewrite (bind_t_fst _ _ _ (fun off1 inp1 => repeat (fun o i => bind_res (do_skip skip NonAtomic i) o (eval skip e NonAtomic)) (fuel_for inp1) off1 inp1)); [reflexivity|].
      intros o i0 w0. apply repeat_t_fst. exact Hs.
    + apply repeat_t_fst. auto.
    + apply repeat_t_fst. auto.
  - cbn [eval_t eval]. specialize (IH a (flip lk) off inp w). destruct (eval_t skip e a (flip lk) off inp w) as [res w1]. cbn in *. now rewrite IH.
  - cbn [eval_t eval]. destruct t; unfold emit_t; cbn [fst]; rewrite rule_tracked_fst, IH; reflexivity.
Qed.

(** ** What the bookkeeping knows *)
Definition base_pos (w w' : tracked) : list rule := if attempt_pos w =? attempt_pos w' then pos_attempts w else [].
Definition base_neg (w w' : tracked) : list rule := if attempt_pos w =? attempt_pos w' then neg_attempts w else [].
Definition linked (c d : call) : Prop := during c d \/ during d c.

(** From [w] to [w'] exactly the calls in [C] were made. *)
Record knows (C : call -> Prop) (w w' : tracked) (lp ln : list rule) : Prop := {
  k_mono : attempt_pos w <= attempt_pos w';
  k_pos : pos_attempts w' = base_pos w w' ++ lp;
  k_neg : neg_attempts w' = base_neg w w' ++ ln;
  k_lp : forall r, In r lp -> exists c, C c /\ missed c /\ c_rule c = r /\ c_pos c = attempt_pos w';
  k_ln : forall r, In r ln -> exists c, C c /\ unwanted c /\ c_rule c = r /\ c_pos c = attempt_pos w';
  k_far : forall c, C c -> missed c \/ unwanted c -> c_pos c <= attempt_pos w';
  k_all : forall c, C c -> missed c \/ unwanted c -> c_pos c = attempt_pos w' ->
     exists d, C d /\ c_pos d = attempt_pos w' /\ linked c d /\ (missed d /\ In (c_rule d) lp \/ unwanted d /\ In (c_rule d) ln);
  k_new : attempt_pos w < attempt_pos w' -> lp <> [] \/ ln <> []
}.
Definition known C w w' := exists lp ln, knows C w w' lp ln.

Lemma known_refl (C : call -> Prop) w : (forall c, ~ C c) -> known C w w.
Proof.
  intros H. exists [], []. split.
  - lia.
  - unfold base_pos. rewrite N.eqb_refl. now rewrite app_nil_r.
  - unfold base_neg. rewrite N.eqb_refl. now rewrite app_nil_r.
  - intros r [].
  - intros r [].
  - intros c Hc. destruct (H c Hc).
  - intros c Hc. destruct (H c Hc).
  - lia.
Qed.
Lemma known_ext (C D : call -> Prop) w w' : (forall c, C c <-> D c) -> known C w w' -> known D w w'.
Proof.
  intros E (lp & ln & K). exists lp, ln. destruct K as [K1 K2 K3 K4 K5 K6 K7 K8]. split; auto.
  - intros r Hr. destruct (K4 r Hr) as (c & Hc & H). exists c. split; [now apply E|exact H].
  - intros r Hr. destruct (K5 r Hr) as (c & Hc & H). exists c. split; [now apply E|exact H].
  - intros c Hc. apply K6. now apply E.
  - intros c Hc Hm Hp. destruct (K7 c) as (d & Hd & H); auto; [now apply E|]. exists d. split; [now apply E|exact H].
Qed.
Lemma known_trans (C D : call -> Prop) w w1 w2 : known C w w1 -> known D w1 w2 -> known (fun c => C c \/ D c) w w2.
Proof.
  intros (lp & ln & K) (lp' & ln' & L). destruct K as [K1 K2 K3 K4 K5 K6 K7 K8], L as [L1 L2 L3 L4 L5 L6 L7 L8].
  destruct (N.eqb_spec (attempt_pos w1) (attempt_pos w2)) as [E|E].
  - exists (lp ++ lp'), (ln ++ ln'). unfold base_pos, base_neg in *. rewrite <- E in *. rewrite N.eqb_refl in *. split; unfold base_pos, base_neg; rewrite <- ?E.
    + exact K1.
    + rewrite L2, K2. now rewrite <- app_assoc.
    + rewrite L3, K3. now rewrite <- app_assoc.
    + intros r Hr. apply in_app_or in Hr. destruct Hr as [Hr|Hr].
      * destruct (K4 r Hr) as (c & Hc & H). exists c. tauto.
      * destruct (L4 r Hr) as (c & Hc & H). exists c. tauto.
    + intros r Hr. apply in_app_or in Hr. destruct Hr as [Hr|Hr].
      * destruct (K5 r Hr) as (c & Hc & H). exists c. tauto.
      * destruct (L5 r Hr) as (c & Hc & H). exists c. tauto.
    + intros c [Hc|Hc] Hm; auto.
    + intros c [Hc|Hc] Hm Hp.
      * destruct (K7 c Hc Hm Hp) as (d & Hd & Hpd & Hl & Hin). exists d. rewrite !in_app_iff. tauto.
      * destruct (L7 c Hc Hm Hp) as (d & Hd & Hpd & Hl & Hin). exists d. rewrite !in_app_iff. tauto.
    + intros H. destruct (K8 H) as [H1|H1]; [left|right]; intros X; apply app_eq_nil in X; tauto.
  - exists lp', ln'. assert (Hlt : attempt_pos w1 < attempt_pos w2) by lia. unfold base_pos, base_neg in *.
    destruct (N.eqb_spec (attempt_pos w1) (attempt_pos w2)) as [X|_]; [lia|]. split; unfold base_pos, base_neg;
      destruct (N.eqb_spec (attempt_pos w) (attempt_pos w2)) as [X|_]; try lia; auto.
    + intros r Hr. destruct (L4 r Hr) as (c & Hc & H). exists c. tauto.
    + intros r Hr. destruct (L5 r Hr) as (c & Hc & H). exists c. tauto.
    + intros c [Hc|Hc] Hm; auto. specialize (K6 c Hc Hm). lia.
    + intros c [Hc|Hc] Hm Hp; [specialize (K6 c Hc Hm); lia|].
      destruct (L7 c Hc Hm Hp) as (d & Hd & H). exists d. tauto.
Qed.

(** ** One rule call *)
Lemma firstn_app_exact {A} (l l' : list A) : firstn (List.length l) (l ++ l') = l.
Proof. rewrite firstn_app, Nat.sub_diag. cbn. rewrite app_nil_r. apply firstn_all. Qed.

Lemma during_refl c : during c c.
Proof. destruct c. apply calls_rule. Qed.

Lemma atom_is (a : atomicity) : {a = Atomic} + {a <> Atomic}.
Proof. destruct a; auto; right; discriminate. Qed.
Lemma look_is (l : look) : {l = LkNegative} + {l <> LkNegative}.
Proof. destruct l; auto; right; discriminate. Qed.

Section Rule.
  Variables (r : rule) (t : rtype) (b : pexp) (a : atomicity) (lk : look) (pos : N) (inp : str).
  Let self := mkCall r t b a lk pos inp.
  Let B := calls b (inner t a) lk pos inp.
  Let outer := match t with TCompound => CompoundAtomic | _ => a end.
  Lemma outer_visible : outer <> Atomic <-> visible self.
  Proof. unfold visible, self, outer; cbn. destruct t, a; intuition congruence. Qed.
  Lemma self_during d : B d -> during self d.
  Proof. intros H. unfold during, self, c_exp; cbn. now apply calls_body. Qed.
  Lemma B_pos d : B d -> pos <= c_pos d.
  Proof.
    unfold B. generalize (inner t a) pos inp lk. clear. induction 1; try lia.
    - assert (off <= off') by (match goal with H : rounds _ _ _ _ _ _ |- _ => clear -H; induction H; lia end). lia.
    - cbn. lia.
  Qed.

  Lemma tracked_known w w' : known B w w' ->
    missed self \/ unwanted self ->
    known (fun c => c = self \/ B c) w
      (track outer lk r pos (if attempt_pos w =? pos then List.length (pos_attempts w) else O)
         (if attempt_pos w =? pos then List.length (neg_attempts w) else O) (attempts_at w pos) w').
  Proof.
    intros (lp & ln & K) Hn. destruct K as [K1 K2 K3 K4 K5 K6 K7 K8].
    assert (Hv : outer <> Atomic) by (apply outer_visible; unfold missed, unwanted in Hn; tauto).
    assert (Hlk : match lk with LkNegative => unwanted self | _ => missed self end).
    { destruct Hn as [(h1 & h2 & h3)|(h1 & h2 & h3)]; cbn in h2; destruct lk; try congruence; unfold missed, unwanted; cbn; repeat split; auto; congruence. }
    unfold track. destruct outer eqn:Ho; [| |congruence].
    1, 2: destruct (Nat.eqb_spec (attempts_at w' pos) (S (attempts_at w pos))) as [E|E].
    1, 3: (* one child attempt *)
      assert (Hp : attempt_pos w' = pos) by (unfold attempts_at in E; destruct (N.eqb_spec (attempt_pos w') pos); [assumption|discriminate]);
      assert (Hlen : (List.length lp + List.length ln = 1)%nat) by
        (unfold attempts_at, base_pos, base_neg in *; rewrite Hp in *; rewrite N.eqb_refl in E; rewrite K2, K3 in E; rewrite !app_length in E;
         destruct (attempt_pos w =? pos); cbn in E; lia);
      exists lp, ln; split; auto;
      [ intros r0 Hr; destruct (K4 r0 Hr) as (c & Hc & H); exists c; tauto
      | intros r0 Hr; destruct (K5 r0 Hr) as (c & Hc & H); exists c; tauto
      | intros c [->|Hc] Hm; [cbn; lia|auto]
      | intros c [->|Hc] Hm Hpc; [|destruct (K7 c Hc Hm Hpc) as (d & Hd & H); exists d; tauto];
        destruct lp as [|x lp]; [destruct ln as [|x ln]; [discriminate|]|];
        [ destruct (K5 x (or_introl eq_refl)) as (c & Hc & Hu & Hr & Hpp) | destruct (K4 x (or_introl eq_refl)) as (c & Hc & Hu & Hr & Hpp) ];
        exists c; split; auto; split; auto; split; [left; now apply self_during| |left; now apply self_during|]; cbn; rewrite Hr; intuition ].
    all: destruct (N.eqb_spec pos (attempt_pos w')) as [E1|E1].
    1, 3: (* children at the same place give way to this rule *)
      cbn [attempt_pos]; rewrite <- E1; rewrite N.ltb_irrefl; cbn [attempt_pos pos_attempts neg_attempts]; rewrite N.eqb_refl;
      (assert (F1 : firstn (if attempt_pos w =? pos then List.length (pos_attempts w) else O) (pos_attempts w') = base_pos w w') by
        (rewrite K2; unfold base_pos; rewrite <- E1; destruct (attempt_pos w =? pos); [apply firstn_app_exact|reflexivity]));
      (assert (F2 : firstn (if attempt_pos w =? pos then List.length (neg_attempts w) else O) (neg_attempts w') = base_neg w w') by
        (rewrite K3; unfold base_neg; rewrite <- E1; destruct (attempt_pos w =? pos); [apply firstn_app_exact|reflexivity]));
      rewrite F1, F2;
      assert (Far : forall c, c = self \/ B c -> missed c \/ unwanted c -> c_pos c <= pos) by (intros c [->|Hc] Hm; [cbn; lia|rewrite E1; auto]);
      assert (Lk : forall c, c = self \/ B c -> linked c self) by (intros c [->|Hc]; [left; apply during_refl|right; now apply self_during]);
      unfold base_pos, base_neg in *; rewrite <- E1 in *;
      destruct lk;
      [ exists [r], [] | exists [r], [] | exists [], [r] ];
      (split; unfold base_pos, base_neg; cbn [attempt_pos pos_attempts neg_attempts];
       [ lia | try (rewrite app_nil_r); reflexivity | try (rewrite app_nil_r); reflexivity
       | intros r0 Hr; try (destruct Hr; fail); destruct Hr as [<-|[]]; exists self; repeat split; auto; apply Hlk
       | intros r0 Hr; try (destruct Hr; fail); destruct Hr as [<-|[]]; exists self; repeat split; auto; apply Hlk
       | exact Far
       | intros c Hc Hm Hpc; exists self; split; [auto|]; split; [reflexivity|]; split; [auto|]; cbn; auto
       | intros _; (left; discriminate) || (right; discriminate) ]).
    1, 2: destruct (N.ltb_spec (attempt_pos w') pos) as [E2|E2]; cbn [attempt_pos pos_attempts neg_attempts].
    1, 3: (* further than before *)
      rewrite N.eqb_refl;
      assert (Far : forall c, c = self \/ B c -> missed c \/ unwanted c -> c_pos c <= pos) by
        (intros c [->|Hc] Hm; [cbn; lia|specialize (K6 c Hc Hm); lia]);
      assert (Lk : forall c, c = self \/ B c -> linked c self) by (intros c [->|Hc]; [left; apply during_refl|right; now apply self_during]);
      assert (Hne : (attempt_pos w =? pos) = false) by (apply N.eqb_neq; lia);
      destruct lk;
      [ exists [r], [] | exists [r], [] | exists [], [r] ];
      (split; unfold base_pos, base_neg; cbn [attempt_pos pos_attempts neg_attempts]; rewrite ?Hne;
       [ lia | reflexivity | reflexivity
       | intros r0 Hr; try (destruct Hr; fail); destruct Hr as [<-|[]]; exists self; repeat split; auto; apply Hlk
       | intros r0 Hr; try (destruct Hr; fail); destruct Hr as [<-|[]]; exists self; repeat split; auto; apply Hlk
       | exact Far
       | intros c Hc Hm Hpc; exists self; split; [auto|]; split; [reflexivity|]; split; [auto|]; cbn; auto
       | intros _; (left; discriminate) || (right; discriminate) ]).
    (* this rule began before the furthest failure *)
    1, 2: destruct (N.eqb_spec pos (attempt_pos w')) as [X|_]; [lia|]; exists lp, ln; split; auto;
      [ intros r0 Hr; destruct (K4 r0 Hr) as (c & Hc & H); exists c; tauto
      | intros r0 Hr; destruct (K5 r0 Hr) as (c & Hc & H); exists c; tauto
      | intros c [->|Hc] Hm; [cbn; lia|auto]
      | intros c [->|Hc] Hm Hpc; [cbn in Hpc; lia|destruct (K7 c Hc Hm Hpc) as (d & Hd & H); exists d; tauto] ].
  Qed.

  Lemma silent_known w w' : known B w w' -> ~ (missed self \/ unwanted self) -> known (fun c => c = self \/ B c) w w'.
  Proof.
    intros (lp & ln & K) Hn. exists lp, ln. destruct K as [K1 K2 K3 K4 K5 K6 K7 K8]. split; auto.
    - intros r0 Hr. destruct (K4 r0 Hr) as (c & Hc & H). exists c. tauto.
    - intros r0 Hr. destruct (K5 r0 Hr) as (c & Hc & H). exists c. tauto.
    - intros c [->|Hc] Hm; [tauto|auto].
    - intros c [->|Hc] Hm Hpc; [tauto|]. destruct (K7 c Hc Hm Hpc) as (d & Hd & H). exists d. tauto.
  Qed.

  Lemma track_atomic lk' r' p pi ni prev w : track Atomic lk' r' p pi ni prev w = w.
  Proof. reflexivity. Qed.

  Lemma rule_known w : known B w (snd (eval_t skip b (inner t a) lk pos inp w)) ->
    known (calls (ERule r t b) a lk pos inp) w (snd (eval_t skip (ERule r t b) a lk pos inp w)).
  Proof.
    intros K. apply known_ext with (C := fun c => c = self \/ B c).
    { intros c. split; [intros [->|H]; [apply calls_rule|now apply calls_body]|]. intros H. inversion H; subst; [left; reflexivity|right; assumption]. }
    assert (Er : snd (eval_t skip (ERule r t b) a lk pos inp w) = snd (rule_tracked outer lk r pos w (eval_t skip b (inner t a) lk pos inp))).
    { unfold outer, inner. destruct t; reflexivity. }
    rewrite Er. unfold rule_tracked.
    pose proof (eval_t_fst b (inner t a) lk pos inp w) as Ef.
    assert (Res : c_result self = emit outer r pos (eval skip b (inner t a) pos inp)) by (unfold c_result, self, c_exp, outer, inner; cbn; destruct t; reflexivity).
    destruct (eval_t skip b (inner t a) lk pos inp w) as [res w']. cbn [fst snd] in *. rewrite <- Ef in Res.
    assert (Fin : forall wf, (outer <> Atomic /\ (lk = LkNegative /\ (exists t0 r0 p0, res = ROk t0 r0 p0) \/ lk <> LkNegative /\ res = RFail) ->
                wf = track outer lk r pos (if attempt_pos w =? pos then List.length (pos_attempts w) else O) (if attempt_pos w =? pos then List.length (neg_attempts w) else O) (attempts_at w pos) w') ->
              ((outer = Atomic \/ res = RLoop \/ lk = LkNegative /\ res = RFail \/ lk <> LkNegative /\ (exists t0 r0 p0, res = ROk t0 r0 p0)) -> wf = w') ->
              known (fun c => c = self \/ B c) w wf).
    { intros wf H1 H2. destruct (atom_is outer) as [Ha|Ha].
      - rewrite H2 by auto. apply silent_known; [exact K|]. intros [(h & _)|(h & _)]; apply outer_visible in h; auto.
      - assert (Hv : visible self) by now apply outer_visible.
        destruct res as [t0 r0 p0| |].
        + assert (exists t1 r1 p1, c_result self = ROk t1 r1 p1) by (rewrite Res; cbn; destruct outer; eauto).
          destruct (look_is lk) as [Hl|Hl].
          * rewrite H1 by (split; auto; left; split; eauto). apply tracked_known; [exact K|]. right. split; auto.
          * rewrite H2 by (right; right; right; split; eauto). apply silent_known; [exact K|].
            intros [(_ & _ & h)|(_ & h & _)]; cbn in *; [|congruence]. destruct H as (? & ? & ? & H). congruence.
        + assert (c_result self = RFail) by (rewrite Res; reflexivity).
          destruct (look_is lk) as [Hl|Hl].
          * rewrite H2 by (right; right; left; auto). apply silent_known; [exact K|].
            intros [(_ & h & _)|(_ & _ & ? & ? & ? & h)]; cbn in *; congruence.
          * rewrite H1 by (split; auto). apply tracked_known; [exact K|]. left. split; auto.
        + rewrite H2 by auto. apply silent_known; [exact K|].
          assert (c_result self = RLoop) by (rewrite Res; reflexivity).
          intros [(_ & _ & h)|(_ & _ & ? & ? & ? & h)]; congruence. }
    apply Fin; destruct res, lk; cbn [snd]; intros H; try reflexivity;
      repeat match goal with
      | H : _ /\ _ |- _ => destruct H
      | H : _ \/ _ |- _ => destruct H
      | H : exists _, _ |- _ => destruct H
      end; try congruence; try (rewrite H; reflexivity).
  Qed.
End Rule.

(** ** Every expression *)
Lemma calls_none e a lk off inp c : (match e with ESeq _ _ | EAlt _ _ | EOpt _ | ERep _ | ENot _ | ERule _ _ _ => False | _ => True end) -> ~ calls e a lk off inp c.
Proof. intros H X. destruct e; try contradiction; inversion X. Qed.

Section Rep.
  Variables (e : pexp) (a : atomicity) (lk : look).
  Hypothesis IH : forall off inp w, known (calls e a lk off inp) w (snd (eval_t skip e a lk off inp w)).
  Definition at_rounds off inp c := exists off' inp', rounds e a off inp off' inp' /\ calls e a lk off' inp' c.
  (** The rounds after a first match that ends at [m]. *)
  Definition later o m c := exists g i pg, do_skip skip a m = ROk g i pg /\ at_rounds (o + blen g) i c.

  Lemma skip_bind o i w : known (fun c => exists g i2 pg, do_skip skip a i = ROk g i2 pg /\ calls e a lk (o + blen g) i2 c) w
     (snd (bind_t (do_skip skip a i, w) o (eval_t skip e a lk))).
  Proof.
    unfold bind_t. destruct (do_skip skip a i) as [g i2 pg| |].
    - pose proof (IH (o + blen g) i2 w) as K. destruct (eval_t skip e a lk (o + blen g) i2 w) as [r2 w2]. cbn in *.
      eapply known_ext; [|exact K]. intros c. split; [intros H; eauto 10|]. intros (? & ? & ? & E & H). injection E as <- <- <-. exact H.
    - apply known_refl. intros c (? & ? & ? & E & _). discriminate.
    - apply known_refl. intros c (? & ? & ? & E & _). discriminate.
  Qed.
  Lemma rounds_step off inp c : at_rounds off inp c <-> calls e a lk off inp c \/ exists t i1 ps, eval skip e a off inp = ROk t i1 ps /\ later (off + blen t) i1 c.
  Proof.
    split.
    - intros (off' & inp' & H & Hc). inversion H; subst; [left; exact Hc|]. right. exists t, i1, ps. split; [assumption|]. exists g, i2, pg. split; [assumption|]. exists off', inp'. auto.
    - intros [H|(t & i1 & ps & E & g & i2 & pg & Eg & off' & inp' & H & Hc)]; [exists off, inp; split; [constructor|exact H]|].
      exists off', inp'. split; [econstructor; eauto|exact Hc].
  Qed.
  Hypothesis NN : nonnull e = true.

  Lemma later_known fuel : forall o m w, (List.length m < fuel)%nat ->
    known (later o m) w (snd (repeat_t (fun o i w => bind_t (do_skip skip a i, w) o (eval_t skip e a lk)) fuel o m w)).
  Proof.
    induction fuel as [|fuel IHf]; intros o m w Hf; [lia|]. cbn [repeat_t].
    pose proof (skip_bind o m w) as K.
    pose proof (bind_t_fst (do_skip skip a m, w) o (eval_t skip e a lk) (eval skip e a) (fun o i w => eval_t_fst e a lk o i w)) as F. cbn [fst] in F.
    destruct (bind_t (do_skip skip a m, w) o (eval_t skip e a lk)) as [res w1]. cbn [fst snd] in K, F.
    destruct (do_skip skip a m) as [g i2 pg| |] eqn:Eg; cbn [bind_res] in F.
    2, 3: subst res; cbn [snd]; (eapply known_ext; [|exact K]); intros c; split; intros (? & ? & ? & E & _); discriminate || (rewrite Eg in E; discriminate).
    assert (Hm : m = g ++ i2).
    { rewrite do_skip_skipf in Eg. injection Eg as <- <- <-. apply (skipf_app a). now destruct (skipf a m). }
    destruct (eval skip e a (o + blen g) i2) as [t i1 ps| |] eqn:Ee; subst res.
    - assert (Hl : (List.length i1 < fuel)%nat).
      { pose proof (eval_app _ _ _ _ _ _ _ Ee) as Ha. pose proof (eval_nonnull _ _ _ _ _ _ _ NN Ee) as Ht. subst i2. rewrite Hm in Hf. rewrite !app_length in Hf. destruct t; [congruence|cbn in Hf; lia]. }
      specialize (IHf (o + blen (g ++ t)) i1 w1 Hl).
      destruct (repeat_t _ fuel (o + blen (g ++ t)) i1 w1) as [res2 w2]. cbn [snd] in *.
      eapply known_ext; [|exact (known_trans _ _ _ _ _ K IHf)]. intros c.
      assert (Eo : o + blen (g ++ t) = o + blen g + blen t) by (rewrite blen_app; lia). rewrite Eo.
      split.
      + intros [(g' & i' & pg' & E & Hc)|H]; exists g, i2, pg; split; auto; apply rounds_step; [injection E as <- <- <-; left; exact Hc|]. right; eauto.
      + intros (g' & i' & pg' & E & H). rewrite Eg in E. injection E as <- <- <-. apply rounds_step in H. destruct H as [H|(t' & i1' & ps' & E & H)]; [left; eauto|].
        rewrite Ee in E. injection E as <- <- <-. right. exact H.
    - cbn [snd]. eapply known_ext; [|exact K]. intros c. split.
      + intros (g' & i' & pg' & E & Hc). injection E as <- <- <-. exists g, i2, pg. split; auto. apply rounds_step. now left.
      + intros (g' & i' & pg' & E & H). rewrite Eg in E. injection E as <- <- <-. apply rounds_step in H. destruct H as [H|(t' & i1' & ps' & E & H)]; [eauto|congruence].
    - cbn [snd]. eapply known_ext; [|exact K]. intros c. split.
      + intros (g' & i' & pg' & E & Hc). injection E as <- <- <-. exists g, i2, pg. split; auto. apply rounds_step. now left.
      + intros (g' & i' & pg' & E & H). rewrite Eg in E. injection E as <- <- <-. apply rounds_step in H. destruct H as [H|(t' & i1' & ps' & E & H)]; [eauto|congruence].
  Qed.

  Lemma rounds_known fuel : a <> NonAtomic -> forall o m w, (List.length m < fuel)%nat ->
    known (at_rounds o m) w (snd (repeat_t (eval_t skip e a lk) fuel o m w)).
  Proof.
    intros Ha. assert (Hs : forall m, do_skip skip a m = ROk [] m []) by (intros m; destruct a; [congruence|reflexivity..]).
    assert (Hlat : forall o m c, later o m c <-> at_rounds o m c).
    { intros o m c. unfold later. rewrite Hs. split; [intros (g & i & pg & E & H); injection E as <- <- <-; replace o with (o + blen []) by (cbn; lia); exact H|].
      intros H. exists [], m, []. split; [reflexivity|]. replace (o + blen []) with o by (cbn; lia). exact H. }
    induction fuel as [|fuel IHf]; intros o m w Hf; [lia|]. cbn [repeat_t].
    pose proof (IH o m w) as K. pose proof (eval_t_fst e a lk o m w) as F.
    destruct (eval_t skip e a lk o m w) as [res w1]. cbn [fst snd] in K, F. subst res.
    destruct (eval skip e a o m) as [t i1 ps| |] eqn:Ee.
    - assert (Hl : (List.length i1 < fuel)%nat).
      { pose proof (eval_app _ _ _ _ _ _ _ Ee) as Hap. pose proof (eval_nonnull _ _ _ _ _ _ _ NN Ee) as Ht. subst m. rewrite !app_length in Hf. destruct t; [congruence|cbn in Hf; lia]. }
      specialize (IHf (o + blen t) i1 w1 Hl). destruct (repeat_t _ fuel (o + blen t) i1 w1) as [res2 w2]. cbn [snd] in *.
      eapply known_ext; [|exact (known_trans _ _ _ _ _ K IHf)]. intros c. rewrite rounds_step. split.
      + intros [H|H]; [now left|right]. exists t, i1, ps. split; auto. now apply Hlat.
      + intros [H|(t' & i1' & ps' & E & H)]; [now left|right]. rewrite Ee in E. injection E as <- <- <-. now apply Hlat.
    - cbn [snd]. eapply known_ext; [|exact K]. intros c. rewrite rounds_step. split; [now left|]. intros [H|(t' & i1' & ps' & E & H)]; [exact H|congruence].
    - cbn [snd]. eapply known_ext; [|exact K]. intros c. rewrite rounds_step. split; [now left|]. intros [H|(t' & i1' & ps' & E & H)]; [exact H|congruence].
  Qed.
End Rep.

Lemma calls_rep_iff e a lk off inp c : calls (ERep e) a lk off inp c <-> at_rounds e a lk off inp c.
Proof. split; [intros H; inversion H; subst; eexists; eexists; eauto|intros (o & i & H & Hc); econstructor; eauto]. Qed.

Theorem eval_known e : loop_free e = true -> forall a lk off inp w, known (calls e a lk off inp) w (snd (eval_t skip e a lk off inp w)).
Proof.
  induction e as [x|x|lo hi| | | |e1 IH1 e2 IH2|e1 IH1 e2 IH2|e IH|e IH|e IH|r t b IH]; intros Hf a lk off inp w;
    try (cbn [eval_t snd]; apply known_refl; intros c; now apply calls_none).
  - cbn [loop_free] in Hf. apply andb_prop in Hf as [Hf1 Hf2]. specialize (IH1 Hf1). specialize (IH2 Hf2). cbn [eval_t].
    pose proof (IH1 a lk off inp w) as K. pose proof (eval_t_fst e1 a lk off inp w) as F.
    destruct (eval_t skip e1 a lk off inp w) as [res w1]. cbn [fst snd] in *. subst res.
    unfold bind_t at 2. destruct (eval skip e1 a off inp) as [t i1 ps| |] eqn:E1.
    2, 3: cbn [bind_t snd]; (eapply known_ext; [|exact K]); intros c; split; [apply calls_first|]; intros H; inversion H; subst; [assumption|congruence].
    destruct (do_skip skip a i1) as [g i2 pg| |] eqn:Eg.
    2, 3: cbn [bind_t snd]; (eapply known_ext; [|exact K]); intros c; split; [apply calls_first|]; intros H; inversion H; subst; [assumption|congruence].
    unfold bind_t. pose proof (IH2 a lk (off + blen (t ++ g)) i2 w1) as K2.
    destruct (eval_t skip e2 a lk (off + blen (t ++ g)) i2 w1) as [r2 w2]. cbn [snd] in *.
    eapply known_ext; [|exact (known_trans _ _ _ _ _ K K2)]. intros c.
    assert (Eo : off + blen (t ++ g) = off + blen t + blen g) by (rewrite blen_app; lia). rewrite Eo. split.
    + intros [H|H]; [now apply calls_first|eapply calls_second; eauto].
    + intros H. inversion H; subst; [now left|right].
      match goal with A : eval skip e1 a off inp = ROk ?x ?y ?z |- _ => rewrite E1 in A; injection A as <- <- <- end.
      match goal with A : do_skip skip a i1 = ROk ?x ?y ?z |- _ => rewrite Eg in A; injection A as <- <- <- end. assumption.
  - cbn [loop_free] in Hf. apply andb_prop in Hf as [Hf1 Hf2]. specialize (IH1 Hf1). specialize (IH2 Hf2). cbn [eval_t].
    pose proof (IH1 a lk off inp w) as K. pose proof (eval_t_fst e1 a lk off inp w) as F.
    destruct (eval_t skip e1 a lk off inp w) as [res w1]. cbn [fst snd] in *. subst res.
    destruct (eval skip e1 a off inp) as [t i1 ps| |] eqn:E1.
    1, 3: cbn [snd]; (eapply known_ext; [|exact K]); intros c; split; [apply calls_left|]; intros H; inversion H; subst; [assumption|congruence].
    eapply known_ext; [|exact (known_trans _ _ _ _ _ K (IH2 a lk off inp w1))]. intros c. split.
    + intros [H|H]; [now apply calls_left|now apply calls_right].
    + intros H. inversion H; subst; auto.
  - cbn [loop_free] in Hf. specialize (IH Hf). cbn [eval_t].
    pose proof (IH a lk off inp w) as K. destruct (eval_t skip e a lk off inp w) as [res w1]. cbn [snd] in *.
    assert (known (calls (EOpt e) a lk off inp) w w1).
    { eapply known_ext; [|exact K]. intros c. split; [apply calls_opt|]. intros H; inversion H; subst; assumption. }
    destruct res; exact H.
  - cbn [loop_free] in Hf. apply andb_prop in Hf as [Hn Hf]. specialize (IH Hf).
    eapply known_ext; [intros c; symmetry; apply calls_rep_iff|]. cbn [eval_t].
    assert (Hfu : forall m, (List.length m < fuel_for m)%nat) by (intros m; unfold fuel_for; lia).
    destruct a.
    + pose proof (IH NonAtomic lk off inp w) as K. pose proof (eval_t_fst e NonAtomic lk off inp w) as F.
      destruct (eval_t skip e NonAtomic lk off inp w) as [res w1]. cbn [fst snd] in *. subst res.
      destruct (eval skip e NonAtomic off inp) as [t i1 ps| |] eqn:E1.
      * unfold bind_t at 1. pose proof (later_known e NonAtomic lk (IH NonAtomic lk) Hn (fuel_for i1) (off + blen t) i1 w1 (Hfu i1)) as K2.
        destruct (repeat_t _ (fuel_for i1) (off + blen t) i1 w1) as [res2 w2]. cbn [snd] in *.
        eapply known_ext; [|exact (known_trans _ _ _ _ _ K K2)]. intros c. rewrite rounds_step. split.
        -- intros [H|H]; [now left|right; eauto].
        -- intros [H|(t' & i' & p' & E & H)]; [now left|right]. rewrite E1 in E. injection E as <- <- <-. exact H.
      * cbn [snd]. eapply known_ext; [|exact K]. intros c. rewrite rounds_step. split; [now left|]. intros [H|(t' & i' & p' & E & H)]; [exact H|congruence].
      * cbn [snd bind_t]. eapply known_ext; [|exact K]. intros c. rewrite rounds_step. split; [now left|]. intros [H|(t' & i' & p' & E & H)]; [exact H|congruence].
    + apply rounds_known; auto. discriminate.
    + apply rounds_known; auto. discriminate.
  - cbn [loop_free] in Hf. specialize (IH Hf). cbn [eval_t].
    pose proof (IH a (flip lk) off inp w) as K. destruct (eval_t skip e a (flip lk) off inp w) as [res w1]. cbn [snd] in *.
    eapply known_ext; [|exact K]. intros c. split; [apply calls_not|]. intros H; inversion H; subst; assumption.
  - cbn [loop_free] in Hf. apply rule_known. now apply IH.
Qed.
