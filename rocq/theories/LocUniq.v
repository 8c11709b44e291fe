(** * LocUniq: a text stands for at most one located AST. *)

From Verif Require Import SynMain.
From Verif Require Export LocErase.
From Verif Require Import Syntax.

(** Where the text after a node satisfies [G], the node and its end are determined. *)
Definition det {A} (R : reader A) (G : str -> Prop) : Prop :=
  forall i m m' x y r r', R i m x -> R i m' y -> lay m r -> lay m' r' -> G r -> G r' -> m = m' /\ x = y.
Definition any (r : str) : Prop := True.

Lemma F_fun e i r r' Q Q' : F e i r Q -> F e i r' Q' -> r = r' /\ exists ps, Q ps /\ Q' ps.
Proof.
  intros H1 H2. destruct (H1 0) as (t & m & ps & E1 & L1 & q1). destruct (H2 0) as (t' & m' & ps' & E2 & L2 & q2).
  rewrite E1 in E2. injection E2 as <- <- <-. apply lay_fin in L1, L2. split; [congruence|eauto].
Qed.
Lemma F_X e i r Q : F e i r Q -> X e i -> False.
Proof. intros H HX. eapply F_not_X; [exact H|apply (HX 0)]. Qed.
Lemma lay_fun m r r' : lay m r -> lay m r' -> r = r'.
Proof. intros H1 H2. apply lay_fin in H1, H2. congruence. Qed.
Lemma tok_fun w i r r' : tok w i r -> tok w i r' -> r = r'.
Proof. intros (m & -> & H1) (m' & E0 & H2). apply app_inv_head in E0. subst m'. eapply lay_fun; eassumption. Qed.
Lemma app_len {A} (a b c d : list A) : a ++ b = c ++ d -> List.length a = List.length c -> a = c /\ b = d.
Proof.
  revert c. induction a as [|x a IH]; intros [|y c] H HL; try discriminate; [auto|]. cbn in H, HL. injection H as -> H. injection HL as HL.
  destruct (IH c H HL) as [-> ->]. auto.
Qed.
Lemma F2_len {A B} (P : A -> B -> Prop) l l' : Forall2 P l l' -> List.length l = List.length l'.
Proof. induction 1; cbn; congruence. Qed.
Lemma kw_fun k i r r' : kw k i r -> kw k i r' -> r = r'.
Proof.
  intros (w & m & -> & H1 & L1) (w' & m' & E0 & H2 & L2). apply F2_len in H1, H2.
  apply app_len in E0 as [-> ->]; [|congruence]. eapply lay_fun; eassumption.
Qed.
Lemma tok_first c x i r : tok (c :: x) i r -> exists y, i = c :: y.
Proof. intros (m & -> & _). eexists. reflexivity. Qed.
Lemma det_next {A} (R : reader A) G i r r' x y : det R G -> next R i r x -> next R i r' y -> G r -> G r' -> r = r' /\ x = y.
Proof.
  intros H (m & H1 & L1) (m' & H2 & L2) g g'. destruct (H _ _ _ _ _ _ _ H1 H2 L1 L2 g g') as [-> ->]. split; [|reflexivity].
  eapply lay_fun; eassumption.
Qed.
Lemma det_weak {A} (R : reader A) (G G' : str -> Prop) : det R G -> (forall r, G' r -> G r) -> det R G'.
Proof. intros H HG i m m' x y r r' H1 H2 L1 L2 g g'. eapply H; eauto. Qed.

Lemma det_maybe {A} (R : reader A) G i r r' o o' : det R G -> maybe (next R) i r o -> maybe (next R) i r' o' ->
  (forall i r x, next R i r x -> ~ G i) -> G r -> G r' -> r = r' /\ o = o'.
Proof.
  intros H H1 H2 HF g g'. destruct H1 as [i'|i' r1 a Ha]; inversion H2 as [i2 E1 E2 E3|i2 r2 a2 Ha2 E1 E2 E3]; subst.
  - auto.
  - destruct (HF _ _ _ Ha2 g).
  - destruct (HF _ _ _ Ha g').
  - destruct (det_next _ _ _ _ _ _ _ H Ha Ha2 g g') as [-> ->]. auto.
Qed.

Lemma det_commas {A} (R : reader A) c i z z' l l' : det R (then_or 44 c) -> c <> 44 ->
  commas (next R) i (c :: z) l -> commas (next R) i (c :: z') l' -> z = z' /\ l = l'.
Proof.
  intros H Hc H1. remember (c :: z) as r eqn:Er. revert z' l'. assert (Gc : forall y, then_or 44 c (c :: y)) by (intros y; exists c, y; auto).
  induction H1 as [i r a Ha|i m m' r a l Ha Ht Hl IH]; intros z' l' H2; subst r; inversion H2 as [i2 r2 b Hb E1 E2 E3|i2 n n' r2 b l2 Hb Ht2 Hl2 E1 E2 E3]; subst.
  - destruct (det_next _ _ _ _ _ _ _ H Ha Hb (Gc _) (Gc _)) as [[= ->] ->]. auto.
  - destruct (tok_first 44 [] _ _ Ht2) as (y & ->).
    destruct (det_next _ _ _ _ _ _ _ H Ha Hb (Gc _)) as [[= E0 _] _]; [exists 44, y; auto|congruence].
  - destruct (tok_first 44 [] _ _ Ht) as (y & ->).
    destruct (det_next _ _ _ _ _ _ _ H Ha Hb) as [[= E0 _] _]; [exists 44, y; auto|apply Gc|congruence].
  - destruct (tok_first 44 [] _ _ Ht) as (y & ->). destruct (tok_first 44 [] _ _ Ht2) as (y2 & ->).
    destruct (det_next _ _ _ _ _ _ _ H Ha Hb) as [E0 ->]; [exists 44, y; auto|exists 44, y2; auto|]. rewrite E0 in Ht.
    rewrite (tok_fun _ _ _ _ Ht Ht2) in IH. destruct (IH eq_refl _ _ Hl2) as [-> ->]. auto.
Qed.
Lemma det_list {A} (R : reader A) op cl c G : s cl = [c] -> c <> 44 -> det R (then_or 44 c) -> (forall i r x, next R i r x -> nh c i) ->
  det (list_at op cl R) G.
Proof.
  intros Es Hc H HF i m m' x y r r' H1 H2 _ _ _ _.
  assert (first : forall i r l, commas (next R) i r l -> nh c i) by (intros i0 r0 l0 [i1 r1 a Ha|i1 n n' r1 a l1 Ha _ _]; eapply HF; exact Ha).
  destruct H1 as [i m Ht|i m1 m l Ht Hl]; inversion H2 as [i2 n Ht2 E1 E2 E3|i2 n1 n l2 Ht2 Hl2 E1 E2 E3]; subst; pose proof (tok_fun _ _ _ _ Ht Ht2) as Em; rewrite Es in *.
  - cbn [app] in Em. injection Em as ->. auto.
  - subst n1. exfalso. apply (first _ _ _ Hl2 m eq_refl).
  - subst m1. exfalso. apply (first _ _ _ Hl m' eq_refl).
  - subst n1. destruct (det_commas _ _ _ _ _ _ _ H Hc Hl Hl2) as [-> ->]. auto.
Qed.
Lemma det_many {A} (R : reader A) (G : str -> Prop) (e : str -> Prop) i r r' l l' : det R G -> many (next R) i r l -> many (next R) i r' l' -> (forall i r x, next R i r x -> G i /\ ~ e i) ->
  (forall y, e y -> G y) -> e r -> e r' -> r = r' /\ l = l'.
Proof.
  intros H H1. revert r' l'. induction H1 as [i|i m r a l Ha Hl IH]; intros r' l' H2 HF He g g'; inversion H2 as [i2 E1 E2 E3|i2 n r2 b l2 Hb Hl2 E1 E2 E3]; subst.
  - auto.
  - destruct (HF _ _ _ Hb). tauto.
  - destruct (HF _ _ _ Ha). tauto.
  - assert (Gm : forall m r l, many (next R) m r l -> e r -> G m) by (intros ? ? ? [i3|i3 m3 r3 a3 l3 Ha3 _] Hr; [auto|eapply HF; exact Ha3]).
    destruct (det_next _ _ _ _ _ _ _ H Ha Hb) as [-> ->]; [eapply Gm; eassumption|eapply Gm; eassumption|].
    destruct (IH _ _ Hl2 HF He g g') as [-> ->]. auto.
Qed.
Lemma det_braces {A} (R : reader A) (G G' : str -> Prop) : det R G -> (forall i r x, next R i r x -> G i /\ nh 125 i) -> (forall y, G (125 :: y)) ->
  det (braces_at R) G'.
Proof.
  intros H HF Hc i m m' x y r r' (m1 & Ht & Hm) (n1 & Ht2 & Hm2) _ _ _ _. rewrite (tok_fun _ _ _ _ Ht Ht2) in Hm.
  destruct (det_many R G (fun y => exists z, y = 125 :: z) _ _ _ _ _ H Hm Hm2) as [E0 E1].
  - intros i0 r0 x0 H0. destruct (HF _ _ _ H0) as [g g']. split; [exact g|]. intros (z & ->). apply (g' z eq_refl).
  - intros y0 (z & ->). apply Hc.
  - exists m. reflexivity.
  - exists m'. reflexivity.
  - apply app_inv_head in E0. auto.
Qed.
Lemma det_tail {A B} (R : reader A) (O : reader B) (GR G : str -> Prop) i m m' x y o o' r r' : det R GR -> det O G ->
  tail_at R O i m x o -> tail_at R O i m' y o' -> lay m r -> lay m' r' ->
  (forall i m b, O i m b -> exists z, i = 91 :: z) -> (forall z, GR (91 :: z)) -> (forall r, G r -> GR r /\ nh 91 r) -> G r -> G r' -> m = m' /\ x = y /\ o = o'.
Proof.
  intros HR HO H1 H2 L1 L2 Hf H91 HG g g'.
  destruct H1 as [i m a Ha|i m1 m a b Ha Hb]; inversion H2 as [i2 n b2 Ha2 E1 E2 E3|i2 n1 n a2 b2 Ha2 Hb2 E1 E2 E3]; subst.
  - rewrite (lay_twice _ _ _ (next_lay _ _ _ _ Ha) L1) in g. rewrite (lay_twice _ _ _ (next_lay _ _ _ _ Ha2) L2) in g'.
    destruct (det_next _ _ _ _ _ _ _ HR Ha Ha2) as [-> ->]; [apply HG; exact g|apply HG; exact g'|]. auto.
  - exfalso. rewrite (lay_twice _ _ _ (next_lay _ _ _ _ Ha) L1) in g. destruct (Hf _ _ _ Hb2) as (z & ->).
    destruct (det_next _ _ _ _ _ _ _ HR Ha Ha2) as [-> _]; [apply HG; exact g|apply H91|]. apply (proj2 (HG _ g) z eq_refl).
  - exfalso. rewrite (lay_twice _ _ _ (next_lay _ _ _ _ Ha2) L2) in g'. destruct (Hf _ _ _ Hb) as (z & ->).
    destruct (det_next _ _ _ _ _ _ _ HR Ha Ha2) as [<- _]; [apply H91|apply HG; exact g'|]. apply (proj2 (HG _ g') z eq_refl).
  - destruct (Hf _ _ _ Hb) as (z & ->). destruct (Hf _ _ _ Hb2) as (z2 & ->).
    destruct (det_next _ _ _ _ _ _ _ HR Ha Ha2) as [E0 ->]; [apply H91|apply H91|]. rewrite E0 in Hb.
    destruct (HO _ _ _ _ _ _ _ Hb Hb2 L1 L2 g g') as [-> ->]. auto.
Qed.

(** ** Words and literals *)
Lemma run_det (P : char -> Prop) (d m d' m' : str) : d ++ m = d' ++ m' -> Forall P d -> Forall P d' ->
  (forall c x, m = c :: x -> ~ P c) -> (forall c x, m' = c :: x -> ~ P c) -> d = d' /\ m = m'.
Proof.
  intros E0 H1 H2 N1 N2. apply app_cut in E0 as [(x & -> & ->)|(x & -> & -> & Hx)].
  - destruct x as [|c x]; [rewrite app_nil_r; auto|]. apply Forall_app in H1 as [_ H1]. apply Forall_cons_iff in H1 as [H1 _].
    destruct (N2 c (x ++ m) eq_refl H1).
  - destruct x as [|c x]; [congruence|]. apply Forall_app in H2 as [_ H2]. apply Forall_cons_iff in H2 as [H2 _]. destruct (N1 c (x ++ m') eq_refl H2).
Qed.
Lemma word_chars w : word w -> Forall word_char w.
Proof. intros (c & w' & -> & Hc & Hw). constructor; [apply letter_word; exact Hc|exact Hw]. Qed.
Lemma plain_det i m m' w w' : plain_at i m w -> plain_at i m' w' -> m = m' /\ w = w'.
Proof.
  intros (-> & H1 & N1) (E0 & H2 & N2). apply (run_det word_char) in E0 as [-> ->]; auto using word_chars.
Qed.
Lemma phrase_det i m m' w w' : phrase_at i m w -> phrase_at i m' w' -> m = m' /\ w = w'.
Proof.
  intros (-> & H1 & N1) (E0 & H2 & N2). pose proof (eval_phrase NonAtomic 0 w m H1 N1) as E1. pose proof (eval_phrase NonAtomic 0 w' m' H2 N2) as E2.
  rewrite <- E0, E1 in E2. cbn [emit] in E2. injection E2 as -> ->. auto.
Qed.
Lemma quote_det q i m m' v v' : q <> [] -> quote_at q i m v -> quote_at q i m' v' -> m = m' /\ v = v'.
Proof.
  intros Hq (i1 & -> & L1 & C1) (i2 & E0 & L2 & C2). apply app_inv_head in E0. subst i2. pose proof (lay_fun _ _ _ L1 L2) as E0.
  destruct (close_before q v m Hq C1) as [E1 E2]. destruct (close_before q v' m' Hq C2) as [E3 E4]. rewrite E0 in E1, E2.
  rewrite E3 in E1. rewrite E4 in E2. apply app_inv_head in E2. auto.
Qed.
Lemma letters_34 i m w i' : plain_at i m w -> i = dq ++ i' -> False.
Proof. intros (-> & (c & w' & -> & Hc & _) & _) E0. cbn in E0. injection E0 as -> _. revert Hc. unfold letter. lia. Qed.
Lemma phrase_34 i m w i' : phrase_at i m w -> i = dq ++ i' -> False.
Proof. intros (-> & (c & w' & -> & Hc & _) & _) E0. cbn in E0. injection E0 as -> _. revert Hc. unfold letter. lia. Qed.
Lemma tq_not_sq i m v r x : quote_at sq i m v -> lay m r -> nh 39 r -> i <> tq ++ x.
Proof.
  intros (i' & -> & Hl & Hc) Hm Hr E0.
  cbn [app tq sq] in E0. injection E0 as E0. subst i'.
  apply lay_solid in Hl; [|apply (solid_sq (39 :: x))]. cbn [app sq] in Hl.
  destruct v as [|c v].
  * cbn [app] in Hl. injection Hl as Hl. subst m. apply lay_solid in Hm; [|apply (solid_sq x)]. apply (Hr x). exact Hm.
  * cbn [app] in Hl. injection Hl as -> Hl. destruct v as [|c v].
    -- specialize (Hc [] [39] eq_refl). discriminate.
    -- specialize (Hc [] (c :: v ++ sq) eq_refl). discriminate.
Qed.
Lemma text_det : det text_at (nh 39).
Proof.
  intros i m m' x y r r' [H1|H1] [H2|H2] L1 L2 g g'.
  - eapply (quote_det tq); [discriminate|eassumption..].
  - exfalso. destruct H1 as (i' & -> & _). eapply tq_not_sq; [exact H2|exact L2|exact g'|reflexivity].
  - exfalso. destruct H2 as (i' & -> & _). eapply tq_not_sq; [exact H1|exact L1|exact g|reflexivity].
  - eapply (quote_det sq); [discriminate|eassumption..].
Qed.
Lemma value_end i m m' r r' v : value_at i m v -> value_at i m' v -> lay m r -> lay m' r' -> nh 39 r -> nh 39 r' -> m = m'.
Proof.
  intros H1 H2 L1 L2 g g'.
  destruct H1 as [i m w H|i m w H|m|m|m|d m Hd Hn Hdot|d1 d2 m f Hd1 Hd2 Hn Hf|h m Hh Hlen|h m Hh Hlen Hn];
  inversion H2 as [i2 m2 w2 K E1 E2 E3|i2 m2 w2 K E1 E2 E3|m2 E1 E2 E3|m2 E1 E2 E3|m2 E1 E2 E3|e m2 Kd Kn Kdot E1 E2 E3|e1 e2 m2 f2 Kd1 Kd2 Kn Kf E1 E2 E3|h2 m2 Kh Klen E1 E2 E3|h2 m2 Kh Klen Kn E1 E2 E3]; subst;
  try discriminate; try reflexivity; try (cbn in E1; congruence).
  all: try (exfalso; cbn in *; congruence).
  - destruct (text_det _ _ _ _ _ _ _ H K L1 L2 g g') as [-> _]. reflexivity.
  - destruct (quote_det bq _ _ _ _ _ ltac:(discriminate) H K) as [-> _]. reflexivity.
  - destruct (run_det digit d m e m') as [_ ->]; auto; [apply Hd|apply Kd].
  - destruct (run_det digit d1 (s "." ++ d2 ++ m) e1 (s "." ++ e2 ++ m')) as [_ E0]; auto; [apply Hd1|apply Kd1| | |].
    + intros c x [= <- _]. unfold digit. lia.
    + intros c x [= <- _]. unfold digit. lia.
    + apply app_inv_head in E0. destruct (run_det digit d2 m e2 m') as [_ ->]; auto.
  - apply app_inv_head in E1. congruence.
  - apply app_inv_head in E1. congruence.
Qed.
Lemma d_value_fun p v v' : d_value p v -> d_value p v' -> fits_value v -> fits_value v' -> v = v'.
Proof.
  intros H1 H2 f f'. apply build_value in H1, H2. destruct H1 as [[_ (x & E1 & <-)]|[H1 _]]; [|tauto].
  destruct H2 as [[_ (x' & E2 & <-)]|[H2 _]]; [|tauto]. unfold same. congruence.
Qed.

Section Unique.
Variable inp : str.

Lemma lit_det (R : reader value_t) (G : str -> Prop) :
  (forall i m m' v v' r r', R i m v -> R i m' v' -> fits_value v -> fits_value v' -> lay m r -> lay m' r' -> G r -> G r' -> m = m' /\ v = v') ->
  det (lit inp R) G.
Proof.
  intros H i m m' [sp rw v] [sp' rw' v'] r r' (E1 & E2 & H1 & f1) (E3 & E4 & H2 & f2) L1 L2 g g'. cbn in *.
  destruct (H _ _ _ _ _ _ _ H1 H2 f1 f2 L1 L2 g g') as [-> ->]. split; [reflexivity|]. rewrite E1 in E3 at 1. apply app_inv_tail in E3. subst. reflexivity.
Qed.
Lemma plain_value_det i m m' v v' r r' : plain_value_at i m v -> plain_value_at i m' v' -> fits_value v -> fits_value v' ->
  lay m r -> lay m' r' -> nh 39 r -> nh 39 r' -> m = m' /\ v = v'.
Proof.
  intros [H1|H1] [H2|H2] f f' L1 L2 g g'.
  - pose proof (F_value _ _ _ (er_value _ _ _ _ H1 L1) g) as F1. pose proof (F_value _ _ _ (er_value _ _ _ _ H2 L2) g') as F2.
    destruct (F_fun _ _ _ _ _ _ F1 F2) as [_ (ps & (p & -> & D1) & (p' & [= <-] & D2))]. pose proof (d_value_fun _ _ _ D1 D2 f f'). subst v'.
    split; [eapply value_end; eassumption|reflexivity].
  - exfalso. eapply F_X; [apply F_value; [eapply er_value; eassumption|exact g]|]. eapply X_value_bare, er_bare; eassumption.
  - exfalso. eapply F_X; [apply F_value; [eapply er_value; [exact H2|exact L2]|exact g']|]. eapply X_value_bare, er_bare; eassumption.
  - destruct H1 as (w & H1 & _ & ->), H2 as (w' & H2 & _ & ->). destruct (phrase_det _ _ _ _ _ H1 H2) as [-> ->]. auto.
Qed.
Lemma value_34 i m v i' : value_at i m v -> i = dq ++ i' -> False.
Proof.
  intros H E0. assert (Hl : literal_r i (fin m) v) by (eapply er_value; [exact H|apply lay_of]). apply literal_first in Hl as (c & x & -> & Hc).
  injection E0 as -> _. revert Hc. unfold value_start, digit. lia.
Qed.
Lemma attr_value_det i m m' v v' r r' : attr_value_at i m v -> attr_value_at i m' v' -> fits_value v -> fits_value v' ->
  lay m r -> lay m' r' -> nh 39 r -> nh 39 r' -> m = m' /\ v = v'.
Proof.
  assert (H34 : forall i m v w m', plain_value_at i m v -> quote_at dq i m' w -> False).
  { intros j n u w n' [H|(w' & H & _)] (i' & E0 & _); [eapply value_34; eassumption|eapply phrase_34; eassumption]. }
  intros [H1|(w & H1 & ->)] [H2|(w' & H2 & ->)] f f' L1 L2 g g'.
  - eapply plain_value_det; eassumption.
  - destruct (H34 _ _ _ _ _ H1 H2).
  - destruct (H34 _ _ _ _ _ H2 H1).
  - destruct (quote_det dq _ _ _ _ _ ltac:(discriminate) H1 H2) as [-> ->]. auto.
Qed.
Lemma note_text_det i m m' v v' r r' : note_text_at i m v -> note_text_at i m' v' -> fits_value v -> fits_value v' ->
  lay m r -> lay m' r' -> nh 39 r -> nh 39 r' -> m = m' /\ v = v'.
Proof.
  intros H1 H2 _ _ L1 L2 g g'. assert (HT : forall i m v, note_text_at i m v -> exists w, text_at i m w /\ v = VString w).
  { intros j n u [(w & H & ->)|(w & H & ->)]; exists w; unfold text_at; auto. }
  apply HT in H1 as (w & H1 & ->). apply HT in H2 as (w' & H2 & ->). destruct (text_det _ _ _ _ _ _ _ H1 H2 L1 L2 g g') as [-> ->]. auto.
Qed.

Lemma ident_eq i m (x y : ident_t) : i = id_raw x ++ m -> i = id_raw y ++ m -> id_span x = span inp i m -> id_span y = span inp i m ->
  id_str x = id_str y -> x = y.
Proof. destruct x, y. cbn. intros E1 E2 -> -> ->. rewrite E1 in E2. apply app_inv_tail in E2. subst. reflexivity. Qed.
Lemma ident_det G : det (ident_at inp) G.
Proof.
  intros i m m' x y r r' (E1 & E2 & H1) (E3 & E4 & H2) _ _ _ _.
  assert (E : m = m' /\ id_str x = id_str y).
  { destruct H1 as [H1|H1], H2 as [H2|H2].
    - eapply plain_det; eassumption.
    - destruct H2 as (i' & E0 & _). destruct (letters_34 _ _ _ _ H1 E0).
    - destruct H1 as (i' & E0 & _). destruct (letters_34 _ _ _ _ H2 E0).
    - eapply (quote_det dq); [discriminate|eassumption..]. }
  destruct E as [-> E]. split; [reflexivity|]. eapply ident_eq; eassumption.
Qed.
Lemma key_det G : det (key_at inp) G.
Proof.
  intros i m m' x y r r' (E1 & E2 & H1) (E3 & E4 & H2) _ _ _ _. destruct (phrase_det _ _ _ _ _ H1 H2) as [-> E]. split; [reflexivity|].
  eapply ident_eq; eassumption.
Qed.
Lemma next_ident i r r' x y : next (ident_at inp) i r x -> next (ident_at inp) i r' y -> r = r' /\ x = y.
Proof. intros H1 H2. apply (det_next _ any _ _ _ _ _ (ident_det any) H1 H2); exact Logic.I. Qed.
Lemma next_key i r r' x y : next (key_at inp) i r x -> next (key_at inp) i r' y -> r = r' /\ x = y.
Proof. intros H1 H2. apply (det_next _ any _ _ _ _ _ (key_det any) H1 H2); exact Logic.I. Qed.

(** ** Settings *)
Lemma attribute_det : det (attribute_at inp) (then_or 44 93).
Proof.
  intros i m m' x y r r' H1 H2 L1 L2 g g'.
  destruct H1 as [i m k Hk|i m1 m2 m k v Hk Ht Hv]; inversion H2 as [i2 n k2 Hk2 E1 E2 E3|i2 n1 n2 n k2 v2 Hk2 Ht2 Hv2 E1 E2 E3]; subst.
  - destruct (next_key _ _ _ _ _ Hk Hk2) as [-> ->]. auto.
  - exfalso. destruct (next_key _ _ _ _ _ Hk Hk2) as [-> _]. rewrite (lay_twice _ _ _ (next_lay _ _ _ _ Hk) L1) in g. apply tok_first in Ht2 as (z & ->).
    revert g. intros (c & u & [= <- _] & Hc). lia.
  - exfalso. destruct (next_key _ _ _ _ _ Hk Hk2) as [<- _]. rewrite (lay_twice _ _ _ (next_lay _ _ _ _ Hk2) L2) in g'. apply tok_first in Ht as (z & ->).
    revert g'. intros (c & u & [= <- _] & Hc). lia.
  - destruct (next_key _ _ _ _ _ Hk Hk2) as [-> ->]. rewrite (tok_fun _ _ _ _ Ht Ht2) in Hv.
    destruct (lit_det attr_value_at (nh 39) attr_value_det _ _ _ _ _ _ _ Hv Hv2 L1 L2) as [-> ->]; [eapply nh_then; [exact g| |]; discriminate|eapply nh_then; [exact g'| |]; discriminate|].
    auto.
Qed.
Lemma attribute_first i r x : next (attribute_at inp) i r x -> hd_in letter i.
Proof.
  intros (m & [i' m' k Hk|i' m1 m2 m' k v Hk Ht Hv] & _); apply er_key in Hk; eapply phrase_first; exact Hk.
Qed.
Lemma letter_nh i c : hd_in letter i -> ~ letter c -> nh c i.
Proof. apply hd_nh. Qed.
Lemma attributes_det G : det (attributes_at inp) G.
Proof.
  apply (det_list _ "[" "]" 93); [reflexivity|discriminate|apply attribute_det|].
  intros i r x H. eapply letter_nh; [eapply attribute_first; exact H|unfold letter; lia].
Qed.
Lemma attributes_first i m l : attributes_at inp i m l -> exists z, i = 91 :: z.
Proof. intros [i' m' Ht|i' m1 m' l' Ht Hl]; eapply tok_first; exact Ht. Qed.

Lemma last_says_fun {A} ks (reads : attribute_t -> A -> Prop) d l v v' : (forall a x y, reads a x -> reads a y -> x = y) ->
  last_says ks reads d l v -> last_says ks reads d l v' -> v = v'.
Proof.
  intros Hr [[N1 ->]|(l1 & a & l2 & -> & K1 & N1 & R1)] [[N2 ->]|(l1' & a' & l2' & E0 & K2 & N2 & R2)].
  - reflexivity.
  - exfalso. subst l. apply Forall_app in N1 as [_ N1]. apply Forall_cons_iff in N1 as [N1 _]. tauto.
  - exfalso. apply Forall_app in N2 as [_ N2]. apply Forall_cons_iff in N2 as [N2 _]. tauto.
  - assert (E : a = a').
    { apply (f_equal (@rev _)) in E0. rewrite !rev_app_distr in E0. cbn [rev] in E0. rewrite <- !app_assoc in E0. cbn [app] in E0.
      assert (N1' : Forall (fun b => ~ keyed ks b) (rev l2)) by (apply Forall_rev; exact N1).
      assert (N2' : Forall (fun b => ~ keyed ks b) (rev l2')) by (apply Forall_rev; exact N2).
      clear -E0 K1 K2 N1' N2'. revert E0 N2'. generalize (rev l2') as t2. induction (rev l2) as [|x t1 IH]; intros [|y t2] E0 N2'; cbn [app] in E0.
      - congruence.
      - injection E0 as -> _. apply Forall_cons_iff in N2' as [N _]. tauto.
      - injection E0 as -> _. apply Forall_cons_iff in N1' as [N _]. tauto.
      - injection E0 as -> E0. apply Forall_cons_iff in N2' as [_ N2']. apply Forall_cons_iff in N1' as [_ N1']. eapply IH; eassumption. }
    subst a'. eapply Hr; eassumption.
Qed.
Lemma text_fun a x y : reads_text a x -> reads_text a y -> x = y.
Proof. unfold reads_text. congruence. Qed.
Lemma value_fun a x y : reads_value a x -> reads_value a y -> x = y.
Proof. unfold reads_value. congruence. Qed.
Lemma nullable_fun a x y : reads_nullable a x -> reads_nullable a y -> x = y.
Proof. intros [[H1 ->]|[H1 ->]] [[H2 ->]|[H2 ->]]; try reflexivity; rewrite H1 in H2; discriminate. Qed.
Lemma index_type_fun a x y : reads_index_type a x -> reads_index_type a y -> x = y.
Proof.
  unfold reads_index_type. destruct (at_value a); [|congruence]. intros (t & -> & H1) (t' & -> & H2). rewrite <- H1 in H2.
  destruct t, t'; try reflexivity; discriminate.
Qed.
Lemma action_fun a x y : reads_action a x -> reads_action a y -> x = y.
Proof.
  unfold reads_action. destruct (at_value a) as [[sp rw []]|]; try congruence. intros (t & -> & H1) (t' & -> & H2). rewrite <- H1 in H2.
  destruct t, t'; try reflexivity; discriminate.
Qed.
Lemma bool_fun (a b : bool) (P : Prop) : (a = true <-> P) -> (b = true <-> P) -> a = b.
Proof. destruct a, b; intros H1 H2; auto; exfalso; intuition congruence. Qed.

Lemma table_settings_det G : det (table_settings_at inp) G.
Proof.
  intros i m m' [sp l] [sp' l'] r r' (E1 & H1) (E2 & H2) L1 L2 g g'. cbn in *. destruct (attributes_det G _ _ _ _ _ _ _ H1 H2 L1 L2 g g') as [-> ->].
  subst. auto.
Qed.
Lemma group_settings_det G : det (group_settings_at inp) G.
Proof.
  intros i m m' [sp l] [sp' l'] r r' (E1 & H1) (E2 & H2) L1 L2 g g'. cbn in *. destruct (attributes_det G _ _ _ _ _ _ _ H1 H2 L1 L2 g g') as [-> ->].
  subst. auto.
Qed.
Lemma enum_settings_det G : det (enum_settings_at inp) G.
Proof.
  intros i m m' [sp l n] [sp' l' n'] r r' (E1 & H1 & _ & S1) (E2 & H2 & _ & S2) L1 L2 g g'. cbn in *. destruct (attributes_det G _ _ _ _ _ _ _ H1 H2 L1 L2 g g') as [-> ->].
  rewrite (last_says_fun _ _ _ _ _ _ text_fun S1 S2). subst. auto.
Qed.
Lemma ref_settings_det G : det (ref_settings_at inp) G.
Proof.
  intros i m m' [sp l d u] [sp' l' d' u'] r r' (E1 & H1 & _ & S1 & S1' & _) (E2 & H2 & _ & S2 & S2' & _) L1 L2 g g'. cbn in *.
  destruct (attributes_det G _ _ _ _ _ _ _ H1 H2 L1 L2 g g') as [-> ->].
  rewrite (last_says_fun _ _ _ _ _ _ action_fun S1 S2), (last_says_fun _ _ _ _ _ _ action_fun S1' S2'). subst. auto.
Qed.
Lemma index_settings_det G : det (index_settings_at inp) G.
Proof.
  intros i m m' [sp l t u p n a] [sp' l' t' u' p' n' a'] r r' (E1 & H1 & _ & B1 & B2 & S1 & _ & S2 & S3) (E2 & H2 & _ & C1 & C2 & T1 & _ & T2 & T3) L1 L2 g g'. cbn in *.
  destruct (attributes_det G _ _ _ _ _ _ _ H1 H2 L1 L2 g g') as [-> ->].
  rewrite (last_says_fun _ _ _ _ _ _ index_type_fun S1 T1), (last_says_fun _ _ _ _ _ _ text_fun S2 T2), (last_says_fun _ _ _ _ _ _ text_fun S3 T3).
  rewrite (bool_fun _ _ _ B1 C1), (bool_fun _ _ _ B2 C2). subst. auto.
Qed.

(** ** References *)
Lemma tok46 m m' r : lay m m -> tok (s ".") m m' -> lay m r -> nh 46 r -> False.
Proof. intros H1 H2 H3 g. rewrite (lay_twice _ _ _ H1 H3) in g. apply tok_first in H2 as (z & ->). apply (g z eq_refl). Qed.
Lemma decl_det : det (decl_at inp) (nh 46).
Proof.
  intros i m m' x y r r' H1 H2 L1 L2 g g'.
  destruct H1 as [i m n Hn|i m1 m2 m sc n Hs Ht Hn]; inversion H2 as [i2 k n2 Hn2 E1 E2 E3|i2 k1 k2 k sc2 n2 Hs2 Ht2 Hn2 E1 E2 E3]; subst.
  - destruct (next_ident _ _ _ _ _ Hn Hn2) as [-> ->]. auto.
  - exfalso. destruct (next_ident _ _ _ _ _ Hn Hs2) as [-> _]. eapply tok46; [eapply next_lay; exact Hn|eassumption..].
  - exfalso. destruct (next_ident _ _ _ _ _ Hs Hn2) as [-> _]. eapply tok46; [eapply next_lay; exact Hn2|eassumption..].
  - destruct (next_ident _ _ _ _ _ Hs Hs2) as [-> ->]. rewrite (tok_fun _ _ _ _ Ht Ht2) in Hn.
    destruct (ident_det any _ _ _ _ _ _ _ Hn Hn2 L1 L2 Logic.I Logic.I) as [-> ->]. auto.
Qed.
Lemma ident_first i r x : next (ident_at inp) i r x -> hd_in name_start i.
Proof. intros H. apply er_ident in H. eapply name_first. exact H. Qed.
Lemma ident_commas_det i m m' l l' : commas (next (ident_at inp)) i (s ")" ++ m) l -> commas (next (ident_at inp)) i (s ")" ++ m') l' -> m = m' /\ l = l'.
Proof. intros H1 H2. eapply (det_commas _ 41 _ _ _ _ _ (ident_det _)); [discriminate|exact H1|exact H2]. Qed.
Lemma columns_det G : det (columns_at inp) G.
Proof.
  intros i m m' x y r r' H1 H2 L1 L2 g g'.
  assert (HX : forall i m m1 c, ident_at inp i m c -> tok (s "(") i m1 -> False).
  { intros j n n1 c H H0. apply tok_first in H0 as (z & ->). assert (Hn : next (ident_at inp) (40 :: z) (fin n) c) by (exists n; split; [exact H|apply lay_of]).
    apply ident_first in Hn as (c' & u & [= <- _] & Hc). revert Hc. apply name_start_not. auto 20. }
  destruct H1 as [i m c Hc|i m1 m l Ht Hl]; inversion H2 as [i2 n c2 Hc2 E1 E2 E3|i2 n1 n l2 Ht2 Hl2 E1 E2 E3]; subst.
  - destruct (ident_det any _ _ _ _ _ _ _ Hc Hc2 L1 L2 Logic.I Logic.I) as [-> ->]. auto.
  - destruct (HX _ _ _ _ Hc Ht2).
  - destruct (HX _ _ _ _ Hc2 Ht).
  - rewrite (tok_fun _ _ _ _ Ht Ht2) in Hl. eapply ident_commas_det; eassumption.
Qed.
Lemma columns_no_dot i m l m1 t m2 : columns_at inp i m l -> lay m m1 -> nh 46 m1 -> next (ident_at inp) i m2 t -> tok (s ".") m2 m2 \/ (exists m3, tok (s ".") m2 m3) -> False.
Proof.
  intros H Hl g Hn Ht. assert (Hd : exists z, m2 = 46 :: z) by (destruct Ht as [Ht|(m3 & Ht)]; eapply tok_first; exact Ht). destruct Hd as (z & ->).
  destruct H as [i m c Hc|i k1 m l Hk Hl'].
  - assert (Hn2 : next (ident_at inp) i m1 c) by (exists m; auto). destruct (next_ident _ _ _ _ _ Hn Hn2) as [<- _]. apply (g z eq_refl).
  - apply tok_first in Hk as (u & ->). apply ident_first in Hn as (c' & u' & [= <- _] & Hc). revert Hc. apply name_start_not. auto 20.
Qed.
Lemma endpoint_det : det (endpoint_at inp) (nh 46).
Proof.
  intros i m m' x y r r' H1 H2 L1 L2 g g'.
  destruct H1 as [i m1 m2 m t l Ht Hd Hl|i m1 m2 m3 m4 m sc t l Hs Hd Ht Hd2 Hl];
  inversion H2 as [i2 k1 k2 k t2 l2 Kt Kd Kl E1 E2 E3|i2 k1 k2 k3 k4 k sc2 t2 l2 Ks Kd Kt Kd2 Kl E1 E2 E3]; subst.
  - destruct (next_ident _ _ _ _ _ Ht Kt) as [-> ->]. rewrite (tok_fun _ _ _ _ Hd Kd) in Hl.
    destruct (columns_det any _ _ _ _ _ _ _ Hl Kl L1 L2 Logic.I Logic.I) as [-> ->]. auto.
  - exfalso. destruct (next_ident _ _ _ _ _ Ht Ks) as [-> ->]. rewrite (tok_fun _ _ _ _ Hd Kd) in Hl. eapply columns_no_dot; [exact Hl|exact L1|exact g|exact Kt|eauto].
  - exfalso. destruct (next_ident _ _ _ _ _ Hs Kt) as [-> ->]. rewrite (tok_fun _ _ _ _ Hd Kd) in Ht. eapply columns_no_dot; [exact Kl|exact L2|exact g'|exact Ht|eauto].
  - destruct (next_ident _ _ _ _ _ Hs Ks) as [-> ->]. rewrite (tok_fun _ _ _ _ Hd Kd) in Ht. destruct (next_ident _ _ _ _ _ Ht Kt) as [-> ->].
    rewrite (tok_fun _ _ _ _ Hd2 Kd2) in Hl. destruct (columns_det any _ _ _ _ _ _ _ Hl Kl L1 L2 Logic.I Logic.I) as [-> ->]. auto.
Qed.
Lemma endpoint_start i r x : next (endpoint_at inp) i r x -> hd_in name_start i.
Proof. intros H. apply er_endpoint in H. eapply endpoint_first. exact H. Qed.
Lemma rel_det : det rel_at (nh 62).
Proof.
  intros i m m' x y r r' (t & S1 & ->) (t' & S2 & E0) L1 L2 g g'.
  assert (g1 : nh 62 m) by (eapply lay_nh; [exact L1|exact g|]; apply solid_char; unfold is_ws, is_nl; lia).
  assert (g2 : nh 62 m') by (eapply lay_nh; [exact L2|exact g'|]; apply solid_char; unfold is_ws, is_nl; lia).
  destruct x, y; try discriminate; injection S1 as <-; injection S2 as <-; cbn in E0; try discriminate; try (injection E0 as ->; auto).
  - exfalso. apply (g1 m' eq_refl).
  - injection E0 as E0. exfalso. apply (g2 m). auto.
Qed.
Lemma next_rel i r r' x y : next rel_at i r x -> next rel_at i r' y -> hd_in name_start r -> hd_in name_start r' -> r = r' /\ x = y.
Proof.
  intros H1 H2 g g'. eapply (det_next _ _ _ _ _ _ _ rel_det H1 H2); eapply hd_nh; try eassumption; apply name_start_not; auto.
Qed.
Lemma inline_det : det (inline_at inp) (nh 46).
Proof.
  intros i m m' x y r r' H1 H2 L1 L2 g g'. destruct H1 as [i m1 m2 m3 m x e H1 H3 H4 H5]. inversion H2 as [i2 k1 k2 k3 k x2 e2 K1 K3 K4 K5 E1 E2 E3]; subst.
  rewrite (tok_fun _ _ _ _ H1 K1) in H3. rewrite (tok_fun _ _ _ _ H3 K3) in H4.
  destruct (next_rel _ _ _ _ _ H4 K4) as [-> ->]; [eapply endpoint_start; exists m; eauto|eapply endpoint_start; exists m'; eauto|].
  destruct (endpoint_det _ _ _ _ _ _ _ H5 K5 L1 L2 g g') as [-> ->]. auto.
Qed.
Lemma stmt_det n : det (stmt_at inp n) rel_follow.
Proof.
  intros i m m' x y r r' H1 H2 L1 L2 g g'. destruct H1 as [i m1 m2 m x a b st H1 H3 H4]. inversion H2 as [i2 k1 k2 k x2 a2 b2 st2 K1 K3 K4 E1 E2 E3]; subst.
  assert (HR : forall i r x, next rel_at i r x -> nh 46 i) by (intros j s0 z H; apply er_rel in H; eapply hd_nh; [eapply rel_first; exact H|]; cbn; lia).
  assert (HE : forall i m b st, tail_at (endpoint_at inp) (ref_settings_at inp) i m b st -> hd_in name_start i).
  { intros j n0 b0 st0 [j1 n1 b1 Hb|j1 n1 n2 b1 o1 Hb _]; eapply endpoint_start; exact Hb. }
  destruct (det_next _ _ _ _ _ _ _ endpoint_det H1 K1 (HR _ _ _ H3) (HR _ _ _ K3)) as [-> ->].
  destruct (next_rel _ _ _ _ _ H3 K3 (HE _ _ _ _ H4) (HE _ _ _ _ K4)) as [-> ->].
  destruct (det_tail _ _ (nh 46) rel_follow _ _ _ _ _ _ _ _ _ endpoint_det (ref_settings_det _) H4 K4 L1 L2) as (-> & -> & ->); auto.
  - intros j n0 z (_ & Hz & _). eapply attributes_first. exact Hz.
  - intros z. apply nh_cons. discriminate.
Qed.
Lemma stmt_first n i m f : stmt_at inp n i m f -> hd_in name_start i.
Proof. intros [i' m1 m2 m' x a b st H _ _]. eapply endpoint_start. exact H. Qed.
Lemma opt_ident_det i r r' n n' c d z z' : maybe (next (ident_at inp)) i r n -> maybe (next (ident_at inp)) i r' n' -> r = c :: z -> r' = d :: z' ->
  ~ name_start c -> ~ name_start d -> r = r' /\ n = n'.
Proof.
  intros H1 H2 E1 E2 N1 N2. eapply (det_maybe (ident_at inp) (fun y => exists e u, y = e :: u /\ ~ name_start e)); try eassumption.
  - apply ident_det.
  - intros j s0 x H (e & u & -> & N). apply ident_first in H as (c' & u' & [= <- _] & Hc). tauto.
  - eauto.
  - eauto.
Qed.
Lemma reference_det : det (reference_at inp) rel_follow.
Proof.
  intros i m m' x y r r' H1 H2 L1 L2 g g'.
  assert (N58 : ~ name_start 58) by (apply name_start_not; auto 20). assert (N123 : ~ name_start 123) by (apply name_start_not; auto 20).
  destruct H1 as [i m1 m2 m3 m n f Hk Hn Ht Hb|i m1 m2 m3 m n f Hk Hn Ht Hb];
  inversion H2 as [i2 k1 k2 k3 k n2 f2 Kk Kn Kt Kb E1 E2 E3|i2 k1 k2 k3 k n2 f2 Kk Kn Kt Kb E1 E2 E3]; subst;
  rewrite (kw_fun _ _ _ _ Hk Kk) in Hn; destruct (tok_first _ _ _ _ Ht) as (z & Ez); destruct (tok_first _ _ _ _ Kt) as (z' & Ez');
  (destruct (opt_ident_det _ _ _ _ _ _ _ _ _ Hn Kn Ez Ez') as [E0 ->]; [assumption|assumption|]); rewrite E0 in Ht.
  - rewrite (tok_fun _ _ _ _ Ht Kt) in Hb. eapply stmt_det; eassumption.
  - exfalso. apply tok_first in Ht as (u & ->). discriminate.
  - exfalso. apply tok_first in Ht as (u & ->). discriminate.
  - rewrite (tok_fun _ _ _ _ Ht Kt) in Hb. assert (G : forall u, rel_follow (s "}" ++ u)) by (intros u; split; apply nh_cons; discriminate).
    destruct (det_next _ _ _ _ _ _ _ (stmt_det _) Hb Kb (G _) (G _)) as [E1 ->]. apply app_inv_head in E1. auto.
Qed.

(** ** Notes *)
Lemma note_det : det (note_at inp) (nh 39).
Proof.
  intros i m m' x y r r' H1 H2 L1 L2 g g'.
  destruct H1 as [i m1 m2 m v Hk Ht Hv|i m1 m2 m v Hk Ht Hv];
  inversion H2 as [i2 k1 k2 k v2 Kk Kt Kv E1 E2 E3|i2 k1 k2 k v2 Kk Kt Kv E1 E2 E3]; subst; rewrite (kw_fun _ _ _ _ Hk Kk) in Ht.
  - rewrite (tok_fun _ _ _ _ Ht Kt) in Hv. destruct (lit_det _ _ note_text_det _ _ _ _ _ _ _ Hv Kv L1 L2 g g') as [-> ->]. auto.
  - exfalso. apply tok_first in Ht as (u & ->). apply tok_first in Kt as (u' & [=]).
  - exfalso. apply tok_first in Ht as (u & ->). apply tok_first in Kt as (u' & [=]).
  - rewrite (tok_fun _ _ _ _ Ht Kt) in Hv. assert (G : forall u, nh 39 (s "}" ++ u)) by (intros u; apply nh_cons; discriminate).
    destruct (det_next _ _ _ _ _ _ _ (lit_det _ _ note_text_det) Hv Kv (G _) (G _)) as [E1 ->]. apply app_inv_head in E1. subst. auto.
Qed.

(** ** Tables *)
Definition type_follow (r : str) : Prop := nh 46 r /\ nh 40 r.
Lemma type_det : det (type_at inp) type_follow.
Proof.
  intros i m m' [sp rw n a d] [sp' rw' n' a' d'] r r' (E1 & E2 & H1 & N1 & D1 & f1) (E3 & E4 & H2 & N2 & D2 & f2) L1 L2 [g1 g2] [g1' g2']. cbn in *.
  assert (S46 : solid [46]) by (apply solid_char; unfold is_ws, is_nl; lia). assert (S40 : solid [40]) by (apply solid_char; unfold is_ws, is_nl; lia).
  pose proof (FC_type _ _ m H1 N1 D1 (lay_nh _ _ _ L1 g1 S46) (lay_nh _ _ _ L1 g2 S40)) as F1.
  pose proof (FC_type _ _ m' H2 N2 D2 (lay_nh _ _ _ L2 g1' S46) (lay_nh _ _ _ L2 g2' S40)) as F2.
  rewrite <- E1 in F1. rewrite <- E3 in F2. destruct (F1 0) as (t & ps & V1 & p & -> & T1). destruct (F2 0) as (t' & ps' & V2 & p' & -> & T2).
  rewrite V1 in V2. injection V2 as _ <- <-. split; [reflexivity|].
  apply build_type in T1, T2. destruct T1 as [[_ (x & X1 & M1)]|[T1 _]]; [|tauto]. destruct T2 as [[_ (x' & X2 & M2)]|[T2 _]]; [|tauto].
  rewrite X1 in X2. injection X2 as <-. rewrite M1 in M2. unfold e_type in M2. cbn in M2. injection M2 as <- <- <-.
  rewrite E1 in E3. apply app_inv_tail in E3. subst. reflexivity.
Qed.
Lemma inline_start i r x : next (inline_at inp) i r x -> hd_in letter i.
Proof. intros (m & [i' m1 m2 m3 m' y e H _ _ _] & _). apply tok_first in H as (z & ->). exists 114, z. split; [reflexivity|]. unfold letter. lia. Qed.
Lemma col_item_det : det (col_item_at inp) (then_or 44 93).
Proof.
  intros i m m' x y r r' H1 H2 L1 L2 g g'.
  assert (G46 : forall r, then_or 44 93 r -> nh 46 r) by (intros u Hu; eapply nh_then; [exact Hu| |]; discriminate).
  assert (E1 : next (col_item_at inp) i r x) by (exists m; auto). assert (E2 : next (col_item_at inp) i r' y) by (exists m'; auto).
  apply er_col_item in E1 as [E1 _]. apply er_col_item in E2 as [E2 _].
  destruct (F_fun _ _ _ _ _ _ (F_col_item _ _ _ E1 g) (F_col_item _ _ _ E2 g')) as [_ (ps & (p & -> & _ & q & Hq & D1) & (p' & [= <-] & _ & q' & Hq' & D2))].
  rewrite Hq in Hq'. injection Hq' as <-. destruct x as [x|x], y as [y|y]; cbn in H1, H2, D1, D2.
  - destruct (attribute_det _ _ _ _ _ _ _ H1 H2 L1 L2 g g') as [-> ->]. auto.
  - exfalso. destruct D1 as [D1 _], D2 as [D2 _]. congruence.
  - exfalso. destruct D1 as [D1 _], D2 as [D2 _]. congruence.
  - destruct (inline_det _ _ _ _ _ _ _ H1 H2 L1 L2 (G46 _ g) (G46 _ g')) as [-> ->]. auto.
Qed.
Lemma col_settings_det G : det (col_settings_at inp) G.
Proof.
  intros i m m' [sp l k u n ic nt df rf] [sp' l' k' u' n' ic' nt' df' rf'] r r' (E1 & t & H1 & S1 & R1) (E2 & t' & H2 & S2 & R2) L1 L2 g g'.
  assert (HD : det (list_at "[" "]" (col_item_at inp)) any).
  { apply (det_list _ "[" "]" 93); [reflexivity|discriminate|apply col_item_det|]. intros j s0 [x|x] H.
    - eapply letter_nh; [eapply attribute_first; exact H|unfold letter; lia].
    - eapply letter_nh; [eapply inline_start; exact H|unfold letter; lia]. }
  destruct (HD _ _ _ _ _ _ _ H1 H2 L1 L2 Logic.I Logic.I) as [-> ->]. split; [reflexivity|].
  destruct S1 as (A1 & A2 & A3 & A4 & A5 & A6 & A7), S2 as (B1 & B2 & B3 & B4 & B5 & B6 & B7). cbn in *.
  rewrite (bool_fun _ _ _ A2 B2), (bool_fun _ _ _ A3 B3), (bool_fun _ _ _ A4 B4).
  rewrite (last_says_fun _ _ _ _ _ _ nullable_fun A5 B5), (last_says_fun _ _ _ _ _ _ value_fun A6 B6), (last_says_fun _ _ _ _ _ _ text_fun A7 B7).
  subst. reflexivity.
Qed.
Lemma item_type r : item_follow r -> type_follow r /\ nh 91 r.
Proof. intros H. split; [split|]; (apply item_nh; [exact H|apply item_not; auto]). Qed.
Lemma column_det : det (column_at inp) item_follow.
Proof.
  intros i m m' x y r r' H1 H2 L1 L2 g g'. destruct H1 as [i m1 m n ty st H1 H3]. inversion H2 as [i2 k1 k n2 ty2 st2 K1 K3 E1 E2 E3]; subst.
  destruct (next_ident _ _ _ _ _ H1 K1) as [-> ->].
  destruct (det_tail _ _ type_follow item_follow _ _ _ _ _ _ _ _ _ type_det (col_settings_det _) H3 K3 L1 L2) as (-> & -> & ->); auto.
  - intros j n0 b (_ & l & Hl & _). inversion Hl as [? ? Ht|? ? ? ? Ht _]; subst; eapply tok_first; exact Ht.
  - intros z. split; apply nh_cons; discriminate.
  - apply item_type.
Qed.
Lemma index_col_det G : det (index_col_at inp) G.
Proof.
  intros i m m' x y r r' H1 H2 L1 L2 _ _.
  assert (HX : forall i m m' x v, ident_at inp i m x -> lit inp (string_at bq) i m' v -> False).
  { intros j n n' z v H (_ & _ & (w & (i' & -> & _) & _) & _). assert (Hn : next (ident_at inp) (bq ++ i') (fin n) z) by (exists n; split; [exact H|apply lay_of]).
    apply ident_first in Hn as (c' & u & E0 & Hc). cbn in E0. injection E0 as <- _. revert Hc. apply name_start_not. auto 20. }
  destruct H1 as [i m x H1|i m v H1]; inversion H2 as [i2 k x2 K1 E1 E2 E3|i2 k v2 K1 E1 E2 E3]; subst.
  - destruct (ident_det any _ _ _ _ _ _ _ H1 K1 L1 L2 Logic.I Logic.I) as [-> ->]. auto.
  - destruct (HX _ _ _ _ _ H1 K1).
  - destruct (HX _ _ _ _ _ K1 H1).
  - assert (HD : det (lit inp (string_at bq)) any).
    { apply lit_det. intros j n n' v1 v2' s0 s1 (w & Q1 & ->) (w' & Q2 & ->) _ _ _ _ _ _. destruct (quote_det bq _ _ _ _ _ ltac:(discriminate) Q1 Q2) as [-> ->]. auto. }
    destruct (HD _ _ _ _ _ _ _ H1 K1 L1 L2 Logic.I Logic.I) as [-> ->]. auto.
Qed.
Lemma index_col_start i r x : next (index_col_at inp) i r x -> hd_in index_start i.
Proof. intros H. apply er_index_col in H as [H _]. eapply index_col_first. exact H. Qed.
Lemma not_index c : c = 41 \/ c = 125 \/ c = 40 -> ~ index_start c.
Proof. unfold index_start, name_start, letter. lia. Qed.
Lemma index_list_det G : det (list_at "(" ")" (index_col_at inp)) G.
Proof.
  apply (det_list _ "(" ")" 41); [reflexivity|discriminate|apply index_col_det|]. intros i r x H. eapply hd_nh; [eapply index_col_start; exact H|].
  apply not_index. auto.
Qed.
Lemma index_det : det (index_at inp) (nh 91).
Proof.
  intros i m m' x y r r' H1 H2 L1 L2 g g'.
  assert (HS : forall i m b, index_settings_at inp i m b -> exists z, i = 91 :: z) by (intros j n z (_ & Hz & _); eapply attributes_first; exact Hz).
  assert (HX : forall i m m' c st l st', tail_at (index_col_at inp) (index_settings_at inp) i m c st ->
                tail_at (list_at "(" ")" (index_col_at inp)) (index_settings_at inp) i m' l st' -> False).
  { intros j n n' c st l st' T1 T2. assert (H40 : exists z, j = 40 :: z).
    { destruct T2 as [j1 n1 a1 (n2 & Hl & _)|j1 n1 n3 a1 o1 (n2 & Hl & _) _]; inversion Hl as [? ? Ht|? ? ? ? Ht _]; subst; eapply tok_first; exact Ht. }
    destruct H40 as (z & ->). assert (Hi : hd_in index_start (40 :: z)) by (inversion T1; subst; eapply index_col_start; eassumption).
    destruct Hi as (c' & u & [= <- _] & Hc). revert Hc. apply not_index. auto. }
  destruct H1 as [i m c st H1|i m l st H1]; inversion H2 as [i2 k c2 st2 K1 E1 E2 E3|i2 k l2 st2 K1 E1 E2 E3]; subst.
  - destruct (det_tail _ _ any (nh 91) _ _ _ _ _ _ _ _ _ (index_col_det _) (index_settings_det _) H1 K1 L1 L2) as (-> & -> & ->); auto; [intros z; exact Logic.I|].
    intros u Hu. split; [exact Logic.I|exact Hu].
  - destruct (HX _ _ _ _ _ _ _ H1 K1).
  - destruct (HX _ _ _ _ _ _ _ K1 H1).
  - destruct (det_tail _ _ any (nh 91) _ _ _ _ _ _ _ _ _ (index_list_det _) (index_settings_det _) H1 K1 L1 L2) as (-> & -> & ->); auto; [intros z; exact Logic.I|].
    intros u Hu. split; [exact Logic.I|exact Hu].
Qed.
Lemma indexes_det G : det (indexes_at inp) G.
Proof.
  intros i m m' x y r r' H1 H2 L1 L2 _ _. destruct H1 as [i m1 m l Hk Hb]. inversion H2 as [i2 k1 k l2 Kk Kb E1 E2 E3]; subst.
  pose proof (kw_fun _ _ _ _ Hk Kk). subst k1.
  assert (HD : det (braces_at (index_at inp)) any).
  { apply (det_braces _ (nh 91)); [apply index_det| |intros z; apply nh_cons; discriminate].
    intros j s0 z H. apply er_index in H as [H _]. apply index_first in H.
    split; (eapply hd_nh; [exact H|]); unfold index_start, name_start, letter; lia. }
  destruct (HD _ _ _ _ _ _ _ Hb Kb L1 L2 Logic.I Logic.I) as [-> ->]. auto.
Qed.
Lemma item_39 r : item_follow r -> nh 39 r.
Proof. intros H. apply item_nh; [exact H|apply item_not; auto]. Qed.
Lemma table_item_det : det (table_item_at inp) item_follow.
Proof.
  intros i m m' x y r r' H1 H2 L1 L2 g g'.
  assert (E1 : next (table_item_at inp) i r x) by (exists m; auto). assert (E2 : next (table_item_at inp) i r' y) by (exists m'; auto).
  apply er_table_item in E1 as [E1 _]. apply er_table_item in E2 as [E2 _].
  destruct (F_fun _ _ _ _ _ _ (F_table_item _ _ _ E1 g) (F_table_item _ _ _ E2 g')) as [_ (ps & (p & -> & D1) & (p' & [= <-] & D2))].
  destruct x as [x|x|x], y as [y|y|y]; cbn in H1, H2, D1, D2; try (exfalso; destruct D1 as [D1 _], D2 as [D2 _]; congruence).
  - destruct (column_det _ _ _ _ _ _ _ H1 H2 L1 L2 g g') as [-> ->]. auto.
  - destruct (note_det _ _ _ _ _ _ _ H1 H2 L1 L2 (item_39 _ g) (item_39 _ g')) as [-> ->]. auto.
  - destruct (indexes_det any _ _ _ _ _ _ _ H1 H2 L1 L2 Logic.I Logic.I) as [-> ->]. auto.
Qed.
Lemma table_item_start i r x : next (table_item_at inp) i r x -> item_follow i.
Proof. intros H. apply er_table_item in H as [H _]. eapply table_item_first. exact H. Qed.
Lemma F_first e i r Q : F e i r Q -> (forall y, X e (125 :: y)) -> nh 125 i.
Proof. intros HF HX y ->. eapply F_X; [exact HF|apply HX]. Qed.
Lemma braces_start {A} (R : reader A) i m l : braces_at R i m l -> exists z, i = 123 :: z.
Proof. intros (m1 & Ht & _). eapply tok_first. exact Ht. Qed.
Definition set_follow (i : str) : Prop := exists z, i = 123 :: z.
Lemma settings_det_maybe {A} (S : reader A) i r r' o o' : det S any -> (forall i m x, S i m x -> exists z, i = 91 :: z) ->
  maybe (next S) i r o -> maybe (next S) i r' o' -> set_follow r -> set_follow r' -> r = r' /\ o = o'.
Proof.
  intros HD HS H1 H2 g g'. eapply (det_maybe S set_follow); try eassumption.
  - eapply det_weak; [exact HD|]. intros u _. exact Logic.I.
  - intros j s0 x (m & H & _) (z & ->). apply HS in H as (z' & [=]).
Qed.
Lemma table_settings_first i m x : table_settings_at inp i m x -> exists z, i = 91 :: z.
Proof. intros (_ & H). eapply attributes_first. exact H. Qed.
Lemma group_settings_first i m x : group_settings_at inp i m x -> exists z, i = 91 :: z.
Proof. intros (_ & H). eapply attributes_first. exact H. Qed.
Definition head_follow (i : str) : Prop := exists c z, i = c :: z /\ (c = 91 \/ c = 123).
Lemma alias_det G : det (alias_at inp) G.
Proof.
  intros i m m' x y r r' (m1 & Hk & H1) (k1 & Kk & K1) L1 L2 _ _. rewrite (kw_fun _ _ _ _ Hk Kk) in H1.
  eapply (ident_det any); eauto; exact Logic.I.
Qed.
Lemma alias_first i r x : next (alias_at inp) i r x -> hd_in letter i.
Proof. intros (m & (m1 & Hk & _) & _). eapply kw_first; [exact Hk|reflexivity|unfold letter; cbn; lia]. Qed.
Lemma head_of {A} (S : reader A) i r o : (forall i m x, S i m x -> exists z, i = 91 :: z) -> maybe (next S) i r o -> set_follow r -> head_follow i.
Proof.
  intros HS [j|j s0 x (m & H & _)] (z & Ez); [exists 123, z; auto|]. apply HS in H as (z' & ->). exists 91, z'. auto.
Qed.
Lemma table_det G : det (table_at inp) G.
Proof.
  intros i m m' x y r r' H1 H2 L1 L2 _ _. destruct H1 as [i m1 m2 m3 m4 m5 m d al st l Hk Hd Hl Hal Hst Hb].
  inversion H2 as [i2 k1 k2 k3 k4 k5 k d2 al2 st2 l2 Kk Kd Kl Kal Kst Kb E1 E2 E3]; subst.
  pose proof (kw_fun _ _ _ _ Hk Kk). subst k1.
  pose proof (braces_start _ _ _ _ Hb) as S5. pose proof (braces_start _ _ _ _ Kb) as T5.
  pose proof (head_of _ _ _ _ table_settings_first Hst S5) as S4. pose proof (head_of _ _ _ _ table_settings_first Kst T5) as T4.
  assert (HA : forall i r o, maybe (next (alias_at inp)) i r o -> head_follow r -> nh 46 i).
  { intros j s0 o [j1|j1 s1 x Hx] (c & z & Ez & Hc); [subst; apply nh_cons; lia|]. eapply letter_nh; [eapply alias_first; exact Hx|unfold letter; lia]. }
  destruct (decl_det _ _ _ _ _ _ _ Hd Kd Hl Kl (HA _ _ _ Hal S4) (HA _ _ _ Kal T4)) as [-> ->].
  pose proof (lay_fun _ _ _ Hl Kl). subst k3.
  destruct (det_maybe (alias_at inp) head_follow _ _ _ _ _ (alias_det _) Hal Kal) as [-> ->]; auto.
  { intros j s0 x Hx (c & z & -> & Hc). apply alias_first in Hx as (c' & z' & [= <- _] & Hl'). revert Hl'. unfold letter. lia. }
  destruct (settings_det_maybe _ _ _ _ _ _ (table_settings_det _) table_settings_first Hst Kst S5 T5) as [-> ->].
  assert (HD : det (braces_at (table_item_at inp)) any).
  { apply (det_braces _ item_follow); [apply table_item_det| |].
    - intros j s0 z (n & Hz & Ln). assert (Hn : next (table_item_at inp) j s0 z) by (exists n; auto).
      split; [eapply table_item_start; exact Hn|]. apply er_table_item in Hn as [Hn _].
      destruct z as [z|z|z]; cbn in Hn.
      + destruct Hn as [j1 n1 n2 s1 nm ty st0 Hnm _ _]. eapply hd_nh; [eapply name_first; exact Hnm|]. apply name_start_not. auto 20.
      + eapply hd_nh; [eapply note_first; exact Hn|]. unfold letter. lia.
      + destruct Hn as [j1 n1 s1 l1 Hk1 _]. eapply hd_nh; [eapply kw_first; [exact Hk1|reflexivity|unfold letter; cbn; lia]|]. unfold letter. lia.
    - intros z. eexists _, _. split; [reflexivity|right; reflexivity]. }
  destruct (HD _ _ _ _ _ _ _ Hb Kb L1 L2 Logic.I Logic.I) as [-> ->]. auto.
Qed.

(** ** Enums, groups, projects *)
Lemma enum_value_det : det (enum_value_at inp) (nh 91).
Proof.
  intros i m m' x y r r' H1 H2 L1 L2 g g'. destruct H1 as [i m v st H1]. inversion H2 as [i2 k v2 st2 K1 E1 E2 E3]; subst.
  destruct (det_tail _ _ any (nh 91) _ _ _ _ _ _ _ _ _ (ident_det _) (enum_settings_det _) H1 K1 L1 L2) as (-> & -> & ->); auto.
  - intros j n z (_ & Hz & _). eapply attributes_first. exact Hz.
  - intros z. exact Logic.I.
  - intros u Hu. split; [exact Logic.I|exact Hu].
Qed.
Lemma enum_det G : det (enum_at inp) G.
Proof.
  intros i m m' x y r r' H1 H2 L1 L2 _ _. destruct H1 as [i m1 m2 m3 m d l Hk Hd Hl Hb]. inversion H2 as [i2 k1 k2 k3 k d2 l2 Kk Kd Kl Kb E1 E2 E3]; subst.
  pose proof (kw_fun _ _ _ _ Hk Kk). subst k1. destruct (braces_start _ _ _ _ Hb) as (z & Ez). destruct (braces_start _ _ _ _ Kb) as (z' & Ez').
  destruct (decl_det _ _ _ _ _ _ _ Hd Kd Hl Kl) as [-> ->]; [subst; apply nh_cons; discriminate|subst; apply nh_cons; discriminate|].
  pose proof (lay_fun _ _ _ Hl Kl) as E0. rewrite E0 in Hb.
  assert (HD : det (braces_at (enum_value_at inp)) any).
  { apply (det_braces _ (nh 91)); [apply enum_value_det| |intros u; apply nh_cons; discriminate].
    intros j s0 u H. apply er_enum_value in H as [(n & Hn & _) _]. split; (eapply hd_nh; [eapply name_first; exact Hn|]; apply name_start_not; auto 20). }
  destruct (HD _ _ _ _ _ _ _ Hb Kb L1 L2 Logic.I Logic.I) as [-> ->]. auto.
Qed.
Lemma group_part_det : det (group_part_at inp) item_follow.
Proof.
  intros i m m' x y r r' H1 H2 L1 L2 g g'.
  assert (E1 : next (group_part_at inp) i r x) by (exists m; auto). assert (E2 : next (group_part_at inp) i r' y) by (exists m'; auto).
  apply er_group_part in E1 as [E1 _]. apply er_group_part in E2 as [E2 _].
  destruct (F_fun _ _ _ _ _ _ (F_group_item _ _ _ E1 g) (F_group_item _ _ _ E2 g')) as [_ (ps & (p & -> & D1) & (p' & [= <-] & D2))].
  assert (G46 : forall r, item_follow r -> nh 46 r) by (intros u Hu; apply item_nh; [exact Hu|apply item_not; auto]).
  destruct H1 as [i m n H1|i m d H1]; inversion H2 as [i2 k n2 K1 F1 F2 F3|i2 k d2 K1 F1 F2 F3]; subst; cbn in D1, D2; try (exfalso; destruct D1 as [D1 _], D2 as [D2 _]; congruence).
  - destruct (note_det _ _ _ _ _ _ _ H1 K1 L1 L2 (item_39 _ g) (item_39 _ g')) as [-> ->]. auto.
  - destruct (decl_det _ _ _ _ _ _ _ H1 K1 L1 L2 (G46 _ g) (G46 _ g')) as [-> ->]. auto.
Qed.
Lemma group_det G : det (group_at inp) G.
Proof.
  intros i m m' x y r r' H1 H2 L1 L2 _ _. destruct H1 as [i m1 m2 m3 m n st l Hk Hn Hst Hb]. inversion H2 as [i2 k1 k2 k3 k n2 st2 l2 Kk Kn Kst Kb E1 E2 E3]; subst.
  pose proof (kw_fun _ _ _ _ Hk Kk). subst k1. destruct (next_ident _ _ _ _ _ Hn Kn) as [-> ->].
  destruct (settings_det_maybe _ _ _ _ _ _ (group_settings_det _) group_settings_first Hst Kst (braces_start _ _ _ _ Hb) (braces_start _ _ _ _ Kb)) as [-> ->].
  assert (HD : det (braces_at (group_part_at inp)) any).
  { apply (det_braces _ item_follow); [apply group_part_det| |].
    - intros j s0 z H. apply er_group_part in H as [H _]. destruct z as [z|z]; cbn in H.
      + apply note_first in H. split; [apply letter_item; exact H|]. eapply hd_nh; [exact H|]. unfold letter. lia.
      + apply (decl_first _ _ (option_map id_str (gi_schema z), id_str (gi_ident_alias z))) in H. split; [apply name_item; exact H|]. eapply hd_nh; [exact H|]. apply name_start_not. auto 20.
    - intros z. eexists _, _. split; [reflexivity|right; reflexivity]. }
  destruct (HD _ _ _ _ _ _ _ Hb Kb L1 L2 Logic.I Logic.I) as [-> ->]. auto.
Qed.
Lemma property_det : det (property_at inp) (nh 39).
Proof.
  intros i m m' x y r r' H1 H2 L1 L2 g g'. destruct H1 as [i m1 m2 m k v Hk Ht Hv _]. inversion H2 as [i2 n1 n2 n k2 v2 Hk2 Ht2 Hv2 _ E1 E2 E3]; subst.
  destruct (next_key _ _ _ _ _ Hk Hk2) as [-> ->]. rewrite (tok_fun _ _ _ _ Ht Ht2) in Hv.
  destruct (lit_det plain_value_at (nh 39) plain_value_det _ _ _ _ _ _ _ Hv Hv2 L1 L2 g g') as [-> ->]. auto.
Qed.
Lemma project_item_det : det (project_item_at inp) item_follow.
Proof.
  intros i m m' x y r r' H1 H2 L1 L2 g g'.
  assert (E1 : next (project_item_at inp) i r x) by (exists m; auto). assert (E2 : next (project_item_at inp) i r' y) by (exists m'; auto).
  apply er_project_item in E1 as [E1 _]. apply er_project_item in E2 as [E2 _].
  destruct (F_fun _ _ _ _ _ _ (F_project_item _ _ _ E1 g) (F_project_item _ _ _ E2 g')) as [_ (ps & (p & -> & D1) & (p' & [= <-] & D2))].
  destruct x as [x|x], y as [y|y]; cbn in H1, H2, D1, D2; try (exfalso; destruct D1 as [D1 _], D2 as [D2 _]; congruence).
  - destruct (note_det _ _ _ _ _ _ _ H1 H2 L1 L2 (item_39 _ g) (item_39 _ g')) as [-> ->]. auto.
  - destruct (property_det _ _ _ _ _ _ _ H1 H2 L1 L2 (item_39 _ g) (item_39 _ g')) as [-> ->]. auto.
Qed.
Lemma database_type_fun l v v' : database_type_says l v -> database_type_says l v' -> v = v'.
Proof.
  unfold database_type_says. intros [[N1 ->]|(l1 & a & l2 & n & -> & K1 & V1 & N1 & R1)] [[N2 ->]|(l1' & a' & l2' & n' & E0 & K2 & V2 & N2 & R2)].
  - reflexivity.
  - exfalso. subst l. apply Forall_app in N1 as [_ N1]. apply Forall_cons_iff in N1 as [N1 _]. apply N1. eauto.
  - exfalso. apply Forall_app in N2 as [_ N2]. apply Forall_cons_iff in N2 as [N2 _]. apply N2. eauto.
  - assert (E : a = a').
    { apply (f_equal (@rev _)) in E0. rewrite !rev_app_distr in E0. cbn [rev] in E0. rewrite <- !app_assoc in E0. cbn [app] in E0.
      apply Forall_rev in N1, N2. clear -E0 K1 K2 V1 V2 N1 N2. revert E0 N2. generalize (rev l2') as t2. induction (rev l2) as [|x t1 IH]; intros [|y t2] E0 N2; cbn [app] in E0.
      - congruence.
      - injection E0 as -> _. apply Forall_cons_iff in N2 as [N _]. exfalso. apply N. eauto.
      - injection E0 as -> _. apply Forall_cons_iff in N1 as [N _]. exfalso. apply N. eauto.
      - injection E0 as -> E0. apply Forall_cons_iff in N2 as [_ N2]. apply Forall_cons_iff in N1 as [_ N1]. eapply IH; eassumption. }
    subst a'. rewrite V1 in V2. injection V2 as <-. destruct R1 as [[H1 ->]|[H1 ->]], R2 as [[H2 ->]|[H2 ->]]; congruence.
Qed.
Lemma project_det G : det (project_at inp) G.
Proof.
  intros i m m' x y r r' H1 H2 L1 L2 _ _. destruct H1 as [i m1 m2 m n l props db Hk Hn Hb Hp Hdb]. inversion H2 as [i2 k1 k2 k n2 l2 props2 db2 Kk Kn Kb Kp Kdb E1 E2 E3]; subst.
  pose proof (kw_fun _ _ _ _ Hk Kk). subst k1. destruct (next_ident _ _ _ _ _ Hn Kn) as [-> ->].
  assert (HD : det (braces_at (project_item_at inp)) any).
  { apply (det_braces _ item_follow); [apply project_item_det| |].
    - intros j s0 z H. apply er_project_item in H as [H _]. assert (Hl : hd_in letter j).
      { destruct z as [z|z]; cbn in H; [eapply note_first; exact H|]. destruct H as (n & n' & H & _). eapply phrase_first. exact H. }
      split; [apply letter_item; exact Hl|]. eapply hd_nh; [exact Hl|]. unfold letter. lia.
    - intros z. eexists _, _. split; [reflexivity|right; reflexivity]. }
  destruct (HD _ _ _ _ _ _ _ Hb Kb L1 L2 Logic.I Logic.I) as [-> ->]. rewrite (database_type_fun _ _ _ Hdb Kdb). auto.
Qed.

Lemma top_det : det (top_at inp) top_follow.
Proof.
  intros i m m' x y r r' H1 H2 L1 L2 g g'.
  assert (E1 : next (top_at inp) i r x) by (exists m; auto). assert (E2 : next (top_at inp) i r' y) by (exists m'; auto).
  apply er_top in E1 as (a & E1 & _ & A1). apply er_top in E2 as (b & E2 & _ & A2).
  destruct (F_fun _ _ _ _ _ _ (F_block _ _ _ E1 g) (F_block _ _ _ E2 g')) as [_ (ps & (p & -> & D1) & (p' & [= <-] & D2))].
  assert (G39 : forall r, top_follow r -> nh 39 r) by (intros u Hu; apply top_nh; [exact Hu|unfold letter; lia]).
  assert (GR : forall r, top_follow r -> rel_follow r) by (intros u Hu; split; (apply top_nh; [exact Hu|unfold letter; lia])).
  destruct x as [x|x|x|x|x|x], a; try discriminate A1; destruct y as [y|y|y|y|y|y], b; try discriminate A2; cbn [d_block top_at] in H1, H2, D1, D2;
    try (exfalso; destruct D1 as [D1 _], D2 as [D2 _]; congruence).
  - destruct (project_det any _ _ _ _ _ _ _ H1 H2 L1 L2 Logic.I Logic.I) as [-> ->]. auto.
  - destruct (table_det any _ _ _ _ _ _ _ H1 H2 L1 L2 Logic.I Logic.I) as [-> ->]. auto.
  - destruct (group_det any _ _ _ _ _ _ _ H1 H2 L1 L2 Logic.I Logic.I) as [-> ->]. auto.
  - destruct (note_det _ _ _ _ _ _ _ H1 H2 L1 L2 (G39 _ g) (G39 _ g')) as [-> ->]. auto.
  - destruct (reference_det _ _ _ _ _ _ _ H1 H2 L1 L2 (GR _ g) (GR _ g')) as [-> ->]. auto.
  - destruct (enum_det any _ _ _ _ _ _ _ H1 H2 L1 L2 Logic.I Logic.I) as [-> ->]. auto.
Qed.
End Unique.

Theorem located_unique inp x y : located inp x -> located inp y -> x = y.
Proof.
  destruct x as [sp t l], y as [sp' t' l']. intros (E1 & E2 & m & L1 & H1) (E3 & E4 & m' & L2 & H2). cbn in *. rewrite (lay_fun _ _ _ L1 L2) in H1.
  destruct (det_many (top_at inp) top_follow (fun z => z = []) _ _ _ _ _ (top_det inp) H1 H2) as [_ ->]; auto.
  - intros i r z H. apply er_top in H as (a & H & _). apply block_first in H as (c & u & -> & Hc). split; [right; exists c, u; auto|discriminate].
  - intros z ->. left. reflexivity.
  - congruence.
Qed.
