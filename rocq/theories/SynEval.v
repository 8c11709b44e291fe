(** * SynEval: running grammar expressions, seen from the readers of [Syntax]. *)

From Verif Require Export Shape.
From Verif Require Export Syntax.

(** ** Layout is what [skip] drops *)
Definition fin (m : str) : str := snd (skipf NonAtomic m).
Lemma gap_to_iff r g : gap_to r g <-> gap g \/ (r = [] /\ gap_eof g).
Proof.
  split; [apply gap_to_cases|]. intros [H|[-> H]]; [apply gap_gap_to; exact H|apply gap_eof_to; exact H].
Qed.
Lemma lay_fin m r : lay m r <-> fin m = r.
Proof.
  unfold lay, fin. split.
  - intros (g & -> & Hg & Hn). apply gap_to_iff in Hg.
    rewrite (proj2 (skipf_spec (g ++ r) g r)); auto.
  - intros H. destruct (skipf NonAtomic m) as [g r'] eqn:E. cbn [snd] in H. subst r'.
    apply skipf_spec in E as (-> & Hg & Hn). exists g. split; [reflexivity|]. split; [apply gap_to_iff; exact Hg|exact Hn].
Qed.
Lemma lay_idem m r : lay m r -> fin r = r.
Proof.
  intros (g & -> & _ & Hn). unfold fin. rewrite (proj2 (skipf_spec r [] r)); [reflexivity|].
  split; [reflexivity|]. split; [constructor|exact Hn].
Qed.
Lemma fin_fin m : fin (fin m) = fin m.
Proof. eapply lay_idem. apply lay_fin. reflexivity. Qed.
Lemma lay_self r : fin r = r -> lay r r.
Proof. intros H. apply lay_fin. exact H. Qed.
Lemma lay_of m : lay m (fin m).
Proof. apply lay_fin. reflexivity. Qed.
Lemma fin_solid x : solid x -> fin x = x.
Proof. intros H. unfold fin. rewrite skipf_solid by exact H. reflexivity. Qed.
Lemma lay_solid x r : solid x -> lay x r -> r = x.
Proof. intros H Hl. apply lay_fin in Hl. rewrite fin_solid in Hl by exact H. congruence. Qed.

(** ** Outcomes of an expression *)
Definition F (e : pexp) (i r : str) (Q : list pair -> Prop) : Prop :=
  forall off, exists t m ps, eval skip e NonAtomic off i = ROk t m ps /\ lay m r /\ Q ps.
Definition E (e : pexp) (i m : str) (ps : list pair) : Prop :=
  exists off t, eval skip e NonAtomic off i = ROk t m ps.
Definition X (e : pexp) (i : str) : Prop := forall off, eval skip e NonAtomic off i = RFail.

Lemma F_impl e i r (Q Q' : list pair -> Prop) : (forall ps, Q ps -> Q' ps) -> F e i r Q -> F e i r Q'.
Proof. intros H HF off. destruct (HF off) as (t & m & ps & H1 & H2 & H3). eauto 7. Qed.
Lemma F_fin e i r Q : F e i r Q -> fin r = r.
Proof. intros H. destruct (H 0) as (t & m & ps & _ & H2 & _). eapply lay_idem; exact H2. Qed.
Lemma F_not_X e i r Q off : F e i r Q -> eval skip e NonAtomic off i = RFail -> False.
Proof. intros H E0. destruct (H off) as (t & m & ps & H1 & _). congruence. Qed.

Lemma skipf_fin m g i2 : skipf NonAtomic m = (g, i2) -> i2 = fin m.
Proof. intros H. unfold fin. rewrite H. reflexivity. Qed.

Lemma F_seq e1 e2 i m r (Q1 Q2 Q : list pair -> Prop) : F e1 i m Q1 -> (fin m = m -> F e2 m r Q2) ->
  (forall p1 p2, Q1 p1 -> Q2 p2 -> Q (p1 ++ p2)) -> F (ESeq e1 e2) i r Q.
Proof.
  intros H1 H2 HQ off. pose proof (H2 (F_fin _ _ _ _ H1)) as H2'. clear H2.
  destruct (H1 off) as (t1 & m1 & ps1 & E1 & L1 & q1).
  apply lay_fin in L1. destruct (skipf NonAtomic m1) as [g i2] eqn:Es. pose proof (skipf_fin _ _ _ Es) as Hi. rewrite L1 in Hi. subst i2.
  destruct (H2' (off + blen t1 + blen g)) as (t2 & m2 & ps2 & E2 & L2 & q2).
  exists (t1 ++ g ++ t2), m2, (ps1 ++ ps2). rewrite eval_seq, E1, Es, E2. auto.
Qed.
Lemma E_seq e1 e2 i m ps : E (ESeq e1 e2) i m ps ->
  exists m1 ps1 ps2, E e1 i m1 ps1 /\ E e2 (fin m1) m ps2 /\ ps = ps1 ++ ps2.
Proof.
  intros (off & t & H). rewrite eval_seq in H. destruct (eval skip e1 NonAtomic off i) as [t1 m1 ps1| |] eqn:E1; try discriminate.
  destruct (skipf NonAtomic m1) as [g i2] eqn:Es. pose proof (skipf_fin _ _ _ Es) as Hi. subst i2.
  destruct (eval skip e2 NonAtomic (off + blen t1 + blen g) (fin m1)) as [t2 m2 ps2| |] eqn:E2; try discriminate.
  injection H as <- <- <-. exists m1, ps1, ps2. unfold E. eauto 7.
Qed.
Lemma X_seq1 e1 e2 i : X e1 i -> X (ESeq e1 e2) i.
Proof. intros H off. rewrite eval_seq, H. reflexivity. Qed.
Lemma X_seq2 e1 e2 i m Q : F e1 i m Q -> X e2 m -> X (ESeq e1 e2) i.
Proof.
  intros H1 H2 off. destruct (H1 off) as (t1 & m1 & ps1 & E1 & L1 & _). rewrite eval_seq, E1.
  apply lay_fin in L1. destruct (skipf NonAtomic m1) as [g i2] eqn:Es. rewrite <- (skipf_fin _ _ _ Es) in L1. subst i2.
  rewrite H2. reflexivity.
Qed.

Lemma F_alt1 e1 e2 i r Q : F e1 i r Q -> F (EAlt e1 e2) i r Q.
Proof. intros H off. destruct (H off) as (t & m & ps & H1 & H2 & H3). exists t, m, ps. rewrite eval_alt, H1. auto. Qed.
Lemma F_alt2 e1 e2 i r Q : X e1 i -> F e2 i r Q -> F (EAlt e1 e2) i r Q.
Proof. intros Hx H off. destruct (H off) as (t & m & ps & H1 & H2 & H3). exists t, m, ps. rewrite eval_alt, Hx. auto. Qed.
Lemma E_alt e1 e2 i m ps : E (EAlt e1 e2) i m ps ->
  E e1 i m ps \/ (E e2 i m ps /\ exists off, eval skip e1 NonAtomic off i = RFail).
Proof.
  intros (off & t & H). rewrite eval_alt in H. destruct (eval skip e1 NonAtomic off i) as [t1 m1 ps1| |] eqn:E1; try discriminate.
  - left. unfold E. rewrite <- E1 in H. eauto.
  - right. unfold E. eauto.
Qed.
Lemma X_alt e1 e2 i : X e1 i -> X e2 i -> X (EAlt e1 e2) i.
Proof. intros H1 H2 off. rewrite eval_alt, H1. apply H2. Qed.

Lemma F_opt1 e i r Q : F e i r Q -> F (EOpt e) i r Q.
Proof. intros H off. destruct (H off) as (t & m & ps & H1 & H2 & H3). exists t, m, ps. rewrite eval_opt, H1. auto. Qed.
Lemma F_opt0 e i : X e i -> fin i = i -> F (EOpt e) i i (fun ps => ps = []).
Proof. intros Hx Hf off. exists [], i, []. rewrite eval_opt, Hx. split; [reflexivity|]. split; [apply lay_self; exact Hf|reflexivity]. Qed.
Lemma E_opt e i m ps : E (EOpt e) i m ps -> E e i m ps \/ (ps = [] /\ m = i /\ exists off, eval skip e NonAtomic off i = RFail).
Proof.
  intros (off & t & H). rewrite eval_opt in H. destruct (eval skip e NonAtomic off i) as [t1 m1 ps1| |] eqn:E1; try discriminate.
  - left. unfold E. rewrite <- E1 in H. eauto.
  - right. injection H as <- <- <-. eauto.
Qed.

(** One pair of the given rule. *)
Definition node (rl : rule) (Q : list pair -> Prop) (ps : list pair) : Prop :=
  exists p, ps = [p] /\ p_rule p = rl /\ Q (into_inner p).
Lemma F_rule rl b i r Q : F b i r Q -> F (N_ rl b) i r (node rl Q).
Proof.
  intros H off. destruct (H off) as (t & m & ps & H1 & H2 & H3). exists t, m, [Pair rl off (off + blen t) t ps].
  rewrite eval_normal, H1, emit_ok by discriminate. split; [reflexivity|]. split; [exact H2|].
  eexists. split; [reflexivity|]. split; [reflexivity|exact H3].
Qed.
Lemma E_rule rl b i m ps : E (N_ rl b) i m ps ->
  exists p, ps = [p] /\ p_rule p = rl /\ E b i m (into_inner p).
Proof.
  intros (off & t & H). rewrite eval_normal in H. destruct (eval skip b NonAtomic off i) as [t1 m1 ps1| |] eqn:E1; try discriminate.
  rewrite emit_ok in H by discriminate. injection H as <- <- <-. eexists. split; [reflexivity|]. split; [reflexivity|].
  cbn. unfold E. eauto.
Qed.
Lemma X_rule rl b i : X b i -> X (N_ rl b) i.
Proof. intros H off. rewrite eval_normal, H. reflexivity. Qed.
Lemma X_rule_inv rl b off i : eval skip (N_ rl b) NonAtomic off i = RFail -> eval skip b NonAtomic off i = RFail.
Proof. rewrite eval_normal. destruct (eval skip b NonAtomic off i); [discriminate|reflexivity|discriminate]. Qed.

(** ** Symbols *)
Lemma F_str w i r : tok w i r -> F (EStr w) i r (fun ps => ps = []).
Proof.
  intros (m & -> & Hl) off. exists w, m, []. rewrite eval_str, (proj2 (strip_prefix_spec w (w ++ m) m) eq_refl). auto.
Qed.
Lemma E_str w i m ps : E (EStr w) i m ps -> tok w i (fin m) /\ ps = [].
Proof.
  intros (off & t & H). rewrite eval_str in H. destruct (strip_prefix w i) as [m'|] eqn:Es; [|discriminate].
  injection H as <- <- <-. apply strip_prefix_spec in Es. split; [|reflexivity]. exists m'. split; [exact Es|apply lay_of].
Qed.
Lemma X_str w i : (forall m, i <> w ++ m) -> X (EStr w) i.
Proof.
  intros H off. rewrite eval_str. destruct (strip_prefix w i) as [m'|] eqn:Es; [|reflexivity].
  apply strip_prefix_spec in Es. destruct (H _ Es).
Qed.

(** ** Keywords *)
Lemma lower_same c d : lower c = lower d <-> same_letter d c.
Proof.
  unfold lower, same_letter. destruct (N.leb_spec 65 c), (N.leb_spec c 90), (N.leb_spec 65 d), (N.leb_spec d 90); cbn [andb]; lia.
Qed.
Lemma any_case_ci w k : any_case w k <-> ci_eq k w.
Proof.
  unfold any_case, ci_eq. revert k. induction w as [|c w IH]; intros [|d k]; cbn [map]; split; intros H; try (inversion H; fail); try constructor; try reflexivity.
  - inversion H as [|? ? ? ? H1 H2]; subst. f_equal; [apply lower_same; exact H1|apply IH; exact H2].
  - injection H as H1 H2. apply lower_same. exact H1.
  - injection H as H1 H2. apply IH. exact H2.
Qed.
Lemma F_kw k i r : kw k i r -> F (CI k) i r (fun ps => ps = []).
Proof.
  intros (w & m & -> & Hw & Hl) off. exists w, m, []. unfold CI. cbn [eval].
  rewrite (proj2 (strip_prefix_ci_spec (s k) (w ++ m) w m)); [auto|]. split; [reflexivity|apply any_case_ci; exact Hw].
Qed.
Lemma E_kw k i m ps : E (CI k) i m ps -> kw k i (fin m) /\ ps = [].
Proof.
  intros (off & t & H). unfold CI in H. cbn [eval] in H. destruct (strip_prefix_ci (s k) i) as [[w m']|] eqn:Es; [|discriminate].
  injection H as <- <- <-. apply strip_prefix_ci_spec in Es as [-> Hc]. split; [|reflexivity].
  exists w, m'. split; [reflexivity|]. split; [apply any_case_ci; exact Hc|apply lay_of].
Qed.
Lemma X_kw k i : (forall w m, i = w ++ m -> ~ any_case w (s k)) -> X (CI k) i.
Proof.
  intros H off. unfold CI. cbn [eval]. destruct (strip_prefix_ci (s k) i) as [[w m']|] eqn:Es; [|reflexivity].
  apply strip_prefix_ci_spec in Es as [-> Hc]. apply any_case_ci in Hc. destruct (H _ _ eq_refl Hc).
Qed.

(** ** Repetition *)
Inductive steps (e : pexp) : str -> str -> list pair -> Prop :=
| steps_nil i : steps e i i []
| steps_cons i m r ps1 ps2 : E e i m ps1 -> steps e (fin m) r ps2 -> steps e i r (ps1 ++ ps2).

Lemma bind_skip e off m : bind_res (do_skip skip NonAtomic m) off (eval skip e NonAtomic) =
  match eval skip e NonAtomic (off + blen (fst (skipf NonAtomic m))) (fin m) with
  | ROk t2 r2 p2 => ROk (fst (skipf NonAtomic m) ++ t2) r2 p2
  | RFail => RFail | RLoop => RLoop
  end.
Proof. rewrite do_skip_skipf. cbn [bind_res]. unfold fin. reflexivity. Qed.

Lemma E_rep e i m ps : fin i = i -> E (ERep e) i m ps -> steps e i (fin m) ps.
Proof.
  intros Hf (off & t & H).
  assert (HR : forall fuel off i t m ps,
     Peg.repeat (fun o i => bind_res (do_skip skip NonAtomic i) o (eval skip e NonAtomic)) fuel off i = ROk t m ps ->
     steps e (fin i) (fin m) ps).
  { clear. induction fuel as [|n IH]; intros off i t m ps H; cbn [Peg.repeat] in H; [discriminate|].
    rewrite bind_skip in H.
    destruct (eval skip e NonAtomic (off + blen (fst (skipf NonAtomic i))) (fin i)) as [t1 m1 ps1| |] eqn:E1.
    - match type of H with context [Peg.repeat ?f n ?o m1] => destruct (Peg.repeat f n o m1) as [t2 m2 ps2| |] eqn:E2 end; try discriminate.
      injection H as <- <- <-. eapply steps_cons; [unfold E; eauto|]. eapply IH. exact E2.
    - injection H as <- <- <-. constructor.
    - discriminate. }
  cbn [eval] in H. destruct (eval skip e NonAtomic off i) as [t1 m1 ps1| |] eqn:E1; try discriminate.
  - cbn [bind_res] in H.
    match type of H with context [Peg.repeat ?f ?n ?o m1] => destruct (Peg.repeat f n o m1) as [t2 m2 ps2| |] eqn:E2 end; try discriminate.
    injection H as <- <- <-. eapply steps_cons; [unfold E; eauto|]. eapply HR. exact E2.
  - injection H as <- <- <-. rewrite Hf. constructor.
Qed.


Definition one {A} (den : pair -> A -> Prop) (a : A) (ps : list pair) : Prop := exists p, ps = [p] /\ den p a.

Lemma many_follow {A} (R : reader A) (G : str -> Prop) i r l :
  (forall i m a, R i m a -> G i) -> many R i r l -> G r -> G i.
Proof. intros H Hm Hr. destruct Hm; [exact Hr|eapply H; eassumption]. Qed.

Lemma F_many {A} (R : reader A) e (den : pair -> A -> Prop) (G : str -> Prop) :
  loop_free (ERep e) = true ->
  (forall i m a, R i m a -> G m -> F e i m (one den a)) ->
  (forall i m a, R i m a -> G i) ->
  forall i r l, many R i r l -> G r -> X e r -> fin i = i -> F (ERep e) i r (fun ps => Forall2 den ps l).
Proof.
  intros Hlf HF HG.
  set (f := fun o i => bind_res (do_skip skip NonAtomic i) o (eval skip e NonAtomic)).
  assert (HR : forall i r l, many R i r l -> G r -> X e r -> forall fuel off i0, fin i0 = i ->
     Peg.repeat f fuel off i0 = RLoop \/
     exists t m ps, Peg.repeat f fuel off i0 = ROk t m ps /\ lay m r /\ Forall2 den ps l).
  { induction 1 as [i|i m r a l HRa Hm IH]; intros Hr Hx fuel off i0 Hi0; (destruct fuel as [|n]; [left; reflexivity|]);
      cbn [Peg.repeat]; (assert (Ef : f off i0 = bind_res (do_skip skip NonAtomic i0) off (eval skip e NonAtomic)) by reflexivity);
      rewrite bind_skip, Hi0 in Ef.
    - rewrite Hx in Ef. rewrite Ef. right. exists [], i0, []. split; [reflexivity|]. split; [apply lay_fin; exact Hi0|constructor].
    - assert (Gm : G m) by (eapply many_follow; eassumption).
      destruct (HF _ _ _ HRa Gm (off + blen (fst (skipf NonAtomic i0)))) as (t1 & m1 & ps1 & E1 & L1 & p & -> & Hd).
      rewrite E1 in Ef. rewrite Ef. apply lay_fin in L1.
      destruct (IH Hr Hx n (off + blen (fst (skipf NonAtomic i0) ++ t1)) m1 L1) as [->|(t2 & m2 & ps2 & -> & L2 & Hd2)]; [left; reflexivity|].
      right. eexists _, m2, _. split; [reflexivity|]. split; [exact L2|]. cbn [app]. constructor; assumption. }
  intros i r l Hm Hr Hx Hi off. pose proof (eval_noloop skip skip_app skip_noloop (ERep e) Hlf NonAtomic off i) as Hn.
  cbn [eval] in *. destruct Hm as [i|i m r a l HRa Hm].
  - rewrite Hx. exists [], i, []. split; [reflexivity|]. split; [apply lay_self; exact Hi|constructor].
  - assert (Gm : G m) by (eapply many_follow; eassumption).
    destruct (HF _ _ _ HRa Gm off) as (t1 & m1 & ps1 & E1 & L1 & p & -> & Hd). rewrite E1 in *. cbn [bind_res] in *.
    apply lay_fin in L1. fold f in Hn |- *.
    destruct (HR _ _ _ Hm Hr Hx (fuel_for m1) (off + blen t1) m1 L1) as [EL|(t2 & m2 & ps2 & EL & L2 & Hd2)]; rewrite EL in *; [congruence|].
    eexists _, m2, _. split; [reflexivity|]. split; [exact L2|]. cbn [app]. constructor; assumption.
Qed.

Lemma B_many {A} (R : reader A) e (den : pair -> A -> Prop) :
  (forall i m ps, E e i m ps -> exists a, R i (fin m) a /\ one den a ps) ->
  forall i m ps, fin i = i -> E (ERep e) i m ps -> exists l, many R i (fin m) l /\ Forall2 den ps l.
Proof.
  intros HB i m ps Hi HE. apply E_rep in HE; [|exact Hi]. revert HE. generalize (fin m). intros r HE.
  induction HE as [i|i m1 r ps1 ps2 H1 H2 IH].
  - exists []. split; constructor.
  - apply HB in H1 as (a & Ha & p & -> & Hd). destruct (IH (fin_fin _)) as (l & Hl & Hd2).
    exists (a :: l). split; [econstructor; eassumption|]. cbn [app]. constructor; assumption.
Qed.

(** [x ~ ("," ~ x)*] *)
Definition comma_then {A} (R : reader A) : reader A := fun i r a => exists m, tok (s ",") i m /\ R m r a.
Lemma commas_many {A} (R : reader A) i r l :
  commas R i r l <-> exists m a l', l = a :: l' /\ R i m a /\ many (comma_then R) m r l'.
Proof.
  split.
  - induction 1 as [i r a H|i m m' r a l H Ht Hc (m2 & a2 & l2 & -> & H2 & Hm)].
    + exists r, a, []. split; [reflexivity|]. split; [exact H|constructor].
    + exists m, a, (a2 :: l2). split; [reflexivity|]. split; [exact H|]. econstructor; [|exact Hm]. exists m'. auto.
  - intros (m & a & l' & -> & H & Hm). revert a i H. induction Hm as [m|m m2 r b l (m3 & Ht & Hb) Hm IH]; intros a i H.
    + constructor. exact H.
    + eapply commas_more; [exact H|exact Ht|]. apply IH. exact Hb.
Qed.
(** First and following characters. *)
Definition hd_in (P : char -> Prop) (i : str) : Prop := exists c x, i = c :: x /\ P c.
Definition nh (c : char) (i : str) : Prop := forall x, i <> c :: x.

Definition then_or (c1 c2 : char) (i : str) : Prop := exists c x, i = c :: x /\ (c = c1 \/ c = c2).

Definition comma_list (x : pexp) : pexp := ESeq x (ERep (ESeq (L ",") x)).
Lemma F_commas {A} (R : reader A) x (den : pair -> A -> Prop) cl :
  cl <> 44 -> loop_free (ERep (ESeq (L ",") x)) = true ->
  (forall i m a, R i m a -> then_or 44 cl m -> F x i m (one den a)) ->
  forall i r l, commas R i r l -> then_or cl cl r -> F (comma_list x) i r (fun ps => Forall2 den ps l).
Proof.
  intros Hcl Hlf HF i r l Hc Hr. apply commas_many in Hc as (m & a & l' & -> & Ha & Hm).
  destruct Hr as (c & x0 & -> & Hc). assert (c = cl) by tauto. subst c. clear Hc.
  assert (Hx : X (ESeq (L ",") x) (cl :: x0)).
  { apply X_seq1, X_str. intros m0 E0. injection E0 as E0 _. congruence. }
  assert (Gr : then_or 44 cl (cl :: x0)) by (unfold then_or; eauto).
  assert (Gi : forall i m a, comma_then R i m a -> then_or 44 cl i).
  { intros i0 m0 a0 (m1 & (m2 & -> & _) & _). exists 44, m2. auto. }
  eapply F_seq with (Q1 := one den a) (Q2 := fun ps => Forall2 den ps l').
  - apply HF; [exact Ha|]. eapply many_follow; eassumption.
  - intros Hfm. eapply (F_many (comma_then R) _ den (then_or 44 cl)); try eassumption.
    intros i0 m0 a0 (m1 & Ht & Ha0) Gm. eapply F_seq with (Q1 := fun ps => ps = []) (Q2 := one den a0).
    + apply F_str. exact Ht.
    + intros _. apply HF; assumption.
    + intros p1 p2 -> H. exact H.
  - intros p1 p2 (p & -> & Hd) H2. constructor; assumption.
Qed.
Lemma B_commas {A} (R : reader A) x (den : pair -> A -> Prop) :
  (forall i m ps, E x i m ps -> exists a, R i (fin m) a /\ one den a ps) ->
  forall i m ps, E (comma_list x) i m ps -> exists l, commas R i (fin m) l /\ Forall2 den ps l.
Proof.
  intros HB i m ps HE. apply E_seq in HE as (m1 & ps1 & ps2 & H1 & H2 & ->).
  apply HB in H1 as (a & Ha & p & -> & Hd).
  apply (B_many (comma_then R) (ESeq (L ",") x) den) in H2 as (l & Hl & Hd2); [|clear -HB|apply fin_fin].
  - exists (a :: l). split; [|constructor; assumption]. apply commas_many. eauto 7.
  - intros i m ps HE. apply E_seq in HE as (m1 & ps1 & ps2 & H1 & H2 & ->). apply E_str in H1 as (Ht & ->).
    apply HB in H2 as (a & Ha & Ho). exists a. split; [|exact Ho]. exists (fin m1). auto.
Qed.

(** [(x ~ ("," ~ x)* )?] before a closing symbol *)
Definition listed {A} (R : reader A) : reader (list A) := fun i r l => (l = [] /\ i = r) \/ commas R i r l.
Lemma F_listed {A} (R : reader A) x (den : pair -> A -> Prop) cl :
  cl <> 44 -> loop_free (ERep (ESeq (L ",") x)) = true ->
  (forall i m a, R i m a -> then_or 44 cl m -> F x i m (one den a)) ->
  (forall y, X x (cl :: y)) ->
  forall i r l, fin i = i -> listed R i r l -> then_or cl cl r -> F (EOpt (comma_list x)) i r (fun ps => Forall2 den ps l).
Proof.
  intros Hcl Hlf HF HX i r l Hi [[-> ->]|Hc] Hr.
  - eapply F_impl; [|apply F_opt0; [|exact Hi]].
    + intros ps ->. constructor.
    + destruct Hr as (c & y & -> & Hc). apply X_seq1. assert (c = cl) by tauto. subst c. apply HX.
  - apply F_opt1. eapply F_commas; eassumption.
Qed.
Lemma B_listed {A} (R : reader A) x (den : pair -> A -> Prop) :
  (forall i m ps, E x i m ps -> exists a, R i (fin m) a /\ one den a ps) ->
  forall i m ps, fin i = i -> E (EOpt (comma_list x)) i m ps -> exists l, listed R i (fin m) l /\ Forall2 den ps l.
Proof.
  intros HB i m ps Hi HE. apply E_opt in HE as [HE|(-> & -> & _)].
  - eapply B_commas in HE as (l & Hl & Hd); [|exact HB]. exists l. split; [right; exact Hl|exact Hd].
  - exists []. split; [left; auto|constructor].
Qed.
Lemma listed_bracket op cl {A} (R : reader A) i r l :
  bracket op cl R i r l <-> exists m m', tok (s op) i m /\ listed R m m' l /\ tok (s cl) m' r.
Proof.
  split.
  - intros [i' m r' H1 H2|i' m m' r' l' H1 H2 H3].
    + exists m, m. split; [exact H1|]. split; [left; auto|exact H2].
    + exists m, m'. split; [exact H1|]. split; [right; exact H2|exact H3].
  - intros (m & m' & H1 & [[-> ->]|H2] & H3); [econstructor; eassumption|eapply bracket_some; eassumption].
Qed.

Lemma F_bracketed {A} (R : reader A) x (den : pair -> A -> Prop) :
  loop_free (ERep (ESeq (L ",") x)) = true ->
  (forall i m a, R i m a -> then_or 44 93 m -> F x i m (one den a)) ->
  (forall y, X x (93 :: y)) ->
  forall i r l, bracket "[" "]" R i r l -> F (bracketed x) i r (fun ps => Forall2 den ps l).
Proof.
  intros Hlf HF HX i r l Hb. apply listed_bracket in Hb as (m & m' & H1 & H2 & H3). unfold bracketed.
  eapply F_seq with (Q1 := fun ps => ps = []) (Q2 := fun ps => Forall2 den ps l).
  - apply F_str. exact H1.
  - intros Hf. eapply F_seq with (Q1 := fun ps => Forall2 den ps l) (Q2 := fun ps => ps = []).
    + eapply (F_listed R x den 93); try eassumption; [discriminate|]. destruct H3 as (y & -> & _). exists 93, y. auto.
    + intros _. apply F_str. exact H3.
    + intros p1 p2 H ->. rewrite app_nil_r. exact H.
  - intros p1 p2 -> H. exact H.
Qed.
Lemma B_bracketed {A} (R : reader A) x (den : pair -> A -> Prop) :
  (forall i m ps, E x i m ps -> exists a, R i (fin m) a /\ one den a ps) ->
  forall i m ps, E (bracketed x) i m ps -> exists l, bracket "[" "]" R i (fin m) l /\ Forall2 den ps l.
Proof.
  intros HB i m ps HE. apply E_seq in HE as (m1 & ps1 & ps2 & H1 & H2 & ->). apply E_str in H1 as (Ht & ->).
  apply E_seq in H2 as (m2 & ps3 & ps4 & H2 & H3 & ->). apply E_str in H3 as (Ht2 & ->).
  eapply B_listed in H2 as (l & Hl & Hd); [|exact HB|apply fin_fin].
  exists l. rewrite app_nil_r. split; [|exact Hd]. apply listed_bracket. eauto.
Qed.
Lemma X_bracketed x i : nh 91 i -> X (bracketed x) i.
Proof. intros H. apply X_seq1, X_str. intros m E0. apply (H m). exact E0. Qed.

(** ["{" ~ x* ~ "}"] *)
Definition braced (x : pexp) : pexp := ESeq (L "{") (ESeq (ERep x) (L "}")).
Lemma F_braced {A} (R : reader A) x (den : pair -> A -> Prop) (G : str -> Prop) :
  loop_free (ERep x) = true ->
  (forall i m a, R i m a -> G m -> F x i m (one den a)) ->
  (forall i m a, R i m a -> G i) -> (forall y, G (125 :: y)) -> (forall y, X x (125 :: y)) ->
  forall i r l, braces R i r l -> F (braced x) i r (fun ps => Forall2 den ps l).
Proof.
  intros Hlf HF HG Gc HX i r l (m & m' & H1 & H2 & H3).
  eapply F_seq with (Q1 := fun ps => ps = []) (Q2 := fun ps => Forall2 den ps l).
  - apply F_str. exact H1.
  - intros Hf. eapply F_seq with (m := m') (Q1 := fun ps => Forall2 den ps l) (Q2 := fun ps => ps = []).
    + assert (Em : exists y, m' = 125 :: y) by (destruct H3 as (y & -> & _); eexists; reflexivity).
      destruct Em as (y & ->). apply (F_many R x den G Hlf HF HG); auto.
    + intros _. apply F_str. exact H3.
    + intros p1 p2 H ->. rewrite app_nil_r. exact H.
  - intros p1 p2 -> H. exact H.
Qed.
Lemma B_braced {A} (R : reader A) x (den : pair -> A -> Prop) :
  (forall i m ps, E x i m ps -> exists a, R i (fin m) a /\ one den a ps) ->
  forall i m ps, E (braced x) i m ps -> exists l, braces R i (fin m) l /\ Forall2 den ps l.
Proof.
  intros HB i m ps HE. apply E_seq in HE as (m1 & ps1 & ps2 & H1 & H2 & ->). apply E_str in H1 as (Ht & ->).
  apply E_seq in H2 as (m2 & ps3 & ps4 & H2 & H3 & ->). apply E_str in H3 as (Ht2 & ->).
  eapply B_many in H2 as (l & Hl & Hd); [|exact HB|apply fin_fin].
  exists l. rewrite app_nil_r. split; [|exact Hd]. exists (fin m1), (fin m2). auto.
Qed.

(** [x?] *)
Definition opt_den {A} (den : pair -> A -> Prop) (o : option A) (ps : list pair) : Prop :=
  match o with None => ps = [] | Some a => one den a ps end.
Lemma F_maybe {A} (R : reader A) x (den : pair -> A -> Prop) (G : str -> Prop) :
  (forall i m a, R i m a -> G m -> F x i m (one den a)) ->
  forall i r o, fin i = i -> maybe R i r o -> G r -> (o = None -> X x i) -> F (EOpt x) i r (opt_den den o).
Proof.
  intros HF i r o Hi Hm. revert Hi. destruct Hm as [i'|i' r' a Ha]; intros Hi Gr HX.
  - apply F_opt0; [apply HX; reflexivity|exact Hi].
  - apply F_opt1. apply HF; assumption.
Qed.
Lemma B_maybe {A} (R : reader A) x (den : pair -> A -> Prop) :
  (forall i m ps, E x i m ps -> exists a, R i (fin m) a /\ one den a ps) ->
  forall i m ps, fin i = i -> E (EOpt x) i m ps -> exists o, maybe R i (fin m) o /\ opt_den den o ps.
Proof.
  intros HB i m ps Hi HE. apply E_opt in HE as [HE|(-> & -> & _)].
  - apply HB in HE as (a & Ha & Hd). exists (Some a). split; [constructor; exact Ha|exact Hd].
  - exists None. rewrite Hi. split; constructor.
Qed.
