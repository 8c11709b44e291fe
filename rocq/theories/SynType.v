(** * SynType: column types, which are read without layout in between. *)

From Verif Require Export SynGram.

(** ** Outcomes in compound-atomic mode *)
Definition FC (e : pexp) (i m : str) (Q : list pair -> Prop) : Prop :=
  forall off, exists t ps, eval skip e CompoundAtomic off i = ROk t m ps /\ Q ps.
Definition EC (e : pexp) (i m : str) (ps : list pair) : Prop := exists off t, eval skip e CompoundAtomic off i = ROk t m ps.
Definition XC (e : pexp) (i : str) : Prop := forall off, eval skip e CompoundAtomic off i = RFail.

Lemma FC_impl e i m (Q Q' : list pair -> Prop) : (forall ps, Q ps -> Q' ps) -> FC e i m Q -> FC e i m Q'.
Proof. intros H HF off. destruct (HF off) as (t & ps & H1 & H3). eauto 7. Qed.
Lemma FC_seq e1 e2 i m r Q1 Q2 : FC e1 i m Q1 -> FC e2 m r Q2 -> FC (ESeq e1 e2) i r (cat Q1 Q2).
Proof.
  intros H1 H2 off. destruct (H1 off) as (t1 & ps1 & E1 & q1). destruct (H2 (off + blen t1 + blen [])) as (t2 & ps2 & E2 & q2).
  exists (t1 ++ t2), (ps1 ++ ps2). rewrite eval_seq, E1, skipf_compound, E2. split; [reflexivity|]. exists ps1, ps2. auto.
Qed.
Lemma EC_seq e1 e2 i r ps : EC (ESeq e1 e2) i r ps -> exists m ps1 ps2, EC e1 i m ps1 /\ EC e2 m r ps2 /\ ps = ps1 ++ ps2.
Proof.
  intros (off & t & H). rewrite eval_seq in H. destruct (eval skip e1 CompoundAtomic off i) as [t1 m1 ps1| |] eqn:E1; try discriminate.
  rewrite skipf_compound in H. destruct (eval skip e2 CompoundAtomic (off + blen t1 + blen []) m1) as [t2 m2 ps2| |] eqn:E2; try discriminate.
  injection H as <- <- <-. exists m1, ps1, ps2. unfold EC. eauto 7.
Qed.
Lemma XC_seq1 e1 e2 i : XC e1 i -> XC (ESeq e1 e2) i.
Proof. intros H off. rewrite eval_seq, H. reflexivity. Qed.
Lemma XC_seq2 e1 e2 i m Q : FC e1 i m Q -> XC e2 m -> XC (ESeq e1 e2) i.
Proof. intros H1 H2 off. destruct (H1 off) as (t1 & ps1 & E1 & _). rewrite eval_seq, E1, skipf_compound, H2. reflexivity. Qed.
Lemma FC_alt1 e1 e2 i m Q : FC e1 i m Q -> FC (EAlt e1 e2) i m Q.
Proof. intros H off. destruct (H off) as (t & ps & H1 & H3). exists t, ps. rewrite eval_alt, H1. auto. Qed.
Lemma FC_alt2 e1 e2 i m Q : XC e1 i -> FC e2 i m Q -> FC (EAlt e1 e2) i m Q.
Proof. intros Hx H off. destruct (H off) as (t & ps & H1 & H3). exists t, ps. rewrite eval_alt, Hx. auto. Qed.
Lemma EC_alt e1 e2 i m ps : EC (EAlt e1 e2) i m ps -> EC e1 i m ps \/ (EC e2 i m ps /\ exists off, eval skip e1 CompoundAtomic off i = RFail).
Proof.
  intros (off & t & H). rewrite eval_alt in H. destruct (eval skip e1 CompoundAtomic off i) as [t1 m1 ps1| |] eqn:E1; try discriminate.
  - left. unfold EC. rewrite <- E1 in H. eauto.
  - right. unfold EC. eauto.
Qed.
Lemma XC_alt e1 e2 i : XC e1 i -> XC e2 i -> XC (EAlt e1 e2) i.
Proof. intros H1 H2 off. rewrite eval_alt, H1. apply H2. Qed.
Lemma FC_opt1 e i m Q : FC e i m Q -> FC (EOpt e) i m Q.
Proof. intros H off. destruct (H off) as (t & ps & H1 & H3). exists t, ps. rewrite eval_opt, H1. auto. Qed.
Lemma FC_opt0 e i : XC e i -> FC (EOpt e) i i none.
Proof. intros Hx off. exists [], []. rewrite eval_opt, Hx. split; reflexivity. Qed.
Lemma EC_opt e i m ps : EC (EOpt e) i m ps -> EC e i m ps \/ (ps = [] /\ m = i /\ exists off, eval skip e CompoundAtomic off i = RFail).
Proof.
  intros (off & t & H). rewrite eval_opt in H. destruct (eval skip e CompoundAtomic off i) as [t1 m1 ps1| |] eqn:E1; try discriminate.
  - left. unfold EC. rewrite <- E1 in H. eauto.
  - right. injection H as <- <- <-. eauto.
Qed.
Lemma FC_str w m : FC (EStr w) (w ++ m) m none.
Proof. intros off. exists w, []. rewrite eval_str, (proj2 (strip_prefix_spec w (w ++ m) m) eq_refl). split; reflexivity. Qed.
Lemma EC_str w i m ps : EC (EStr w) i m ps -> i = w ++ m /\ ps = [].
Proof.
  intros (off & t & H). rewrite eval_str in H. destruct (strip_prefix w i) as [m'|] eqn:Es; [|discriminate].
  injection H as <- <- <-. apply strip_prefix_spec in Es. auto.
Qed.
Lemma XC_str w i : (forall m, i <> w ++ m) -> XC (EStr w) i.
Proof. intros H off. rewrite eval_str, starts_none by exact H. reflexivity. Qed.
Lemma FC_rule rl b i m Q {A} (den : pair -> A -> Prop) a : FC b i m Q -> (forall p, p_rule p = rl -> Q (into_inner p) -> den p a) ->
  FC (N_ rl b) i m (one den a).
Proof.
  intros H HQ off. destruct (H off) as (t & ps & H1 & H3). exists t, [Pair rl off (off + blen t) t ps].
  rewrite eval_normal, H1, emit_ok by discriminate. split; [reflexivity|]. eexists. split; [reflexivity|]. apply HQ; [reflexivity|exact H3].
Qed.
Lemma EC_rule rl b i m ps : EC (N_ rl b) i m ps -> exists p, ps = [p] /\ p_rule p = rl /\ EC b i m (into_inner p).
Proof.
  intros (off & t & H). rewrite eval_normal in H. destruct (eval skip b CompoundAtomic off i) as [t1 m1 ps1| |] eqn:E1; try discriminate.
  rewrite emit_ok in H by discriminate. injection H as <- <- <-. eexists. split; [reflexivity|]. split; [reflexivity|].
  cbn. unfold EC. eauto.
Qed.
Lemma XC_rule rl b i : XC b i -> XC (N_ rl b) i.
Proof. intros H off. rewrite eval_normal, H. reflexivity. Qed.
Lemma FC_comp rl b i m Q {A} (den : pair -> A -> Prop) a : FC b i m Q -> (forall p, p_rule p = rl -> Q (into_inner p) -> den p a) ->
  FC (C_ rl b) i m (one den a).
Proof.
  intros H HQ off. destruct (H off) as (t & ps & H1 & H3). exists t, [Pair rl off (off + blen t) t ps].
  rewrite eval_compound, H1, emit_ok by discriminate. split; [reflexivity|]. eexists. split; [reflexivity|]. apply HQ; [reflexivity|exact H3].
Qed.
Lemma EC_comp rl b i m ps : EC (C_ rl b) i m ps -> exists p, ps = [p] /\ p_rule p = rl /\ EC b i m (into_inner p).
Proof.
  intros (off & t & H). rewrite eval_compound in H. destruct (eval skip b CompoundAtomic off i) as [t1 m1 ps1| |] eqn:E1; try discriminate.
  rewrite emit_ok in H by discriminate. injection H as <- <- <-. eexists. split; [reflexivity|]. split; [reflexivity|].
  cbn. unfold EC. eauto.
Qed.
Lemma XC_comp rl b i : XC b i -> XC (C_ rl b) i.
Proof. intros H off. rewrite eval_compound, H. reflexivity. Qed.
Lemma FC_tok x m r e Q : FC e m r Q -> FC (ESeq (EStr x) e) (x ++ m) r Q.
Proof.
  intros H. eapply FC_impl; [|eapply FC_seq; [apply FC_str|exact H]]. intros ps (p1 & p2 & -> & -> & Hq). exact Hq.
Qed.
Lemma FC_end x i m e Q : FC e i (x ++ m) Q -> FC (ESeq e (EStr x)) i m Q.
Proof.
  intros H. eapply FC_impl; [|eapply FC_seq; [exact H|apply FC_str]]. intros ps (p1 & p2 & -> & Hq & ->). rewrite app_nil_r. exact Hq.
Qed.
Lemma EC_tok x e i m ps : EC (ESeq (EStr x) e) i m ps -> exists i', i = x ++ i' /\ EC e i' m ps.
Proof. intros H. apply EC_seq in H as (m1 & ps1 & ps2 & H1 & H2 & ->). apply EC_str in H1 as (-> & ->). exists m1. auto. Qed.
Lemma EC_end x e i m ps : EC (ESeq e (EStr x)) i m ps -> EC e i (x ++ m) ps.
Proof. intros H. apply EC_seq in H as (m1 & ps1 & ps2 & H1 & H2 & ->). apply EC_str in H2 as (-> & ->). rewrite app_nil_r. exact H1. Qed.

(** ** Repetition: items of text, one after the other *)
Inductive texts {A} (T : str -> A -> Prop) : str -> list A -> Prop :=
| texts_nil : texts T [] []
| texts_cons t a ts l : T t a -> texts T ts l -> texts T (t ++ ts) (a :: l).

Lemma FC_rep {A} (T : str -> A -> Prop) e (den : pair -> A -> Prop) (G : str -> Prop) : loop_free (ERep e) = true ->
  (forall t a m, T t a -> G m -> FC e (t ++ m) m (one den a)) -> (forall t a m, T t a -> G (t ++ m)) ->
  forall t l m, texts T t l -> G m -> XC e m -> FC (ERep e) (t ++ m) m (fun ps => Forall2 den ps l).
Proof.
  intros Hlf HF HG t l m Ht Gm Hx off.
  pose proof (eval_noloop skip skip_app skip_noloop (ERep e) Hlf CompoundAtomic off (t ++ m)) as Hn. cbn [eval] in *.
  assert (HR : forall fuel off, Peg.repeat (eval skip e CompoundAtomic) fuel off (t ++ m) = RLoop \/
     exists t' ps, Peg.repeat (eval skip e CompoundAtomic) fuel off (t ++ m) = ROk t' m ps /\ Forall2 den ps l).
  { clear off Hn. induction Ht as [|t a ts l Ha Ht IH]; intros [|n] off; cbn [Peg.repeat]; auto.
    - right. exists [], []. cbn [app]. rewrite Hx. split; [reflexivity|constructor].
    - rewrite <- app_assoc. assert (G' : G (ts ++ m)) by (destruct Ht; [exact Gm|rewrite <- app_assoc; eapply HG; eassumption]).
      destruct (HF t a (ts ++ m) Ha G' off) as (t1 & ps1 & E1 & p & -> & Hd). rewrite E1.
      destruct (IH n (off + blen t1)) as [->|(t2 & ps2 & -> & Hd2)]; [left; reflexivity|].
      right. eexists _, _. split; [reflexivity|]. constructor; assumption. }
  destruct (HR (fuel_for (t ++ m)) off) as [E0|(t' & ps & E0 & Hd)]; [congruence|]. eauto.
Qed.
Lemma EC_rep {A} (T : str -> A -> Prop) e (den : pair -> A -> Prop) :
  (forall i m ps, EC e i m ps -> exists t a, i = t ++ m /\ T t a /\ one den a ps) ->
  forall i m ps, EC (ERep e) i m ps -> exists t l, i = t ++ m /\ texts T t l /\ Forall2 den ps l /\
    exists off, eval skip e CompoundAtomic off m = RFail.
Proof.
  intros HB i m ps (off & t & H). cbn [eval] in H. revert H. generalize (fuel_for i) as fuel.
  intros fuel. revert off i t ps. induction fuel as [|n IH]; intros off i t ps H; cbn [Peg.repeat] in H; [discriminate|].
  destruct (eval skip e CompoundAtomic off i) as [t1 m1 ps1| |] eqn:E1; try discriminate.
  - destruct (Peg.repeat (eval skip e CompoundAtomic) n (off + blen t1) m1) as [t2 m2 ps2| |] eqn:E2; try discriminate.
    injection H as <- <- <-. apply IH in E2 as (ts & l & -> & Hts & Hd & Hx).
    destruct (HB i (ts ++ m2) ps1) as (tt & a & -> & Ha & p & -> & Hp); [unfold EC; eauto|].
    exists (tt ++ ts), (a :: l). rewrite app_assoc. split; [reflexivity|]. split; [constructor; assumption|]. split; [constructor; assumption|exact Hx].
  - injection H as <- <- <-. exists [], []. split; [reflexivity|]. split; [constructor|]. split; [constructor|eauto].
Qed.

(** ** Leaves *)
Lemma FC_leaf e rl i w m : (forall off, eval skip e CompoundAtomic off i = emit CompoundAtomic rl off (ROk w m [])) -> FC e i m (one (d_leaf rl) w).
Proof. intros H off. rewrite H. cbn [emit]. eexists _, _. split; [reflexivity|]. eexists. split; [reflexivity|]. split; reflexivity. Qed.
Lemma EC_leaf rl off w m ps off' t : emit CompoundAtomic rl off (ROk w m []) = ROk t off' ps -> one (d_leaf rl) w ps.
Proof. cbn [emit]. intros H. injection H as <- <- <-. eexists. split; [reflexivity|]. split; reflexivity. Qed.
Lemma FC_quoted rs rv q raw v m : quote_ok q -> quoted_verbatim q raw v -> FC (quoted_rule rs rv q) (raw ++ m) m (one (d_quoted rs rv) v).
Proof.
  intros [Hq Hs] [-> Hc] off. rewrite eval_quoted by (assumption || discriminate). rewrite <- !app_assoc.
  rewrite (proj2 (strip_prefix_spec q (q ++ v ++ q ++ m) (v ++ q ++ m)) eq_refl), skipf_compound.
  destruct (close_before q v m Hq Hc) as [-> ->]. rewrite (proj2 (strip_prefix_spec q (q ++ m) m) eq_refl). cbv zeta.
  eexists _, _. split; [reflexivity|]. eexists. split; [reflexivity|]. split; [reflexivity|].
  eexists. split; [reflexivity|]. split; reflexivity.
Qed.
Lemma EC_quoted rs rv q i m ps : quote_ok q -> EC (quoted_rule rs rv q) i m ps ->
  exists raw v, i = raw ++ m /\ quoted_verbatim q raw v /\ one (d_quoted rs rv) v ps.
Proof.
  intros [Hq Hs] (off & t & H). rewrite eval_quoted in H by (assumption || discriminate).
  destruct (strip_prefix q i) as [i'|] eqn:E1; [|discriminate]. apply strip_prefix_spec in E1 as ->. rewrite skipf_compound in H.
  destruct (strip_prefix q (after (starts q) i')) as [r|] eqn:E2; [|discriminate]. cbv zeta in H. apply strip_prefix_spec in E2.
  assert (Er : r = m) by congruence. subst r.
  match type of H with ROk _ _ ?l = ROk _ _ _ => assert (Eps : l = ps) by congruence end. clear H. subst ps.
  exists (q ++ before (starts q) i' ++ q), (before (starts q) i'). split.
  - rewrite <- !app_assoc, <- E2, before_after. reflexivity.
  - split; [split; [reflexivity|eapply closes_first_before; eassumption]|].
    eexists. split; [reflexivity|]. split; [reflexivity|]. eexists. split; [reflexivity|]. split; reflexivity.
Qed.
Lemma XC_quoted rs rv q i : (forall x, i <> q ++ x) -> XC (quoted_rule rs rv q) i.
Proof. intros H. apply XC_rule, XC_seq1, XC_str. exact H. Qed.

(** ** Values *)
Lemma XC_string i : nh 39 i -> XC string_value i.
Proof.
  intros H. apply XC_rule, XC_alt; [rewrite tqs_rule|rewrite sqs_rule]; apply XC_quoted; intros x E0; eapply H; exact E0.
Qed.
Lemma XC_bqs i : nh 96 i -> XC backquoted_quoted_string i.
Proof. intros H. rewrite bqs_rule. apply XC_quoted. intros x E0; eapply H; exact E0. Qed.
Lemma XC_bool_first i : (forall c x, i = c :: x -> c <> 116 /\ c <> 102 /\ c <> 110) -> XC boolean_value i.
Proof.
  intros H off. apply eval_bool_fail. intros k x Hk ->. cbn [In] in Hk.
  destruct Hk as [<-|[<-|[<-|[]]]]; edestruct H as (H1 & H2 & H3); try reflexivity; (destruct (H1 eq_refl) || destruct (H2 eq_refl) || destruct (H3 eq_refl)).
Qed.
Lemma XC_number i : (forall c x, i = c :: x -> ~ digit c) -> XC number_value i.
Proof. intros H. apply XC_rule, XC_alt; intros off; apply (eval_num_fail CompoundAtomic off i H). Qed.

Definition arg_follow (m : str) : Prop := then_or 44 41 m.
Lemma sq_not_triple v m : closes_first sq v -> nh 39 m -> forall x, (sq ++ v ++ sq) ++ m <> tq ++ x.
Proof.
  intros Hc Hm x E0. cbn [app tq sq] in E0. injection E0 as E0. destruct v as [|c v].
  - cbn [app] in E0. injection E0 as ->. apply (Hm x eq_refl).
  - cbn [app] in E0. injection E0 as -> E0. specialize (Hc [] (v ++ sq) eq_refl). destruct v; discriminate.
Qed.
Lemma digit_num_pre i d m : digits d -> i = d ++ m -> XC (EAlt (EAlt string_value backquoted_quoted_string) boolean_value) i.
Proof.
  intros Hd ->. destruct d as [|c d]; [destruct Hd; congruence|]. destruct Hd as [_ Hd]. apply Forall_cons_iff in Hd as [Hc _].
  unfold digit in Hc. cbn [app].
  apply XC_alt; [apply XC_alt; [apply XC_string|apply XC_bqs]; apply nh_cons; lia|].
  apply XC_bool_first. intros c0 x [= <- <-]. lia.
Qed.
Lemma FC_arg raw v m : arg_text raw v -> arg_follow m -> FC value (raw ++ m) m (one d_value v).
Proof.
  intros Ha Hm. assert (H39 : nh 39 m) by (eapply nh_then; [exact Hm| |]; discriminate).
  assert (Hnd : no_digit m). { destruct Hm as (c & x & -> & Hc). intros c0 m0 [= <- _]. unfold digit. lia. }
  assert (Hnx : forall h' m', m = h' ++ m' -> List.length h' = 3%nat -> ~ Forall hex_digit h').
  { destruct Hm as (c & x & -> & Hc). intros h' m' E0 Hl Hh. destruct h' as [|c0 h']; [discriminate|]. injection E0 as <- _.
    apply Forall_cons_iff in Hh as [Hh _]. unfold hex_digit, digit in Hh. lia. }
  eapply FC_rule with (Q := one d_lit v); [|intros p Hp (q & Hq & Hd); split; [exact Hp|]; exists q; split; [exact Hq|exact Hd]].
  destruct Ha as [raw v Hq|raw v Hq|raw v Hq|d Hd|d1 d2 f H1 H2 Hf| | | |h Hh Hl].
  - apply FC_alt1, FC_alt1, FC_alt1, FC_alt1. eapply FC_impl with (Q := one d_string v).
    { intros ps (p & -> & Hd). exists p. split; [reflexivity|]. left. eauto. }
    eapply FC_rule; [apply FC_alt2; [|rewrite sqs_rule; apply FC_quoted; [apply ok_sq|exact Hq]]|].
    + rewrite tqs_rule. apply XC_quoted. destruct Hq as [-> Hc]. apply sq_not_triple; assumption.
    + intros p Hp (q & Hi & Hd). split; [exact Hp|]. exists q. auto.
  - apply FC_alt1, FC_alt1, FC_alt1, FC_alt1. eapply FC_impl with (Q := one d_string v).
    { intros ps (p & -> & Hd). exists p. split; [reflexivity|]. left. eauto. }
    eapply FC_rule; [apply FC_alt1; rewrite tqs_rule; apply FC_quoted; [apply ok_tq|exact Hq]|].
    intros p Hp (q & Hi & Hd). split; [exact Hp|]. exists q. auto.
  - apply FC_alt1, FC_alt1, FC_alt1, FC_alt2; [destruct Hq as [-> _]; apply XC_string, nh_cons; discriminate|].
    eapply FC_impl with (Q := one d_bqs v).
    { intros ps (p & -> & Hd). exists p. split; [reflexivity|]. right. left. eauto. }
    rewrite bqs_rule. apply FC_quoted; [apply ok_bq|exact Hq].
  - apply FC_alt1, FC_alt2; [eapply digit_num_pre; [exact Hd|reflexivity]|].
    eapply FC_impl with (Q := one d_number (VInteger (Z.of_N (digits_value 0 d)))).
    { intros ps (p & -> & Hdn). exists p. split; [reflexivity|]. right. right. right. left. exact Hdn. }
    eapply FC_rule; [apply FC_alt2; [|eapply FC_leaf; intros off; apply eval_int_ok; assumption]|].
    + intros off. apply eval_dec_fail; try assumption. intros m' ->. destruct Hm as (c & x & E0 & Hc). injection E0 as <- _. destruct Hc; discriminate.
    + intros p Hp (q & Hi & Hdn). split; [exact Hp|]. exists q. split; [exact Hi|]. left. eauto.
  - apply DecOk.decimal_eq in Hf; [subst f|apply H1|exact H2]. apply FC_alt1, FC_alt2; [rewrite <- app_assoc; eapply digit_num_pre; [exact H1|reflexivity]|].
    eapply FC_impl with (Q := one d_number (VDecimal (f64_of_lit (d1 ++ s "." ++ d2)))).
    { intros ps (p & -> & Hdn). exists p. split; [reflexivity|]. right. right. right. left. exact Hdn. }
    eapply FC_rule; [apply FC_alt1; eapply FC_leaf; intros off; rewrite <- !app_assoc; apply eval_dec_ok; assumption|].
    intros p Hp (q & Hi & Hdn). split; [exact Hp|]. exists q. split; [exact Hi|]. right. eauto.
  - apply FC_alt1, FC_alt1, FC_alt2; [apply XC_alt; [apply XC_string|apply XC_bqs]; apply nh_cons; discriminate|].
    eapply FC_impl with (Q := one (d_leaf R_boolean_value) (s "true")).
    { intros ps (p & -> & Hd). exists p. split; [reflexivity|]. right. right. left. exists (s "true"). split; [exact Hd|]. left. auto. }
    apply FC_leaf. intros off. eapply eval_bool_ok. left. auto.
  - apply FC_alt1, FC_alt1, FC_alt2; [apply XC_alt; [apply XC_string|apply XC_bqs]; apply nh_cons; discriminate|].
    eapply FC_impl with (Q := one (d_leaf R_boolean_value) (s "false")).
    { intros ps (p & -> & Hd). exists p. split; [reflexivity|]. right. right. left. exists (s "false"). split; [exact Hd|]. right. left. auto. }
    apply FC_leaf. intros off. eapply eval_bool_ok. right. left. auto.
  - apply FC_alt1, FC_alt1, FC_alt2; [apply XC_alt; [apply XC_string|apply XC_bqs]; apply nh_cons; discriminate|].
    eapply FC_impl with (Q := one (d_leaf R_boolean_value) (s "null")).
    { intros ps (p & -> & Hd). exists p. split; [reflexivity|]. right. right. left. exists (s "null"). split; [exact Hd|]. right. right. auto. }
    apply FC_leaf. intros off. eapply eval_bool_ok. right. right. auto.
  - apply FC_alt2.
    + change ((s "#" ++ h) ++ m) with (35 :: h ++ m). apply XC_alt; [apply XC_alt; [apply XC_alt; [apply XC_string|apply XC_bqs]; apply nh_cons; lia|]|].
      * apply XC_bool_first. intros c0 x [= <- <-]. lia.
      * apply XC_number. intros c x [= <- <-]. unfold digit. lia.
    + eapply FC_impl with (Q := one (d_leaf R_hex_value) (s "#" ++ h)).
      { intros ps (p & -> & Hd). exists p. split; [reflexivity|]. right. right. right. right. eauto. }
      apply FC_leaf. intros off. rewrite <- app_assoc. apply eval_hex_ok; [exact Hh|]. destruct Hl as [Hl|Hl]; [right; auto|left; exact Hl].
Qed.
Lemma EC_arg i m ps : EC value i m ps -> exists raw v, i = raw ++ m /\ arg_text raw v /\ one d_value v ps.
Proof.
  intros H. apply EC_rule in H as (p & -> & Hp & H).
  assert (Hex : exists raw v q, i = raw ++ m /\ arg_text raw v /\ into_inner p = [q] /\ d_lit q v).
  { apply EC_alt in H as [H|[H _]]; [apply EC_alt in H as [H|[H _]]; [apply EC_alt in H as [H|[H _]]; [apply EC_alt in H as [H|[H _]]|]|]|].
    - apply EC_rule in H as (q & Hq & Hr & H). apply EC_alt in H as [H|[H _]].
      + rewrite tqs_rule in H. apply EC_quoted in H as (raw & v & -> & Hv & x & Hx & Hd); [|apply ok_tq]. exists raw, (VString v), q.
        split; [reflexivity|]. split; [apply ag_triple; exact Hv|]. split; [exact Hq|]. left. exists v. split; [|reflexivity]. split; [exact Hr|]. eauto.
      + rewrite sqs_rule in H. apply EC_quoted in H as (raw & v & -> & Hv & x & Hx & Hd); [|apply ok_sq]. exists raw, (VString v), q.
        split; [reflexivity|]. split; [apply ag_single; exact Hv|]. split; [exact Hq|]. left. exists v. split; [|reflexivity]. split; [exact Hr|]. eauto.
    - rewrite bqs_rule in H. apply EC_quoted in H as (raw & v & -> & Hv & q & Hq & Hd); [|apply ok_bq]. exists raw, (VExpr v), q.
      split; [reflexivity|]. split; [apply ag_expr; exact Hv|]. split; [exact Hq|]. right. left. eauto.
    - destruct H as (off & t & H). apply eval_bool_inv in H as (w & v & -> & Hb & He). apply EC_leaf in He as (q & Hq & Hd).
      exists w, v, q. split; [reflexivity|]. split; [|split; [exact Hq|right; right; left; eauto]].
      destruct Hb as [[-> ->]|[[-> ->]|[-> ->]]]; constructor.
    - apply EC_rule in H as (q & Hq & Hr & H). apply EC_alt in H as [H|[H (off & Hf)]].
      + destruct H as (off & t & H). apply eval_dec_inv in H as (d1 & d2 & -> & H1 & H2 & Hm & He).
        apply EC_leaf in He as (x & Hx & Hd). exists (d1 ++ s "." ++ d2). eexists _, q. split; [rewrite <- !app_assoc; reflexivity|].
        split; [apply ag_dec; [assumption|assumption|apply DecOk.decimal_ok; [apply H1|exact H2]]|].
        split; [exact Hq|]. right. right. right. left. split; [exact Hr|]. exists x. split; [exact Hx|]. right. eauto.
      + destruct H as (off' & t & H). apply eval_int_inv in H as (d & -> & H1 & Hm & He).
        apply EC_leaf in He as (x & Hx & Hd). exists d. eexists _, q. split; [reflexivity|]. split; [apply ag_int; assumption|].
        split; [exact Hq|]. right. right. right. left. split; [exact Hr|]. exists x. split; [exact Hx|]. left. eauto.
    - destruct H as (off & t & H). apply eval_hex_inv in H as (h & -> & Hh & Hen & He). apply EC_leaf in He as (q & Hq & Hd).
      exists (s "#" ++ h). eexists _, q. split; [rewrite <- app_assoc; reflexivity|]. split; [|split; [exact Hq|right; right; right; right; eauto]].
      apply ag_hex; [exact Hh|]. destruct Hen as [Hlen|[Hlen Hn]]; auto. }
  destruct Hex as (raw & v & q & -> & Hv & Hq & Hd). exists raw, v. split; [reflexivity|]. split; [exact Hv|]. exists p. split; [reflexivity|]. split; [exact Hp|]. eauto.
Qed.
Lemma arg_first raw v : arg_text raw v -> hd_in value_start raw.
Proof.
  unfold value_start. intros [? ? [-> _]|? ? [-> _]|? ? [-> _]|d [Hn Hd]|d1 d2 f [Hn Hd] H2 Hf| | | |h Hh Hl]; try (eexists _, _; split; [reflexivity|]; auto 8; fail).
  - destruct d as [|c d]; [congruence|]. apply Forall_cons_iff in Hd as [Hc _]. exists c, d. auto 8.
  - destruct d1 as [|c d]; [congruence|]. apply Forall_cons_iff in Hd as [Hc _]. exists c. eexists. split; [reflexivity|]. auto 8.
Qed.

(** ** Arguments *)
Definition d_args (p : pair) (l : list value_t) : Prop := p_rule p = R_col_type_arg /\ Forall2 d_value (into_inner p) l.
Definition comma_arg (t : str) (v : value_t) : Prop := exists raw, t = s "," ++ raw /\ arg_text raw v.
Lemma join_texts raws l : Forall2 arg_text raws l -> raws <> [] ->
  exists raw v raws' l' t, raws = raw :: raws' /\ l = v :: l' /\ join (s ",") raws = raw ++ t /\ arg_text raw v /\ texts comma_arg t l'.
Proof.
  induction 1 as [|raw v raws l Hv Hl IH]; [congruence|]. intros _. destruct Hl as [|r2 v2 raws l Hv2 Hl].
  - exists raw, v, [], [], []. rewrite app_nil_r. cbn [join]. repeat (split; [reflexivity || exact Hv|]). constructor.
  - destruct IH as (r' & v' & rs' & l' & t & [= <- <-] & [= <- <-] & Hj & Hr & Ht); [discriminate|].
    exists raw, v, (r2 :: raws), (v2 :: l), (s "," ++ r2 ++ t). split; [reflexivity|]. split; [reflexivity|]. split.
    + cbn [join]. cbn [join] in Hj. rewrite Hj. reflexivity.
    + split; [exact Hv|]. rewrite app_assoc. constructor; [exists r2; auto|exact Ht].
Qed.
Lemma texts_join t l raw v : texts comma_arg t l -> arg_text raw v ->
  exists raws, Forall2 arg_text raws (v :: l) /\ raw ++ t = join (s ",") raws.
Proof.
  intros Ht. revert raw v. induction Ht as [|t a ts l (r & -> & Ha) Hts IH]; intros raw v Hv.
  - exists [raw]. split; [constructor; [exact Hv|constructor]|]. rewrite app_nil_r. reflexivity.
  - destruct (IH r a Ha) as (raws & HF & Hj). exists (raw :: raws). split; [constructor; assumption|].
    destruct raws as [|r2 raws]; [inversion HF|]. cbn [join]. cbn [join] in Hj. rewrite <- Hj, <- !app_assoc. reflexivity.
Qed.
Lemma XC_value i : (forall c x, i = c :: x -> ~ value_start c) -> XC value i.
Proof.
  intros H. apply XC_rule. repeat apply XC_alt.
  - apply XC_string. intros x ->. apply (H _ _ eq_refl). unfold value_start. auto.
  - apply XC_bqs. intros x ->. apply (H _ _ eq_refl). unfold value_start. auto.
  - apply XC_bool_first. intros c x ->. pose proof (H _ _ eq_refl) as Hc. unfold value_start in Hc. tauto.
  - apply XC_number. intros c x -> Hd. apply (H _ _ eq_refl). unfold value_start. auto 8.
  - intros off. apply eval_hex_fail. intros x ->. apply (H _ _ eq_refl). unfold value_start. auto 8.
Qed.
Lemma follow_close m : arg_follow (s ")" ++ m).
Proof. exists 41, m. auto. Qed.
Lemma FC_args l raws m : Forall2 arg_text raws l -> FC col_type_arg ((s "(" ++ join (s ",") raws ++ s ")") ++ m) m (one d_args l).
Proof.
  intros HF. rewrite <- !app_assoc. eapply FC_rule with (Q := fun ps => Forall2 d_value ps l); [|intros p Hp H; split; assumption].
  apply FC_tok. destruct raws as [|r raws].
  - inversion HF; subst. cbn [join app]. eapply FC_impl; [|eapply FC_seq; [apply FC_opt0|apply (FC_str (s ")"))]].
    + intros ps (p1 & p2 & -> & -> & ->). constructor.
    + apply XC_seq1, XC_value. intros c x [= <- _]. unfold value_start, digit. cbn. lia.
  - destruct (join_texts _ _ HF) as (raw & v & raws' & l' & t & E1 & -> & Hj & Hv & Ht); [discriminate|]. rewrite Hj, <- app_assoc.
    eapply FC_impl; [|eapply FC_seq; [apply FC_opt1|apply (FC_str (s ")"))]].
    + intros ps (p1 & p2 & -> & H & ->). rewrite app_nil_r. exact H.
    + eapply FC_impl; [|eapply FC_seq; [apply FC_arg; [exact Hv|]|eapply (FC_rep comma_arg _ d_value arg_follow); [..|exact Ht| |]]].
      * intros ps (p1 & p2 & -> & (p & -> & Hd) & H). constructor; assumption.
      * destruct Ht as [|t' a' ts l2 (r3 & -> & _)]; [apply follow_close|]. eexists _, _. split; [reflexivity|]. auto.
      * reflexivity.
      * intros t0 a0 m0 (r0 & -> & Ha0) Hm0. rewrite <- app_assoc. apply FC_tok. apply FC_arg; assumption.
      * intros t0 a0 m0 (r0 & -> & Ha0). eexists _, _. split; [reflexivity|]. auto.
      * apply follow_close.
      * apply XC_seq1, XC_str. intros m0. discriminate.
Qed.
Lemma EC_args i m ps : EC col_type_arg i m ps -> exists raws l, i = (s "(" ++ join (s ",") raws ++ s ")") ++ m /\ Forall2 arg_text raws l /\ one d_args l ps.
Proof.
  intros H. apply EC_rule in H as (p & -> & Hp & H). apply EC_tok in H as (i1 & -> & H). apply EC_seq in H as (m1 & ps1 & ps2 & H1 & H2 & Hi).
  apply EC_str in H2 as (-> & ->). rewrite app_nil_r in Hi. apply EC_opt in H1 as [H1|(-> & E0 & _)].
  - apply EC_seq in H1 as (m2 & ps3 & ps4 & H1 & H2 & ->). apply EC_arg in H1 as (raw & v & -> & Hv & q & -> & Hq).
    eapply (EC_rep comma_arg _ d_value) in H2 as (t & l & -> & Ht & Hd & _).
    + destruct (texts_join _ _ _ _ Ht Hv) as (raws & HF & Hj). exists raws, (v :: l). split; [rewrite <- Hj, <- !app_assoc; reflexivity|].
      split; [exact HF|]. exists p. split; [reflexivity|]. split; [exact Hp|]. rewrite Hi. constructor; assumption.
    + clear. intros i m ps H. apply EC_tok in H as (i1 & -> & H). apply EC_arg in H as (raw & v & -> & Hv & Hd).
      exists (s "," ++ raw), v. rewrite <- app_assoc. split; [reflexivity|]. split; [exists raw; auto|exact Hd].
  - subst i1. exists [], []. split; [reflexivity|]. split; [constructor|]. exists p. split; [reflexivity|]. split; [exact Hp|]. rewrite Hi. constructor.
Qed.
Lemma XC_args i : nh 40 i -> XC col_type_arg i.
Proof. intros H. apply XC_rule, XC_seq1, XC_str. intros m E0. eapply H. exact E0. Qed.

Definition d_args_opt (l : list value_t) (ps : list pair) : Prop := (ps = [] /\ l = []) \/ one d_args l ps.
Lemma FC_args_opt ta l m : args_r ta l -> (ta = [] -> nh 40 m) -> FC (EOpt col_type_arg) (ta ++ m) m (d_args_opt l).
Proof.
  intros [|raws l' HF] Hm.
  - eapply FC_impl; [|apply FC_opt0, XC_args, Hm; reflexivity]. intros ps ->. left. auto.
  - apply FC_opt1. eapply FC_impl; [|apply FC_args; exact HF]. intros ps H. right. exact H.
Qed.
Lemma EC_args_opt i m ps : EC (EOpt col_type_arg) i m ps -> exists ta l, i = ta ++ m /\ args_r ta l /\ d_args_opt l ps.
Proof.
  intros H. apply EC_opt in H as [H|(-> & -> & _)].
  - apply EC_args in H as (raws & l & -> & HF & Hd). eexists _, l. split; [reflexivity|]. split; [constructor; exact HF|right; exact Hd].
  - exists [], []. split; [reflexivity|]. split; [constructor|left; auto].
Qed.

(** ** Array dimensions *)
Definition d_dim (p : pair) (o : option N) : Prop :=
  p_rule p = R_col_type_array /\
  match o with None => into_inner p = [] | Some n => exists x d, into_inner p = [x] /\ d_leaf R_integer x d /\ n = digits_value 0 d end.
Lemma not_digit_93 m : no_digit (s "]" ++ m).
Proof. intros c m' [= <- _]. unfold digit. cbn. lia. Qed.
Lemma FC_dim t o m : dim_r t o -> FC col_type_array (t ++ m) m (one d_dim o).
Proof.
  intros [|d Hd].
  - eapply FC_rule; [change (s "[]" ++ m) with (s "[" ++ s "]" ++ m); apply FC_tok; eapply FC_end, FC_opt0|].
    + intros off. apply (proj1 (eval_num_fail CompoundAtomic off (s "]" ++ m) (not_digit_93 m))).
    + intros p Hp Hn. split; [exact Hp|exact Hn].
  - rewrite <- !app_assoc. eapply FC_rule; [apply FC_tok; eapply FC_end, FC_opt1, FC_leaf; intros off; apply eval_int_ok; [exact Hd|apply not_digit_93]|].
    intros p Hp (x & Hi & Hx). split; [exact Hp|]. exists x, d. auto.
Qed.
Lemma EC_dim i m ps : EC col_type_array i m ps -> exists t o, i = t ++ m /\ dim_r t o /\ one d_dim o ps.
Proof.
  intros H. apply EC_rule in H as (p & -> & Hp & H). apply EC_tok in H as (i1 & -> & H). apply EC_end in H.
  apply EC_opt in H as [(off & t & H)|(Hi & <- & _)].
  - apply eval_int_inv in H as (d & -> & Hd & _ & He). apply EC_leaf in He as (x & Hi & Hx).
    exists (s "[" ++ d ++ s "]"), (Some (digits_value 0 d)). split; [rewrite <- !app_assoc; reflexivity|]. split; [constructor; exact Hd|].
    exists p. split; [reflexivity|]. split; [exact Hp|]. exists x, d. auto.
  - exists (s "[]"), None. split; [reflexivity|]. split; [constructor|]. exists p. split; [reflexivity|]. split; assumption.
Qed.
Lemma XC_dim m : no_dim m -> XC col_type_array m.
Proof.
  intros H off. destruct (eval skip col_type_array CompoundAtomic off m) as [t r ps| |] eqn:E0; [|reflexivity|].
  - destruct (EC_dim m r ps) as (t' & o & -> & Hd & _); [exists off, t; exact E0|]. exfalso. destruct Hd as [|d Hd].
    + apply (H [] r); [constructor|reflexivity].
    + apply (H d r); [apply Hd|rewrite <- !app_assoc; reflexivity].
  - exfalso. revert E0. apply (eval_noloop skip skip_app skip_noloop col_type_array eq_refl).
Qed.
Lemma dim_fail m off : eval skip col_type_array CompoundAtomic off m = RFail -> no_dim m.
Proof.
  intros H d x Hd ->. assert (exists t o, dim_r t o /\ s "[" ++ d ++ s "]" ++ x = t ++ x) as (t & o & Ht & E0).
  { destruct d as [|c d].
    - exists (s "[]"), None. split; [constructor|reflexivity].
    - exists (s "[" ++ (c :: d) ++ s "]"). eexists. split; [apply dim_size; split; [discriminate|exact Hd]|rewrite <- !app_assoc; reflexivity]. }
  rewrite E0 in H. destruct (FC_dim t o x Ht off) as (t' & ps & H' & _). congruence.
Qed.
Lemma dims_texts t l : dims_r t l <-> texts dim_r t l.
Proof. split; induction 1; constructor; assumption. Qed.
Lemma FC_dims t l m : dims_r t l -> no_dim m -> FC (ERep col_type_array) (t ++ m) m (fun ps => Forall2 d_dim ps l).
Proof.
  intros H Hm. apply dims_texts in H. eapply (FC_rep dim_r col_type_array d_dim (fun _ => True)); auto.
  - intros t0 a0 m0 H0 _. apply FC_dim. exact H0.
  - apply XC_dim. exact Hm.
Qed.
Lemma EC_dims i m ps : EC (ERep col_type_array) i m ps -> exists t l, i = t ++ m /\ dims_r t l /\ no_dim m /\ Forall2 d_dim ps l.
Proof.
  intros H. eapply (EC_rep dim_r col_type_array d_dim) in H as (t & l & -> & Ht & Hd & off & Hx); [|apply EC_dim].
  exists t, l. split; [reflexivity|]. split; [apply dims_texts; exact Ht|]. split; [eapply dim_fail; exact Hx|exact Hd].
Qed.

(** ** Types *)
Lemma FC_ident_word w m : word w -> no_word m -> FC ident (w ++ m) m (one d_ident w).
Proof.
  intros Hw Hm. eapply FC_rule; [apply FC_alt1, FC_leaf; intros off; apply eval_word; assumption|].
  intros p Hp (q & Hq & Hd). split; [exact Hp|]. exists q. auto.
Qed.
Lemma FC_ident_quoted raw w m : quoted_verbatim dq raw w -> FC ident (raw ++ m) m (one d_ident w).
Proof.
  intros Hw. eapply FC_rule; [apply FC_alt2; [|rewrite dqs_rule; apply FC_quoted; [apply ok_dq|exact Hw]]|].
  - destruct Hw as [-> _]. intros off. apply eval_var_fail. intros c x [= <- _]. apply letter_34.
  - intros p Hp (q & Hq & Hd). split; [exact Hp|]. exists q. auto.
Qed.
Lemma EC_ident i m ps : EC ident i m ps -> exists raw w, i = raw ++ m /\ ((word raw /\ w = raw /\ no_word m) \/ quoted_verbatim dq raw w) /\ one d_ident w ps.
Proof.
  intros H. apply EC_rule in H as (p & -> & Hp & H). apply EC_alt in H as [(off & t & H)|[H _]].
  - apply eval_word_inv in H as (w & -> & Hw & Hm & He). apply EC_leaf in He as (q & Hq & Hd). exists w, w. split; [reflexivity|]. split; [auto|].
    exists p. split; [reflexivity|]. split; [exact Hp|]. exists q. auto.
  - rewrite dqs_rule in H. apply EC_quoted in H as (raw & w & -> & Hw & q & Hq & Hd); [|apply ok_dq]. exists raw, w. split; [reflexivity|]. split; [auto|].
    exists p. split; [reflexivity|]. split; [exact Hp|]. exists q. auto.
Qed.

Definition d_type (p : pair) (ty : a_type) : Prop :=
  p_rule p = R_col_type /\ exists pre np q v b args dims,
    into_inner p = pre ++ [q] /\ ((pre = [] /\ np = []) \/ (exists x w, pre = [x] /\ d_ident x w /\ np = w ++ s ".")) /\
    (p_rule q = R_col_type_quoted \/ p_rule q = R_col_type_unquoted) /\
    into_inner q = v :: args ++ dims /\ (d_leaf R_var v b \/ d_leaf R_spaced_var v b) /\
    y_name ty = CT_Raw (np ++ b) /\ d_args_opt (y_args ty) args /\ Forall2 d_dim dims (y_dims ty).

(** The part after the prefix. *)
Definition d_body (b : str) (al : list value_t) (dl : list (option N)) (q : pair) : Prop :=
  (p_rule q = R_col_type_quoted \/ p_rule q = R_col_type_unquoted) /\
  exists v args dims, into_inner q = v :: args ++ dims /\ (d_leaf R_var v b \/ d_leaf R_spaced_var v b) /\
    d_args_opt al args /\ Forall2 d_dim dims dl.
Definition body_bare (t b : str) (al : list value_t) (dl : list (option N)) : Prop :=
  exists ta td, t = b ++ ta ++ td /\ word b /\ args_r ta al /\ dims_r td dl.
Definition body_quoted (t b : str) (al : list value_t) (dl : list (option N)) : Prop :=
  exists ta td1 d1 td2 d2, t = dq ++ b ++ ta ++ td1 ++ dq ++ td2 /\ spaced_word b /\ args_r ta al /\ dims_r td1 d1 /\ dims_r td2 d2 /\ dl = d1 ++ d2.
Lemma args_head ta al : args_r ta al -> ta = [] \/ exists x, ta = 40 :: x /\ exists y, ta = y ++ [41].
Proof.
  intros [|raws l _]; [auto|]. right. eexists. split; [reflexivity|]. eexists. rewrite app_assoc. reflexivity.
Qed.
Lemma dims_head td dl : dims_r td dl -> td = [] \/ (exists x, td = 91 :: x) /\ exists y, td = y ++ [93].
Proof.
  induction 1 as [|t d ts ds Ht Hts IH]; [auto|]. right. destruct Ht as [|d' Hd].
  - split; [eexists; reflexivity|]. destruct IH as [->|[_ (y & ->)]]; [exists [91]; reflexivity|eexists; rewrite app_assoc; reflexivity].
  - split; [eexists; reflexivity|]. destruct IH as [->|[_ (y & ->)]]; [eexists; rewrite app_nil_r, app_assoc; reflexivity|eexists; rewrite app_assoc; reflexivity].
Qed.
Lemma last_app {A} (x y : list A) (c d : A) z : x ++ [c] = z ++ y ++ [d] -> c = d.
Proof. rewrite app_assoc. intros H. apply app_inj_tail in H. tauto. Qed.
(** A bare word ends where its arguments, dimensions or the follow start. *)
Lemma bare_stop ta td al dl m : args_r ta al -> dims_r td dl -> (ta = [] -> td = [] -> no_word m) -> no_word (ta ++ td ++ m).
Proof.
  intros Ha Hd Hm. apply args_head in Ha as [->|(x & -> & _)].
  - cbn [app]. apply dims_head in Hd as [->|[(x & ->) _]]; [apply Hm; reflexivity|].
    intros c y [= <- _]. unfold word_char, letter, digit. lia.
  - intros c y [= <- _]. unfold word_char, letter, digit. lia.
Qed.
Lemma dims_no40 td dl m : dims_r td dl -> nh 40 m -> nh 40 (td ++ m).
Proof. intros Hd Hm. apply dims_head in Hd as [->|[(x & ->) _]]; [exact Hm|apply nh_cons; discriminate]. Qed.
Lemma no_dim_34 m : no_dim (34 :: m).
Proof. intros d x _ E0. discriminate. Qed.
Lemma spaced_stop c m : c = 40 \/ c = 91 \/ c = 34 -> no_phrase (c :: m).
Proof.
  intros H. split; [intros c0 m0 [= <- _]; unfold word_char, letter, digit; lia|]. intros c0 m0 [= -> _]. lia.
Qed.
Lemma FC_body_bare t b al dl m : body_bare t b al dl -> no_merge t m -> no_dim m -> nh 40 m ->
  FC col_type_unquoted (t ++ m) m (fun ps => exists q, ps = [q] /\ d_body b al dl q).
Proof.
  intros (ta & td & -> & Hb & Ha & Hd) Hmg Hnd H40. rewrite <- !app_assoc.
  assert (Hs : no_word (ta ++ td ++ m)).
  { eapply bare_stop; try eassumption. intros -> ->. rewrite !app_nil_r in Hmg. destruct Hb as (c & w & -> & Hc & Hw).
    destruct (@exists_last _ (c :: w)) as (x & z & E0); [discriminate|]. apply (Hmg x z E0).
    assert (Hf : Forall word_char (c :: w)) by (constructor; [apply letter_word; exact Hc|exact Hw]). rewrite E0 in Hf.
    apply Forall_app in Hf as [_ Hf]. apply Forall_cons_iff in Hf as [Hf _]. exact Hf. }
  eapply FC_impl with (Q := one (fun q (_ : unit) => d_body b al dl q) tt); [intros ps (q & -> & H); eauto|].
  eapply FC_comp.
  - eapply FC_seq; [apply FC_leaf; intros off; apply eval_word; assumption|].
    eapply FC_seq; [apply FC_args_opt; [exact Ha|]|apply FC_dims; eassumption]. intros _. eapply dims_no40; eassumption.
  - intros p Hp (p1 & p2 & Hi & (v & -> & Hv) & p3 & p4 & -> & Hal & Hdl). split; [auto|]. exists v, p3, p4. auto.
Qed.
Lemma FC_body_quoted t b al dl m : body_quoted t b al dl -> no_dim m ->
  FC col_type_quoted (t ++ m) m (fun ps => exists q, ps = [q] /\ d_body b al dl q).
Proof.
  intros (ta & td1 & d1 & td2 & d2 & -> & Hb & Ha & Hd1 & Hd2 & ->) Hnd. rewrite <- !app_assoc.
  eapply FC_impl with (Q := one (fun q (_ : unit) => d_body b al (d1 ++ d2) q) tt); [intros ps (q & -> & H); eauto|].
  eapply FC_comp.
  - apply FC_tok. eapply FC_seq; [apply FC_leaf; intros off; apply eval_phrase; [exact Hb|]|].
    + pose proof Ha as Ha'. apply args_head in Ha' as [->|(x & -> & _)]; [|apply spaced_stop; auto].
      pose proof Hd1 as Hd1'. apply dims_head in Hd1' as [->|[(x & ->) _]]; apply spaced_stop; auto.
    + eapply FC_seq; [apply FC_args_opt; [exact Ha|]|].
      * intros _. eapply dims_no40; [exact Hd1|]. apply nh_cons. discriminate.
      * eapply FC_seq; [apply FC_dims; [exact Hd1|apply no_dim_34]|]. apply FC_tok. apply FC_dims; eassumption.
  - intros p Hp (p1 & p2 & Hi & (v & -> & Hv) & p3 & p4 & -> & Hal & p5 & p6 & -> & Hdl1 & Hdl2). split; [auto|]. exists v, p3, (p5 ++ p6).
    split; [exact Hi|]. split; [auto|]. split; [exact Hal|]. apply Forall2_app; assumption.
Qed.
Lemma EC_body i m ps : EC (EAlt col_type_quoted col_type_unquoted) i m ps ->
  exists t b al dl q, i = t ++ m /\ (body_bare t b al dl \/ body_quoted t b al dl) /\ no_merge t m /\ no_dim m /\ ps = [q] /\ d_body b al dl q.
Proof.
  intros H. apply EC_alt in H as [H|[H _]]; apply EC_comp in H as (q & -> & Hq & H).
  - apply EC_tok in H as (i1 & -> & H). apply EC_seq in H as (m1 & ps1 & ps2 & (off & t & H1) & H2 & Hi).
    apply eval_phrase_inv in H1 as (b & -> & Hb & _ & He). apply EC_leaf in He as (v & -> & Hv).
    apply EC_seq in H2 as (m2 & ps3 & ps4 & H2 & H3 & ->). apply EC_args_opt in H2 as (ta & al & -> & Ha & Hal).
    apply EC_seq in H3 as (m3 & ps5 & ps6 & H3 & H4 & ->). apply EC_dims in H3 as (td1 & d1 & -> & Hd1 & _ & Hdl1).
    apply EC_tok in H4 as (i2 & -> & H4). apply EC_dims in H4 as (td2 & d2 & -> & Hd2 & Hnd & Hdl2).
    exists (dq ++ b ++ ta ++ td1 ++ dq ++ td2), b, al, (d1 ++ d2), q. split; [rewrite <- !app_assoc; reflexivity|].
    split; [right; exists ta, td1, d1, td2, d2; auto 7|]. split.
    + intros x c E0 Hc. exfalso. apply dims_head in Hd2 as [->|[_ (y & ->)]].
      * rewrite app_nil_r, !app_assoc in E0. apply app_inj_tail in E0 as [_ <-]. revert Hc. unfold word_char, letter, digit. lia.
      * rewrite !app_assoc in E0. apply app_inj_tail in E0 as [_ <-]. revert Hc. unfold word_char, letter, digit. lia.
    + split; [exact Hnd|]. split; [reflexivity|]. split; [auto|]. exists v, ps3, (ps5 ++ ps6). split; [exact Hi|]. split; [auto|]. split; [exact Hal|].
      apply Forall2_app; assumption.
  - apply EC_seq in H as (m1 & ps1 & ps2 & (off & t & H1) & H2 & Hi).
    apply eval_word_inv in H1 as (b & -> & Hb & Hm & He). apply EC_leaf in He as (v & -> & Hv).
    apply EC_seq in H2 as (m2 & ps3 & ps4 & H2 & H3 & ->). apply EC_args_opt in H2 as (ta & al & -> & Ha & Hal).
    apply EC_dims in H3 as (td & d & -> & Hd & Hnd & Hdl).
    exists (b ++ ta ++ td), b, al, d, q. split; [rewrite <- !app_assoc; reflexivity|].
    split; [left; exists ta, td; auto|]. split.
    + intros x c E0 Hc. pose proof Hd as Hd'. apply dims_head in Hd' as [->|[_ (y & ->)]].
      * pose proof Ha as Ha'. apply args_head in Ha' as [->|(z & _ & y & ->)]; [exact Hm|]. exfalso.
        rewrite app_nil_r, !app_assoc in E0. apply app_inj_tail in E0 as [_ <-]. revert Hc. unfold word_char, letter, digit. lia.
      * exfalso. rewrite !app_assoc in E0. apply app_inj_tail in E0 as [_ <-]. revert Hc. unfold word_char, letter, digit. lia.
    + split; [exact Hnd|]. split; [reflexivity|]. split; [auto|]. exists v, ps3, ps4. split; [exact Hi|]. auto.
Qed.

Lemma FC_type_intro np b al dl i i' m :
  FC (EOpt (ESeq ident (L "."))) i i' (fun ps => (ps = [] /\ np = []) \/ (exists x w, ps = [x] /\ d_ident x w /\ np = w ++ s ".")) ->
  FC (EAlt col_type_quoted col_type_unquoted) i' m (fun ps => exists q, ps = [q] /\ d_body b al dl q) ->
  FC col_type i m (one d_type (mkType (CT_Raw (np ++ b)) al dl)).
Proof.
  intros H1 H2. eapply FC_comp; [eapply FC_seq; [exact H1|exact H2]|].
  intros p Hp (p1 & p2 & Hi & Hpre & q & -> & Hr & v & args & dims & Hq & Hv & Ha & Hd). split; [exact Hp|].
  exists p1, np, q, v, b, args, dims. auto 9.
Qed.
Lemma FC_prefix p np x : prefix_r p np -> p <> [] ->
  FC (EOpt (ESeq ident (L "."))) (p ++ x) x (fun ps => (ps = [] /\ np = []) \/ (exists x w, ps = [x] /\ d_ident x w /\ np = w ++ s ".")).
Proof.
  intros [|w Hw|raw w Hw] Hne; [congruence| |]; rewrite <- app_assoc; apply FC_opt1.
  - eapply FC_impl; [|eapply FC_end, FC_ident_word; [exact Hw|]].
    + intros ps (q & -> & Hd). right. exists q, w. auto.
    + intros c y [= <- _]. unfold word_char, letter, digit. cbn. lia.
  - eapply FC_impl; [|eapply FC_end, FC_ident_quoted; exact Hw]. intros ps (q & -> & Hd). right. exists q, w. auto.
Qed.
Lemma no_prefix_bare b ta td al dl m : word b -> args_r ta al -> dims_r td dl -> (ta = [] -> td = [] -> no_word m) -> nh 46 m ->
  XC (ESeq ident (L ".")) (b ++ ta ++ td ++ m).
Proof.
  intros Hb Ha Hd Hm H46. eapply XC_seq2; [apply FC_ident_word; [exact Hb|eapply bare_stop; eassumption]|].
  apply XC_str. apply args_head in Ha as [->|(x & -> & _)]; [|intros y E0; discriminate].
  apply dims_head in Hd as [->|[(x & ->) _]]; [|intros y E0; discriminate]. intros y E0. eapply H46. exact E0.
Qed.
Lemma no_prefix_quoted y td m : no_schema (dq ++ y ++ dq ++ td) -> nh 46 m -> XC (ESeq ident (L ".")) ((dq ++ y ++ dq ++ td) ++ m).
Proof.
  intros Hs Hm off. destruct (eval skip (ESeq ident (L ".")) CompoundAtomic off ((dq ++ y ++ dq ++ td) ++ m)) as [t r ps| |] eqn:E0; [|reflexivity|].
  - exfalso. assert (He : EC (ESeq ident (L ".")) ((dq ++ y ++ dq ++ td) ++ m) r ps) by (exists off, t; exact E0). apply EC_end in He.
    apply EC_ident in He as (raw & w & Hi & Hw & _). destruct Hw as [[(c & w' & -> & Hc & _) _]|[-> Hc]].
    + injection Hi as <- _. destruct (letter_34 Hc).
    + assert (Hi' : (dq ++ y ++ dq ++ td) ++ m = (dq ++ w ++ dq) ++ s "." ++ r) by exact Hi.
      apply app_cut in Hi' as [(x & E1 & E2)|(x & E1 & E2 & Hx)].
      * destruct x as [|c x]; [apply (Hm r); exact (eq_sym E2)|]. injection E2 as <- _. apply (Hs w x Hc). rewrite E1, <- !app_assoc. reflexivity.
      * assert (E3 : w ++ dq = y ++ dq ++ (td ++ x)).
        { cbn [app dq] in E1. injection E1 as E1. rewrite <- !app_assoc in E1. exact E1. }
        apply Hc in E3. apply app_eq_nil in E3 as [_ ->]. congruence.
  - exfalso. revert E0. apply (eval_noloop skip skip_app skip_noloop (ESeq ident (L ".")) eq_refl).
Qed.
Lemma prefix_nil_dec p np : prefix_r p np -> (p = [] /\ np = []) \/ p <> [].
Proof. intros [|w (c & x & -> & _)|raw w [-> _]]; [auto|right; discriminate|right; discriminate]. Qed.
Lemma no_merge_tail p t m : t <> [] -> no_merge (p ++ t) m -> no_merge t m.
Proof. intros _ H x c -> Hc. apply (H (p ++ x) c); [rewrite app_assoc; reflexivity|exact Hc]. Qed.

Lemma FC_type raw ty m : type_raw raw ty -> no_merge raw m -> no_dim m -> nh 46 m -> nh 40 m -> FC col_type (raw ++ m) m (one d_type ty).
Proof.
  intros [p np b ta al td dl Hp Hb Ha Hd|p np b ta al td1 d1 td2 d2 Hp Hb Ha Hd1 Hd2 Hs] Hmg Hnd H46 H40.
  - apply no_merge_tail in Hmg; [|destruct Hb as (c & x & -> & _); discriminate].
    assert (Hbb : body_bare (b ++ ta ++ td) b al dl) by (exists ta, td; auto).
    assert (F2 : FC (EAlt col_type_quoted col_type_unquoted) ((b ++ ta ++ td) ++ m) m (fun ps => exists q, ps = [q] /\ d_body b al dl q)).
    { apply FC_alt2; [|apply FC_body_bare; assumption]. apply XC_comp, XC_seq1, XC_str. intros y E0.
      destruct Hb as (c & x & -> & Hc & _). injection E0 as -> _. destruct (letter_34 Hc). }
    rewrite <- app_assoc. destruct (prefix_nil_dec _ _ Hp) as [[-> ->]|Hne].
    + eapply (FC_type_intro []); [|exact F2]. eapply FC_impl; [|apply FC_opt0].
      * intros ps ->. left. auto.
      * cbn [app]. rewrite <- !app_assoc. eapply no_prefix_bare; try eassumption. intros -> ->. rewrite !app_nil_r in Hmg.
        destruct Hb as (c & w & -> & Hc & Hw). destruct (@exists_last _ (c :: w)) as (x & z & E0); [discriminate|]. apply (Hmg x z E0).
        assert (Hf : Forall word_char (c :: w)) by (constructor; [apply letter_word; exact Hc|exact Hw]). rewrite E0 in Hf.
        apply Forall_app in Hf as [_ Hf]. apply Forall_cons_iff in Hf as [Hf _]. exact Hf.
    + eapply (FC_type_intro np); [apply FC_prefix; eassumption|exact F2].
  - assert (Hbq : body_quoted (dq ++ b ++ ta ++ td1 ++ dq ++ td2) b al (d1 ++ d2)) by (exists ta, td1, d1, td2, d2; auto 7).
    assert (F2 : FC (EAlt col_type_quoted col_type_unquoted) ((dq ++ b ++ ta ++ td1 ++ dq ++ td2) ++ m) m (fun ps => exists q, ps = [q] /\ d_body b al (d1 ++ d2) q)).
    { apply FC_alt1. apply FC_body_quoted; assumption. }
    rewrite <- app_assoc. destruct (prefix_nil_dec _ _ Hp) as [[-> ->]|Hne].
    + eapply (FC_type_intro []); [|exact F2]. eapply FC_impl; [|apply FC_opt0].
      * intros ps ->. left. auto.
      * cbn [app]. specialize (Hs eq_refl). replace (dq ++ b ++ ta ++ td1 ++ dq ++ td2) with (dq ++ (b ++ ta ++ td1) ++ dq ++ td2) in * by (rewrite <- !app_assoc; reflexivity).
        apply no_prefix_quoted; assumption.
    + eapply (FC_type_intro np); [apply FC_prefix; eassumption|exact F2].
Qed.
Lemma EC_type i m ps : EC col_type i m ps -> exists raw ty, i = raw ++ m /\ type_raw raw ty /\ no_merge raw m /\ no_dim m /\ one d_type ty ps.
Proof.
  intros H. apply EC_comp in H as (p & -> & Hp & H). apply EC_seq in H as (m1 & ps1 & ps2 & H1 & H2 & Hi).
  apply EC_body in H2 as (t & b & al & dl & q & -> & Hb & Hmg & Hnd & -> & Hr & v & args & dims & Hq & Hv & Ha & Hd).
  assert (Htne : t <> []).
  { destruct Hb as [(ta & td & -> & (c & x & -> & _) & _)|(ta & td1 & d1 & td2 & d2 & -> & _)]; discriminate. }
  assert (Hmg' : forall pp, no_merge (pp ++ t) m).
  { intros pp x c E0 Hc. destruct (exists_last Htne) as (x' & c' & ->). rewrite app_assoc in E0. apply app_inj_tail in E0 as [_ ->].
    apply (Hmg x' c eq_refl Hc). }
  assert (Hpre : exists pp np, i = pp ++ t ++ m /\ prefix_r pp np /\ ((ps1 = [] /\ np = []) \/ (exists x w, ps1 = [x] /\ d_ident x w /\ np = w ++ s ".")) /\
     (pp = [] -> exists off, eval skip (ESeq ident (L ".")) CompoundAtomic off (t ++ m) = RFail)).
  { apply EC_opt in H1 as [H1|(-> & <- & Hf)].
    - apply EC_end in H1. apply EC_ident in H1 as (raw & w & -> & Hw & x & -> & Hx). exists (raw ++ s "."), (w ++ s "."). split; [rewrite <- app_assoc; reflexivity|].
      split; [|split; [right; exists x, w; auto|intros E0; destruct raw; discriminate]]. destruct Hw as [(Hw & -> & _)|Hw]; constructor; exact Hw.
    - exists [], []. split; [reflexivity|]. split; [constructor|]. split; [left; auto|auto]. }
  destruct Hpre as (pp & np & -> & Hpp & Hps & Hf).
  exists (pp ++ t), (mkType (CT_Raw (np ++ b)) al dl). split; [rewrite <- app_assoc; reflexivity|]. split.
  - destruct Hb as [(ta & td & -> & Hb & Hta & Htd)|(ta & td1 & d1 & td2 & d2 & -> & Hb & Hta & Htd1 & Htd2 & ->)].
    + constructor; assumption.
    + constructor; try assumption. intros E0 w x Hc E1. destruct (Hf E0) as (off & Hf'). rewrite E1 in Hf'.
      assert (HF : FC (ESeq ident (L ".")) (((dq ++ w ++ dq) ++ s ".") ++ x ++ m) (x ++ m) (one d_ident w)).
      { rewrite <- app_assoc. apply FC_end, FC_ident_quoted. split; [reflexivity|exact Hc]. }
      destruct (HF off) as (t' & ps' & E2 & _). rewrite <- !app_assoc in Hf', E2. pose proof (eq_trans (eq_sym Hf') E2) as E3. discriminate E3.
  - split; [apply Hmg'|]. split; [exact Hnd|]. exists p. split; [reflexivity|]. split; [exact Hp|].
    exists ps1, np, q, v, b, args, dims. auto 9.
Qed.

(** In a table, with the layout that follows. *)
Lemma mode_col_type off i : eval skip col_type NonAtomic off i = eval skip col_type CompoundAtomic off i.
Proof. unfold col_type, C_. cbn [eval]. reflexivity. Qed.
Lemma lay_nh c m r : lay m r -> nh c r -> solid [c] -> nh c m.
Proof. intros Hl Hr Hs x ->. apply (Hr x). apply lay_solid in Hl; [exact Hl|]. destruct Hs as [Hs1 Hs2]. split; assumption. Qed.
Lemma F_type i r ty : type_r i r ty -> nh 46 r -> nh 40 r -> F col_type i r (one d_type ty).
Proof.
  intros (raw & m & -> & Ht & Hmg & Hnd & Hl) H46 H40 off.
  assert (S : forall c, c = 46 \/ c = 40 -> solid [c]) by (intros c [-> | ->]; apply solid_char; (not_ws || discriminate)).
  destruct (FC_type raw ty m Ht Hmg Hnd) with (off := off) as (t & ps & E0 & Hd).
  - eapply lay_nh; [exact Hl|exact H46|apply S; auto].
  - eapply lay_nh; [exact Hl|exact H40|apply S; auto].
  - exists t, m, ps. rewrite mode_col_type. auto.
Qed.
Lemma B_type i m ps : E col_type i m ps -> exists ty, type_r i (fin m) ty /\ one d_type ty ps.
Proof.
  intros (off & t & H). rewrite mode_col_type in H. destruct (EC_type i m ps) as (raw & ty & -> & Ht & Hmg & Hnd & Hd); [exists off, t; exact H|].
  exists ty. split; [|exact Hd]. exists raw, m. split; [reflexivity|]. split; [exact Ht|]. split; [exact Hmg|]. split; [exact Hnd|apply lay_of].
Qed.
Lemma type_first i r ty : type_r i r ty -> hd_in name_start i.
Proof.
  intros (raw & m & -> & Ht & _). destruct Ht as [p np b ta al td dl [|w (c & x & -> & Hc & _)|rw w [-> _]] Hb Ha Hd|p np b ta al td1 d1 td2 d2 [|w (c & x & -> & Hc & _)|rw w [-> _]] Hb Ha Hd1 Hd2 Hs].
  - destruct Hb as (c & x & -> & Hc & _). eexists _, _. split; [reflexivity|left; exact Hc].
  - eexists _, _. split; [reflexivity|left; exact Hc].
  - eexists _, _. split; [reflexivity|right; reflexivity].
  - eexists _, _. split; [reflexivity|right; reflexivity].
  - eexists _, _. split; [reflexivity|left; exact Hc].
  - eexists _, _. split; [reflexivity|right; reflexivity].
Qed.
Lemma X_type i : (forall c x, i = c :: x -> ~ name_start c) -> X col_type i.
Proof.
  intros H off. rewrite mode_col_type. revert off. change (XC col_type i). apply XC_comp.
  assert (Hi : XC ident i).
  { apply XC_rule, XC_alt.
    - intros off. apply eval_var_fail. intros c x E0 Hc. apply (H c x E0). left. exact Hc.
    - rewrite dqs_rule. apply XC_quoted. intros x E0. apply (H 34 x E0). right. reflexivity. }
  eapply XC_seq2; [apply FC_opt0, XC_seq1; exact Hi|]. apply XC_alt.
  - apply XC_comp, XC_seq1, XC_str. intros x E0. apply (H 34 x E0). right. reflexivity.
  - apply XC_comp, XC_seq1. intros off. apply eval_var_fail. intros c x E0 Hc. apply (H c x E0). left. exact Hc.
Qed.
