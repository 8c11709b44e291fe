(** * SynLex: the token rules of the grammar read words, quotes and literals. *)

From Verif Require Export SynEval.
From Verif Require DecOk.

Lemma app_prefix {A} (a b c d : list A) : a ++ b = c ++ d -> (List.length c <= List.length a)%nat -> exists x, a = c ++ x.
Proof.
  revert a. induction c as [|h c IH]; intros a H Hl; [exists a; reflexivity|].
  destruct a as [|h' a]; [cbn in Hl; lia|]. cbn in H. injection H as -> H. apply IH in H as (x & ->); [|cbn in Hl; lia].
  exists x. reflexivity.
Qed.

(** ** Leaves *)
Definition d_leaf (rl : rule) (p : pair) (w : str) : Prop := p_rule p = rl /\ as_str p = w.

Lemma F_leaf e rl i r w m : (forall off, eval skip e NonAtomic off i = emit NonAtomic rl off (ROk w m [])) -> lay m r ->
  F e i r (one (d_leaf rl) w).
Proof.
  intros H Hl off. rewrite H. cbn [emit]. eexists _, _, _. split; [reflexivity|]. split; [exact Hl|].
  eexists. split; [reflexivity|]. split; reflexivity.
Qed.
Lemma E_leaf rl off w m ps off' t : emit NonAtomic rl off (ROk w m []) = ROk t off' ps -> off' = m /\ one (d_leaf rl) w ps.
Proof.
  cbn [emit]. intros H. injection H as <- <- <-. split; [reflexivity|]. eexists. split; [reflexivity|]. split; reflexivity.
Qed.

(** ** Words *)
Lemma no_word_stops m : no_word m <-> stops word_b m.
Proof.
  unfold no_word. destruct m as [|c m]; cbn [stops]; [split; [auto|intros _ c m E0; discriminate]|]. split.
  - intros H. destruct (word_b c) eqn:Ec; [|reflexivity]. apply word_b_spec in Ec. destruct (H c m eq_refl Ec).
  - intros H c0 m0 [= <- <-] Hc. apply word_b_spec in Hc. congruence.
Qed.
Lemma no_digit_stops m : no_digit m <-> stops digit_b m.
Proof.
  unfold no_digit. destruct m as [|c m]; cbn [stops]; [split; [auto|intros _ c m E0; discriminate]|]. split.
  - intros H. destruct (digit_b c) eqn:Ec; [|reflexivity]. apply digit_b_spec in Ec. destruct (H c m eq_refl Ec).
  - intros H c0 m0 [= <- <-] Hc. apply digit_b_spec in Hc. congruence.
Qed.
Lemma words_bool w : Forall word_char w -> Forall (fun c => word_b c = true) w.
Proof. apply Forall_impl. intros c. apply word_b_spec. Qed.
Lemma digits_bool w : Forall digit w -> Forall (fun c => digit_b c = true) w.
Proof. apply Forall_impl. intros c. apply digit_b_spec. Qed.

(** [var] on a word, in any mode. *)
Lemma eval_word a off w m : word w -> no_word m -> eval skip var a off (w ++ m) = emit a R_var off (ROk w m []).
Proof.
  intros (c & w' & -> & Hc & Hw) Hm. rewrite eval_var. cbn [app]. rewrite (proj2 (alpha_b_spec c) Hc).
  apply no_word_stops in Hm. apply words_bool in Hw.
  rewrite takewhile_app, dropwhile_app by assumption. reflexivity.
Qed.
Lemma eval_word_inv a off i t m ps : eval skip var a off i = ROk t m ps ->
  exists w, i = w ++ m /\ word w /\ no_word m /\ emit a R_var off (ROk w m []) = ROk t m ps.
Proof.
  rewrite eval_var. destruct i as [|c i]; [discriminate|]. destruct (alpha_b c) eqn:Ec; [|discriminate].
  intros H. assert (Hm : dropwhile word_b i = m) by (destruct a; cbn [emit] in H; congruence).
  rewrite <- Hm in *. exists (c :: takewhile word_b i). cbn [app]. rewrite takedrop.
  split; [reflexivity|]. split; [apply word_takewhile; exact Ec|]. split; [apply no_word_stops, dropwhile_stops|exact H].
Qed.
Lemma F_var i r w : plain i r w -> F var i r (one (d_leaf R_var) w).
Proof. intros (m & -> & Hw & Hm & Hl). eapply F_leaf; [|exact Hl]. intros off. apply eval_word; assumption. Qed.
Lemma B_var i m ps : E var i m ps -> exists w, plain i (fin m) w /\ one (d_leaf R_var) w ps.
Proof.
  intros (off & t & H). apply eval_word_inv in H as (w & -> & Hw & Hm & He). exists w.
  split; [exists m; split; [reflexivity|]; split; [exact Hw|]; split; [exact Hm|apply lay_of]|].
  apply E_leaf in He as [_ He]. exact He.
Qed.
Lemma eval_var_fail a off i : (forall c x, i = c :: x -> ~ letter c) -> eval skip var a off i = RFail.
Proof.
  intros H. rewrite eval_var. destruct i as [|c i]; [reflexivity|]. destruct (alpha_b c) eqn:Ec; [|reflexivity].
  apply alpha_b_spec in Ec. destruct (H c i eq_refl Ec).
Qed.

(** ** Phrases *)
Lemma svar_app w m : spaced_tail w -> no_phrase m -> svar_tail (w ++ m) = w /\ svar_rest (w ++ m) = m.
Proof.
  intros Hw [Hm1 Hm2]. induction Hw as [|c t Hc Ht [IH1 IH2]|c t Hc Ht [IH1 IH2]]; cbn [app].
  - apply no_word_stops in Hm1. destruct m as [|c m]; [split; reflexivity|]. cbn [stops] in Hm1. cbn [svar_tail svar_rest]. rewrite Hm1.
    destruct (N.eqb_spec c 32) as [->|]; [|split; reflexivity]. destruct m as [|d m]; [split; reflexivity|].
    destruct (word_b d) eqn:Ed; [|split; reflexivity]. apply word_b_spec in Ed. destruct (Hm2 d m eq_refl Ed).
  - apply word_b_spec in Hc. cbn [svar_tail svar_rest]. rewrite Hc, IH1, IH2. auto.
  - apply word_b_spec in Hc. cbn [svar_tail svar_rest]. rewrite word_b_32, N.eqb_refl, Hc, IH1, IH2. auto.
Qed.
Lemma svar_rest_no r : no_phrase (svar_rest r).
Proof.
  assert (H : forall n r, (List.length r <= n)%nat -> no_phrase (svar_rest r)).
  { intros n. induction n as [n IH] using lt_wf_ind. intros x Hn. destruct x as [|c x]; cbn [svar_rest].
    - split; [intros c m E0; discriminate|intros c m E0; discriminate].
    - cbn [List.length] in Hn. destruct (word_b c) eqn:Ec; [apply (IH (List.length x)); lia|].
      assert (Nc : forall c0 m', c :: x = c0 :: m' -> ~ word_char c0).
      { intros c0 m' [= <- <-] H0. apply word_b_spec in H0. congruence. }
      destruct (N.eqb_spec c 32) as [->|Hc].
      + destruct x as [|d x]; [split; [exact Nc|intros c m' E0; discriminate]|]. cbn [List.length] in Hn.
        destruct (word_b d) eqn:Ed; [apply (IH (List.length x)); lia|]. split; [exact Nc|].
        intros c0 m' [= <- <-] H0. apply word_b_spec in H0. congruence.
      + split; [exact Nc|]. intros c0 m' [= E0 _]. congruence. }
  apply (H (List.length r)). lia.
Qed.
Lemma eval_phrase a off w m : spaced_word w -> no_phrase m ->
  eval skip spaced_var a off (w ++ m) = emit a R_spaced_var off (ROk w m []).
Proof.
  intros (c & w' & -> & Hc & Hw) Hm. rewrite eval_spaced_var. cbn [app]. rewrite (proj2 (alpha_b_spec c) Hc).
  destruct (svar_app w' m Hw Hm) as [-> ->]. reflexivity.
Qed.
Lemma eval_phrase_inv a off i t m ps : eval skip spaced_var a off i = ROk t m ps ->
  exists w, i = w ++ m /\ spaced_word w /\ no_phrase m /\ emit a R_spaced_var off (ROk w m []) = ROk t m ps.
Proof.
  rewrite eval_spaced_var. destruct i as [|c i]; [discriminate|]. destruct (alpha_b c) eqn:Ec; [|discriminate].
  intros H. assert (Hm : svar_rest i = m) by (destruct a; cbn [emit] in H; congruence).
  rewrite <- Hm in *. exists (c :: svar_tail i). cbn [app]. rewrite svar_split.
  split; [reflexivity|]. split; [|split; [apply svar_rest_no|exact H]].
  exists c, (svar_tail i). split; [reflexivity|]. split; [apply alpha_b_spec; exact Ec|apply svar_tail_ok].
Qed.
Lemma F_svar i r w : phrase i r w -> F spaced_var i r (one (d_leaf R_spaced_var) w).
Proof. intros (m & -> & Hw & Hm & Hl). eapply F_leaf; [|exact Hl]. intros off. apply eval_phrase; assumption. Qed.
Lemma B_svar i m ps : E spaced_var i m ps -> exists w, phrase i (fin m) w /\ one (d_leaf R_spaced_var) w ps.
Proof.
  intros (off & t & H). apply eval_phrase_inv in H as (w & -> & Hw & Hm & He). exists w.
  split; [exists m; split; [reflexivity|]; split; [exact Hw|]; split; [exact Hm|apply lay_of]|].
  apply E_leaf in He as [_ He]. exact He.
Qed.
Lemma eval_svar_fail a off i : (forall c x, i = c :: x -> ~ letter c) -> eval skip spaced_var a off i = RFail.
Proof.
  intros H. rewrite eval_spaced_var. destruct i as [|c i]; [reflexivity|]. destruct (alpha_b c) eqn:Ec; [|reflexivity].
  apply alpha_b_spec in Ec. destruct (H c i eq_refl Ec).
Qed.

(** ** Quotes *)
Lemma close_before q v m : q <> [] -> closes_first q v ->
  before (starts q) (v ++ q ++ m) = v /\ after (starts q) (v ++ q ++ m) = q ++ m.
Proof.
  intros Hq Hc. apply before_after_intro.
  - intros a b -> Hb. apply starts_false. intros x E0.
    assert (exists y, b ++ q = q ++ y) as (y & Ey).
    { rewrite app_assoc in E0. apply app_prefix in E0; [exact E0|rewrite app_length; lia]. }
    assert (y = []) as ->. { apply (Hc a y). rewrite <- app_assoc, Ey. reflexivity. }
    apply (f_equal (@List.length _)) in Ey. rewrite !app_length in Ey. destruct b; [congruence|]. cbn in Ey. lia.
  - right. apply starts_true. eauto.
Qed.
Definition d_quoted (rs rv : rule) (p : pair) (v : str) : Prop :=
  p_rule p = rs /\ exists x, into_inner p = [x] /\ d_leaf rv x v.
Definition quote_ok (q : str) : Prop := q <> [] /\ forall r, solid (q ++ r).
Lemma ok_dq : quote_ok dq. Proof. split; [discriminate|apply solid_dq]. Qed.
Lemma ok_sq : quote_ok sq. Proof. split; [discriminate|apply solid_sq]. Qed.
Lemma ok_bq : quote_ok bq. Proof. split; [discriminate|apply solid_bq]. Qed.
Lemma ok_tq : quote_ok tq. Proof. split; [discriminate|apply solid_tq]. Qed.

Lemma F_quoted rs rv q i r v : quote_ok q -> quote q i r v -> F (quoted_rule rs rv q) i r (one (d_quoted rs rv) v).
Proof.
  intros [Hq Hs] (i' & m & -> & Hl & Hc & Hm) off. rewrite eval_quoted by (assumption || discriminate).
  rewrite (proj2 (strip_prefix_spec q (q ++ i') i') eq_refl).
  destruct (skipf NonAtomic i') as [g i2] eqn:Es. apply lay_fin in Hl. rewrite <- (skipf_fin _ _ _ Es) in Hl. subst i2.
  destruct (close_before q v m Hq Hc) as [-> ->]. rewrite (proj2 (strip_prefix_spec q (q ++ m) m) eq_refl). cbv zeta.
  eexists _, _, _. split; [reflexivity|]. split; [exact Hm|]. eexists. split; [reflexivity|]. split; [reflexivity|].
  eexists. split; [reflexivity|]. split; reflexivity.
Qed.
Lemma B_quoted rs rv q i m ps : quote_ok q -> E (quoted_rule rs rv q) i m ps ->
  exists v, quote q i (fin m) v /\ one (d_quoted rs rv) v ps.
Proof.
  intros [Hq Hs] (off & t & H). rewrite eval_quoted in H by (assumption || discriminate).
  destruct (strip_prefix q i) as [i'|] eqn:E1; [|discriminate]. apply strip_prefix_spec in E1 as ->.
  destruct (skipf NonAtomic i') as [g i2] eqn:Es. pose proof (skipf_fin _ _ _ Es) as Hi2.
  destruct (strip_prefix q (after (starts q) i2)) as [r|] eqn:E2; [|discriminate]. cbv zeta in H. apply strip_prefix_spec in E2.
  assert (Er : r = m) by congruence. subst r.
  match type of H with ROk _ _ ?l = ROk _ _ _ => assert (Eps : l = ps) by congruence end. clear H. subst ps.
  exists (before (starts q) i2). split.
  - exists i', m. split; [reflexivity|]. rewrite <- E2, before_after. split; [apply lay_fin; auto|].
    split; [eapply closes_first_before; eassumption|apply lay_of].
  - eexists. split; [reflexivity|]. split; [reflexivity|]. eexists. split; [reflexivity|]. split; reflexivity.
Qed.
Lemma X_quoted rs rv q i : q <> [] -> (forall x, i <> q ++ x) -> X (quoted_rule rs rv q) i.
Proof.
  intros Hq H. apply X_rule, X_seq1, X_str. exact H.
Qed.

(** ** Identifiers *)
Definition d_dqs := d_quoted R_double_quoted_string R_double_quoted_value.
Definition d_sqs := d_quoted R_single_quoted_string R_single_quoted_value.
Definition d_tqs := d_quoted R_triple_quoted_string R_triple_quoted_value.
Definition d_bqs := d_quoted R_backquoted_quoted_string R_backquoted_quoted_value.
Definition d_ident (p : pair) (w : str) : Prop :=
  p_rule p = R_ident /\ exists q, into_inner p = [q] /\ (d_leaf R_var q w \/ d_dqs q w).

Definition name_start (c : char) : Prop := letter c \/ c = 34.
Lemma plain_first i r w : plain i r w -> hd_in letter i.
Proof. intros (m & -> & (c & w' & -> & Hc & _) & _). exists c, (w' ++ m). auto. Qed.
Lemma phrase_first i r w : phrase i r w -> hd_in letter i.
Proof. intros (m & -> & (c & w' & -> & Hc & _) & _). exists c, (w' ++ m). auto. Qed.
Lemma name_first i r w : name i r w -> hd_in name_start i.
Proof.
  intros [H|(i' & m & -> & _)].
  - apply plain_first in H as (c & x & -> & H). exists c, x. split; [reflexivity|left; exact H].
  - exists 34, i'. split; [reflexivity|right; reflexivity].
Qed.
Lemma letter_34 : ~ letter 34. Proof. unfold letter. lia. Qed.
Lemma F_ident i r w : name i r w -> F ident i r (one d_ident w).
Proof.
  intros [H|H].
  - eapply F_impl; [|apply F_rule, F_alt1, F_var; exact H].
    intros ps (p & -> & Hr & q & Hq & Hd). exists p. split; [reflexivity|]. split; [exact Hr|]. exists q. auto.
  - eapply F_impl; [|apply F_rule, F_alt2; [|rewrite dqs_rule; apply F_quoted; [apply ok_dq|exact H]]].
    + intros ps (p & -> & Hr & q & Hq & Hd). exists p. split; [reflexivity|]. split; [exact Hr|]. exists q. auto.
    + destruct H as (i' & m & -> & _). intros off. apply eval_var_fail. intros c x [= <- <-]. apply letter_34.
Qed.
Lemma B_ident i m ps : E ident i m ps -> exists w, name i (fin m) w /\ one d_ident w ps.
Proof.
  intros H. apply E_rule in H as (p & -> & Hr & H). apply E_alt in H as [H|[H _]].
  - apply B_var in H as (w & Hw & q & Hq & Hd). exists w. split; [left; exact Hw|]. exists p. split; [reflexivity|].
    split; [exact Hr|]. exists q. auto.
  - rewrite dqs_rule in H. apply B_quoted in H as (w & Hw & q & Hq & Hd); [|apply ok_dq]. exists w. split; [right; exact Hw|].
    exists p. split; [reflexivity|]. split; [exact Hr|]. exists q. auto.
Qed.
Lemma X_ident i : (forall c x, i = c :: x -> ~ name_start c) -> X ident i.
Proof.
  intros H. apply X_rule, X_alt.
  - intros off. apply eval_var_fail. intros c x E0 Hc. apply (H c x E0). left. exact Hc.
  - rewrite dqs_rule. apply X_quoted; [discriminate|]. intros x E0. apply (H 34 x E0). right. reflexivity.
Qed.

(** ** Strings *)
Definition d_string (p : pair) (v : str) : Prop :=
  p_rule p = R_string_value /\ exists q, into_inner p = [q] /\ (d_tqs q v \/ d_sqs q v).
Lemma F_string i r v : text i r v -> nh 39 r -> F string_value i r (one d_string v).
Proof.
  intros [H|H] Hr.
  - eapply F_impl; [|apply F_rule, F_alt1; rewrite tqs_rule; apply F_quoted; [apply ok_tq|exact H]].
    intros ps (p & -> & Hp & q & Hq & Hd). exists p. split; [reflexivity|]. split; [exact Hp|]. exists q. auto.
  - eapply F_impl; [|apply F_rule, F_alt2; [|rewrite sqs_rule; apply F_quoted; [apply ok_sq|exact H]]].
    + intros ps (p & -> & Hp & q & Hq & Hd). exists p. split; [reflexivity|]. split; [exact Hp|]. exists q. auto.
    + rewrite tqs_rule. apply X_quoted; [discriminate|]. intros x E0. destruct H as (i' & m & -> & Hl & Hc & Hm).
      cbn [app tq sq] in E0. injection E0 as E0. subst i'.
      apply lay_solid in Hl; [|apply (solid_sq (39 :: x))]. cbn [app sq] in Hl.
      destruct v as [|c v].
      * cbn [app] in Hl. injection Hl as Hl. subst m. apply lay_solid in Hm; [|apply (solid_sq x)]. apply (Hr x). exact Hm.
      * cbn [app] in Hl. injection Hl as -> Hl. destruct v as [|c v].
        -- specialize (Hc [] [39] eq_refl). discriminate.
        -- specialize (Hc [] (c :: v ++ sq) eq_refl). discriminate.
Qed.
Lemma B_string i m ps : E string_value i m ps -> exists v, text i (fin m) v /\ one d_string v ps.
Proof.
  intros H. apply E_rule in H as (p & -> & Hr & H). apply E_alt in H as [H|[H _]].
  - rewrite tqs_rule in H. apply B_quoted in H as (w & Hw & q & Hq & Hd); [|apply ok_tq]. exists w. split; [left; exact Hw|].
    exists p. split; [reflexivity|]. split; [exact Hr|]. exists q. auto.
  - rewrite sqs_rule in H. apply B_quoted in H as (w & Hw & q & Hq & Hd); [|apply ok_sq]. exists w. split; [right; exact Hw|].
    exists p. split; [reflexivity|]. split; [exact Hr|]. exists q. auto.
Qed.
Lemma X_string i : nh 39 i -> X string_value i.
Proof.
  intros H. apply X_rule, X_alt.
  - rewrite tqs_rule. apply X_quoted; [discriminate|]. intros x E0. apply (H (39 :: 39 :: x) E0).
  - rewrite sqs_rule. apply X_quoted; [discriminate|]. intros x E0. apply (H x E0).
Qed.
Lemma text_first i r v : text i r v -> exists x, i = 39 :: x.
Proof. intros [(i' & m & -> & _)|(i' & m & -> & _)]; eexists; reflexivity. Qed.

(** ** Numbers, booleans, colours; in any mode *)
Lemma digits_split d : digits d -> exists c d', d = c :: d' /\ digit_b c = true /\ Forall (fun c => digit_b c = true) d'.
Proof.
  intros [Hn Hd]. destruct d as [|c d]; [congruence|]. inversion Hd as [|? ? H1 H2]; subst. exists c, d.
  split; [reflexivity|]. split; [apply digit_b_spec; exact H1|apply digits_bool; exact H2].
Qed.
Lemma eval_int_ok a off d m : digits d -> no_digit m -> eval skip integer a off (d ++ m) = emit a R_integer off (ROk d m []).
Proof.
  intros Hd Hm. apply digits_split in Hd as (c & d' & -> & Hc & Hd). rewrite eval_integer. cbn [app]. rewrite Hc.
  apply no_digit_stops in Hm. rewrite takewhile_app, dropwhile_app by assumption. reflexivity.
Qed.
Lemma digits_cons c x : digit_b c = true -> digits (c :: takewhile digit_b x).
Proof.
  intros Hc. split; [discriminate|]. constructor; [apply digit_b_spec; exact Hc|].
  apply (Forall_bool digit_b); [apply digit_b_spec|apply takewhile_Forall].
Qed.
Lemma eval_int_inv a off i t m ps : eval skip integer a off i = ROk t m ps ->
  exists d, i = d ++ m /\ digits d /\ no_digit m /\ emit a R_integer off (ROk d m []) = ROk t m ps.
Proof.
  rewrite eval_integer. destruct i as [|c i]; [discriminate|]. destruct (digit_b c) eqn:Ec; [|discriminate].
  intros H. assert (Hm : dropwhile digit_b i = m) by (destruct a; cbn [emit] in H; congruence).
  rewrite <- Hm in *. exists (c :: takewhile digit_b i). cbn [app]. rewrite takedrop.
  split; [reflexivity|]. split; [apply digits_cons; exact Ec|]. split; [apply no_digit_stops, dropwhile_stops|exact H].
Qed.
Lemma eval_dec_ok a off d1 d2 m : digits d1 -> Forall digit d2 -> no_digit m ->
  eval skip decimal a off (d1 ++ s "." ++ d2 ++ m) = emit a R_decimal off (ROk (d1 ++ s "." ++ d2) m []).
Proof.
  intros Hd H2 Hm. apply digits_split in Hd as (c & d' & -> & Hc & Hd). rewrite eval_decimal. cbn [app]. rewrite Hc.
  rewrite takewhile_app, dropwhile_app by (exact Hd || reflexivity). cbn [app s]. apply no_digit_stops in Hm.
  apply digits_bool in H2. change (N_of_ascii ".") with 46. cbn iota beta.
  rewrite takewhile_app, dropwhile_app by assumption. reflexivity.
Qed.
Lemma eval_dec_inv a off i t m ps : eval skip decimal a off i = ROk t m ps ->
  exists d1 d2, i = d1 ++ s "." ++ d2 ++ m /\ digits d1 /\ Forall digit d2 /\ no_digit m /\
    emit a R_decimal off (ROk (d1 ++ s "." ++ d2) m []) = ROk t m ps.
Proof.
  rewrite eval_decimal. destruct i as [|c i]; [discriminate|]. destruct (digit_b c) eqn:Ec; [|discriminate].
  destruct (dropwhile digit_b i) as [|e r2] eqn:Ed; [discriminate|]. intros H.
  assert (e = 46) as -> by (destruct e as [|p]; [discriminate|]; do 6 (destruct p as [p|p|]; try discriminate); reflexivity).
  assert (Hm : dropwhile digit_b r2 = m) by (destruct a; cbn [emit] in H; congruence). rewrite <- Hm in *.
  exists (c :: takewhile digit_b i), (takewhile digit_b r2). split; [|split; [apply digits_cons; exact Ec|]].
  - rewrite takedrop. cbn [app s]. change (N_of_ascii ".") with 46. rewrite <- Ed, takedrop. reflexivity.
  - split; [apply (Forall_bool digit_b); [apply digit_b_spec|apply takewhile_Forall]|].
    split; [apply no_digit_stops, dropwhile_stops|]. exact H.
Qed.
(** On an integer not followed by a dot, [decimal] fails; and conversely. *)
Lemma eval_dec_fail a off d m : digits d -> no_digit m -> (forall m', m <> s "." ++ m') -> eval skip decimal a off (d ++ m) = RFail.
Proof.
  intros Hd Hm Hdot. apply digits_split in Hd as (c & d' & -> & Hc & Hd). rewrite eval_decimal. cbn [app]. rewrite Hc.
  apply no_digit_stops in Hm. rewrite dropwhile_app by assumption. destruct m as [|e m]; [reflexivity|].
  destruct (N.eq_dec e 46) as [->|He]; [destruct (Hdot m); reflexivity|].
  destruct e as [|p]; [reflexivity|]. do 6 (destruct p as [p|p|]; try reflexivity). congruence.
Qed.
Lemma eval_dec_fail_inv a off d m : digits d -> no_digit m -> eval skip decimal a off (d ++ m) = RFail -> forall m', m <> s "." ++ m'.
Proof.
  intros Hd Hm H m' ->. revert H. apply digits_split in Hd as (c & d' & -> & Hc & Hd). rewrite eval_decimal. cbn [app]. rewrite Hc.
  rewrite dropwhile_app by (exact Hd || reflexivity). cbn [app s]. change (N_of_ascii ".") with 46. cbn iota beta.
  destruct a; discriminate.
Qed.
Lemma eval_num_fail a off i : (forall c x, i = c :: x -> ~ digit c) -> eval skip integer a off i = RFail /\ eval skip decimal a off i = RFail.
Proof.
  intros H. rewrite eval_integer, eval_decimal. destruct i as [|c i]; [auto|]. destruct (digit_b c) eqn:Ec; [|auto].
  apply digit_b_spec in Ec. destruct (H c i eq_refl Ec).
Qed.

Definition bool_word (w : str) (v : value_t) : Prop :=
  (w = s "true" /\ v = VBool true) \/ (w = s "false" /\ v = VBool false) \/ (w = s "null" /\ v = VNull).
Lemma starts_none k x : (forall m, x <> k ++ m) -> strip_prefix k x = None.
Proof. intros H. destruct (strip_prefix k x) as [m|] eqn:E0; [|reflexivity]. apply strip_prefix_spec in E0. destruct (H m E0). Qed.
Lemma eval_bool_ok a off w v m : bool_word w v -> eval skip boolean_value a off (w ++ m) = emit a R_boolean_value off (ROk w m []).
Proof.
  rewrite eval_boolean. intros [[-> _]|[[-> _]|[-> _]]]; reflexivity.
Qed.
Lemma eval_bool_inv a off i t m ps : eval skip boolean_value a off i = ROk t m ps ->
  exists w v, i = w ++ m /\ bool_word w v /\ emit a R_boolean_value off (ROk w m []) = ROk t m ps.
Proof.
  rewrite eval_boolean. unfold bool_word.
  destruct (strip_prefix (s "true") i) as [r|] eqn:E1; [|destruct (strip_prefix (s "false") i) as [r|] eqn:E2;
    [|destruct (strip_prefix (s "null") i) as [r|] eqn:E3; [|discriminate]]]; intros H;
    (assert (Hm : r = m) by (destruct a; cbn [emit] in H; congruence)); subst r.
  - exists (s "true"), (VBool true). apply strip_prefix_spec in E1. auto 8.
  - exists (s "false"), (VBool false). apply strip_prefix_spec in E2. auto 8.
  - exists (s "null"), VNull. apply strip_prefix_spec in E3. auto 8.
Qed.
Lemma eval_bool_fail a off i : (forall k x, In k [s "true"; s "false"; s "null"] -> i <> k ++ x) -> eval skip boolean_value a off i = RFail.
Proof.
  intros H. rewrite eval_boolean. rewrite !starts_none; [reflexivity|..]; intros m; apply H; cbn [In]; auto.
Qed.
Lemma eval_bool_fail_inv a off i : eval skip boolean_value a off i = RFail -> forall k x, In k [s "true"; s "false"; s "null"] -> i <> k ++ x.
Proof.
  intros H k x Hk ->. revert H. assert (exists v, bool_word k v) as (v & Hv).
  { cbn [In] in Hk. unfold bool_word. destruct Hk as [<-|[<-|[<-|[]]]]; eexists; eauto. }
  rewrite (eval_bool_ok _ _ _ _ _ Hv). destruct a; discriminate.
Qed.

Lemma take3_ok h m : Forall hex_digit h -> List.length h = 3%nat -> take3_hex (h ++ m) = Some (h, m).
Proof.
  intros Hh Hl. destruct h as [|c1 [|c2 [|c3 [|]]]]; try discriminate Hl. cbn [app take3_hex].
  apply Forall_cons_iff in Hh as [H1 Hh]. apply Forall_cons_iff in Hh as [H2 Hh]. apply Forall_cons_iff in Hh as [H3 _].
  rewrite (proj2 (hex_b_spec c1) H1), (proj2 (hex_b_spec c2) H2), (proj2 (hex_b_spec c3) H3). reflexivity.
Qed.
Lemma take3_inv i h m : take3_hex i = Some (h, m) -> i = h ++ m /\ Forall hex_digit h /\ List.length h = 3%nat.
Proof.
  intros H. pose proof (take3_hex_spec _ _ _ H) as [H1 H2]. split; [|auto].
  unfold take3_hex in H. destruct i as [|c1 [|c2 [|c3 i]]]; try discriminate.
  destruct (hex_b c1 && hex_b c2 && hex_b c3); try discriminate. injection H as <- <-. reflexivity.
Qed.
Lemma take3_none m : take3_hex m = None <-> forall h' m', m = h' ++ m' -> List.length h' = 3%nat -> ~ Forall hex_digit h'.
Proof.
  split.
  - intros H h' m' -> Hl Hh. rewrite take3_ok in H by assumption. discriminate.
  - intros H. destruct (take3_hex m) as [[h m']|] eqn:E0; [|reflexivity]. apply take3_inv in E0 as (-> & Hh & Hl).
    destruct (H h m' eq_refl Hl Hh).
Qed.
Lemma hex_app a b : Forall hex_digit (a ++ b) <-> Forall hex_digit a /\ Forall hex_digit b.
Proof. apply Forall_app. Qed.
(** [h] extends as far as three- and six-digit colours can. *)
Definition hex_end (h m : str) : Prop :=
  List.length h = 6%nat \/ (List.length h = 3%nat /\ forall h' m', m = h' ++ m' -> List.length h' = 3%nat -> ~ Forall hex_digit h').
Lemma eval_hex_ok a off h m : Forall hex_digit h -> hex_end h m ->
  eval skip hex_value a off (s "#" ++ h ++ m) = emit a R_hex_value off (ROk (s "#" ++ h) m []).
Proof.
  intros Hh He. rewrite eval_hex. rewrite (proj2 (strip_prefix_spec (s "#") (s "#" ++ h ++ m) (h ++ m)) eq_refl).
  destruct He as [Hl|[Hl Hn]].
  - assert (exists a b, h = a ++ b /\ List.length a = 3%nat /\ List.length b = 3%nat) as (x & y & -> & Hx & Hy).
    { exists (firstn 3 h), (skipn 3 h). rewrite firstn_skipn, firstn_length, skipn_length, Hl. auto. }
    apply hex_app in Hh as [H1 H2]. rewrite <- app_assoc, take3_ok, take3_ok by assumption. reflexivity.
  - rewrite take3_ok by assumption. apply take3_none in Hn. rewrite Hn. reflexivity.
Qed.
Lemma eval_hex_inv a off i t m ps : eval skip hex_value a off i = ROk t m ps ->
  exists h, i = s "#" ++ h ++ m /\ Forall hex_digit h /\ hex_end h m /\ emit a R_hex_value off (ROk (s "#" ++ h) m []) = ROk t m ps.
Proof.
  rewrite eval_hex. destruct (strip_prefix (s "#") i) as [i1|] eqn:E1; [|discriminate]. apply strip_prefix_spec in E1 as ->.
  destruct (take3_hex i1) as [[h m1]|] eqn:E2; [|discriminate]. apply take3_inv in E2 as (-> & Hh & Hl).
  destruct (take3_hex m1) as [[h2 m2]|] eqn:E3.
  - apply take3_inv in E3 as (-> & Hh2 & Hl2). intros H. assert (Hm : m2 = m) by (destruct a; cbn [emit] in H; congruence). subst m2.
    exists (h ++ h2). rewrite <- app_assoc. split; [reflexivity|]. split; [apply hex_app; auto|]. split; [left; rewrite app_length, Hl, Hl2; reflexivity|exact H].
  - intros H. assert (Hm : m1 = m) by (destruct a; cbn [emit] in H; congruence). subst m1.
    exists h. split; [reflexivity|]. split; [exact Hh|]. split; [|exact H]. right. split; [exact Hl|]. apply take3_none. exact E3.
Qed.
Lemma eval_hex_fail a off i : nh 35 i -> eval skip hex_value a off i = RFail.
Proof. intros H. rewrite eval_hex, starts_none; [reflexivity|]. intros m E0. apply (H m). exact E0. Qed.
Lemma eval_hex_fail_inv a off i : eval skip hex_value a off i = RFail -> forall h m, i = s "#" ++ h ++ m -> Forall hex_digit h -> List.length h <> 3%nat.
Proof.
  rewrite eval_hex. intros H h m -> Hh Hl. rewrite (proj2 (strip_prefix_spec (s "#") (s "#" ++ h ++ m) (h ++ m)) eq_refl) in H.
  rewrite take3_ok in H by assumption. destruct (take3_hex m) as [[? ?]|]; destruct a; discriminate.
Qed.

(** ** Values *)
Definition d_number (p : pair) (v : value_t) : Prop :=
  p_rule p = R_number_value /\ exists x, into_inner p = [x] /\
    ((exists d, d_leaf R_integer x d /\ digits d /\ v = VInteger (Z.of_N (digits_value 0 d))) \/
     (exists d, d_leaf R_decimal x d /\ v = VDecimal (f64_of_lit d))).
Definition d_lit (q : pair) (v : value_t) : Prop :=
  (exists w, d_string q w /\ v = VString w) \/ (exists w, d_bqs q w /\ v = VExpr w) \/
  (exists w, d_leaf R_boolean_value q w /\ bool_word w v) \/ d_number q v \/
  (exists h, d_leaf R_hex_value q h /\ v = VHexColor h).
Definition d_value (p : pair) (v : value_t) : Prop :=
  p_rule p = R_value /\ exists q, into_inner p = [q] /\ d_lit q v.

Definition first_is (P : char -> Prop) (i : str) : Prop := forall c x, i = c :: x -> P c.
Lemma X_number i : (forall c x, i = c :: x -> ~ digit c) -> X number_value i.
Proof. intros H. apply X_rule, X_alt; intros off; apply (eval_num_fail NonAtomic off i H). Qed.
Lemma X_bqs i : nh 96 i -> X backquoted_quoted_string i.
Proof. intros H. rewrite bqs_rule. apply X_quoted; [discriminate|]. intros x E0. apply (H x E0). Qed.
Lemma X_dqs i : nh 34 i -> X double_quoted_string i.
Proof. intros H. rewrite dqs_rule. apply X_quoted; [discriminate|]. intros x E0. apply (H x E0). Qed.
Lemma X_bool_first i : (forall c x, i = c :: x -> c <> 116 /\ c <> 102 /\ c <> 110) -> X boolean_value i.
Proof.
  intros H off. apply eval_bool_fail. intros k x Hk ->. cbn [In] in Hk.
  destruct Hk as [<-|[<-|[<-|[]]]]; edestruct H as (H1 & H2 & H3); try reflexivity; (destruct (H1 eq_refl) || destruct (H2 eq_refl) || destruct (H3 eq_refl)).
Qed.
Lemma nh_cons c d x : c <> d -> nh d (c :: x).
Proof. intros H y E0. congruence. Qed.
Lemma nh_digit d c x : digits (d :: x) -> ~ digit c -> nh c (d :: x).
Proof. intros [_ H] Hc. apply Forall_cons_iff in H as [H _]. apply nh_cons. congruence. Qed.

Lemma bool_text i r v : (exists w, bool_word w v /\ tok w i r) <->
  (tok (s "true") i r /\ v = VBool true) \/ (tok (s "false") i r /\ v = VBool false) \/ (tok (s "null") i r /\ v = VNull).
Proof.
  unfold bool_word. split.
  - intros (w & [[-> ->]|[[-> ->]|[-> ->]]] & H); auto.
  - intros [[H ->]|[[H ->]|[H ->]]]; eexists; (split; [|exact H]); auto.
Qed.
Lemma F_bool i r v w : bool_word w v -> tok w i r -> F boolean_value i r (one (d_leaf R_boolean_value) w).
Proof. intros Hb (m & -> & Hl). eapply F_leaf; [|exact Hl]. intros off. eapply eval_bool_ok. exact Hb. Qed.
Lemma F_value_bool i r v w : bool_word w v -> tok w i r -> F value i r (one d_value v).
Proof.
  intros Hb Ht. eapply F_impl; [|apply F_rule, F_alt1, F_alt1, F_alt2; [|eapply F_bool; eassumption]].
  - intros ps (p & -> & Hp & q & Hq & Hd). exists p. split; [reflexivity|]. split; [exact Hp|]. exists q.
    split; [exact Hq|]. right. right. left. eauto.
  - apply X_alt; [apply X_string|apply X_bqs]; destruct Ht as (m & -> & _);
      destruct Hb as [[-> _]|[[-> _]|[-> _]]]; intros x E0; discriminate.
Qed.
Lemma X_number_pre i d m : digits d -> i = d ++ m -> X (EAlt (EAlt string_value backquoted_quoted_string) boolean_value) i.
Proof.
  intros Hd ->. destruct d as [|c d]; [destruct Hd; congruence|]. destruct Hd as [_ Hd]. apply Forall_cons_iff in Hd as [Hc _].
  unfold digit in Hc. cbn [app].
  apply X_alt; [apply X_alt; [apply X_string|apply X_bqs]; apply nh_cons; lia|].
  apply X_bool_first. intros c0 x [= <- <-]. lia.
Qed.
Lemma F_value_number i r v d m : digits d -> i = d ++ m -> F number_value i r (one d_number v) -> F value i r (one d_value v).
Proof.
  intros Hd Hi HF. eapply F_impl; [|apply F_rule, F_alt1, F_alt2; [|exact HF]].
  - intros ps (p & -> & Hp & q & Hq & Hdn). exists p. split; [reflexivity|]. split; [exact Hp|]. exists q.
    split; [exact Hq|]. right. right. right. left. exact Hdn.
  - eapply X_number_pre; eassumption.
Qed.
Lemma F_value_hex h m r : Forall hex_digit h -> hex_end h m -> lay m r ->
  F value (s "#" ++ h ++ m) r (one d_value (VHexColor (s "#" ++ h))).
Proof.
  intros Hh He Hl. eapply F_impl; [|apply F_rule, F_alt2; [|eapply F_leaf; [|exact Hl]; intros off; apply eval_hex_ok; assumption]].
  - intros ps (p & -> & Hp & q & Hq & Hdn). exists p. split; [reflexivity|]. split; [exact Hp|]. exists q.
    split; [exact Hq|]. right. right. right. right. eauto.
  - change (s "#" ++ h ++ m) with (35 :: h ++ m). apply X_alt; [apply X_alt; [apply X_alt; [apply X_string|apply X_bqs]; apply nh_cons; lia|]|].
    + apply X_bool_first. intros c0 x [= <- <-]. lia.
    + apply X_number. intros c x [= <- <-]. unfold digit. lia.
Qed.

Lemma F_value i r v : literal_r i r v -> nh 39 r -> F value i r (one d_value v).
Proof.
  intros [i' r' w Ht|i' r' w Hq|i' r' Ht|i' r' Ht|i' r' Ht|d m r' Hd Hm Hdot Hl|d1 d2 m r' f H1 H2 Hm Hl Hf|h m r' Hh Hlen Hl|h m r' Hh Hlen Hn Hl] Hr.
  - eapply F_impl; [|apply F_rule, F_alt1, F_alt1, F_alt1, F_alt1, F_string; eassumption].
    intros ps (p & -> & Hp & q & Hq & Hdn). exists p. split; [reflexivity|]. split; [exact Hp|]. exists q.
    split; [exact Hq|]. left. eauto.
  - eapply F_impl; [|apply F_rule, F_alt1, F_alt1, F_alt1, F_alt2; [|rewrite bqs_rule; apply F_quoted; [apply ok_bq|exact Hq]]].
    + intros ps (p & -> & Hp & q & Hqq & Hdn). exists p. split; [reflexivity|]. split; [exact Hp|]. exists q.
      split; [exact Hqq|]. right. left. eauto.
    + destruct Hq as (i1 & m & -> & _). apply X_string, nh_cons. discriminate.
  - eapply F_value_bool; [|exact Ht]. left. auto.
  - eapply F_value_bool; [|exact Ht]. right. left. auto.
  - eapply F_value_bool; [|exact Ht]. right. right. auto.
  - eapply F_value_number; [exact Hd|reflexivity|].
    eapply F_impl; [|apply F_rule, F_alt2; [|eapply F_leaf; [|exact Hl]; intros off; apply eval_int_ok; assumption]].
    + intros ps (p & -> & Hp & q & Hqq & Hdn). exists p. split; [reflexivity|]. split; [exact Hp|]. exists q.
      split; [exact Hqq|]. left. eauto.
    + intros off. apply eval_dec_fail; assumption.
  - apply DecOk.decimal_eq in Hf; [subst f|apply H1|exact H2]. eapply F_value_number; [exact H1|reflexivity|].
    eapply F_impl; [|apply F_rule, F_alt1; eapply F_leaf; [|exact Hl]; intros off; apply eval_dec_ok; assumption].
    intros ps (p & -> & Hp & q & Hqq & Hdn). exists p. split; [reflexivity|]. split; [exact Hp|]. exists q.
    split; [exact Hqq|]. right. eauto.
  - apply F_value_hex; [exact Hh|left; exact Hlen|exact Hl].
  - apply F_value_hex; [exact Hh|right; auto|exact Hl].
Qed.

Lemma B_value i m ps : E value i m ps -> exists v, literal_r i (fin m) v /\ one d_value v ps.
Proof.
  intros H. apply E_rule in H as (p & -> & Hp & H).
  assert (Hex : exists v q, literal_r i (fin m) v /\ into_inner p = [q] /\ d_lit q v).
  { apply E_alt in H as [H|[H _]]; [apply E_alt in H as [H|[H _]]; [apply E_alt in H as [H|[H _]]; [apply E_alt in H as [H|[H _]]|]|]|].
    - apply B_string in H as (v & Hv & q & Hq & Hd). exists (VString v), q. split; [constructor; exact Hv|]. split; [exact Hq|]. left. eauto.
    - rewrite bqs_rule in H. apply B_quoted in H as (v & Hv & q & Hq & Hd); [|apply ok_bq]. exists (VExpr v), q.
      split; [constructor; exact Hv|]. split; [exact Hq|]. right. left. eauto.
    - destruct H as (off & t & H). apply eval_bool_inv in H as (w & v & -> & Hb & He). apply E_leaf in He as (_ & q & Hq & Hd).
      exists v, q. split; [|split; [exact Hq|right; right; left; eauto]].
      assert (Ht : tok w (w ++ m) (fin m)) by (exists m; split; [reflexivity|apply lay_of]).
      destruct Hb as [[-> ->]|[[-> ->]|[-> ->]]]; constructor; exact Ht.
    - apply E_rule in H as (q & Hq & Hr & H). apply E_alt in H as [H|[H (off & Hf)]].
      + destruct H as (off & t & H). apply eval_dec_inv in H as (d1 & d2 & -> & H1 & H2 & Hm & He).
        apply E_leaf in He as (_ & x & Hx & Hd). eexists _, q. split; [apply lr_dec; try eassumption; [apply lay_of|apply DecOk.decimal_ok; [apply H1|exact H2]]|].
        split; [exact Hq|]. right. right. right. left. split; [exact Hr|]. exists x. split; [exact Hx|]. right. eauto.
      + destruct H as (off' & t & H). apply eval_int_inv in H as (d & -> & H1 & Hm & He).
        apply E_leaf in He as (_ & x & Hx & Hd). eexists _, q. split; [apply lr_int; try eassumption; [|apply lay_of]|].
        * eapply eval_dec_fail_inv; eassumption.
        * split; [exact Hq|]. right. right. right. left. split; [exact Hr|]. exists x. split; [exact Hx|]. left. eauto.
    - destruct H as (off & t & H). apply eval_hex_inv in H as (h & -> & Hh & Hen & He). apply E_leaf in He as (_ & q & Hq & Hd).
      eexists _, q. split; [|split; [exact Hq|right; right; right; right; eauto]].
      destruct Hen as [Hlen|[Hlen Hn]]; [apply lr_hex6|apply lr_hex3]; try assumption; apply lay_of. }
  destruct Hex as (v & q & Hv & Hq & Hd). exists v. split; [exact Hv|]. exists p. split; [reflexivity|]. split; [exact Hp|]. eauto.
Qed.
Definition value_start (c : char) : Prop := c = 39 \/ c = 96 \/ c = 116 \/ c = 102 \/ c = 110 \/ digit c \/ c = 35.
Lemma literal_first i r v : literal_r i r v -> hd_in value_start i.
Proof.
  unfold value_start. intros [i' r' w Ht|i' r' w (i1 & m & -> & _)|i' r' (m & -> & _)|i' r' (m & -> & _)|i' r' (m & -> & _)|d m r' [Hd1 Hd2] Hm Hdot Hl|d1 d2 m r' f [H0 H1] H2 Hm Hl Hf|h m r' Hh Hlen Hl|h m r' Hh Hlen Hn Hl].
  - apply text_first in Ht as (x & ->). exists 39, x. auto.
  - exists 96, i1. auto.
  - exists 116. eexists. split; [reflexivity|]. auto.
  - exists 102. eexists. split; [reflexivity|]. auto.
  - exists 110. eexists. split; [reflexivity|]. auto 6.
  - destruct d as [|c d]; [congruence|]. apply Forall_cons_iff in Hd2 as [Hc _]. exists c, (d ++ m). split; [reflexivity|]. auto 8.
  - destruct d1 as [|c d]; [congruence|]. apply Forall_cons_iff in H1 as [Hc _]. exists c. eexists. split; [reflexivity|]. auto 8.
  - exists 35. eexists. split; [reflexivity|]. auto 8.
  - exists 35. eexists. split; [reflexivity|]. auto 8.
Qed.
Lemma X_value i : (forall c x, i = c :: x -> ~ value_start c) -> X value i.
Proof.
  intros H. apply X_rule. repeat apply X_alt.
  - apply X_string. intros x ->. apply (H _ _ eq_refl). unfold value_start. auto.
  - apply X_bqs. intros x ->. apply (H _ _ eq_refl). unfold value_start. auto.
  - apply X_bool_first. intros c x ->. pose proof (H _ _ eq_refl) as Hc. unfold value_start in Hc. tauto.
  - apply X_number. intros c x -> Hd. apply (H _ _ eq_refl). unfold value_start. auto 8.
  - intros off. apply eval_hex_fail. intros x ->. apply (H _ _ eq_refl). unfold value_start. auto 8.
Qed.
