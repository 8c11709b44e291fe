(** * Shape: the pair tree of a successful parse, rule by rule. *)

From Verif Require Export LexRules AstSpec.

Notation D := (der skip).

Lemma run_D e a off inp t r ps : eval skip e a off inp = ROk t r ps -> inp = t ++ r /\ D e a off t r ps.
Proof. apply eval_der. exact skip_app. Qed.

(** ** Inversion *)
Lemma D_seq e1 e2 a off t r ps : D (ESeq e1 e2) a off t r ps ->
  exists t1 g t2 ps1 ps2, t = t1 ++ g ++ t2 /\ ps = ps1 ++ ps2 /\
    D e1 a off t1 (g ++ t2 ++ r) ps1 /\ skipf a (g ++ t2 ++ r) = (g, t2 ++ r) /\
    D e2 a (off + blen t1 + blen g) t2 r ps2.
Proof.
  intros H. inversion H; subst. exists t1, g, t2, ps1, ps2. repeat split; auto.
  unfold skipf. match goal with H : do_skip _ _ _ = _ |- _ => rewrite H end. reflexivity.
Qed.
Lemma D_alt e1 e2 a off t r ps : D (EAlt e1 e2) a off t r ps -> D e1 a off t r ps \/ D e2 a off t r ps.
Proof. intros H. inversion H; subst; auto. Qed.
Lemma D_opt e a off t r ps : D (EOpt e) a off t r ps -> (t = [] /\ ps = []) \/ D e a off t r ps.
Proof. intros H. inversion H; subst; auto. Qed.
Lemma D_str x a off t r ps : D (EStr x) a off t r ps -> t = x /\ ps = [].
Proof. intros H. inversion H; subst; auto. Qed.
Lemma D_insens x a off t r ps : D (EInsens x) a off t r ps -> ps = [].
Proof. intros H. inversion H; subst; auto. Qed.
Lemma D_normal rl b a off t r ps : D (N_ rl b) a off t r ps -> a <> Atomic ->
  exists ps0, ps = [Pair rl off (off + blen t) t ps0] /\ D b a off t r ps0.
Proof. intros H Ha. inversion H; subst. destruct a; [| |congruence]; cbn [emits body_atom] in *; eauto. Qed.
Lemma D_compound rl b a off t r ps : D (C_ rl b) a off t r ps ->
  exists ps0, ps = [Pair rl off (off + blen t) t ps0] /\ D b CompoundAtomic off t r ps0.
Proof. intros H. inversion H; subst. cbn [emits body_atom] in *; eauto. Qed.
Lemma D_eval_rule rl ty b a off t r ps : D (ERule rl ty b) a off t r ps ->
  eval skip (ERule rl ty b) a off (t ++ r) = ROk t r ps.
Proof. intros H. inversion H; subst. assumption. Qed.

(** ** What an expression yields *)
Definition yields (a : atomicity) (e : pexp) (P : pair -> Prop) : Prop :=
  forall off t r ps, D e a off t r ps -> exists p, ps = [p] /\ as_str p = t /\ P p.
Definition silent (a : atomicity) (e : pexp) : Prop :=
  forall off t r ps, D e a off t r ps -> ps = [].
Definition many (a : atomicity) (e : pexp) (P : pair -> Prop) : Prop :=
  forall off t r ps, D e a off t r ps -> Forall P ps.

Lemma yields_alt a e1 e2 P1 P2 : yields a e1 P1 -> yields a e2 P2 -> yields a (EAlt e1 e2) (fun p => P1 p \/ P2 p).
Proof.
  intros H1 H2 off t r ps H. apply D_alt in H as [H|H].
  - apply H1 in H as (p & -> & Ht & Hp). eauto.
  - apply H2 in H as (p & -> & Ht & Hp). eauto.
Qed.
Lemma yields_impl a e (P Q : pair -> Prop) : (forall p, P p -> Q p) -> yields a e P -> yields a e Q.
Proof. intros HPQ H off t r ps Hd. apply H in Hd as (p & -> & Ht & Hp). eauto. Qed.
Lemma many_yields a e P : yields a e P -> many a e P.
Proof. intros H off t r ps Hd. apply H in Hd as (p & -> & _ & Hp). auto. Qed.
Lemma many_silent a e P : silent a e -> many a e P.
Proof. intros H off t r ps Hd. apply H in Hd as ->. constructor. Qed.
Lemma silent_str a x : silent a (EStr x).
Proof. intros off t r ps H. apply D_str in H as [_ ->]. reflexivity. Qed.
Lemma silent_insens a x : silent a (EInsens x).
Proof. intros off t r ps H. apply D_insens in H as ->. reflexivity. Qed.
Lemma many_seq a e1 e2 P : many a e1 P -> many a e2 P -> many a (ESeq e1 e2) P.
Proof.
  intros H1 H2 off t r ps H. apply D_seq in H as (t1 & g & t2 & ps1 & ps2 & -> & -> & Ha & _ & Hb).
  apply Forall_app. split; [eapply H1|eapply H2]; eassumption.
Qed.
Lemma many_alt a e1 e2 P : many a e1 P -> many a e2 P -> many a (EAlt e1 e2) P.
Proof. intros H1 H2 off t r ps H. apply D_alt in H as [H|H]; [eapply H1|eapply H2]; eassumption. Qed.
Lemma many_opt a e P : many a e P -> many a (EOpt e) P.
Proof. intros H1 off t r ps H. apply D_opt in H as [[-> ->]|H]; [constructor|eapply H1; eassumption]. Qed.
Lemma many_dtail a e P : many a e P -> forall off t r ps, dtail skip e a off t r ps -> Forall P ps.
Proof.
  intros H off t r ps Hd. revert H.
  refine (dtail_ind2 skip (fun _ _ _ _ _ _ _ => True)
     (fun e a off t r ps _ => many a e P -> Forall P ps) _ _ _ _ _ _ _ _ _ _ _ _ _ _ _ _ _ e a off t r ps Hd);
    try (intros; exact I).
  - intros; constructor.
  - intros e0 a0 off0 g t1 t2 r0 ps1 ps2 _ Hd1 _ _ IH Hm. apply Forall_app. split; [|apply IH; exact Hm].
    eapply Hm; eassumption.
Qed.
Lemma many_rep a e P : many a e P -> many a (ERep e) P.
Proof.
  intros H off t r ps Hd. inversion Hd; subst; [constructor|].
  apply Forall_app. split; [eapply H; eassumption|eapply many_dtail; eassumption].
Qed.
Lemma many_bracketed e P : yields NonAtomic e P -> many NonAtomic (bracketed e) P.
Proof.
  intros H. unfold bracketed. apply many_yields in H.
  repeat (apply many_seq || apply many_opt || apply many_rep || apply many_silent, silent_str || exact H).
Qed.
Lemma yields_normal a rl b (P : list pair -> str -> Prop) : a <> Atomic ->
  (forall off t r ps, D b a off t r ps -> P ps t) ->
  yields a (N_ rl b) (fun p => p_rule p = rl /\ P (into_inner p) (as_str p)).
Proof.
  intros Ha H off t r ps Hd. apply D_normal in Hd as (ps0 & -> & Hd); [|exact Ha].
  eexists. split; [reflexivity|]. cbn. split; [reflexivity|]. split; [reflexivity|]. eapply H; eassumption.
Qed.
Lemma yields_many rl b P : many NonAtomic b P ->
  yields NonAtomic (N_ rl b) (fun p => p_rule p = rl /\ Forall P (into_inner p)).
Proof. intros H. apply (yields_normal NonAtomic rl b (fun ps _ => Forall P ps)); [discriminate|exact H]. Qed.
Lemma yields_one rl a b P : a <> Atomic -> yields a b P ->
  yields a (N_ rl b) (fun p => p_rule p = rl /\ exists q, into_inner p = [q] /\ as_str q = as_str p /\ P q).
Proof.
  intros Ha H. apply (yields_normal a rl b (fun ps t => exists q, ps = [q] /\ as_str q = t /\ P q)); [exact Ha|].
  intros off t r ps Hd. apply H in Hd. exact Hd.
Qed.

(** Tactic: decompose a derivation of a compound expression. *)
Ltac dstep :=
  match goal with
  | H : D (ESeq _ _) _ _ _ _ _ |- _ =>
      let t1 := fresh "t" in let g := fresh "g" in let t2 := fresh "t" in
      let p1 := fresh "ps" in let p2 := fresh "ps" in
      let Ha := fresh "H" in let Hg := fresh "Hg" in let Hb := fresh "H" in
      apply D_seq in H as (t1 & g & t2 & p1 & p2 & -> & -> & Ha & Hg & Hb)
  | H : D (EOpt _) _ _ _ _ _ |- _ => apply D_opt in H as [[-> ->]|H]
  | H : D (EAlt _ _) _ _ _ _ _ |- _ => apply D_alt in H as [H|H]
  | H : D (EStr _) _ _ _ _ _ |- _ => apply D_str in H as [-> ->]
  | H : D (L _) _ _ _ _ _ |- _ => apply D_str in H as [-> ->]
  | H : D (EInsens _) _ _ _ _ _ |- _ => apply D_insens in H as ->
  | H : D (CI _) _ _ _ _ _ |- _ => apply D_insens in H as ->
  | H : D (N_ _ _) _ _ _ _ _ |- _ =>
      let p := fresh "ps" in
      apply D_normal in H as (p & -> & H); [|discriminate]
  | H : D (C_ _ _) _ _ _ _ _ |- _ => let p := fresh "ps" in apply D_compound in H as (p & -> & H)
  end.

(** Use a [yields] lemma on the last derivation it fits. *)
Ltac dy L p Hp :=
  let Ht := fresh "Et" in
  match type of L with
  | yields ?a ?e _ => match goal with H : D e a _ _ _ _ |- _ => apply L in H as (p & -> & Ht & Hp) end
  end.
(** Use a [yields] lemma on a derivation. *)
Ltac dyield L H p Hp :=
  let Ht := fresh "Et" in
  apply L in H as (p & -> & Ht & Hp).

(** ** Leaves *)
Definition sh_var (p : pair) : Prop := p_rule p = R_var /\ word (as_str p).
Definition sh_svar (p : pair) : Prop := p_rule p = R_spaced_var /\ spaced_word (as_str p).
Definition sh_quoted (a : atomicity) (rs rv : rule) (q : str) (p : pair) : Prop :=
  p_rule p = rs /\ exists x, into_inner p = [x] /\ p_rule x = rv /\
    match a with
    | NonAtomic => quoted q (as_str p) (as_str x)
    | _ => quoted_verbatim q (as_str p) (as_str x)
    end.
Definition sh_dqs a := sh_quoted a R_double_quoted_string R_double_quoted_value dq.
Definition sh_sqs a := sh_quoted a R_single_quoted_string R_single_quoted_value sq.
Definition sh_tqs a := sh_quoted a R_triple_quoted_string R_triple_quoted_value tq.
Definition sh_bqs a := sh_quoted a R_backquoted_quoted_string R_backquoted_quoted_value bq.

Lemma y_var a : a <> Atomic -> yields a var sh_var.
Proof.
  intros Ha off t r ps H. pose proof (D_eval_rule _ _ _ _ _ _ _ _ H) as E.
  change (eval skip var a off (t ++ r) = ROk t r ps) in E. rewrite eval_var in E.
  destruct (t ++ r) as [|c x]; [discriminate|]. destruct (alpha_b c) eqn:Ec; [|discriminate].
  rewrite emit_ok in E by exact Ha. injection E as <- <- <-.
  eexists. split; [reflexivity|]. split; [reflexivity|]. split; [reflexivity|]. cbn. apply word_takewhile. exact Ec.
Qed.
Lemma y_svar a : a <> Atomic -> yields a spaced_var sh_svar.
Proof.
  intros Ha off t r ps H. pose proof (D_eval_rule _ _ _ _ _ _ _ _ H) as E.
  change (eval skip spaced_var a off (t ++ r) = ROk t r ps) in E. rewrite eval_spaced_var in E.
  destruct (t ++ r) as [|c x]; [discriminate|]. destruct (alpha_b c) eqn:Ec; [|discriminate].
  rewrite emit_ok in E by exact Ha. injection E as <- <- <-.
  eexists. split; [reflexivity|]. split; [reflexivity|]. split; [reflexivity|]. cbn.
  eexists _, _. split; [reflexivity|]. split; [apply alpha_b_spec; exact Ec|apply svar_tail_ok].
Qed.

Lemma y_quoted a rs rv q : a <> Atomic -> q <> [] -> (forall r, solid (q ++ r)) ->
  yields a (quoted_rule rs rv q) (sh_quoted a rs rv q).
Proof.
  intros Ha Hq Hs off t r ps H. pose proof (D_eval_rule _ _ _ _ _ _ _ _ H) as E.
  change (eval skip (quoted_rule rs rv q) a off (t ++ r) = ROk t r ps) in E.
  rewrite eval_quoted in E by assumption.
  destruct (strip_prefix q (t ++ r)) as [i|]; [|discriminate].
  destruct (skipf a i) as [g i2] eqn:Esk.
  destruct (strip_prefix q (after (starts q) i2)) as [r'|] eqn:Ea; [|discriminate].
  cbv zeta in E. apply strip_prefix_spec in Ea.
  assert (Et : t = q ++ g ++ before (starts q) i2 ++ q) by congruence.
  assert (Er : r = r') by congruence. subst r'.
  assert (Eps : ps = [Pair rs off (off + blen t) t [leaf rv (off + blen q + blen g) (before (starts q) i2)]])
    by congruence.
  clear E. eexists. split; [exact Eps|]. split; [reflexivity|]. split; [reflexivity|]. cbn [into_inner as_str].
  eexists. split; [reflexivity|]. split; [reflexivity|]. cbn [leaf as_str].
  pose proof (closes_first_before q i2 r Hq Ea) as Hc.
  destruct a; [|split; [rewrite Et|exact Hc]|congruence].
  - apply skipf_spec in Esk as (-> & Hg & Hn). exists g. split; [exact Et|]. split; [|split].
    + eapply gap_to_nonempty; [exact Hg|]. rewrite <- (before_after (starts q) i2), Ea.
      intros Hnil. apply app_eq_nil in Hnil as [_ Hnil]. apply app_eq_nil in Hnil as [Hnil _]. congruence.
    + rewrite <- (before_after (starts q) i2) in Hn. eapply no_layout_prefix; exact Hn.
    + exact Hc.
  - rewrite skipf_compound in Esk. injection Esk as <- <-. reflexivity.
Qed.
Lemma y_dqs a : a <> Atomic -> yields a double_quoted_string (sh_dqs a).
Proof. intros Ha. rewrite dqs_rule. apply y_quoted; [exact Ha|discriminate|apply solid_dq]. Qed.
Lemma y_sqs a : a <> Atomic -> yields a single_quoted_string (sh_sqs a).
Proof. intros Ha. rewrite sqs_rule. apply y_quoted; [exact Ha|discriminate|apply solid_sq]. Qed.
Lemma y_bqs a : a <> Atomic -> yields a backquoted_quoted_string (sh_bqs a).
Proof. intros Ha. rewrite bqs_rule. apply y_quoted; [exact Ha|discriminate|apply solid_bq]. Qed.
Lemma y_tqs a : a <> Atomic -> yields a triple_quoted_string (sh_tqs a).
Proof. intros Ha. rewrite tqs_rule. apply y_quoted; [exact Ha|discriminate|apply solid_tq]. Qed.

(** ** Identifiers and values *)
Definition one (rl : rule) (P : pair -> Prop) (p : pair) : Prop :=
  p_rule p = rl /\ exists q, into_inner p = [q] /\ as_str q = as_str p /\ P q.
Definition sh_ident (a : atomicity) : pair -> Prop := one R_ident (fun q => sh_var q \/ sh_dqs a q).
Lemma y_ident a : a <> Atomic -> yields a ident (sh_ident a).
Proof. intros Ha. apply yields_one; [exact Ha|]. apply yields_alt; [apply y_var|apply y_dqs]; exact Ha. Qed.

Definition sh_string_value a : pair -> Prop := one R_string_value (fun q => sh_tqs a q \/ sh_sqs a q).
Lemma y_string_value a : a <> Atomic -> yields a string_value (sh_string_value a).
Proof. intros Ha. apply yields_one; [exact Ha|]. apply yields_alt; [apply y_tqs|apply y_sqs]; exact Ha. Qed.

Definition sh_integer (p : pair) : Prop := p_rule p = R_integer /\ digits (as_str p).
Definition sh_decimal (p : pair) : Prop := p_rule p = R_decimal /\
  exists d1 d2, as_str p = d1 ++ s "." ++ d2 /\ digits d1 /\ Forall digit d2.
Lemma digits_takewhile c x : digit_b c = true -> digits (c :: takewhile digit_b x).
Proof.
  intros Hc. split; [discriminate|]. constructor; [apply digit_b_spec; exact Hc|].
  apply (Forall_bool digit_b); [apply digit_b_spec|apply takewhile_Forall].
Qed.
Lemma y_integer a : a <> Atomic -> yields a integer sh_integer.
Proof.
  intros Ha off t r ps H. pose proof (D_eval_rule _ _ _ _ _ _ _ _ H) as E.
  change (eval skip integer a off (t ++ r) = ROk t r ps) in E. rewrite eval_integer in E.
  destruct (t ++ r) as [|c x]; [discriminate|]. destruct (digit_b c) eqn:Ec; [|discriminate].
  rewrite emit_ok in E by exact Ha. injection E as <- <- <-.
  eexists. split; [reflexivity|]. split; [reflexivity|]. split; [reflexivity|]. cbn. apply digits_takewhile. exact Ec.
Qed.
Lemma y_decimal a : a <> Atomic -> yields a decimal sh_decimal.
Proof.
  intros Ha off t r ps H. pose proof (D_eval_rule _ _ _ _ _ _ _ _ H) as E.
  change (eval skip decimal a off (t ++ r) = ROk t r ps) in E. rewrite eval_decimal in E.
  destruct (t ++ r) as [|c x]; [discriminate|]. destruct (digit_b c) eqn:Ec; [|discriminate].
  destruct (dropwhile digit_b x) as [|d r2]; [discriminate|].
  destruct (N.eq_dec d 46) as [->|Hd].
  - rewrite emit_ok in E by exact Ha. injection E as <- <- <-.
    eexists. split; [reflexivity|]. split; [reflexivity|]. split; [reflexivity|]. cbn [as_str].
    exists (c :: takewhile digit_b x), (takewhile digit_b r2). split; [reflexivity|].
    split; [apply digits_takewhile; exact Ec|]. apply (Forall_bool digit_b); [apply digit_b_spec|apply takewhile_Forall].
  - exfalso. destruct d as [|p]; [discriminate|]. do 6 (destruct p as [p|p|]; try discriminate). congruence.
Qed.
Definition sh_number : pair -> Prop := one R_number_value (fun q => sh_decimal q \/ sh_integer q).
Lemma y_number a : a <> Atomic -> yields a number_value sh_number.
Proof. intros Ha. apply yields_one; [exact Ha|]. apply yields_alt; [apply y_decimal|apply y_integer]; exact Ha. Qed.

Definition sh_boolean (p : pair) : Prop := p_rule p = R_boolean_value /\
  (as_str p = s "true" \/ as_str p = s "false" \/ as_str p = s "null").
Lemma y_boolean a : a <> Atomic -> yields a boolean_value sh_boolean.
Proof.
  intros Ha off t r ps H. pose proof (D_eval_rule _ _ _ _ _ _ _ _ H) as E.
  change (eval skip boolean_value a off (t ++ r) = ROk t r ps) in E. rewrite eval_boolean in E.
  destruct (strip_prefix (s "true") (t ++ r)) as [r1|];
    [|destruct (strip_prefix (s "false") (t ++ r)) as [r1|];
      [|destruct (strip_prefix (s "null") (t ++ r)) as [r1|]; [|discriminate]]];
    rewrite emit_ok in E by exact Ha; injection E as <- <- <-;
    (eexists; split; [reflexivity|]; split; [reflexivity|]; split; [reflexivity|]; cbn [as_str]; auto).
Qed.
Definition sh_hex (p : pair) : Prop := p_rule p = R_hex_value /\
  exists h, as_str p = s "#" ++ h /\ Forall hex_digit h /\ (List.length h = 3 \/ List.length h = 6)%nat.
Lemma take3_hex_spec x t r : take3_hex x = Some (t, r) -> Forall hex_digit t /\ List.length t = 3%nat.
Proof.
  destruct x as [|c1 [|c2 [|c3 x]]]; cbn [take3_hex]; try discriminate.
  destruct (hex_b c1) eqn:E1; [|discriminate]. destruct (hex_b c2) eqn:E2; [|discriminate].
  destruct (hex_b c3) eqn:E3; [|discriminate]. intros [= <- <-]. split; [|reflexivity].
  repeat (apply Forall_cons; [apply hex_b_spec; assumption|]). apply Forall_nil.
Qed.
Lemma y_hex a : a <> Atomic -> yields a hex_value sh_hex.
Proof.
  intros Ha off t r ps H. pose proof (D_eval_rule _ _ _ _ _ _ _ _ H) as E.
  change (eval skip hex_value a off (t ++ r) = ROk t r ps) in E. rewrite eval_hex in E.
  destruct (strip_prefix (s "#") (t ++ r)) as [i|]; [|discriminate].
  destruct (take3_hex i) as [[t1 r1]|] eqn:E1; [|discriminate]. apply take3_hex_spec in E1 as [F1 L1].
  destruct (take3_hex r1) as [[t2 r2]|] eqn:E2.
  - apply take3_hex_spec in E2 as [F2 L2].
    rewrite emit_ok in E by exact Ha. injection E as <- <- <-.
    eexists; split; [reflexivity|]; split; [reflexivity|]; split; [reflexivity|]; cbn [as_str].
    exists (t1 ++ t2). split; [reflexivity|]. split; [apply Forall_app; auto|]. rewrite app_length. right. lia.
  - rewrite emit_ok in E by exact Ha. injection E as <- <- <-.
    eexists; split; [reflexivity|]; split; [reflexivity|]; split; [reflexivity|]; cbn [as_str].
    exists t1. split; [reflexivity|]. auto.
Qed.
Definition sh_value a : pair -> Prop :=
  one R_value (fun q => (((sh_string_value a q \/ sh_bqs a q) \/ sh_boolean q) \/ sh_number q) \/ sh_hex q).
Lemma y_value a : a <> Atomic -> yields a value (sh_value a).
Proof.
  intros Ha. apply yields_one; [exact Ha|]. repeat apply yields_alt;
    [apply y_string_value|apply y_bqs|apply y_boolean|apply y_number|apply y_hex]; exact Ha.
Qed.

(** ** Attributes *)
Definition sh_attr_val (p : pair) : Prop := (sh_value NonAtomic p \/ sh_svar p) \/ sh_dqs NonAtomic p.
Definition sh_attribute (p : pair) : Prop := p_rule p = R_attribute /\
  exists k, sh_svar k /\ (into_inner p = [k] \/ exists v, into_inner p = [k; v] /\ sh_attr_val v).
Lemma y_attribute : yields NonAtomic attribute sh_attribute.
Proof.
  apply (yields_normal NonAtomic _ _ (fun ps _ => exists k, sh_svar k /\ (ps = [k] \/ exists v, ps = [k; v] /\ sh_attr_val v)));
    [discriminate|].
  intros off t r ps H. repeat dstep.
  - dyield (y_svar NonAtomic ltac:(discriminate)) H0 k Hk. exists k. auto.
  - dyield (y_svar NonAtomic ltac:(discriminate)) H0 k Hk. exists k. split; [exact Hk|]. right.
    dyield (y_value NonAtomic ltac:(discriminate)) H2 v Hv. exists v. split; [reflexivity|]. left; left; exact Hv.
  - dyield (y_svar NonAtomic ltac:(discriminate)) H0 k Hk. exists k. split; [exact Hk|]. right.
    dyield (y_svar NonAtomic ltac:(discriminate)) H2 v Hv. exists v. split; [reflexivity|]. left; right; exact Hv.
  - dyield (y_svar NonAtomic ltac:(discriminate)) H0 k Hk. exists k. split; [exact Hk|]. right.
    dyield (y_dqs NonAtomic ltac:(discriminate)) H2 v Hv. exists v. split; [reflexivity|]. right; exact Hv.
Qed.
Definition sh_property (p : pair) : Prop := p_rule p = R_property /\
  exists k v, into_inner p = [k; v] /\ sh_svar k /\ sh_attr_val v.
Lemma y_property : yields NonAtomic property sh_property.
Proof.
  apply (yields_normal NonAtomic _ _ (fun ps _ => exists k v, ps = [k; v] /\ sh_svar k /\ sh_attr_val v)); [discriminate|].
  intros off t r ps H. repeat dstep.
  - dyield (y_svar NonAtomic ltac:(discriminate)) H0 k Hk.
    dyield (y_value NonAtomic ltac:(discriminate)) H2 v Hv. exists k, v. split; [reflexivity|]. split; [exact Hk|left; left; exact Hv].
  - dyield (y_svar NonAtomic ltac:(discriminate)) H0 k Hk.
    dyield (y_svar NonAtomic ltac:(discriminate)) H2 v Hv. exists k, v. split; [reflexivity|]. split; [exact Hk|left; right; exact Hv].
Qed.
Definition sh_many (rl : rule) (P : pair -> Prop) (p : pair) : Prop := p_rule p = rl /\ Forall P (into_inner p).
Definition sh_settings (rl : rule) : pair -> Prop := sh_many rl sh_attribute.
Lemma y_settings rl : yields NonAtomic (N_ rl (bracketed attribute)) (sh_settings rl).
Proof. apply yields_many, many_bracketed, y_attribute. Qed.

Lemma y_rel_settings : yields NonAtomic rel_settings (sh_settings R_rel_settings).
Proof. apply y_settings. Qed.
Lemma y_indexes_settings : yields NonAtomic indexes_settings (sh_settings R_indexes_settings).
Proof. apply y_settings. Qed.
Lemma y_enum_settings : yields NonAtomic enum_settings (sh_settings R_enum_settings).
Proof. apply y_settings. Qed.
Lemma y_block_settings : yields NonAtomic block_settings (sh_settings R_block_settings).
Proof. apply y_settings. Qed.

(** ** Declared names, references *)
Definition NA : NonAtomic <> Atomic := ltac:(discriminate).
Definition CA : CompoundAtomic <> Atomic := ltac:(discriminate).
Notation sh_id := (sh_ident NonAtomic).

Definition sh_decl_ident (p : pair) : Prop := p_rule p = R_decl_ident /\
  ((exists n, into_inner p = [n] /\ sh_id n) \/ (exists sc n, into_inner p = [sc; n] /\ sh_id sc /\ sh_id n)).
Lemma y_decl_ident : yields NonAtomic decl_ident sh_decl_ident.
Proof.
  apply (yields_normal NonAtomic _ _ (fun ps _ => (exists n, ps = [n] /\ sh_id n) \/ (exists sc n, ps = [sc; n] /\ sh_id sc /\ sh_id n)));
    [discriminate|].
  intros off t r ps H. repeat dstep.
  - dy (y_ident _ NA) n Hn. left. exists n. auto.
  - dy (y_ident _ NA) n2 Hn2. dy (y_ident _ NA) n Hn. right. exists n, n2. auto.
Qed.

Definition sh_relation (p : pair) : Prop := p_rule p = R_relation /\
  (as_str p = s "<>" \/ as_str p = s "-" \/ as_str p = s ">" \/ as_str p = s "<").
Lemma y_relation : yields NonAtomic relation sh_relation.
Proof.
  intros off t r ps H. unfold relation in H. inversion H; subst. cbn [emits body_atom] in *.
  eexists. split; [reflexivity|]. split; [reflexivity|]. split; [reflexivity|]. cbn [as_str].
  repeat dstep; auto.
Qed.
Definition sh_ref_composition (p : pair) : Prop :=
  p_rule p = R_ref_composition /\ Forall sh_id (into_inner p) /\ into_inner p <> [].
Lemma y_ref_composition : yields NonAtomic ref_composition sh_ref_composition.
Proof.
  apply (yields_normal NonAtomic _ _ (fun ps _ => Forall sh_id ps /\ ps <> [])); [discriminate|].
  intros off t r ps H. apply D_alt in H as [H|H].
  - dyield (y_ident _ NA) H n Hn. split; [auto|discriminate].
  - repeat dstep. dy (y_ident _ NA) n Hn. cbn [app]. split; [|discriminate]. rewrite app_nil_r.
    constructor; [exact Hn|].
    eapply many_rep; [|eassumption]. apply many_seq; [apply many_silent, silent_str|apply many_yields, y_ident; discriminate].
Qed.
Definition sh_ref_ident (p : pair) : Prop := p_rule p = R_ref_ident /\
  ((exists t c, into_inner p = [t; c] /\ sh_id t /\ sh_ref_composition c) \/
   (exists sc t c, into_inner p = [sc; t; c] /\ sh_id sc /\ sh_id t /\ sh_ref_composition c)).
Lemma y_ref_ident : yields NonAtomic ref_ident sh_ref_ident.
Proof.
  apply (yields_normal NonAtomic _ _ (fun ps _ =>
    (exists t c, ps = [t; c] /\ sh_id t /\ sh_ref_composition c) \/
    (exists sc t c, ps = [sc; t; c] /\ sh_id sc /\ sh_id t /\ sh_ref_composition c))); [discriminate|].
  intros off t r ps H. repeat dstep.
  - dy y_ref_composition c Hc. dy (y_ident _ NA) n Hn. left. exists n, c. auto.
  - dy y_ref_composition c Hc. dy (y_ident _ NA) n2 Hn2. dy (y_ident _ NA) n Hn.
    right. exists n, n2, c. auto.
Qed.
Definition sh_ref_inline (p : pair) : Prop := p_rule p = R_ref_inline /\
  exists rl i, into_inner p = [rl; i] /\ sh_relation rl /\ sh_ref_ident i.
Lemma y_ref_inline : yields NonAtomic ref_inline sh_ref_inline.
Proof.
  apply (yields_normal NonAtomic _ _ (fun ps _ => exists rl i, ps = [rl; i] /\ sh_relation rl /\ sh_ref_ident i)); [discriminate|].
  intros off t r ps H. repeat dstep.
  dy y_ref_ident i Hi. dy y_relation rl Hr. exists rl, i. auto.
Qed.
Definition opt_last (P : pair -> Prop) (l tail : list pair) : Prop :=
  tail = l \/ exists x, tail = l ++ [x] /\ P x.
Definition sh_ref_stmt (p : pair) : Prop := p_rule p = R_ref_stmt /\
  exists l rl r, opt_last (sh_settings R_rel_settings) [l; rl; r] (into_inner p) /\
    sh_ref_ident l /\ sh_relation rl /\ sh_ref_ident r.
Lemma y_ref_stmt : yields NonAtomic ref_stmt sh_ref_stmt.
Proof.
  apply (yields_normal NonAtomic _ _ (fun ps _ => exists l rl r, opt_last (sh_settings R_rel_settings) [l; rl; r] ps /\
    sh_ref_ident l /\ sh_relation rl /\ sh_ref_ident r)); [discriminate|].
  intros off t r ps H. repeat dstep.
  - dy y_ref_ident i Hi. dy y_relation rl Hr. dy y_ref_ident l Hl. exists l, rl, i.
    split; [left; reflexivity|auto].
  - dy y_ref_ident i Hi. dy y_relation rl Hr. dy y_ref_ident l Hl. exists l, rl, i.
    dy y_rel_settings st Hst. split; [right; exists st; auto|auto].
Qed.
Definition sh_ref_body (rl : rule) (p : pair) : Prop := p_rule p = rl /\
  exists st, sh_ref_stmt st /\ (into_inner p = [st] \/ exists n, into_inner p = [n; st] /\ sh_id n).
Lemma y_ref_short : yields NonAtomic ref_short (sh_ref_body R_ref_short).
Proof.
  apply (yields_normal NonAtomic _ _ (fun ps _ => exists st, sh_ref_stmt st /\ (ps = [st] \/ exists n, ps = [n; st] /\ sh_id n)));
    [discriminate|].
  intros off t r ps H. repeat dstep.
  - dy y_ref_stmt st Hst. exists st. auto.
  - dy y_ref_stmt st Hst. dy (y_ident _ NA) n Hn. exists st. split; [exact Hst|]. right. exists n. auto.
Qed.
Lemma y_ref_block : yields NonAtomic ref_block (sh_ref_body R_ref_block).
Proof.
  apply (yields_normal NonAtomic _ _ (fun ps _ => exists st, sh_ref_stmt st /\ (ps = [st] \/ exists n, ps = [n; st] /\ sh_id n)));
    [discriminate|].
  intros off t r ps H. repeat dstep.
  - dy y_ref_stmt st Hst. exists st. auto.
  - dy y_ref_stmt st Hst. dy (y_ident _ NA) n Hn. exists st. split; [exact Hst|]. right. exists n. auto.
Qed.
Definition sh_ref_decl : pair -> Prop := one R_ref_decl (fun q => sh_ref_body R_ref_block q \/ sh_ref_body R_ref_short q).
Lemma y_ref_decl : yields NonAtomic ref_decl sh_ref_decl.
Proof. apply yields_one; [discriminate|]. apply yields_alt; [apply y_ref_block|apply y_ref_short]. Qed.

(** ** Notes *)
Definition sh_note_body (rl : rule) (p : pair) : Prop := p_rule p = rl /\
  exists v, into_inner p = [v] /\ sh_string_value NonAtomic v.
Lemma y_note_short : yields NonAtomic note_short (sh_note_body R_note_short).
Proof.
  apply (yields_normal NonAtomic _ _ (fun ps _ => exists v, ps = [v] /\ sh_string_value NonAtomic v)); [discriminate|].
  intros off t r ps H. repeat dstep. dy (y_string_value _ NA) v Hv. exists v. auto.
Qed.
Lemma y_note_block : yields NonAtomic note_block (sh_note_body R_note_block).
Proof.
  apply (yields_normal NonAtomic _ _ (fun ps _ => exists v, ps = [v] /\ sh_string_value NonAtomic v)); [discriminate|].
  intros off t r ps H. repeat dstep. dy (y_string_value _ NA) v Hv. exists v. auto.
Qed.
Definition sh_note_decl : pair -> Prop := one R_note_decl (fun q => sh_note_body R_note_short q \/ sh_note_body R_note_block q).
Lemma y_note_decl : yields NonAtomic note_decl sh_note_decl.
Proof. apply yields_one; [discriminate|]. apply yields_alt; [apply y_note_short|apply y_note_block]. Qed.

(** ** Indexes *)
Definition sh_indexes_ident : pair -> Prop := one R_indexes_ident (fun q => sh_id q \/ sh_bqs NonAtomic q).
Lemma y_indexes_ident : yields NonAtomic indexes_ident sh_indexes_ident.
Proof. apply yields_one; [discriminate|]. apply yields_alt; [apply (y_ident _ NA)|apply (y_bqs _ NA)]. Qed.
Definition sh_index_def (rl : rule) (p : pair) : Prop := p_rule p = rl /\
  exists cs, opt_last (sh_settings R_indexes_settings) cs (into_inner p) /\ Forall sh_indexes_ident cs.
Lemma y_indexes_single : yields NonAtomic indexes_single (sh_index_def R_indexes_single).
Proof.
  apply (yields_normal NonAtomic _ _ (fun ps _ => exists cs, opt_last (sh_settings R_indexes_settings) cs ps /\ Forall sh_indexes_ident cs));
    [discriminate|].
  intros off t r ps H. repeat dstep.
  - dy y_indexes_ident i Hi. exists [i]. split; [left; reflexivity|auto].
  - dy y_indexes_settings st Hst. dy y_indexes_ident i Hi.
    exists [i]. split; [right; exists st; auto|auto].
Qed.
Lemma y_indexes_multi : yields NonAtomic indexes_multi (sh_index_def R_indexes_multi).
Proof.
  apply (yields_normal NonAtomic _ _ (fun ps _ => exists cs, opt_last (sh_settings R_indexes_settings) cs ps /\ Forall sh_indexes_ident cs));
    [discriminate|].
  intros off t r ps H.
  apply D_seq in H as (t1 & g1 & t2 & ps1 & ps2 & -> & -> & H1 & _ & H).
  apply D_seq in H as (t3 & g3 & t4 & ps3 & ps4 & -> & -> & H3 & _ & H).
  apply D_seq in H as (t5 & g5 & t6 & ps5 & ps6 & -> & -> & H5 & _ & H).
  apply D_str in H1 as [-> ->]. apply D_str in H5 as [-> ->]. cbn [app].
  assert (Hc : Forall sh_indexes_ident ps3).
  { revert H3. apply (many_opt NonAtomic _ sh_indexes_ident).
    repeat (apply many_seq || apply many_rep || (apply many_silent, silent_str) || apply many_yields, y_indexes_ident). }
  exists ps3. split; [|exact Hc]. apply D_opt in H as [[-> ->]|H].
  - left. apply app_nil_r.
  - dyield y_indexes_settings H st Hst. right. exists st. auto.
Qed.
Definition sh_indexes_block : pair -> Prop := sh_many R_indexes_block
  (fun p => sh_index_def R_indexes_single p \/ sh_index_def R_indexes_multi p).
Lemma y_indexes_block : yields NonAtomic indexes_block sh_indexes_block.
Proof.
  apply yields_many. repeat (apply many_seq || apply many_rep || (apply many_silent, silent_str)).
  apply many_yields, yields_alt; [apply y_indexes_single|apply y_indexes_multi].
Qed.
Definition sh_indexes_decl (p : pair) : Prop := p_rule p = R_indexes_decl /\
  exists b, into_inner p = [b] /\ sh_indexes_block b.
Lemma y_indexes_decl : yields NonAtomic indexes_decl sh_indexes_decl.
Proof.
  apply (yields_normal NonAtomic _ _ (fun ps _ => exists b, ps = [b] /\ sh_indexes_block b)); [discriminate|].
  intros off t r ps H. repeat dstep. dy y_indexes_block b Hb. exists b. auto.
Qed.

(** ** Enums *)
Definition sh_enum_value (p : pair) : Prop := p_rule p = R_enum_value /\
  exists n, opt_last (sh_settings R_enum_settings) [n] (into_inner p) /\ sh_id n.
Lemma y_enum_value : yields NonAtomic enum_value sh_enum_value.
Proof.
  apply (yields_normal NonAtomic _ _ (fun ps _ => exists n, opt_last (sh_settings R_enum_settings) [n] ps /\ sh_id n)); [discriminate|].
  intros off t r ps H. repeat dstep.
  - dy (y_ident _ NA) i Hi. exists i. split; [left; reflexivity|auto].
  - dy y_enum_settings st Hst. dy (y_ident _ NA) i Hi.
    exists i. split; [right; exists st; auto|auto].
Qed.
Definition sh_enum_block : pair -> Prop := sh_many R_enum_block sh_enum_value.
Lemma y_enum_block : yields NonAtomic enum_block sh_enum_block.
Proof.
  apply yields_many. repeat (apply many_seq || apply many_rep || (apply many_silent, silent_str)).
  apply many_yields, y_enum_value.
Qed.
Definition sh_enum_decl (p : pair) : Prop := p_rule p = R_enum_decl /\
  exists i b, into_inner p = [i; b] /\ sh_decl_ident i /\ sh_enum_block b.
Lemma y_enum_decl : yields NonAtomic enum_decl sh_enum_decl.
Proof.
  apply (yields_normal NonAtomic _ _ (fun ps _ => exists i b, ps = [i; b] /\ sh_decl_ident i /\ sh_enum_block b)); [discriminate|].
  intros off t r ps H. repeat dstep. dy y_enum_block b Hb. dy y_decl_ident i Hi. exists i, b. auto.
Qed.

(** ** Column types *)
Notation sh_idc := (sh_ident CompoundAtomic).
Lemma D_seq_c e1 e2 off t r ps : D (ESeq e1 e2) CompoundAtomic off t r ps ->
  exists t1 t2 ps1 ps2, t = t1 ++ t2 /\ ps = ps1 ++ ps2 /\
    D e1 CompoundAtomic off t1 (t2 ++ r) ps1 /\ D e2 CompoundAtomic (off + blen t1) t2 r ps2.
Proof.
  intros H. apply D_seq in H as (t1 & g & t2 & ps1 & ps2 & -> & -> & H1 & Hg & H2).
  rewrite skipf_compound in Hg. injection Hg as <-. cbn [app blen] in *. rewrite N.add_0_r in H2.
  exists t1, t2, ps1, ps2. auto.
Qed.
(** Repetition in a compound-atomic rule: the texts are adjacent. *)
Definition yields_as (e : pexp) (f : pair -> str) (P : pair -> Prop) : Prop :=
  forall off t r ps, D e CompoundAtomic off t r ps -> exists p, ps = [p] /\ t = f p /\ P p.
Lemma rep_c e f P : yields_as e f P -> forall off t r ps, D (ERep e) CompoundAtomic off t r ps ->
  Forall P ps /\ t = List.concat (map f ps).
Proof.
  intros H.
  assert (Ht : forall off t r ps, dtail skip e CompoundAtomic off t r ps -> Forall P ps /\ t = List.concat (map f ps)).
  { intros off t r ps Hd. revert H.
    refine (dtail_ind2 skip (fun _ _ _ _ _ _ _ => True)
      (fun e a off t r ps _ => a = CompoundAtomic -> yields_as e f P -> Forall P ps /\ t = List.concat (map f ps))
      _ _ _ _ _ _ _ _ _ _ _ _ _ _ _ _ _ e CompoundAtomic off t r ps Hd eq_refl); try (intros; exact I).
    - intros. split; [constructor|reflexivity].
    - intros e0 a0 off0 g t1 t2 r0 ps1 ps2 Hg Hd1 _ _ IH -> Hm.
      cbn [do_skip] in Hg. injection Hg as <-. apply Hm in Hd1 as (p & -> & -> & Hp).
      destruct (IH eq_refl Hm) as [IH1 ->]. split; [constructor; assumption|reflexivity]. }
  intros off t r ps Hd. inversion Hd; subst; [split; [constructor|reflexivity]|].
  match goal with Hx : D e _ _ _ _ _ |- _ => apply H in Hx as (p & -> & -> & Hp) end.
  match goal with Hx : dtail _ _ _ _ _ _ _ |- _ => apply Ht in Hx as [Hx ->] end.
  split; [constructor; assumption|reflexivity].
Qed.
Lemma yields_yields_as e P : yields CompoundAtomic e P -> yields_as e as_str P.
Proof. intros H off t r ps Hd. apply H in Hd as (p & -> & <- & Hp). eauto. Qed.

Lemma join_concat (x : str) (l : list pair) :
  x ++ List.concat (map (fun p => s "," ++ as_str p) l) = join (s ",") (x :: map as_str l).
Proof.
  revert x. induction l as [|p l IH]; intros x; cbn [map List.concat join]; [apply app_nil_r|].
  rewrite <- app_assoc. rewrite IH. reflexivity.
Qed.
Definition sh_type_arg (p : pair) : Prop := p_rule p = R_col_type_arg /\
  Forall (sh_value CompoundAtomic) (into_inner p) /\
  as_str p = s "(" ++ join (s ",") (map as_str (into_inner p)) ++ s ")".
Lemma y_type_arg : yields CompoundAtomic col_type_arg sh_type_arg.
Proof.
  apply (yields_normal CompoundAtomic _ _ (fun ps t => Forall (sh_value CompoundAtomic) ps /\
    t = s "(" ++ join (s ",") (map as_str ps) ++ s ")")); [discriminate|].
  intros off t r ps H.
  apply D_seq_c in H as (t1 & t2 & ps1 & ps2 & -> & -> & H1 & H).
  apply D_seq_c in H as (t3 & t4 & ps3 & ps4 & -> & -> & H2 & H).
  apply D_str in H1 as [-> ->]. apply D_str in H as [-> ->]. cbn [app]. rewrite app_nil_r.
  apply D_opt in H2 as [[-> ->]|H2]; [split; [constructor|reflexivity]|].
  apply D_seq_c in H2 as (t5 & t6 & ps5 & ps6 & -> & -> & H5 & H6).
  apply (y_value _ CA) in H5 as (v & -> & <- & Hv).
  apply (rep_c _ (fun p => s "," ++ as_str p) (sh_value CompoundAtomic)) in H6 as [H6 ->].
  - cbn [app]. split; [constructor; assumption|]. cbn [map]. rewrite join_concat. reflexivity.
  - intros o t' r' q Hd. apply D_seq_c in Hd as (t1 & t2 & ps1 & ps2 & -> & -> & Ha & Hd).
    apply D_str in Ha as [-> ->]. apply (y_value _ CA) in Hd as (w & -> & <- & Hw). exists w. auto.
Qed.
Definition sh_type_array (p : pair) : Prop := p_rule p = R_col_type_array /\
  ((into_inner p = [] /\ as_str p = s "[]") \/
   exists n, into_inner p = [n] /\ sh_integer n /\ as_str p = s "[" ++ as_str n ++ s "]").
Lemma y_type_array : yields CompoundAtomic col_type_array sh_type_array.
Proof.
  apply (yields_normal CompoundAtomic _ _ (fun ps t => (ps = [] /\ t = s "[]") \/
    exists n, ps = [n] /\ sh_integer n /\ t = s "[" ++ as_str n ++ s "]")); [discriminate|].
  intros off t r ps H.
  apply D_seq_c in H as (t1 & t2 & ps1 & ps2 & -> & -> & H1 & H).
  apply D_seq_c in H as (t3 & t4 & ps3 & ps4 & -> & -> & H2 & H).
  apply D_str in H1 as [-> ->]. apply D_str in H as [-> ->]. cbn [app].
  apply D_opt in H2 as [[-> ->]|H2]; [left; split; reflexivity|].
  apply (y_integer _ CA) in H2 as (n & -> & <- & Hn). right. exists n. auto.
Qed.
(** name, optional arguments, arrays *)
Definition opt_pair (P : pair -> Prop) (l : list pair) : Prop := l = [] \/ exists x, l = [x] /\ P x.
Lemma D_opt_yields a e P off t r ps : yields a e P -> D (EOpt e) a off t r ps -> opt_pair P ps.
Proof.
  intros H Hd. apply D_opt in Hd as [[-> ->]|Hd]; [left; reflexivity|].
  apply H in Hd as (p & -> & _ & Hp). right. exists p. auto.
Qed.
Definition txts (l : list pair) : str := List.concat (map as_str l).
Lemma D_opt_txt a e P off t r ps : yields a e P -> D (EOpt e) a off t r ps -> opt_pair P ps /\ t = txts ps.
Proof.
  intros H Hd. apply D_opt in Hd as [[-> ->]|Hd]; [split; [left|]; reflexivity|].
  apply H in Hd as (p & -> & <- & Hp). split; [right; exists p; auto|]. unfold txts. cbn. rewrite app_nil_r. reflexivity.
Qed.
Definition sh_type_unquoted (p : pair) : Prop := p_rule p = R_col_type_unquoted /\
  exists n args arrs, into_inner p = n :: args ++ arrs /\ sh_var n /\ opt_pair sh_type_arg args /\
    Forall sh_type_array arrs /\ as_str p = as_str n ++ txts args ++ txts arrs.
Definition sh_type_quoted (p : pair) : Prop := p_rule p = R_col_type_quoted /\
  exists n args arrs arrs2, into_inner p = n :: args ++ arrs ++ arrs2 /\ sh_svar n /\ opt_pair sh_type_arg args /\
    Forall sh_type_array arrs /\ Forall sh_type_array arrs2 /\
    as_str p = dq ++ as_str n ++ txts args ++ txts arrs ++ dq ++ txts arrs2.
Lemma yields_compound a rl b (P : list pair -> str -> Prop) :
  (forall off t r ps, D b CompoundAtomic off t r ps -> P ps t) ->
  yields a (C_ rl b) (fun p => p_rule p = rl /\ P (into_inner p) (as_str p)).
Proof.
  intros H off t r ps Hd. apply D_compound in Hd as (ps0 & -> & Hd).
  eexists. split; [reflexivity|]. split; [reflexivity|]. split; [reflexivity|]. eapply H; eassumption.
Qed.
Lemma many_arrays off t r ps : D (ERep col_type_array) CompoundAtomic off t r ps -> Forall sh_type_array ps /\ t = txts ps.
Proof. apply rep_c, yields_yields_as, y_type_array. Qed.
Lemma y_type_unquoted : yields CompoundAtomic col_type_unquoted sh_type_unquoted.
Proof.
  apply (yields_compound CompoundAtomic _ _ (fun ps t => exists n args arrs, ps = n :: args ++ arrs /\ sh_var n /\
    opt_pair sh_type_arg args /\ Forall sh_type_array arrs /\ t = as_str n ++ txts args ++ txts arrs)).
  intros off t r ps H.
  apply D_seq_c in H as (t1 & t2 & ps1 & ps2 & -> & -> & H1 & H).
  apply D_seq_c in H as (t3 & t4 & ps3 & ps4 & -> & -> & H2 & H).
  apply (y_var _ CA) in H1 as (n & -> & <- & Hn). apply many_arrays in H as [H ->].
  apply (D_opt_txt _ _ _ _ _ _ _ y_type_arg) in H2 as [H2 ->].
  exists n, ps3, ps4. auto.
Qed.
Lemma y_type_quoted : yields CompoundAtomic col_type_quoted sh_type_quoted.
Proof.
  apply (yields_compound CompoundAtomic _ _ (fun ps t => exists n args arrs arrs2, ps = n :: args ++ arrs ++ arrs2 /\ sh_svar n /\
    opt_pair sh_type_arg args /\ Forall sh_type_array arrs /\ Forall sh_type_array arrs2 /\
    t = dq ++ as_str n ++ txts args ++ txts arrs ++ dq ++ txts arrs2)).
  intros off t r ps H.
  apply D_seq_c in H as (t1 & t2 & ps1 & ps2 & -> & -> & H1 & H).
  apply D_seq_c in H as (t3 & t4 & ps3 & ps4 & -> & -> & H3 & H).
  apply D_seq_c in H as (t5 & t6 & ps5 & ps6 & -> & -> & H5 & H).
  apply D_seq_c in H as (t7 & t8 & ps7 & ps8 & -> & -> & H7 & H).
  apply D_seq_c in H as (t9 & t10 & ps9 & ps10 & -> & -> & H9 & H).
  apply D_str in H1 as [-> ->]. apply D_str in H9 as [-> ->].
  apply (y_svar _ CA) in H3 as (n & -> & <- & Hn). apply many_arrays in H7 as [H7 ->]. apply many_arrays in H as [H ->].
  apply (D_opt_txt _ _ _ _ _ _ _ y_type_arg) in H5 as [H5 ->].
  exists n, ps5, ps7, ps10. repeat (split; [auto; reflexivity|]). auto.
Qed.
Definition sh_type (p : pair) : Prop := sh_type_quoted p \/ sh_type_unquoted p.
Definition sh_col_type (p : pair) : Prop := p_rule p = R_col_type /\
  ((exists t, into_inner p = [t] /\ sh_type t /\ as_str p = as_str t) \/
   (exists i t, into_inner p = [i; t] /\ sh_idc i /\ sh_type t /\ as_str p = as_str i ++ s "." ++ as_str t)).
Lemma y_col_type a : yields a col_type sh_col_type.
Proof.
  apply (yields_compound a _ _ (fun ps x => (exists t, ps = [t] /\ sh_type t /\ x = as_str t) \/
    (exists i t, ps = [i; t] /\ sh_idc i /\ sh_type t /\ x = as_str i ++ s "." ++ as_str t))).
  intros off t r ps H.
  apply D_seq_c in H as (t1 & t2 & ps1 & ps2 & -> & -> & H1 & H).
  pose proof (yields_alt _ _ _ _ _ y_type_quoted y_type_unquoted) as HT.
  apply HT in H as (ty & -> & <- & Hty). apply D_opt in H1 as [[-> ->]|H1].
  - left. exists ty. auto.
  - apply D_seq_c in H1 as (t3 & t4 & ps3 & ps4 & -> & -> & H3 & H4). apply D_str in H4 as [-> ->].
    apply (y_ident _ CA) in H3 as (i & -> & <- & Hi). right. exists i, ty.
    split; [reflexivity|]. split; [exact Hi|]. split; [exact Hty|]. rewrite <- app_assoc. reflexivity.
Qed.

(** ** Tables *)
Definition sh_col_attribute (p : pair) : Prop := p_rule p = R_col_attribute /\
  exists q, into_inner p = [q] /\ (sh_ref_inline q \/ sh_attribute q).
Lemma y_col_attribute : yields NonAtomic col_attribute sh_col_attribute.
Proof.
  eapply yields_impl; [|apply yields_one; [discriminate|apply yields_alt; [apply y_ref_inline|apply y_attribute]]].
  intros p (Hr & q & Hq & _ & H). split; [exact Hr|]. exists q. auto.
Qed.
Definition sh_col_settings : pair -> Prop := sh_many R_col_settings sh_col_attribute.
Lemma y_col_settings : yields NonAtomic col_settings sh_col_settings.
Proof. apply yields_many, many_bracketed, y_col_attribute. Qed.
Definition sh_table_col (p : pair) : Prop := p_rule p = R_table_col /\
  exists n ty, opt_last sh_col_settings [n; ty] (into_inner p) /\ sh_id n /\ sh_col_type ty.
Lemma y_table_col : yields NonAtomic table_col sh_table_col.
Proof.
  apply (yields_normal NonAtomic _ _ (fun ps _ => exists n ty, opt_last sh_col_settings [n; ty] ps /\ sh_id n /\ sh_col_type ty));
    [discriminate|].
  intros off t r ps H. repeat dstep.
  - dy (y_col_type NonAtomic) ty Hty. dy (y_ident _ NA) n Hn. exists n, ty. split; [left; reflexivity|auto].
  - dy y_col_settings st Hst. dy (y_col_type NonAtomic) ty Hty. dy (y_ident _ NA) n Hn.
    exists n, ty. split; [right; exists st; auto|auto].
Qed.
Definition sh_table_item (p : pair) : Prop := (sh_table_col p \/ sh_note_decl p) \/ sh_indexes_decl p.
Definition sh_table_block : pair -> Prop := sh_many R_table_block sh_table_item.
Lemma y_table_block : yields NonAtomic table_block sh_table_block.
Proof.
  apply yields_many. repeat (apply many_seq || apply many_rep || (apply many_silent, silent_str)).
  apply many_yields. repeat apply yields_alt; [apply y_table_col|apply y_note_decl|apply y_indexes_decl].
Qed.
Definition sh_table_alias (p : pair) : Prop := p_rule p = R_table_alias /\ exists i, into_inner p = [i] /\ sh_id i.
Lemma y_table_alias : yields NonAtomic table_alias sh_table_alias.
Proof.
  apply (yields_normal NonAtomic _ _ (fun ps _ => exists i, ps = [i] /\ sh_id i)); [discriminate|].
  intros off t r ps H. repeat dstep. dy (y_ident _ NA) i Hi. exists i. auto.
Qed.
Definition sh_table_decl (p : pair) : Prop := p_rule p = R_table_decl /\
  exists i al st b, into_inner p = i :: al ++ st ++ [b] /\ sh_decl_ident i /\ opt_pair sh_table_alias al /\
    opt_pair (sh_settings R_block_settings) st /\ sh_table_block b.
Lemma y_table_decl : yields NonAtomic table_decl sh_table_decl.
Proof.
  apply (yields_normal NonAtomic _ _ (fun ps _ => exists i al st b, ps = i :: al ++ st ++ [b] /\ sh_decl_ident i /\
     opt_pair sh_table_alias al /\ opt_pair (sh_settings R_block_settings) st /\ sh_table_block b)); [discriminate|].
  intros off t r ps H.
  apply D_seq in H as (t1 & g1 & t2 & ps1 & ps2 & -> & -> & H1 & _ & H).
  apply D_seq in H as (t3 & g3 & t4 & ps3 & ps4 & -> & -> & H3 & _ & H).
  apply D_seq in H as (t5 & g5 & t6 & ps5 & ps6 & -> & -> & H5 & _ & H).
  apply D_seq in H as (t7 & g7 & t8 & ps7 & ps8 & -> & -> & H7 & _ & H).
  apply D_insens in H1 as ->. dy y_decl_ident i Hi. dyield y_table_block H b Hb.
  apply (D_opt_yields _ _ _ _ _ _ _ y_table_alias) in H5. apply (D_opt_yields _ _ _ _ _ _ _ y_block_settings) in H7.
  exists i, ps5, ps7, b. auto.
Qed.

(** ** Table groups and projects *)
Definition sh_group_block : pair -> Prop := sh_many R_table_group_block (fun p => sh_note_decl p \/ sh_decl_ident p).
Lemma y_group_block : yields NonAtomic table_group_block sh_group_block.
Proof.
  apply yields_many. repeat (apply many_seq || apply many_rep || (apply many_silent, silent_str)).
  apply many_yields, yields_alt; [apply y_note_decl|apply y_decl_ident].
Qed.
Definition sh_group_decl (p : pair) : Prop := p_rule p = R_table_group_decl /\
  exists i st b, into_inner p = i :: st ++ [b] /\ sh_id i /\ opt_pair (sh_settings R_block_settings) st /\ sh_group_block b.
Lemma y_group_decl : yields NonAtomic table_group_decl sh_group_decl.
Proof.
  apply (yields_normal NonAtomic _ _ (fun ps _ => exists i st b, ps = i :: st ++ [b] /\ sh_id i /\
     opt_pair (sh_settings R_block_settings) st /\ sh_group_block b)); [discriminate|].
  intros off t r ps H.
  apply D_seq in H as (t1 & g1 & t2 & ps1 & ps2 & -> & -> & H1 & _ & H).
  apply D_seq in H as (t3 & g3 & t4 & ps3 & ps4 & -> & -> & H3 & _ & H).
  apply D_seq in H as (t5 & g5 & t6 & ps5 & ps6 & -> & -> & H5 & _ & H).
  apply D_insens in H1 as ->. dy (y_ident _ NA) i Hi. dyield y_group_block H b Hb.
  apply (D_opt_yields _ _ _ _ _ _ _ y_block_settings) in H5. exists i, ps5, b. auto.
Qed.
Definition sh_project_block : pair -> Prop := sh_many R_project_block (fun p => sh_note_decl p \/ sh_property p).
Lemma y_project_block : yields NonAtomic project_block sh_project_block.
Proof.
  apply yields_many. repeat (apply many_seq || apply many_rep || (apply many_silent, silent_str)).
  apply many_yields, yields_alt; [apply y_note_decl|apply y_property].
Qed.
Definition sh_project_decl (p : pair) : Prop := p_rule p = R_project_decl /\
  exists i b, into_inner p = [i; b] /\ sh_id i /\ sh_project_block b.
Lemma y_project_decl : yields NonAtomic project_decl sh_project_decl.
Proof.
  apply (yields_normal NonAtomic _ _ (fun ps _ => exists i b, ps = [i; b] /\ sh_id i /\ sh_project_block b)); [discriminate|].
  intros off t r ps H. repeat dstep. dy y_project_block b Hb. dy (y_ident _ NA) i Hi. exists i, b. auto.
Qed.

(** ** The schema *)
Definition sh_block (p : pair) : Prop :=
  ((((sh_project_decl p \/ sh_table_decl p) \/ sh_enum_decl p) \/ sh_ref_decl p) \/ sh_group_decl p) \/ sh_note_decl p.
Definition sh_schema (p : pair) : Prop := p_rule p = R_schema /\
  exists bs e, into_inner p = bs ++ [e] /\ Forall sh_block bs /\ p_rule e = R_EOI.

Lemma D_schema off t r ps : D schema NonAtomic off t r ps ->
  exists p, ps = [p] /\ p_start p = off /\ p_end p = off + blen t /\ as_str p = t /\ sh_schema p /\ r = [].
Proof.
  intros H. unfold schema in H. apply D_normal in H as (ps0 & -> & H); [|discriminate].
  eexists. split; [reflexivity|]. split; [reflexivity|]. split; [reflexivity|]. split; [reflexivity|].
  apply D_seq in H as (t1 & g1 & t2 & ps1 & ps2 & -> & -> & H1 & _ & H).
  apply D_seq in H as (t3 & g3 & t4 & ps3 & ps4 & -> & -> & H3 & _ & H).
  inversion H1; subst. cbn [app].
  unfold EOI in H. apply D_normal in H as (ps5 & -> & H); [|discriminate].
  inversion H; subst. split; [|reflexivity]. split; [reflexivity|]. cbn [into_inner].
  exists ps3. eexists. split; [reflexivity|]. split; [|reflexivity].
  revert H3. apply many_rep, many_yields.
  repeat apply yields_alt; [apply y_project_decl|apply y_table_decl|apply y_enum_decl|apply y_ref_decl|apply y_group_decl|apply y_note_decl].
Qed.
