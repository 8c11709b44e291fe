(** * WritableOk: what a text says is writable. *)

From Verif Require Export SynPrint.
From Verif Require Import LexRules Syntax Writable.

Lemma nls_app v x : no_layout_start (v ++ x) -> no_layout_start v.
Proof.
  intros (H1 & H2 & H3). split; [|split].
  - intros c r ->. apply (H1 c (r ++ x)). reflexivity.
  - intros r ->. apply (H2 (r ++ x)). rewrite <- app_assoc. reflexivity.
  - intros b r ->. apply (H3 b (r ++ x)). rewrite <- !app_assoc. reflexivity.
Qed.
Lemma word_tame w : word w -> ~ In 34 w.
Proof.
  intros (c & x & -> & Hc & Hx) [Hi|Hi]; [subst c; revert Hc; unfold letter; lia|]. rewrite Forall_forall in Hx. specialize (Hx 34 Hi). revert Hx. unfold word_char, letter, digit. lia.
Qed.
Lemma arg_w raw v : arg_text raw v -> w_arg v.
Proof.
  intros []; cbn [w_arg]; try exact Logic.I.
  - right. apply H.
  - left. apply H.
  - destruct H as [_ H]. apply closes_no. exact H.
  - lia.
  - eexists _, _. eauto.
  - eexists. eauto.
Qed.
Lemma args_w ta l : args_r ta l -> Forall w_arg l.
Proof. intros [|raws l' H]; [constructor|]. induction H as [|r v rs vs H1 H2 IH]; constructor; [eapply arg_w; exact H1|exact IH]. Qed.
Lemma prefix_w p np : prefix_r p np -> (np = [] /\ p = []) \/ (np <> [] /\ exists w, np = w ++ s "." /\ ~ In 34 w).
Proof.
  assert (K : forall w : str, w ++ s "." <> []) by (intros [|? ?]; discriminate).
  intros [|w H|raw w [_ H]]; [auto| |]; right; (split; [apply K|]); exists w; (split; [reflexivity|]); [apply word_tame|apply closes_no]; exact H.
Qed.
Lemma type_raw_w raw t : type_raw raw t -> w_type t.
Proof.
  intros H. destruct H as [p np b ta args td dims Hp Hb Ha Hd|p np b ta args td1 d1 td2 d2 Hp Hb Ha H1 H2 Hs].
  - apply prefix_w in Hp. exists np, b. cbn [y_name y_args]. split; [reflexivity|]. split; [tauto|]. split; [left; exact Hb|eapply args_w; exact Ha].
  - apply prefix_w in Hp. exists np, b. cbn [y_name y_args]. split; [reflexivity|]. split; [tauto|]. split; [right; split; [exact Hb|]|eapply args_w; exact Ha].
    intros Hn. destruct Hp as [[_ Hp]|[Hp _]]; [|congruence]. eapply quoted_schema; [exact Hb|exact Ha|exact H1|exact H2|]. subst p. apply Hs. reflexivity.
Qed.
Lemma pick_w {A B} (f : A -> option B) (P : A -> Prop) (Q : B -> Prop) l : (forall a b, P a -> f a = Some b -> Q b) -> Forall P l -> Forall Q (pick f l).
Proof.
  intros H HF. induction HF as [|a l Ha Hl IH]; [constructor|]. cbn. destruct (f a) as [b|] eqn:E; cbn; [constructor; [eapply H; eassumption|exact IH]|exact IH].
Qed.

Section With.
  (** [C] holds of the text and of every end of it; then [F] holds of what stands between quotes. *)
  Variables C F : str -> Prop.
  Hypothesis C_app : forall x y, C (x ++ y) -> C y.
  Hypothesis C_F : forall v x, no_layout_start (v ++ x) -> C (v ++ x) -> F v.

  Definition gives {A} (R : reader A) (P : A -> Prop) : Prop := forall i r a, R i r a -> C i -> P a /\ C r.
  Lemma lay_c m r : lay m r -> C m -> C r.
  Proof. intros (g & -> & _). apply C_app. Qed.
  Lemma tok_c w i r : tok w i r -> C i -> C r.
  Proof. intros (m & -> & H) K. apply C_app in K. apply (lay_c _ _ H K). Qed.
  Lemma kw_c k i r : kw k i r -> C i -> C r.
  Proof. intros (w & m & -> & _ & H) K. apply C_app in K. apply (lay_c _ _ H K). Qed.
  Ltac step := match goal with
    | H : tok _ ?i _, K : C ?i |- _ => pose proof (tok_c _ _ _ H K); clear H
    | H : kw _ ?i _, K : C ?i |- _ => pose proof (kw_c _ _ _ H K); clear H
    | H : lay ?i _, K : C ?i |- _ => pose proof (lay_c _ _ H K); clear H
    end.
  Ltac by_ L := match goal with H : _, K : C ?i |- _ => destruct (L i _ _ H K); clear H end.

  Lemma quote_w q : gives (quote q) (fun v => F v /\ closes_first q v).
  Proof.
    intros i r v (i' & m & -> & Hl & Hc & Hm) K. apply C_app in K. pose proof (lay_c _ _ Hl K) as K1. destruct Hl as (g & _ & _ & Hn).
    split; [split; [exact (C_F _ _ Hn K1)|exact Hc]|]. apply C_app, C_app in K1. apply (lay_c _ _ Hm K1).
  Qed.
  Lemma dq_w : gives (quote dq) (fun w => F w /\ ~ In 34 w).
  Proof. intros i r w H K. destruct (quote_w _ _ _ _ H K) as [[H1 H2] H3]. split; [split; [exact H1|apply closes_no; exact H2]|exact H3]. Qed.
  Lemma bq_w : gives (quote bq) (w_expr F).
  Proof. intros i r w H K. destruct (quote_w _ _ _ _ H K) as [[H1 H2] H3]. split; [split; [exact H1|apply closes_no; exact H2]|exact H3]. Qed.
  Lemma name_w : gives name (w_name F).
  Proof.
    intros i r w [(m & -> & H & _ & Hl)|H] K.
    - apply C_app in K. step. split; [left; exact H|assumption].
    - destruct (dq_w _ _ _ H K) as [H1 H2]. split; [right; exact H1|exact H2].
  Qed.
  Lemma text_w : gives text (w_text F).
  Proof. intros i r w [H|H] K; destruct (quote_w _ _ _ _ H K) as [[H1 H2] H3]; (split; [split; auto|exact H3]). Qed.
  Lemma phrase_w : gives phrase spaced_word.
  Proof. intros i r w (m & -> & H & _ & Hl) K. apply C_app in K. step. split; assumption. Qed.
  Lemma literal_w : gives literal_r (w_literal F).
  Proof.
    intros i r v H K. destruct H; cbn [w_literal].
    - by_ text_w. split; assumption.
    - by_ bq_w. split; assumption.
    - step. split; [exact Logic.I|assumption].
    - step. split; [exact Logic.I|assumption].
    - step. split; [exact Logic.I|assumption].
    - apply C_app in K. step. split; [lia|assumption].
    - apply C_app, C_app, C_app in K. step. split; [eexists _, _; eauto|assumption].
    - apply C_app, C_app in K. step. split; [eexists; eauto|assumption].
    - apply C_app, C_app in K. step. split; [eexists; eauto|assumption].
  Qed.
  Lemma bare_w : gives bare w_bare.
  Proof. intros i r v (w & H & Hn & ->) K. by_ phrase_w. split; [exists w; auto|assumption]. Qed.
  Lemma attr_w : gives attr (w_attr F).
  Proof.
    intros i r a [i0 r0 k H|i0 m m' r0 k v H Ht Hv] K.
    - by_ phrase_w. split; [split; [assumption|intros v' [= ]]|assumption].
    - by_ phrase_w. step. destruct Hv as [Hv|[Hv|(w & Hv & ->)]].
      + by_ literal_w. split; [split; [assumption|intros v' [= <-]; auto]|assumption].
      + by_ bare_w. split; [split; [assumption|intros v' [= <-]; auto]|assumption].
      + by_ dq_w. split; [split; [assumption|intros v' [= <-]; eauto]|assumption].
  Qed.
  Lemma many_w {A} (R : reader A) (P : A -> Prop) : gives R P -> gives (many R) (Forall P).
  Proof.
    intros H i r l. induction 1 as [|i m r a l H1 H2 IH]; intros K; [split; [constructor|exact K]|].
    destruct (H _ _ _ H1 K) as [K1 K2]. destruct (IH K2). split; [constructor|]; assumption.
  Qed.
  Lemma commas_w {A} (R : reader A) (P : A -> Prop) : gives R P -> gives (commas R) (fun l => l <> [] /\ Forall P l).
  Proof.
    intros H i r l. induction 1 as [i r a H1|i m m' r a l H1 H2 H3 IH]; intros K; destruct (H _ _ _ H1 K) as [K1 K2].
    - split; [split; [discriminate|constructor; [exact K1|constructor]]|exact K2].
    - step. destruct IH as [[_ I1] I2]; [assumption|]. split; [split; [discriminate|constructor; assumption]|assumption].
  Qed.
  Lemma bracket_w op cl {A} (R : reader A) (P : A -> Prop) : gives R P -> gives (bracket op cl R) (Forall P).
  Proof.
    intros H i r l [|? ? ? ? ? Ho Hc Hd] K; step; [step; split; [constructor|assumption]|].
    destruct (commas_w R P H _ _ _ Hc) as [[_ K1] K2]; [assumption|]. step. split; assumption.
  Qed.
  Lemma braces_w {A} (R : reader A) (P : A -> Prop) : gives R P -> gives (braces R) (Forall P).
  Proof. intros H i r l (m & m' & H1 & Hm & H2) K. step. destruct (many_w R P H _ _ _ Hm); [assumption|]. step. split; assumption. Qed.
  Lemma maybe_w {A} (R : reader A) (P : A -> Prop) : gives R P -> gives (maybe R) (fun o => forall a, o = Some a -> P a).
  Proof.
    intros H i r o [|? ? ? Hr] K; [split; [intros a [= ]|exact K]|]. destruct (H _ _ _ Hr K). split; [intros a0 [= <-]; assumption|assumption].
  Qed.
  Lemma attrs_w : gives (maybe attrs) (w_attrs F).
  Proof. intros i r o H K. apply (maybe_w attrs (Forall (w_attr F))) with (i := i) (r := r); auto. apply bracket_w, attr_w. Qed.
  Lemma decl_w : gives decl_name (w_decl F).
  Proof.
    intros i r [[sc|] n]; cbn [decl_name].
    - intros (m & m' & H1 & H2 & H3) K. by_ name_w. step. by_ name_w. split; [split; [intros sc' [= <-]|]|]; assumption.
    - intros H K. by_ name_w. split; [split; [intros sc' [= ]|]|]; assumption.
  Qed.
  Lemma columns_w : gives columns (fun l => l <> [] /\ Forall (w_name F) l).
  Proof.
    intros i r l [i0 r0 c H|i0 m m' r0 l0 H1 H H2] K.
    - by_ name_w. split; [split; [discriminate|constructor; [assumption|constructor]]|assumption].
    - step. destruct (commas_w name _ name_w _ _ _ H) as [K1 K2]; [assumption|]. step. split; assumption.
  Qed.
  Lemma end_w : gives endpoint (w_end F).
  Proof.
    intros i r e [i0 m1 m2 r0 t l Ht H1 Hl|i0 m1 m2 m3 m4 r0 sc t l Hs H1 Ht H2 Hl] K.
    - by_ name_w. step. by_ columns_w. split; [split; [split; [intros sc [= ]|]|]|]; assumption.
    - by_ name_w. step. by_ name_w. step. by_ columns_w. split; [split; [split; [intros sc' [= <-]|]|]|]; assumption.
  Qed.
  Lemma rel_w : gives rel w_rel.
  Proof. intros i r x (t & H & Ht) K. step. split; [intros ->; discriminate|assumption]. Qed.
  Lemma inline_w : gives inline (w_inline F).
  Proof. intros i r x [] K. step. step. by_ rel_w. by_ end_w. split; [split|]; assumption. Qed.
  Lemma note_w : gives note (w_note F).
  Proof.
    intros i r v [] K; step; step; by_ text_w; repeat step; (split; [|assumption]); (eexists; split; [reflexivity|assumption]).
  Qed.
  Lemma ref_w : gives reference (fun f => w_block F (ARef f)).
  Proof.
    assert (B : forall n, (forall w, n = Some w -> w_name F w) -> gives (ref_body n) (fun f => w_block F (ARef f))).
    { intros n Hn i r f [] K. by_ end_w. by_ rel_w. by_ end_w. by_ attrs_w. split; [|assumption]. split; [exact Hn|]. auto. }
    intros i r f [i0 m1 m2 m3 r0 n a H1 H2 H3 H4|i0 m1 m2 m3 m4 r0 n a H1 H2 H3 H4 H5] K;
      step; (destruct (maybe_w name _ name_w _ _ _ H2) as [K1 K2]; [assumption|]); step; by_ (B n K1); [split; assumption|step; split; assumption].
  Qed.
  Lemma type_w : gives type_r w_type.
  Proof. intros i r t (raw & m & -> & H & _ & _ & Hl) K. apply C_app in K. step. split; [eapply type_raw_w; exact H|assumption]. Qed.
  Lemma col_w : gives column (w_col F).
  Proof.
    assert (B : gives col_settings_r (fun st => Forall (w_attr F) (s_attrs st) /\ Forall (w_inline F) (s_refs st))).
    { intros i r x (l & Hl & E1 & E2) K.
      destruct (bracket_w "[" "]" col_item (fun y => match y with CIAttr a => w_attr F a | CIRef a => w_inline F a end)) with (2 := Hl) as [HF K1]; [|exact K|].
      { intros i' r' [a|a]; cbn [col_item]; [apply attr_w|apply inline_w]. }
      split; [|exact K1]. rewrite E1, E2. split; (eapply pick_w; [|exact HF]; intros [a|a] b Ha [= <-]; exact Ha). }
    intros i r c [i0 m1 m2 r0 n ty st Hn Ht Hs] K. by_ name_w. by_ type_w. destruct (maybe_w _ _ B _ _ _ Hs) as [K1 K2]; [assumption|].
    split; [split; [|split]|]; assumption.
  Qed.
  Lemma index_w : gives index (w_index F).
  Proof.
    assert (B : gives index_col (fun c => match c with IName w => w_name F w | IExpr v => exists w, v = VString w /\ w_expr F w end)).
    { intros i r c [? ? w H|? ? v H] K; [by_ name_w|by_ bq_w]; (split; [|assumption]); [assumption|eauto]. }
    intros i r x [i0 m r0 c st Hc Hs|i0 m r0 l st Hl Hs] K.
    - by_ B. by_ attrs_w. split; [split; [constructor; [assumption|constructor]|]|]; assumption.
    - destruct (bracket_w _ _ _ _ B _ _ _ Hl K) as [K1 K2]. by_ attrs_w. split; [split|]; assumption.
  Qed.
  Lemma indexes_w : gives indexes (Forall (w_index F)).
  Proof. intros i r l [? ? ? ? H1 H2] K. step. destruct (braces_w _ _ index_w _ _ _ H2); [assumption|]. split; assumption. Qed.
  Lemma table_w : gives table (w_table F).
  Proof.
    intros i r t [i0 m1 m2 m3 m4 r0 d al st l H1 Hd Hal Hst Hl] K. step. by_ decl_w.
    destruct (maybe_w alias (w_name F)) with (2 := Hal) as [K1 K2]; [intros i' r' w (m & H3 & H4) K'; step; by_ name_w; split; assumption|assumption|].
    by_ attrs_w.
    destruct (braces_w table_item (fun y => match y with TICol c => w_col F c | TINote v => w_note F v | TIIndexes x => Forall (w_index F) x end)) with (2 := Hl) as [HF K3]; [|assumption|].
    { intros i' r' [c|v|x]; cbn [table_item]; [apply col_w|apply note_w|apply indexes_w]. }
    split; [|exact K3]. unfold w_table. cbn [t_schema t_name t_alias t_settings t_cols t_notes t_indexes]. split; [destruct d; assumption|].
    split; [exact K1|]. split; [assumption|]. split; [|split]; (eapply pick_w; [|exact HF]; intros [c|v|x] b Ha [= <-]; exact Ha).
  Qed.
  Lemma enum_w : gives enum (fun e => w_block F (AEnum e)).
  Proof.
    intros i r e [i0 m1 m2 r0 d l H1 Hd Hl] K. step. by_ decl_w.
    destruct (braces_w enum_value_r (fun x => w_name F (fst x) /\ w_attrs F (snd x))) with (2 := Hl) as [HF K3]; [|assumption|].
    { intros i' r' a (m & H3 & H4) K'. by_ name_w. by_ attrs_w. split; [split|]; assumption. }
    split; [|exact K3]. cbn [w_block m_schema m_name m_values]. split; [destruct d; assumption|exact HF].
  Qed.
  Lemma group_w : gives group (fun g => w_block F (AGroup g)).
  Proof.
    intros i r g [i0 m1 m2 m3 r0 n st l H1 Hn Hst Hl] K. step. by_ name_w. by_ attrs_w.
    destruct (braces_w group_item (fun y => match y with GINote v => w_note F v | GIName d => w_decl F d end)) with (2 := Hl) as [HF K3]; [|assumption|].
    { intros i' r' [v|d]; cbn [group_item]; [apply note_w|apply decl_w]. }
    split; [|exact K3]. cbn [w_block g_name g_settings g_notes g_items].
    split; [assumption|]. split; [assumption|]. split; (eapply pick_w; [|exact HF]; intros [v|d] b Ha [= <-]; exact Ha).
  Qed.
  Lemma project_w : gives project (fun g => w_block F (AProject g)).
  Proof.
    intros i r g [i0 m1 m2 r0 n l H1 Hn Hl] K. step. by_ name_w.
    destruct (braces_w project_item (fun y => match y with PINote v => w_note F v | PIProp x => spaced_word (fst x) /\ (w_literal F (snd x) \/ w_bare (snd x)) /\
                       ~ (any_case (fst x) (s "note") /\ exists w, snd x = VString w) end)) with (2 := Hl) as [HF K3]; [|assumption|].
    { intros i' r' [v|x]; cbn [project_item]; [apply note_w|]. intros (m & m' & H3 & H4 & H5 & H6) K'. by_ phrase_w. step.
      destruct H5 as [H5|H5]; [by_ literal_w|by_ bare_w]; (split; [split; [assumption|]; split; [auto|exact H6]|assumption]). }
    split; [|exact K3]. cbn [w_block p_name p_props p_notes].
    split; [assumption|]. split; (eapply pick_w; [|exact HF]; intros [v|d] b Ha [= <-]; exact Ha).
  Qed.
  Lemma schema_w t a : dbml_text t a -> C t -> writable_with F a.
  Proof.
    intros (m & Hl & H) K. step. eapply (many_w block_r (w_block F)) in H; [apply H; assumption|].
    intros i r [p|t0|g|v|f|e]; cbn [block_r]; [apply project_w|apply table_w|apply group_w|apply note_w|apply ref_w|apply enum_w].
  Qed.
End With.

Theorem text_writable t a : dbml_text t a -> writable_with no_layout_start a.
Proof.
  intros H. apply (schema_w (fun _ => True) no_layout_start) with (t := t); auto. intros v x Hn _. exact (nls_app _ _ Hn).
Qed.
Theorem closed_text_writable t a : dbml_text t a -> comments_closed t -> writable a.
Proof.
  intros H K. apply (schema_w comments_closed firm) with (t := t); auto.
  - intros x y Hc p q ->. apply (Hc (x ++ p) q). rewrite <- app_assoc. reflexivity.
  - intros v x Hn Hc. pose proof (nls_app _ _ Hn) as (N1 & N2 & N3). split; [exact N1|]. split; [exact N2|]. intros r ->.
    destruct (Hc [] (r ++ x)) as (p & q & E); [reflexivity|]. destruct Hn as (_ & _ & Hn). apply (Hn p q). rewrite <- app_assoc, E. reflexivity.
Qed.
