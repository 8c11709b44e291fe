(** * FirmOk: the part of the text an error names is not empty. *)

From Verif Require Import PegFacts ParseFacts ShownOk CheckFacts2 ParseFacts2 SynSpan4.
From Coq Require Import Lia.
From Verif Require Import Err Api Shown Rules AstSpec Nodes Layout Syntax Spans.

(** Readers start with something that is not layout. *)
Definition firm {A} (R : reader A) : Prop := forall i r a, R i r a -> i <> [] /\ solid i.
Lemma firm_char c t : ~ is_ws c -> c <> 47 -> c :: t <> [] /\ solid (c :: t).
Proof. intros H1 H2. split; [discriminate|split; assumption]. Qed.
Lemma firm_app (w m : str) : w <> [] /\ solid w -> w ++ m <> [] /\ solid (w ++ m).
Proof. intros [H1 H2]. destruct w; [congruence|]. split; [discriminate|exact H2]. Qed.
Lemma gap_start g : gap g -> g = [] \/ ~ solid g.
Proof. destruct 1; auto; right; cbn; tauto. Qed.
Lemma gap_eof_start g : gap_eof g -> g = [] \/ ~ solid g.
Proof.
  destruct 1 as [g H|g body H _]; [apply gap_start; exact H|]. apply gap_start in H as [->|H]; right; [cbn; tauto|].
  destruct g; cbn in *; tauto.
Qed.
Lemma written_some {A} inp sp (R : reader A) a : firm R -> written inp sp R a -> fst sp < snd sp.
Proof.
  intros F (pre & t & g & rest & E & -> & L & H). cbn [fst snd]. destruct t as [|c t]; [|cbn; pose proof (ulen_pos c); lia].
  exfalso. apply F in H as [H1 H2]. cbn [app] in H1, H2. destruct L as (g' & E' & G & _). apply app_inv_tail in E' as <-.
  destruct G as [G|[_ G]]; [apply gap_start in G|apply gap_eof_start in G]; tauto.
Qed.
Lemma firm_letter c : letter c -> ~ is_ws c /\ c <> 47.
Proof. unfold letter, is_ws. lia. Qed.
Lemma firm_digit c : digit c -> ~ is_ws c /\ c <> 47.
Proof. unfold digit, is_ws. lia. Qed.
Lemma firm_word w : word w -> w <> [] /\ solid w.
Proof. intros (c & x & -> & H & _). apply firm_letter in H. apply firm_char; apply H. Qed.
Lemma firm_spaced w : spaced_word w -> w <> [] /\ solid w.
Proof. intros (c & x & -> & H & _). apply firm_letter in H. apply firm_char; apply H. Qed.
Lemma firm_digits w : digits w -> w <> [] /\ solid w.
Proof. intros (H & F). destruct F as [|c w Hc _]; [congruence|]. apply firm_digit in Hc. apply firm_char; apply Hc. Qed.
Ltac lit := split; [discriminate|split; [let h := fresh in intros [h|[h|[h|h]]]; discriminate h|discriminate]].
Lemma firm_quote q : q <> [] /\ solid q -> firm (quote q).
Proof. intros H i r a (i' & m & -> & _). apply firm_app. exact H. Qed.
Lemma firm_dq : firm (quote dq). Proof. apply firm_quote. lit. Qed.
Lemma firm_bq : firm (quote bq). Proof. apply firm_quote. lit. Qed.
Lemma firm_text : firm text.
Proof. intros i r a [H|H]; revert H; apply firm_quote; lit. Qed.
Lemma firm_name : firm name.
Proof. intros i r a [(m & -> & H & _)|H]; [apply firm_app, firm_word, H|apply (firm_dq _ _ _ H)]. Qed.
Lemma firm_phrase : firm phrase.
Proof. intros i r a (m & -> & H & _). apply firm_app, firm_spaced, H. Qed.
Lemma firm_tok w i r : w <> [] /\ solid w -> tok w i r -> i <> [] /\ solid i.
Proof. intros H (m & -> & _). apply firm_app, H. Qed.
Lemma firm_literal : firm literal_r.
Proof.
  intros i r a H. destruct H as [i r v H|i r v H|i r H|i r H|i r H|d m r H|d1 d2 m r f H|h m r H|h m r H].
  - apply (firm_text _ _ _ H).
  - apply (firm_bq _ _ _ H).
  - revert H. apply firm_tok. lit.
  - revert H. apply firm_tok. lit.
  - revert H. apply firm_tok. lit.
  - apply firm_app, firm_digits, H.
  - apply firm_app, firm_digits, H.
  - apply (firm_app (s "#")). lit.
  - apply (firm_app (s "#")). lit.
Qed.
Lemma firm_value : firm value_text.
Proof. intros i r a [H|[(w & _ & H)|(w & _ & H)]]; [apply (firm_literal _ _ _ H)|apply (firm_phrase _ _ _ H)|apply (firm_dq _ _ _ H)]. Qed.
Lemma firm_attr : firm attr.
Proof. intros i r a H. destruct H as [i r k H|i m m' r k v H]; apply (firm_phrase _ _ _ H). Qed.
Lemma firm_prop : firm property_text.
Proof. intros i r a (m & m' & H & _). apply (firm_phrase _ _ _ H). Qed.
Lemma firm_bracket op cl {A} (R : reader A) : s op <> [] /\ solid (s op) -> firm (bracket op cl R).
Proof. intros F i r a H. destruct H as [i m r H _|i m m' r l H _ _]; exact (firm_tok _ _ _ F H). Qed.
Lemma firm_attrs : firm attrs.
Proof. apply firm_bracket. lit. Qed.
Lemma firm_braces {A} (R : reader A) : firm (braces R).
Proof. intros i r a (m & m' & H & _). revert H. apply firm_tok. lit. Qed.
Lemma firm_decl : firm decl_name.
Proof. intros i r [[sc|] n] H; [destruct H as (m & m' & H & _)|]; apply (firm_name _ _ _ H). Qed.
Lemma firm_endpoint : firm endpoint.
Proof. intros i r a H. destruct H as [? ? ? ? ? ? H|? ? ? ? ? ? ? ? ? H]; apply (firm_name _ _ _ H). Qed.
Lemma firm_inline : firm inline.
Proof. intros i r a H. destruct H as [? ? ? ? ? ? ? H]. revert H. apply firm_tok. lit. Qed.
Lemma firm_ref_body n : firm (ref_body n).
Proof. intros i r a H. destruct H as [? ? ? ? ? ? ? ? ? H]. apply (firm_endpoint _ _ _ H). Qed.
Lemma firm_type : firm type_r.
Proof.
  intros i r a (raw & m & -> & H & _). apply firm_app. 
  assert (P : forall p np, prefix_r p np -> p = [] \/ p <> [] /\ solid p).
  { destruct 1 as [|w H0|rw w [-> _]]; [left; reflexivity|right; apply firm_app, firm_word, H0|right; lit]. }
  destruct H as [p np b ta args td dims Hp Hb|p np b ta args td1 d1 td2 d2 Hp Hb]; apply P in Hp as [->|Hp]; try (apply firm_app; exact Hp).
  - apply (firm_app b), firm_word, Hb.
  - cbn [app]. lit.
Qed.
Lemma firm_settings : firm col_settings_r.
Proof. intros i r a (l & H & _). revert H. apply firm_bracket. lit. Qed.
Lemma firm_column : firm column.
Proof. intros i r a H. destruct H as [? ? ? ? ? ? ? H]. apply (firm_name _ _ _ H). Qed.
Lemma firm_index : firm index.
Proof.
  intros i r a H. destruct H as [? ? ? ? ? H|? ? ? ? ? H].
  - destruct H as [? ? ? H|? ? ? H]; [apply (firm_name _ _ _ H)|apply (firm_bq _ _ _ H)].
  - revert H. apply firm_bracket. lit.
Qed.
Lemma firm_enum_value : firm enum_value_r.
Proof. intros i r a (m & H & _). apply (firm_name _ _ _ H). Qed.

(** ** Errors of the analysis *)
Section Parsed.
  Variables (inp : str) (x : schema_t).
  Hypothesis P : parse_dbml_unchecked inp = Some (Ok x).
  Definition some_part (sp : range) : Prop := fst sp < snd sp.
  Lemma p_ident i : In i (all_idents x) -> some_part (id_span i).
  Proof. intros H. exact (written_some _ _ _ _ firm_name (shown_ident inp x P i H)). Qed.
  Lemma p_lit l : In l (all_values x) -> some_part (lit_span l).
  Proof. intros H. exact (written_some _ _ _ _ firm_value (shown_lit inp x P l H)). Qed.
  Lemma p_attr a : In a (all_attributes x) -> some_part (at_span a).
  Proof. intros H. exact (written_some _ _ _ _ firm_attr (shown_attr inp x P a H)). Qed.
  Lemma p_prop a : In a (all_properties x) -> some_part (pr_span a).
  Proof. intros H. exact (written_some _ _ _ _ firm_prop (shown_prop inp x P a H)). Qed.
  Lemma p_table_ident t : In t (tables x) -> some_part (ti_span (tb_ident t)).
  Proof. intros H. exact (written_some _ _ _ _ firm_decl (shown_table_ident inp x P t H)). Qed.
  Lemma p_enum_ident t : In t (enums x) -> some_part (ei_span (en_ident t)).
  Proof. intros H. exact (written_some _ _ _ _ firm_decl (shown_enum_ident inp x P t H)). Qed.
  Lemma p_item g i : In g (table_groups x) -> In i (tg_items g) -> some_part (gi_span i).
  Proof. intros H1 H2. exact (written_some _ _ _ _ firm_decl (shown_item inp x P g i H1 H2)). Qed.
  Lemma p_col c : In c (all_cols x) -> some_part (tc_span c).
  Proof. intros H. exact (written_some _ _ _ _ firm_column (shown_col inp x P c H)). Qed.
  Lemma p_type c : In c (all_cols x) -> some_part (ct_span (tc_type c)).
  Proof. intros H. exact (written_some _ _ _ _ firm_type (shown_type inp x P _ (in_map tc_type _ _ H))). Qed.
  Lemma p_col_settings st : In st (all_col_settings x) -> some_part (cs_span st).
  Proof. intros H. exact (written_some _ _ _ _ firm_settings (shown_col_settings inp x P st H)). Qed.
  Lemma p_indexes t ib : In t (tables x) -> tb_indexes t = Some ib -> some_part (ib_span ib).
  Proof. intros H1 H2. exact (written_some _ _ _ _ (firm_braces _) (shown_indexes inp x P t ib H1 H2)). Qed.
  Lemma p_def d : In d (all_index_defs x) -> some_part (idf_span d).
  Proof. intros H. exact (written_some _ _ _ _ firm_index (shown_def inp x P d H)). Qed.
  Lemma p_value v : In v (all_enum_values x) -> some_part (ev_span v).
  Proof. intros H. exact (written_some _ _ _ _ firm_enum_value (shown_value inp x P v H)). Qed.
  Lemma p_settings sp l : In (sp, l) (plain_settings x) -> some_part sp.
  Proof. intros H. exact (written_some _ _ _ _ firm_attrs (shown_settings inp x P sp l H)). Qed.
  Lemma p_ref r : In r (refs x) -> some_part (rb_span r).
  Proof. intros H. exact (written_some _ _ _ _ (firm_ref_body _) (shown_ref inp x P r H)). Qed.
  Lemma p_inline r : In r (all_ref_inlines x) -> some_part (rin_span r).
  Proof. intros H. exact (written_some _ _ _ _ firm_inline (shown_inline inp x P r H)). Qed.
  Lemma p_endpoint r : In r (all_endpoints x) -> some_part (ri_span r).
  Proof. intros H. exact (written_some _ _ _ _ firm_endpoint (shown_endpoint inp x P r H)). Qed.

  Lemma in_col t c : In t (tables x) -> In c (tb_cols t) -> In c (all_cols x).
  Proof. intros H1 H2. apply in_flat_map. eauto. Qed.
  Lemma in_col_settings c st : In c (all_cols x) -> tc_settings c = Some st -> In st (all_col_settings x).
  Proof. intros H1 H2. apply in_flat_map. exists c. rewrite H2. split; [exact H1|left; reflexivity]. Qed.
  Lemma in_def t ib d : In t (tables x) -> tb_indexes t = Some ib -> In d (ib_defs ib) -> In d (all_index_defs x).
  Proof. intros H1 H2 H3. apply in_flat_map. exists t. rewrite H2. auto. Qed.
  Lemma in_index_settings d st : In d (all_index_defs x) -> idf_settings d = Some st -> In st (all_index_settings x).
  Proof. intros H1 H2. apply in_flat_map. exists d. rewrite H2. split; [exact H1|left; reflexivity]. Qed.
  Lemma in_attr sp l a : In (sp, l) (all_settings x) -> In a l -> In a (all_attributes x).
  Proof. intros H1 H2. apply in_flat_map. exists (sp, l). auto. Qed.
  Lemma in_all_col_settings st : In st (all_col_settings x) -> In (cs_span st, cs_attributes st) (all_settings x).
  Proof. intros H. unfold all_settings. rewrite !in_app_iff. do 2 right. left. apply (in_map (fun st => (cs_span st, cs_attributes st))), H. Qed.
  Lemma attr_of l a : settings_of x l -> In a l -> In a (all_attributes x).
  Proof.
    intros H Ha. unfold all_attributes, all_settings. destruct H as [t st Ht E|t c st Ht Hc E|e v st He Hv E|t ib d st Ht Ei Hd E|r st Hr E].
    - apply in_flat_map. exists (ts_span st, ts_attributes st). split; [|exact Ha]. apply in_app_iff. left. apply in_flat_map. exists t. rewrite E. split; [exact Ht|left; reflexivity].
    - eapply in_attr; [apply in_all_col_settings; eapply in_col_settings; [eapply in_col; eassumption|exact E]|exact Ha].
    - apply in_flat_map. exists (evs_span st, evs_attributes st). split; [|exact Ha]. rewrite !in_app_iff. do 4 right. left.
      apply (in_map (fun st => (evs_span st, evs_attributes st))). apply in_flat_map. exists v. rewrite E. split; [apply in_flat_map; eauto|left; reflexivity].
    - apply in_flat_map. exists (is_span st, is_attributes st). split; [|exact Ha]. rewrite !in_app_iff. do 3 right. left.
      apply (in_map (fun st => (is_span st, is_attributes st))). eapply in_index_settings; [eapply in_def; eassumption|exact E].
    - apply in_flat_map. exists (rs_span st, rs_attributes st). split; [|exact Ha]. rewrite !in_app_iff. do 5 right.
      apply (in_map (fun st => (rs_span st, rs_attributes st))). apply in_flat_map. exists r. rewrite E. split; [exact Hr|left; reflexivity].
  Qed.
  Lemma repeats_in {A B} (f : A -> B) l a : repeats f l a -> In a l.
  Proof. intros (l1 & l2 & b & -> & _). apply in_app_iff. right. left. reflexivity. Qed.
  Lemma p_default c st sp : In c (all_cols x) -> tc_settings c = Some st -> default_at st sp -> some_part sp.
  Proof.
    intros Hc E (l1 & a & l2 & l & Ea & _ & _ & El & <-). apply p_lit. apply in_app_iff. left. apply in_flat_map. exists a. rewrite El. split; [|left; reflexivity].
    eapply in_attr; [apply in_all_col_settings; eapply in_col_settings; eassumption|]. rewrite Ea. apply in_app_iff. right. left. reflexivity.
  Qed.
  (** References.  The left end of an inline one is the column itself. *)
  Lemma ref_cases i : In i (all_refs x) ->
    (exists r, In r (refs x) /\ i = mkIndexedRef (rb_span r) (rb_rel r) (rb_lhs r) (rb_rhs r) (rb_settings r)) \/
    (exists t c r, In t (tables x) /\ In c (tb_cols t) /\ In r (all_ref_inlines x) /\
       i = mkIndexedRef (rin_span r) (rin_rel r) (mkRefIdent (rin_span r) (ti_schema (tb_ident t)) (ti_name (tb_ident t)) [tc_name c]) (rin_rhs r) None).
  Proof.
    intros H. apply in_app_iff in H as [H|H].
    - apply in_map_iff in H as (r & <- & H). left. eauto.
    - apply in_flat_map in H as (t & Ht & H). apply in_flat_map in H as (c & Hc & H). destruct (tc_settings c) as [st|] eqn:E; [|destruct H].
      apply in_map_iff in H as (r & <- & H). right. exists t, c, r. repeat split; auto. apply in_flat_map. exists st. split; [|exact H]. eapply in_col_settings; [eapply in_col; eassumption|exact E].
  Qed.
  Lemma p_ir i : In i (all_refs x) -> some_part (ir_span i).
  Proof. intros H. apply ref_cases in H as [(r & Hr & ->)|(t & c & r & _ & _ & Hr & ->)]; [apply p_ref|apply p_inline]; exact Hr. Qed.
  Lemma in_ends r i : In r (all_endpoints x) -> In i (opt_list (fun i => i) (ri_schema r) ++ ri_table r :: ri_compositions r) -> In i (all_idents x).
  Proof. intros H1 H2. unfold all_idents. rewrite !in_app_iff. do 8 right. apply in_flat_map. eauto. Qed.
  Lemma in_refs_ends r : In r (refs x) -> In (rb_lhs r) (all_endpoints x) /\ In (rb_rhs r) (all_endpoints x).
  Proof. intros H. split; (apply in_app_iff; left; apply in_flat_map; exists r; split; [exact H|]); [left|right; left]; reflexivity. Qed.
  Lemma in_inline_end r : In r (all_ref_inlines x) -> In (rin_rhs r) (all_endpoints x).
  Proof. intros H. apply in_app_iff. right. apply in_map. exact H. Qed.
  Lemma p_end r : endpoint_of x r -> some_part (ri_span r) /\
    forall i, In i (opt_list (fun i => i) (ri_schema r) ++ ri_table r :: ri_compositions r) -> some_part (id_span i).
  Proof.
    intros (i & H & E). assert (G : forall r, In r (all_endpoints x) -> some_part (ri_span r) /\
      forall i, In i (opt_list (fun i => i) (ri_schema r) ++ ri_table r :: ri_compositions r) -> some_part (id_span i)).
    { intros r0 H0. split; [apply p_endpoint, H0|]. intros i0 Hi. apply p_ident. eapply in_ends; eassumption. }
    apply ref_cases in H as [(r0 & Hr & ->)|(t & c & r0 & Ht & Hc & Hr & ->)]; cbn [ir_lhs ir_rhs] in E.
    - destruct E as [-> | ->]; apply G; apply in_refs_ends; exact Hr.
    - destruct E as [-> | ->]; [|apply G, in_inline_end, Hr]. cbn [ri_span ri_schema ri_table ri_compositions]. split; [apply p_inline, Hr|].
      intros i Hi. apply p_ident. unfold all_idents. rewrite !in_app_iff. apply in_app_iff in Hi as [Hi|[<-|[<-|[]]]].
      + right. left. apply in_flat_map. exists t. split; [exact Ht|]. apply in_app_iff. left. exact Hi.
      + right. left. apply in_flat_map. exists t. split; [exact Ht|]. apply in_app_iff. right. left. reflexivity.
      + do 2 right. left. apply in_map. eapply in_col; eassumption.
  Qed.
  Lemma end_l i : In i (all_refs x) -> endpoint_of x (ir_lhs i).
  Proof. intros H. exists i. auto. Qed.
  Lemma end_r i : In i (all_refs x) -> endpoint_of x (ir_rhs i).
  Proof. intros H. exists i. auto. Qed.
  Lemma in_mid {A} (l1 : list A) a l2 : In a (l1 ++ a :: l2).
  Proof. apply in_app_iff. right. left. reflexivity. Qed.
  Lemma p_index_settings t ib l1 d st : index_of x t ib l1 d -> idf_settings d = Some st -> some_part (is_span st).
  Proof.
    intros [t0 ib0 l0 d0 l2 Ht Ei Ed] E. apply (p_settings _ (is_attributes st)). unfold plain_settings. rewrite !in_app_iff. do 2 right. left.
    apply (in_map (fun st => (is_span st, is_attributes st))). eapply in_index_settings; [|exact E]. eapply in_def; [exact Ht|exact Ei|]. rewrite Ed. apply in_mid.
  Qed.
  Lemma p_column t c : column_of x t c -> In c (all_cols x).
  Proof. intros [t0 c0 H1 H2]. eapply in_col; eassumption. Qed.
  Lemma p_index t ib l1 d : index_of x t ib l1 d -> In d (all_index_defs x) /\ some_part (ib_span ib).
  Proof.
    intros [t0 ib0 l0 d0 l2 Ht Ei Ed]. split; [|eapply p_indexes; eassumption]. eapply in_def; [exact Ht|exact Ei|]. rewrite Ed. apply in_mid.
  Qed.
  Theorem violation_part e sp : violates x e sp -> some_part sp \/ sp = sb_span x \/ (e = SchemaNotFound /\ sp = (0, 0)).
  Proof.
    intros H. destruct H.
    - auto.
    - auto.
    - left. apply p_prop. apply in_flat_map. exists p. split; [assumption|]. eapply repeats_in; eassumption.
    - left. apply p_attr. eapply attr_of; [eassumption|]. eapply repeats_in; eassumption.
    - left. apply p_table_ident. eapply repeats_in; eassumption.
    - left. apply p_col. eapply in_col; [eassumption|]. eapply repeats_in; eassumption.
    - left. apply p_ident. unfold all_idents. rewrite !in_app_iff. right. left. apply in_flat_map. exists t. rewrite H, H0. split; [apply in_mid|]. apply in_app_iff. right. right. left. reflexivity.
    - left. apply p_enum_ident. eapply repeats_in; eassumption.
    - left. apply p_value. apply in_flat_map. exists e. split; [assumption|]. eapply repeats_in; eassumption.
    - left. apply p_ident. unfold all_idents. rewrite !in_app_iff. do 4 right. left. apply in_flat_map. exists g. split; [eapply repeats_in; eassumption|left; reflexivity].
    - left. eapply p_item; [eassumption|]. rewrite H0. apply in_mid.
    - left. eapply p_item; eassumption.
    - left. apply p_col. eapply in_col; [eassumption|]. rewrite H0. apply in_mid.
    - left. apply p_col. eapply p_column; eassumption.
    - left. apply p_col. eapply p_column; eassumption.
    - left. apply p_col_settings. eapply in_col_settings; [eapply p_column|]; eassumption.
    - left. eapply p_index; eassumption.
    - left. apply p_ident. unfold all_idents. rewrite !in_app_iff. do 3 right. left. apply in_flat_map. exists d. split; [eapply p_index; eassumption|].
      apply in_flat_map. exists (ICString i). split; [assumption|left; reflexivity].
    - left. eapply p_index_settings; eassumption.
    - left. apply p_def. eapply p_index; eassumption.
    - left. apply p_def. eapply p_index; eassumption.
    - left. apply p_def. eapply p_index; eassumption.
    - left. apply p_type. eapply p_column; eassumption.
    - left. apply p_type. eapply p_column; eassumption.
    - left. apply p_type. eapply p_column; eassumption.
    - left. apply p_type. eapply p_column; eassumption.
    - left. apply p_type. eapply p_column; eassumption.
    - left. eapply p_default; [eapply p_column; eassumption|match goal with K : has_default _ _ _ |- _ => apply K end|eassumption].
    - left. eapply p_default; [eapply p_column; eassumption|match goal with K : has_default _ _ _ |- _ => apply K end|eassumption].
    - left. eapply p_default; [eapply p_column; eassumption|match goal with K : has_default _ _ _ |- _ => apply K end|eassumption].
    - left. eapply p_default; [eapply p_column; eassumption|match goal with K : has_default _ _ _ |- _ => apply K end|eassumption].
    - left. eapply p_default; [eapply p_column; eassumption|match goal with K : has_default _ _ _ |- _ => apply K end|eassumption].
    - left. apply p_ir. assumption.
    - subst sp. destruct (ri_schema r) as [i|] eqn:E; [|auto]. left. apply (p_end r H). rewrite E. left. reflexivity.
    - left. match goal with K : table_span _ _ _ |- _ => destruct K as [[_ ->]|[_ ->]] end; [apply (p_end r H)|]. apply (p_end r H). apply in_mid.
    - left. apply (p_end r H).
    - left. apply (p_end r H). apply in_app_iff. right. right. assumption.
    - left. apply p_ir. apply H.
    - left. assert (Hi : In i (all_refs x)) by apply H. destruct (ir_rel i);
        match goal with K : (_, _) = (_, _) |- _ => injection K as _ -> end;
        first [apply p_ir, Hi|apply (p_end _ (end_l i Hi))|apply (p_end _ (end_r i Hi))].
    - left. assert (Hi : In i (all_refs x)) by assumption. destruct (ir_rel i);
        match goal with K : (_, _) = (_, _) |- _ => injection K as _ -> end;
        first [apply p_ir, Hi|apply (p_end _ (end_l i Hi))|apply (p_end _ (end_r i Hi))].
    - left. apply p_ir. rewrite H. apply in_mid.
  Qed.
End Parsed.

(** ** All errors *)
Lemma shows_part inp sp d : shows inp sp d -> d <> [] -> fst sp < snd sp.
Proof.
  intros H Hd. apply slice_inv in H as (a & b & _ & <- & <-). destruct d as [|c d]; [congruence|]. cbn [blen]. pose proof (ulen_pos c). lia.
Qed.
Lemma attribute_part inp a : attribute_ok inp a -> fst (at_span a) < snd (at_span a).
Proof.
  intros (_ & (Hs & Hw & _) & _ & H). apply shows_part in Hs; [|apply firm_spaced, Hw]. cbn in H. destruct H as (H1 & _ & H2).
  assert (snd (id_span (at_key a)) <= snd (at_span a)); [|lia]. destruct (at_value a); cbn in H2; lia.
Qed.
Theorem named_part inp e sh to : parse_dbml inp = Some (Err e) -> show_error inp e = Some sh -> sh_to sh = Some to ->
  sh_from sh < to \/ (sh_from sh = 0 /\ to = 0 /\ (inp = [] \/ exists sp, e = ErSem SchemaNotFound sp)).
Proof.
  intros H E T. pose proof (error_span _ _ H) as V. destruct e as [|rs sp|m sp|k sp]; cbn [show_error] in E.
  - destruct (grammar_error inp); [|discriminate]. injection E as <-. discriminate.
  - destruct V.
  - injection E as <-. cbn in T. injection T as <-. left. cbn [from_span sh_from]. destruct V as [V _].
    destruct V as [(_ & d & Hd & [Hn _] & _)|[(a & l & Ha & <- & _)|(a & l & w & Ha & <- & _)]]; [eapply shows_part; eassumption|eapply attribute_part; exact Ha..].
  - injection E as <-. cbn in T. injection T as <-. cbn [from_span sh_from]. destruct (sem_truth _ _ _ H) as (x & P & Hv & _).
    destruct (violation_part inp x P _ _ Hv) as [K|[K|[K1 K2]]]; [left; exact K| |right; rewrite K1, K2; cbn; eauto].
    rewrite K. assert (Ex : sb_span x = (0, blen inp)) by apply (unchecked_ok _ _ P). rewrite Ex. cbn [fst snd]. destruct inp as [|c r]; [auto|].
    left. cbn. pose proof (ulen_pos c). lia.
Qed.
