(** * SynSpan3: columns, indexes and the blocks; the whole AST. *)

From Verif Require Import PegFacts Lex.
From Verif Require Import ParserOk ParserOk3 ParseFacts.
From Verif Require Import SynEval SynLex SynGram SynType SynGram2 SynBuild SynBuild2 SynCut.
From Verif Require Export SynSpan2.
From Verif Require Import Parser.
From Verif Require Import Syntax.

(** ** Columns *)
Lemma fold_span_type (f : option ident_t * col_type_t -> pair -> outcome (option ident_t * col_type_t)) l acc r :
  try_fold f l acc = Ok r -> (forall a p a', f a p = Ok a' -> ct_span (snd a') = ct_span (snd a)) -> ct_span (snd r) = ct_span (snd acc).
Proof.
  intros H Hf. refine (fold_inv (fun a => ct_span (snd a) = ct_span (snd acc)) f l acc r H eq_refl _).
  intros a p a' _ Ha Hfa. rewrite (Hf _ _ _ Hfa). exact Ha.
Qed.
Lemma type_span p t : parse_col_type p = Ok t -> ct_span t = span_of p.
Proof.
  intros H. unfold parse_col_type in H. apply omap_inv in H as ([sc t'] & H & ->). cbn [snd].
  refine (fold_inv (fun a => ct_span (snd a) = span_of p) _ _ _ _ H eq_refl _). intros [sc1 t1] q [sc2 t2] _ H1 Hf. cbn [snd] in *.
  assert (HB : omap (fun o => (sc1, o)) (try_fold (body_step sc1) (into_inner q) t1) = Ok (sc2, t2) -> ct_span t2 = span_of p).
  { intros Ho. apply omap_inv in Ho as (o & Ho & [= -> ->]). refine (fold_inv (fun a => ct_span a = span_of p) _ _ _ _ Ho H1 _).
    intros a q2 a' _ Ha Hb. unfold body_step in Hb. destruct (p_rule q2); try discriminate;
      try (apply bind_inv in Hb as (y & _ & Hb)); injection Hb as <-; exact Ha. }
  destruct (p_rule q); try discriminate; try (apply HB; exact Hf).
  apply bind_inv in Hf as (i & _ & Hf). injection Hf as <- <-. exact H1.
Qed.
Lemma type_src inp t : src inp col_type parse_col_type t -> written inp (ct_span t) type_r (e_type t).
Proof.
  intros (p & Hp & H). destruct (at_written inp col_type p type_r d_type type_local B_type Hp) as (x & Hx & Hd).
  rewrite (gives_meaning _ _ _ _ _ (build_type _ _ Hd) H), (type_span _ _ H). exact Hx.
Qed.
Definition col_set_ok (inp : str) (st : col_settings_t) : Prop :=
  written inp (cs_span st) col_settings_r (e_col_settings st) /\ Forall (attribute_of inp) (cs_attributes st) /\ Forall (inline_ok inp) (cs_refs st).
Lemma add_attr_parts acc a : cs_span (col_settings_add_attr acc a) = cs_span acc /\
  cs_attributes (col_settings_add_attr acc a) = cs_attributes acc ++ [a] /\ cs_refs (col_settings_add_attr acc a) = cs_refs acc.
Proof.
  destruct acc as [sp at0 pk un nu inc nt df rf]. unfold col_settings_add_attr.
  repeat match goal with |- context [if ?b then _ else _] => destruct b end; cbn; auto.
Qed.
Lemma col_settings_src inp st : src inp col_settings parse_col_settings st -> col_set_ok inp st.
Proof.
  intros (p & Hp & H). destruct (at_written inp col_settings p col_settings_r d_col_settings col_settings_local B_col_settings Hp) as (x & Hx & Hd).
  pose proof (gives_meaning _ _ _ _ _ (build_col_settings _ _ Hd) H) as He. unfold col_set_ok. rewrite He.
  assert (HI : cs_span st = span_of p /\ Forall (attribute_of inp) (cs_attributes st) /\ Forall (inline_ok inp) (cs_refs st)).
  { unfold parse_col_settings in H. set (I := fun st => cs_span st = span_of p /\ Forall (attribute_of inp) (cs_attributes st) /\ Forall (inline_ok inp) (cs_refs st)).
    refine (fold_inv I _ _ _ _ H _ _); [unfold I; cbn; auto|]. intros acc q acc' Hq Ha Hf. destruct (p_rule q) eqn:Hr; try discriminate.
    assert (Hqa : at_ inp col_attribute q) by (child Hp Hq Hr). refine (fold_inv I _ _ _ _ Hf Ha _).
    clear H Ha Hf acc acc'. intros acc q2 acc' Hq2 (I1 & I2 & I3) Hf. destruct (p_rule q2) eqn:Hr2; try discriminate; apply bind_inv in Hf as (y & Hy & Hf); injection Hf as <-.
    - destruct (add_attr_parts acc y) as (A1 & A2 & A3). unfold I. rewrite A1, A2, A3. split; [exact I1|]. split; [|exact I3]. apply Forall_app. split; [exact I2|].
      constructor; [|constructor]. exists q2. split; [child Hqa Hq2 Hr2|exact Hy].
    - destruct acc as [sp at0 pk un nu inc nt df rf]. unfold I in *. cbn [col_settings_add_ref cs_span cs_attributes cs_refs] in *. split; [exact I1|]. split; [exact I2|].
      apply Forall_app. split; [exact I3|]. constructor; [|constructor]. apply inline_src. exists q2. split; [child Hqa Hq2 Hr2|exact Hy]. }
  destruct HI as (-> & H1 & H2). auto.
Qed.
Definition col_ok (inp : str) (c : table_col_t) : Prop :=
  written inp (tc_span c) column (e_col c) /\ ident_of inp (tc_name c) /\ written inp (ct_span (tc_type c)) type_r (e_type (tc_type c)) /\ forall st, tc_settings c = Some st -> col_set_ok inp st.
Lemma col_src inp c : src inp table_col parse_table_col c -> col_ok inp c.
Proof.
  intros (p & Hp & H). destruct (at_written inp table_col p column d_col column_local B_col Hp) as (x & Hx & Hd).
  pose proof (gives_meaning _ _ _ _ _ (build_col _ _ Hd) H) as He. unfold col_ok. rewrite He.
  destruct Hd as (_ & a & b & ps & Hi & Ha & Hb & Hst). pose proof (proj1 Ha) as Ra. pose proof (proj1 Hb) as Rb.
  unfold parse_table_col in H. rewrite Hi in H. cbn [try_fold] in H. rewrite Ra in H. destruct (parse_ident a) as [i| |] eqn:Ei; try discriminate. cbn [bind] in H.
  rewrite Rb in H. destruct (parse_col_type b) as [ty| |] eqn:Et; try discriminate. cbn [bind tc_span tc_name tc_settings] in H.
  assert (Wa : ident_of inp i) by (exists a; split; [child Hp Hi Ra|exact Ei]).
  assert (Wb : written inp (ct_span ty) type_r (e_type ty)) by (apply type_src; exists b; split; [child Hp Hi Rb|exact Et]).
  destruct (c_settings x) as [l|]; cbn [opt_den] in Hst.
  - destruct Hst as (q & -> & Hq). pose proof (proj1 Hq) as Rq. cbn [try_fold] in H. rewrite Rq in H. destruct (parse_col_settings q) as [st| |] eqn:Es; try discriminate. cbn [bind] in H.
    injection H as <-. cbn [tc_span tc_name tc_type tc_settings]. split; [exact Hx|]. split; [exact Wa|]. split; [exact Wb|]. intros st0 [= <-].
    apply col_settings_src. exists q. split; [child Hp Hi Rq|exact Es].
  - subst ps. cbn [try_fold] in H. injection H as <-. cbn [tc_span tc_name tc_type tc_settings]. split; [exact Hx|]. split; [exact Wa|]. split; [exact Wb|]. intros st0 [= ].
Qed.

(** ** Indexes *)
Definition index_col_ok (inp : str) (c : indexes_col) : Prop :=
  match c with ICString i => ident_of inp i | ICExpr l => written inp (lit_span l) index_expr_text (lit_value l) end.
Lemma index_col_src inp c : src inp indexes_ident parse_indexes_ident c -> index_col_ok inp c.
Proof.
  intros (p & Hp & H). unfold parse_indexes_ident in H. destruct (into_inner p) as [|q l] eqn:Hi; [discriminate|].
  destruct (p_rule q) eqn:Hr; try discriminate.
  - assert (Hqa : at_ inp backquoted_quoted_string q) by (child Hp Hi Hr).
    destruct (at_written inp backquoted_quoted_string q (quote bq) d_bqs (quote_local bq)) as (w & Hw & Hd); [|exact Hqa|].
    { intros i m ps HE. rewrite bqs_rule in HE. apply (B_quoted _ _ bq _ _ _ ok_bq HE). }
    destruct Hd as (_ & y & Hy & Ry & <-). rewrite Hy, Ry in H. injection H as <-. cbn [index_col_ok lit_span lit_value].
    destruct Hw as (pre & t & g & rest & W1 & W2 & W3 & W4). exists pre, t, g, rest. unfold index_expr_text. eauto 8.
  - apply omap_inv in H as (i & Hx & ->). exists q. split; [child Hp Hi Hr|exact Hx].
Qed.
Definition index_ok (inp : str) (d : indexes_def) : Prop :=
  written inp (idf_span d) index (e_index d) /\ Forall (index_col_ok inp) (idf_cols d) /\ forall st, idf_settings d = Some st -> set_ok inp (is_span st) (is_attributes st).
Lemma index_src_gen inp e rl b p d : e = N_ rl b -> at_ inp e p -> parse_indexes_single_multi p = Ok d ->
  (forall i m ps, E e i m ps -> exists x, index i (fin m) x /\ SynEval.one d_index x ps) ->
  Forall (fun e => (rule_of e = Some R_indexes_ident -> e = indexes_ident) /\ (rule_of e = Some R_indexes_settings -> e = indexes_settings)) (tops b) ->
  index_ok inp d.
Proof.
  intros -> Hp H HB HF. destruct (at_written inp _ p index d_index index_local HB Hp) as (x & Hx & Hd).
  pose proof (gives_meaning _ _ _ _ _ (build_index _ _ Hd) H) as He. unfold index_ok. rewrite He. rewrite Forall_forall in HF.
  assert (HC : forall q, In q (into_inner p) -> (p_rule q = R_indexes_ident -> at_ inp indexes_ident q) /\ (p_rule q = R_indexes_settings -> at_ inp indexes_settings q)).
  { intros q Hq. destruct (at_step _ _ _ _ _ Hp Hq) as (e & Hin & Ha). destruct (HF e Hin) as (F1 & F2). pose proof (at_rule _ _ _ Ha) as Hra.
    split; intros Hrq; rewrite Hrq in Hra; symmetry in Hra; [apply F1 in Hra|apply F2 in Hra]; subst e; exact Ha. }
  set (I := fun d => idf_span d = span_of p /\ Forall (index_col_ok inp) (idf_cols d) /\ forall st, idf_settings d = Some st -> set_ok inp (is_span st) (is_attributes st)).
  assert (HI : I d).
  { unfold parse_indexes_single_multi in H. refine (fold_inv I _ _ _ _ H _ _); [unfold I; cbn; split; [reflexivity|]; split; [constructor|intros st [= ]]|].
    intros acc q acc' Hq (I1 & I2 & I3) Hf. destruct (p_rule q) eqn:Hr; try discriminate; apply bind_inv in Hf as (y & Hy & Hf); injection Hf as <-;
      unfold I; cbn [idf_span idf_cols idf_settings].
    - split; [exact I1|]. split; [exact I2|]. intros st [= <-]. apply indexes_settings_src. exists q. split; [apply HC; assumption|exact Hy].
    - split; [exact I1|]. split; [|exact I3]. apply Forall_app. split; [exact I2|]. constructor; [|constructor]. apply index_col_src. exists q. split; [apply HC; assumption|exact Hy]. }
  destruct HI as (-> & H1 & H2). auto.
Qed.
Lemma index_single_src inp d : src inp indexes_single parse_indexes_single_multi d -> index_ok inp d.
Proof.
  intros (p & Hp & H). eapply (index_src_gen inp indexes_single R_indexes_single _ p d eq_refl Hp H).
  - intros i m ps HE. apply B_index. destruct HE as (off & t & HE). exists off, t. rewrite eval_alt, HE. reflexivity.
  - cbv -[s]. repeat constructor; intros; (discriminate || reflexivity).
Qed.
Lemma B_multi i m ps : E indexes_multi i m ps -> exists x, index i (fin m) x /\ SynEval.one d_index x ps.
Proof.
  intros H. apply E_rule in H as (p & -> & Hp & H).
  apply E_tok in H as (m1 & Ht1 & Hf & H). apply E_seq in H as (m2 & ps1 & ps2 & H1 & H2 & Hi).
  eapply (B_listed index_col) in H1 as (l & Hl & HF); [|apply B_index_col|exact Hf].
  apply E_tok in H2 as (m3 & Ht2 & Hf2 & H2). apply B_maybe_settings in H2 as (st & Hst & Hd); [|exact Hf2].
  exists (mkIndex l st). split; [eapply index_list; [apply listed_bracket; eauto|exact Hst]|].
  exists p. split; [reflexivity|]. split; [auto|]. exists ps1, ps2. auto.
Qed.
Lemma index_multi_src inp d : src inp indexes_multi parse_indexes_single_multi d -> index_ok inp d.
Proof.
  intros (p & Hp & H). eapply (index_src_gen inp indexes_multi R_indexes_multi _ p d eq_refl Hp H B_multi).
  cbv -[s]. repeat constructor; intros; (discriminate || reflexivity).
Qed.
Definition indexes_ok (inp : str) (b : indexes_block_t) : Prop :=
  written inp (ib_span b) (braces index) (map e_index (ib_defs b)) /\ Forall (index_ok inp) (ib_defs b).
Lemma indexes_src inp b : src inp indexes_decl parse_indexes_decl b -> indexes_ok inp b.
Proof.
  intros (p & Hp & H). destruct (at_den inp indexes_decl p indexes d_indexes B_indexes Hp) as (l0 & Hd0). pose proof Hd0 as (_ & q & Hi & Rq & _).
  assert (Hqa : at_ inp indexes_block q) by (child Hp Hi Rq).
  destruct (at_written inp indexes_block q (braces index) (fun q l => p_rule q = R_indexes_block /\ Forall2 d_index (into_inner q) l) (braces_local _ index_local)) as (l & Hl & _ & HF); [|exact Hqa|].
  { intros i m ps HE. apply E_rule in HE as (z & -> & Rz & HE). eapply (B_braced index) in HE as (l & Hl & HF); [|apply B_index]. exists l. split; [exact Hl|]. exists z. auto. }
  assert (HM : map e_index (ib_defs b) = l).
  { refine (gives_meaning (fun b => map e_index (ib_defs b)) _ _ _ _ (build_indexes p l _) H). split; [exact (proj1 Hd0)|]. exists q. auto. }
  unfold indexes_ok. rewrite HM. unfold parse_indexes_decl in H. rewrite Hi, Rq in H.
  set (I := fun b => ib_span b = span_of q /\ Forall (index_ok inp) (ib_defs b)).
  assert (HI : I b).
  { unfold parse_indexes_block in H. refine (fold_inv I _ _ _ _ H _ _); [unfold I; cbn; auto|].
    intros acc y acc' Hy (I1 & I2) Hf. destruct (p_rule y) eqn:Hr; try discriminate; apply bind_inv in Hf as (d & Hdd & Hf); injection Hf as <-;
      unfold I; cbn [ib_span ib_defs]; (split; [exact I1|]); apply Forall_app; (split; [exact I2|]); (constructor; [|constructor]).
    - apply index_multi_src. exists y. split; [child Hqa Hy Hr|exact Hdd].
    - apply index_single_src. exists y. split; [child Hqa Hy Hr|exact Hdd]. }
  destruct HI as (-> & H1). auto.
Qed.

(** ** Blocks *)
Definition note_of_src (inp : str) := src inp note_decl parse_note_decl.
Definition table_ok (inp : str) (t : table_t) : Prop :=
  written inp (tb_span t) block_text (ATable (e_table_block t)) /\ written inp (ti_span (tb_ident t)) decl_name (option_map id_str (ti_schema (tb_ident t)), id_str (ti_name (tb_ident t))) /\ ident_of inp (ti_name (tb_ident t)) /\ (forall i, ti_schema (tb_ident t) = Some i -> ident_of inp i) /\ (forall i, ti_alias (tb_ident t) = Some i -> ident_of inp i) /\ (forall st, tb_settings t = Some st -> set_ok inp (ts_span st) (ts_attributes st)) /\ Forall (col_ok inp) (tb_cols t) /\ (forall n, tb_note t = Some n -> note_of_src inp n) /\ (forall b, tb_indexes t = Some b -> indexes_ok inp b).
Lemma block_written {A} inp e p (R : reader A) (den : pair -> A -> Prop) (k : A -> a_block) : local R -> (forall i r a, R i r a -> block_r i r (k a)) ->
  (forall i m ps, E e i m ps -> exists a, R i (fin m) a /\ SynEval.one den a ps) ->
  at_ inp e p -> exists a, written inp (span_of p) block_text (settle_block (k a)) /\ den p a.
Proof.
  intros HL HR HB Hp. destruct (at_written inp e p R den HL HB Hp) as (a & (pre & t & g & rest & W1 & W2 & W3 & W4) & Hd).
  exists a. split; [|exact Hd]. exists pre, t, g, rest. repeat split; try assumption. exists (k a). split; [apply HR; exact W4|reflexivity].
Qed.
Lemma table_src inp t : src inp table_decl parse_table_decl t -> table_ok inp t.
Proof.
  intros (p & Hp & H). destruct (block_written inp table_decl p table d_table ATable table_local) as (x & Hx & Hd); [auto|apply B_table|exact Hp|].
  pose proof (gives_meaning _ _ _ _ _ (build_table _ _ Hd) H) as He. cbv beta in He. unfold table_ok. rewrite He.
  destruct Hd as (_ & d & al & st & b & l & Hi & Hd & Hal & Hst & Rb & _). pose proof (proj1 Hd) as Rd.
  unfold parse_table_decl in H. rewrite Hi in H. set (f := fun acc p1 => _) in H. cbn [try_fold] in H. unfold f at 1 in H. cbv beta iota in H. rewrite Rd in H.
  destruct (parse_decl_ident d) as [dd| |] eqn:Ed; try discriminate. cbn [bind table0] in H.
  assert (Hda : at_ inp decl_ident d) by (child Hp Hi Rd). destruct (decl_src inp d dd Hda Ed) as (W1 & W2 & W3).
  set (ID := fun t => written inp (ti_span (tb_ident t)) decl_name (option_map id_str (ti_schema (tb_ident t)), id_str (ti_name (tb_ident t))) /\   ident_of inp (ti_name (tb_ident t)) /\ (forall i, ti_schema (tb_ident t) = Some i -> ident_of inp i) /\   (forall i, ti_alias (tb_ident t) = Some i -> ident_of inp i)).
  set (I := fun t => tb_span t = span_of p /\ ID t /\   (forall st, tb_settings t = Some st -> set_ok inp (ts_span st) (ts_attributes st)) /\   Forall (col_ok inp) (tb_cols t) /\ (forall n, tb_note t = Some n -> note_of_src inp n) /\ (forall b, tb_indexes t = Some b -> indexes_ok inp b)).
  assert (HI : I t).
  { refine (fold_inv I _ _ _ _ H _ _).
    - unfold I, ID; cbn [tb_span tb_ident tb_settings tb_cols tb_note tb_indexes ti_span ti_name ti_schema ti_alias]. repeat split; try assumption; try discriminate; try constructor.
    - intros acc q acc' Hq0 HA Hf. assert (Hq : In q (into_inner p)) by (rewrite Hi; right; exact Hq0).
      unfold f in Hf. destruct (p_rule q) eqn:Hr; try (destruct acc; discriminate).
      + destruct acc as [sp cols id nt ix st0]. apply bind_inv in Hf as (y & Hy & Hf). injection Hf as <-. destruct HA as (I1 & I2 & I3 & I4).
        unfold I, ID in *. cbn [tb_span tb_ident tb_settings tb_cols tb_note tb_indexes] in *. split; [exact I1|]. split; [exact I2|]. split; [|exact I4].
        intros st1 [= <-]. apply table_settings_src. exists q. split; [child Hp Hq Hr|exact Hy].
      + destruct acc as [sp cols id nt ix st0]. apply bind_inv in Hf as (y & Hy & Hf). injection Hf as <-. destruct HA as (I1 & I2 & I3).
        assert (Hqa : at_ inp decl_ident q) by (child Hp Hq Hr). destruct (decl_src inp q y Hqa Hy) as (V1 & V2 & V3).
        unfold I, ID in *. cbn [tb_span tb_ident tb_settings tb_cols tb_note tb_indexes ti_span ti_name ti_schema ti_alias] in *.
        split; [exact I1|]. split; [|exact I3]. split; [exact V1|]. split; [exact V2|]. split; [exact V3|]. apply I2.
      + assert (Hqa : at_ inp table_block q) by (child Hp Hq Hr). 
        assert (HX : try_fold (fun acc p2 => let '(mkTable sp cols id nt ix st) := acc in
          match p_rule p2 with
          | R_table_col => let? c := parse_table_col p2 in Ok (mkTable sp (cols ++ [c]) id nt ix st)
          | R_note_decl => let? n := parse_note_decl p2 in Ok (mkTable sp cols id (Some n) ix st)
          | R_indexes_decl => let? i := parse_indexes_decl p2 in Ok (mkTable sp cols id nt (Some i) st)
          | _ => throw_rules [R_table_col; R_note_decl; R_indexes_decl] p2
          end) (into_inner q) acc = Ok acc') by (destruct acc; exact Hf).
        refine (fold_inv I _ _ _ _ HX HA _). clear - Hqa. intros acc y acc' Hy HA Hf. destruct acc as [sp cols id nt ix st0].
        destruct HA as (I1 & I2 & I3 & I4 & I5 & I6). unfold I, ID in *. cbn [tb_span tb_ident tb_settings tb_cols tb_note tb_indexes] in *.
        destruct (p_rule y) eqn:Hr; try discriminate; apply bind_inv in Hf as (z & Hz & Hf); injection Hf as <-; cbn [tb_span tb_ident tb_settings tb_cols tb_note tb_indexes];
          (split; [exact I1|]); (split; [exact I2|]); (split; [exact I3|]).
        * split; [exact I4|]. split; [|exact I6]. intros n [= <-]. exists y. split; [child Hqa Hy Hr|exact Hz].
        * split; [exact I4|]. split; [exact I5|]. intros b0 [= <-]. apply indexes_src. exists y. split; [child Hqa Hy Hr|exact Hz].
        * split; [|auto]. apply Forall_app. split; [exact I4|]. constructor; [|constructor]. apply col_src. exists y. split; [child Hqa Hy Hr|exact Hz].
      + assert (Hqa : at_ inp table_alias q) by (child Hp Hq Hr).
        assert (HX : try_fold (fun acc p2 =>
          match p_rule p2 with
          | R_ident =>
              let? a := parse_ident p2 in
              let '(mkTable sp cols id nt ix st) := acc in
              Ok (mkTable sp cols (mkTableIdent (ti_span id) (ti_name id) (ti_schema id) (Some a)) nt ix st)
          | _ => throw_rules [R_ident] p2
          end) (into_inner q) acc = Ok acc') by (destruct acc; exact Hf).
        refine (fold_inv I _ _ _ _ HX HA _). clear - Hqa. intros acc y acc' Hy HA Hf. destruct (p_rule y) eqn:Hr; try discriminate.
        apply bind_inv in Hf as (z & Hz & Hf). destruct acc as [sp cols id nt ix st0]. injection Hf as <-.
        destruct HA as (I1 & (J1 & J2 & J3 & J4) & I3). unfold I, ID in *. cbn [tb_span tb_ident tb_settings tb_cols tb_note tb_indexes ti_span ti_name ti_schema ti_alias] in *.
        split; [exact I1|]. split; [|exact I3]. split; [exact J1|]. split; [exact J2|]. split; [exact J3|].
        intros i [= <-]. exists y. split; [child Hqa Hy Hr|exact Hz]. }
  destruct HI as (-> & HID & HI). split; [exact Hx|]. unfold ID in HID. tauto.
Qed.

Definition enum_value_ok (inp : str) (v : enum_value_t) : Prop :=
  written inp (ev_span v) enum_value_r (id_str (ev_value v), option_map (fun st => map e_attr (evs_attributes st)) (ev_settings v)) /\ ident_of inp (ev_value v) /\ forall st, ev_settings v = Some st -> set_ok inp (evs_span st) (evs_attributes st).
Lemma enum_value_src inp v : src inp enum_value parse_enum_value v -> enum_value_ok inp v.
Proof.
  intros (p & Hp & H). destruct (at_written inp enum_value p enum_value_r d_enum_value enum_value_local B_enum_value Hp) as (x & Hx & Hd).
  pose proof (gives_meaning _ _ _ _ _ (build_enum_value _ _ Hd) H) as He. cbv beta in He. unfold enum_value_ok. rewrite He.
  destruct Hd as (_ & q & ps & Hi & Hq & Hst). pose proof (proj1 Hq) as Rq. unfold parse_enum_value in H. rewrite Hi in H. cbn [try_fold] in H. rewrite Rq in H.
  destruct (parse_ident q) as [i| |] eqn:Ei; try discriminate. cbn [bind ev_span ev_settings] in H.
  assert (Wq : ident_of inp i) by (exists q; split; [child Hp Hi Rq|exact Ei]).
  destruct (snd x) as [l|]; cbn [opt_den] in Hst.
  - destruct Hst as (y & -> & Hy). pose proof (proj1 Hy) as Ry. cbn [try_fold] in H. rewrite Ry in H. destruct (parse_enum_settings y) as [st| |] eqn:Es; try discriminate. cbn [bind] in H.
    injection H as <-. cbn [ev_span ev_value ev_settings]. split; [exact Hx|]. split; [exact Wq|]. intros st0 [= <-].
    apply enum_settings_src. exists y. split; [child Hp Hi Ry|exact Es].
  - subst ps. cbn [try_fold] in H. injection H as <-. cbn [ev_span ev_value ev_settings]. split; [exact Hx|]. split; [exact Wq|]. intros st0 [= ].
Qed.
Definition enum_ok (inp : str) (e : enum_t) : Prop :=
  written inp (en_span e) block_text (AEnum (e_enum e)) /\ written inp (ei_span (en_ident e)) decl_name (option_map id_str (ei_schema (en_ident e)), id_str (ei_name (en_ident e))) /\ ident_of inp (ei_name (en_ident e)) /\ (forall i, ei_schema (en_ident e) = Some i -> ident_of inp i) /\ Forall (enum_value_ok inp) (en_values e).
Lemma enum_src inp e : src inp enum_decl parse_enum_decl e -> enum_ok inp e.
Proof.
  intros (p & Hp & H). destruct (block_written inp enum_decl p enum d_enum AEnum enum_local) as (x & Hx & Hd); [auto|apply B_enum|exact Hp|].
  pose proof (gives_meaning _ _ _ _ _ (build_enum _ _ Hd) H) as He. cbn [settle_block] in Hx. unfold enum_ok. rewrite He.
  destruct Hd as (_ & d & b & Hi & Hd & Rb & _). pose proof (proj1 Hd) as Rd. unfold parse_enum_decl in H. rewrite Hi in H. cbn [try_fold] in H. rewrite Rd in H.
  destruct (parse_decl_ident d) as [dd| |] eqn:Ed; try discriminate. cbn [bind] in H. rewrite Rb in H.
  destruct (parse_enum_block b) as [v| |] eqn:Ev; try discriminate. cbn [bind en_span en_ident] in H. injection H as <-. cbn [en_span en_ident en_values ei_span ei_schema ei_name].
  assert (Hda : at_ inp decl_ident d) by (child Hp Hi Rd). assert (Hba : at_ inp enum_block b) by (child Hp Hi Rb).
  destruct (decl_src inp d dd Hda Ed) as (W1 & W2 & W3). split; [exact Hx|]. split; [exact W1|]. split; [exact W2|]. split; [exact W3|].
  unfold parse_enum_block in Ev. apply map_inv in Ev. eapply Forall_impl; [|exact Ev]. intros a (q & Hq & Hf). cbn beta in Hf. destruct (p_rule q) eqn:Hr; try discriminate.
  apply enum_value_src. exists q. split; [child Hba Hq Hr|exact Hf].
Qed.

Definition item_ok (inp : str) (i : group_item_t) : Prop :=
  written inp (gi_span i) decl_name (option_map id_str (gi_schema i), id_str (gi_ident_alias i)) /\ ident_of inp (gi_ident_alias i) /\ forall j, gi_schema i = Some j -> ident_of inp j.
Definition group_ok (inp : str) (g : group_t) : Prop :=
  written inp (tg_span g) block_text (AGroup (e_group g)) /\ ident_of inp (tg_ident g) /\ (forall st, tg_settings g = Some st -> set_ok inp (gs_span st) (gs_attributes st)) /\ Forall (item_ok inp) (tg_items g) /\ (forall n, tg_note g = Some n -> note_of_src inp n).
Lemma group_src inp g : src inp table_group_decl parse_table_group_decl g -> group_ok inp g.
Proof.
  intros (p & Hp & H). destruct (block_written inp table_group_decl p group d_group AGroup group_local) as (x & Hx & Hd); [auto|apply B_group|exact Hp|].
  pose proof (gives_meaning _ _ _ _ _ (build_group _ _ Hd) H) as He. cbv beta in He. unfold group_ok. rewrite He.
  destruct Hd as (_ & d & st & b & l & Hi & Hd & _). pose proof (proj1 Hd) as Rd.
  unfold parse_table_group_decl in H. rewrite Hi in H. set (f := fun acc p1 => _) in H. cbn [try_fold] in H. unfold f at 1 in H. cbv beta iota in H. rewrite Rd in H.
  destruct (parse_ident d) as [i| |] eqn:Ed; try discriminate. cbn [bind] in H.
  assert (Wd : ident_of inp i) by (exists d; split; [child Hp Hi Rd|exact Ed]).
  set (I := fun g => tg_span g = span_of p /\ ident_of inp (tg_ident g) /\   (forall st, tg_settings g = Some st -> set_ok inp (gs_span st) (gs_attributes st)) /\   Forall (item_ok inp) (tg_items g) /\ (forall n, tg_note g = Some n -> note_of_src inp n)).
  assert (HI : I g).
  { refine (fold_inv I _ _ _ _ H _ _).
    - unfold I; cbn [tg_span tg_ident tg_settings tg_items tg_note]. repeat split; try assumption; try discriminate; try constructor.
    - intros acc q acc' Hq0 HA Hf. assert (Hq : In q (into_inner p)) by (rewrite Hi; right; exact Hq0).
      unfold f in Hf. destruct (p_rule q) eqn:Hr; try (destruct acc; discriminate).
      + destruct acc as [sp id nt items st0]. apply bind_inv in Hf as (y & Hy & Hf). injection Hf as <-. destruct HA as (I1 & I2 & I3 & I4).
        unfold I in *. cbn [tg_span tg_ident tg_settings tg_items tg_note] in *. split; [exact I1|]. split; [|auto]. exists q. split; [child Hp Hq Hr|exact Hy].
      + destruct acc as [sp id nt items st0]. apply bind_inv in Hf as (y & Hy & Hf). injection Hf as <-. destruct HA as (I1 & I2 & I3 & I4).
        unfold I in *. cbn [tg_span tg_ident tg_settings tg_items tg_note] in *. split; [exact I1|]. split; [exact I2|]. split; [|exact I4].
        intros st1 [= <-]. apply group_settings_src. exists q. split; [child Hp Hq Hr|exact Hy].
      + assert (Hqa : at_ inp table_group_block q) by (child Hp Hq Hr).
        assert (HX : try_fold (fun acc p2 => let '(mkGroup sp id nt items st) := acc in
          match p_rule p2 with
          | R_decl_ident =>
              let? d := parse_decl_ident p2 in
              Ok (mkGroup sp id nt (items ++ [mkGroupItem (span_of p2) (fst d) (snd d)]) st)
          | R_note_decl => let? n := parse_note_decl p2 in Ok (mkGroup sp id (Some n) items st)
          | _ => throw_rules [R_decl_ident; R_note_decl] p2
          end) (into_inner q) acc = Ok acc') by (destruct acc; exact Hf).
        refine (fold_inv I _ _ _ _ HX HA _). clear - Hqa. intros acc y acc' Hy HA Hf. destruct acc as [sp id nt items st0].
        destruct HA as (I1 & I2 & I3 & I4 & I5). unfold I in *. cbn [tg_span tg_ident tg_settings tg_items tg_note] in *.
        destruct (p_rule y) eqn:Hr; try discriminate; apply bind_inv in Hf as (z & Hz & Hf); injection Hf as <-; cbn [tg_span tg_ident tg_settings tg_items tg_note];
          (split; [exact I1|]); (split; [exact I2|]); (split; [exact I3|]).
        * split; [|exact I5]. apply Forall_app. split; [exact I4|]. constructor; [|constructor].
          assert (Hya : at_ inp decl_ident y) by (child Hqa Hy Hr). exact (decl_src inp y z Hya Hz).
        * split; [exact I4|]. intros n [= <-]. exists y. split; [child Hqa Hy Hr|exact Hz]. }
  destruct HI as (-> & HI). split; [exact Hx|exact HI].
Qed.

Definition project_ok (inp : str) (x : project_t) : Prop :=
  written inp (pj_span x) block_text (AProject (e_project x)) /\ ident_of inp (pj_ident x) /\ Forall (src inp property parse_property) (pj_properties x) /\ (forall n, pj_note x = Some n -> note_of_src inp n).
Lemma project_src inp g : src inp project_decl parse_project_decl g -> project_ok inp g.
Proof.
  intros (p & Hp & H). destruct (block_written inp project_decl p project d_project AProject project_local) as (x & Hx & Hd); [auto|apply B_project|exact Hp|].
  pose proof (gives_meaning _ _ _ _ _ (build_project _ _ Hd) H) as He. cbv beta in He. unfold project_ok. rewrite He.
  destruct Hd as (_ & d & b & l & Hi & Hd & Rb & _). pose proof (proj1 Hd) as Rd.
  unfold parse_project_decl in H. rewrite Hi in H. cbn [try_fold] in H. rewrite Rd in H.
  destruct (parse_ident d) as [i| |] eqn:Ed; try discriminate. cbn [bind] in H. rewrite Rb in H. apply bind_inv in H as (y & Hy & H). injection H as <-.
  assert (Wd : ident_of inp i) by (exists d; split; [child Hp Hi Rd|exact Ed]). assert (Hba : at_ inp project_block b) by (child Hp Hi Rb).
  set (I := fun x => pj_span x = span_of p /\ ident_of inp (pj_ident x) /\   Forall (src inp property parse_property) (pj_properties x) /\ (forall n, pj_note x = Some n -> note_of_src inp n)).
  assert (HI : I y).
  { refine (fold_inv I _ _ _ _ Hy _ _).
    - unfold I; cbn [project0 pj_span pj_ident pj_properties pj_note]. repeat split; try assumption; try discriminate; try constructor.
    - intros acc q acc' Hq (I1 & I2 & I3 & I4) Hf. destruct (p_rule q) eqn:Hr; try discriminate; apply bind_inv in Hf as (z & Hz & Hf); cbv zeta in Hf; injection Hf as <-;
        unfold I; cbn [pj_span pj_ident pj_properties pj_note]; (split; [exact I1|]); (split; [exact I2|]).
      + split; [|exact I4]. apply Forall_app. split; [exact I3|]. constructor; [|constructor]. exists q. split; [child Hba Hq Hr|exact Hz].
      + split; [exact I3|]. intros n [= <-]. exists q. split; [child Hba Hq Hr|exact Hz]. }
  destruct HI as (-> & HI). split; [exact Hx|exact HI].
Qed.

(** ** The whole AST *)
Definition block_ok (inp : str) (b : block) : Prop :=
  match b with
  | BProject x => project_ok inp x | BTable x => table_ok inp x | BTableGroup x => group_ok inp x
  | BNote x => note_of_src inp x | BRef x => ref_ok inp x | BEnum x => enum_ok inp x
  end.
Lemma schema_src inp x : parse_dbml_unchecked inp = Some (Ok x) -> Forall (block_ok inp) (sb_blocks x).
Proof.
  unfold parse_dbml_unchecked. intros H. destruct (run schema NonAtomic 0 inp) as [t r ps| |] eqn:E0; try discriminate.
  destruct (schema_read _ _ _ _ E0) as (p & a & -> & Hd & _). pose proof (proj1 Hd) as Rp. rewrite Rp in H. injection H as H.
  assert (Hp : at_ inp schema p).
  { unfold run in E0. pose proof E0 as E1. apply eval_der in E1 as [-> _]; [|exact skip_app].
    exists [], t, r. split; [reflexivity|]. split; [exact E0|]. rewrite schema_rule in *. split; [rewrite Rp; reflexivity|]. rewrite eval_normal in E0.
    destruct (eval skip (ESeq ESoi (ESeq (ERep decls) EOI)) NonAtomic 0 (t ++ r)) as [t1 m1 ps1| |]; try discriminate. rewrite emit_ok in E0 by discriminate.
    injection E0 as -> -> <-. cbn. auto. }
  unfold parse_schema in H. refine (fold_inv (fun x => Forall (block_ok inp) (sb_blocks x)) _ _ _ _ H _ _); [constructor|].
  intros acc q acc' Hq HA Hf. apply bind_inv in Hf as ([b|] & Hb & Hf); injection Hf as <-; [|exact HA]. cbn [sb_blocks].
  apply Forall_app. split; [exact HA|]. constructor; [|constructor]. unfold parse_block in Hb.
  destruct (p_rule q) eqn:Hr; try discriminate; apply omap_inv in Hb as (y & Hy & [= ->]); cbn [block_ok].
  - apply ref_src. exists q. split; [child Hp Hq Hr|exact Hy].
  - exists q. split; [child Hp Hq Hr|exact Hy].
  - apply enum_src. exists q. split; [child Hp Hq Hr|exact Hy].
  - apply table_src. exists q. split; [child Hp Hq Hr|exact Hy].
  - apply group_src. exists q. split; [child Hp Hq Hr|exact Hy].
  - apply project_src. exists q. split; [child Hp Hq Hr|exact Hy].
Qed.
