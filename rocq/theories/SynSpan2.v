(** * SynSpan2: from pairs to AST nodes, for the containers. *)

From Verif Require Import PegFacts Lex.
From Verif Require Import ParserOk ParserOk3 ParseFacts.
From Verif Require Import SynEval SynLex SynGram SynType SynGram2 SynBuild SynBuild2 SynCut.
From Verif Require Export SynSpan.
From Verif Require Import Parser.
From Verif Require Import Syntax.

(** ** Settings *)
Definition attribute_of (inp : str) := src inp attribute parse_attribute.
Definition set_ok (inp : str) (sp : range) (l : list attribute_t) : Prop :=
  written inp sp attrs (map e_attr l) /\ Forall (attribute_of inp) l.
Lemma attr_child inp rl p q : at_ inp (N_ rl (bracketed attribute)) p -> In q (into_inner p) -> at_ inp attribute q.
Proof.
  intros Hp Hq. destruct (at_step _ _ _ _ _ Hp Hq) as (e & He & Ha). cbv -[attribute] in He. destruct He as [<-|[<-|[]]]; exact Ha.
Qed.
Lemma settings_meaning inp rl p {X} (f : pair -> outcome X) (g : X -> list attribute_t) P x :
  (forall l, d_settings rl p l -> gives (fun x => map e_attr (g x)) (P l) (f p) l) ->
  at_ inp (N_ rl (bracketed attribute)) p -> f p = Ok x -> written inp (span_of p) attrs (map e_attr (g x)).
Proof.
  intros HB Hp H. destruct (at_written inp _ p attrs (d_settings rl) attrs_local (B_settings rl) Hp) as (l & Hl & Hd).
  pose proof (gives_meaning _ _ _ _ _ (HB l Hd) H) as <-. exact Hl.
Qed.
Lemma parse_attributes_src inp rl p l : at_ inp (N_ rl (bracketed attribute)) p -> parse_attributes p = Ok l -> Forall (attribute_of inp) l.
Proof.
  intros Hp H. unfold parse_attributes in H. apply map_inv in H. eapply Forall_impl; [|exact H]. intros a (q & Hq & Ha). cbn beta in Ha.
  exists q. split; [eapply attr_child; eassumption|]. destruct (p_rule q); try discriminate. exact Ha.
Qed.
Lemma table_settings_src inp st : src inp block_settings parse_table_settings st -> set_ok inp (ts_span st) (ts_attributes st).
Proof.
  intros (p & Hp & H). split.
  - replace (ts_span st) with (span_of p). 2: { unfold parse_table_settings in H. apply bind_inv in H as (l & _ & H). injection H as <-. reflexivity. }
    eapply settings_meaning; [|exact Hp|exact H]. intros l Hd. exact (build_table_settings _ _ _ Hd).
  - unfold parse_table_settings in H. apply bind_inv in H as (l & Hl & H). injection H as <-. eapply parse_attributes_src; eassumption.
Qed.
Lemma group_settings_src inp st : src inp block_settings parse_table_group_settings st -> set_ok inp (gs_span st) (gs_attributes st).
Proof.
  intros (p & Hp & H). split.
  - replace (gs_span st) with (span_of p). 2: { unfold parse_table_group_settings in H. apply bind_inv in H as (l & _ & H). injection H as <-. reflexivity. }
    eapply settings_meaning; [|exact Hp|exact H]. intros l Hd. exact (build_group_settings _ _ _ Hd).
  - unfold parse_table_group_settings in H. apply bind_inv in H as (l & Hl & H). injection H as <-. eapply parse_attributes_src; eassumption.
Qed.
Lemma attr_snoc inp rl p q l a : at_ inp (N_ rl (bracketed attribute)) p -> In q (into_inner p) -> parse_attribute q = Ok a ->
  Forall (attribute_of inp) l -> Forall (attribute_of inp) (l ++ [a]).
Proof.
  intros Hp Hq Ha Hl. apply Forall_app. split; [exact Hl|]. constructor; [|constructor]. exists q. split; [eapply attr_child; eassumption|exact Ha].
Qed.
Lemma enum_settings_src inp st : src inp enum_settings parse_enum_settings st -> set_ok inp (evs_span st) (evs_attributes st).
Proof.
  intros (p & Hp & H).
  assert (HI : evs_span st = span_of p /\ Forall (attribute_of inp) (evs_attributes st)).
  { unfold parse_enum_settings in H. refine (fold_inv (fun a => evs_span a = span_of p /\ Forall (attribute_of inp) (evs_attributes a)) _ _ _ _ H _ _).
    - cbn. auto.
    - intros acc q acc' Hq [H1 H2] Hf. destruct (p_rule q); try discriminate. apply bind_inv in Hf as (a & Ha & Hf). injection Hf as <-.
      cbn [evs_span evs_attributes]. split; [exact H1|]. eapply attr_snoc; eassumption. }
  destruct HI as [-> HI]. split; [|exact HI]. eapply settings_meaning; [|exact Hp|exact H]. intros l Hd. exact (build_enum_settings _ _ _ Hd).
Qed.
Lemma rel_settings_src inp st : src inp rel_settings parse_rel_settings st -> set_ok inp (rs_span st) (rs_attributes st).
Proof.
  intros (p & Hp & H).
  assert (HI : rs_span st = span_of p /\ Forall (attribute_of inp) (rs_attributes st)).
  { unfold parse_rel_settings in H. refine (fold_inv (fun a => rs_span a = span_of p /\ Forall (attribute_of inp) (rs_attributes a)) _ _ _ _ H _ _).
    - cbn. auto.
    - intros acc q acc' Hq [H1 H2] Hf. destruct (p_rule q); try discriminate. apply bind_inv in Hf as (a & Ha & Hf).
      assert (HS : Forall (attribute_of inp) (rs_attributes acc ++ [a])) by (eapply attr_snoc; eassumption).
      cbv zeta in Hf. destruct (str_eqb (id_str (at_key a)) (s "update")); [apply bind_inv in Hf as (y & _ & Hf); injection Hf as <-; cbn; auto|].
      destruct (str_eqb (id_str (at_key a)) (s "delete")); [apply bind_inv in Hf as (y & _ & Hf); injection Hf as <-; cbn; auto|].
      injection Hf as <-; cbn; auto. }
  destruct HI as [-> HI]. split; [|exact HI]. eapply settings_meaning; [|exact Hp|exact H]. intros l Hd. exact (build_rel_settings _ _ Hd).
Qed.
Lemma indexes_settings_src inp st : src inp indexes_settings parse_indexes_settings st -> set_ok inp (is_span st) (is_attributes st).
Proof.
  intros (p & Hp & H).
  assert (HI : is_span st = span_of p /\ Forall (attribute_of inp) (is_attributes st)).
  { unfold parse_indexes_settings in H. refine (fold_inv (fun a => is_span a = span_of p /\ Forall (attribute_of inp) (is_attributes a)) _ _ _ _ H _ _).
    - cbn. auto.
    - intros acc q acc' Hq [H1 H2] Hf. destruct (p_rule q); try discriminate. apply bind_inv in Hf as (a & Ha & Hf).
      assert (HS : Forall (attribute_of inp) (is_attributes acc ++ [a])) by (eapply attr_snoc; eassumption).
      destruct acc as [sp attrs0 ty un pk nt nm]. cbn [is_span is_attributes] in *. cbv zeta in Hf.
      repeat match type of Hf with
             | (if ?b then _ else _) = _ => destruct b
             | match ?o with _ => _ end = _ => destruct o; try discriminate
             end; injection Hf as <-; cbn; auto. }
  destruct HI as [-> HI]. split; [|exact HI]. eapply settings_meaning; [|exact Hp|exact H]. intros l Hd. exact (build_index_settings _ _ Hd).
Qed.

(** ** Notes *)
Lemma note_src inp n : src inp note_decl parse_note_decl n ->
  written inp (nb_span n) note (e_note n) /\ written inp (lit_span (nb_value n)) note_text (lit_value (nb_value n)).
Proof.
  intros (p & Hp & H). destruct (at_written inp note_decl p note d_note note_local B_note Hp) as (v & Hv & Hd).
  destruct (build_note _ _ Hd) as (n' & Hn & He). rewrite H in Hn. injection Hn as <-. rewrite He.
  destruct Hd as (_ & q & x & w & Hi & Hq & Hx & Hs & ->).
  assert (Sq : span_of q = span_of p) by (eapply at_wrap; [|exact Hp|rewrite Hi; left; reflexivity]; repeat eexists).
  assert (Hxs : at_ inp string_value x).
  { assert (Hxq : In x (into_inner q)) by (rewrite Hx; left; reflexivity). pose proof (proj1 Hs) as Hrx. destruct Hq as [Hq|Hq].
    - assert (Hqa : at_ inp note_short q) by (child Hp Hi Hq). child Hqa Hxq Hrx.
    - assert (Hqa : at_ inp note_block q) by (child Hp Hi Hq). child Hqa Hxq Hrx. }
  destruct (at_written inp string_value x text d_string text_local B_string Hxs) as (w' & Hw' & Hd').
  assert (w' = w) as ->.
  { pose proof (build_string _ _ Hd') as E1. pose proof (build_string _ _ Hs) as E2. rewrite E1 in E2. congruence. }
  unfold parse_note_decl in H. rewrite Hi in H.
  assert (HH : n = mkNote (span_of q) (mkLiteral (span_of x) (as_str x) (VString w))).
  { destruct Hq as [Hq|Hq]; rewrite Hq, Hx, (proj1 Hs), (build_string _ _ Hs) in H; cbn [omap] in H; congruence. }
  subst n. cbn [nb_span nb_value lit_span lit_value]. rewrite Sq. split; [exact Hv|].
  destruct Hw' as (pre & t & g & rest & W1 & W2 & W3 & W4). exists pre, t, g, rest. unfold note_text. eauto 8.
Qed.

(** ** Names with a schema *)
Definition ident_of (inp : str) := src inp ident parse_ident.
Lemma decl_src inp p d : at_ inp decl_ident p -> parse_decl_ident p = Ok d ->
  written inp (span_of p) decl_name (option_map id_str (fst d), id_str (snd d)) /\ ident_of inp (snd d) /\ forall i, fst d = Some i -> ident_of inp i.
Proof.
  intros Hp H. destruct (at_written inp decl_ident p decl_name d_decl decl_local B_decl Hp) as (x & Hx & Hd).
  destruct (build_decl _ _ Hd) as (d' & Hd' & He). rewrite H in Hd'. injection Hd' as <-. rewrite He. split; [exact Hx|].
  unfold parse_decl_ident in H. apply bind_inv in H as (toks & Ht & H). apply map_inv in Ht. rewrite Forall_forall in Ht.
  assert (HI : forall i, In i toks -> ident_of inp i).
  { intros i Hin. apply Ht in Hin as (q & Hq & Hf). cbn beta in Hf. destruct (p_rule q) eqn:Hr; try discriminate. exists q. split; [child Hp Hq Hr|exact Hf]. }
  destruct toks as [|a [|b [|c toks]]]; try discriminate; injection H as <-; cbn [fst snd].
  - split; [apply HI; left; reflexivity|]. intros i [= ].
  - split; [apply HI; right; left; reflexivity|]. intros i [= <-]. apply HI. left. reflexivity.
Qed.

(** ** References *)
Definition endpoint_ok (inp : str) (r : ref_ident_t) : Prop :=
  written inp (ri_span r) endpoint (e_ref_end r) /\ ident_of inp (ri_table r) /\ (forall i, ri_schema r = Some i -> ident_of inp i) /\
  Forall (ident_of inp) (ri_compositions r).
Lemma endpoint_src inp r : src inp ref_ident parse_ref_ident r -> endpoint_ok inp r.
Proof.
  intros (p & Hp & H). destruct (at_written inp ref_ident p endpoint d_end endpoint_local B_endpoint Hp) as (x & Hx & Hd).
  destruct (build_end _ _ Hd) as (r' & Hr' & He). rewrite H in Hr'. injection Hr' as <-. clear Hd. unfold endpoint_ok. rewrite He.
  unfold parse_ref_ident in H. apply bind_inv in H as ([toks comps] & Ht & H).
  assert (HI : Forall (ident_of inp) toks /\ Forall (ident_of inp) comps).
  { refine (fold_inv (fun st => Forall (ident_of inp) (fst st) /\ Forall (ident_of inp) (snd st)) _ _ _ _ Ht _ _); [cbn; auto|].
    intros [tk cm] q acc' Hq [H1 H2] Hf. cbn [fst snd] in *. destruct (p_rule q) eqn:Hr; try discriminate.
    - apply bind_inv in Hf as (i & Hi & Hf). injection Hf as <-. cbn [fst snd]. split; [|exact H2]. apply Forall_app. split; [exact H1|].
      constructor; [|constructor]. exists q. split; [child Hp Hq Hr|exact Hi].
    - apply omap_inv in Hf as (c & Hc & ->). cbn [fst snd]. split; [exact H1|]. assert (Hqa : at_ inp ref_composition q) by (child Hp Hq Hr).
      refine (fold_inv (Forall (ident_of inp)) _ _ _ _ Hc H2 _). intros a q2 a' Hq2 Ha Hf. destruct (p_rule q2) eqn:Hr2; try discriminate.
      apply bind_inv in Hf as (i & Hi & Hf). injection Hf as <-. apply Forall_app. split; [exact Ha|].
      constructor; [|constructor]. exists q2. split; [child Hqa Hq2 Hr2|exact Hi]. }
  destruct HI as [HT HC]. cbn [fst snd] in H.
  destruct toks as [|a [|b [|c toks]]]; try discriminate; injection H as <-; cbn [ri_span ri_table ri_schema ri_compositions]; rewrite ?Forall_cons_iff in HT.
  - split; [exact Hx|]. split; [tauto|]. split; [intros i [= ]|exact HC].
  - split; [exact Hx|]. split; [tauto|]. split; [intros i [= <-]; tauto|exact HC].
Qed.
Definition inline_ok (inp : str) (r : ref_inline_t) : Prop := written inp (rin_span r) inline (e_inline r) /\ endpoint_ok inp (rin_rhs r).
Lemma inline_src inp r : src inp ref_inline parse_ref_inline r -> inline_ok inp r.
Proof.
  intros (p & Hp & H). destruct (at_written inp ref_inline p inline d_inline inline_local B_inline Hp) as (x & Hx & Hd).
  destruct (build_inline _ _ Hd) as (r' & Hr' & He). rewrite H in Hr'. injection Hr' as <-. unfold inline_ok. rewrite He.
  destruct Hd as (_ & a & b & Hi & Ha & Hb). pose proof (build_rel _ _ Ha) as [Ra Fa]. pose proof (proj1 Hb) as Rb.
  unfold parse_ref_inline in H. rewrite Hi in H. cbn [try_fold] in H. rewrite Ra, Fa in H. cbn [bind] in H. rewrite Rb in H.
  destruct (parse_ref_ident b) as [v| |] eqn:Ev; try discriminate. cbn [bind] in H. injection H as <-. cbn [rin_span rin_rhs].
  split; [exact Hx|]. apply endpoint_src. exists b. split; [child Hp Hi Rb|exact Ev].
Qed.
Definition ref_ok (inp : str) (r : ref_block_t) : Prop :=
  written inp (rb_span r) (ref_body (option_map id_str (rb_name r))) (e_ref r) /\ endpoint_ok inp (rb_lhs r) /\ endpoint_ok inp (rb_rhs r) /\
  (forall i, rb_name r = Some i -> ident_of inp i) /\ (forall st, rb_settings r = Some st -> set_ok inp (rs_span st) (rs_attributes st)).
Lemma stmt_src inp p y nm : at_ inp ref_stmt p -> parse_ref_stmt p = Ok y -> (forall i, nm = Some i -> ident_of inp i) ->
  ref_ok inp (mkRefBlock (rb_span y) nm (rb_rel y) (rb_lhs y) (rb_rhs y) (rb_settings y)).
Proof.
  intros Hp H Hn. destruct (at_written inp ref_stmt p (ref_body (option_map id_str nm)) (fun q f => f_name f = option_map id_str nm /\ d_stmt q f) (ref_body_local _)) as (f & Hf & Hfn & Hd); [|exact Hp|].
  { intros i m ps HE. apply (B_stmt (option_map id_str nm)) in HE as (f & H1 & H2 & q & -> & H3). exists f. split; [exact H2|]. exists q. auto. }
  pose proof (gives_meaning _ _ _ _ _ (build_stmt _ _ nm Hd) H) as He. cbv beta in He.
  replace (mkARef (option_map id_str nm) (f_rel f) (f_lhs f) (f_rhs f) (f_settings f)) with f in He by (destruct f; cbn in *; congruence).
  destruct Hd as (_ & a & x & b & ps & Hi & Ha & Hx & Hb & Hst). pose proof (build_rel _ _ Hx) as [Rx Fx]. pose proof (proj1 Ha) as Ra. pose proof (proj1 Hb) as Rb.
  assert (Hxu : relation_eqb (f_rel f) Undef = false).
  { destruct Hx as (t & _ & Ht). destruct (f_rel f); try reflexivity. discriminate. }
  unfold parse_ref_stmt in H. rewrite Hi in H. cbn [app try_fold] in H. rewrite Ra in H.
  destruct (parse_ref_ident a) as [va| |] eqn:Ea; try discriminate. cbn [bind relation_eqb] in H. rewrite Rx, Fx in H. cbn [bind] in H. rewrite Rb in H.
  destruct (parse_ref_ident b) as [vb| |] eqn:Eb; try discriminate. cbn [bind] in H. rewrite Hxu in H. cbn [bind] in H.
  assert (Wa : endpoint_ok inp va) by (apply endpoint_src; exists a; split; [child Hp Hi Ra|exact Ea]).
  assert (Wb : endpoint_ok inp vb) by (apply endpoint_src; exists b; split; [child Hp Hi Rb|exact Eb]).
  unfold ref_ok. cbn [rb_span rb_name rb_lhs rb_rhs rb_settings]. rewrite He.
  destruct (f_settings f) as [l|]; cbn [opt_den] in Hst.
  - destruct Hst as (q & -> & Hq). cbn [try_fold] in H. pose proof (proj1 Hq) as Rq. rewrite Rq in H. destruct (parse_rel_settings q) as [st| |] eqn:Est; try discriminate. cbn [bind] in H.
    injection H as <-. cbn [rb_span rb_lhs rb_rhs rb_settings]. split; [exact Hf|]. split; [exact Wa|]. split; [exact Wb|]. split; [exact Hn|].
    intros st0 [= <-]. eapply rel_settings_src. exists q. split; [child Hp Hi Rq|exact Est].
  - subst ps. cbn [try_fold] in H. injection H as <-. cbn [rb_span rb_lhs rb_rhs rb_settings]. split; [exact Hf|]. split; [exact Wa|]. split; [exact Wb|].
    split; [exact Hn|]. intros st0 [= ].
Qed.
Lemma ref_src inp r : src inp ref_decl parse_ref_decl r -> ref_ok inp r.
Proof.
  intros (p & Hp & H). destruct (at_den inp ref_decl p reference d_ref B_ref Hp) as (f & _ & q & nm & st & Hi & Hq & Hin & Hnm & Hst).
  assert (HC : forall z, In z (into_inner q) -> (p_rule z = R_ref_stmt -> at_ inp ref_stmt z) /\ (p_rule z = R_ident -> at_ inp ident z)).
  { intros z Hz. destruct Hq as [Hq|Hq].
    - assert (Hqa : at_ inp ref_block q) by (child Hp Hi Hq). split; intros Hr; child Hqa Hz Hr.
    - assert (Hqa : at_ inp ref_short q) by (child Hp Hi Hq). split; intros Hr; child Hqa Hz Hr. }
  unfold parse_ref_decl in H. rewrite Hi in H.
  assert (HH : exists b, ref_decl_inner None (into_inner q) = Ok (Some b) /\ b = r).
  { destruct Hq as [Hq|Hq]; rewrite Hq in H; (destruct (ref_decl_inner None (into_inner q)) as [[b|]| |] eqn:Eb; cbn [bind] in H; try discriminate;
      exists b; split; [reflexivity|congruence]). }
  destruct HH as (b & HH & ->). rewrite Hin in HH, HC. pose proof (proj1 Hst) as Rst.
  assert (Hsta : at_ inp ref_stmt st) by (apply HC; [apply in_or_app; right; left; reflexivity|exact Rst]).
  destruct (f_name f) as [w|]; cbn [opt_den] in Hnm.
  - destruct Hnm as (x & -> & Hx). cbn [app ref_decl_inner] in HH. pose proof (proj1 Hx) as Rx. rewrite Rx in HH. destruct (parse_ident x) as [i| |] eqn:Ei; try discriminate. cbn [bind] in HH.
    rewrite Rst in HH. apply omap_inv in HH as (y & Hy & [= ->]). apply (stmt_src inp st y (Some i) Hsta Hy). intros j [= <-]. exists x. split; [|exact Ei].
    apply HC; [left; reflexivity|exact Rx].
  - subst nm. cbn [app ref_decl_inner] in HH. rewrite Rst in HH. apply omap_inv in HH as (y & Hy & [= ->]). apply (stmt_src inp st y None Hsta Hy). intros j [= ].
Qed.
