(** * ParseFacts2: the parser properties, as lemmas. *)

From Verif Require Import Layout Nodes NodesOk SpansOk RulesOk RulesOk2 RulesOk3 Rules CheckFacts ParseFacts.
From Verif Require Import Err Parser Analyzer Api.

Section Parsed.
  Variables (inp : str) (x : schema_t).
  Hypothesis P : parse_dbml_unchecked inp = Some (Ok x).
  Let K : schema_ok inp x := unchecked_ok inp x P.

  Lemma p_spans sp : In sp (all_spans x) -> valid_span inp sp /\ exists t, slice inp (fst sp) (snd sp) = Some t.
  Proof. intros H. pose proof (n_span _ _ K _ H) as V. split; [exact V|]. apply valid_slice. exact V. Qed.
  Lemma p_raw :
    (forall i, In i (all_idents x ++ all_keys x) -> slice inp (fst (id_span i)) (snd (id_span i)) = Some (id_raw i)) /\
    (forall l, In l (all_literals x ++ all_index_exprs x) -> slice inp (fst (lit_span l)) (snd (lit_span l)) = Some (lit_raw l)) /\
    (forall t, In t (all_types x) -> slice inp (fst (ct_span t)) (snd (ct_span t)) = Some (ct_raw t)).
  Proof.
    split; [|split].
    - intros i H. apply in_app_or in H as [H|H]; [apply (n_ident _ _ K) in H|apply (n_key _ _ K) in H]; apply H.
    - intros l H. apply in_app_or in H as [H|H]; [apply (n_lit _ _ K) in H|apply (n_expr _ _ K) in H]; apply H.
    - intros t H. apply (n_type _ _ K) in H. apply H.
  Qed.
  Lemma p_ident i : In i (all_idents x) -> ident_text (id_raw i) (id_str i).
  Proof. intros H. apply (n_ident _ _ K) in H. apply H. Qed.
  Lemma p_key i : In i (all_keys x) -> spaced_word (id_raw i) /\ id_str i = id_raw i.
  Proof. intros H. apply (n_key _ _ K) in H. destruct H as (_ & H). exact H. Qed.

  Lemma p_string l v : In l (all_literals x) -> lit_value l = VString v -> exists q, In q [sq; tq; dq] /\ quoted q (lit_raw l) v.
  Proof. intros H E. apply (n_lit _ _ K) in H as (_ & H). rewrite E in H. apply spells_string. exact H. Qed.
  Lemma p_expr l v : In l (all_literals x) -> lit_value l = VExpr v -> quoted bq (lit_raw l) v.
  Proof. intros H E. apply (n_lit _ _ K) in H as (_ & H). rewrite E in H. apply spells_expr. exact H. Qed.
  Lemma p_index_expr l : In l (all_index_exprs x) -> exists v, lit_value l = VString v /\ quoted bq (lit_raw l) v.
  Proof. intros H. apply (n_expr _ _ K) in H. apply H. Qed.
  Lemma p_verbatim l v : In l (all_literals x) -> lit_value l = VString v \/ lit_value l = VExpr v ->
    exists q body, In q [sq; tq; dq; bq] /\ lit_raw l = q ++ body ++ q /\ (no_layout_start body -> v = body).
  Proof.
    intros H [E|E].
    - destruct (p_string _ _ H E) as (q & Hq & HQ). pose proof HQ as (g & Eg & _). exists q, (g ++ v). split; [cbn in *; tauto|].
      split; [rewrite <- app_assoc; exact Eg|]. intros Hb. eapply quoted_verb; [exact HQ| |exact Hb]. rewrite <- app_assoc. exact Eg.
    - pose proof (p_expr _ _ H E) as HQ. pose proof HQ as (g & Eg & _). exists bq, (g ++ v). split; [cbn; tauto|].
      split; [rewrite <- app_assoc; exact Eg|]. intros Hb. eapply quoted_verb; [exact HQ| |exact Hb]. rewrite <- app_assoc. exact Eg.
  Qed.

  Lemma p_integer l z : In l (all_literals x) -> lit_value l = VInteger z ->
    digits (lit_raw l) /\ z = Z.of_N (digits_value 0 (lit_raw l)) /\ (z <= 9223372036854775807)%Z.
  Proof.
    intros H E. apply (n_lit _ _ K) in H as (_ & H). rewrite E in H. apply spells_integer in H as (H1 & H2 & H3).
    split; [exact H1|]. split; [exact H2|]. lia.
  Qed.
  Lemma p_digits l : In l (all_literals x) -> digits (lit_raw l) -> lit_value l = VInteger (Z.of_N (digits_value 0 (lit_raw l))).
  Proof. intros H D. apply (n_lit _ _ K) in H as (_ & H). apply (spells_digits _ _ D) in H. apply H. Qed.
  Lemma p_decimal l f : In l (all_literals x) -> lit_value l = VDecimal f ->
    exists d1 d2, lit_raw l = d1 ++ s "." ++ d2 /\ digits d1 /\ Forall digit d2 /\ nearest64 (decimal_value d1 d2) f.
  Proof. intros H E. apply (n_lit _ _ K) in H as (_ & H). rewrite E in H. apply spells_decimal. exact H. Qed.
  Lemma p_dec_raw l d1 d2 : In l (all_literals x) -> lit_raw l = d1 ++ s "." ++ d2 -> digits d1 -> Forall digit d2 ->
    exists f, lit_value l = VDecimal f /\ nearest64 (decimal_value d1 d2) f.
  Proof. intros H E H1 H2. apply (n_lit _ _ K) in H as (_ & H). rewrite E in H. apply spells_dec; assumption. Qed.
  Lemma in_join sep l : forall r, In r l -> exists a b, join sep l = a ++ r ++ b.
  Proof.
    induction l as [|y l IH]; [intros ? []|]. intros r H. cbn [join]. destruct l as [|z l].
    - destruct H as [<-|[]]. exists [], []. rewrite app_nil_r. reflexivity.
    - destruct H as [<-|H]; [exists [], (sep ++ join sep (z :: l)); reflexivity|].
      destruct (IH _ H) as (a & b & E). exists (y ++ sep ++ a), b. rewrite E, !app_assoc. reflexivity.
  Qed.
  Lemma in_concat_at (l : list str) : forall r, In r l -> exists a b, List.concat l = a ++ r ++ b.
  Proof.
    induction l as [|y l IH]; [intros ? []|]. intros r [<-|H]; cbn [List.concat]; [exists [], (List.concat l); reflexivity|].
    destruct (IH _ H) as (a & b & E). exists (y ++ a), b. rewrite E, !app_assoc. reflexivity.
  Qed.
  Lemma args_int t args z : args_text t args -> In (VInteger z) args ->
    exists a d b, t = a ++ d ++ b /\ digits d /\ z = Z.of_N (digits_value 0 d) /\ (z <= 9223372036854775807)%Z.
  Proof.
    intros [[_ ->]|(raws & -> & HF)] Hi; [destruct Hi|].
    apply (f2_in_r _ _ _ _ HF) in Hi as (r & Hr & Hs). apply spells_arg_integer in Hs as (H1 & H2 & H3).
    destruct (in_join (s ",") _ _ Hr) as (a & b & E). exists (s "(" ++ a), r, (b ++ s ")").
    split; [rewrite E, <- !app_assoc; reflexivity|]. split; [exact H1|]. split; [exact H2|]. lia.
  Qed.
  Lemma args_dec t args f : args_text t args -> In (VDecimal f) args ->
    exists a d1 d2 b, t = a ++ (d1 ++ s "." ++ d2) ++ b /\ digits d1 /\ Forall digit d2 /\ nearest64 (decimal_value d1 d2) f.
  Proof.
    intros [[_ ->]|(raws & -> & HF)] Hi; [destruct Hi|].
    apply (f2_in_r _ _ _ _ HF) in Hi as (r & Hr & Hs). apply spells_arg_decimal in Hs as (d1 & d2 & -> & H).
    destruct (in_join (s ",") _ _ Hr) as (a & b & E). exists (s "(" ++ a), d1, d2, (b ++ s ")").
    split; [rewrite E, <- !app_assoc; reflexivity|exact H].
  Qed.
  Lemma dims_int t ds n : dims_text t ds -> In (Some n) ds ->
    exists a d b, t = a ++ (s "[" ++ d ++ s "]") ++ b /\ digits d /\ n = digits_value 0 d /\ n <= 4294967295.
  Proof.
    intros (raws & -> & HF) Hi. apply (f2_in_r _ _ _ _ HF) in Hi as (r & Hr & (d & -> & H1 & H2 & H3)).
    destruct (in_concat_at _ _ Hr) as (a & b & E). exists a, d, b. rewrite E. auto.
  Qed.
  Lemma p_arg_dec t f : In t (all_types x) -> In (VDecimal f) (ct_args t) ->
    exists a d1 d2 b, ct_raw t = a ++ (d1 ++ s "." ++ d2) ++ b /\ digits d1 /\ Forall digit d2 /\ nearest64 (decimal_value d1 d2) f.
  Proof.
    intros H Hi. apply (n_type _ _ K) in H as (_ & name & _ & _ & pre & np & body & base & -> & _ & _ & H).
    destruct H as [(ta & td & _ & -> & Ha & _)|(ta & td1 & td2 & a1 & a2 & _ & -> & Ha & _)];
      destruct (args_dec _ _ _ Ha Hi) as (a & d1 & d2 & b & -> & H).
    - exists (pre ++ base ++ a), d1, d2, (b ++ td). split; [rewrite <- !app_assoc; reflexivity|exact H].
    - exists (pre ++ dq ++ base ++ a), d1, d2, (b ++ td1 ++ dq ++ td2). split; [rewrite <- !app_assoc; reflexivity|exact H].
  Qed.
  Lemma p_arg t z : In t (all_types x) -> In (VInteger z) (ct_args t) ->
    exists a d b, ct_raw t = a ++ d ++ b /\ digits d /\ z = Z.of_N (digits_value 0 d) /\ (z <= 9223372036854775807)%Z.
  Proof.
    intros H Hi. apply (n_type _ _ K) in H as (_ & name & _ & _ & pre & np & body & base & -> & _ & _ & H).
    destruct H as [(ta & td & _ & -> & Ha & _)|(ta & td1 & td2 & a1 & a2 & _ & -> & Ha & _)];
      destruct (args_int _ _ _ Ha Hi) as (a & d & b & -> & H).
    - exists (pre ++ base ++ a), d, (b ++ td). split; [rewrite <- !app_assoc; reflexivity|exact H].
    - exists (pre ++ dq ++ base ++ a), d, (b ++ td1 ++ dq ++ td2). split; [rewrite <- !app_assoc; reflexivity|exact H].
  Qed.
  Lemma p_dim t n : In t (all_types x) -> In (Some n) (ct_arrays t) ->
    exists a d b, ct_raw t = a ++ (s "[" ++ d ++ s "]") ++ b /\ digits d /\ n = digits_value 0 d /\ n <= 4294967295.
  Proof.
    intros H Hi. apply (n_type _ _ K) in H as (_ & name & _ & _ & pre & np & body & base & -> & _ & _ & H).
    destruct H as [(ta & td & _ & -> & _ & Hd)|(ta & td1 & td2 & a1 & a2 & _ & -> & _ & Hd1 & Hd2 & E)].
    - destruct (dims_int _ _ _ Hd Hi) as (a & d & b & -> & H). exists (pre ++ base ++ ta ++ a), d, b.
      split; [rewrite <- !app_assoc; reflexivity|exact H].
    - rewrite E in Hi. apply in_app_or in Hi as [Hi|Hi].
      + destruct (dims_int _ _ _ Hd1 Hi) as (a & d & b & -> & H). exists (pre ++ dq ++ base ++ ta ++ a), d, (b ++ dq ++ td2).
        split; [rewrite <- !app_assoc; reflexivity|exact H].
      + destruct (dims_int _ _ _ Hd2 Hi) as (a & d & b & -> & H). exists (pre ++ dq ++ base ++ ta ++ td1 ++ dq ++ a), d, b.
        split; [rewrite <- !app_assoc; reflexivity|exact H].
  Qed.
  Lemma p_type t : In t (all_types x) -> exists name, ct_type_name t = CT_Raw name /\ name <> [] /\
    type_text (ct_raw t) name (ct_args t) (ct_arrays t).
  Proof. intros H. apply (n_type _ _ K) in H. apply H. Qed.
  Lemma p_col_settings st : In st (all_col_settings x) -> col_settings_say (cs_attributes st) st.
  Proof. intros H. apply (n_col_settings _ _ K) in H. apply H. Qed.
  Lemma p_settings :
    (forall st, In st (all_index_settings x) -> index_settings_say (is_attributes st) st) /\
    (forall st, In st (all_enum_settings x) -> enum_settings_say (evs_attributes st) st) /\
    (forall st, In st (all_ref_settings x) -> ref_settings_say (rs_attributes st) st).
  Proof.
    split; [|split]; intros st H.
    - apply (n_def_settings _ _ K) in H. apply H.
    - apply (n_value_settings _ _ K) in H. apply H.
    - apply (n_ref_settings _ _ K) in H. apply H.
  Qed.
  Lemma p_ref r : In r (refs x) -> exists sp t, symbol (rb_rel r) = Some t /\ slice inp (fst sp) (snd sp) = Some t /\
    snd (ri_span (rb_lhs r)) <= fst sp /\ snd sp <= fst (ri_span (rb_rhs r)).
  Proof.
    intros H. apply (in_refs _ _ K) in H as (_ & _ & _ & _ & _ & _ & sp & t & H1 & H2 & H3). exists sp, t.
    split; [exact H1|]. split; [exact H2|]. unfold within in H3. cbn [in_order] in H3. intuition.
  Qed.
  Lemma p_inline r : In r (all_ref_inlines x) -> exists sp t, symbol (rin_rel r) = Some t /\ slice inp (fst sp) (snd sp) = Some t /\
    fst (rin_span r) <= fst sp /\ snd sp <= fst (ri_span (rin_rhs r)).
  Proof.
    intros H. apply (n_inline _ _ K) in H as (_ & _ & sp & t & H1 & H2 & H3). exists sp, t.
    split; [exact H1|]. split; [exact H2|]. unfold within in H3. cbn [in_order] in H3. intuition.
  Qed.
  Lemma p_endpoint r : In r (all_endpoints x) -> ri_compositions r <> [].
  Proof. intros H. apply (n_endpoint _ _ K) in H. apply H. Qed.
  Lemma p_database p : In p (projects x) -> database_type_says (pj_properties p) (pj_database_type p).
  Proof. intros H. apply (in_projects _ _ K) in H. apply H. Qed.
  Lemma p_note n : In n (all_notes x) -> exists v, lit_value (nb_value n) = VString v.
  Proof. intros H. apply (n_note _ _ K) in H. apply H. Qed.
End Parsed.

Lemma p_error inp e : parse_dbml_unchecked inp = Some (Err e) ->
  e = ErGrammar \/ exists m sp, e = ErMsg m sp /\ parse_error_true inp m sp.
Proof.
  intros E. destruct (unchecked_cases inp) as [H|[(m & sp & H & T)|(y & H & _)]]; rewrite E in H; try discriminate.
  - injection H as ->. auto.
  - injection H as ->. eauto.
Qed.
Lemma type_words_ok w tn : col_type_name_from_str w = Some tn <-> builtin w tn.
Proof. exact (from_str_builtin w tn). Qed.
Lemma checked_sem_err inp x e : parse_dbml_unchecked inp = Some (Ok x) -> parse_dbml inp = Some (Err e) ->
  exists k sp, e = ErSem k sp.
Proof. intros P E. pose proof (checked_sem _ _ P) as H. rewrite E in H. destruct e; try contradiction. eauto. Qed.
