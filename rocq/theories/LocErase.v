(** * LocErase: the meaning of a located AST is what the text says, within the limits. *)

From Verif Require Import SynMain.
From Verif Require Export Located.
From Verif Require Import Syntax.

Lemma lay_twice m r r' : lay m r -> lay r r' -> r' = r.
Proof. intros H1 H2. apply lay_idem in H1. apply lay_fin in H2. congruence. Qed.
Lemma lay_refl m r : lay m r -> lay r r.
Proof. intros H. apply lay_self. eapply lay_idem. exact H. Qed.
Lemma next_lay {A} (R : reader A) i r x : next R i r x -> lay r r.
Proof. intros (m & _ & H). eapply lay_refl. exact H. Qed.
Lemma next_of {A} (R : reader A) i m r x : R i m x -> lay m r -> next R i r x.
Proof. intros H1 H2. exists m. auto. Qed.
Lemma tok_app w m r : lay m r -> tok w (w ++ m) r.
Proof. intros H. exists m. auto. Qed.

Section Erase.
Variable inp : str.

Lemma er_ident i r x : next (ident_at inp) i r x -> name i r (id_str x).
Proof.
  intros (m & (_ & _ & [(E0 & Hw & Hn)|(i' & E0 & Hl & Hc)]) & Hr); [left; exists m; auto|right; exists i', m; auto].
Qed.
Lemma er_key i r x : next (key_at inp) i r x -> phrase i r (id_str x).
Proof. intros (m & (_ & _ & E0 & Hw & Hn) & Hr). exists m. auto. Qed.
Lemma er_quote q i m r v : quote_at q i m v -> lay m r -> quote q i r v.
Proof. intros (i' & E0 & Hl & Hc) Hr. exists i', m. auto. Qed.
Lemma er_value i m r v : value_at i m v -> lay m r -> literal_r i r v.
Proof.
  intros [i' m' w [H|H]|i' m' w H|m'|m'|m'|d m' H1 H2 H3|d1 d2 m' f H1 H2 H3 H4|h m' H1 H2|h m' H1 H2 H3] Hr.
  - constructor. left. eapply er_quote; eassumption.
  - constructor. right. eapply er_quote; eassumption.
  - constructor. eapply er_quote; eassumption.
  - constructor. apply tok_app. exact Hr.
  - constructor. apply tok_app. exact Hr.
  - constructor. apply tok_app. exact Hr.
  - constructor; assumption.
  - constructor; assumption.
  - apply lr_hex6; assumption.
  - apply lr_hex3; assumption.
Qed.
Lemma er_bare i m r v : bare_at i m v -> lay m r -> bare i r v.
Proof. intros (w & (E0 & Hw & Hn) & Hs & ->) Hr. exists w. split; [exists m; auto|auto]. Qed.
Lemma er_plain_value i m r v : plain_value_at i m v -> lay m r -> literal_r i r v \/ bare i r v.
Proof. intros [H|H] Hr; [left; eapply er_value; eassumption|right; eapply er_bare; eassumption]. Qed.
Lemma er_attribute i r x : next (attribute_at inp) i r x -> attr i r (e_attr x) /\ fits_attr (e_attr x).
Proof.
  intros (m & H & Hr). destruct H as [i m k Hk|i m1 m2 m k v Hk Ht (_ & _ & Hv & Hf)].
  - rewrite (lay_twice _ _ _ (next_lay _ _ _ _ Hk) Hr). split; [constructor; apply er_key; exact Hk|]. intros v E0. discriminate.
  - split.
    + eapply attr_value; [apply er_key; exact Hk|exact Ht|]. destruct Hv as [Hv|(w & Hw & Ev)].
      * eapply er_plain_value in Hv; [|exact Hr]. tauto.
      * right. right. exists w. split; [eapply er_quote; eassumption|exact Ev].
    + intros v' E0. injection E0 as <-. exact Hf.
Qed.
Lemma er_commas {A B} (R : reader A) (R' : reader B) (f : A -> B) (P : B -> Prop) i r l :
  (forall i r x, next R i r x -> R' i r (f x) /\ P (f x)) -> commas (next R) i r l -> commas R' i r (map f l) /\ Forall P (map f l).
Proof.
  intros H. induction 1 as [i r a Ha|i m m' r a l Ha Ht Hl [IH1 IH2]]; cbn [map].
  - apply H in Ha as [H1 H2]. split; [constructor; exact H1|constructor; [exact H2|constructor]].
  - apply H in Ha as [H1 H2]. split; [econstructor; eassumption|constructor; assumption].
Qed.
Lemma er_many {A B} (R : reader A) (R' : reader B) (f : A -> B) (P : B -> Prop) i r l :
  (forall i r x, next R i r x -> R' i r (f x) /\ P (f x)) -> many (next R) i r l -> many R' i r (map f l) /\ Forall P (map f l).
Proof.
  intros H. induction 1 as [i|i m r a l Ha Hl [IH1 IH2]]; cbn [map].
  - split; constructor.
  - apply H in Ha as [H1 H2]. split; [econstructor; eassumption|constructor; assumption].
Qed.
Lemma er_list {A B} (R : reader A) (R' : reader B) (f : A -> B) (P : B -> Prop) op cl i r l :
  (forall i r x, next R i r x -> R' i r (f x) /\ P (f x)) -> next (list_at op cl R) i r l ->
  bracket op cl R' i r (map f l) /\ Forall P (map f l).
Proof.
  intros H (m & Hl & Hr). destruct Hl as [i m Ht|i m1 m l Ht Hc].
  - split; [|constructor]. eapply bracket_none; [exact Ht|apply tok_app; exact Hr].
  - eapply er_commas in Hc as [H1 H2]; [|exact H]. split; [|exact H2]. eapply bracket_some; [exact Ht|exact H1|apply tok_app; exact Hr].
Qed.
Lemma er_braces {A B} (R : reader A) (R' : reader B) (f : A -> B) (P : B -> Prop) i r l :
  (forall i r x, next R i r x -> R' i r (f x) /\ P (f x)) -> next (braces_at R) i r l ->
  braces R' i r (map f l) /\ Forall P (map f l).
Proof.
  intros H (m & (m1 & Ht & Hm) & Hr). eapply er_many in Hm as [H1 H2]; [|exact H]. split; [|exact H2].
  exists m1, (s "}" ++ m). split; [exact Ht|]. split; [exact H1|apply tok_app; exact Hr].
Qed.
Lemma er_maybe {A B} (R : reader A) (R' : reader B) (f : A -> B) (P : B -> Prop) i r o :
  (forall i r x, next R i r x -> R' i r (f x) /\ P (f x)) -> maybe (next R) i r o ->
  maybe R' i r (option_map f o) /\ (forall b, option_map f o = Some b -> P b).
Proof.
  intros H [i'|i' r' a Ha]; cbn [option_map].
  - split; [constructor|intros b E0; discriminate].
  - apply H in Ha as [H1 H2]. split; [constructor; exact H1|]. intros b [= <-]. exact H2.
Qed.
(** The last part, present or not. *)
Lemma er_tail {A B} (R : reader A) (O : reader B) i m r a o :
  tail_at R O i m a o -> lay m r -> exists m1, next R i m1 a /\ maybe (next O) m1 r o.
Proof.
  intros [i' m' a' Ha|i' m1 m' a' b Ha Hb] Hr.
  - exists m'. rewrite (lay_twice _ _ _ (next_lay _ _ _ _ Ha) Hr). split; [exact Ha|constructor].
  - exists m1. split; [exact Ha|]. constructor. exists m'. auto.
Qed.
Lemma er_attributes i r l : next (attributes_at inp) i r l -> attrs i r (map e_attr l) /\ Forall fits_attr (map e_attr l).
Proof. apply er_list. apply er_attribute. Qed.
Definition all_fit (l : list a_attr) : Prop := Forall fits_attr l.
Lemma er_table_settings i r x : next (table_settings_at inp) i r x -> attrs i r (map e_attr (ts_attributes x)) /\ all_fit (map e_attr (ts_attributes x)).
Proof. intros (m & (_ & H) & Hr). apply er_attributes. exists m. auto. Qed.
Lemma er_group_settings i r x : next (group_settings_at inp) i r x -> attrs i r (map e_attr (gs_attributes x)) /\ all_fit (map e_attr (gs_attributes x)).
Proof. intros (m & (_ & H) & Hr). apply er_attributes. exists m. auto. Qed.
Lemma er_enum_settings i r x : next (enum_settings_at inp) i r x -> attrs i r (map e_attr (evs_attributes x)) /\ all_fit (map e_attr (evs_attributes x)).
Proof. intros (m & (_ & H & _) & Hr). apply er_attributes. exists m. auto. Qed.
Definition ref_fit (l : list a_attr) : Prop := Forall fits_attr l /\
  forall k w, In k ["update"; "delete"]%string -> In (s k, Some (VEnum w)) l -> exists x, action_word x = w.
Lemma in_attrs k v l : In (k, Some v) (map e_attr l) -> exists a x, In a l /\ key_of a = k /\ at_value a = Some x /\ lit_value x = v.
Proof.
  intros H. apply in_map_iff in H as (a & E0 & Ha). unfold e_attr in E0. injection E0 as E1 E2. destruct (at_value a) as [x|] eqn:Ea; [|discriminate].
  injection E2 as E2. exists a, x. auto.
Qed.
Lemma er_ref_settings i r x : next (ref_settings_at inp) i r x -> attrs i r (map e_attr (rs_attributes x)) /\ ref_fit (map e_attr (rs_attributes x)).
Proof.
  intros (m & (_ & H & _ & _ & _ & Hs) & Hr). assert (Hn : next (attributes_at inp) i r (rs_attributes x)) by (exists m; auto).
  apply er_attributes in Hn as [H1 H2]. split; [exact H1|]. split; [exact H2|]. intros k w Hk Hi. apply in_attrs in Hi as (a & y & Ha & Ek & Ev & El).
  rewrite Forall_forall in Hs. destruct (Hs a Ha) as (v & Hv); [exists k; auto|]. unfold reads_action in Hv. rewrite Ev in Hv.
  destruct y as [sp rw vv]. cbn in El. subst vv. destruct Hv as (z & _ & Hz). eauto.
Qed.
Definition index_fit (l : list a_attr) : Prop := Forall fits_attr l /\
  forall v, In (s "type", Some v) l -> exists t, index_type_word t = value_to_string v.
Lemma er_index_settings i r x : next (index_settings_at inp) i r x -> attrs i r (map e_attr (is_attributes x)) /\ index_fit (map e_attr (is_attributes x)).
Proof.
  intros (m & (_ & H & _ & _ & _ & _ & Hs & _) & Hr). assert (Hn : next (attributes_at inp) i r (is_attributes x)) by (exists m; auto).
  apply er_attributes in Hn as [H1 H2]. split; [exact H1|]. split; [exact H2|]. intros v Hi. apply in_attrs in Hi as (a & y & Ha & Ek & Ev & El).
  rewrite Forall_forall in Hs. destruct (Hs a Ha Ek) as (v' & Hv). unfold reads_index_type in Hv. rewrite Ev, El in Hv.
  destruct Hv as (z & _ & Hz). eauto.
Qed.

(** ** References *)
Definition e_decl (d : option ident_t * ident_t) : option str * str := (option_map id_str (fst d), id_str (snd d)).
Lemma er_decl i r d : next (decl_at inp) i r d -> decl_name i r (e_decl d).
Proof.
  intros (m & H & Hr). destruct H as [i m n Hn|i m1 m2 m sc n Hs Ht Hn].
  - rewrite (lay_twice _ _ _ (next_lay _ _ _ _ Hn) Hr). apply er_ident. exact Hn.
  - exists m1, m2. split; [apply er_ident; exact Hs|]. split; [exact Ht|]. apply er_ident. exists m. auto.
Qed.
Lemma er_idents i r l : commas (next (ident_at inp)) i r l -> commas name i r (map id_str l).
Proof. intros H. eapply (er_commas _ name id_str (fun _ => True)) in H as [H _]; [exact H|]. intros i0 r0 x H0. split; [apply er_ident; exact H0|exact Logic.I]. Qed.
Lemma er_columns i r l : next (columns_at inp) i r l -> columns i r (map id_str l).
Proof.
  intros (m & H & Hr). destruct H as [i m c Hc|i m1 m l Ht Hl].
  - constructor. apply er_ident. exists m. auto.
  - eapply cols_more; [exact Ht|apply er_idents; exact Hl|apply tok_app; exact Hr].
Qed.
Lemma er_endpoint i r x : next (endpoint_at inp) i r x -> endpoint i r (e_ref_end x).
Proof.
  intros (m & H & Hr). destruct H as [i m1 m2 m t l Ht Hd Hl|i m1 m2 m3 m4 m sc t l Hs Hd Ht Hd2 Hl]; unfold e_ref_end; cbn [ri_schema ri_table ri_compositions option_map].
  - econstructor; [apply er_ident; exact Ht|exact Hd|apply er_columns; exists m; auto].
  - eapply end_schema; [apply er_ident; exact Hs|exact Hd|apply er_ident; exact Ht|exact Hd2|apply er_columns; exists m; auto].
Qed.
Lemma er_rel i r x : next rel_at i r x -> rel i r x.
Proof. intros (m & (t & H1 & ->) & Hr). exists t. split; [exact H1|apply tok_app; exact Hr]. Qed.
Lemma er_inline i r x : next (inline_at inp) i r x -> inline i r (e_inline x).
Proof.
  intros (m & H & Hr). destruct H as [i m1 m2 m3 m x e H1 H2 H3 H4]. econstructor; [exact H1|exact H2|apply er_rel; exact H3|apply er_endpoint; exists m; auto].
Qed.
Lemma er_stmt n i r f : next (stmt_at inp n) i r f -> ref_body (option_map id_str n) i r (e_ref f) /\ fits_ref (e_ref f).
Proof.
  intros (m & H & Hr). destruct H as [i m1 m2 m x a b st H1 H2 H3]. eapply er_tail in H3 as (m3 & H3 & H4); [|exact Hr].
  eapply (er_maybe _ attrs (fun st => map e_attr (rs_attributes st))) in H4 as [H4 H5]; [|apply er_ref_settings].
  unfold e_ref. cbn [rb_name rb_rel rb_lhs rb_rhs rb_settings]. split.
  - econstructor; [apply er_endpoint; exact H1|apply er_rel; exact H2|apply er_endpoint; exact H3|exact H4].
  - split; cbn [f_settings]; [intros l E0; apply (H5 l E0)|]. intros l k w E0. apply (H5 l E0).
Qed.
Lemma er_name_opt i r n : maybe (next (ident_at inp)) i r n -> maybe name i r (option_map id_str n).
Proof. intros H. eapply (er_maybe _ name id_str (fun _ => True)) in H as [H _]; [exact H|]. intros i0 r0 x H0. split; [apply er_ident; exact H0|exact Logic.I]. Qed.
Lemma er_reference i r f : next (reference_at inp) i r f -> reference i r (e_ref f) /\ fits_ref (e_ref f).
Proof.
  intros (m & H & Hr). destruct H as [i m1 m2 m3 m n f Hk Hn Ht Hb|i m1 m2 m3 m n f Hk Hn Ht Hb].
  - assert (Hs : next (stmt_at inp n) m3 r f) by (exists m; auto). apply er_stmt in Hs as [H1 H2]. split; [|exact H2].
    eapply ref_colon; [exact Hk|apply er_name_opt; exact Hn|exact Ht|exact H1].
  - apply er_stmt in Hb as [H1 H2]. split; [|exact H2]. eapply ref_braces; [exact Hk|apply er_name_opt; exact Hn|exact Ht|exact H1|apply tok_app; exact Hr].
Qed.

(** ** Notes *)
Lemma er_note_text i m r v : note_text_at i m v -> lay m r -> exists w, text i r w /\ v = VString w.
Proof. intros [(w & H & ->)|(w & H & ->)] Hr; exists w; (split; [|reflexivity]); [left|right]; eapply er_quote; eassumption. Qed.
Lemma er_note i r x : next (note_at inp) i r x -> note i r (e_note x).
Proof.
  intros (m & H & Hr). destruct H as [i m1 m2 m v Hk Ht (_ & _ & Hv & _)|i m1 m2 m v Hk Ht (m3 & (_ & _ & Hv & _) & Hl)]; unfold e_note; cbn [nb_value].
  - eapply er_note_text in Hv as (w & Hw & ->); [|exact Hr]. eapply note_colon; eassumption.
  - eapply er_note_text in Hv as (w & Hw & ->); [|exact Hl]. eapply note_braces; [exact Hk|exact Ht|exact Hw|apply tok_app; exact Hr].
Qed.

(** ** Tables *)
Lemma er_type i r x : next (type_at inp) i r x -> type_r i r (e_type x) /\ fits_type (e_type x).
Proof. intros (m & (E0 & _ & H1 & H2 & H3 & H4) & Hr). split; [|exact H4]. exists (ct_raw x), m. auto 6. Qed.
Definition e_col_item (x : col_item_t) : a_col_item := match x with ColAttr a => CIAttr (e_attr a) | ColRef r => CIRef (e_inline r) end.
Definition item_fit (x : a_col_item) : Prop := match x with CIAttr a => fits_attr a | _ => True end.
Lemma er_col_item i r x : next (col_item_at inp) i r x -> col_item i r (e_col_item x) /\ item_fit (e_col_item x).
Proof.
  destruct x as [a|a]; intros (m & H & Hr); cbn in H |- *.
  - apply er_attribute. exists m. auto.
  - split; [apply er_inline; exists m; auto|exact Logic.I].
Qed.
Lemma pick_map {A B C D} (f : A -> option B) (g : C -> option D) (h : A -> C) (k : B -> D) l :
  (forall a, g (h a) = option_map k (f a)) -> pick g (map h l) = map k (pick f l).
Proof.
  intros H. induction l as [|a l IH]; [reflexivity|]. cbn [map]. unfold pick in *. cbn [flat_map]. rewrite IH, H, map_app.
  destruct (f a); reflexivity.
Qed.
Lemma pick_fit l : Forall item_fit l -> Forall fits_attr (pick (fun y => match y with CIAttr a => Some a | _ => None end) l).
Proof.
  induction 1 as [|x l Hx Hl IH]; [constructor|]. unfold pick. cbn [flat_map]. apply Forall_app. split; [|exact IH].
  destruct x; cbn in Hx; constructor; [exact Hx|constructor].
Qed.
Definition col_set_fit (x : a_col_settings) : Prop := Forall fits_attr (s_attrs x).
Lemma er_col_settings i r x : next (col_settings_at inp) i r x -> col_settings_r i r (e_col_settings x) /\ col_set_fit (e_col_settings x).
Proof.
  intros (m & (_ & l & Hl & (Ha & _) & Hrf) & Hr). assert (Hn : next (list_at "[" "]" (col_item_at inp)) i r l) by (exists m; auto).
  eapply (er_list _ col_item e_col_item item_fit) in Hn as [H1 H2]; [|apply er_col_item].
  assert (Ea : s_attrs (e_col_settings x) = pick (fun y => match y with CIAttr a => Some a | _ => None end) (map e_col_item l)).
  { cbn [e_col_settings s_attrs]. rewrite Ha. symmetry. apply pick_map. intros [a|a]; reflexivity. }
  split.
  - exists (map e_col_item l). split; [exact H1|]. split; [exact Ea|]. cbn [e_col_settings s_refs]. rewrite Hrf. symmetry. apply pick_map. intros [a|a]; reflexivity.
  - unfold col_set_fit. rewrite Ea. apply pick_fit. exact H2.
Qed.
Lemma er_column i r x : next (column_at inp) i r x -> column i r (e_col x) /\ fits_col (e_col x).
Proof.
  intros (m & H & Hr). destruct H as [i m1 m n ty st H1 H2]. eapply er_tail in H2 as (m2 & H2 & H3); [|exact Hr].
  apply er_type in H2 as [H2 H2']. eapply (er_maybe _ col_settings_r e_col_settings) in H3 as [H3 H4]; [|apply er_col_settings].
  unfold e_col. cbn [tc_name tc_type tc_settings]. split.
  - econstructor; [apply er_ident; exact H1|exact H2|exact H3].
  - split; [exact H2'|]. cbn [c_settings]. exact H4.
Qed.
Lemma er_index_col i r x : next (index_col_at inp) i r x -> index_col i r (e_index_col x) /\ True.
Proof.
  intros (m & H & Hr). split; [|exact Logic.I]. destruct H as [i m x H|i m v (_ & _ & (w & Hw & Ev) & _)]; cbn [e_index_col].
  - constructor. apply er_ident. exists m. auto.
  - rewrite Ev. constructor. eapply er_quote; eassumption.
Qed.
Lemma er_index i r x : next (index_at inp) i r x -> index i r (e_index x) /\ fits_index (e_index x).
Proof.
  intros (m & H & Hr). destruct H as [i m c st H|i m l st H].
  - eapply er_tail in H as (m1 & H1 & H2); [|exact Hr]. apply er_index_col in H1 as [H1 _].
    eapply (er_maybe _ attrs (fun x => map e_attr (is_attributes x))) in H2 as [H2 H3]; [|apply er_index_settings].
    split; [eapply index_one; eassumption|]. split; cbn [e_index x_settings idf_settings]; [intros l E0; apply (H3 l E0)|]. intros l v E0. apply (H3 l E0).
  - eapply er_tail in H as (m1 & H1 & H2); [|exact Hr]. eapply (er_list _ index_col e_index_col (fun _ => True)) in H1 as [H1 _]; [|apply er_index_col].
    eapply (er_maybe _ attrs (fun x => map e_attr (is_attributes x))) in H2 as [H2 H3]; [|apply er_index_settings].
    split; [eapply index_list; eassumption|]. split; cbn [e_index x_settings idf_settings]; [intros l' E0; apply (H3 l' E0)|]. intros l' v E0. apply (H3 l' E0).
Qed.
Lemma er_indexes i r x : next (indexes_at inp) i r x -> indexes i r (map e_index (ib_defs x)) /\ Forall fits_index (map e_index (ib_defs x)).
Proof.
  intros (m & H & Hr). destruct H as [i m1 m l Hk Hb]. assert (Hn : next (braces_at (index_at inp)) m1 r l) by (exists m; auto).
  eapply (er_braces _ index e_index) in Hn as [H1 H2]; [|apply er_index]. cbn [ib_defs]. split; [econstructor; eassumption|exact H2].
Qed.
Definition e_table_item (x : table_item_t) : a_table_item :=
  match x with TabCol c => TICol (e_col c) | TabNote n => TINote (e_note n) | TabIndexes b => TIIndexes (map e_index (ib_defs b)) end.
Definition titem_fit (x : a_table_item) : Prop := match x with TICol c => fits_col c | TIIndexes l => Forall fits_index l | _ => True end.
Lemma er_table_item i r x : next (table_item_at inp) i r x -> table_item i r (e_table_item x) /\ titem_fit (e_table_item x).
Proof.
  destruct x as [a|a|a]; intros (m & H & Hr); cbn in H |- *.
  - apply er_column. exists m. auto.
  - split; [apply er_note; exists m; auto|exact Logic.I].
  - apply er_indexes. exists m. auto.
Qed.
Lemma er_alias i r x : next (alias_at inp) i r x -> alias i r (id_str x) /\ True.
Proof. intros (m & (m1 & Hk & H) & Hr). split; [|exact Logic.I]. exists m1. split; [exact Hk|]. apply er_ident. exists m. auto. Qed.
Lemma pick_all {A B} (f : A -> option B) (P : A -> Prop) (Q : B -> Prop) l :
  (forall a b, P a -> f a = Some b -> Q b) -> Forall P l -> Forall Q (pick f l).
Proof.
  intros H. induction 1 as [|x l Hx Hl IH]; [constructor|]. unfold pick. cbn [flat_map]. apply Forall_app. split; [|exact IH].
  destruct (f x) eqn:E0; constructor; [eapply H; eassumption|constructor].
Qed.
Lemma last_only_map {A B} (f : A -> B) l : last_only (map f l) = map f (last_only l).
Proof. induction l as [|a [|b l] IH]; [reflexivity|reflexivity|]. exact IH. Qed.
Lemma last_of_only {A B} (f : A -> B) l : opt_list f (last_of l) = last_only (map f l).
Proof.
  rewrite last_only_map. unfold last_of. destruct (rev l) as [|a y] eqn:Er.
  - assert (E : l = []) by (rewrite <- (rev_involutive l), Er; reflexivity). subst l. reflexivity.
  - assert (E : l = rev y ++ [a]) by (rewrite <- (rev_involutive l), Er; reflexivity). subst l.
    rewrite last_only_snoc. reflexivity.
Qed.
Lemma er_table i r x : next (table_at inp) i r x -> exists t, table i r t /\ fits_block (ATable t) /\ settle_block (ATable t) = ATable (e_table_block x).
Proof.
  intros (m & H & Hr). destruct H as [i m1 m2 m3 m4 m5 m d al st l Hk Hd Hl Hal Hst Hb].
  assert (Hn : next (braces_at (table_item_at inp)) m5 r l) by (exists m; auto).
  eapply (er_braces _ table_item e_table_item titem_fit) in Hn as [H1 H2]; [|apply er_table_item].
  eapply (er_maybe _ alias id_str (fun _ => True)) in Hal as [Hal _]; [|apply er_alias].
  eapply (er_maybe _ attrs (fun x => map e_attr (ts_attributes x)) all_fit) in Hst as [Hst Hf]; [|apply er_table_settings].
  assert (Hd' : decl_name m1 m3 (e_decl d)) by (apply er_decl; exists m2; auto).
  eexists. split; [eapply table_r; eassumption|]. split.
  - cbn [fits_block t_settings t_cols t_indexes]. split; [intros l' E0; apply (Hf l' E0)|]. split.
    + eapply pick_all; [|exact H2]. intros [a|a|a] b Ha [= <-]. exact Ha.
    + eapply pick_all; [|exact H2]. intros [a|a|a] b Ha [= <-]. exact Ha.
  - unfold e_table_block. cbn [settle_block t_schema t_name t_alias t_settings t_cols t_notes t_indexes tb_ident tb_settings tb_cols tb_note tb_indexes ti_schema ti_name ti_alias].
    rewrite !last_of_only. unfold e_decl. cbn [fst snd].
    rewrite (pick_map (fun x => match x with TabCol c => Some c | _ => None end) _ e_table_item e_col) by (intros [a|a|a]; reflexivity).
    rewrite (pick_map (fun x => match x with TabNote c => Some c | _ => None end) _ e_table_item e_note) by (intros [a|a|a]; reflexivity).
    rewrite (pick_map (fun x => match x with TabIndexes c => Some c | _ => None end) _ e_table_item (fun b => map e_index (ib_defs b))) by (intros [a|a|a]; reflexivity).
    reflexivity.
Qed.

(** ** Enums, groups, projects *)
Definition e_ev (v : enum_value_t) : str * option (list a_attr) := (id_str (ev_value v), option_map (fun st => map e_attr (evs_attributes st)) (ev_settings v)).
Definition ev_fit (x : str * option (list a_attr)) : Prop := fits_attrs (snd x).
Lemma er_enum_value i r x : next (enum_value_at inp) i r x -> enum_value_r i r (e_ev x) /\ ev_fit (e_ev x).
Proof.
  intros (m & H & Hr). destruct H as [i m v st H]. eapply er_tail in H as (m1 & H1 & H2); [|exact Hr].
  eapply (er_maybe _ attrs (fun st => map e_attr (evs_attributes st)) all_fit) in H2 as [H2 H3]; [|apply er_enum_settings].
  split; [exists m1; split; [apply er_ident; exact H1|exact H2]|exact H3].
Qed.
Lemma er_enum i r x : next (enum_at inp) i r x -> enum i r (e_enum x) /\ fits_block (AEnum (e_enum x)).
Proof.
  intros (m & H & Hr). destruct H as [i m1 m2 m3 m d l Hk Hd Hl Hb]. assert (Hn : next (braces_at (enum_value_at inp)) m3 r l) by (exists m; auto).
  eapply (er_braces _ enum_value_r e_ev ev_fit) in Hn as [H1 H2]; [|apply er_enum_value].
  assert (Hd' : decl_name m1 m3 (e_decl d)) by (apply er_decl; exists m2; auto).
  split; [apply (enum_r i m1 m3 r (e_decl d) (map e_ev l)); assumption|exact H2].
Qed.
Definition e_group_part (x : group_part_t) : a_group_item :=
  match x with GroupNote n => GINote (e_note n) | GroupItem g => GIName (option_map id_str (gi_schema g), id_str (gi_ident_alias g)) end.
Lemma er_group_part i r x : next (group_part_at inp) i r x -> group_item i r (e_group_part x) /\ True.
Proof.
  intros (m & H & Hr). split; [|exact Logic.I]. destruct H as [i m n H|i m d H]; cbn.
  - apply er_note. exists m. auto.
  - apply (er_decl i r d). exists m. auto.
Qed.
Lemma er_group i r x : next (group_at inp) i r x -> exists g, group i r g /\ fits_block (AGroup g) /\ settle_block (AGroup g) = AGroup (e_group x).
Proof.
  intros (m & H & Hr). destruct H as [i m1 m2 m3 m n st l Hk Hn Hst Hb]. assert (Hn2 : next (braces_at (group_part_at inp)) m3 r l) by (exists m; auto).
  eapply (er_braces _ group_item e_group_part (fun _ => True)) in Hn2 as [H1 _]; [|apply er_group_part].
  eapply (er_maybe _ attrs (fun x => map e_attr (gs_attributes x)) all_fit) in Hst as [Hst Hf]; [|apply er_group_settings].
  eexists. split; [eapply group_r; [exact Hk|apply er_ident; exact Hn|exact Hst|exact H1]|]. split; [exact Hf|].
  unfold e_group. cbn [settle_block g_name g_settings g_notes g_items tg_ident tg_settings tg_note tg_items]. rewrite last_of_only.
  rewrite (pick_map (fun x => match x with GroupNote c => Some c | _ => None end) _ e_group_part e_note) by (intros [a|a]; reflexivity).
  rewrite (pick_map (fun x => match x with GroupItem c => Some c | _ => None end) _ e_group_part (fun g => (option_map id_str (gi_schema g), id_str (gi_ident_alias g)))) by (intros [a|a]; reflexivity).
  reflexivity.
Qed.
Lemma er_property i r x : next (property_at inp) i r x -> property_r i r (e_prop x) /\ fits_value (snd (e_prop x)).
Proof.
  intros (m & H & Hr). destruct H as [i m1 m2 m k v Hk Ht (_ & _ & Hv & Hf) Hno]. split; [|exact Hf].
  exists m1, m2. split; [apply er_key; exact Hk|]. split; [exact Ht|]. split; [eapply er_plain_value; eassumption|exact Hno].
Qed.
Definition e_project_item (x : project_item_t) : a_project_item := match x with ProjNote n => PINote (e_note n) | ProjProp p => PIProp (e_prop p) end.
Definition pitem_fit (x : a_project_item) : Prop := match x with PIProp p => fits_value (snd p) | _ => True end.
Lemma er_project_item i r x : next (project_item_at inp) i r x -> project_item i r (e_project_item x) /\ pitem_fit (e_project_item x).
Proof.
  destruct x as [a|a]; intros (m & H & Hr); cbn in H |- *.
  - split; [apply er_note; exists m; auto|exact Logic.I].
  - apply er_property. exists m. auto.
Qed.
Lemma er_project i r x : next (project_at inp) i r x -> exists g, project i r g /\ fits_block (AProject g) /\ settle_block (AProject g) = AProject (e_project x).
Proof.
  intros (m & H & Hr). destruct H as [i m1 m2 m n l props db Hk Hn Hb Hp Hdb]. assert (Hn2 : next (braces_at (project_item_at inp)) m2 r l) by (exists m; auto).
  eapply (er_braces _ project_item e_project_item pitem_fit) in Hn2 as [H1 H2]; [|apply er_project_item].
  eexists. split; [eapply project_r; [exact Hk|apply er_ident; exact Hn|exact H1]|]. split.
  - eapply pick_all; [|exact H2]. intros [a|a] b Ha [= <-]. exact Ha.
  - unfold e_project. cbn [settle_block p_name p_props p_notes pj_ident pj_properties pj_note]. rewrite last_of_only, Hp.
    rewrite (pick_map (fun x => match x with ProjNote c => Some c | _ => None end) _ e_project_item e_note) by (intros [a|a]; reflexivity).
    rewrite (pick_map (fun x => match x with ProjProp c => Some c | _ => None end) _ e_project_item e_prop) by (intros [a|a]; reflexivity).
    reflexivity.
Qed.

Lemma er_top i r b : next (top_at inp) i r b -> exists a, block_r i r a /\ fits_block a /\ settle_block a = e_block b.
Proof.
  destruct b as [x|x|x|x|x|x]; intros (m & H & Hr); cbn [top_at e_block] in *.
  - destruct (er_project i r x) as (t & H1 & H2); [exists m; auto|]. exists (AProject t). auto.
  - destruct (er_table i r x) as (t & H1 & H2); [exists m; auto|]. exists (ATable t). auto.
  - destruct (er_group i r x) as (t & H1 & H2); [exists m; auto|]. exists (AGroup t). auto.
  - exists (ANote (e_note x)). split; [apply er_note; exists m; auto|]. split; [exact Logic.I|reflexivity].
  - destruct (er_reference i r x) as [H1 H2]; [exists m; auto|]. exists (ARef (e_ref x)). auto.
  - destruct (er_enum i r x) as [H1 H2]; [exists m; auto|]. exists (AEnum (e_enum x)). auto.
Qed.
Lemma er_tops i r l : many (next (top_at inp)) i r l -> exists a, many block_r i r a /\ fits a /\ settle a = map e_block l.
Proof.
  induction 1 as [i|i m r b l Hb Hl (a & H1 & H2 & H3)].
  - exists []. split; [constructor|]. split; [constructor|reflexivity].
  - apply er_top in Hb as (b' & B1 & B2 & B3). exists (b' :: a). split; [econstructor; eassumption|]. split; [constructor; assumption|].
    cbn [settle map]. rewrite B3. unfold settle in H3. rewrite H3. reflexivity.
Qed.
End Erase.

Lemma located_text inp x : located inp x -> exists a, dbml_text inp a /\ fits a /\ settle a = meaning x.
Proof.
  intros (_ & _ & m & Hl & Hm). apply er_tops in Hm as (a & H1 & H2 & H3). exists a. split; [exists m; auto|]. auto.
Qed.
Lemma located_accepted inp x : located inp x -> exists y, parse_dbml_unchecked inp = Some (Ok y) /\ meaning y = meaning x.
Proof.
  intros H. apply located_text in H as (a & H1 & H2 & H3). destruct (written_is_read inp a H1 H2) as (y & Hy & Em).
  exists y. split; [exact Hy|]. congruence.
Qed.
