(** * SynBuild2: types, columns, indexes and the blocks. *)

From Verif Require Export SynBuild.
From Verif Require Import ParserOk ParserOk3 ParseFacts.
From Verif Require Import SynGram2.

(** ** Column types *)
Lemma build_args p l : d_args p l -> gives same (Forall fits_value l) (parse_col_type_arg p) l.
Proof.
  intros [_ H]. unfold parse_col_type_arg. rewrite <- (app_nil_l l) at 2. rewrite <- fold_snoc.
  eapply (gives_fold d_value same (fun x a => x ++ [a])); [|exact H|exact Logic.I].
  intros acc q a Hq. rewrite (proj1 Hq). eapply gives_iff; [eapply (gives_bind same _ _ True); [apply build_value; exact Hq|]|tauto].
  intros x Hx _. apply gives_ok; [exact Logic.I|]. unfold same in *. congruence.
Qed.
Definition dim_fits (o : option N) : Prop := forall n, o = Some n -> n <= 4294967295.
Lemma build_dim p o : d_dim p o -> gives same (dim_fits o) (parse_col_type_array p) o.
Proof.
  intros (_ & H). unfold parse_col_type_array. destruct o as [n|].
  - destruct H as (x & d & -> & [Hr Hs] & ->). cbn [try_fold]. rewrite Hr, Hs. unfold parse_u32. rewrite N_of_digits_value.
    destruct (N.leb_spec (digits_value 0 d) 4294967295).
    + apply gives_ok; [intros n [= <-]; assumption|reflexivity].
    + apply gives_msg. intros Hf. specialize (Hf _ eq_refl). lia.
  - rewrite H. apply gives_ok; [intros n [= ]|reflexivity].
Qed.
Definition body_step (sch : option ident_t) (out : col_type_t) (p2 : pair) : outcome col_type_t :=
  match p_rule p2 with
  | R_var | R_spaced_var =>
      Ok (mkColType (ct_span out) (ct_raw out)
            (CT_Raw (build_type_name_with_schema sch p2)) (ct_args out) (ct_arrays out))
  | R_col_type_arg =>
      let? a := parse_col_type_arg p2 in
      Ok (mkColType (ct_span out) (ct_raw out) (ct_type_name out) a (ct_arrays out))
  | R_col_type_array =>
      let? v := parse_col_type_array p2 in
      Ok (mkColType (ct_span out) (ct_raw out) (ct_type_name out) (ct_args out) (ct_arrays out ++ [v]))
  | _ => throw_rules [R_var; R_spaced_var; R_col_type_arg; R_col_type_array] p2
  end.
Definition add_dim (t : a_type) (o : option N) : a_type := mkType (y_name t) (y_args t) (y_dims t ++ [o]).
Lemma fold_dims l : forall t, fold_left add_dim l t = mkType (y_name t) (y_args t) (y_dims t ++ l).
Proof.
  induction l as [|o l IH]; intros t; cbn [fold_left]; [rewrite app_nil_r; destruct t; reflexivity|].
  rewrite IH. unfold add_dim. cbn. rewrite <- app_assoc. reflexivity.
Qed.
Lemma build_body sch np q b ty v args dims out :
  np = match sch with Some i => id_str i ++ s "." | None => [] end ->
  into_inner q = v :: args ++ dims -> d_leaf R_var v b \/ d_leaf R_spaced_var v b -> y_name ty = CT_Raw (np ++ b) ->
  d_args_opt (y_args ty) args -> Forall2 d_dim dims (y_dims ty) -> ct_args out = [] -> ct_arrays out = [] ->
  gives e_type (fits_type ty) (try_fold (body_step sch) (into_inner q) out) ty.
Proof.
  intros Hnp Hi Hv Hn Ha Hd Ho1 Ho2. rewrite Hi. cbn [try_fold].
  assert (E0 : body_step sch out v = Ok (mkColType (ct_span out) (ct_raw out) (CT_Raw (np ++ b)) [] [])).
  { unfold body_step. assert (E1 : build_type_name_with_schema sch v = np ++ b).
    { unfold build_type_name_with_schema. rewrite Hnp. destruct Hv as [[_ ->]|[_ ->]]; destruct sch; try reflexivity; rewrite <- app_assoc; reflexivity. }
    rewrite E1, Ho1, Ho2. destruct Hv as [[-> _]|[-> _]]; reflexivity. }
  rewrite E0. cbn [bind]. rewrite try_fold_app.
  assert (HD : forall o, ct_type_name o = CT_Raw (np ++ b) -> ct_args o = y_args ty -> ct_arrays o = [] ->
    gives e_type (Forall dim_fits (y_dims ty)) (try_fold (body_step sch) dims o) ty).
  { intros o H1 H2 H3. replace ty with (fold_left add_dim (y_dims ty) (e_type o)) at 2.
    - eapply (gives_fold d_dim e_type add_dim dim_fits); [|exact Hd|exact Logic.I].
      intros acc p x Hx. unfold body_step. rewrite (proj1 Hx). eapply gives_iff; [eapply (gives_bind same _ _ True); [apply build_dim; exact Hx|]|tauto].
      intros y Hy _. apply gives_ok; [exact Logic.I|]. unfold same in Hy. subst y. reflexivity.
    - rewrite fold_dims. unfold e_type. cbn. rewrite H1, H2, H3. destruct ty; cbn in *. congruence. }
  assert (Hfits : fits_type ty <-> Forall fits_value (y_args ty) /\ Forall dim_fits (y_dims ty)).
  { unfold fits_type, dim_fits. rewrite (Forall_forall _ (y_dims ty)). split; intros [H1 H2]; (split; [exact H1|]).
    - intros o Ho n ->. auto.
    - intros n Hin. eapply H2; [exact Hin|reflexivity]. }
  destruct Ha as [[-> Ha]|(p & -> & Hp)].
  - cbn [try_fold bind]. eapply gives_iff; [apply HD; cbn; auto|]. rewrite Hfits, Ha. split; [intros H; split; [constructor|exact H]|tauto].
  - cbn [try_fold]. unfold body_step at 1. rewrite (proj1 Hp). cbn [ct_span ct_raw ct_type_name ct_arrays].
    eapply gives_iff; [eapply (gives_bind (fun o => (ct_type_name o, ct_args o, ct_arrays o)) _ _ _ _ _ (CT_Raw (np ++ b), y_args ty, [])); [eapply (gives_bind _ _ _ True); [eapply (gives_bind same _ _ True); [apply build_args; exact Hp|]|]|]|].
    + intros x Hx _. apply (gives_ok (fun o => (ct_type_name o, ct_args o, ct_arrays o))); [exact Logic.I|]. unfold same in Hx. subst x. reflexivity.
    + intros x Hx _. apply gives_ok; [exact Logic.I|exact Hx].
    + intros x [= H1 H2 H3] _. apply HD; assumption.
    + rewrite Hfits. tauto.
Qed.
Lemma try_fold_one {A B} (f : B -> A -> outcome B) x acc : try_fold f [x] acc = f acc x.
Proof. cbn. destruct (f acc x); reflexivity. Qed.
Lemma build_type p ty : d_type p ty -> gives e_type (fits_type ty) (parse_col_type p) ty.
Proof.
  intros (_ & pre & np & q & v & b & args & dims & Hi & Hpre & Hq & Hin & Hv & Hn & Ha & Hd). unfold parse_col_type. rewrite Hi, try_fold_app.
  assert (HB : forall sch, np = match sch with Some i => id_str i ++ s "." | None => [] end ->
    gives (fun x => e_type (snd x)) (fits_type ty) (try_fold (fun (acc : option ident_t * col_type_t) p1 =>
    let '(sch, out) := acc in
    match p_rule p1 with
    | R_ident => let? i := parse_ident p1 in Ok (Some i, out)
    | R_col_type_quoted | R_col_type_unquoted => omap (fun o => (sch, o)) (try_fold (body_step sch) (into_inner p1) out)
    | _ => throw_rules [R_col_type_quoted; R_col_type_unquoted] p1
    end) [q] (sch, mkColType (span_of p) (as_str p) CT_Undef [] [])) ty).
  { intros sch Hnp. cbn [try_fold]. eapply gives_iff; [eapply (gives_bind (fun x => e_type (snd x)) _ (fits_type ty) True _ _ ty)|tauto].
    - destruct Hq as [-> | ->]; (eapply gives_omap; [eapply build_body; try eassumption; reflexivity|]); intros x Hx; exact Hx.
    - intros x Hx _. apply gives_ok; [exact Logic.I|exact Hx]. }
  destruct Hpre as [[-> ->]|(x & w & -> & Hx & ->)].
  - cbn [bind try_fold app]. eapply gives_omap; [apply (HB None); reflexivity|]. intros y Hy. exact Hy.
  - rewrite (try_fold_one _ x), (proj1 Hx). destruct (build_ident _ _ Hx) as (i & -> & Hix). cbn [bind].
    eapply gives_omap; [apply (HB (Some i)); congruence|]. intros y Hy. exact Hy.
Qed.

(** ** Columns *)
Definition item_fits (x : a_col_item) : Prop := match x with CIAttr a => fits_attr a | CIRef _ => True end.
Definition add_item (c : a_col_settings) (x : a_col_item) : a_col_settings :=
  match x with CIAttr a => mkColSet (s_attrs c ++ [a]) (s_refs c) | CIRef r => mkColSet (s_attrs c) (s_refs c ++ [r]) end.
Definition attr_of (y : a_col_item) := match y with CIAttr a => Some a | _ => None end.
Definition iref_of (y : a_col_item) := match y with CIRef a => Some a | _ => None end.
Lemma fold_items l : forall c, fold_left add_item l c = mkColSet (s_attrs c ++ pick attr_of l) (s_refs c ++ pick iref_of l).
Proof.
  induction l as [|[a|r] l IH]; intros c; cbn [fold_left].
  - cbn. rewrite !app_nil_r. destruct c; reflexivity.
  - rewrite IH. cbn. rewrite <- app_assoc. reflexivity.
  - rewrite IH. cbn. rewrite <- app_assoc. reflexivity.
Qed.
Lemma add_attr_attrs acc x : e_col_settings (col_settings_add_attr acc x) = add_item (e_col_settings acc) (CIAttr (e_attr x)).
Proof.
  destruct acc as [sp attrs pk un nu inc nt df rf]. unfold col_settings_add_attr.
  repeat match goal with |- context [if ?b then _ else _] => destruct b end; unfold e_col_settings; cbn; rewrite map_app; reflexivity.
Qed.
Lemma add_ref_refs acc x : e_col_settings (col_settings_add_ref acc x) = add_item (e_col_settings acc) (CIRef (e_inline x)).
Proof. destruct acc as [sp attrs pk un nu inc nt df rf]. unfold e_col_settings. cbn. rewrite map_app. reflexivity. Qed.
Lemma Forall_pick {A B} (f : A -> option B) (P : B -> Prop) (Q : A -> Prop) l :
  (forall a, Q a <-> forall b, f a = Some b -> P b) -> (Forall Q l <-> Forall P (pick f l)).
Proof.
  intros H. induction l as [|a l IH]; cbn; [split; constructor|]. rewrite Forall_cons_iff, IH, Forall_app, H.
  destruct (f a) as [b|].
  - rewrite Forall_cons_iff. split; [intros [H1 H2]; split; [split; [auto|constructor]|exact H2]|intros [[H1 _] H2]; split; [intros b' [= <-]; exact H1|exact H2]].
  - split; [intros [_ H2]; split; [constructor|exact H2]|intros [_ H2]; split; [intros b' [= ]|exact H2]].
Qed.
Lemma build_col_settings p x : d_col_settings p x -> gives e_col_settings (Forall fits_attr (s_attrs x)) (parse_col_settings p) x.
Proof.
  destruct x as [xa xr]. intros (_ & l & HF & Ha & Hr). cbn [s_attrs s_refs] in *. unfold parse_col_settings.
  eapply gives_iff with (P := Forall item_fits l).
  - replace (mkColSet xa xr) with (fold_left add_item l (e_col_settings (col_settings0 (span_of p)))) by (rewrite fold_items; cbn; unfold attr_of, iref_of; congruence).
    eapply (gives_fold d_col_item e_col_settings add_item item_fits); [|exact HF|exact Logic.I].
    intros acc q y (Hq & z & Hz & Hy). rewrite Hq, Hz. cbn [try_fold]. eapply gives_iff; [eapply (gives_bind e_col_settings _ (item_fits y) True)|tauto].
    + destruct y as [a|r].
      * rewrite (proj1 Hy). eapply gives_iff; [eapply (gives_bind e_attr _ _ True); [apply build_attribute; exact Hy|]|cbn; tauto].
        intros w Hw _. apply gives_ok; [exact Logic.I|]. rewrite add_attr_attrs, Hw. reflexivity.
      * rewrite (proj1 Hy). destruct (build_inline _ _ Hy) as (w & -> & Hw). cbn [bind]. apply gives_ok; [exact Logic.I|]. rewrite add_ref_refs, Hw. reflexivity.
    + intros w Hw _. apply gives_ok; [exact Logic.I|exact Hw].
  - rewrite Ha. apply Forall_pick. intros [a|r]; cbn; (split; [intros H b Hb; first [injection Hb as <-; exact H | discriminate]|intros H; first [apply H; reflexivity|exact Logic.I]]).
Qed.
Lemma build_col p c : d_col p c -> gives e_col (fits_col c) (parse_table_col p) c.
Proof.
  destruct c as [n ty st]. intros (_ & x & y & ps & Hi & Hx & Hy & Hst). cbn [c_name c_type c_settings] in *. unfold parse_table_col. rewrite Hi.
  cbn [try_fold]. rewrite (proj1 Hx), (proj1 Hy). destruct (build_ident _ _ Hx) as (i & -> & Hix). cbn [bind tc_span tc_name tc_type tc_settings].
  eapply gives_iff with (P := fits_type ty /\ forall z, st = Some z -> Forall fits_attr (s_attrs z)); [|reflexivity].
  eapply (gives_bind (fun o => (id_str (tc_name o), e_type (tc_type o), tc_settings o)) _ _ _ _ _ (n, ty, None)).
  - eapply gives_iff; [eapply (gives_bind e_type _ _ True); [apply build_type; exact Hy|]|tauto].
    intros t Ht _. apply gives_ok; [exact Logic.I|]. cbn. congruence.
  - intros o [= Ho1 Ho2 Ho3] _. destruct st as [z|]; cbn [opt_den] in Hst.
    + destruct Hst as (q & -> & Hq). cbn [try_fold]. rewrite (proj1 Hq). eapply gives_iff; [eapply (gives_bind _ _ _ True); [eapply (gives_bind e_col_settings _ _ True); [apply build_col_settings; exact Hq|]|]|].
      * intros w Hw _. apply (gives_ok e_col); [exact Logic.I|]. unfold e_col. cbn. rewrite Ho1, Ho2, Hw. reflexivity.
      * intros w Hw _. apply gives_ok; [exact Logic.I|exact Hw].
      * split; [intros [[H _] _] z' [= <-]; exact H|intros H; split; [split; [apply H; reflexivity|exact Logic.I]|exact Logic.I]].
    + subst ps. cbn [try_fold]. apply gives_ok; [intros z [= ]|]. unfold e_col. rewrite Ho1, Ho2, Ho3. reflexivity.
Qed.

(** ** Indexes *)
Definition type_fits (a : a_attr) : Prop := forall v, a = (s "type", Some v) -> exists t, index_type_word t = value_to_string v.
Lemma attr_string x : attr_value_string x = option_map value_to_string (snd (e_attr x)).
Proof. unfold attr_value_string, e_attr. cbn [snd]. destruct (at_value x); reflexivity. Qed.
Lemma build_index_settings p l : d_settings R_indexes_settings p l ->
  gives (fun x => map e_attr (is_attributes x)) (Forall (fun a => fits_attr a /\ type_fits a) l) (parse_indexes_settings p) l.
Proof.
  intros [_ H]. unfold parse_indexes_settings. rewrite <- (app_nil_l l) at 2. rewrite <- fold_snoc.
  eapply (gives_fold d_attr (fun x => map e_attr (is_attributes x)) (fun x a => x ++ [a])); [|exact H|exact Logic.I].
  intros acc q a Hq. rewrite (proj1 Hq). eapply gives_bind; [apply build_attribute; exact Hq|].
  intros x Hx _. assert (Hk : id_str (at_key x) = fst a) by (rewrite <- Hx; reflexivity).
  rewrite !attr_string, Hx. destruct acc as [sp attrs ty un pk nt nm]. cbn [is_attributes].
  assert (Hend : map e_attr (attrs ++ [x]) = map e_attr attrs ++ [a]) by (rewrite map_app; cbn [map]; congruence).
  destruct (str_eqb_spec (id_str (at_key x)) (s "type")) as [Et|Et].
  - rewrite Et. change (str_eqb (s "type") (s "unique")) with false. change (str_eqb (s "type") (s "pk")) with false. cbv beta iota.
    rewrite Et in Hk. destruct a as [k [v|]]; cbn [fst snd option_map] in *; subst k.
    + destruct (indexes_type_from_str (value_to_string v)) as [t|] eqn:Ev.
      * apply index_words in Ev. apply gives_ok; [|exact Hend]. intros v' [= <-]. exists t. auto.
      * apply gives_msg. intros Hf. destruct (Hf _ eq_refl) as (t & Ht). symmetry in Ht. apply index_words in Ht. congruence.
    + apply gives_ok; [intros v' [= ]|exact Hend].
  - repeat match goal with |- context [if ?b then _ else _] => destruct b end; (apply gives_ok; [|exact Hend]; intros v ->; cbn [fst] in Hk; congruence).
Qed.
Lemma index_fits_split l : Forall (fun a => fits_attr a /\ type_fits a) l <->
  Forall fits_attr l /\ forall v, In (s "type", Some v) l -> exists t, index_type_word t = value_to_string v.
Proof.
  rewrite !Forall_forall. split.
  - intros H. split; [intros a Ha; apply H; exact Ha|]. intros v Ha. exact (proj2 (H _ Ha) v eq_refl).
  - intros [H1 H2] a Ha. split; [auto|]. intros v ->. eapply H2; eassumption.
Qed.
Lemma build_index_col p c : d_index_col p c -> exists x, parse_indexes_ident p = Ok x /\ e_index_col x = c.
Proof.
  intros (_ & q & Hi & Hd). unfold parse_indexes_ident. rewrite Hi. destruct c as [w|v].
  - rewrite (proj1 Hd). destruct (build_ident _ _ Hd) as (i & -> & Hi'). eexists. split; [reflexivity|]. cbn. congruence.
  - destruct Hd as (w & (Hr & x & Hx & Hv & Hs) & ->). rewrite Hr, Hx, Hv, Hs. eexists. split; [reflexivity|]. reflexivity.
Qed.
Lemma build_index p x : d_index p x -> gives e_index (fits_index x) (parse_indexes_single_multi p) x.
Proof.
  destruct x as [l st]. intros (_ & cs & ps & Hi & HF & Hst). cbn [x_cols x_settings] in *. unfold parse_indexes_single_multi. rewrite Hi, try_fold_app.
  set (f := fun acc p1 => _).
  assert (HC : forall acc, exists xs, try_fold f cs acc = Ok (mkIndexesDef (idf_span acc) (idf_cols acc ++ xs) (idf_settings acc)) /\ map e_index_col xs = l).
  { clear Hi Hst. induction HF as [|q c cs l Hq Hl IH]; intros acc; cbn [try_fold].
    - exists []. rewrite app_nil_r. destruct acc; auto.
    - unfold f at 1. rewrite (proj1 Hq). destruct (build_index_col _ _ Hq) as (y & -> & Hy). cbn [bind].
      destruct (IH (mkIndexesDef (idf_span acc) (idf_cols acc ++ [y]) (idf_settings acc))) as (xs & -> & Hxs). exists (y :: xs). cbn. rewrite <- app_assoc. split; [reflexivity|congruence]. }
  destruct (HC (mkIndexesDef (span_of p) [] None)) as (xs & -> & Hxs). cbn [bind idf_span idf_cols idf_settings app].
  destruct st as [z|]; cbn [opt_den] in Hst.
  - destruct Hst as (q & -> & Hq). cbn [try_fold]. unfold f. rewrite (proj1 Hq). eapply gives_iff; [eapply (gives_bind _ _ _ True); [eapply (gives_bind _ _ _ True); [apply build_index_settings; exact Hq|]|]|].
    + intros w Hw _. apply (gives_ok e_index); [exact Logic.I|]. unfold e_index. cbn. rewrite Hw, Hxs. reflexivity.
    + intros w Hw _. apply gives_ok; [exact Logic.I|exact Hw].
    + rewrite index_fits_split. unfold fits_index. cbn [x_settings]. rewrite fits_attrs_some. split.
      * intros [[[H1 H2] _] _]. split; [exact H1|]. intros l' v [= <-]. apply H2.
      * intros [H1 H2]. split; [split; [split; [exact H1|]|]|]; try exact Logic.I. intros v. apply H2. reflexivity.
  - subst ps. cbn [try_fold]. apply gives_ok; [split; [intros z [= ]|intros l' v [= ]]|]. unfold e_index. cbn. congruence.
Qed.
Lemma build_indexes p l : d_indexes p l -> gives (fun b => map e_index (ib_defs b)) (Forall fits_index l) (parse_indexes_decl p) l.
Proof.
  intros (_ & q & Hi & Hq & HF). unfold parse_indexes_decl. rewrite Hi, Hq. unfold parse_indexes_block. rewrite <- (app_nil_l l) at 2. rewrite <- fold_snoc.
  eapply (gives_fold d_index (fun b => map e_index (ib_defs b)) (fun x a => x ++ [a])); [|exact HF|exact Logic.I].
  intros acc y a Hy. assert (E0 : forall o : outcome indexes_block_t, match p_rule y with R_indexes_single | R_indexes_multi => o | _ => throw_rules [R_indexes_single; R_indexes_multi] y end = o)
    by (intros o; destruct (proj1 Hy) as [-> | ->]; reflexivity).
  rewrite E0. eapply gives_iff; [eapply (gives_bind e_index _ _ True); [apply build_index; exact Hy|]|tauto].
  intros x Hx _. apply gives_ok; [exact Logic.I|]. cbn [ib_defs]. rewrite map_app. cbn [map]. congruence.
Qed.

(** ** Tables *)
Lemma last_only_snoc {A} (l : list A) x : last_only (l ++ [x]) = [x].
Proof.
  induction l as [|a l IH]; [reflexivity|]. cbn [app last_only]. destruct (l ++ [x]) eqn:E0; [destruct l; discriminate|]. exact IH.
Qed.
(** [set_last acc l]: [acc] replaced by the last of [l], if any. *)
Definition set_last {A} (acc l : list A) : list A := match last_only l with [] => acc | x => x end.
Lemma last_only_ne {A} (a : A) l : last_only (a :: l) <> [].
Proof. revert a. induction l as [|b l IH]; intros a; [discriminate|]. cbn [last_only]. apply IH. Qed.
Lemma set_last_cons {A} (acc : list A) a l : set_last [a] l = set_last acc (a :: l).
Proof.
  unfold set_last. destruct l as [|b l]; [reflexivity|]. change (last_only (a :: b :: l)) with (last_only (b :: l)).
  destruct (last_only (b :: l)) eqn:E0; [destruct (last_only_ne _ _ E0)|reflexivity].
Qed.
Definition add_titem (t : a_table) (x : a_table_item) : a_table :=
  match x with
  | TICol c => mkATable (t_schema t) (t_name t) (t_alias t) (t_settings t) (t_cols t ++ [c]) (t_notes t) (t_indexes t)
  | TINote v => mkATable (t_schema t) (t_name t) (t_alias t) (t_settings t) (t_cols t) [v] (t_indexes t)
  | TIIndexes l => mkATable (t_schema t) (t_name t) (t_alias t) (t_settings t) (t_cols t) (t_notes t) [l]
  end.
Lemma fold_titems l : forall t, fold_left add_titem l t =
  mkATable (t_schema t) (t_name t) (t_alias t) (t_settings t) (t_cols t ++ pick col_of l) (set_last (t_notes t) (pick note_of l)) (set_last (t_indexes t) (pick indexes_of l)).
Proof.
  induction l as [|[c|v|y] l IH]; intros t; cbn [fold_left].
  - cbn. rewrite app_nil_r. destruct t; reflexivity.
  - rewrite IH. cbn. rewrite <- app_assoc. reflexivity.
  - rewrite IH. cbn. rewrite (set_last_cons (t_notes t)). reflexivity.
  - rewrite IH. cbn. rewrite (set_last_cons (t_indexes t)). reflexivity.
Qed.
Definition titem_fits (x : a_table_item) : Prop :=
  match x with TICol c => fits_col c | TINote _ => True | TIIndexes l => Forall fits_index l end.
Lemma titems_fit l : Forall titem_fits l <-> Forall fits_col (pick col_of l) /\ Forall (Forall fits_index) (pick indexes_of l).
Proof.
  induction l as [|[c|v|y] l IH]; cbn; rewrite ?Forall_cons_iff.
  - repeat split; constructor.
  - fold (pick col_of l). fold (pick indexes_of l). rewrite IH. cbn. tauto.
  - fold (pick col_of l). fold (pick indexes_of l). rewrite IH. cbn. tauto.
  - fold (pick col_of l). fold (pick indexes_of l). rewrite IH. cbn. tauto.
Qed.
Lemma build_table p t : d_table p t -> gives (fun x => ATable (e_table_block x)) (fits_block (ATable t)) (parse_table_decl p) (settle_block (ATable t)).
Proof.
  destruct t as [sc n al st cols notes ixs]. intros (_ & d & pa & pst & b & l & Hi & Hd & Hal & Hst & Hb & HF & Hc & Hn & Hx).
  cbn [t_schema t_name t_alias t_settings t_cols t_notes t_indexes] in *. unfold parse_table_decl. rewrite Hi.
  set (f := fun acc p1 => _). cbn [try_fold]. unfold f at 1. unfold table0. rewrite (proj1 Hd). destruct (build_decl _ _ Hd) as ([ds dn] & -> & [= Hds Hdn]). cbn [bind snd fst ti_alias].
  rewrite try_fold_app.
  assert (Ha : exists a, try_fold f pa (mkTable (span_of p) [] (mkTableIdent (span_of d) dn ds None) None None None) =
     Ok (mkTable (span_of p) [] (mkTableIdent (span_of d) dn ds a) None None None) /\ option_map id_str a = al).
  { destruct al as [w|]; cbn [opt_den] in Hal.
    - destruct Hal as (q & -> & Hq & z & Hz & Hw). cbn [try_fold]. unfold f. rewrite Hq, Hz. cbn [try_fold]. rewrite (proj1 Hw). destruct (build_ident _ _ Hw) as (i & -> & Hi').
      cbn [bind]. exists (Some i). split; [reflexivity|]. cbn. congruence.
    - subst pa. exists None. auto. }
  destruct Ha as (a & -> & Ha). cbn [bind]. rewrite try_fold_app.
  eapply gives_iff; [eapply (gives_bind (fun x => e_table_block x) _ (fits_attrs st) _ _ _ (mkATable sc n al st [] [] []))|].
  - destruct st as [z|]; cbn [opt_den] in Hst.
    + destruct Hst as (q & -> & Hq). cbn [try_fold]. unfold f. rewrite (proj1 Hq). eapply gives_iff; [eapply (gives_bind _ _ _ True); [eapply (gives_bind _ _ _ True); [eapply build_table_settings; exact Hq|]|]|].
      * intros w Hw _. apply (gives_ok e_table_block); [exact Logic.I|]. unfold e_table_block. cbn. rewrite Hw, Ha, Hds, Hdn. reflexivity.
      * intros w Hw _. apply gives_ok; [exact Logic.I|exact Hw].
      * tauto.
    + subst pst. cbn [try_fold]. apply gives_ok; [intros z [= ]|]. unfold e_table_block. cbn. rewrite Ha, Hds, Hdn. reflexivity.
  - intros acc Hacc _. cbn [try_fold]. eapply gives_iff; [eapply (gives_bind (fun x => e_table_block x) _ (Forall titem_fits l) True)|].
    + unfold f. destruct acc as [a1 a2 a3 a4 a5 a6] eqn:Eacc. rewrite Hb. rewrite <- Eacc in *. 
      eapply (gives_fold d_table_item e_table_block add_titem titem_fits); [|exact HF|exact Logic.I].
      intros ac q y Hy. destruct ac as [b1 b2 b3 b4 b5 b6]. destruct y as [c|v|ix]; cbn [d_table_item] in Hy.
      * rewrite (proj1 Hy). eapply gives_iff; [eapply (gives_bind e_col _ _ True); [apply build_col; exact Hy|]|cbn; tauto].
        intros w Hw _. apply gives_ok; [exact Logic.I|]. unfold e_table_block. cbn. rewrite map_app, <- Hw. reflexivity.
      * rewrite (proj1 Hy). destruct (build_note _ _ Hy) as (w & -> & Hw). cbn [bind]. apply gives_ok; [exact Logic.I|]. unfold e_table_block. cbn. rewrite <- Hw. reflexivity.
      * rewrite (proj1 Hy). eapply gives_iff; [eapply (gives_bind _ _ _ True); [apply build_indexes; exact Hy|]|cbn; tauto].
        intros w Hw _. apply gives_ok; [exact Logic.I|]. unfold e_table_block. cbn. rewrite <- Hw. reflexivity.
    + intros w Hw _. apply gives_ok; [exact Logic.I|]. rewrite Hw, Hacc, fold_titems. cbn. rewrite Hc, Hn, Hx. unfold set_last.
      f_equal. f_equal; [destruct (last_only (pick note_of l)); reflexivity|destruct (last_only (pick indexes_of l)); reflexivity].
    + reflexivity.
  - rewrite titems_fit. cbn [fits_block t_settings t_cols t_indexes]. rewrite Hc, Hx. tauto.
Qed.

(** ** Enums *)
Lemma build_enum_value p x : d_enum_value p x ->
  gives (fun v => (id_str (ev_value v), option_map (fun st => map e_attr (evs_attributes st)) (ev_settings v))) (fits_attrs (snd x)) (parse_enum_value p) x.
Proof.
  destruct x as [w st]. intros (_ & q & ps & Hi & Hq & Hst). cbn [fst snd] in *. unfold parse_enum_value. rewrite Hi. cbn [try_fold].
  rewrite (proj1 Hq). destruct (build_ident _ _ Hq) as (i & -> & Hix). cbn [bind]. destruct st as [z|]; cbn [opt_den] in Hst.
  - destruct Hst as (y & -> & Hy). cbn [try_fold]. rewrite (proj1 Hy). eapply gives_iff; [eapply (gives_bind _ _ _ True); [eapply (gives_bind _ _ _ True); [eapply build_enum_settings; exact Hy|]|]|].
    + intros v Hv _. apply (gives_ok (fun v => (id_str (ev_value v), option_map (fun st => map e_attr (evs_attributes st)) (ev_settings v)))); [exact Logic.I|]. cbn. rewrite Hv, Hix. reflexivity.
    + intros v Hv _. apply gives_ok; [exact Logic.I|exact Hv].
    + tauto.
  - subst ps. cbn [try_fold]. apply gives_ok; [intros z [= ]|]. cbn. congruence.
Qed.
Lemma build_enum p x : d_enum p x -> gives e_enum (fits_block (AEnum x)) (parse_enum_decl p) x.
Proof.
  destruct x as [sc n l]. intros (_ & d & b & Hi & Hd & Hb & HF). cbn [m_schema m_name m_values] in *. unfold parse_enum_decl. rewrite Hi. cbn [try_fold].
  rewrite (proj1 Hd), Hb. destruct (build_decl _ _ Hd) as ([ds dn] & -> & [= Hds Hdn]). cbn [bind fst snd en_span en_values en_ident].
  eapply gives_iff; [eapply (gives_bind _ _ _ True); [eapply (gives_bind _ _ _ True)|]|].
  - unfold parse_enum_block. eapply (gives_map d_enum_value); [|exact HF]. intros q a Hq. rewrite (proj1 Hq). apply build_enum_value. exact Hq.
  - intros v Hv _. apply (gives_ok e_enum); [exact Logic.I|]. unfold e_enum. cbn. rewrite Hv, Hds, Hdn. reflexivity.
  - intros v Hv _. apply gives_ok; [exact Logic.I|exact Hv].
  - cbn. tauto.
Qed.

(** ** Groups *)
Definition add_gitem (g : a_group) (x : a_group_item) : a_group :=
  match x with
  | GINote v => mkAGroup (g_name g) (g_settings g) [v] (g_items g)
  | GIName d => mkAGroup (g_name g) (g_settings g) (g_notes g) (g_items g ++ [d])
  end.
Lemma fold_gitems l : forall g, fold_left add_gitem l g =
  mkAGroup (g_name g) (g_settings g) (set_last (g_notes g) (pick gnote_of l)) (g_items g ++ pick gname_of l).
Proof.
  induction l as [|[v|d] l IH]; intros g; cbn [fold_left].
  - cbn. rewrite app_nil_r. destruct g; reflexivity.
  - rewrite IH. cbn. rewrite (set_last_cons (g_notes g)). reflexivity.
  - rewrite IH. cbn. rewrite <- app_assoc. reflexivity.
Qed.
Lemma build_group p g : d_group p g -> gives (fun x => AGroup (e_group x)) (fits_block (AGroup g)) (parse_table_group_decl p) (settle_block (AGroup g)).
Proof.
  destruct g as [n st notes items]. intros (_ & d & pst & b & l & Hi & Hd & Hst & Hb & HF & Hn & Hx).
  cbn [g_name g_settings g_notes g_items] in *. unfold parse_table_group_decl. rewrite Hi.
  set (f := fun acc p1 => _). cbn [try_fold]. unfold f at 1. rewrite (proj1 Hd). destruct (build_ident _ _ Hd) as (i & -> & Hix). cbn [bind].
  rewrite try_fold_app.
  eapply gives_iff; [eapply (gives_bind e_group _ (fits_attrs st) True _ _ (mkAGroup n st [] []))|cbn; tauto].
  - destruct st as [z|]; cbn [opt_den] in Hst.
    + destruct Hst as (q & -> & Hq). cbn [try_fold]. unfold f. rewrite (proj1 Hq). eapply gives_iff; [eapply (gives_bind _ _ _ True); [eapply (gives_bind _ _ _ True); [eapply build_group_settings; exact Hq|]|]|].
      * intros w Hw _. apply (gives_ok e_group); [exact Logic.I|]. unfold e_group. cbn. rewrite Hw, Hix. reflexivity.
      * intros w Hw _. apply gives_ok; [exact Logic.I|exact Hw].
      * tauto.
    + subst pst. cbn [try_fold]. apply gives_ok; [intros z [= ]|]. unfold e_group. cbn. rewrite Hix. reflexivity.
  - intros acc Hacc _. cbn [try_fold]. eapply gives_iff; [eapply (gives_bind e_group _ (Forall (fun _ => True) l) True)|].
    + unfold f. destruct acc as [a1 a2 a3 a4 a5] eqn:Eacc. rewrite Hb. rewrite <- Eacc in *.
      eapply (gives_fold d_group_item e_group add_gitem (fun _ => True)); [|exact HF|exact Logic.I].
      intros ac q y Hy. destruct ac as [b1 b2 b3 b4 b5]. destruct y as [v|dd]; cbn [d_group_item] in Hy.
      * rewrite (proj1 Hy). destruct (build_note _ _ Hy) as (w & -> & Hw). cbn [bind]. apply gives_ok; [exact Logic.I|]. unfold e_group. cbn. rewrite <- Hw. reflexivity.
      * rewrite (proj1 Hy). destruct (build_decl _ _ Hy) as (w & -> & Hw). cbn [bind]. apply gives_ok; [exact Logic.I|]. unfold e_group. cbn. rewrite map_app, <- Hw. reflexivity.
    + intros w Hw _. apply gives_ok; [exact Logic.I|]. rewrite Hw, Hacc, fold_gitems. cbn. rewrite Hn, Hx. unfold set_last.
      f_equal. f_equal. destruct (last_only (pick gnote_of l)); reflexivity.
    + split; [tauto|]. intros _. split; [|exact Logic.I]. apply Forall_forall. auto.
Qed.

(** ** Projects *)
Definition add_pitem (g : a_project) (x : a_project_item) : a_project :=
  match x with
  | PINote v => mkAProject (p_name g) (p_props g) [v]
  | PIProp d => mkAProject (p_name g) (p_props g ++ [d]) (p_notes g)
  end.
Lemma fold_pitems l : forall g, fold_left add_pitem l g =
  mkAProject (p_name g) (p_props g ++ pick pprop_of l) (set_last (p_notes g) (pick pnote_of l)).
Proof.
  induction l as [|[v|d] l IH]; intros g; cbn [fold_left].
  - cbn. rewrite app_nil_r. destruct g; reflexivity.
  - rewrite IH. cbn. rewrite (set_last_cons (p_notes g)). reflexivity.
  - rewrite IH. cbn. rewrite <- app_assoc. reflexivity.
Qed.
Definition pitem_fits (x : a_project_item) : Prop := match x with PINote _ => True | PIProp d => fits_value (snd d) end.
Lemma build_project p g : d_project p g -> gives (fun x => AProject (e_project x)) (fits_block (AProject g)) (parse_project_decl p) (settle_block (AProject g)).
Proof.
  destruct g as [n props notes]. intros (_ & d & b & l & Hi & Hd & Hb & HF & Hn & Hx).
  cbn [p_name p_props p_notes] in *. unfold parse_project_decl. rewrite Hi. cbn [try_fold]. rewrite (proj1 Hd), Hb. destruct (build_ident _ _ Hd) as (i & -> & Hix). cbn [bind].
  eapply gives_iff; [eapply (gives_bind e_project _ (Forall pitem_fits l) True)|].
  - eapply (gives_fold d_project_item e_project add_pitem pitem_fits); [|exact HF|exact Logic.I].
    intros ac q y Hy. destruct y as [v|dd]; cbn [d_project_item] in Hy.
    + rewrite (proj1 Hy). destruct (build_note _ _ Hy) as (w & -> & Hw). cbn [bind]. apply gives_ok; [exact Logic.I|]. unfold e_project. cbn. rewrite <- Hw. reflexivity.
    + rewrite (proj1 Hy). eapply gives_iff; [eapply (gives_bind _ _ _ True); [apply build_property; exact Hy|]|cbn; tauto].
      intros w Hw _. apply gives_ok; [exact Logic.I|]. unfold e_project. cbn. rewrite map_app, <- Hw. reflexivity.
  - intros w Hw _. apply gives_ok; [exact Logic.I|]. rewrite Hw, fold_pitems. unfold e_project. cbn. rewrite Hn, Hx, Hix. unfold set_last.
    f_equal. f_equal. destruct (last_only (pick pnote_of l)); reflexivity.
  - cbn [fits_block p_props]. rewrite Hx. rewrite <- (Forall_pick pprop_of (fun x => fits_value (snd x)) pitem_fits); [tauto|].
    intros [v|dd]; cbn; (split; [intros H bb Hbb; first [injection Hbb as <-; exact H | discriminate]|intros H; first [apply (H _ eq_refl)|exact Logic.I]]).
Qed.

(** ** Whole texts *)
Lemma build_block p b : d_block p b ->
  gives (option_map e_block) (fits_block b) (parse_block p) (Some (settle_block b)).
Proof.
  unfold parse_block. destruct b as [x|x|x|x|x|x]; cbn [d_block]; intros Hd; rewrite (proj1 Hd).
  - eapply gives_omap; [apply build_project; exact Hd|]. intros y Hy. cbn. cbn in Hy. congruence.
  - eapply gives_omap; [apply build_table; exact Hd|]. intros y Hy. cbn. cbn in Hy. congruence.
  - eapply gives_omap; [apply build_group; exact Hd|]. intros y Hy. cbn. cbn in Hy. congruence.
  - destruct (build_note _ _ Hd) as (w & -> & Hw). cbn [omap]. apply gives_ok; [exact Logic.I|]. cbn. congruence.
  - eapply gives_omap; [apply build_ref; exact Hd|]. intros y Hy. cbn. congruence.
  - eapply gives_omap; [apply build_enum; exact Hd|]. intros y Hy. cbn. congruence.
Qed.
Lemma fold_settle l : forall acc, fold_left (fun x b => x ++ [settle_block b]) l acc = acc ++ settle l.
Proof. induction l as [|a l IH]; intros acc; cbn [fold_left settle map]; [rewrite app_nil_r; reflexivity|]. rewrite IH, <- app_assoc. reflexivity. Qed.
Lemma build_schema p inp a : d_schema p a -> gives meaning (fits a) (parse_schema p inp) (settle a).
Proof.
  intros (_ & ps & e & Hi & HF & He). unfold parse_schema. rewrite Hi, try_fold_app.
  eapply gives_iff; [eapply (gives_bind meaning _ (fits a) True _ _ (settle a))|tauto].
  - rewrite <- (app_nil_l (settle a)), <- fold_settle.
    eapply (gives_fold d_block meaning (fun x b => x ++ [settle_block b]) fits_block); [|exact HF|exact Logic.I].
    intros acc q b Hq. eapply gives_iff; [eapply (gives_bind _ _ _ True); [apply build_block; exact Hq|]|tauto].
    intros [y|] Hy _; [|discriminate]. injection Hy as Hy. apply gives_ok; [exact Logic.I|]. unfold meaning. cbn. rewrite map_app. cbn [map]. congruence.
  - intros x Hx _. cbn [try_fold]. unfold parse_block. rewrite He. cbn [bind]. apply gives_ok; [exact Logic.I|exact Hx].
Qed.
