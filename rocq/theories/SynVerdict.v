(** * SynVerdict: the verdict depends only on what the text says. *)

From Coq Require Import Permutation.
From Verif Require Import Rules RulesOk RulesOk3 CheckFacts CheckFacts2 ParserOk3 SpansOk ParseFacts Zap SynMain.
From Verif Require Import Err Analyzer Api.
From Verif Require Import Syntax.

(** ** Equal meanings, equal ASTs up to positions *)
Lemma map_pointwise {A B C D} (f : A -> C) (f' : B -> C) (h : A -> D) (h' : B -> D) (P : A -> Prop) (Q : B -> Prop) l l' :
  map f l = map f' l' -> Forall P l -> Forall Q l' -> (forall a b, P a -> Q b -> f a = f' b -> h a = h' b) -> map h l = map h' l'.
Proof.
  intros E HP HQ K. revert l' E HQ. induction HP as [|a l Ha _ IH]; intros [|b l'] E HQ; cbn in *; try discriminate; [reflexivity|].
  injection E as E1 E2. inversion HQ as [|? ? Hb HQ']; subst. f_equal; [apply K; assumption|apply IH; assumption].
Qed.
Lemma map_ext2 {A C D} (f : A -> C) (h : A -> D) l l' :
  map f l = map f l' -> (forall a b, f a = f b -> h a = h b) -> map h l = map h l'.
Proof.
  intros E K. eapply (map_pointwise f f h h (fun _ => True) (fun _ => True)); [exact E| | |intros a b _ _; apply K]; apply Forall_forall; auto.
Qed.
Lemma opt_pointwise {A C D} (f : A -> C) (h : A -> D) (P Q : A -> Prop) o o' :
  option_map f o = option_map f o' -> opt_all P o -> opt_all Q o' -> (forall a b, P a -> Q b -> f a = f b -> h a = h b) -> option_map h o = option_map h o'.
Proof. intros E HP HQ K. destruct o as [a|], o' as [b|]; cbn in *; try discriminate; [|reflexivity]. injection E as E. f_equal. apply K; assumption. Qed.
Lemma opt_ext2 {A C D} (f : A -> C) (h : A -> D) o o' :
  option_map f o = option_map f o' -> (forall a b, f a = f b -> h a = h b) -> option_map h o = option_map h o'.
Proof. intros E K. destruct o as [a|], o' as [b|]; cbn in *; try discriminate; [|reflexivity]. injection E as E. f_equal. apply K; assumption. Qed.
Lemma opt_list_map {A C} (f : A -> C) o o' : opt_list f o = opt_list f o' -> option_map f o = option_map f o'.
Proof. destruct o, o'; cbn; congruence. Qed.

Lemma m_ident a b : id_str a = id_str b -> z_ident a = z_ident b.
Proof. intros E. unfold z_ident. rewrite E. reflexivity. Qed.
Lemma m_lit a b : lit_value a = lit_value b -> z_lit a = z_lit b.
Proof. intros E. unfold z_lit. rewrite E. reflexivity. Qed.
Lemma m_attr a b : e_attr a = e_attr b -> z_attr a = z_attr b.
Proof.
  unfold e_attr, z_attr. intros E. injection E as E1 E2. rewrite (m_ident _ _ E1). f_equal.
  apply (opt_ext2 lit_value z_lit); [exact E2|]. apply m_lit.
Qed.
Lemma m_attrs l l' : map e_attr l = map e_attr l' -> map z_attr l = map z_attr l'.
Proof. intros E. apply (map_ext2 e_attr z_attr); [exact E|]. apply m_attr. Qed.
Lemma m_prop a b : e_prop a = e_prop b -> z_prop a = z_prop b.
Proof. unfold e_prop, z_prop. intros E. injection E as E1 E2. rewrite (m_ident _ _ E1), (m_lit _ _ E2). reflexivity. Qed.
Lemma m_note a b : e_note a = e_note b -> z_note a = z_note b.
Proof. unfold e_note, z_note. intros E. rewrite (m_lit _ _ E). reflexivity. Qed.
Lemma m_idents l l' : map id_str l = map id_str l' -> map z_ident l = map z_ident l'.
Proof. intros E. apply (map_ext2 id_str z_ident); [exact E|]. apply m_ident. Qed.
Lemma m_oident l l' : option_map id_str l = option_map id_str l' -> option_map z_ident l = option_map z_ident l'.
Proof. intros E. apply (opt_ext2 id_str z_ident); [exact E|]. apply m_ident. Qed.
Lemma m_rid a b : e_ref_end a = e_ref_end b -> z_rid a = z_rid b.
Proof.
  unfold e_ref_end, z_rid. intros E. injection E as E1 E2 E3. rewrite (m_oident _ _ E1), (m_ident _ _ E2), (m_idents _ _ E3). reflexivity.
Qed.
Lemma m_inline a b : e_inline a = e_inline b -> z_inline a = z_inline b.
Proof. unfold e_inline, z_inline. intros E. injection E as E1 E2 E3 E4. rewrite E1. f_equal. apply m_rid. unfold e_ref_end. congruence. Qed.
Lemma m_type a b : e_type a = e_type b -> z_type a = z_type b.
Proof. unfold e_type, z_type. intros E. injection E as E1 E2 E3. congruence. Qed.

(** Derived fields are functions of the attributes. *)
Lemma key_eq a b : e_attr a = e_attr b -> key_of a = key_of b.
Proof. unfold e_attr, key_of. congruence. Qed.
Lemma has_key_eq k l l' : map e_attr l = map e_attr l' -> has_key k l -> has_key k l'.
Proof.
  intros E (a & Ha & Hk). apply (in_map e_attr) in Ha. rewrite E in Ha. apply in_map_iff in Ha as (b & Hb & Hin).
  exists b. split; [exact Hin|]. rewrite (key_eq _ _ Hb). exact Hk.
Qed.
Lemma flag_eq (f g : bool) (P Q : Prop) : (f = true <-> P) -> (g = true <-> Q) -> (P <-> Q) -> f = g.
Proof. destruct f, g; intros H1 H2 H3; auto; exfalso; [assert (false = true) by tauto|assert (false = true) by tauto]; discriminate. Qed.
Lemma keyed_dec ks a : keyed ks a \/ ~ keyed ks a.
Proof.
  induction ks as [|k ks [IH|IH]].
  - right. intros (k & [] & _).
  - left. destruct IH as (k' & H & E). exists k'. split; [right; exact H|exact E].
  - destruct (str_eq_dec (key_of a) (s k)) as [E|E].
    + left. exists k. split; [left; reflexivity|exact E].
    + right. intros (k' & [<-|H] & E'); [contradiction|]. apply IH. exists k'. auto.
Qed.
Lemma last_says_snoc {A} ks (reads : attribute_t -> A -> Prop) d l a v : last_says ks reads d (l ++ [a]) v ->
  (keyed ks a /\ reads a v) \/ (~ keyed ks a /\ last_says ks reads d l v).
Proof.
  intros [[HF ->]|(l1 & b & l2 & E & Hk & HF & Hr)].
  - right. apply Forall_app in HF as [HF Ha]. split; [inversion Ha; assumption|]. left. auto.
  - destruct l2 as [|c l2] using rev_ind.
    + apply app_inj_tail in E as [-> ->]. left. auto.
    + clear IHl2. change (l1 ++ b :: l2 ++ [c]) with (l1 ++ (b :: l2) ++ [c]) in E. rewrite app_assoc in E.
      apply app_inj_tail in E as [-> ->]. apply Forall_app in HF as [HF Hc]. right. split; [inversion Hc; assumption|].
      right. exists l1, b, l2. auto.
Qed.
Lemma last_says_fun {A} ks (reads : attribute_t -> A -> Prop) d :
  (forall a b v w, e_attr a = e_attr b -> reads a v -> reads b w -> v = w) ->
  forall l l' v w, map e_attr l = map e_attr l' -> last_says ks reads d l v -> last_says ks reads d l' w -> v = w.
Proof.
  intros K l. induction l as [|a l IH] using rev_ind; intros l' v w E Hv Hw.
  - destruct l'; [|discriminate]. destruct Hv as [[_ ->]|(? & ? & ? & E' & _)]; [|destruct x; discriminate].
    destruct Hw as [[_ ->]|(? & ? & ? & E' & _)]; [reflexivity|destruct x; discriminate].
  - destruct l' as [|b l' _] using rev_ind; [rewrite map_app in E; destruct (map e_attr l); discriminate|].
    rewrite !map_app in E. cbn [map] in E. apply app_inj_tail in E as [E Ea].
    assert (Hk : keyed ks a <-> keyed ks b) by (unfold keyed; rewrite (key_eq _ _ Ea); reflexivity).
    apply last_says_snoc in Hv as [[H1 Hv]|[H1 Hv]]; apply last_says_snoc in Hw as [[H2 Hw]|[H2 Hw]]; try tauto.
    + eapply K; eassumption.
    + eapply IH; eassumption.
Qed.
Lemma reads_value_fun a b v w : e_attr a = e_attr b -> reads_value a v -> reads_value b w -> v = w.
Proof. unfold e_attr, reads_value. intros E -> ->. injection E as _ E. exact E. Qed.
Lemma reads_text_fun a b v w : e_attr a = e_attr b -> reads_text a v -> reads_text b w -> v = w.
Proof.
  unfold e_attr, reads_text. intros E -> ->. injection E as _ E. apply (f_equal (option_map value_to_string)) in E.
  destruct (at_value a), (at_value b); cbn in *; congruence.
Qed.
Lemma reads_nullable_fun a b v w : e_attr a = e_attr b -> reads_nullable a v -> reads_nullable b w -> v = w.
Proof.
  intros E. apply key_eq in E. unfold reads_nullable. rewrite E. intros [[H ->]|[H ->]] [[H' ->]|[H' ->]]; try reflexivity; exfalso; rewrite H in H'; discriminate.
Qed.
Lemma reads_index_fun a b v w : e_attr a = e_attr b -> reads_index_type a v -> reads_index_type b w -> v = w.
Proof.
  unfold e_attr, reads_index_type. intros E. injection E as _ E. destruct (at_value a) as [l|], (at_value b) as [l'|]; cbn in E; try discriminate.
  - injection E as E. rewrite E. intros (t & -> & H) (t' & -> & H'). rewrite <- H' in H. apply (f_equal Some).
    destruct t, t'; try reflexivity; discriminate.
  - congruence.
Qed.
Lemma reads_action_fun a b v w : e_attr a = e_attr b -> reads_action a v -> reads_action b w -> v = w.
Proof.
  unfold e_attr, reads_action. intros E. injection E as _ E. destruct (at_value a) as [[sp r l]|], (at_value b) as [[sp' r' l']|]; cbn in E; try discriminate; [|congruence].
  injection E as ->. destruct l'; try congruence. intros (t & -> & H) (t' & -> & H'). rewrite <- H' in H. apply (f_equal Some).
  destruct t, t'; try reflexivity; discriminate.
Qed.

Lemma m_cst inp inp' a b : col_settings_ok inp a -> col_settings_ok inp' b -> e_col_settings a = e_col_settings b -> z_cst a = z_cst b.
Proof.
  intros (_ & (_ & A1 & A2 & A3 & A4 & A5 & A6) & _) (_ & (_ & B1 & B2 & B3 & B4 & B5 & B6) & _) E. unfold e_col_settings in E. injection E as E1 E2.
  pose proof (fun k => has_key_eq k _ _ E1) as K1. pose proof (fun k => has_key_eq k _ _ (eq_sym E1)) as K2.
  unfold z_cst. rewrite (m_attrs _ _ E1). rewrite (map_ext2 e_inline z_inline _ _ E2 m_inline).
  f_equal.
  - eapply flag_eq; [exact A1|exact B1|]. split; intros [H|H]; eauto.
  - eapply flag_eq; [exact A2|exact B2|]. split; eauto.
  - eapply last_says_fun; [exact reads_nullable_fun|exact E1|exact A4|exact B4].
  - eapply flag_eq; [exact A3|exact B3|]. split; eauto.
  - eapply last_says_fun; [exact reads_text_fun|exact E1|exact A6|exact B6].
  - eapply last_says_fun; [exact reads_value_fun|exact E1|exact A5|exact B5].
Qed.
Lemma m_ist inp inp' a b : indexes_settings_ok inp a -> indexes_settings_ok inp' b -> map e_attr (is_attributes a) = map e_attr (is_attributes b) -> z_ist a = z_ist b.
Proof.
  intros (_ & (_ & A1 & A2 & A3 & _ & A4 & A5)) (_ & (_ & B1 & B2 & B3 & _ & B4 & B5)) E1.
  pose proof (fun k => has_key_eq k _ _ E1) as K1. pose proof (fun k => has_key_eq k _ _ (eq_sym E1)) as K2.
  unfold z_ist. rewrite (m_attrs _ _ E1). f_equal.
  - eapply last_says_fun; [exact reads_index_fun|exact E1|exact A3|exact B3].
  - eapply flag_eq; [exact A2|exact B2|]. split; eauto.
  - eapply flag_eq; [exact A1|exact B1|]. split; eauto.
  - eapply last_says_fun; [exact reads_text_fun|exact E1|exact A5|exact B5].
  - eapply last_says_fun; [exact reads_text_fun|exact E1|exact A4|exact B4].
Qed.
Lemma m_rst inp inp' a b : ref_settings_ok inp a -> ref_settings_ok inp' b -> map e_attr (rs_attributes a) = map e_attr (rs_attributes b) -> z_rst a = z_rst b.
Proof.
  intros (_ & A) (_ & B) E1. unfold ref_settings_say in A, B. destruct A as (_ & A1 & A2 & _), B as (_ & B1 & B2 & _).
  unfold z_rst. rewrite (m_attrs _ _ E1).
  assert (Eu : rs_on_update a = rs_on_update b) by (eapply last_says_fun; [exact reads_action_fun|exact E1|eassumption|eassumption]).
  assert (Ed : rs_on_delete a = rs_on_delete b) by (eapply last_says_fun; [exact reads_action_fun|exact E1|eassumption|eassumption]).
  congruence.
Qed.
Lemma m_col inp inp' a b : table_col_ok inp a -> table_col_ok inp' b -> e_col a = e_col b -> z_col a = z_col b.
Proof.
  intros (_ & _ & _ & A & _) (_ & _ & _ & B & _) E. unfold e_col in E. injection E as E1 E2 E3 E4 E5. unfold z_col.
  rewrite (m_ident _ _ E1). f_equal; [apply m_type; unfold e_type; congruence|]. eapply opt_pointwise; [exact E5|exact A|exact B|]. intros x y. apply m_cst.
Qed.
Lemma m_icol a b : e_index_col a = e_index_col b -> z_icol a = z_icol b.
Proof. destruct a, b; cbn; intros E; try discriminate; injection E as E; [rewrite (m_ident _ _ E)|rewrite (m_lit _ _ E)]; reflexivity. Qed.
Lemma m_idef inp inp' a b : indexes_def_ok inp a -> indexes_def_ok inp' b -> e_index a = e_index b -> z_idef a = z_idef b.
Proof.
  intros (_ & _ & A & _) (_ & _ & B & _) E. unfold e_index in E. injection E as E1 E2. unfold z_idef. f_equal.
  - eapply map_ext2; [exact E1|exact m_icol].
  - eapply opt_pointwise; [exact E2|exact A|exact B|]. intros x y. apply m_ist.
Qed.
Lemma m_table inp inp' a b : table_ok inp a -> table_ok inp' b -> e_table_block a = e_table_block b -> z_table a = z_table b.
Proof.
  intros (_ & _ & _ & A1 & _ & A2 & _) (_ & _ & _ & B1 & _ & B2 & _) E. unfold e_table_block in E. injection E as E1 E2 E3 E4 E5 E6 E7.
  unfold z_table, z_tid. rewrite (m_oident _ _ E1), (m_ident _ _ E2), (m_oident _ _ E3). f_equal.
  - eapply map_pointwise; [exact E5|exact A1|exact B1|]. intros x y. apply m_col.
  - eapply opt_ext2; [apply opt_list_map; exact E6|exact m_note].
  - eapply opt_pointwise; [apply opt_list_map; exact E7|exact A2|exact B2|]. intros x y (_ & Hx & _) (_ & Hy & _) E. unfold z_ib. f_equal.
    eapply map_pointwise; [exact E|exact Hx|exact Hy|]. intros d d'. apply m_idef.
  - eapply opt_ext2; [exact E4|]. intros x y E. unfold z_tst. rewrite (m_attrs _ _ E). reflexivity.
Qed.
Lemma m_enum inp inp' a b : enum_ok inp a -> enum_ok inp' b -> e_enum a = e_enum b -> z_enum a = z_enum b.
Proof.
  intros (_ & _ & A & _) (_ & _ & B & _) E. unfold e_enum in E. injection E as E1 E2 E3. unfold z_enum. rewrite (m_oident _ _ E1), (m_ident _ _ E2). f_equal.
  eapply map_pointwise; [exact E3|exact A|exact B|]. intros x y (_ & _ & Hx & _) (_ & _ & Hy & _) E. injection E as E4 E5. unfold z_ev.
  rewrite (m_ident _ _ E4). f_equal. eapply opt_pointwise; [exact E5|exact Hx|exact Hy|]. intros u v (_ & _ & Hu) (_ & _ & Hv) E. unfold z_evs.
  rewrite (m_attrs _ _ E). f_equal. eapply last_says_fun; [exact reads_text_fun|exact E|exact Hu|exact Hv].
Qed.
Lemma m_ref inp inp' a b : ref_block_ok inp a -> ref_block_ok inp' b -> e_ref a = e_ref b -> z_ref a = z_ref b.
Proof.
  intros (_ & _ & _ & _ & _ & A & _) (_ & _ & _ & _ & _ & B & _) E. unfold e_ref in E. injection E as E1 E2 E3 E4 E5 E6 E7 E8 E9. unfold z_ref.
  rewrite (m_oident _ _ E1), E2. f_equal.
  - apply m_rid. unfold e_ref_end. congruence.
  - apply m_rid. unfold e_ref_end. congruence.
  - eapply opt_pointwise; [exact E9|exact A|exact B|]. intros x y. apply m_rst.
Qed.
Lemma m_group a b : e_group a = e_group b -> z_group a = z_group b.
Proof.
  intros E. unfold e_group in E. injection E as E1 E2 E3 E4. unfold z_group. rewrite (m_ident _ _ E1). f_equal.
  - eapply opt_ext2; [apply opt_list_map; exact E3|exact m_note].
  - eapply map_ext2; [exact E4|]. intros x y E. injection E as E5 E6. unfold z_item. rewrite (m_oident _ _ E5), (m_ident _ _ E6). reflexivity.
  - eapply opt_ext2; [exact E2|]. intros x y E. unfold z_gst. rewrite (m_attrs _ _ E). reflexivity.
Qed.
Definition says_db (p : property_t) : Prop := id_str (pr_key p) = s "database_type" /\ exists n, lit_value (pr_value p) = VString n.
Lemma database_snoc l p v : database_type_says (l ++ [p]) v ->
  (says_db p /\ exists n, lit_value (pr_value p) = VString n /\ ((n = s "PostgreSQL" /\ v = Some PostgreSQL) \/ (n <> s "PostgreSQL" /\ v = Some (DbUnknown n)))) \/
  (~ says_db p /\ database_type_says l v).
Proof.
  intros [[HF ->]|(l1 & b & l2 & n & E & Hk & Hn & HF & Hr)].
  - right. apply Forall_app in HF as [HF Ha]. split; [inversion Ha; assumption|]. left. auto.
  - destruct l2 as [|c l2] using rev_ind.
    + apply app_inj_tail in E as [-> ->]. left. split; [split; [exact Hk|exists n; exact Hn]|]. exists n. auto.
    + clear IHl2. change (l1 ++ b :: l2 ++ [c]) with (l1 ++ (b :: l2) ++ [c]) in E. rewrite app_assoc in E.
      apply app_inj_tail in E as [-> ->]. apply Forall_app in HF as [HF Hc]. right. split; [inversion Hc; assumption|].
      right. exists l1, b, l2, n. auto.
Qed.
Lemma database_fun l : forall l' v w, map e_prop l = map e_prop l' -> database_type_says l v -> database_type_says l' w -> v = w.
Proof.
  induction l as [|a l IH] using rev_ind; intros l' v w E Hv Hw.
  - destruct l'; [|discriminate]. destruct Hv as [[_ ->]|(? & ? & ? & ? & E' & _)]; [|destruct x; discriminate].
    destruct Hw as [[_ ->]|(? & ? & ? & ? & E' & _)]; [reflexivity|destruct x; discriminate].
  - destruct l' as [|b l' _] using rev_ind; [rewrite map_app in E; destruct (map e_prop l); discriminate|].
    rewrite !map_app in E. cbn [map] in E. apply app_inj_tail in E as [E Ea]. injection Ea as Ek Ev.
    assert (Hk : says_db a <-> says_db b) by (unfold says_db; rewrite Ek, Ev; reflexivity).
    apply database_snoc in Hv as [[H1 (n & N1 & Hv)]|[H1 Hv]]; apply database_snoc in Hw as [[H2 (n' & N2 & Hw)]|[H2 Hw]]; try tauto.
    + assert (n = n') by congruence. subst n'. destruct Hv as [[-> ->]|[Hv ->]], Hw as [[Hw ->]|[Hw ->]]; congruence.
    + eapply IH; eassumption.
Qed.
Lemma m_project inp inp' a b : project_ok inp a -> project_ok inp' b -> e_project a = e_project b -> z_project a = z_project b.
Proof.
  intros (_ & _ & _ & _ & A & _) (_ & _ & _ & _ & B & _) E. unfold e_project in E. injection E as E1 E2 E3. unfold z_project. rewrite (m_ident _ _ E1). f_equal.
  - eapply map_ext2; [exact E2|exact m_prop].
  - eapply database_fun; [exact E2|exact A|exact B].
  - eapply opt_ext2; [apply opt_list_map; exact E3|exact m_note].
Qed.
Lemma m_block inp inp' a b : block_ok inp a -> block_ok inp' b -> e_block a = e_block b -> z_block a = z_block b.
Proof.
  destruct a, b; cbn [block_ok e_block z_block]; intros A B E; try discriminate; injection E as E; intros; f_equal.
  - eapply m_project; [exact A|exact B|]. unfold e_project. congruence.
  - eapply m_table; [exact A|exact B|]. unfold e_table_block. congruence.
  - eapply m_group. unfold e_group. congruence.
  - eapply m_note. exact E.
  - eapply m_ref; [exact A|exact B|]. unfold e_ref, e_ref_end. congruence.
  - eapply m_enum; [exact A|exact B|]. unfold e_enum. congruence.
Qed.
Lemma m_schema inp inp' x y : schema_ok inp x -> schema_ok inp' y -> meaning x = meaning y -> z_schema x = z_schema y.
Proof.
  intros (_ & _ & A & _) (_ & _ & B & _) E. unfold z_schema. f_equal. eapply map_pointwise; [exact E|exact A|exact B|]. intros a b. apply m_block.
Qed.

(** ** The same answer *)
Lemma sim_both {A B C} (R : A -> B -> Prop) (S : C -> B -> Prop) o o' p : sim R o p -> sim S o' p ->
  match o, o' with
  | Ok _, Ok _ | Panic, Panic => True
  | Err (ErSem e _), Err (ErSem e' _) => sem_kind e = sem_kind e'
  | _, _ => False
  end.
Proof. destruct o as [|[]|], p as [|[]|], o' as [|[]|]; cbn [sim]; intros H1 H2; try tauto; try congruence. Qed.

Theorem same_say t1 t2 a b : dbml_text t1 a -> dbml_text t2 b -> settle a = settle b -> (fits a <-> fits b) ->
  same_answer (parse_dbml t1) (parse_dbml t2).
Proof.
  intros H1 H2 E Hf. unfold parse_dbml.
  destruct (unchecked_reads _ _ H1) as [[F1 (x & Hx & Mx)]|[F1 (m & sp & Hx)]]; rewrite Hx;
  destruct (unchecked_reads _ _ H2) as [[F2 (y & Hy & My)]|[F2 (m' & sp' & Hy)]]; rewrite Hy; try tauto; [|exact Logic.I].
  pose proof (unchecked_ok _ _ Hx) as Kx. pose proof (unchecked_ok _ _ Hy) as Ky.
  pose proof (z_analyze _ _ Kx) as Zx. pose proof (z_analyze _ _ Ky) as Zy. assert (E' : meaning x = meaning y) by congruence.
  rewrite <- (m_schema _ _ _ _ Kx Ky E') in Zy. pose proof (sim_both _ _ _ _ _ Zx Zy) as H. cbn [bind].
  destruct (analyze x) as [|[]|], (analyze y) as [|[]|]; cbn [omap same_answer] in *; try tauto; try congruence.
Qed.
Theorem same_text t1 t2 a : dbml_text t1 a -> dbml_text t2 a -> same_answer (parse_dbml t1) (parse_dbml t2).
Proof. intros H1 H2. apply (same_say _ _ a a); tauto. Qed.

(** ** Moving and removing blocks of a text *)
Lemma settle_perm a b : Permutation a b -> Permutation (settle a) (settle b).
Proof. apply Permutation_map. Qed.
Lemma z_accept inp x : schema_ok inp x -> ((exists an, analyze x = Ok an) <-> exists an, analyze (z_schema x) = Ok an).
Proof.
  intros K. pose proof (z_analyze _ _ K) as H. destruct (analyze x) as [an|[]|], (analyze (z_schema x)) as [an'|[]|]; cbn [sim] in H; try tauto;
  split; intros [? E]; try discriminate; eauto.
Qed.
Lemma accepted_reads t a : dbml_text t a -> (is_accepted t <-> fits a /\ exists x, parse_dbml_unchecked t = Some (Ok x) /\ meaning x = settle a /\ exists an, analyze (z_schema x) = Ok an).
Proof.
  intros H. unfold is_accepted, parse_dbml. destruct (unchecked_reads _ _ H) as [[F (x & Hx & Mx)]|[F (m & sp & Hx)]]; rewrite Hx; cbn [bind].
  - pose proof (z_accept _ _ (unchecked_ok _ _ Hx)) as Z. split.
    + intros [y E]. split; [exact F|]. exists x. split; [reflexivity|]. split; [exact Mx|]. apply Z.
      destruct (analyze x) as [an| |]; try discriminate. eauto.
    + intros (_ & y & E & _ & Ha). injection E as <-. apply Z in Ha as [an ->]. exists x. reflexivity.
  - split; [intros [y E]; discriminate|tauto].
Qed.
Lemma z_blocks inp x : schema_ok inp x -> Forall (block_ok inp) (sb_blocks x).
Proof. intros (_ & _ & A & _). exact A. Qed.
Lemma perm_z inp inp' l l' : Forall (block_ok inp) l -> Forall (block_ok inp') l' ->
  Permutation (map e_block l) (map e_block l') -> Permutation (map z_block l) (map z_block l').
Proof.
  intros K K' H. apply Permutation_map_inv in H as (l'' & E & P).
  rewrite (map_pointwise e_block e_block z_block z_block _ _ _ _ E K (Permutation_Forall P K') (m_block inp inp')).
  apply Permutation_sym, Permutation_map. exact P.
Qed.
Theorem perm_text t1 t2 a b : dbml_text t1 a -> dbml_text t2 b -> Permutation a b -> is_accepted t1 -> is_accepted t2.
Proof.
  intros H1 H2 P Ha. apply (accepted_reads _ _ H1) in Ha as (F & x & Hx & Mx & Ax). apply (accepted_reads _ _ H2).
  assert (F' : fits b) by (eapply Permutation_Forall; eassumption). split; [exact F'|].
  destruct (written_is_read _ _ H2 F') as (y & Hy & My). exists y. split; [exact Hy|]. split; [exact My|].
  eapply perm_accept; [|exact Ax]. cbn [z_schema sb_blocks]. eapply perm_z; [apply (z_blocks _ _ (unchecked_ok _ _ Hy))|apply (z_blocks _ _ (unchecked_ok _ _ Hx))|].
  unfold meaning in *. rewrite Mx, My. apply Permutation_sym, settle_perm, P.
Qed.
Lemma trim_z inp inp' b a : trimmed_text b a -> forall l l', Forall (block_ok inp) l -> Forall (block_ok inp') l' ->
  map e_block l = settle a -> map e_block l' = settle b -> trimmed (map z_block l') (map z_block l).
Proof.
  induction 1 as [|c b a H IH|c b a Hr H IH]; intros l l' K K' E E'.
  - destruct l, l'; try discriminate. constructor.
  - destruct l as [|u l], l' as [|v l']; try discriminate. injection E as E1 E2. injection E' as E1' E2'. inversion K; inversion K'; subst.
    cbn [map]. rewrite (m_block inp inp' u v); [constructor; apply IH; assumption|assumption|assumption|congruence].
  - destruct l as [|u l]; try discriminate. injection E as E1 E2. inversion K; subst. cbn [map]. constructor; [|apply IH; assumption].
    destruct c, u; cbn in *; try discriminate; tauto.
Qed.
Theorem trim_text t1 t2 a b : dbml_text t1 a -> dbml_text t2 b -> trimmed_text b a -> is_accepted t1 -> is_accepted t2.
Proof.
  intros H1 H2 P Ha. apply (accepted_reads _ _ H1) in Ha as (F & x & Hx & Mx & Ax). apply (accepted_reads _ _ H2).
  assert (F' : fits b). { clear -P F. unfold fits in *. induction P; inversion F; subst; auto. } split; [exact F'|].
  destruct (written_is_read _ _ H2 F') as (y & Hy & My). exists y. split; [exact Hy|]. split; [exact My|].
  eapply trim_accept; [|exact Ax]. cbn [z_schema sb_blocks]. eapply trim_z; [exact P|apply (z_blocks _ _ (unchecked_ok _ _ Hx))|apply (z_blocks _ _ (unchecked_ok _ _ Hy))|exact Mx|exact My].
Qed.

(** ** Index definitions in another order *)
Lemma perm_pointwise {A C D} (f : A -> C) (h : A -> D) (P Q : A -> Prop) l l' : Forall P l -> Forall Q l' ->
  (forall a b, P a -> Q b -> f a = f b -> h a = h b) -> Permutation (map f l) (map f l') -> Permutation (map h l) (map h l').
Proof.
  intros K K' Hm H. apply Permutation_map_inv in H as (l'' & E & H).
  rewrite (map_pointwise f f h h _ _ _ _ E K (Permutation_Forall H K') Hm). apply Permutation_sym, Permutation_map. exact H.
Qed.
Lemma z_named d : named (z_idef d) = named d.
Proof. unfold named. cbn [z_idef idf_cols]. rewrite flat_map_concat_map, map_map, flat_map_concat_map. f_equal. apply map_ext. intros [i|e]; reflexivity. Qed.
Lemma z_def_has (P : indexes_settings_t -> Prop) d : (forall st, P (z_ist st) <-> P st) -> def_has P (z_idef d) <-> def_has P d.
Proof.
  intros H. unfold def_has. cbn [z_idef idf_settings]. destruct (idf_settings d) as [st|]; cbn [option_map].
  - split; intros (y & E & Hy); injection E as <-; eexists; (split; [reflexivity|]); apply H; exact Hy.
  - split; intros (y & E & _); discriminate.
Qed.
Lemma z_kind d k : index_kind (z_idef d) k <-> index_kind d k.
Proof. unfold index_kind. cbn [z_idef idf_settings]. destruct (idf_settings d) as [st|]; cbn [option_map]; reflexivity. Qed.
Lemma z_order_free l : order_free l -> order_free (map z_idef l).
Proof.
  intros (H1 & H2 & H3). split; [|split].
  - intros d d' Hd Hd' E K. apply in_map_iff in Hd as (u & <- & Hu), Hd' as (v & <- & Hv). rewrite !z_named in E. apply (z_kind u) in K.
    destruct (H1 u v Hu Hv E K) as [H|H]; [left; apply (z_kind v); exact H|right; intros k Hk; apply (z_kind v) in Hk; exact (H k Hk)].
  - intros d d' Hd Hd'. apply in_map_iff in Hd as (u & <- & Hu), Hd' as (v & <- & Hv). rewrite !z_named.
    unfold def_unique. rewrite !z_def_has by reflexivity. apply H2; assumption.
  - intros d d' Hd Hd'. apply in_map_iff in Hd as (u & <- & Hu), Hd' as (v & <- & Hv). rewrite !z_named. unfold def_pk. rewrite !z_def_has by reflexivity. apply H3; assumption.
Qed.
Lemma last_snoc {A} (l : list A) a : last_only (l ++ [a]) = [a].
Proof. induction l as [|b l IH]; [reflexivity|]. cbn [app last_only]. destruct l; [reflexivity|]. exact IH. Qed.
Lemma reindex_z inp inp' a b : reindexed_text a b -> forall l l', Forall (block_ok inp) l -> Forall (block_ok inp') l' ->
  map e_block l = settle a -> map e_block l' = settle b -> reindexed_blocks (map z_block l) (map z_block l').
Proof.
  induction 1 as [|c a b H IH|sc n al st cols notes pre d d' a b P H IH]; intros l l' K K' E E'.
  - destruct l, l'; try discriminate. constructor.
  - destruct l as [|u l], l' as [|v l']; try discriminate. injection E as E1 E2. injection E' as E1' E2'. inversion K; inversion K'; subst.
    cbn [map]. rewrite (m_block inp inp' u v); [constructor; apply IH; assumption|assumption|assumption|congruence].
  - destruct l as [|u l], l' as [|v l']; try discriminate. cbn [settle map] in E, E'. injection E as E1 E2. injection E' as E1' E2'.
    inversion K as [|? ? Ku Kl]; inversion K' as [|? ? Kv Kl']; subst. cbn [map].
    destruct u as [|t| | | |], v as [|t'| | | |]; cbn [e_block settle_block t_schema t_name t_alias t_settings t_cols t_notes t_indexes] in *; try discriminate.
    injection E1 as A1 A2 A3 A4 A5 A6 A7. injection E1' as B1 B2 B3 B4 B5 B6 B7. rewrite last_snoc in A7, B7.
    apply rx_table; [|apply IH; assumption]. cbn [block_ok] in *.
    destruct Ku as (_ & _ & _ & C1 & _ & C2 & _), Kv as (_ & _ & _ & D1 & _ & D2 & _).
    destruct (tb_indexes t) as [ib|] eqn:Et; [|discriminate]. destruct (tb_indexes t') as [ib'|] eqn:Et'; [|discriminate].
    cbn [opt_list] in A7, B7. injection A7 as A7. injection B7 as B7. unfold reindexed. cbn [z_table tb_indexes tb_ident tb_cols tb_settings].
    exists (z_ib ib), (z_ib ib'). rewrite Et, Et'. split; [reflexivity|]. split; [reflexivity|]. split.
    + destruct C2 as (_ & C2 & _), D2 as (_ & D2 & _). cbn [z_ib ib_defs]. eapply (perm_pointwise e_index z_idef); [exact C2|exact D2| |].
      * intros x y. apply m_idef.
      * rewrite A7, B7. exact P.
    + split; [|split].
      * unfold z_tid. f_equal; [apply m_ident; congruence| |]; apply m_oident; congruence.
      * symmetry. eapply (map_pointwise e_col e_col z_col z_col); [|exact C1|exact D1|intros x y; apply m_col]. congruence.
      * eapply opt_ext2; [rewrite B4; symmetry; exact A4|]. intros x y E. unfold z_tst. rewrite (m_attrs _ _ E). reflexivity.
Qed.
Theorem reindex_text t1 t2 a b x : dbml_text t1 a -> dbml_text t2 b -> reindexed_text a b -> parse_dbml t1 = Some (Ok x) ->
  (forall t ib, In t (tables x) -> tb_indexes t = Some ib -> order_free (ib_defs ib)) -> is_accepted t2.
Proof.
  intros H1 H2 P Ha Ho. assert (Ha' : is_accepted t1) by (exists x; exact Ha). apply (accepted_reads _ _ H1) in Ha' as (F & x' & Hx & Mx & Ax).
  assert (x' = x) as ->. { unfold parse_dbml in Ha. rewrite Hx in Ha. cbn [bind] in Ha. destruct (analyze x'); cbn in Ha; congruence. }
  apply (accepted_reads _ _ H2).
  assert (F' : fits b).
  { clear -P F. unfold fits in *. induction P as [|x a b P IH|sc n al st cols notes pre l l' a b Hp P IH]; inversion F as [|? ? F1 F2]; subst; constructor; auto.
    cbn in F1 |- *. destruct F1 as (G1 & G2 & G3). split; [exact G1|]. split; [exact G2|]. apply Forall_app in G3 as [G3 G4]. apply Forall_app. split; [exact G3|].
    inversion G4; subst. constructor; [|constructor]. eapply Permutation_Forall; eassumption. }
  split; [exact F'|].
  destruct (written_is_read _ _ H2 F') as (y & Hy & My). exists y. split; [exact Hy|]. split; [exact My|].
  eapply reindex_accept; [|  |exact Ax].
  - cbn [z_schema sb_blocks]. eapply reindex_z; [exact P|apply (z_blocks _ _ (unchecked_ok _ _ Hx))|apply (z_blocks _ _ (unchecked_ok _ _ Hy))|exact Mx|exact My].
  - rewrite z_tables. intros t ib Ht Ei. apply in_map_iff in Ht as (u & <- & Hu). cbn [z_table tb_indexes] in Ei.
    destruct (tb_indexes u) as [jb|] eqn:Eu; [|discriminate]. injection Ei as <-. apply z_order_free. eapply Ho; eassumption.
Qed.
