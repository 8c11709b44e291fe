(** * CharsLoc: the AST of a text with characters without a meaning replaced. *)

From Verif Require Import SynMain LocErase LocMain ShowOk MessageOk.
From Verif Require Export CharsOk CharsMain.
From Verif Require Export Located.
From Verif Require Import Syntax CharsAst.

Section Spell.
Variable f : char -> char.
Variable inp : str.
Hypothesis Hf : respells f.
Hypothesis Hu : forall c, ulen (f c) = ulen c.
Notation inp' := (map f inp).
Notation M := (map f).
Notation gr := (fun c d => d = f c).
Local Instance gg : good gr := good_graph f Hf.

Lemma blen_m x : blen (M x) = blen x.
Proof. induction x as [|c x IH]; [reflexivity|]. cbn [map blen]. rewrite Hu, IH. reflexivity. Qed.
Lemma span_m i m : span inp' (M i) (M m) = span inp i m.
Proof. unfold span, pos. rewrite !blen_m. reflexivity. Qed.
Lemma m_id x : Forall special x -> M x = x.
Proof. intros H. exact (e_nonl (G := gg) _ _ H (graph_str f x)). Qed.
Lemma m_s x : Forall special (s x) -> M (s x) = s x.
Proof. apply m_id. Qed.
Lemma m_lay i r : lay i r -> lay (M i) (M r).
Proof. intros H. destruct (e_lay (G := gg) _ _ _ H (graph_str f i)) as (r' & H1 & H2). rewrite (g_str _ _ _ H2) in H1. exact H1. Qed.
Lemma m_tok w i r : Forall special w -> tok w i r -> tok w (M i) (M r).
Proof. intros Hw H. destruct (e_tok (G := gg) _ _ _ _ Hw H (graph_str f i)) as (r' & H1 & H2). rewrite (g_str _ _ _ H2) in H1. exact H1. Qed.
Lemma m_kw k i r : Forall special (s k) -> kw k i r -> kw k (M i) (M r).
Proof. intros Hw H. destruct (e_kw (G := gg) _ _ _ _ Hw H (graph_str f i)) as (r' & H1 & H2). rewrite (g_str _ _ _ H2) in H1. exact H1. Qed.
(** A word of special characters is the image of itself only. *)
Lemma m_back w x : Forall special w -> M x = w -> x = w.
Proof. intros Hw H. pose proof (graph_str f x) as G0. rewrite H in G0. apply e_sym in G0. symmetry in G0 || idtac. exact (e_nonl (R := back gr) _ _ Hw G0). Qed.

Definition mvs {A} (R R' : reader A) (sh : A -> A) : Prop := forall i m x, R i m x -> R' (M i) (M m) (sh x).
Lemma mv_next {A} (R R' : reader A) sh : mvs R R' sh -> mvs (next R) (next R') sh.
Proof. intros H i r x (m & Hx & Hl). exists (M m). split; [apply H; exact Hx|apply m_lay; exact Hl]. Qed.
Lemma mv_commas {A} (R R' : reader A) sh : mvs R R' sh -> mvs (commas R) (commas R') (map sh).
Proof.
  intros H i r l Hl. induction Hl as [i r a Ha|i m m' r a l Ha Ht Hl IH]; cbn [map].
  - constructor. apply H. exact Ha.
  - econstructor; [apply H; exact Ha|apply m_tok; [nnl|exact Ht]|exact IH].
Qed.
Lemma mv_many {A} (R R' : reader A) sh : mvs R R' sh -> mvs (many R) (many R') (map sh).
Proof.
  intros H i r l Hl. induction Hl as [i|i m r a l Ha Hl IH]; cbn [map]; [constructor|]. econstructor; [apply H; exact Ha|exact IH].
Qed.
Lemma mv_maybe {A} (R R' : reader A) sh : mvs R R' sh -> mvs (maybe R) (maybe R') (option_map sh).
Proof. intros H i r o [i0|i0 r0 a Ha]; cbn [option_map]; constructor. apply H. exact Ha. Qed.
Lemma mv_list {A} op cl (R R' : reader A) sh : Forall special (s op) -> Forall special (s cl) -> mvs R R' sh -> mvs (list_at op cl R) (list_at op cl R') (map sh).
Proof.
  intros Ho Hc H i m l [i0 m0 Ht|i0 m1 m0 l0 Ht Hl].
  - apply m_tok in Ht; [|exact Ho]. rewrite map_app, (m_id _ Hc) in Ht. constructor. exact Ht.
  - apply m_tok in Ht; [|exact Ho]. apply (mv_commas _ _ _ (mv_next _ _ _ H)) in Hl. rewrite map_app, (m_id _ Hc) in Hl. econstructor; eassumption.
Qed.
Lemma mv_braces {A} (R R' : reader A) sh : mvs R R' sh -> mvs (braces_at R) (braces_at R') (map sh).
Proof.
  intros H i m l (m1 & Ht & Hl). apply m_tok in Ht; [|nnl]. apply (mv_many _ _ _ (mv_next _ _ _ H)) in Hl. rewrite map_app, (m_id (s "}")) in Hl by nnl.
  exists (M m1). auto.
Qed.
Lemma mv_tail {A B} (R R' : reader A) (O O' : reader B) sh sho i m a o : mvs R R' sh -> mvs O O' sho -> tail_at R O i m a o ->
  tail_at R' O' (M i) (M m) (sh a) (option_map sho o).
Proof.
  intros HR HO [i0 m0 a0 Ha|i0 m1 m0 a0 b Ha Hb]; cbn [option_map].
  - constructor. apply (mv_next _ _ _ HR). exact Ha.
  - econstructor; [apply (mv_next _ _ _ HR); exact Ha|apply HO; exact Hb].
Qed.

(** ** Words and literals *)
Lemma m_no_word m : no_word m -> no_word (M m).
Proof. apply (e_no_word (G := gg)), graph_str. Qed.
Lemma m_no_phrase m : no_phrase m -> no_phrase (M m).
Proof. apply (e_no_phrase (G := gg)), graph_str. Qed.
Lemma m_no_digit m : no_digit m -> no_digit (M m).
Proof. apply (e_no_digit (G := gg)), graph_str. Qed.
Lemma m_closes q v : Forall special q -> closes_first q v -> closes_first q (M v).
Proof. intros Hq. apply (e_closes (G := gg)); [exact Hq|apply graph_str]. Qed.
Lemma mv_plain : mvs plain_at plain_at M.
Proof. intros i m w (-> & Hw & Hn). rewrite map_app, (m_id w (word_nn _ Hw)). split; [reflexivity|]. split; [exact Hw|apply m_no_word; exact Hn]. Qed.
Lemma mv_phrase : mvs phrase_at phrase_at M.
Proof. intros i m w (-> & Hw & Hn). rewrite map_app, (m_id w (spaced_nn _ Hw)). split; [reflexivity|]. split; [exact Hw|apply m_no_phrase; exact Hn]. Qed.
Lemma mv_quote q : Forall special q -> mvs (quote_at q) (quote_at q) M.
Proof.
  intros Hq i m v (i' & -> & Hl & Hc). exists (M i'). rewrite map_app, (m_id q Hq). split; [reflexivity|]. apply m_lay in Hl. rewrite !map_app, (m_id q Hq) in Hl.
  split; [exact Hl|apply m_closes; assumption].
Qed.
Lemma mv_text : mvs text_at text_at M.
Proof. intros i m v [H|H]; [left|right]; (apply mv_quote; [nnl|exact H]). Qed.
Lemma mv_value : mvs value_at value_at (r_value f).
Proof.
  intros i m v [i0 m0 v0 H|i0 m0 v0 H|m0|m0|m0|d m0 Hd H1 H2|d1 d2 m0 f0 Hd H1 H2 H3|h m0 Hh Hl|h m0 Hh Hl H]; cbn [r_value].
  - constructor. apply mv_text. exact H.
  - apply va_expr. apply mv_quote; [nnl|exact H].
  - rewrite map_app, (m_id (s "true")) by nnl. apply va_true.
  - rewrite map_app, (m_id (s "false")) by nnl. apply va_false.
  - rewrite map_app, (m_id (s "null")) by nnl. apply va_null.
  - rewrite map_app, (m_id d) by (apply digit_nn, Hd). apply va_int; [exact Hd|apply m_no_digit; exact H1|].
    intros m' E0. destruct m0 as [|c m0]; [discriminate|]. cbn in E0. injection E0 as E1 E2. apply (H2 m0). change (c :: m0 = [46] ++ m0). 
    assert (E3 : [c] = [46]) by (apply m_back; [nnl|cbn; rewrite E1; reflexivity]). injection E3 as ->. reflexivity.
  - rewrite !map_app, (m_id d1) by (apply digit_nn, Hd). rewrite (m_id (s ".")) by nnl. rewrite (m_id d2) by (apply digit_nn, H1).
    apply va_dec; [exact Hd|exact H1|apply m_no_digit; exact H2|exact H3].
  - rewrite !map_app, (m_id (s "#")) by nnl. rewrite (m_id h) by (apply hex_nn, Hh). apply va_hex6; assumption.
  - rewrite !map_app, (m_id (s "#")) by nnl. rewrite (m_id h) by (apply hex_nn, Hh). apply va_hex3; [assumption..|].
    intros h' m' E0 Hl' Hh'. symmetry in E0. pose proof (graph_str f m0) as G0. rewrite <- E0 in G0. apply e_sym in G0.
    apply (e_word (R := back gr)) in G0 as (z & -> & _); [|apply hex_nn; exact Hh']. exact (H h' z eq_refl Hl' Hh').
Qed.
Lemma mv_bare : mvs bare_at bare_at (r_value f).
Proof. intros i m v (w & Hw & Hn & ->). exists w. assert (Hs : spaced_word w) by apply Hw. apply mv_phrase in Hw. cbn [r_value]. rewrite (m_id w (spaced_nn _ Hs)) in *. auto. Qed.
Lemma mv_string q : Forall special q -> mvs (string_at q) (string_at q) (r_value f).
Proof. intros Hq i m v (w & Hw & ->). exists (M w). split; [apply mv_quote; assumption|reflexivity]. Qed.
Lemma mv_note_text : mvs note_text_at note_text_at (r_value f).
Proof. intros i m v [H|H]; [left|right]; (apply mv_string; [nnl|exact H]). Qed.
Lemma mv_plain_value : mvs plain_value_at plain_value_at (r_value f).
Proof. intros i m v [H|H]; [left; apply mv_value|right; apply mv_bare]; exact H. Qed.
Lemma mv_attr_value : mvs attr_value_at attr_value_at (r_value f).
Proof. intros i m v [H|H]; [left; apply mv_plain_value|right; apply mv_string; [nnl|]]; exact H. Qed.
Lemma mv_ident : mvs (ident_at inp) (ident_at inp') (sp_ident f).
Proof.
  intros i m x (E1 & E2 & H). split; [cbn [sp_ident id_raw]; rewrite E1, map_app; f_equal; rewrite <- E1; reflexivity|]. split; [cbn [sp_ident id_span]; rewrite span_m; exact E2|].
  cbn [sp_ident id_str]. destruct H as [H|H]; [left; apply mv_plain; exact H|right; apply mv_quote; [nnl|exact H]].
Qed.
Lemma mv_key : mvs (key_at inp) (key_at inp') (sp_ident f).
Proof.
  intros i m x (E1 & E2 & H). split; [cbn [sp_ident id_raw]; rewrite E1, map_app; reflexivity|]. split; [cbn [sp_ident id_span]; rewrite span_m; exact E2|].
  cbn [sp_ident id_str]. apply mv_phrase. exact H.
Qed.
Lemma fits_m v : fits_value v -> fits_value (r_value f v).
Proof. destruct v; exact (fun H => H). Qed.
Lemma mv_lit (R : reader value_t) : mvs R R (r_value f) -> mvs (lit inp R) (lit inp' R) (sp_lit f).
Proof.
  intros H i m x (E1 & E2 & H1 & H2). split; [cbn [sp_lit lit_raw]; rewrite E1, map_app; reflexivity|]. split; [cbn [sp_lit lit_span]; rewrite span_m; exact E2|].
  split; [apply H; exact H1|apply fits_m; exact H2].
Qed.

(** ** Settings *)
Ltac go := cbn; rewrite <- ?span_m.
Lemma mv_attribute : mvs (attribute_at inp) (attribute_at inp') (sp_attr f).
Proof.
  intros i m x [i0 m0 k Hk|i0 m1 m2 m0 k v Hk Ht Hv]; unfold sp_attr; cbn [at_span at_key at_value option_map]; rewrite <- span_m.
  - constructor. apply (mv_next _ _ _ mv_key). exact Hk.
  - econstructor; [apply (mv_next _ _ _ mv_key); exact Hk|apply m_tok; [nnl|exact Ht]|apply (mv_lit _ mv_attr_value); exact Hv].
Qed.
Lemma mv_attributes : mvs (attributes_at inp) (attributes_at inp') (map (sp_attr f)).
Proof. apply mv_list; [nnl|nnl|apply mv_attribute]. Qed.

Lemma key_m a k : Forall special (s k) -> (key_of (sp_attr f a) = s k <-> key_of a = s k).
Proof.
  intros Hk. unfold key_of. cbn [sp_attr at_key sp_ident id_str]. split; [apply m_back; exact Hk|]. intros ->. apply m_id. exact Hk.
Qed.
Lemma has_key_m k l : Forall special (s k) -> (has_key k (map (sp_attr f) l) <-> has_key k l).
Proof.
  intros Hk. unfold has_key. split.
  - intros (a & Ha & E0). apply in_map_iff in Ha as (b & <- & Hb). exists b. split; [exact Hb|]. apply (key_m b k Hk). exact E0.
  - intros (a & Ha & E0). exists (sp_attr f a). split; [apply in_map; exact Ha|apply (key_m a k Hk); exact E0].
Qed.
Lemma keyed_m ks a : Forall (fun k => Forall special (s k)) ks -> (keyed ks (sp_attr f a) <-> keyed ks a).
Proof.
  intros Hk. rewrite Forall_forall in Hk. unfold keyed. split; intros (k & Hi & E0); exists k; (split; [exact Hi|]); apply (key_m a k (Hk k Hi)); exact E0.
Qed.
Lemma last_says_m {A} ks (h : A -> A) (rd : attribute_t -> A -> Prop) dflt l v : Forall (fun k => Forall special (s k)) ks -> h dflt = dflt -> (forall a v, rd a v -> rd (sp_attr f a) (h v)) ->
  last_says ks rd dflt l v -> last_says ks rd dflt (map (sp_attr f) l) (h v).
Proof.
  intros Hk Hd H. assert (HN : forall l, Forall (fun a => ~ keyed ks a) l -> Forall (fun a => ~ keyed ks a) (map (sp_attr f) l)).
  { intros l0 H0. apply Forall_map. eapply Forall_impl; [|exact H0]. intros a Ha K. apply Ha. apply (keyed_m ks a Hk). exact K. }
  intros [[H1 ->]|(l1 & a & l2 & -> & H1 & H2 & H3)].
  - left. split; [apply HN; exact H1|exact Hd].
  - right. exists (map (sp_attr f) l1), (sp_attr f a), (map (sp_attr f) l2). rewrite map_app. split; [reflexivity|]. split; [apply (keyed_m ks a Hk); exact H1|].
    split; [apply HN; exact H2|apply H; exact H3].
Qed.
Lemma show_nn v : Forall special (f64_to_string v).
Proof.
  destruct v as [m e|]; [|nnl]. unfold f64_to_string. destruct (m =? 0); [nnl|]. destruct (shortest _ _ _ _ _) as [d k]. destruct (strip_zeros _ _ _) as [d' k'].
  destruct (show_ok d' k') as (d1 & d2 & [_ H1] & H2 & [[-> _]|[_ ->]] & _); [apply digit_nn; exact H1|].
  apply Forall_app. split; [apply digit_nn; exact H1|]. apply Forall_app. split; [nnl|apply digit_nn; exact H2].
Qed.
Lemma text_m v : value_to_string (r_value f v) = M (value_to_string v).
Proof.
  destruct v as [x|x|z|d|[]|x|x|]; cbn [r_value value_to_string]; try reflexivity; symmetry; apply m_id; [|apply show_nn|nnl..].
  destruct z as [|p|p]; cbn [dec_of_Z]; [nnl|apply digit_nn, dec_of_N_ok|]. apply Forall_app. split; [nnl|apply digit_nn, dec_of_N_ok].
Qed.
Lemma reads_text_m a v : reads_text a v -> reads_text (sp_attr f a) (option_map M v).
Proof. unfold reads_text. intros ->. cbn [sp_attr at_value]. destruct (at_value a) as [l|]; [|reflexivity]. cbn. rewrite text_m. reflexivity. Qed.
Lemma reads_value_m a v : reads_value a v -> reads_value (sp_attr f a) (option_map (r_value f) v).
Proof. unfold reads_value. intros ->. cbn [sp_attr at_value]. destruct (at_value a); reflexivity. Qed.
Lemma reads_nullable_m a v : reads_nullable a v -> reads_nullable (sp_attr f a) v.
Proof. intros [[H ->]|[H ->]]; [left|right]; (split; [|reflexivity]); [apply (key_m a "null")|apply (key_m a "not null")]; try nnl; exact H. Qed.
Lemma reads_index_m a v : reads_index_type a v -> reads_index_type (sp_attr f a) v.
Proof.
  unfold reads_index_type. cbn [sp_attr at_value]. destruct (at_value a) as [l|]; [|exact (fun H => H)]. cbn [option_map]. intros (t & -> & E0). exists t. split; [reflexivity|].
  cbn [sp_lit lit_value]. rewrite text_m, <- E0. symmetry. apply m_id. destruct t; nnl.
Qed.
Lemma reads_action_m a v : reads_action a v -> reads_action (sp_attr f a) v.
Proof.
  unfold reads_action. cbn [sp_attr at_value]. destruct (at_value a) as [[? ? []]|]; try exact (fun H => H). cbn. intros (y & -> & <-). exists y. split; [reflexivity|]. symmetry. apply m_id. destruct y; nnl.
Qed.
Ltac keys := repeat (constructor; [nnl|]); constructor.
Lemma col_say_m l x : col_settings_say l x -> col_settings_say (map (sp_attr f) l) (sp_col_settings f x).
Proof.
  intros (<- & H1 & H2 & H3 & H4 & H5 & H6). unfold col_settings_say, sp_col_settings.
  cbn [cs_attributes cs_is_pk cs_is_unique cs_is_incremental cs_nullable cs_default cs_note].
  rewrite !has_key_m by nnl. split; [reflexivity|]. split; [exact H1|]. split; [exact H2|]. split; [exact H3|].
  split; [apply (last_says_m _ (fun x => x)); [keys|reflexivity|apply reads_nullable_m|exact H4]|].
  split; [apply last_says_m; [keys|reflexivity|apply reads_value_m|exact H5]|].
  apply last_says_m; [keys|reflexivity|apply reads_text_m|exact H6].
Qed.
Lemma index_say_m l x : index_settings_say l x -> index_settings_say (map (sp_attr f) l) (sp_index_settings f x).
Proof.
  intros (<- & H1 & H2 & H3 & H4 & H5 & H6). unfold index_settings_say, sp_index_settings.
  cbn [is_attributes is_is_pk is_is_unique is_type is_name is_note].
  rewrite !has_key_m by nnl. split; [reflexivity|]. split; [exact H1|]. split; [exact H2|].
  split; [apply (last_says_m _ (fun x => x)); [keys|reflexivity|apply reads_index_m|exact H3]|].
  split; [apply Forall_map; eapply Forall_impl; [|exact H4]; intros a Ha Hk; apply (proj1 (key_m a "type" ltac:(nnl))) in Hk; destruct (Ha Hk) as (v & Hv); exists v; apply reads_index_m; exact Hv|].
  split; (apply last_says_m; [keys|reflexivity|apply reads_text_m|assumption]).
Qed.
Lemma enum_say_m l x : enum_settings_say l x -> enum_settings_say (map (sp_attr f) l) (sp_enum_settings f x).
Proof. intros (<- & H). split; [reflexivity|]. cbn [sp_enum_settings evs_note]. apply last_says_m; [keys|reflexivity|apply reads_text_m|exact H]. Qed.
Lemma ref_say_m l x : ref_settings_say l x -> ref_settings_say (map (sp_attr f) l) (sp_ref_settings f x).
Proof.
  intros (<- & H1 & H2 & H3). split; [reflexivity|]. cbn [sp_ref_settings rs_on_update rs_on_delete].
  split; [apply (last_says_m _ (fun x => x)); [keys|reflexivity|apply reads_action_m|exact H1]|]. split; [apply (last_says_m _ (fun x => x)); [keys|reflexivity|apply reads_action_m|exact H2]|].
  apply Forall_map. eapply Forall_impl; [|exact H3]. intros a Ha Hk. apply (proj1 (keyed_m ["update"; "delete"]%string a ltac:(keys))) in Hk. destruct (Ha Hk) as (v & Hv). exists v. apply reads_action_m. exact Hv.
Qed.
Lemma db_says_m l v : database_type_says l v -> database_type_says (map (sp_prop f) l) (option_map (sp_database f) v).
Proof.
  unfold database_type_says. set (says := fun p : property_t => id_str (pr_key p) = s "database_type" /\ exists n, lit_value (pr_value p) = VString n).
  assert (HS : forall p, says (sp_prop f p) -> says p).
  { intros p [K1 (n & K2)]. split; [apply m_back; [nnl|exact K1]|]. cbn [sp_prop pr_value sp_lit lit_value] in K2. destruct (lit_value (pr_value p)); try discriminate K2. eauto. }
  assert (HN : forall l, Forall (fun p => ~ says p) l -> Forall (fun p => ~ says p) (map (sp_prop f) l)).
  { intros l0 H0. apply Forall_map. eapply Forall_impl; [|exact H0]. intros a Ha K. apply Ha, HS, K. }
  intros [[H1 ->]|(l1 & p & l2 & n & -> & H1 & H2 & H3 & H4)].
  - left. split; [apply HN; exact H1|reflexivity].
  - right. exists (map (sp_prop f) l1), (sp_prop f p), (map (sp_prop f) l2), (M n). rewrite map_app. split; [reflexivity|].
    split; [cbn; rewrite H1; apply m_id; nnl|]. split; [cbn; rewrite H2; reflexivity|]. split; [apply HN; exact H3|].
    destruct H4 as [[-> ->]|[H4 ->]]; [left; split; [apply m_id; nnl|reflexivity]|right]. split; [|reflexivity]. intros E0. apply H4. apply m_back; [nnl|exact E0].
Qed.

Lemma mv_setting {A} (sh : A -> A) (R R' : reader A) (at_ : A -> list attribute_t) (sp : A -> range) (Q : A -> Prop) :
  (forall i m x, R i m x -> sp x = span inp i m /\ attributes_at inp i m (at_ x) /\ Q x) ->
  (forall i m x, sp x = span inp' i m -> attributes_at inp' i m (at_ x) -> Q x -> R' i m x) ->
  (forall x, sp (sh x) = sp x) -> (forall x, at_ (sh x) = map (sp_attr f) (at_ x)) -> (forall x, Q x -> Q (sh x)) -> mvs R R' sh.
Proof.
  intros H1 H2 H3 H4 H5 i m x Hx. apply H1 in Hx as (E1 & H & HQ). apply mv_attributes in H.
  apply H2; [|rewrite H4; exact H|apply H5; exact HQ]. rewrite H3, E1, span_m. reflexivity.
Qed.

Lemma mv_table_settings : mvs (table_settings_at inp) (table_settings_at inp') (sp_table_settings f).
Proof. apply (mv_setting _ _ _ ts_attributes ts_span (fun _ => True)); unfold table_settings_at; try tauto; reflexivity. Qed.
Lemma mv_group_settings : mvs (group_settings_at inp) (group_settings_at inp') (sp_group_settings f).
Proof. apply (mv_setting _ _ _ gs_attributes gs_span (fun _ => True)); unfold group_settings_at; try tauto; reflexivity. Qed.
Lemma mv_enum_settings : mvs (enum_settings_at inp) (enum_settings_at inp') (sp_enum_settings f).
Proof.
  apply (mv_setting _ _ _ evs_attributes evs_span (fun x => enum_settings_say (evs_attributes x) x)); unfold enum_settings_at; try tauto; try reflexivity.
  intros x. apply enum_say_m.
Qed.
Lemma mv_ref_settings : mvs (ref_settings_at inp) (ref_settings_at inp') (sp_ref_settings f).
Proof.
  apply (mv_setting _ _ _ rs_attributes rs_span (fun x => ref_settings_say (rs_attributes x) x)); unfold ref_settings_at; try tauto; try reflexivity.
  intros x. apply ref_say_m.
Qed.
Lemma mv_index_settings : mvs (index_settings_at inp) (index_settings_at inp') (sp_index_settings f).
Proof.
  apply (mv_setting _ _ _ is_attributes is_span (fun x => index_settings_say (is_attributes x) x)); unfold index_settings_at; try tauto; try reflexivity.
  intros x. apply index_say_m.
Qed.

(** ** References *)
Definition sp_decl (d : option ident_t * ident_t) : option ident_t * ident_t := (option_map (sp_ident f) (fst d), sp_ident f (snd d)).
Ltac mt := repeat match goal with
  | H : tok ?w ?i ?m |- _ => is_var i; apply (m_tok w) in H; [|nnl]
  | H : kw ?w ?i ?m |- _ => is_var i; apply (m_kw w) in H; [|nnl]
  | H : lay ?i ?m |- _ => is_var i; apply m_lay in H
  end.
Ltac cl w := rewrite ?map_app, ?(m_id (s w)) in * by nnl.
Lemma mv_decl : mvs (decl_at inp) (decl_at inp') sp_decl.
Proof.
  intros i m x [i0 m0 n Hn|i0 m1 m2 m0 sc n Hs Ht Hn]; mt.
  - constructor. apply (mv_next _ _ _ mv_ident). exact Hn.
  - econstructor; [apply (mv_next _ _ _ mv_ident); exact Hs|exact Ht|apply mv_ident; exact Hn].
Qed.
Lemma mv_columns : mvs (columns_at inp) (columns_at inp') (map (sp_ident f)).
Proof.
  intros i m x [i0 m0 c Hc|i0 m1 m0 l Ht Hl]; mt.
  - constructor. apply mv_ident. exact Hc.
  - apply (mv_commas _ _ _ (mv_next _ _ _ mv_ident)) in Hl. cl ")"%string. econstructor; eassumption.
Qed.
Lemma mv_endpoint : mvs (endpoint_at inp) (endpoint_at inp') (sp_end f).
Proof.
  intros i m x [i0 m1 m2 m0 t l H1 H2 H3|i0 m1 m2 m3 m4 m0 sc t l H1 H2 H3 H4 H5]; mt; unfold sp_end; cbn; rewrite <- span_m.
  - econstructor; [apply (mv_next _ _ _ mv_ident); exact H1|exact H2|apply mv_columns; exact H3].
  - eapply endpoint_schema; [apply (mv_next _ _ _ mv_ident); exact H1|exact H2|apply (mv_next _ _ _ mv_ident); exact H3|exact H4|apply mv_columns; exact H5].
Qed.
Lemma mv_rel : mvs rel_at rel_at (fun x => x).
Proof.
  intros i m x (t & E0 & ->). exists t. split; [exact E0|]. rewrite map_app. f_equal. apply m_id. destruct x; cbn in E0; try discriminate; injection E0 as <-; nnl.
Qed.
Lemma mv_inline : mvs (inline_at inp) (inline_at inp') (sp_inline f).
Proof.
  intros i m x [i0 m1 m2 m3 m0 y e H1 H2 H3 H4]. mt. unfold sp_inline. cbn. rewrite <- span_m.
  econstructor; [exact H1|exact H2|apply (mv_next _ _ _ mv_rel); exact H3|apply mv_endpoint; exact H4].
Qed.
Lemma mv_stmt n : mvs (stmt_at inp n) (stmt_at inp' (option_map (sp_ident f) n)) (sp_ref f).
Proof.
  intros i m x [i0 m1 m2 m0 y a b st H1 H2 H3]. unfold sp_ref. cbn. rewrite <- span_m.
  econstructor; [apply (mv_next _ _ _ mv_endpoint); exact H1|apply (mv_next _ _ _ mv_rel); exact H2|exact (mv_tail _ _ _ _ _ _ _ _ _ _ mv_endpoint mv_ref_settings H3)].
Qed.
Lemma mv_reference : mvs (reference_at inp) (reference_at inp') (sp_ref f).
Proof.
  intros i m x [i0 m1 m2 m3 m0 n r H1 H2 H3 H4|i0 m1 m2 m3 m0 n r H1 H2 H3 H4]; mt; apply (mv_maybe _ _ _ (mv_next _ _ _ mv_ident)) in H2.
  - econstructor; [exact H1|exact H2|exact H3|apply mv_stmt; exact H4].
  - apply (mv_next _ _ _ (mv_stmt n)) in H4. cl "}"%string. eapply reference_braces; eassumption.
Qed.
Lemma mv_note : mvs (note_at inp) (note_at inp') (sp_note f).
Proof.
  intros i m x [i0 m1 m2 m0 v H1 H2 H3|i0 m1 m2 m0 v H1 H2 H3]; mt; unfold sp_note; cbn; rewrite <- span_m.
  - econstructor; [exact H1|exact H2|apply (mv_lit _ mv_note_text); exact H3].
  - apply (mv_next _ _ _ (mv_lit _ mv_note_text)) in H3. cl "}"%string. eapply note_braces_at; eassumption.
Qed.

(** ** Tables *)
Lemma m_verbatim q raw v : Forall special q -> quoted_verbatim q raw v -> quoted_verbatim q (M raw) (M v).
Proof. intros Hq [-> H]. split; [rewrite !map_app, (m_id q Hq); reflexivity|apply m_closes; assumption]. Qed.
Lemma mv_type : mvs (type_at inp) (type_at inp') (sp_type f).
Proof.
  intros i m x (E1 & E2 & H1 & H2 & H3 & H4). unfold type_at. cbn [sp_type ct_raw ct_span]. rewrite span_m. split; [rewrite E1, map_app; reflexivity|]. split; [exact E2|].
  split; [|split; [|split]].
  - destruct (e_type_raw (G := gg) _ _ _ H1 (graph_str f _)) as (ty & K1 & K2). apply g_type in K2. rewrite K2 in K1.
    assert (K : exists w, ct_type_name x = CT_Raw w) by (change (ct_type_name x) with (y_name (e_type x)); clear - H1; revert H1; generalize (ct_raw x) (e_type x); intros r0 t0 H1; destruct H1; cbn; eauto). destruct K as [w K].
    replace (e_type (sp_type f x)) with (r_type f (e_type x)); [exact K1|]. unfold e_type, r_type, sp_type. cbn. rewrite K. reflexivity.
  - intros y d Ey Hy. apply m_no_word. assert (B : exists y', ct_raw x = y' ++ [d]).
    { pose proof (graph_str f (ct_raw x)) as G0. rewrite Ey in G0. apply e_sym in G0. apply e_split in G0 as (y' & w & Ew & _ & K). 
      apply (e_nonl (R := back gr)) in K as ->; [|constructor; [apply wc_nn; exact Hy|constructor]]. eauto. }
    destruct B as (y' & Ey'). exact (H2 y' d Ey' Hy).
  - intros d y Hd Ey. pose proof (graph_str f m) as G0. rewrite Ey in G0. apply e_sym in G0. apply (e_word (R := back gr)) in G0 as (w & -> & G0); [|nnl].
    apply (e_word (R := back gr)) in G0 as (w2 & -> & G0); [|apply digit_nn, Hd]. apply (e_word (R := back gr)) in G0 as (w3 & -> & _); [|nnl]. exact (H3 d w3 Hd eq_refl).
  - destruct H4 as [K1 K2]. split; [|exact K2]. apply Forall_map. eapply Forall_impl; [|exact K1]. exact fits_m.
Qed.
Definition sp_col_item (x : col_item_t) : col_item_t :=
  match x with ColAttr a => ColAttr (sp_attr f a) | ColRef r => ColRef (sp_inline f r) end.
Lemma mv_col_item : mvs (col_item_at inp) (col_item_at inp') sp_col_item.
Proof. intros i m [a|r] H; cbn [col_item_at sp_col_item] in *; [apply mv_attribute|apply mv_inline]; assumption. Qed.
Lemma pick_map {A B C D} (m : A -> C) (h : B -> D) (p : A -> option B) (q : C -> option D) l : (forall a, q (m a) = option_map h (p a)) ->
  pick q (map m l) = map h (pick p l).
Proof. intros H. unfold pick. induction l as [|a l IH]; [reflexivity|]. cbn [map flat_map]. rewrite map_app, H, IH. destruct (p a); reflexivity. Qed.
Lemma mv_col_settings : mvs (col_settings_at inp) (col_settings_at inp') (sp_col_settings f).
Proof.
  intros i m x (E1 & l & H1 & H2 & H3). apply (mv_list "[" "]" _ _ _ ltac:(nnl) ltac:(nnl) mv_col_item) in H1.
  split; [cbn; rewrite span_m; exact E1|]. exists (map sp_col_item l). split; [exact H1|]. split.
  - erewrite (pick_map sp_col_item (sp_attr f)); [apply col_say_m; exact H2|]. intros []; reflexivity.
  - erewrite (pick_map sp_col_item (sp_inline f)); [cbn [sp_col_settings cs_refs]; rewrite H3; reflexivity|]. intros []; reflexivity.
Qed.
Lemma mv_column : mvs (column_at inp) (column_at inp') (sp_col f).
Proof.
  intros i m x [i0 m1 m0 n ty st H1 H2]. unfold sp_col. cbn. rewrite <- span_m.
  econstructor; [apply (mv_next _ _ _ mv_ident); exact H1|exact (mv_tail _ _ _ _ _ _ _ _ _ _ mv_type mv_col_settings H2)].
Qed.
Lemma mv_index_col : mvs (index_col_at inp) (index_col_at inp') (sp_index_col f).
Proof.
  intros i m x [i0 m0 y H|i0 m0 v H]; cbn [sp_index_col]; constructor; [apply mv_ident; exact H|].
  apply (mv_lit (string_at bq)); [apply mv_string; nnl|exact H].
Qed.
Lemma mv_index : mvs (index_at inp) (index_at inp') (sp_index f).
Proof.
  intros i m x [i0 m0 c st H|i0 m0 l st H]; unfold sp_index; cbn; rewrite <- span_m.
  - constructor. exact (mv_tail _ _ _ _ _ _ _ _ _ _ mv_index_col mv_index_settings H).
  - apply index_multi. exact (mv_tail _ _ _ _ _ _ _ _ _ _ (mv_list "(" ")" _ _ _ ltac:(nnl) ltac:(nnl) mv_index_col) mv_index_settings H).
Qed.
Lemma mv_indexes : mvs (indexes_at inp) (indexes_at inp') (sp_indexes f).
Proof.
  intros i m x [i0 m1 m0 l H1 H2]. mt. unfold sp_indexes. cbn. rewrite <- span_m. econstructor; [exact H1|apply (mv_braces _ _ _ mv_index); exact H2].
Qed.
Definition sp_table_item (x : table_item_t) : table_item_t :=
  match x with TabCol c => TabCol (sp_col f c) | TabNote n => TabNote (sp_note f n) | TabIndexes b => TabIndexes (sp_indexes f b) end.
Lemma mv_table_item : mvs (table_item_at inp) (table_item_at inp') sp_table_item.
Proof. intros i m [a|a|a] H; cbn [table_item_at sp_table_item] in *; [apply mv_column|apply mv_note|apply mv_indexes]; assumption. Qed.
Lemma mv_alias : mvs (alias_at inp) (alias_at inp') (sp_ident f).
Proof. intros i m x (m1 & H1 & H2). mt. exists (M m1). split; [exact H1|apply mv_ident; exact H2]. Qed.
Lemma last_map {A B} (h : A -> B) l : last_of (map h l) = option_map h (last_of l).
Proof. unfold last_of. rewrite <- map_rev. destruct (rev l); reflexivity. Qed.
Lemma mv_table : mvs (table_at inp) (table_at inp') (sp_table f).
Proof.
  intros i m x [i0 m1 m2 m3 m4 m5 m0 d al st l H1 H2 H3 H4 H5 H6]. mt. apply mv_decl in H2. apply (mv_maybe _ _ _ (mv_next _ _ _ mv_alias)) in H4.
  apply (mv_maybe _ _ _ (mv_next _ _ _ mv_table_settings)) in H5. apply (mv_braces _ _ _ mv_table_item) in H6.
  unfold sp_table, sp_table_ident. cbn. rewrite <- !span_m.
  pose proof (table_intro inp' _ _ _ _ _ _ _ _ _ _ _ H1 H2 H3 H4 H5 H6) as HT.
  rewrite (pick_map sp_table_item (sp_col f) (fun x => match x with TabCol c => Some c | _ => None end)),
    (pick_map sp_table_item (sp_note f) (fun x => match x with TabNote c => Some c | _ => None end)),
    (pick_map sp_table_item (sp_indexes f) (fun x => match x with TabIndexes c => Some c | _ => None end)), !last_map in HT by (intros []; reflexivity).
  exact HT.
Qed.

(** ** Enums, groups, projects *)
Lemma mv_enum_value : mvs (enum_value_at inp) (enum_value_at inp') (sp_enum_value f).
Proof.
  intros i m x [i0 m0 v st H]. unfold sp_enum_value. cbn. rewrite <- span_m. constructor. exact (mv_tail _ _ _ _ _ _ _ _ _ _ mv_ident mv_enum_settings H).
Qed.
Lemma mv_enum : mvs (enum_at inp) (enum_at inp') (sp_enum f).
Proof.
  intros i m x [i0 m1 m2 m3 m0 d l H1 H2 H3 H4]. mt. apply mv_decl in H2. apply (mv_braces _ _ _ mv_enum_value) in H4. unfold sp_enum, sp_enum_ident. cbn.
  rewrite <- !span_m. exact (enum_intro inp' _ _ _ _ _ _ _ H1 H2 H3 H4).
Qed.
Definition sp_group_part (x : group_part_t) : group_part_t :=
  match x with GroupNote n => GroupNote (sp_note f n) | GroupItem x => GroupItem (sp_group_item f x) end.
Lemma mv_group_part : mvs (group_part_at inp) (group_part_at inp') sp_group_part.
Proof.
  intros i m x [i0 m0 n H|i0 m0 d H]; cbn [sp_group_part].
  - constructor. apply mv_note. exact H.
  - unfold sp_group_item. cbn. rewrite <- span_m. apply mv_decl in H. exact (group_name inp' _ _ _ H).
Qed.
Lemma mv_group : mvs (group_at inp) (group_at inp') (sp_group f).
Proof.
  intros i m x [i0 m1 m2 m3 m0 n st l H1 H2 H3 H4]. mt. apply (mv_next _ _ _ mv_ident) in H2. apply (mv_maybe _ _ _ (mv_next _ _ _ mv_group_settings)) in H3.
  apply (mv_braces _ _ _ mv_group_part) in H4. unfold sp_group. cbn. rewrite <- span_m.
  pose proof (group_intro inp' _ _ _ _ _ _ _ _ H1 H2 H3 H4) as HT.
  rewrite (pick_map sp_group_part (sp_note f) (fun x => match x with GroupNote c => Some c | _ => None end)),
    (pick_map sp_group_part (sp_group_item f) (fun x => match x with GroupItem c => Some c | _ => None end)), last_map in HT by (intros []; reflexivity). exact HT.
Qed.
Lemma mv_property : mvs (property_at inp) (property_at inp') (sp_prop f).
Proof.
  intros i m x [i0 m1 m2 m0 k v H1 H2 H3 H4]. mt. unfold sp_prop. cbn. rewrite <- span_m.
  assert (Hs : Forall special (id_str k)) by (destruct H1 as (m' & (_ & _ & _ & Hs & _) & _); apply spaced_nn; exact Hs).
  econstructor; [apply (mv_next _ _ _ mv_key); exact H1|exact H2|apply (mv_lit _ mv_plain_value); exact H3|].
  intros [K1 (w & K2)]. apply H4. cbn [sp_ident id_str] in K1. rewrite (m_id _ Hs) in K1. split; [exact K1|]. cbn [sp_lit lit_value] in K2.
  destruct (lit_value v); try discriminate K2. eauto.
Qed.
Definition sp_project_item (x : project_item_t) : project_item_t :=
  match x with ProjNote n => ProjNote (sp_note f n) | ProjProp x => ProjProp (sp_prop f x) end.
Lemma mv_project_item : mvs (project_item_at inp) (project_item_at inp') sp_project_item.
Proof. intros i m [a|a] H; cbn [project_item_at sp_project_item] in *; [apply mv_note|apply mv_property]; assumption. Qed.
Lemma mv_project : mvs (project_at inp) (project_at inp') (sp_project f).
Proof.
  intros i m x [i0 m1 m2 m0 n l props db H1 H2 H3 -> H4]. mt. apply (mv_next _ _ _ mv_ident) in H2. apply (mv_braces _ _ _ mv_project_item) in H3.
  unfold sp_project. cbn. rewrite <- span_m. apply db_says_m in H4.
  rewrite <- (pick_map sp_project_item (sp_prop f) (fun x => match x with ProjProp c => Some c | _ => None end) (fun x => match x with ProjProp c => Some c | _ => None end)) in * by (intros []; reflexivity).
  rewrite <- last_map.
  rewrite <- (pick_map sp_project_item (sp_note f) (fun x => match x with ProjNote c => Some c | _ => None end) (fun x => match x with ProjNote c => Some c | _ => None end)) by (intros []; reflexivity).
  econstructor; try eassumption; reflexivity.
Qed.
Lemma mv_top : mvs (top_at inp) (top_at inp') (sp_block f).
Proof.
  intros i m [x|x|x|x|x|x] H; cbn [top_at sp_block] in *;
  [apply mv_project|apply mv_table|apply mv_group|apply mv_note|apply mv_reference|apply mv_enum]; assumption.
Qed.
End Spell.

Lemma located_m f t x : respells f -> (forall c, ulen (f c) = ulen c) -> located t x -> located (map f t) (sp_schema f x).
Proof.
  intros Hf Hu (E1 & E2 & m & Hl & Hm). unfold sp_schema. split; [cbn; rewrite E1; reflexivity|]. split; [cbn; rewrite (blen_m f Hu); exact E2|].
  exists (map f m). split; [apply (m_lay f Hf); exact Hl|]. cbn [sb_blocks].
  apply (mv_many f _ _ _ (mv_next f Hf _ _ _ (mv_top f t Hf Hu))) in Hm. exact Hm.
Qed.
Theorem same_ast f t x : respells f -> (forall c, ulen (f c) = ulen c) ->
  parse_dbml_unchecked t = Some (Ok x) -> parse_dbml_unchecked (map f t) = Some (Ok (sp_schema f x)).
Proof. intros Hf Hu H. apply located_exact, located_m; [exact Hf|exact Hu|]. apply located_exact. exact H. Qed.
