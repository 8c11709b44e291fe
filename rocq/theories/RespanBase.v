(** * RespanBase: nodes read in a text with something before it. *)

From Verif Require Import SynMain LocErase.
From Verif Require Export Located Respan.

(** What is left is shorter; at most as long. *)
Definition px (i m : str) : Prop := exists t, t <> [] /\ i = t ++ m.
Definition sx (i m : str) : Prop := exists t, i = t ++ m.
Lemma px_sx i m : px i m -> sx i m.
Proof. intros (t & _ & H). exists t. exact H. Qed.
Lemma px_sx_trans i j m : px i j -> sx j m -> px i m.
Proof. intros (t & Ht & ->) (u & ->). exists (t ++ u). split; [intros E; apply app_eq_nil in E; tauto|apply app_assoc]. Qed.
Lemma sx_px_trans i j m : sx i j -> px j m -> px i m.
Proof. intros (u & ->) (t & Ht & ->). exists (u ++ t). split; [intros E; apply app_eq_nil in E; tauto|apply app_assoc]. Qed.
Lemma px_trans i j m : px i j -> px j m -> px i m.
Proof. intros H1 H2. eapply px_sx_trans; [exact H1|apply px_sx; exact H2]. Qed.
Lemma sx_trans i j m : sx i j -> sx j m -> sx i m.
Proof. intros (t & ->) (u & ->). exists (t ++ u). apply app_assoc. Qed.
Lemma sx_refl i : sx i i.
Proof. exists []. reflexivity. Qed.
Lemma px_app t m : t <> [] -> px (t ++ m) m.
Proof. intros H. exists t. auto. Qed.
Lemma lay_sx i r : lay i r -> sx i r.
Proof. intros (t & -> & _). exists t. reflexivity. Qed.
Lemma tok_px w i r : w <> [] -> tok w i r -> px i r.
Proof. intros Hw (m & -> & H). eapply px_sx_trans; [apply px_app; exact Hw|apply lay_sx; exact H]. Qed.
Lemma kw_px k i r : s k <> [] -> kw k i r -> px i r.
Proof. intros Hw (w & m & -> & Hc & H). eapply px_sx_trans; [apply px_app|apply lay_sx; exact H]. intros ->. inversion Hc. congruence. Qed.

Lemma blen_px i m : px i m -> blen m < blen i.
Proof. intros (t & Ht & ->). rewrite blen_app. destruct t as [|c t]; [congruence|]. cbn [blen]. assert (0 < ulen c) by (unfold ulen; repeat destruct (_ <? _); lia). lia. Qed.
Lemma blen_sx i m : sx i m -> blen m <= blen i.
Proof. intros (t & ->). rewrite blen_app. lia. Qed.

Section Shift.
(** The ends of [base] are read in [inp] and in [inp']; [f] moves their places. *)
Variables base inp inp' : str.
Variable f : range -> range.

Definition ends (i : str) : Prop := sx base i.
Hypothesis span_after : forall i m, ends i -> px i m -> span inp' i m = f (span inp i m).
Lemma ends_sx i m : ends i -> sx i m -> ends m.
Proof. apply sx_trans. Qed.
Lemma ends_px i m : ends i -> px i m -> ends m.
Proof. intros H1 H2. eapply ends_sx; [exact H1|apply px_sx; exact H2]. Qed.
Definition mvs {A} (R R' : reader A) (sh : A -> A) : Prop := forall i m x, ends i -> R i m x -> px i m /\ R' i m (sh x).
Lemma mv_next {A} (R R' : reader A) sh : mvs R R' sh -> mvs (next R) (next R') sh.
Proof. intros H i r x He (m & Hx & Hl). destruct (H _ _ _ He Hx) as [H1 H2]. split; [eapply px_sx_trans; [exact H1|apply lay_sx; exact Hl]|exists m; auto]. Qed.
Lemma mv_commas {A} (R R' : reader A) sh i r l : mvs R R' sh -> ends i -> commas R i r l -> px i r /\ commas R' i r (map sh l).
Proof.
  intros H He Hl. induction Hl as [i r a Ha|i m m' r a l Ha Ht Hl IH].
  - destruct (H _ _ _ He Ha) as [H1 H2]. split; [exact H1|constructor; exact H2].
  - destruct (H _ _ _ He Ha) as [H1 H2]. pose proof (tok_px (s ",") m m' ltac:(discriminate) Ht) as H3.
    destruct IH as [H4 H5]; [eapply ends_px; [eapply ends_px|]; eassumption|]. split; [eapply px_trans; [eapply px_trans|]; eassumption|].
    cbn [map]. econstructor; eassumption.
Qed.
Lemma mv_many {A} (R R' : reader A) sh i r l : mvs R R' sh -> ends i -> many R i r l -> sx i r /\ many R' i r (map sh l).
Proof.
  intros H He Hl. induction Hl as [i|i m r a l Ha Hl IH].
  - split; [apply sx_refl|constructor].
  - destruct (H _ _ _ He Ha) as [H1 H2]. destruct IH as [H4 H5]; [eapply ends_px; eassumption|].
    split; [apply px_sx; eapply px_sx_trans; eassumption|]. cbn [map]. econstructor; eassumption.
Qed.
Lemma mv_maybe {A} (R R' : reader A) sh i r o : mvs R R' sh -> ends i -> maybe R i r o -> sx i r /\ maybe R' i r (option_map sh o).
Proof.
  intros H He H0. destruct H0 as [i0|i0 r0 a Ha]; [split; [apply sx_refl|constructor]|]. destruct (H _ _ _ He Ha) as [H1 H2]. split; [apply px_sx; exact H1|constructor; exact H2].
Qed.
Lemma mv_list {A} op cl (R R' : reader A) sh : s op <> [] -> mvs R R' sh -> mvs (list_at op cl R) (list_at op cl R') (map sh).
Proof.
  intros Ho H i m l He H0. destruct H0 as [i0 m0 Ht|i0 m1 m0 l0 Ht Hl].
  - pose proof (tok_px _ _ _ Ho Ht) as Hp. split; [eapply px_sx_trans; [exact Hp|exists (s cl); reflexivity]|]. constructor. exact Ht.
  - pose proof (tok_px _ _ _ Ho Ht) as Hp. destruct (mv_commas _ _ _ _ _ _ (mv_next _ _ _ H) (ends_px _ _ He Hp) Hl) as [H1 H2].
    split; [eapply px_sx_trans; [eapply px_trans; eassumption|exists (s cl); reflexivity]|]. econstructor; eassumption.
Qed.
Lemma mv_braces {A} (R R' : reader A) sh : mvs R R' sh -> mvs (braces_at R) (braces_at R') (map sh).
Proof.
  intros H i m l He (m1 & Ht & Hl). pose proof (tok_px (s "{") _ _ ltac:(discriminate) Ht) as Hp.
  destruct (mv_many _ _ _ _ _ _ (mv_next _ _ _ H) (ends_px _ _ He Hp) Hl) as [H1 H2].
  split; [eapply px_sx_trans; [eapply px_sx_trans; eassumption|exists (s "}"); reflexivity]|]. exists m1. auto.
Qed.
Lemma mv_tail {A B} (R R' : reader A) (O O' : reader B) sh sho i m a o : mvs R R' sh -> mvs O O' sho -> ends i -> tail_at R O i m a o ->
  px i m /\ tail_at R' O' i m (sh a) (option_map sho o).
Proof.
  intros HR HO He H0. destruct H0 as [i0 m0 a0 Ha|i0 m1 m0 a0 b Ha Hb].
  - destruct (mv_next _ _ _ HR _ _ _ He Ha) as [H1 H2]. split; [exact H1|constructor; exact H2].
  - destruct (mv_next _ _ _ HR _ _ _ He Ha) as [H1 H2]. destruct (HO _ _ _ (ends_px _ _ He H1) Hb) as [H3 H4].
    split; [eapply px_trans; eassumption|econstructor; eassumption].
Qed.

(** ** Words and literals *)
Lemma word_ne w : word w -> w <> [].
Proof. intros (c & w' & -> & _). discriminate. Qed.
Lemma spaced_ne w : spaced_word w -> w <> [].
Proof. intros (c & w' & -> & _). discriminate. Qed.
Lemma plain_px i m w : plain_at i m w -> px i m.
Proof. intros (-> & H & _). apply px_app, word_ne, H. Qed.
Lemma phrase_px i m w : phrase_at i m w -> px i m.
Proof. intros (-> & H & _). apply px_app, spaced_ne, H. Qed.
Lemma quote_px q i m v : q <> [] -> quote_at q i m v -> px i m.
Proof.
  intros Hq (i' & -> & Hl & _). eapply px_sx_trans; [apply px_app; exact Hq|]. eapply sx_trans; [apply lay_sx; exact Hl|].
  exists (v ++ q). apply app_assoc.
Qed.
Lemma text_px i m v : text_at i m v -> px i m.
Proof. intros [H|H]; eapply quote_px; try exact H; discriminate. Qed.
Lemma value_px i m v : value_at i m v -> px i m.
Proof.
  intros [i0 m0 v0 H|i0 m0 v0 H|m0|m0|m0|d m0 Hd|d1 d2 m0 f0 Hd|h m0 Hh Hl|h m0 Hh Hl].
  - eapply text_px; exact H.
  - eapply quote_px; [|exact H]. discriminate.
  - apply px_app. discriminate.
  - apply px_app. discriminate.
  - apply px_app. discriminate.
  - apply px_app, Hd.
  - eapply px_sx_trans; [apply px_app, Hd|]. eexists (s "." ++ d2). rewrite <- app_assoc. reflexivity.
  - eapply px_sx_trans; [apply px_app; discriminate|]. eexists. reflexivity.
  - eapply px_sx_trans; [apply px_app; discriminate|]. eexists. reflexivity.
Qed.
Lemma string_px q i m v : q <> [] -> string_at q i m v -> px i m.
Proof. intros Hq (w & H & _). eapply quote_px; eassumption. Qed.
Lemma note_text_px i m v : note_text_at i m v -> px i m.
Proof. intros [H|H]; (eapply string_px; [|exact H]; discriminate). Qed.
Lemma plain_value_px i m v : plain_value_at i m v -> px i m.
Proof. intros [H|(w & H & _)]; [eapply value_px; exact H|eapply phrase_px; exact H]. Qed.
Lemma attr_value_px i m v : attr_value_at i m v -> px i m.
Proof. intros [H|H]; [eapply plain_value_px; exact H|eapply string_px; [|exact H]; discriminate]. Qed.

Lemma mv_ident : mvs (ident_at inp) (ident_at inp') (at_ident f).
Proof.
  intros i m x He (E1 & E2 & H). assert (Hp : px i m) by (destruct H as [H|H]; [eapply plain_px|eapply quote_px; [|exact H]; discriminate]; eassumption).
  split; [exact Hp|]. split; [exact E1|]. split; [|exact H]. cbn [at_ident id_span]. rewrite E2. symmetry. apply span_after; assumption.
Qed.
Lemma mv_key : mvs (key_at inp) (key_at inp') (at_ident f).
Proof.
  intros i m x He (E1 & E2 & H). pose proof (phrase_px _ _ _ H) as Hp.
  split; [exact Hp|]. split; [exact E1|]. split; [|exact H]. cbn [at_ident id_span]. rewrite E2. symmetry. apply span_after; assumption.
Qed.
Lemma mv_lit (R : reader value_t) : (forall i m v, R i m v -> px i m) -> mvs (lit inp R) (lit inp' R) (at_lit f).
Proof.
  intros H i m x He (E1 & E2 & H1 & H2). pose proof (H _ _ _ H1) as Hp. split; [exact Hp|]. split; [exact E1|].
  split; [|split; [exact H1|exact H2]]. cbn [at_lit lit_span]. rewrite E2. symmetry. apply span_after; assumption.
Qed.

Ltac pxs := repeat first [eassumption | eapply px_trans; [eassumption|] | eapply sx_px_trans; [eassumption|]].
Ltac en := repeat first [eassumption | eapply ends_px; [|eassumption] | eapply ends_sx; [|eassumption]].

(** ** Settings *)
Lemma mv_attribute : mvs (attribute_at inp) (attribute_at inp') (at_attr f).
Proof.
  intros i m x He H. destruct H as [i m k Hk|i m1 m2 m k v Hk Ht Hv].
  - destruct (mv_next _ _ _ mv_key _ _ _ He Hk) as [H1 H2]. split; [exact H1|]. unfold at_attr. cbn [at_span at_key at_value option_map].
    rewrite <- span_after by assumption. constructor. exact H2.
  - destruct (mv_next _ _ _ mv_key _ _ _ He Hk) as [H1 H2]. pose proof (tok_px (s ":") _ _ ltac:(discriminate) Ht) as H3.
    destruct (mv_lit _ attr_value_px m2 m v ltac:(en) Hv) as [H4 H5]. assert (Hp : px i m) by pxs. split; [exact Hp|].
    unfold at_attr. cbn [at_span at_key at_value option_map]. rewrite <- span_after by assumption. econstructor; eassumption.
Qed.
Lemma mv_attributes : mvs (attributes_at inp) (attributes_at inp') (map (at_attr f)).
Proof. apply mv_list; [discriminate|apply mv_attribute]. Qed.

(** What settings say does not depend on where they are. *)
Lemma key_at_attr a : key_of (at_attr f a) = key_of a.
Proof. reflexivity. Qed.
Lemma has_key_after k l : has_key k (map (at_attr f) l) <-> has_key k l.
Proof.
  unfold has_key. split.
  - intros (a & Ha & E). apply in_map_iff in Ha as (b & <- & Hb). exists b. auto.
  - intros (a & Ha & E). exists (at_attr f a). split; [apply in_map; exact Ha|exact E].
Qed.
Lemma last_says_after {A} ks (rd : attribute_t -> A -> Prop) dflt l v : (forall a v, rd a v -> rd (at_attr f a) v) ->
  last_says ks rd dflt l v -> last_says ks rd dflt (map (at_attr f) l) v.
Proof.
  intros H [[H1 H2]|(l1 & a & l2 & -> & H1 & H2 & H3)].
  - left. split; [|exact H2]. apply Forall_map. exact H1.
  - right. exists (map (at_attr f) l1), (at_attr f a), (map (at_attr f) l2). rewrite map_app. split; [reflexivity|]. split; [exact H1|].
    split; [apply Forall_map; exact H2|apply H; exact H3].
Qed.
Lemma reads_text_after a v : reads_text a v -> reads_text (at_attr f a) v.
Proof. unfold reads_text. intros ->. cbn [at_attr at_value]. destruct (at_value a); reflexivity. Qed.
Lemma reads_value_after a v : reads_value a v -> reads_value (at_attr f a) v.
Proof. unfold reads_value. intros ->. cbn [at_attr at_value]. destruct (at_value a); reflexivity. Qed.
Lemma reads_nullable_after a v : reads_nullable a v -> reads_nullable (at_attr f a) v.
Proof. exact (fun H => H). Qed.
Lemma reads_index_after a v : reads_index_type a v -> reads_index_type (at_attr f a) v.
Proof. unfold reads_index_type. cbn [at_attr at_value]. destruct (at_value a); exact (fun H => H). Qed.
Lemma reads_action_after a v : reads_action a v -> reads_action (at_attr f a) v.
Proof. unfold reads_action. cbn [at_attr at_value]. destruct (at_value a) as [[? ? []]|]; exact (fun H => H). Qed.
Lemma col_say_after l x : col_settings_say l x -> col_settings_say (map (at_attr f) l) (at_col_settings f x).
Proof.
  intros (<- & H1 & H2 & H3 & H4 & H5 & H6). unfold col_settings_say, at_col_settings.
  cbn [cs_attributes cs_is_pk cs_is_unique cs_is_incremental cs_nullable cs_default cs_note].
  rewrite !has_key_after. split; [reflexivity|]. split; [exact H1|]. split; [exact H2|]. split; [exact H3|].
  split; [apply last_says_after; [apply reads_nullable_after|exact H4]|]. split; [apply last_says_after; [apply reads_value_after|exact H5]|].
  apply last_says_after; [apply reads_text_after|exact H6].
Qed.
Lemma index_say_after l x : index_settings_say l x -> index_settings_say (map (at_attr f) l) (at_index_settings f x).
Proof.
  intros (<- & H1 & H2 & H3 & H4 & H5 & H6). unfold index_settings_say, at_index_settings.
  cbn [is_attributes is_is_pk is_is_unique is_type is_name is_note].
  rewrite !has_key_after. split; [reflexivity|]. split; [exact H1|]. split; [exact H2|].
  split; [apply last_says_after; [apply reads_index_after|exact H3]|].
  split; [apply Forall_map; eapply Forall_impl; [|exact H4]; intros a Ha Hk; destruct (Ha Hk) as (v & Hv); exists v; apply reads_index_after; exact Hv|].
  split; (apply last_says_after; [apply reads_text_after|assumption]).
Qed.
Lemma enum_say_after l x : enum_settings_say l x -> enum_settings_say (map (at_attr f) l) (at_enum_settings f x).
Proof. intros (<- & H). split; [reflexivity|]. apply last_says_after; [apply reads_text_after|exact H]. Qed.
Lemma ref_say_after l x : ref_settings_say l x -> ref_settings_say (map (at_attr f) l) (at_ref_settings f x).
Proof.
  intros (<- & H1 & H2 & H3). split; [reflexivity|].
  split; [apply last_says_after; [apply reads_action_after|exact H1]|]. split; [apply last_says_after; [apply reads_action_after|exact H2]|].
  apply Forall_map. eapply Forall_impl; [|exact H3]. intros a Ha Hk. destruct (Ha Hk) as (v & Hv). exists v. apply reads_action_after. exact Hv.
Qed.
Lemma db_says_after l v : database_type_says l v -> database_type_says (map (at_prop f) l) v.
Proof.
  intros [[H1 H2]|(l1 & p & l2 & n & -> & H1 & H2 & H3 & H4)].
  - left. split; [apply Forall_map; exact H1|exact H2].
  - right. exists (map (at_prop f) l1), (at_prop f p), (map (at_prop f) l2), n. rewrite map_app. split; [reflexivity|]. split; [exact H1|].
    split; [exact H2|]. split; [apply Forall_map; exact H3|exact H4].
Qed.

Lemma mv_setting {A} (sh : A -> A) (R R' : reader A) (at_ : A -> list attribute_t) (sp : A -> range) (Q : A -> Prop) :
  (forall i m x, R i m x -> sp x = span inp i m /\ attributes_at inp i m (at_ x) /\ Q x) ->
  (forall i m x, sp x = span inp' i m -> attributes_at inp' i m (at_ x) -> Q x -> R' i m x) ->
  (forall x, sp (sh x) = f (sp x)) -> (forall x, at_ (sh x) = map (at_attr f) (at_ x)) -> (forall x, Q x -> Q (sh x)) -> mvs R R' sh.
Proof.
  intros H1 H2 H3 H4 H5 i m x He Hx. apply H1 in Hx as (E1 & H & HQ). destruct (mv_attributes _ _ _ He H) as [K1 K2]. split; [exact K1|].
  apply H2; [|rewrite H4; exact K2|apply H5; exact HQ]. rewrite H3, E1. symmetry. apply span_after; assumption.
Qed.
Lemma mv_table_settings : mvs (table_settings_at inp) (table_settings_at inp') (at_table_settings f).
Proof. apply (mv_setting _ _ _ ts_attributes ts_span (fun _ => True)); unfold table_settings_at; try tauto; reflexivity. Qed.
Lemma mv_group_settings : mvs (group_settings_at inp) (group_settings_at inp') (at_group_settings f).
Proof. apply (mv_setting _ _ _ gs_attributes gs_span (fun _ => True)); unfold group_settings_at; try tauto; reflexivity. Qed.
Lemma mv_enum_settings : mvs (enum_settings_at inp) (enum_settings_at inp') (at_enum_settings f).
Proof.
  apply (mv_setting _ _ _ evs_attributes evs_span (fun x => enum_settings_say (evs_attributes x) x)); unfold enum_settings_at; try tauto; try reflexivity.
  intros x. apply enum_say_after.
Qed.
Lemma mv_ref_settings : mvs (ref_settings_at inp) (ref_settings_at inp') (at_ref_settings f).
Proof.
  apply (mv_setting _ _ _ rs_attributes rs_span (fun x => ref_settings_say (rs_attributes x) x)); unfold ref_settings_at; try tauto; try reflexivity.
  intros x. apply ref_say_after.
Qed.
Lemma mv_index_settings : mvs (index_settings_at inp) (index_settings_at inp') (at_index_settings f).
Proof.
  apply (mv_setting _ _ _ is_attributes is_span (fun x => index_settings_say (is_attributes x) x)); unfold index_settings_at; try tauto; try reflexivity.
  intros x. apply index_say_after.
Qed.

(** ** References *)
Definition at_decl (d : option ident_t * ident_t) : option ident_t * ident_t := (option_map (at_ident f) (fst d), at_ident f (snd d)).
Ltac tk H := match type of H with tok ?w ?i ?m => assert (px i m) by (apply (tok_px w); [discriminate|exact H]) end.
Ltac rd L H := let a := fresh "P" in let b := fresh "Q" in let e := fresh "e" in
  match type of H with ?R ?i ?m ?x => assert (e : ends i) by en; destruct (L i m x e H) as [a b]; clear e end.
Ltac nx L H := rd (mv_next _ _ _ L) H.
Lemma mv_decl : mvs (decl_at inp) (decl_at inp') at_decl.
Proof.
  intros i m x He H. destruct H as [i m n Hn|i m1 m2 m sc n Hs Ht Hn].
  - nx mv_ident Hn. split; [exact P|]. constructor. exact Q.
  - nx mv_ident Hs. tk Ht. rd mv_ident Hn. split; [pxs|]. econstructor; eassumption.
Qed.
Lemma mv_columns : mvs (columns_at inp) (columns_at inp') (map (at_ident f)).
Proof.
  intros i m x He H. destruct H as [i m c Hc|i m1 m l Ht Hl].
  - rd mv_ident Hc. split; [exact P|constructor; exact Q].
  - tk Ht. assert (e : ends m1) by en. destruct (mv_commas _ _ _ _ _ _ (mv_next _ _ _ mv_ident) e Hl) as [P Q].
    split; [eapply px_sx_trans; [eapply px_trans; eassumption|exists (s ")"); reflexivity]|]. econstructor; eassumption.
Qed.
Lemma mv_endpoint : mvs (endpoint_at inp) (endpoint_at inp') (at_end f).
Proof.
  intros i m x He H. destruct H as [i m1 m2 m t l H1 H2 H3|i m1 m2 m3 m4 m sc t l H1 H2 H3 H4 H5].
  - nx mv_ident H1. tk H2. rd mv_columns H3. assert (Hp : px i m) by pxs. split; [exact Hp|].
    unfold at_end. cbn. rewrite <- span_after by assumption. econstructor; eassumption.
  - nx mv_ident H1. tk H2. nx mv_ident H3. tk H4. rd mv_columns H5. assert (Hp : px i m) by pxs. split; [exact Hp|].
    unfold at_end. cbn. rewrite <- span_after by assumption. eapply endpoint_schema; eassumption.
Qed.
Lemma mv_rel : mvs rel_at rel_at (fun x => x).
Proof. intros i m x He (t & E & ->). split; [|exists t; auto]. apply px_app. destruct x; cbn in E; congruence. Qed.
Lemma mv_inline : mvs (inline_at inp) (inline_at inp') (at_inline f).
Proof.
  intros i m x He H. destruct H as [i m1 m2 m3 m x e H1 H2 H3 H4]. tk H1. tk H2. nx mv_rel H3. rd mv_endpoint H4.
  assert (Hp : px i m) by pxs. split; [exact Hp|]. unfold at_inline. cbn. rewrite <- span_after by assumption. econstructor; eassumption.
Qed.
Lemma mv_stmt n : mvs (stmt_at inp n) (stmt_at inp' (option_map (at_ident f) n)) (at_ref f).
Proof.
  intros i m x He H. destruct H as [i m1 m2 m x a b st H1 H2 H3]. nx mv_endpoint H1. nx mv_rel H2.
  assert (e : ends m2) by en. destruct (mv_tail _ _ _ _ _ _ _ _ _ _ mv_endpoint mv_ref_settings e H3) as [P1 Q1].
  assert (Hp : px i m) by pxs. split; [exact Hp|]. unfold at_ref. cbn. rewrite <- span_after by assumption. econstructor; eassumption.
Qed.
Ltac kk H := match type of H with kw ?w ?i ?m => assert (px i m) by (apply (kw_px w); [discriminate|exact H]) end.
Ltac my L H := let a := fresh "P" in let b := fresh "Q" in let e := fresh "e" in
  match type of H with ?R ?i ?m ?x => assert (e : ends i) by en; destruct (mv_maybe _ _ _ _ _ _ (mv_next _ _ _ L) e H) as [a b]; clear e end.
Lemma mv_reference : mvs (reference_at inp) (reference_at inp') (at_ref f).
Proof.
  intros i m x He H. destruct H as [i m1 m2 m3 m n r H1 H2 H3 H4|i m1 m2 m3 m n r H1 H2 H3 H4].
  - kk H1. my mv_ident H2. tk H3. rd (mv_stmt n) H4. split; [pxs|]. econstructor; eassumption.
  - kk H1. my mv_ident H2. tk H3. nx (mv_stmt n) H4. split; [|eapply reference_braces; eassumption].
    eapply px_sx_trans; [|exists (s "}"); reflexivity]. pxs.
Qed.
Lemma mv_note : mvs (note_at inp) (note_at inp') (at_note f).
Proof.
  intros i m x He H. destruct H as [i m1 m2 m v H1 H2 H3|i m1 m2 m v H1 H2 H3]; kk H1; tk H2.
  - rd (mv_lit _ note_text_px) H3. assert (Hp : px i m) by pxs. split; [exact Hp|]. unfold at_note. cbn. rewrite <- span_after by assumption. econstructor; eassumption.
  - nx (mv_lit _ note_text_px) H3. assert (Hp : px i m) by (eapply px_sx_trans; [|exists (s "}"); reflexivity]; pxs).
    split; [exact Hp|]. unfold at_note. cbn. rewrite <- span_after by assumption. eapply note_braces_at; eassumption.
Qed.

(** ** Tables *)
Lemma type_raw_ne raw ty : type_raw raw ty -> raw <> [].
Proof.
  intros [p np b ta args td dims Hp Hb Ha Hd|p np b ta args td1 d1 td2 d2 Hp Hb Ha H1 H2 Hn] E.
  - apply app_eq_nil in E as [_ E]. apply app_eq_nil in E as [E _]. destruct Hb as (c0 & w0 & E0 & _). congruence.
  - apply app_eq_nil in E as [_ E]. discriminate.
Qed.
Lemma mv_type : mvs (type_at inp) (type_at inp') (at_type f).
Proof.
  intros i m x He (E1 & E2 & H1 & H2). assert (Hp : px i m) by (rewrite E1; apply px_app; eapply type_raw_ne; exact H1).
  split; [exact Hp|]. split; [exact E1|]. split; [cbn; rewrite E2; symmetry; apply span_after; assumption|]. split; [exact H1|exact H2].
Qed.
Definition at_col_item (x : col_item_t) : col_item_t :=
  match x with ColAttr a => ColAttr (at_attr f a) | ColRef r => ColRef (at_inline f r) end.
Lemma mv_col_item : mvs (col_item_at inp) (col_item_at inp') at_col_item.
Proof. intros i m [a|r] He H; cbn [col_item_at at_col_item] in *; [apply mv_attribute|apply mv_inline]; assumption. Qed.
Lemma pick_map {A B C D} (m : A -> C) (h : B -> D) (p : A -> option B) (q : C -> option D) l : (forall a, q (m a) = option_map h (p a)) ->
  pick q (map m l) = map h (pick p l).
Proof. intros H. unfold pick. induction l as [|a l IH]; [reflexivity|]. cbn [map flat_map]. rewrite map_app, H, IH. destruct (p a); reflexivity. Qed.
Lemma mv_col_settings : mvs (col_settings_at inp) (col_settings_at inp') (at_col_settings f).
Proof.
  intros i m x He (E1 & l & H1 & H2 & H3). destruct (mv_list "[" "]" _ _ _ ltac:(discriminate) mv_col_item _ _ _ He H1) as [P Q].
  split; [exact P|]. split; [cbn; rewrite E1; symmetry; apply span_after; assumption|]. exists (map at_col_item l). split; [exact Q|]. split.
  - erewrite (pick_map at_col_item (at_attr f)); [apply col_say_after; exact H2|]. intros []; reflexivity.
  - erewrite (pick_map at_col_item (at_inline f)); [cbn [at_col_settings cs_refs]; rewrite H3; reflexivity|]. intros []; reflexivity.
Qed.
Ltac tl L O H := let a := fresh "P" in let b := fresh "Q" in let e := fresh "e" in
  match type of H with tail_at _ _ ?i _ _ _ => assert (e : ends i) by en; destruct (mv_tail _ _ _ _ _ _ _ _ _ _ L O e H) as [a b]; clear e end.
Lemma mv_column : mvs (column_at inp) (column_at inp') (at_col f).
Proof.
  intros i m x He H. destruct H as [i m1 m n ty st H1 H2]. nx mv_ident H1. tl mv_type mv_col_settings H2.
  assert (Hp : px i m) by pxs. split; [exact Hp|]. unfold at_col. cbn. rewrite <- span_after by assumption. econstructor; eassumption.
Qed.
Lemma mv_index_col : mvs (index_col_at inp) (index_col_at inp') (at_index_col f).
Proof.
  intros i m x He H. destruct H as [i m x H|i m v H]; cbn [at_index_col].
  - rd mv_ident H. split; [exact P|constructor; exact Q].
  - destruct (mv_lit (string_at bq) (fun i m v => string_px bq i m v ltac:(discriminate)) _ _ _ He H) as [P Q]. split; [exact P|constructor; exact Q].
Qed.
Lemma mv_index : mvs (index_at inp) (index_at inp') (at_index f).
Proof.
  intros i m x He H. destruct H as [i m c st H|i m l st H].
  - tl mv_index_col mv_index_settings H. split; [exact P|]. unfold at_index. cbn. rewrite <- span_after by assumption. constructor. exact Q.
  - tl (mv_list "(" ")" _ _ _ ltac:(discriminate) mv_index_col) mv_index_settings H. split; [exact P|]. unfold at_index. cbn. rewrite <- span_after by assumption.
    apply index_multi. exact Q.
Qed.
Lemma mv_indexes : mvs (indexes_at inp) (indexes_at inp') (at_indexes f).
Proof.
  intros i m x He H. destruct H as [i m1 m l H1 H2]. kk H1. rd (mv_braces _ _ _ mv_index) H2. split; [pxs|].
  unfold at_indexes. cbn. rewrite <- span_after; [econstructor; eassumption|en|exact P].
Qed.
Definition at_table_item (x : table_item_t) : table_item_t :=
  match x with TabCol c => TabCol (at_col f c) | TabNote n => TabNote (at_note f n) | TabIndexes b => TabIndexes (at_indexes f b) end.
Lemma mv_table_item : mvs (table_item_at inp) (table_item_at inp') at_table_item.
Proof. intros i m [a|a|a] He H; cbn [table_item_at at_table_item] in *; [apply mv_column|apply mv_note|apply mv_indexes]; assumption. Qed.
Lemma mv_alias : mvs (alias_at inp) (alias_at inp') (at_ident f).
Proof. intros i m x He (m1 & H1 & H2). kk H1. rd mv_ident H2. split; [pxs|]. exists m1. auto. Qed.
Lemma last_map {A B} (h : A -> B) l : last_of (map h l) = option_map h (last_of l).
Proof. unfold last_of. rewrite <- map_rev. destruct (rev l); reflexivity. Qed.
Lemma mv_table : mvs (table_at inp) (table_at inp') (at_table f).
Proof.
  intros i m x He H. destruct H as [i m1 m2 m3 m4 m5 m d al st l H1 H2 H3 H4 H5 H6]. kk H1. rd mv_decl H2. pose proof (lay_sx _ _ H3) as K3.
  my mv_alias H4. my mv_table_settings H5. rd (mv_braces _ _ _ mv_table_item) H6.
  assert (Hp : px i m) by pxs. split; [exact Hp|]. unfold at_table, at_table_ident. cbn. rewrite <- !span_after; try assumption; [|en].
  pose proof (table_intro inp' _ _ _ _ _ _ _ _ _ _ _ H1 Q H3 Q0 Q1 Q2) as HT.
  rewrite (pick_map at_table_item (at_col f) (fun x => match x with TabCol c => Some c | _ => None end)),
    (pick_map at_table_item (at_note f) (fun x => match x with TabNote c => Some c | _ => None end)),
    (pick_map at_table_item (at_indexes f) (fun x => match x with TabIndexes c => Some c | _ => None end)), !last_map in HT by (intros []; reflexivity).
  exact HT.
Qed.

(** ** Enums, groups, projects *)
Lemma mv_enum_value : mvs (enum_value_at inp) (enum_value_at inp') (at_enum_value f).
Proof.
  intros i m x He H. destruct H as [i m v st H]. tl mv_ident mv_enum_settings H. split; [exact P|]. unfold at_enum_value. cbn. rewrite <- span_after by assumption.
  constructor. exact Q.
Qed.
Lemma mv_enum : mvs (enum_at inp) (enum_at inp') (at_enum f).
Proof.
  intros i m x He H. destruct H as [i m1 m2 m3 m d l H1 H2 H3 H4]. kk H1. rd mv_decl H2. pose proof (lay_sx _ _ H3) as K3.
  rd (mv_braces _ _ _ mv_enum_value) H4. assert (Hp : px i m) by pxs. split; [exact Hp|]. unfold at_enum, at_enum_ident. cbn.
  rewrite <- !span_after; try assumption; [|en]. exact (enum_intro inp' _ _ _ _ _ _ _ H1 Q H3 Q0).
Qed.
Definition at_group_part (x : group_part_t) : group_part_t :=
  match x with GroupNote n => GroupNote (at_note f n) | GroupItem x => GroupItem (at_group_item f x) end.
Lemma mv_group_part : mvs (group_part_at inp) (group_part_at inp') at_group_part.
Proof.
  intros i m x He H. destruct H as [i m n H|i m d H]; cbn [at_group_part].
  - rd mv_note H. split; [exact P|constructor; exact Q].
  - rd mv_decl H. split; [exact P|]. unfold at_group_item. cbn. rewrite <- span_after by assumption. exact (group_name inp' _ _ _ Q).
Qed.
Lemma mv_group : mvs (group_at inp) (group_at inp') (at_group f).
Proof.
  intros i m x He H. destruct H as [i m1 m2 m3 m n st l H1 H2 H3 H4]. kk H1. nx mv_ident H2. my mv_group_settings H3. rd (mv_braces _ _ _ mv_group_part) H4.
  assert (Hp : px i m) by pxs. split; [exact Hp|]. unfold at_group. cbn. rewrite <- span_after by assumption.
  pose proof (group_intro inp' _ _ _ _ _ _ _ _ H1 Q Q0 Q1) as HT.
  rewrite (pick_map at_group_part (at_note f) (fun x => match x with GroupNote c => Some c | _ => None end)),
    (pick_map at_group_part (at_group_item f) (fun x => match x with GroupItem c => Some c | _ => None end)), last_map in HT by (intros []; reflexivity). exact HT.
Qed.
Lemma mv_property : mvs (property_at inp) (property_at inp') (at_prop f).
Proof.
  intros i m x He H. destruct H as [i m1 m2 m k v H1 H2 H3 H4]. nx mv_key H1. tk H2. rd (mv_lit _ plain_value_px) H3.
  assert (Hp : px i m) by pxs. split; [exact Hp|]. unfold at_prop. cbn. rewrite <- span_after by assumption. econstructor; eassumption.
Qed.
Definition at_project_item (x : project_item_t) : project_item_t :=
  match x with ProjNote n => ProjNote (at_note f n) | ProjProp x => ProjProp (at_prop f x) end.
Lemma mv_project_item : mvs (project_item_at inp) (project_item_at inp') at_project_item.
Proof. intros i m [a|a] He H; cbn [project_item_at at_project_item] in *; [apply mv_note|apply mv_property]; assumption. Qed.
Lemma mv_project : mvs (project_at inp) (project_at inp') (at_project f).
Proof.
  intros i m x He H. destruct H as [i m1 m2 m n l props db H1 H2 H3 -> H4]. kk H1. nx mv_ident H2. rd (mv_braces _ _ _ mv_project_item) H3.
  assert (Hp : px i m) by pxs. split; [exact Hp|]. unfold at_project. cbn. rewrite <- span_after by assumption.
  apply db_says_after in H4.
  rewrite <- (pick_map at_project_item (at_prop f) (fun x => match x with ProjProp c => Some c | _ => None end) (fun x => match x with ProjProp c => Some c | _ => None end)) in * by (intros []; reflexivity).
  rewrite <- last_map.
  rewrite <- (pick_map at_project_item (at_note f) (fun x => match x with ProjNote c => Some c | _ => None end) (fun x => match x with ProjNote c => Some c | _ => None end)) by (intros []; reflexivity).
  econstructor; try eassumption; reflexivity.
Qed.
Lemma mv_top : mvs (top_at inp) (top_at inp') (at_block f).
Proof.
  intros i m [x|x|x|x|x|x] He H; cbn [top_at at_block] in *;
  [apply mv_project|apply mv_table|apply mv_group|apply mv_note|apply mv_reference|apply mv_enum]; assumption.
Qed.
End Shift.
