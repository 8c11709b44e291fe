(** * SynBuild: building the AST from the pairs, for every rule: the meaning read from
    the text, or an [ErMsg] error exactly when the meaning does not fit. *)

From Verif Require Export Parser.
From Verif Require Import ParserOk ParserOk3 ParseFacts.
From Verif Require Export SynGram2.

Definition gives {A B} (e : A -> B) (P : Prop) (o : outcome A) (b : B) : Prop :=
  (P /\ exists x, o = Ok x /\ e x = b) \/ (~ P /\ exists m sp, o = Err (ErMsg m sp)).
Definition same {A} (x : A) : A := x.

Lemma gives_ok {A B} (e : A -> B) (P : Prop) x b : P -> e x = b -> gives e P (Ok x) b.
Proof. intros HP He. left. eauto. Qed.
Lemma gives_iff {A B} (e : A -> B) (P P' : Prop) o b : gives e P o b -> (P <-> P') -> gives e P' o b.
Proof. intros [[HP H]|[HP H]] Hi; [left|right]; (split; [tauto|exact H]). Qed.
Lemma gives_msg {A B} (e : A -> B) (P : Prop) m p b : ~ P -> gives e P (throw_msg m p) b.
Proof. intros HP. right. unfold throw_msg. eauto. Qed.
Lemma gives_bind {A B C D} (e1 : A -> B) (e2 : C -> D) (P1 P2 : Prop) o (k : A -> outcome C) b1 b2 :
  gives e1 P1 o b1 -> (forall x, e1 x = b1 -> P1 -> gives e2 P2 (k x) b2) -> gives e2 (P1 /\ P2) (bind o k) b2.
Proof.
  intros [[HP (x & -> & He)]|[HP (m & sp & ->)]] Hk; cbn [bind].
  - destruct (Hk x He HP) as [[HP2 H]|[HP2 H]]; [left|right]; (split; [tauto|exact H]).
  - right. split; [tauto|eauto].
Qed.
Lemma gives_omap {A B C} (e1 : A -> B) {D} (e2 : C -> D) (f : A -> C) P o b1 b2 :
  gives e1 P o b1 -> (forall x, e1 x = b1 -> e2 (f x) = b2) -> gives e2 P (omap f o) b2.
Proof.
  intros [[HP (x & -> & He)]|[HP (m & sp & ->)]] Hk; cbn [omap]; [left|right]; (split; [exact HP|]); eauto.
Qed.
Lemma gives_fold {A S B T} (d : pair -> A -> Prop) (e : S -> T) (u : T -> A -> T) (P : A -> Prop) (f : S -> pair -> outcome S) :
  (forall acc p a, d p a -> gives e (P a) (f acc p) (u (e acc) a)) ->
  forall ps l, Forall2 d ps l -> forall (acc : S) (b : B), gives e (Forall P l) (try_fold f ps acc) (fold_left u l (e acc)).
Proof.
  intros Hf ps l HF. induction HF as [|p a ps l Hp Hl IH]; intros acc b; cbn [try_fold fold_left].
  - apply gives_ok; [constructor|reflexivity].
  - eapply gives_iff; [eapply gives_bind; [apply Hf; exact Hp|]|symmetry; apply Forall_cons_iff].
    intros x Hx _. rewrite <- Hx. apply IH. exact b.
Qed.
Lemma gives_map {A B} (d : pair -> B -> Prop) (e : A -> B) (P : B -> Prop) (f : pair -> outcome A) :
  (forall p a, d p a -> gives e (P a) (f p) a) -> forall ps l, Forall2 d ps l -> gives (map e) (Forall P l) (try_map f ps) l.
Proof.
  intros Hf ps l HF. induction HF as [|p a ps l Hp Hl IH]; cbn [try_map].
  - apply gives_ok; [constructor|reflexivity].
  - eapply gives_iff; [eapply gives_bind; [apply Hf; exact Hp|]|symmetry; apply Forall_cons_iff].
    intros x Hx _. eapply gives_iff; [eapply (gives_bind (map e) (map e) _ True); [exact IH|]|tauto].
    intros xs Hxs _. apply gives_ok; [exact Logic.I|]. cbn [map]. congruence.
Qed.

(** ** Names and literals *)
Lemma quoted_text rs rv p v : d_quoted rs rv p v -> pairs_as_str (into_inner p) = v.
Proof. intros (_ & x & -> & _ & <-). unfold pairs_as_str. cbn. apply app_nil_r. Qed.
Lemma build_ident p w : d_ident p w -> exists i, parse_ident p = Ok i /\ id_str i = w.
Proof.
  intros (_ & q & Hi & [[Hr Hs]|Hd]); unfold parse_ident; rewrite Hi.
  - rewrite Hr. eexists. split; [reflexivity|exact Hs].
  - pose proof (quoted_text _ _ _ _ Hd) as Ht. destruct Hd as [Hr _]. rewrite Hr. eexists. split; [reflexivity|exact Ht].
Qed.
Lemma build_decl p d : d_decl p d -> exists x, parse_decl_ident p = Ok x /\ (option_map id_str (fst x), id_str (snd x)) = d.
Proof.
  destruct d as [[sc|] n]; intros (_ & H); cbn [fst snd] in H; unfold parse_decl_ident.
  - destruct H as (x & y & -> & Hx & Hy). cbn [try_map]. rewrite (proj1 Hx), (proj1 Hy).
    destruct (build_ident _ _ Hx) as (i & -> & Hi). cbn [bind]. destruct (build_ident _ _ Hy) as (j & -> & Hj). cbn [bind].
    eexists. split; [reflexivity|]. cbn. congruence.
  - destruct H as (x & -> & Hx). cbn [try_map]. rewrite (proj1 Hx).
    destruct (build_ident _ _ Hx) as (i & -> & Hi). cbn [bind]. eexists. split; [reflexivity|]. cbn. congruence.
Qed.
Lemma build_string p v : d_string p v -> parse_string_value p = Ok v.
Proof.
  intros (_ & q & Hi & Hd). unfold parse_string_value. rewrite Hi. cbn [try_fold].
  destruct Hd as [(Hr & x & Hx & Hv & Hs)|(Hr & x & Hx & Hv & Hs)]; rewrite Hr, Hx; cbn [try_fold]; rewrite Hv, Hs; reflexivity.
Qed.
Lemma build_int p d : d_leaf R_integer p d -> parse_i64 (as_str p) = if digits_value 0 d <=? 9223372036854775807 then Some (Z.of_N (digits_value 0 d)) else None.
Proof. intros [_ <-]. unfold parse_i64. rewrite N_of_digits_value. reflexivity. Qed.
Lemma build_value p v : d_value p v -> gives same (fits_value v) (parse_value p) v.
Proof.
  intros (_ & q & Hi & Hd). unfold parse_value. rewrite Hi.
  destruct Hd as [(w & Hd & ->)|[(w & Hd & ->)|[(w & (Hr & Hs) & Hw)|[(Hr & x & Hx & Hd)|(h & (Hr & Hs) & ->)]]]].
  - rewrite (proj1 Hd), (build_string _ _ Hd). apply gives_ok; [exact Logic.I|reflexivity].
  - rewrite (quoted_text _ _ _ _ Hd), (proj1 Hd). apply gives_ok; [exact Logic.I|reflexivity].
  - rewrite Hr, Hs. destruct Hw as [[-> ->]|[[-> ->]|[-> ->]]]; (apply gives_ok; [exact Logic.I|reflexivity]).
  - rewrite Hr, Hx. destruct Hd as [(d & Hd & _ & ->)|(d & Hd & ->)].
    + rewrite (build_int _ _ Hd), (proj1 Hd). destruct (N.leb_spec (digits_value 0 d) 9223372036854775807).
      * apply gives_ok; [cbn [fits_value]; lia|reflexivity].
      * apply gives_msg. cbn [fits_value]. lia.
    + destruct Hd as [Hd1 Hd2]. rewrite Hd1, Hd2. apply gives_ok; [exact Logic.I|reflexivity].
  - rewrite Hr, Hs. apply gives_ok; [exact Logic.I|reflexivity].
Qed.

(** ** Settings *)
Lemma build_attr p k a : d_leaf R_spaced_var k (fst a) -> fst a <> [] ->
  match snd a with None => into_inner p = [k] | Some v => exists y, into_inner p = [k; y] /\ d_attr_val y v end ->
  gives e_attr (fits_attr a) (parse_attribute p) a.
Proof.
  destruct a as [key o]. cbn [fst snd]. intros [Hr Hs] Hne Ho. unfold parse_attribute.
  destruct o as [v|].
  - destruct Ho as (y & -> & Hy). cbn [try_fold]. rewrite Hr. cbn [at_key id_raw ident0]. cbn [bind]. unfold at_key at 1. cbn [id_raw]. rewrite Hs.
    destruct key as [|c key]; [congruence|]. destruct Hy as [Hy|[(w & [Hyr Hys] & ->)|(w & Hy & ->)]].
    + rewrite (proj1 Hy). eapply gives_iff; [eapply (gives_bind e_attr e_attr _ True); [eapply (gives_bind same e_attr _ True); [apply build_value; exact Hy|]|]|].
      * intros x Hx _. apply gives_ok; [exact Logic.I|]. unfold same in Hx. subst x. unfold e_attr. cbn. reflexivity.
      * intros x Hx _. apply gives_ok; [exact Logic.I|exact Hx].
      * unfold fits_attr. cbn [snd]. split; [intros [[H _] _] v' [= <-]; exact H|intros H; auto].
    + rewrite Hyr. cbn [bind]. apply gives_ok; [intros v [= <-]; exact Logic.I|]. unfold e_attr. cbn. rewrite Hys. reflexivity.
    + rewrite (quoted_text _ _ _ _ Hy), (proj1 Hy). cbn [bind]. apply gives_ok; [intros v [= <-]; exact Logic.I|]. reflexivity.
  - rewrite Ho. cbn [try_fold]. rewrite Hr. cbn [at_key id_raw ident0 bind]. apply gives_ok; [intros v [= ]|]. unfold e_attr. cbn. rewrite Hs. reflexivity.
Qed.
Lemma build_attribute p a : d_attr p a -> gives e_attr (fits_attr a) (parse_attribute p) a.
Proof. intros (_ & k & Hk & Hne & Ho). eapply build_attr; eassumption. Qed.
Lemma build_property p a : d_prop p a -> gives e_prop (fits_value (snd a)) (parse_property p) a.
Proof.
  destruct a as [key v]. intros (_ & k & y & Hk & Hne & Hi & Hy). cbn [fst snd] in *. unfold parse_property.
  eapply gives_iff; [eapply (gives_bind e_attr e_prop _ True); [apply (build_attr p k (key, Some v) Hk Hne); cbn [snd]; exists y; split; [exact Hi|]; unfold d_attr_val; tauto|]|].
  - intros x Hx _. unfold e_attr in Hx. destruct (at_value x) as [l|] eqn:El; [|discriminate]. apply gives_ok; [exact Logic.I|].
    injection Hx as H1 H2. unfold e_prop. cbn. congruence.
  - unfold fits_attr. cbn [snd]. split; [intros [H _]; auto|intros H; split; [intros w [= <-]; exact H|exact Logic.I]].
Qed.
Lemma build_attributes p l : Forall2 d_attr (into_inner p) l -> gives (map e_attr) (Forall fits_attr l) (parse_attributes p) l.
Proof.
  intros H. unfold parse_attributes. eapply gives_map; [|exact H]. intros q a Hq. rewrite (proj1 Hq). apply build_attribute. exact Hq.
Qed.
Lemma fits_attrs_some l : fits_attrs (Some l) <-> Forall fits_attr l.
Proof. unfold fits_attrs. split; [intros H; auto|intros H l' [= <-]; exact H]. Qed.
Lemma build_table_settings rl p l : d_settings rl p l -> gives (fun x => map e_attr (ts_attributes x)) (fits_attrs (Some l)) (parse_table_settings p) l.
Proof.
  intros [_ H]. unfold parse_table_settings. eapply gives_iff; [eapply (gives_bind (map e_attr) _ _ True); [apply build_attributes; exact H|]|rewrite fits_attrs_some; tauto].
  intros x Hx _. apply gives_ok; [exact Logic.I|exact Hx].
Qed.
Lemma build_group_settings rl p l : d_settings rl p l -> gives (fun x => map e_attr (gs_attributes x)) (fits_attrs (Some l)) (parse_table_group_settings p) l.
Proof.
  intros [_ H]. unfold parse_table_group_settings. eapply gives_iff; [eapply (gives_bind (map e_attr) _ _ True); [apply build_attributes; exact H|]|rewrite fits_attrs_some; tauto].
  intros x Hx _. apply gives_ok; [exact Logic.I|exact Hx].
Qed.
Lemma fold_snoc {A} (l : list A) : forall acc, fold_left (fun x a => x ++ [a]) l acc = acc ++ l.
Proof. induction l as [|a l IH]; intros acc; cbn [fold_left]; [rewrite app_nil_r; reflexivity|]. rewrite IH, <- app_assoc. reflexivity. Qed.
Lemma build_enum_settings rl p l : d_settings rl p l -> gives (fun x => map e_attr (evs_attributes x)) (fits_attrs (Some l)) (parse_enum_settings p) l.
Proof.
  intros [_ H]. unfold parse_enum_settings. eapply gives_iff; [|symmetry; apply fits_attrs_some].
  rewrite <- (app_nil_l l) at 2. rewrite <- fold_snoc.
  eapply (gives_fold d_attr (fun x => map e_attr (evs_attributes x)) (fun x a => x ++ [a])); [|exact H|exact Logic.I].
  intros acc q a Hq. rewrite (proj1 Hq). eapply gives_iff; [eapply (gives_bind e_attr _ _ True); [apply build_attribute; exact Hq|]|tauto].
  intros x Hx _. apply gives_ok; [exact Logic.I|]. cbn [evs_attributes]. rewrite map_app. cbn [map]. congruence.
Qed.

(** ** Notes *)
Lemma build_note p v : d_note p v -> exists n, parse_note_decl p = Ok n /\ e_note n = v.
Proof.
  intros (_ & q & x & w & Hi & Hq & Hx & Hs & ->). unfold parse_note_decl. rewrite Hi.
  destruct Hq as [-> | ->]; rewrite Hx, (proj1 Hs), (build_string _ _ Hs); (eexists; split; [reflexivity|reflexivity]).
Qed.

(** ** References *)
Lemma build_idents ps l (f : list ident_t -> pair -> outcome (list ident_t)) :
  (forall acc p, p_rule p = R_ident -> f acc p = let? i := parse_ident p in Ok (acc ++ [i])) ->
  Forall2 d_ident ps l -> forall acc, exists x, try_fold f ps acc = Ok (acc ++ x) /\ map id_str x = l.
Proof.
  intros Hf HF. induction HF as [|p w ps l Hp Hl IH]; intros acc; cbn [try_fold].
  - exists []. rewrite app_nil_r. auto.
  - rewrite Hf by exact (proj1 Hp). destruct (build_ident _ _ Hp) as (i & -> & Hi). cbn [bind].
    destruct (IH (acc ++ [i])) as (x & -> & Hx). exists (i :: x). rewrite <- app_assoc. split; [reflexivity|]. cbn. congruence.
Qed.
Definition comp_step comps p2 := match p_rule p2 with R_ident => let? i := parse_ident p2 in Ok (comps ++ [i]) | _ => throw_rules [R_ident] p2 end.
Lemma comp_step_ident acc q : p_rule q = R_ident -> comp_step acc q = let? i := parse_ident q in Ok (acc ++ [i]).
Proof. intros H. unfold comp_step. rewrite H. reflexivity. Qed.
Lemma build_end p e : d_end p e -> exists x, parse_ref_ident p = Ok x /\ e_ref_end x = e.
Proof.
  destruct e as [sc t cols]. intros (_ & H). cbn [e_schema e_table e_cols] in H. unfold parse_ref_ident. destruct sc as [sc|].
  - destruct H as (x & y & z & -> & Hx & Hy & Hz & HF). cbn [try_fold]. rewrite (proj1 Hx), (proj1 Hy), Hz.
    destruct (build_ident _ _ Hx) as (i & -> & Hi). cbn [bind]. destruct (build_ident _ _ Hy) as (j & -> & Hj). cbn [bind].
    destruct (build_idents (into_inner z) cols comp_step comp_step_ident HF []) as (cs & Hc & Hcs). unfold comp_step in Hc. rewrite Hc. cbn [omap bind fst app snd].
    eexists. split; [reflexivity|]. unfold e_ref_end. cbn. congruence.
  - destruct H as (x & z & -> & Hx & Hz & HF). cbn [try_fold]. rewrite (proj1 Hx), Hz.
    destruct (build_ident _ _ Hx) as (i & -> & Hi). cbn [bind].
    destruct (build_idents (into_inner z) cols comp_step comp_step_ident HF []) as (cs & Hc & Hcs). unfold comp_step in Hc. rewrite Hc. cbn [omap bind fst app snd].
    eexists. split; [reflexivity|]. unfold e_ref_end. cbn. congruence.
Qed.
Lemma build_rel p x : d_rel p x -> p_rule p = R_relation /\ relation_from_str (as_str p) = Some x.
Proof. intros (t & [Hr <-] & Hs). split; [exact Hr|]. apply relation_words. exact Hs. Qed.
Lemma build_inline p x : d_inline p x -> exists r, parse_ref_inline p = Ok r /\ e_inline r = x.
Proof.
  destruct x as [rl e]. intros (_ & a & b & Hi & Ha & Hb). cbn [fst snd] in *. unfold parse_ref_inline. rewrite Hi. cbn [try_fold].
  apply build_rel in Ha as [-> ->]. cbn [bind]. rewrite (proj1 Hb). destruct (build_end _ _ Hb) as (r & -> & He). cbn [bind].
  eexists. split; [reflexivity|]. unfold e_inline. cbn. congruence.
Qed.
Definition action_fits (a : a_attr) : Prop :=
  forall k w, In k ["update"; "delete"]%string -> a = (s k, Some (VEnum w)) -> exists x, action_word x = w.
Lemma build_action x q (P : Prop) : (P <-> forall w, snd (e_attr x) = Some (VEnum w) -> exists y, action_word y = w) ->
  gives (fun _ => tt) P (parse_ref_action x q) tt.
Proof.
  intros HP. unfold parse_ref_action. unfold e_attr in HP. cbn [snd] in HP. destruct (at_value x) as [[sp raw v]|]; cbn [option_map lit_value] in HP.
  - destruct v; try (apply gives_ok; [apply HP; intros w [= ]|reflexivity]).
    match goal with |- context [ref_action_from_str ?w0] => destruct (ref_action_from_str w0) as [y|] eqn:Ey end.
    + apply action_words in Ey. apply gives_ok; [|reflexivity]. apply HP. intros w [= <-]. exists y. auto.
    + apply gives_msg. rewrite HP. intros H. destruct (H _ eq_refl) as (y & Hy). symmetry in Hy. apply action_words in Hy. congruence.
  - apply gives_ok; [apply HP; intros w [= ]|reflexivity].
Qed.
Lemma build_rel_settings p l : d_settings R_rel_settings p l ->
  gives (fun x => map e_attr (rs_attributes x)) (Forall (fun a => fits_attr a /\ action_fits a) l) (parse_rel_settings p) l.
Proof.
  intros [_ H]. unfold parse_rel_settings. rewrite <- (app_nil_l l) at 2. rewrite <- fold_snoc.
  eapply (gives_fold d_attr (fun x => map e_attr (rs_attributes x)) (fun x a => x ++ [a])); [|exact H|exact Logic.I].
  intros acc q a Hq. rewrite (proj1 Hq). eapply gives_bind; [apply build_attribute; exact Hq|].
  intros x Hx _. assert (Hk : id_str (at_key x) = fst a) by (rewrite <- Hx; reflexivity).
  assert (Hv : snd (e_attr x) = snd a) by (rewrite Hx; reflexivity).
  assert (Hend : map e_attr (rs_attributes acc) ++ [a] = map e_attr (rs_attributes acc ++ [x])) by (rewrite map_app; cbn [map]; congruence).
  destruct (str_eqb_spec (id_str (at_key x)) (s "update")) as [E1|E1]; [|destruct (str_eqb_spec (id_str (at_key x)) (s "delete")) as [E2|E2]].
  - eapply gives_iff; [eapply (gives_bind (fun _ => tt) _ _ True); [eapply build_action; reflexivity|]|].
    + intros y _ _. apply gives_ok; [exact Logic.I|]. cbn [rs_attributes]. symmetry. exact Hend.
    + rewrite Hv. destruct a as [k v]. cbn [fst snd] in *. unfold action_fits. split.
      * intros [H1 _] k' w _ [= _ ->]. auto.
      * intros H1. split; [|exact Logic.I]. intros w ->. apply (H1 "update"%string); [left; reflexivity|]. congruence.
  - eapply gives_iff; [eapply (gives_bind (fun _ => tt) _ _ True); [eapply build_action; reflexivity|]|].
    + intros y _ _. apply gives_ok; [exact Logic.I|]. cbn [rs_attributes]. symmetry. exact Hend.
    + rewrite Hv. destruct a as [k v]. cbn [fst snd] in *. unfold action_fits. split.
      * intros [H1 _] k' w _ [= _ ->]. auto.
      * intros H1. split; [|exact Logic.I]. intros w ->. apply (H1 "delete"%string); [right; left; reflexivity|]. congruence.
  - apply gives_ok; [|cbn [rs_attributes]; symmetry; exact Hend]. intros k w [<-|[<-|[]]] ->; cbn [fst] in Hk; congruence.
Qed.
Lemma rel_fits_split l : Forall (fun a => fits_attr a /\ action_fits a) l <->
  Forall fits_attr l /\ forall k w, In k ["update"; "delete"]%string -> In (s k, Some (VEnum w)) l -> exists x, action_word x = w.
Proof.
  rewrite !Forall_forall. split.
  - intros H. split; [intros a Ha; apply H; exact Ha|]. intros k w Hk Ha. exact (proj2 (H _ Ha) k w Hk eq_refl).
  - intros [H1 H2] a Ha. split; [auto|]. intros k w Hk ->. eapply H2; eassumption.
Qed.
Lemma build_stmt p f nm : d_stmt p f ->
  gives (fun x => e_ref (mkRefBlock (rb_span x) nm (rb_rel x) (rb_lhs x) (rb_rhs x) (rb_settings x))) (fits_ref f) (parse_ref_stmt p)
    (mkARef (option_map id_str nm) (f_rel f) (f_lhs f) (f_rhs f) (f_settings f)).
Proof.
  destruct f as [n rl lhs rhs st]. intros (_ & a & x & b & ps & Hi & Ha & Hx & Hb & Hst). cbn [f_lhs f_rhs f_rel f_settings] in *.
  unfold parse_ref_stmt. rewrite Hi. cbn [app try_fold]. rewrite (proj1 Ha). destruct (build_end _ _ Ha) as (ea & -> & Hea). cbn [bind].
  assert (Hu : forall y, y = Undef -> relation_eqb y Undef = true) by (intros y ->; reflexivity).
  assert (Hrl : rl <> Undef) by (destruct Hx as (t & _ & Hs); intros ->; discriminate).
  cbn [relation_eqb bind]. apply build_rel in Hx as [-> ->]. cbn [bind]. rewrite (proj1 Hb). destruct (build_end _ _ Hb) as (eb & -> & Heb). cbn [bind].
  destruct (relation_eqb rl Undef) eqn:Erl; [destruct rl; try discriminate; congruence|]. cbn [bind].
  destruct st as [l|]; cbn [opt_den] in Hst.
  - destruct Hst as (q & -> & Hq). cbn [try_fold]. rewrite (proj1 Hq). eapply gives_iff; [eapply (gives_bind _ _ _ True);
      [eapply (gives_bind _ _ _ True); [apply build_rel_settings; exact Hq|]|]|].
    + intros y Hy _. apply (gives_ok (fun z => e_ref (mkRefBlock (rb_span z) nm (rb_rel z) (rb_lhs z) (rb_rhs z) (rb_settings z)))); [exact Logic.I|].
      unfold e_ref. cbn. rewrite Hy, Hea, Heb. reflexivity.
    + intros y Hy _. apply gives_ok; [exact Logic.I|exact Hy].
    + rewrite rel_fits_split. unfold fits_ref. cbn [f_settings]. rewrite fits_attrs_some. split.
      * intros [[[H1 H2] _] _]. split; [exact H1|]. intros l' k w [= <-]. apply H2.
      * intros [H1 H2]. split; [split; [split; [exact H1|]|]|]; try exact Logic.I. intros k w. apply H2. reflexivity.
  - subst ps. cbn [try_fold]. apply gives_ok.
    + split; [intros l [= ]|intros l k w [= ]].
    + unfold e_ref. cbn. rewrite Hea, Heb. reflexivity.
Qed.
Lemma build_ref p f : d_ref p f -> gives e_ref (fits_ref f) (parse_ref_decl p) f.
Proof.
  intros (_ & q & nm & st & Hi & Hq & Hin & Hnm & Hst). unfold parse_ref_decl. rewrite Hi.
  assert (HH : gives (fun o => match o with Some x => Some (e_ref x) | None => None end) (fits_ref f) (ref_decl_inner None (into_inner q)) (Some f)).
  { rewrite Hin. destruct f as [[w|] rl lhs rhs sx]; cbn [opt_den f_name] in Hnm.
    - destruct Hnm as (x & -> & Hx). cbn [app ref_decl_inner]. rewrite (proj1 Hx). destruct (build_ident _ _ Hx) as (i & -> & Hix). cbn [bind]. rewrite (proj1 Hst).
      eapply gives_omap; [apply (build_stmt _ _ (Some i) Hst)|]. intros y Hy. cbn beta. rewrite Hy. cbn. congruence.
    - subst nm. cbn [app ref_decl_inner]. rewrite (proj1 Hst). eapply gives_omap; [apply (build_stmt _ _ None Hst)|]. intros y Hy. cbn beta. rewrite Hy. reflexivity. }
  destruct Hq as [-> | ->]; (eapply gives_iff; [eapply (gives_bind _ _ _ True); [exact HH|]|tauto]);
    intros [y|] Hy _; try discriminate; (apply gives_ok; [exact Logic.I|congruence]).
Qed.
