(** * ParserOk2: settings, references, types and blocks (continues [ParserOk]). *)

From Verif Require Export ParserOk.
From Verif Require Import Shape Parser.

(** ** Reading settings *)
Lemma last_says_nil {A} ks (reads : attribute_t -> A -> Prop) (d : A) : last_says ks reads d [] d.
Proof. left. split; [constructor|reflexivity]. Qed.
Lemma last_says_hit {A} ks (reads : attribute_t -> A -> Prop) (d : A) l a v : keyed ks a -> reads a v -> last_says ks reads d (l ++ [a]) v.
Proof. intros Hk Hr. right. exists l, a, []. repeat split; auto. Qed.
Lemma last_says_miss {A} ks (reads : attribute_t -> A -> Prop) (d : A) l a v : ~ keyed ks a -> last_says ks reads d l v ->
  last_says ks reads d (l ++ [a]) v.
Proof.
  intros Hk [[Hl ->]|(l1 & b & l2 & -> & Hb & Hl & Hr)].
  - left. split; [|reflexivity]. apply Forall_app. auto.
  - right. exists l1, b, (l2 ++ [a]). rewrite <- app_assoc. repeat split; auto. apply Forall_app. auto.
Qed.
Lemma has_key_nil k : ~ has_key k [].
Proof. intros (a & [] & _). Qed.
Lemma has_key_snoc k l a : has_key k (l ++ [a]) <-> has_key k l \/ key_of a = s k.
Proof.
  unfold has_key. split.
  - intros (b & Hb & E). apply in_app_iff in Hb as [Hb|[<-|[]]]; [left; eauto|auto].
  - intros [(b & Hb & E)|E]; [exists b|exists a]; (split; [apply in_app_iff|]); cbn; auto.
Qed.

Ltac keyneq :=
  match goal with
  | H1 : key_of ?a = ?x, H2 : key_of ?a = ?y |- _ =>
      exfalso; rewrite H1 in H2; vm_compute in H2; discriminate H2
  | H1 : key_of ?a = ?x, H2 : key_of ?a <> ?x |- _ => exfalso; exact (H2 H1)
  end.
Ltac unkeyed := let k := fresh "k" in let Hk := fresh in let E := fresh in
  intros (k & Hk & E); cbn [In] in Hk; repeat (destruct Hk as [<-|Hk]); try contradiction; keyneq.
Ltac keyed1 := first [ eexists; split; [left; reflexivity|assumption]
                     | eexists; split; [right; left; reflexivity|assumption] ].
Ltac says :=
  match goal with
  | |- last_says _ _ _ (_ ++ [_]) _ =>
      first [ apply last_says_miss; [unkeyed|assumption]
            | apply last_says_hit; [keyed1|] ]
  end.

Lemma col_settings_say_attr l acc a : col_settings_say l acc -> col_settings_say (l ++ [a]) (col_settings_add_attr acc a).
Proof.
  destruct acc as [sp attrs pk un nu inc nt df rf]. intros (H1 & H2 & H3 & H4 & H5 & H6 & H7).
  cbn [cs_attributes cs_is_pk cs_is_unique cs_is_incremental cs_nullable cs_default cs_note] in *. subst attrs.
  unfold col_settings_add_attr. fold (key_of a).
  destruct (str_eqb_spec (key_of a) (s "unique")) as [K1|K1].
  2: destruct (str_eqb_spec (key_of a) (s "primary key")) as [K2|K2]; cbn [orb].
  3: destruct (str_eqb_spec (key_of a) (s "pk")) as [K3|K3].
  4: destruct (str_eqb_spec (key_of a) (s "null")) as [K4|K4].
  5: destruct (str_eqb_spec (key_of a) (s "not null")) as [K5|K5].
  6: destruct (str_eqb_spec (key_of a) (s "increment")) as [K6|K6].
  7: destruct (str_eqb_spec (key_of a) (s "default")) as [K7|K7].
  8: destruct (str_eqb_spec (key_of a) (s "note")) as [K8|K8].
  all: unfold col_settings_say;
    cbn [cs_attributes cs_is_pk cs_is_unique cs_is_incremental cs_nullable cs_default cs_note];
    (split; [reflexivity|]); rewrite !has_key_snoc;
    (split; [|split; [|split]];
      [ try (rewrite H2) | try (rewrite H3) | try (rewrite H4)
      | repeat split; says; try assumption; try reflexivity; try (left; split; [assumption|reflexivity]);
        try (right; split; [assumption|reflexivity]) ]);
    try (split; [intros HH; tauto|]); try (intros HH); try tauto;
    try (repeat match goal with H : _ \/ _ |- _ => destruct H as [H|H] end; solve [tauto | keyneq]).
Qed.

Definition attrs_inv (inp : str) (start : N) (l : list attribute_t) (lo : N) : Prop :=
  Forall (attribute_ok inp) l /\ in_order start (map at_span l) lo.
Lemma attrs_inv_nil inp lo : attrs_inv inp lo [] lo.
Proof. split; [constructor|cbn; lia]. Qed.
Lemma attrs_inv_mono inp st l lo lo' : attrs_inv inp st l lo -> lo <= lo' -> attrs_inv inp st l lo'.
Proof. intros [H1 H2] Hl. split; [exact H1|]. eapply in_order_hi; eassumption. Qed.
Lemma attrs_inv_snoc inp st l p a : attrs_inv inp st l (p_start p) -> attribute_ok inp a -> at_span a = span_of p ->
  p_start p <= p_end p -> attrs_inv inp st (l ++ [a]) (p_end p).
Proof.
  intros [H1 H2] Ha Hs Hp. split; [apply Forall_app; auto|]. rewrite map_app. cbn [map]. rewrite Hs.
  apply (in_order_snoc st _ (p_start p) (span_of p)); cbn [span_of fst snd]; [exact H2|lia|exact Hp].
Qed.
Lemma attrs_inv_ok inp p l : pl inp p -> attrs_inv inp (p_start p) l (p_end p) -> attributes_ok inp (span_of p) l.
Proof. intros Hp [H1 H2]. split; [apply pl_valid; exact Hp|]. split; [exact H1|exact H2]. Qed.

Lemma index_type_known v : match indexes_type_from_str v with
  | Some t => index_type_word t = v | None => forall t, index_type_word t <> v end.
Proof.
  unfold indexes_type_from_str.
  destruct (str_eqb_spec v (s "btree")) as [->|H1]; [reflexivity|].
  destruct (str_eqb_spec v (s "gin")) as [->|H2]; [reflexivity|].
  destruct (str_eqb_spec v (s "gist")) as [->|H3]; [reflexivity|].
  destruct (str_eqb_spec v (s "hash")) as [->|H4]; [reflexivity|].
  intros []; cbn [index_type_word]; congruence.
Qed.
Lemma action_known v : match ref_action_from_str v with
  | Some t => action_word t = v | None => forall t, action_word t <> v end.
Proof.
  unfold ref_action_from_str.
  destruct (str_eqb_spec v (s "no action")) as [->|H1]; [reflexivity|].
  destruct (str_eqb_spec v (s "cascade")) as [->|H2]; [reflexivity|].
  destruct (str_eqb_spec v (s "restrict")) as [->|H3]; [reflexivity|].
  destruct (str_eqb_spec v (s "set null")) as [->|H4]; [reflexivity|].
  destruct (str_eqb_spec v (s "set default")) as [->|H5]; [reflexivity|].
  intros []; cbn [action_word]; congruence.
Qed.

Lemma index_settings_say_nil sp : index_settings_say [] (indexes_settings0 sp).
Proof.
  unfold index_settings_say, indexes_settings0. cbn. repeat split; try discriminate; try apply last_says_nil; try constructor;
    try (intros H; apply has_key_nil in H; contradiction).
Qed.

Lemma parse_indexes_settings_ok inp p : sh_settings R_indexes_settings p -> pl inp p ->
  good inp (fun x => indexes_settings_ok inp x /\ is_span x = span_of p) (parse_indexes_settings p).
Proof.
  intros [Hr Hs] Hp. unfold parse_indexes_settings.
  set (I := fun lo (x : indexes_settings_t) => is_span x = span_of p /\
     attrs_inv inp (p_start p) (is_attributes x) lo /\ index_settings_say (is_attributes x) x).
  assert (H0 : I (p_start p) (indexes_settings0 (span_of p))).
  { split; [reflexivity|]. split; [apply attrs_inv_nil|apply index_settings_say_nil]. }
  eapply good_impl.
  - apply (try_fold_good inp sh_attribute _ I) with (lo := p_start p) (hi := p_end p); [| |exact H0|exact Hs|apply Hp].
    + intros lo lo' x (A1 & A2 & A3) Hl. split; [exact A1|]. split; [eapply attrs_inv_mono; eassumption|exact A3].
    + intros acc q (A1 & A2 & A3) Hq Hpq. rewrite (proj1 Hq).
      eapply good_bind; [apply parse_attribute_ok; eassumption|]. intros a [Ha Hsa].
      pose proof (attrs_inv_snoc _ _ _ _ _ A2 Ha Hsa (pl_lo _ _ Hpq)) as Hsn.
      destruct acc as [sp attrs ty un pk nt nm]. cbn [is_span is_attributes] in *. fold (key_of a).
      destruct A3 as (_ & B1 & B2 & B3 & B4 & B5 & B6).
      cbn [is_is_pk is_is_unique is_type is_name is_note] in *.
      assert (Hty : key_of a <> s "type" ->
        Forall (fun a => key_of a = s "type" -> exists v, reads_index_type a v) (attrs ++ [a])).
      { intros Hk. apply Forall_app. split; [exact B4|]. constructor; [|constructor]. intros E; contradiction. }
      destruct (str_eqb_spec (key_of a) (s "unique")) as [K1|K1].
      2: destruct (str_eqb_spec (key_of a) (s "pk")) as [K2|K2].
      3: destruct (str_eqb_spec (key_of a) (s "type")) as [K3|K3].
      4: destruct (str_eqb_spec (key_of a) (s "name")) as [K4|K4].
      5: destruct (str_eqb_spec (key_of a) (s "note")) as [K5|K5].
      3: { unfold attr_value_string. destruct (at_value a) as [l|] eqn:El; cbn [option_map].
           - pose proof (index_type_known (value_to_string (lit_value l))) as Hk.
             destruct (indexes_type_from_str (value_to_string (lit_value l))) as [t|].
             + cbn [good]. split; [exact A1|]. split; [exact Hsn|].
               unfold index_settings_say. cbn [is_attributes is_is_pk is_is_unique is_type is_name is_note].
               rewrite !has_key_snoc.
               assert (Hrd : reads_index_type a (Some t)) by (unfold reads_index_type; rewrite El; eauto).
               split; [reflexivity|]. split; [|split; [|split; [says; exact Hrd|split; [|split; says]]]].
               * rewrite B1. split; [tauto|]. intros [H|H]; [exact H|keyneq].
               * rewrite B2. split; [tauto|]. intros [H|H]; [exact H|keyneq].
               * apply Forall_app. split; [exact B4|]. constructor; [|constructor]. eauto.
             + cbn [good throw_msg]. right; left. exists a, l. repeat split; auto; try apply Ha.
           - cbn [good]. split; [exact A1|]. split; [exact Hsn|].
             unfold index_settings_say. cbn [is_attributes is_is_pk is_is_unique is_type is_name is_note].
             rewrite !has_key_snoc.
             assert (Hrd : reads_index_type a None) by (unfold reads_index_type; rewrite El; reflexivity).
             split; [reflexivity|]. split; [|split; [|split; [says; exact Hrd|split; [|split; says]]]].
             * rewrite B1. split; [tauto|]. intros [H|H]; [exact H|keyneq].
             * rewrite B2. split; [tauto|]. intros [H|H]; [exact H|keyneq].
             * apply Forall_app. split; [exact B4|]. constructor; [|constructor]. eauto. }
      all: cbn [good]; (split; [exact A1|]); (split; [exact Hsn|]);
        unfold index_settings_say; cbn [is_attributes is_is_pk is_is_unique is_type is_name is_note];
        rewrite !has_key_snoc; (split; [reflexivity|]);
        (split; [|split; [|split; [says|split; [|split; says; try reflexivity]]]]);
        try (apply Hty; intros E; keyneq);
        try rewrite B1; try rewrite B2;
        (split; [tauto|intros [H|H]; first [exact H | tauto | keyneq]]).
  - intros x (A1 & A2 & A3). split; [|exact A1]. split; [|exact A3].
    rewrite A1. apply attrs_inv_ok; [exact Hp|exact A2].
Qed.

Lemma parse_enum_settings_ok inp p : sh_settings R_enum_settings p -> pl inp p ->
  good inp (fun x => attributes_ok inp (evs_span x) (evs_attributes x) /\ enum_settings_say (evs_attributes x) x /\
    evs_span x = span_of p) (parse_enum_settings p).
Proof.
  intros [Hr Hs] Hp. unfold parse_enum_settings.
  set (I := fun lo (x : enum_value_settings_t) => evs_span x = span_of p /\
     attrs_inv inp (p_start p) (evs_attributes x) lo /\ enum_settings_say (evs_attributes x) x).
  assert (H0 : I (p_start p) (mkEnumValueSettings (span_of p) [] None)).
  { split; [reflexivity|]. split; [apply attrs_inv_nil|]. split; [reflexivity|apply last_says_nil]. }
  eapply good_impl.
  - apply (try_fold_good inp sh_attribute _ I) with (lo := p_start p) (hi := p_end p); [| |exact H0|exact Hs|apply Hp].
    + intros lo lo' x (A1 & A2 & A3) Hl. split; [exact A1|]. split; [eapply attrs_inv_mono; eassumption|exact A3].
    + intros acc q (A1 & A2 & A3) Hq Hpq. rewrite (proj1 Hq).
      eapply good_bind; [apply parse_attribute_ok; eassumption|]. intros a [Ha Hsa].
      pose proof (attrs_inv_snoc _ _ _ _ _ A2 Ha Hsa (pl_lo _ _ Hpq)) as Hsn.
      destruct acc as [sp attrs nt]. cbn [evs_span evs_attributes evs_note] in *. fold (key_of a).
      destruct A3 as (_ & B1). cbn [evs_note] in B1. cbn [good]. split; [exact A1|]. split; [exact Hsn|].
      split; [reflexivity|]. cbn [evs_attributes evs_note].
      destruct (str_eqb_spec (key_of a) (s "note")) as [K|K]; says. reflexivity.
  - intros x (A1 & A2 & A3). split; [|split; [exact A3|exact A1]].
    rewrite A1. apply attrs_inv_ok; [exact Hp|exact A2].
Qed.

Lemma parse_ref_action_ok inp a q : attribute_ok inp a -> at_span a = span_of q -> keyed ["update"; "delete"]%string a ->
  good inp (reads_action a) (parse_ref_action a q).
Proof.
  intros Ha Hs Hk. unfold parse_ref_action. destruct (at_value a) as [[sp raw v]|] eqn:E.
  - destruct v as [w|w|z|d|b|h|e|]; try (cbn [good]; unfold reads_action; rewrite E; reflexivity).
    pose proof (action_known w) as Hw. destruct (ref_action_from_str w) as [x|]; cbn [good throw_msg].
    + unfold reads_action. rewrite E. eauto.
    + right; right. exists a, (mkLiteral sp raw (VEnum w)), w. repeat split; auto; apply Ha.
  - cbn [good]. unfold reads_action. rewrite E. reflexivity.
Qed.

Lemma parse_rel_settings_ok inp p : sh_settings R_rel_settings p -> pl inp p ->
  good inp (fun x => ref_settings_ok inp x /\ rs_span x = span_of p) (parse_rel_settings p).
Proof.
  intros [Hr Hs] Hp. unfold parse_rel_settings.
  set (I := fun lo (x : ref_settings_t) => rs_span x = span_of p /\
     attrs_inv inp (p_start p) (rs_attributes x) lo /\ ref_settings_say (rs_attributes x) x).
  assert (H0 : I (p_start p) (mkRefSettings (span_of p) [] None None)).
  { split; [reflexivity|]. split; [apply attrs_inv_nil|]. split; [reflexivity|].
    split; [apply last_says_nil|]. split; [apply last_says_nil|constructor]. }
  eapply good_impl.
  - apply (try_fold_good inp sh_attribute _ I) with (lo := p_start p) (hi := p_end p); [| |exact H0|exact Hs|apply Hp].
    + intros lo lo' x (A1 & A2 & A3) Hl. split; [exact A1|]. split; [eapply attrs_inv_mono; eassumption|exact A3].
    + intros acc q (A1 & A2 & A3) Hq Hpq. rewrite (proj1 Hq).
      eapply good_bind; [apply parse_attribute_ok; eassumption|]. intros a [Ha Hsa].
      pose proof (attrs_inv_snoc _ _ _ _ _ A2 Ha Hsa (pl_lo _ _ Hpq)) as Hsn.
      destruct acc as [sp attrs od ou]. cbn [rs_span rs_attributes rs_on_delete rs_on_update] in *. fold (key_of a).
      destruct A3 as (_ & B1 & B2 & B3). cbn [rs_on_delete rs_on_update] in B1, B2.
      destruct (str_eqb_spec (key_of a) (s "update")) as [K|K].
      2: destruct (str_eqb_spec (key_of a) (s "delete")) as [K2|K2].
      * assert (Hk : keyed ["update"; "delete"]%string a) by keyed1.
        eapply good_bind; [apply (parse_ref_action_ok inp a q Ha Hsa Hk)|]. intros x Hx. cbn [good].
        split; [exact A1|]. split; [exact Hsn|]. split; [reflexivity|]. cbn [rs_attributes rs_on_delete rs_on_update].
        split; [says; exact Hx|]. split; [says|]. apply Forall_app. split; [exact B3|]. constructor; eauto.
      * assert (Hk : keyed ["update"; "delete"]%string a) by keyed1.
        eapply good_bind; [apply (parse_ref_action_ok inp a q Ha Hsa Hk)|]. intros x Hx. cbn [good].
        split; [exact A1|]. split; [exact Hsn|]. split; [reflexivity|]. cbn [rs_attributes rs_on_delete rs_on_update].
        split; [says|]. split; [says; exact Hx|]. apply Forall_app. split; [exact B3|]. constructor; eauto.
      * cbn [good].
        split; [exact A1|]. split; [exact Hsn|]. split; [reflexivity|]. cbn [rs_attributes rs_on_delete rs_on_update].
        split; [says|]. split; [says|]. apply Forall_app. split; [exact B3|]. constructor; [|constructor].
        intros Hk. exfalso. revert Hk. unkeyed.
  - intros x (A1 & A2 & A3). split; [|exact A1]. split; [|exact A3].
    rewrite A1. apply attrs_inv_ok; [exact Hp|exact A2].
Qed.

(** ** Notes *)
Lemma parse_note_decl_ok inp p : sh_note_decl p -> pl inp p ->
  good inp (fun n => note_ok inp n /\ inside (nb_span n) (span_of p)) (parse_note_decl p).
Proof.
  intros (Hr & q & Hq & _ & Hsh) (_ & _ & Hp). unfold parse_note_decl. rewrite Hq in *.
  apply pls_cons in Hp as (H1 & H2 & H3). apply pls_nil in H3.
  assert (Hn : exists rl v, (rl = R_note_short \/ rl = R_note_block) /\ p_rule q = rl /\ into_inner q = [v] /\
            sh_string_value NonAtomic v).
  { destruct Hsh as [[Hrq (v & Hv & Hs)]|[Hrq (v & Hv & Hs)]]; eexists _, v; eauto. }
  destruct Hn as (rl & v & Hrl & Hrq & Hv & Hs).
  assert (Hgoal : good inp (fun n => note_ok inp n /\ inside (nb_span n) (span_of p))
    (omap (fun x => mkNote (span_of q) (mkLiteral (span_of v) (as_str v) (VString x))) (parse_string_value v))).
  { destruct (parse_string_value_ok _ _ Hs) as (x & -> & Hx). cbn [omap good].
    pose proof (pl_valid _ _ H2) as Hqv. destruct H2 as (_ & Hl & Hpq). rewrite Hv in Hpq.
    apply pls_cons in Hpq as (H4 & H5 & H6). apply pls_nil in H6. pose proof (pl_lo _ _ H5).
    split; [|apply span_inside; lia].
    split; [exact Hqv|]. cbn [nb_value nb_span lit_span lit_value lit_raw].
    split; [split; [apply H5|]|split; [apply span_inside; lia|eauto]].
    cbn [lit_raw lit_value]. destruct Hx as [Hx|Hx]; [apply sp_single|apply sp_triple]; exact Hx. }
  destruct Hrl as [-> | ->]; rewrite Hrq, Hv, (proj1 Hs); exact Hgoal.
Qed.

(** ** References *)
Lemma parse_idents_ok inp ps : forall lo hi (acc : list ident_t) st,
  Forall sh_id ps -> pls inp lo hi ps -> Forall (ident_ok inp) acc -> in_order st (map id_span acc) lo ->
  exists l, try_fold (fun comps p2 => match p_rule p2 with
      | R_ident => let? i := parse_ident p2 in Ok (comps ++ [i])
      | _ => throw_rules [R_ident] p2 end) ps acc = Ok (acc ++ l) /\
    List.length l = List.length ps /\
    Forall (ident_ok inp) (acc ++ l) /\ in_order st (map id_span (acc ++ l)) hi.
Proof.
  induction ps as [|p ps IH]; intros lo hi acc st Hs Hp Ha Ho; cbn [try_fold].
  - exists []. rewrite app_nil_r. apply pls_nil in Hp. split; [reflexivity|]. split; [reflexivity|].
    split; [exact Ha|]. eapply in_order_hi; eassumption.
  - inversion Hs as [|? ? Hs1 Hs2]; subst. apply pls_cons in Hp as (H1 & H2 & H3). rewrite (proj1 Hs1).
    destruct (parse_ident_ok _ _ Hs1 H2) as (i & -> & Hi & Hin). cbn [bind].
    destruct (IH (p_end p) hi (acc ++ [i]) st Hs2 H3) as (l & E & Hll & Hl & Hl2).
    + apply Forall_app. auto.
    + rewrite map_app. cbn [map]. unfold inside in Hin. cbn [span_of fst snd] in Hin.
      eapply in_order_hi; [apply (in_order_snoc st _ lo (id_span i)); [exact Ho|lia|lia]|lia].
    + exists (i :: l). rewrite E, <- app_assoc. cbn [app]. rewrite <- app_assoc in Hl, Hl2. cbn [app] in Hl, Hl2.
      cbn [List.length]. rewrite Hll. auto.
Qed.
Lemma parse_ref_ident_ok inp p : sh_ref_ident p -> pl inp p ->
  exists r, parse_ref_ident p = Ok r /\ ref_ident_ok inp r /\ ri_span r = span_of p.
Proof.
  intros [Hr Hsh] Hpl. pose proof (pl_valid _ _ Hpl) as Hv. destruct Hpl as (_ & _ & Hp). unfold parse_ref_ident.
  destruct Hsh as [(t & c & Hi & Ht & Hc)|(sc & t & c & Hi & Hsc & Ht & Hc)]; rewrite Hi in *; cbn [try_fold].
  - apply pls_cons in Hp as (H1 & H2 & H3). apply pls_cons in H3 as (H4 & H5 & H6). apply pls_nil in H6.
    rewrite (proj1 Ht), (proj1 Hc).
    destruct (parse_ident_ok _ _ Ht H2) as (i & -> & Hok & Hin). unfold inside in Hin. cbn [span_of fst snd] in Hin.
    cbn [bind app]. destruct Hc as (_ & Hc & Hne). destruct H5 as (_ & _ & H5).
    destruct (parse_idents_ok inp _ _ _ [] (p_start c) Hc H5 (Forall_nil _) (N.le_refl _)) as (l & E & Hll & Hl & Ho).
    cbn [app] in E, Hl, Ho. rewrite E. cbn [omap bind fst snd].
    eexists. split; [reflexivity|]. split; [|reflexivity].
    split; [exact Hv|]. cbn [ri_schema ri_table ri_compositions ri_span opt_all opt_list app].
    split; [exact I|]. split; [exact Hok|].
    split; [intros ->; destruct (into_inner c); [congruence|discriminate]|]. split; [exact Hl|].
    unfold within. cbn [in_order span_of fst snd]. split; [lia|]. split; [lia|].
    eapply in_order_lo; [eapply in_order_hi; [exact Ho|lia]|lia].
  - apply pls_cons in Hp as (H1 & H2 & H3). apply pls_cons in H3 as (H4 & H5 & H6).
    apply pls_cons in H6 as (H7 & H8 & H9). apply pls_nil in H9.
    rewrite (proj1 Ht), (proj1 Hc), (proj1 Hsc).
    destruct (parse_ident_ok _ _ Hsc H2) as (i & -> & Hok & Hin). unfold inside in Hin. cbn [span_of fst snd] in Hin.
    destruct (parse_ident_ok _ _ Ht H5) as (i2 & -> & Hok2 & Hin2). unfold inside in Hin2. cbn [span_of fst snd] in Hin2.
    cbn [bind app]. destruct Hc as (_ & Hc & Hne). destruct H8 as (_ & _ & H8).
    destruct (parse_idents_ok inp _ _ _ [] (p_start c) Hc H8 (Forall_nil _) (N.le_refl _)) as (l & E & Hll & Hl & Ho).
    cbn [app] in E, Hl, Ho. rewrite E. cbn [omap bind fst snd].
    eexists. split; [reflexivity|]. split; [|reflexivity].
    split; [exact Hv|]. cbn [ri_schema ri_table ri_compositions ri_span opt_all opt_list app].
    split; [exact Hok|]. split; [exact Hok2|].
    split; [intros ->; destruct (into_inner c); [congruence|discriminate]|]. split; [exact Hl|].
    unfold within. cbn [in_order span_of fst snd]. split; [lia|]. split; [lia|]. split; [lia|]. split; [lia|].
    eapply in_order_lo; [eapply in_order_hi; [exact Ho|lia]|lia].
Qed.
Lemma relation_known p : sh_relation p -> exists r t, relation_from_str (as_str p) = Some r /\
  relation_eqb r Undef = false /\ symbol r = Some t /\ as_str p = t.
Proof. intros [_ [E|[E|[E|E]]]]; rewrite E; eexists _, _; repeat split; reflexivity. Qed.

Lemma parse_ref_inline_ok inp p : sh_ref_inline p -> pl inp p ->
  exists r, parse_ref_inline p = Ok r /\ ref_inline_ok inp r /\ rin_span r = span_of p.
Proof.
  intros [Hr (rl & i & Hi & Hrl & Hid)] Hpl. pose proof (pl_valid _ _ Hpl) as Hv.
  destruct Hpl as (_ & _ & Hp). unfold parse_ref_inline. rewrite Hi in *. cbn [try_fold].
  apply pls_cons in Hp as (H1 & H2 & H3). apply pls_cons in H3 as (H4 & H5 & H6). apply pls_nil in H6.
  rewrite (proj1 Hrl), (proj1 Hid).
  destruct (relation_known _ Hrl) as (r & t & -> & _ & Hsy & Et).
  destruct (parse_ref_ident_ok _ _ Hid H5) as (x & E & Hx & Hxs). cbn [bind]. rewrite E. cbn [bind].
  eexists. split; [reflexivity|]. split; [|reflexivity]. split; [exact Hv|]. split; [exact Hx|].
  exists (span_of rl), t. cbn [rin_rel rin_span rin_rhs]. split; [exact Hsy|]. split; [rewrite <- Et; apply H2|].
  rewrite Hxs. pose proof (pl_lo _ _ H2). pose proof (pl_lo _ _ H5).
  unfold within. cbn [in_order span_of fst snd]. repeat split; lia.
Qed.

Lemma parse_ref_stmt_ok inp p : sh_ref_stmt p -> pl inp p ->
  good inp (fun r => ref_block_ok inp r /\ rb_span r = span_of p /\ rb_name r = None) (parse_ref_stmt p).
Proof.
  intros [Hr (l & rl & r & Hi & Hl & Hrl & Hrr)] Hpl. pose proof (pl_valid _ _ Hpl) as Hv.
  destruct Hpl as (_ & _ & Hp). unfold parse_ref_stmt.
  destruct (relation_known _ Hrl) as (rel & t & Er & Hnu & Hsy & Et).
  assert (Hc : exists tail, into_inner p = l :: rl :: r :: tail /\
     (tail = [] \/ exists x, tail = [x] /\ sh_settings R_rel_settings x)).
  { destruct Hi as [Hi|(x & Hi & Hx)]; rewrite Hi; eexists; (split; [reflexivity|]); eauto. }
  destruct Hc as (tail & Hi' & Ht). rewrite Hi' in *. clear Hi.
  apply pls_cons in Hp as (H1 & H2 & H3). apply pls_cons in H3 as (H4 & H5 & H6).
  apply pls_cons in H6 as (H7 & H8 & H9). cbn [try_fold].
  rewrite (proj1 Hl), (proj1 Hrl), (proj1 Hrr).
  destruct (parse_ref_ident_ok _ _ Hl H2) as (li & El & Hlok & Hls). rewrite El.
  cbn [bind]. change (relation_eqb Undef Undef) with true. cbv iota. cbn [bind]. rewrite Er. cbn [bind].
  destruct (parse_ref_ident_ok _ _ Hrr H8) as (ri & Eri & Hrok & Hrs). rewrite Eri. cbn [bind]. rewrite Hnu. cbn [bind].
  pose proof (pl_lo _ _ H2). pose proof (pl_lo _ _ H5). pose proof (pl_lo _ _ H8).
  destruct Ht as [->|(x & -> & Hx)].
  - apply pls_nil in H9. cbn [try_fold good]. split; [|split; reflexivity].
    split; [exact Hv|]. cbn [rb_name rb_lhs rb_rhs rb_settings rb_rel rb_span opt_all opt_list].
    repeat (split; [first [exact I | assumption]|]).
    exists (span_of rl), t. split; [exact Hsy|]. split; [rewrite <- Et; apply H5|].
    rewrite Hls, Hrs. unfold within. cbn [in_order span_of fst snd]. repeat split; lia.
  - apply pls_cons in H9 as (H10 & H11 & H12). apply pls_nil in H12. pose proof (pl_lo _ _ H11).
    cbn [try_fold]. rewrite (proj1 Hx).
    assert (Hg : good inp (fun r => ref_block_ok inp r /\ rb_span r = span_of p /\ rb_name r = None)
      (bind (parse_rel_settings x) (fun y => Ok (mkRefBlock (span_of p) None rel li ri (Some y))))).
    { eapply good_bind; [apply parse_rel_settings_ok; eassumption|]. intros y [Hy Hys]. cbn [good].
      split; [|split; reflexivity].
      split; [exact Hv|]. cbn [rb_name rb_lhs rb_rhs rb_settings rb_rel rb_span opt_all opt_list].
      repeat (split; [first [exact I | assumption]|]).
      exists (span_of rl), t. split; [exact Hsy|]. split; [rewrite <- Et; apply H5|].
      rewrite Hls, Hrs, Hys. unfold within. cbn [in_order span_of fst snd]. repeat split; lia. }
    destruct (parse_rel_settings x); exact Hg.
Qed.
Lemma parse_ref_decl_ok inp p : sh_ref_decl p -> pl inp p ->
  good inp (fun r => ref_block_ok inp r /\ inside (rb_span r) (span_of p) /\
     opt_all (fun n => inside (id_span n) (span_of p)) (rb_name r)) (parse_ref_decl p).
Proof.
  intros (Hr & q & Hq & _ & Hsh) (_ & _ & Hp). unfold parse_ref_decl. rewrite Hq in *.
  apply pls_cons in Hp as (H1 & H2 & H3). apply pls_nil in H3.
  assert (Hn : exists rl st, (rl = R_ref_short \/ rl = R_ref_block) /\ p_rule q = rl /\ sh_ref_stmt st /\
     (into_inner q = [st] \/ exists n, into_inner q = [n; st] /\ sh_id n)).
  { destruct Hsh as [[Hrq (v & Hv & Hs)]|[Hrq (v & Hv & Hs)]]; eexists _, v; eauto. }
  destruct Hn as (rl & st & Hrl & Hrq & Hst & Hv).
  assert (Hgoal : good inp (fun r => exists b, r = Some b /\ ref_block_ok inp b /\ inside (rb_span b) (span_of p) /\
     opt_all (fun n => inside (id_span n) (span_of p)) (rb_name b)) (ref_decl_inner None (into_inner q))).
  { destruct H2 as (_ & Hl & Hpq). destruct Hv as [Hv|(n & Hv & Hn)]; rewrite Hv in *; cbn [ref_decl_inner].
    - apply pls_cons in Hpq as (H4 & H5 & H6). apply pls_nil in H6. pose proof (pl_lo _ _ H5).
      rewrite (proj1 Hst). eapply good_omap; [apply parse_ref_stmt_ok; eassumption|].
      intros b (Hb & Hbs & Hbn). eexists. split; [reflexivity|]. cbn [rb_span rb_name opt_all].
      split; [|split; [rewrite Hbs; apply span_inside; lia|exact I]].
      destruct Hb as (A1 & _ & _ & A4). split; [exact A1|]. split; [exact I|]. split; [exact I|exact A4].
    - apply pls_cons in Hpq as (H4 & H5 & H6). apply pls_cons in H6 as (H7 & H8 & H9). apply pls_nil in H9.
      pose proof (pl_lo _ _ H5). pose proof (pl_lo _ _ H8).
      rewrite (proj1 Hn). destruct (parse_ident_ok _ _ Hn H5) as (i & -> & Hi & Hin). cbn [bind ref_decl_inner].
      unfold inside in Hin. cbn [span_of fst snd] in Hin.
      rewrite (proj1 Hst). eapply good_omap; [apply parse_ref_stmt_ok; eassumption|].
      intros b (Hb & Hbs & Hbn). eexists. split; [reflexivity|]. cbn [rb_span rb_name opt_all].
      split; [|split; [rewrite Hbs; apply span_inside; lia|unfold inside; cbn [span_of fst snd]; lia]].
      destruct Hb as (A1 & _ & _ & A4). split; [exact A1|]. split; [exact Hi|].
      split; [cbn [opt_all rb_name rb_span]; rewrite Hbs; cbn [span_of fst]; lia|exact A4]. }
  destruct Hrl as [-> | ->]; rewrite Hrq; (eapply good_bind; [exact Hgoal|]); intros r (b & -> & Hb); cbn [good]; exact Hb.
Qed.
