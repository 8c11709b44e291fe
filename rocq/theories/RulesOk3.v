(** * RulesOk3: the analyzer accepts exactly the well-formed schemas. *)

From Verif Require Import Rules RulesOk RulesOk2.
From Verif Require Import Err Analyzer.

Definition analyzed_ok (x : schema_t) (an : analyzed_indexer) : Prop :=
  wf x /\ indexed_refs an = all_refs x /\ describes (tables x) (enums x) (an_indexer an).

Lemma inlined_refs ts l : Forall2 (fun t r => r = inline_refs t /\ table_keys_wf t) ts l ->
  List.concat l = flat_map inline_refs ts /\ Forall table_keys_wf ts.
Proof.
  induction 1 as [|t r ts l [-> Hk] HF [IH1 IH2]]; [split; [reflexivity|constructor]|].
  cbn [List.concat flat_map]. rewrite IH1. split; [reflexivity|]. constructor; assumption.
Qed.

Lemma analyze_ok x : ok_or x (analyzed_ok x) (analyze x).
Proof.
  unfold analyze. cbv zeta.
  eapply ok_bind; [apply check_projects_ok|]. intros [] Hp; cbv beta in Hp.
  eapply ok_bind; [apply index_table_ok|]. intros ix0 (Ht & D0 & G0).
  eapply ok_bind; [apply index_enums_ok; assumption|]. intros ix1 (He & D1 & G1).
  pose proof Ht as Ht0. destruct Ht as (Nt & Na & Nc).
  eapply ok_bind; [apply index_table_groups_ok; assumption|]. intros ix (Hg & D).
  eapply ok_bind; [apply (ok_map x _ (fun t r => r = inline_refs t /\ table_keys_wf t)); intros t Hin; apply check_table_ok; exact Hin|].
  intros inl Hi; cbv beta in Hi. apply inlined_refs in Hi as [Hi Hk]. rewrite Hi.
  eapply ok_bind; [apply check_types_ok; [apply He|exact Ht0|exact D]|]. intros ts' (R & Hc).
  change (map indexed_ref_from_block (refs x) ++ flat_map inline_refs (tables x)) with (all_refs x).
  eapply ok_bind; [apply check_refs_ok; try assumption|].
  - intros [] (Hr & Hn). cbn [ok_or]. split; [|split; [reflexivity|exact D]].
    split; [exact Hp|]. split; [split; [exact Nt|split; [exact Na|exact Nc]]|]. auto 10.
Qed.

(** ** A violation breaks well-formedness *)
Lemma repeats_nodup {A B} (f : A -> B) l a : NoDup (map f l) -> ~ repeats f l a.
Proof. intros H H'. apply repeats_dup in H'. contradiction. Qed.
Lemma forall_in {A} (P : A -> Prop) l a : Forall P l -> In a l -> P a.
Proof. intros H Hin. rewrite Forall_forall in H. auto. Qed.

Lemma f2_combine {A B C D} (P : A -> C -> Prop) (Q : B -> D -> Prop) (R : C -> D -> Prop) L : forall L' lc lr l r,
  Forall2 P L lc -> Forall2 Q L' lr -> Forall2 R lc lr -> In (l, r) (combine L L') -> exists c d, P l c /\ Q r d /\ R c d.
Proof.
  induction L as [|a L IH]; intros L' lc lr l r H1 H2 H3 Hin; [destruct Hin|].
  destruct L' as [|b L']; [destruct Hin|].
  inversion H1 as [|? c ? lc' Hp H1']; subst. inversion H2 as [|? d ? lr' Hq H2']; subst.
  inversion H3 as [|? ? ? ? Hr H3']; subst. destruct Hin as [[= -> ->]|Hin]; [eauto|].
  eapply IH; eassumption.
Qed.

Section Broken.
  Variable x : schema_t.
  Hypothesis W : wf x.
  Let ts := tables x.

  Lemma w_als : NoDup (aliases ts). Proof. apply W. Qed.
  Lemma w_tab : NoDup (map table_name ts). Proof. apply W. Qed.
  Lemma w_col t : In t ts -> NoDup (map col_name (tb_cols t)).
  Proof. intros Ht. destruct W as (_ & (_ & _ & H) & _). apply (forall_in _ _ _ H) in Ht. apply Ht. Qed.
  Lemma w_keys t : In t ts -> table_keys_wf t.
  Proof. intros Ht. destruct W as (_ & _ & _ & _ & H & _). exact (forall_in _ _ _ H Ht). Qed.
  Lemma w_index t ib l1 d : index_of x t ib l1 d -> index_def_wf (tb_cols t) l1 d.
  Proof.
    intros [t' ib' l1' d' l2 Ht Hi E]. pose proof (w_keys _ Ht) as (_ & _ & H). rewrite Hi in H. cbn [opt_all] in H.
    eapply H. exact E.
  Qed.
  Lemma w_type t c : column_of x t c -> col_type_wf (enums x) c.
  Proof.
    intros [t' c' Ht Hc]. destruct W as (_ & _ & _ & _ & _ & H & _). apply (forall_in _ _ _ H) in Ht. exact (forall_in _ _ _ Ht Hc).
  Qed.
  Lemma w_ref i : In i (all_refs x) -> ref_wf ts i.
  Proof. intros Hi. destruct W as (_ & _ & _ & _ & _ & _ & H & _). exact (forall_in _ _ _ H Hi). Qed.
  Lemma w_col_keys t c : column_of x t c -> col_keys_wf c.
  Proof. intros [t' c' Ht Hc]. pose proof (w_keys _ Ht) as (H & _). exact (forall_in _ _ _ H Hc). Qed.
  Lemma w_settings l : settings_of x l -> distinct_keys l.
  Proof.
    destruct 1 as [t st Ht E|t c st Ht Hc E|e v st He Hv E|t ib d st Ht Hi Hd E|r st Hr E].
    - destruct W as (_ & (_ & _ & H) & _). apply (forall_in _ _ _ H) in Ht. destruct Ht as (Ht & _). rewrite E in Ht. exact Ht.
    - destruct W as (_ & (_ & _ & H) & _). apply (forall_in _ _ _ H) in Ht. destruct Ht as (_ & Ht & _).
      apply (forall_in _ _ _ Ht) in Hc. rewrite E in Hc. exact Hc.
    - destruct W as (_ & _ & (_ & H) & _). apply (forall_in _ _ _ H) in He. destruct He as (_ & He).
      apply (forall_in _ _ _ He) in Hv. rewrite E in Hv. exact Hv.
    - apply in_split in Hd as (l1 & l2 & Hd). assert (Ho : index_of x t ib l1 d) by (econstructor; eassumption).
      pose proof (w_index _ _ _ _ Ho) as (_ & _ & H & _). rewrite E in H. exact H.
    - assert (Hi : In (mkIndexedRef (rb_span r) (rb_rel r) (rb_lhs r) (rb_rhs r) (rb_settings r)) (all_refs x)).
      { unfold all_refs. apply in_or_app. left. apply in_map_iff. eauto. }
      apply w_ref in Hi as (H & _). cbn [ir_settings] in H. rewrite E in H. exact H.
  Qed.

  (** The endpoint's table is there. *)
  Lemma w_target r : endpoint_of x r -> exists t, target ts r t /\ incl (endpoint_cols r) (map col_name (tb_cols t)).
  Proof.
    intros (i & Hi & E). apply w_ref in Hi as (_ & lt & rt & lcs & rcs & Hl & Hr & Fl & Fr & _).
    assert (Hinc : forall t L cs, Forall2 (names_col t) L cs -> incl (map id_str L) (map col_name (tb_cols t))).
    { induction 1 as [|a b L' cs' [H1 H2] HF IH]; [intros ? []|]. cbn [map]. intros k [<-|Hk]; [|apply IH; exact Hk].
      rewrite <- H2. apply in_map. exact H1. }
    destruct E as [->| ->]; [exists lt|exists rt]; (split; [assumption|]; eapply Hinc; eassumption).
  Qed.
  Lemma target_unique r t t' : target ts r t -> target ts r t' -> t = t'.
  Proof.
    intros H1 H2. pose proof (proj2 H1) as P1. pose proof (target_name _ _ _ _ _ w_als H2 P1) as E2.
    pose proof (target_name _ _ _ _ _ w_als H1 P1) as E1.
    eapply (NoDup_map_inj table_name); [exact w_tab|apply H1|apply H2|congruence].
  Qed.
  Lemma names_col_unique t i c c' : In t ts -> names_col t i c -> names_col t i c' -> c = c'.
  Proof. intros Ht [H1 H2] [H3 H4]. eapply (NoDup_map_inj col_name); [exact (w_col _ Ht)|assumption|assumption|congruence]. Qed.
  Lemma w_linked i l r lt rt lc rc : linked x i l r lt rt lc rc ->
    same_type lc rc /\ (List.length (ri_compositions (ir_lhs i)) = 1%nat -> single_keys (ir_rel i) (key_col lc) (key_col rc)).
  Proof.
    intros (Hi & Hin & Hlen & Hl & Hr & Hlc & Hrc).
    pose proof (w_ref _ Hi) as (_ & lt' & rt' & lcs & rcs & Hl' & Hr' & Fl & Fr & Ft & Hk & _).
    rewrite (target_unique _ _ _ Hl' Hl) in *. rewrite (target_unique _ _ _ Hr' Hr) in *.
    destruct (f2_combine _ _ _ _ _ _ _ _ _ Fl Fr Ft Hin) as (c & d & H1 & H2 & H3).
    rewrite (names_col_unique _ _ _ _ (proj1 Hl) H1 Hlc) in H3. rewrite (names_col_unique _ _ _ _ (proj1 Hr) H2 Hrc) in H3.
    split; [exact H3|]. intros E1.
    assert (E2 : List.length (ri_compositions (ir_rhs i)) = 1%nat) by congruence.
    destruct (ri_compositions (ir_lhs i)) as [|l' [|? ?]]; try discriminate.
    destruct (ri_compositions (ir_rhs i)) as [|r' [|? ?]]; try discriminate.
    destruct Hin as [[= -> ->]|[]].
    inversion Fl as [|? c' ? ? Hp HF]; subst. inversion HF; subst.
    inversion Fr as [|? d' ? ? Hq HF']; subst. inversion HF'; subst.
    rewrite (names_col_unique _ _ _ _ (proj1 Hl) Hp Hlc) in Hk. rewrite (names_col_unique _ _ _ _ (proj1 Hr) Hq Hrc) in Hk.
    apply Hk; reflexivity.
  Qed.
  Lemma w_default t c tn st v : column_of x t c -> col_means c tn -> has_default c st v ->
    default_fits tn (ct_args (tc_type c)) (cs_nullable st) v.
  Proof.
    intros Hc (raw & Hr & Hm) Hd. apply w_type in Hc as (raw' & tn' & Hr' & Hm' & _ & H).
    rewrite Hr in Hr'. injection Hr' as <-. rewrite (type_means_fun _ _ _ Hm Hm'). apply (H _ _ Hd).
  Qed.
  Lemma w_args t c raw tn : column_of x t c -> ct_type_name (tc_type c) = CT_Raw raw -> builtin raw tn ->
    args_fit tn (ct_args (tc_type c)).
  Proof.
    intros Hc Hr Hb. apply w_type in Hc as (raw' & tn' & Hr' & Hm' & H & _).
    rewrite Hr in Hr'. injection Hr' as <-.
    pose proof (type_means_fun _ _ _ (tm_builtin _ _ Hb) Hm') as <-. auto.
  Qed.
  Lemma w_enum t c raw so n st v : column_of x t c -> ct_type_name (tc_type c) = CT_Raw raw -> not_builtin raw ->
    enum_type raw so n -> has_default c st v -> enum_value (enums x) so n (value_to_string v).
  Proof.
    intros Hc Hr Hb He Hd. apply w_type in Hc as (raw' & tn' & Hr' & _ & _ & H).
    rewrite Hr in Hr'. injection Hr' as <-. apply (H _ _ Hd); assumption.
  Qed.

  Lemma nothing_violated e sp : ~ violates x e sp.
  Proof.
    intros V.
    destruct V as [p1 p2 l E|E|p pr Hp Hr|l a Hs Hr|t Hr|t c Ht Hr|l1 t l2 t' a E Ea Hin Ha|e Hr|e v He Hr|g Hr
      |g l1 it l2 it' id Hg E Hin H1 H2|g it Hg Hi Hn
      |t l1 c l2 c' Ht E Hp Hin Hp'|t c Hc (st & E & H1 & H2)|t c Hc (st & E & H1) H2|t c st Hc E H1 H2
      |t ib l1 d Hi E|t ib l1 d i Hi Hc Hn|t ib l1 d st Hi E H|t ib l1 d Hi H|t ib l1 d Hi H|t ib l1 d Hi H
      |t c raw tn Hc Hr Hb H1 H2|t c raw tn v Hc Hr Hb H1 H2|t c raw Hc Hr Hb H|t c raw so n st v Hc Hr Hb He Hd [_ H]
      |t c raw so n st v Hc Hr Hb He Hd _ H|t c raw so n st v sp Hc Hr Hb He Hd _ _ H
      |t c tn st v sp Hc Hm Hd _ H|t c tn st v sp Hc Hm Hd _ H|t c tn st v sp Hc Hm Hd _ H|t c st sp Hc Hd _ H
      |i Hi H|r so n sp Hr Hp [H _] _|r so n sp Hr Hp _ H _|r so n t0 Hr _ _ _ H|r so n t i Hr Hp Ht Hn Hi H|i l r lt rt lc rc Hk H
      |i l r lt rt lc rc e sp Hk H1 H _|i lt rt e sp Hi Hl Hr Hlen H _|l1 i l2 E H].
    - destruct W as ((p & H & _) & _). congruence.
    - destruct W as ((p & H & _) & _). congruence.
    - destruct W as ((p' & H & Hd) & _). rewrite H in Hp. destruct Hp as [<-|[]]. exact (repeats_nodup _ _ _ Hd Hr).
    - exact (repeats_nodup _ _ _ (w_settings _ Hs) Hr).
    - exact (repeats_nodup _ _ _ w_tab Hr).
    - exact (repeats_nodup _ _ _ (w_col _ Ht) Hr).
    - pose proof w_als as Hd. unfold ts, aliases in Hd. rewrite E, flat_map_app in Hd. cbn [flat_map] in Hd.
      unfold alias_of in Hd at 2. rewrite Ea in Hd. cbn in Hd. apply NoDup_split in Hd as [Hd _]. apply Hd.
      apply in_flat_map. exists t'. split; [exact Hin|]. rewrite Ha. left. reflexivity.
    - destruct W as (_ & _ & (Hd & _) & _). exact (repeats_nodup _ _ _ Hd Hr).
    - destruct W as (_ & _ & (_ & H) & _). apply (forall_in _ _ _ H) in He. exact (repeats_nodup _ _ _ (proj1 He) Hr).
    - destruct W as (_ & _ & _ & (Hd & _) & _). exact (repeats_nodup _ _ _ Hd Hr).
    - destruct W as (_ & _ & _ & (_ & H) & _). apply (forall_in _ _ _ H) in Hg. destruct Hg as (ids & HF & Hd).
      rewrite E in HF. apply Forall2_app_inv_l in HF as (i1 & i2 & F1 & F2 & ->).
      inversion F2 as [|? id' ? ? Hid F2']; subst.
      rewrite (item_denotes_fun _ _ _ _ w_als Hid H1) in Hd.
      apply (f2_in_l _ _ _ _ F1) in Hin as (id2 & Hin & H3). rewrite (item_denotes_fun _ _ _ _ w_als H3 H2) in Hin.
      apply NoDup_split in Hd as [Hd _]. contradiction.
    - destruct W as (_ & _ & _ & (_ & H) & _). apply (forall_in _ _ _ H) in Hg. destruct Hg as (ids & HF & _).
      apply (f2_in_l _ _ _ _ HF) in Hi as (id & _ & Hi). exact (Hn id Hi).
    - pose proof (w_keys _ Ht) as (_ & H & _). exact (H _ _ _ E Hp _ Hin Hp').
    - apply w_col_keys in Hc. unfold col_keys_wf in Hc. rewrite E in Hc. destruct Hc as [Hc _]. destruct (Hc H1) as [Hc' _]. contradiction.
    - apply w_col_keys in Hc. unfold col_keys_wf in Hc. rewrite E in Hc. destruct Hc as [Hc _]. destruct (Hc H1) as [_ Hc']. contradiction.
    - apply w_col_keys in Hc. unfold col_keys_wf in Hc. rewrite E in Hc. destruct Hc as [_ Hc]. tauto.
    - apply w_index in Hi as (H & _). contradiction.
    - apply w_index in Hi as (_ & H & _). apply Hn. apply H. unfold named. apply in_flat_map. exists (ICString i). split; [exact Hc|]. left. reflexivity.
    - apply w_index in Hi as (_ & _ & _ & G1 & G2 & G3 & _). tauto.
    - apply w_index in Hi as (_ & _ & _ & _ & _ & _ & G1 & _). contradiction.
    - apply w_index in Hi as (_ & _ & _ & _ & _ & _ & _ & G1 & _). contradiction.
    - apply w_index in Hi as (_ & _ & _ & _ & _ & _ & _ & _ & G1). contradiction.
    - pose proof (w_args _ _ _ _ Hc Hr Hb) as [H|[H _]]; contradiction.
    - pose proof (w_args _ _ _ _ Hc Hr Hb) as [H|[_ H]]; [rewrite H in H1; destruct H1|]. apply H2. exact (forall_in _ _ _ H H1).
    - apply w_type in Hc as (raw' & tn & Hr' & Hm & _). rewrite Hr in Hr'. injection Hr' as <-.
      destruct Hm as [tn Hb'|so n _ He]; [exact (Hb tn Hb')|exact (H so n He)].
    - destruct (w_enum _ _ _ _ _ _ _ Hc Hr Hb He Hd) as (e & Hin & Hn & _). apply (H e Hin). rewrite Hn. reflexivity.
    - destruct (w_enum _ _ _ _ _ _ _ Hc Hr Hb He Hd) as (e & Hin & Hn & _). apply H. apply in_map_iff. eauto.
    - exact (H (w_enum _ _ _ _ _ _ _ Hc Hr Hb He Hd)).
    - exact (H (w_default _ _ _ _ _ Hc Hm Hd)).
    - exact (H (w_default _ _ _ _ _ Hc Hm Hd)).
    - exact (H (w_default _ _ _ _ _ Hc Hm Hd)).
    - pose proof (w_type _ _ Hc) as (raw & tn & _ & _ & _ & G). destruct (G _ _ Hd) as (_ & G' & _). exact (H G').
    - pose proof (w_ref _ Hi) as (_ & lt & rt & lcs & rcs & _ & _ & F1 & F2 & F3 & _).
      apply f2_length in F1, F2, F3. congruence.
    - destruct (w_target _ Hr) as (t & Ht & _). apply (H t (proj1 Ht)). rewrite (target_name _ _ _ _ _ w_als Ht Hp). reflexivity.
    - destruct (w_target _ Hr) as (t & Ht & _). apply H. apply in_map_iff. exists t.
      split; [exact (target_name _ _ _ _ _ w_als Ht Hp)|apply Ht].
    - destruct (w_target _ Hr) as (t & Ht & _). exact (H t Ht).
    - destruct (w_target _ Hr) as (t' & Ht' & Hinc).
      assert (t = t').
      { eapply (NoDup_map_inj table_name); [exact w_tab|exact Ht|apply Ht'|]. rewrite Hn, (target_name _ _ _ _ _ w_als Ht' Hp). reflexivity. }
      subst t'. apply H. apply Hinc. unfold endpoint_cols. apply in_map. exact Hi.
    - exact (H (proj1 (w_linked _ _ _ _ _ _ _ Hk))).
    - exact (H (proj2 (w_linked _ _ _ _ _ _ _ Hk) H1)).
    - pose proof (w_ref _ Hi) as (_ & lt' & rt' & lcs & rcs & Hl' & Hr' & F1 & _ & _ & _ & G).
      rewrite (target_unique _ _ _ Hl' Hl), (target_unique _ _ _ Hr' Hr) in G. apply f2_length in F1. apply H, G. lia.
    - destruct W as (_ & _ & _ & _ & _ & _ & _ & G). destruct (G _ _ _ E) as [G1 G2]. destruct H as [H|(o & Ho & H)]; [contradiction|].
      exact (G2 o Ho H).
  Qed.
  Lemma no_panic_wf : ~ panics x.
  Proof.
    intros [t c tn st v Hc Hm Hl Hd Ha|t c Hc H|t c st v Hc Hd _ H].
    - pose proof (w_default _ _ _ _ _ Hc Hm Hd) as [H1 H2]. rewrite Ha in *. destruct Hl as [Hl|Hl].
      + specialize (H1 Hl). discriminate.
      + destruct (H2 Hl) as (n & H & _). discriminate.
    - apply w_type in Hc as (raw & tn & Hr & _). exact (H raw Hr).
    - apply w_type in Hc as (raw & tn & _ & _ & _ & G). destruct (G _ _ Hd) as ((sp & Hs) & _). exact (H sp Hs).
  Qed.
End Broken.

Lemma analyze_accepts x : (exists an, analyze x = Ok an) <-> wf x.
Proof.
  pose proof (analyze_ok x) as H. split.
  - intros (an & E). rewrite E in H. apply H.
  - intros W. destruct (analyze x) as [an|[| | |e sp]|]; cbn [ok_or] in H; try contradiction.
    + eauto.
    + exfalso. exact (nothing_violated _ W _ _ H).
    + exfalso. destruct H as [H|(e & sp & H & _)]; [exact (no_panic_wf _ W H)|exact (nothing_violated _ W _ _ H)].
Qed.
