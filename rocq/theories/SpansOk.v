(** * SpansOk: errors point into the source, and the one way to panic. *)

From Verif Require Import Rules RulesOk RulesOk2 RulesOk3 PegFacts ParserOk ParserOk3.
From Verif Require Import Err Parser Analyzer Api.

(** ** Valid spans are slices *)
Lemma boundary_split x n : is_boundary x n = true <-> exists a b, x = a ++ b /\ blen a = n.
Proof.
  split.
  - revert n. induction x as [|c x IH]; intros n; cbn [is_boundary]; destruct (N.eqb_spec n 0) as [->|Hn].
    + intros _. exists [], []. auto.
    + discriminate.
    + intros _. exists [], (c :: x). auto.
    + destruct (N.ltb_spec n (ulen c)); [discriminate|]. intros H1. apply IH in H1 as (a & b & -> & Ha).
      exists (c :: a), b. cbn [app blen]. split; [reflexivity|lia].
  - intros (a & b & -> & <-). apply is_boundary_app.
Qed.
Lemma app_prefix {A} (a b c d : list A) : a ++ b = c ++ d -> (List.length a <= List.length c)%nat -> exists e, c = a ++ e.
Proof.
  revert c. induction a as [|x a IH]; intros c E Hl; [exists c; reflexivity|].
  destruct c as [|y c]; cbn [List.length] in Hl; [lia|]. cbn [app] in E. injection E as -> E.
  destruct (IH c E) as (e & ->); [lia|]. exists e. reflexivity.
Qed.
Lemma valid_slice inp sp : valid_span inp sp <-> exists t, slice inp (fst sp) (snd sp) = Some t.
Proof.
  split.
  - intros (Hle & H1 & H2). apply boundary_split in H1 as (a & b & -> & Ha). apply boundary_split in H2 as (c & d & E & Hc).
    assert (Hp : exists e, c = a ++ e).
    { destruct (le_lt_dec (List.length a) (List.length c)) as [Hl|Hl]; [eapply app_prefix; [exact E|exact Hl]|].
      destruct (app_prefix c d a b) as (e & ->); [symmetry; exact E|lia|].
      rewrite blen_app in Ha. destruct e as [|x e]; [exists []; rewrite !app_nil_r; reflexivity|].
      cbn [blen] in Ha. pose proof (ulen_pos x). lia. }
    destruct Hp as (e & ->). rewrite <- app_assoc in E. apply app_inv_head in E as ->. rewrite blen_app in Hc.
    exists e. rewrite <- Ha, <- Hc. apply slice_mid.
  - intros (t & H). eapply shows_valid. exact H.
Qed.
Lemma valid_ok inp sp : valid_span inp sp <-> span_ok inp sp = true.
Proof.
  rewrite valid_slice. unfold span_ok. destruct (slice inp (fst sp) (snd sp)) as [t|]; split; eauto; try discriminate.
  intros (t & H). discriminate.
Qed.
Lemma valid_zero inp : valid_span inp (0, 0).
Proof. unfold valid_span. cbn [fst snd]. split; [lia|]. destruct inp; auto. Qed.
Lemma valid_whole inp : valid_span inp (0, blen inp).
Proof.
  apply valid_slice. exists inp. cbn [fst snd]. pose proof (slice_mid [] inp []) as H. cbn [app blen] in H.
  rewrite app_nil_r, N.add_0_l in H. exact H.
Qed.

Lemma filter_map_in {A B} (f : A -> option B) l b : In b (filter_map f l) <-> exists a, In a l /\ f a = Some b.
Proof.
  unfold filter_map. rewrite in_flat_map. split; intros (a & H1 & H2); exists a; (split; [exact H1|]).
  - destruct (f a) as [b'|]; [destruct H2 as [<-|[]]; reflexivity|destruct H2].
  - rewrite H2. left. reflexivity.
Qed.

(** ** Every part of a faithful schema has a valid span *)
Section Spans.
  Variables (inp : str) (x : schema_t).
  Hypothesis K : schema_ok inp x.

  Lemma in_tables t : In t (tables x) -> table_ok inp t.
  Proof.
    intros H. unfold tables in H. apply filter_map_in in H as (b & Hb & E). destruct K as (_ & _ & HF & _).
    apply (forall_in _ _ _ HF) in Hb. destruct b; try discriminate. injection E as ->. exact Hb.
  Qed.
  Lemma in_enums e : In e (enums x) -> enum_ok inp e.
  Proof.
    intros H. unfold enums in H. apply filter_map_in in H as (b & Hb & E). destruct K as (_ & _ & HF & _).
    apply (forall_in _ _ _ HF) in Hb. destruct b; try discriminate. injection E as ->. exact Hb.
  Qed.
  Lemma in_groups g : In g (table_groups x) -> group_ok inp g.
  Proof.
    intros H. unfold table_groups in H. apply filter_map_in in H as (b & Hb & E). destruct K as (_ & _ & HF & _).
    apply (forall_in _ _ _ HF) in Hb. destruct b; try discriminate. injection E as ->. exact Hb.
  Qed.
  Lemma in_projects p : In p (projects x) -> project_ok inp p.
  Proof.
    intros H. unfold projects in H. apply filter_map_in in H as (b & Hb & E). destruct K as (_ & _ & HF & _).
    apply (forall_in _ _ _ HF) in Hb. destruct b; try discriminate. injection E as ->. exact Hb.
  Qed.
  Lemma in_refs r : In r (refs x) -> ref_block_ok inp r.
  Proof.
    intros H. unfold refs in H. apply filter_map_in in H as (b & Hb & E). destruct K as (_ & _ & HF & _).
    apply (forall_in _ _ _ HF) in Hb. destruct b; try discriminate. injection E as ->. exact Hb.
  Qed.
  Lemma in_cols t c : column_of x t c -> table_col_ok inp c.
  Proof. intros [t' c' Ht Hc]. apply in_tables in Ht as (_ & _ & _ & HF & _). exact (forall_in _ _ _ HF Hc). Qed.
  Lemma in_settings t c st : column_of x t c -> tc_settings c = Some st -> col_settings_ok inp st.
  Proof. intros Hc E. apply in_cols in Hc as (_ & _ & _ & H & _). rewrite E in H. exact H. Qed.
  Lemma in_index t ib l1 d : index_of x t ib l1 d -> indexes_block_ok inp ib /\ indexes_def_ok inp d.
  Proof.
    intros [t' ib' l1' d' l2 Ht Ei E]. apply in_tables in Ht as (_ & _ & _ & _ & _ & H & _). rewrite Ei in H. cbn [opt_all] in H.
    split; [exact H|]. destruct H as (_ & H & _). apply (forall_in _ _ _ H). rewrite E. apply in_mid.
  Qed.
  Lemma in_attrs l a : settings_of x l -> In a l -> valid_span inp (at_span a).
  Proof.
    intros H Ha. cut (Forall (attribute_ok inp) l).
    { intros HF. apply (forall_in _ _ _ HF Ha). }
    destruct H as [t st Ht E|t c st Ht Hc E|e v st He Hv E|t ib d st Ht Hi Hd E|r st Hr E].
    - apply in_tables in Ht as (_ & _ & H & _). rewrite E in H. apply H.
    - assert (Hco : column_of x t c) by (constructor; assumption). apply (in_settings _ _ _ Hco E).
    - apply in_enums in He as (_ & _ & H & _). apply (forall_in _ _ _ H) in Hv as (_ & _ & H' & _). rewrite E in H'. apply H'.
    - apply in_split in Hd as (l1 & l2 & Hd). assert (Ho : index_of x t ib l1 d) by (econstructor; eassumption).
      apply in_index in Ho as (_ & _ & _ & H & _). rewrite E in H. apply H.
    - apply in_refs in Hr as (_ & _ & _ & _ & _ & H & _). rewrite E in H. apply H.
  Qed.
  Lemma default_valid t c st sp : column_of x t c -> tc_settings c = Some st -> default_at st sp -> valid_span inp sp.
  Proof.
    intros Hc E (l1 & a & l2 & l & E1 & _ & _ & E2 & <-). apply (in_settings _ _ _ Hc) in E as ((_ & HF & _) & _).
    rewrite E1 in HF. assert (Ha : In a (l1 ++ a :: l2)) by apply in_mid. apply (forall_in _ _ _ HF) in Ha as (_ & _ & Hv & _).
    rewrite E2 in Hv. eapply shows_valid. apply Hv.
  Qed.
  Lemma in_all_refs i : In i (all_refs x) -> valid_span inp (ir_span i) /\
    valid_span inp (ri_span (ir_lhs i)) /\ valid_span inp (ri_span (ir_rhs i)) /\
    (forall r, r = ir_lhs i \/ r = ir_rhs i ->
      opt_all (ident_ok inp) (ri_schema r) /\ ident_ok inp (ri_table r) /\ Forall (ident_ok inp) (ri_compositions r)).
  Proof.
    intros H. unfold all_refs in H. apply in_app_or in H as [H|H].
    - apply in_map_iff in H as (r & <- & Hr). apply in_refs in Hr as (H1 & _ & _ & H2 & H3 & _). cbn [ir_span ir_lhs ir_rhs].
      split; [exact H1|]. split; [apply H2|]. split; [apply H3|]. intros r' [->| ->].
      + destruct H2 as (_ & G1 & G2 & _ & G3 & _). auto.
      + destruct H3 as (_ & G1 & G2 & _ & G3 & _). auto.
    - apply in_flat_map in H as (t & Ht & H). unfold inline_refs in H. apply in_flat_map in H as (c & Hc & H).
      destruct (tc_settings c) as [st|] eqn:E; [|destruct H]. apply in_map_iff in H as (r & <- & Hr).
      assert (Hco : column_of x t c) by (constructor; assumption).
      pose proof (in_settings _ _ _ Hco E) as (_ & _ & H & _). apply (forall_in _ _ _ H) in Hr as (H1 & H2 & _).
      cbn [ir_span ir_lhs ir_rhs ri_span]. split; [exact H1|]. split; [exact H1|]. split; [apply H2|]. intros r' [->| ->].
      + cbn [ri_schema ri_table ri_compositions]. apply in_tables in Ht as (_ & (_ & G1 & G2 & _) & _).
        apply in_cols in Hco as (_ & G3 & _). auto.
      + destruct H2 as (_ & G1 & G2 & _ & G3 & _). auto.
  Qed.
  Lemma endpoint_valid r : endpoint_of x r -> valid_span inp (ri_span r) /\
      opt_all (ident_ok inp) (ri_schema r) /\ ident_ok inp (ri_table r) /\ Forall (ident_ok inp) (ri_compositions r).
  Proof.
    intros (i & Hi & E). apply in_all_refs in Hi as (_ & H1 & H2 & H). split; [destruct E as [->| ->]; assumption|]. apply H. exact E.
  Qed.
  Lemma ident_valid i : ident_ok inp i -> valid_span inp (id_span i).
  Proof. intros [H _]. eapply shows_valid. exact H. Qed.

  Lemma violation_valid e sp : violates x e sp -> valid_span inp sp.
  Proof.
    assert (Hw : valid_span inp (sb_span x)) by (destruct K as (_ & -> & _); apply valid_whole).
    assert (Hrep : forall A B (f : A -> B) l a, repeats f l a -> In a l) by (intros A B f l a (l1 & l2 & b & -> & _); apply in_mid).
    assert (Hct : forall t c, column_of x t c -> valid_span inp (ct_span (tc_type c))).
    { intros t c Hc. apply in_cols in Hc as (_ & _ & (H & _) & _). eapply shows_valid. exact H. }
    assert (Htc : forall t c, column_of x t c -> valid_span inp (tc_span c)) by (intros t c Hc; apply in_cols in Hc; apply Hc).
    intros V.
    destruct V as [p1 p2 l E|E|p pr Hp Hr|l a Hs Hr|t Hr|t c Ht Hr|l1 t l2 t' a E Ea Hin Ha|e Hr|e v He Hr|g Hr
      |g l1 it l2 it' id Hg E Hin H1 H2|g it Hg Hi Hn
      |t l1 c l2 c' Ht E Hp Hin Hp'|t c Hc (st & E & H1 & H2)|t c Hc (st & E & H1) H2|t c st Hc E H1 H2
      |t ib l1 d Hi E|t ib l1 d i Hi Hc Hn|t ib l1 d st Hi E H|t ib l1 d Hi H|t ib l1 d Hi H|t ib l1 d Hi H
      |t c raw tn Hc Hr Hb H1 H2|t c raw tn v Hc Hr Hb H1 H2|t c raw Hc Hr Hb H|t c raw so n st v Hc Hr Hb He Hd [_ H]
      |t c raw so n st v Hc Hr Hb He Hd _ H|t c raw so n st v sp Hc Hr Hb He Hd Hsp _ H
      |t c tn st v sp Hc Hm Hd Hsp H|t c tn st v sp Hc Hm Hd Hsp H|t c tn st v sp Hc Hm Hd Hsp H|t c st sp Hc Hd Hsp H
      |i Hi H|r so n sp Hr Hp [H _] Hsp|r so n sp Hr Hp _ H Hsp|r so n t0 Hr _ _ _ H|r so n t i Hr Hp Ht Hn Hi H|i l r lt rt lc rc Hk H
      |i l r lt rt lc rc e sp Hk H1 H Hsp|i lt rt e sp Hi Hl Hr Hlen H Hsp|l1 i l2 E H]; try exact Hw.
    - apply in_projects in Hp as (_ & _ & H & _). apply Hrep in Hr. apply (forall_in _ _ _ H Hr).
    - apply Hrep in Hr. eapply in_attrs; eassumption.
    - apply Hrep in Hr. apply in_tables in Hr as (_ & H & _). apply H.
    - apply Hrep in Hr. apply (Htc t). constructor; assumption.
    - assert (Ht : In t (tables x)) by (rewrite E; apply in_mid). apply in_tables in Ht as (_ & (_ & _ & _ & H & _) & _).
      rewrite Ea in H. apply ident_valid. exact H.
    - apply Hrep in Hr. apply in_enums in Hr as (_ & H & _). apply H.
    - apply Hrep in Hr. apply in_enums in He as (_ & _ & H & _). apply (forall_in _ _ _ H Hr).
    - apply Hrep in Hr. apply in_groups in Hr as (_ & H & _). apply ident_valid. exact H.
    - apply in_groups in Hg as (_ & _ & _ & H & _). assert (Hi : In it (tg_items g)) by (rewrite E; apply in_mid). apply (forall_in _ _ _ H Hi).
    - apply in_groups in Hg as (_ & _ & _ & H & _). apply (forall_in _ _ _ H Hi).
    - apply (Htc t). constructor; [exact Ht|rewrite E; apply in_mid].
    - exact (Htc _ _ Hc).
    - exact (Htc _ _ Hc).
    - apply (in_settings _ _ _ Hc) in E. apply E.
    - apply in_index in Hi as [H _]. apply H.
    - apply in_index in Hi as [_ (_ & H & _)]. apply (forall_in _ _ _ H) in Hc. cbn [indexes_col_ok] in Hc. apply ident_valid. exact Hc.
    - apply in_index in Hi as [_ (_ & _ & Hd & _)]. rewrite E in Hd. apply Hd.
    - apply in_index in Hi as [_ Hd]. apply Hd.
    - apply in_index in Hi as [_ Hd]. apply Hd.
    - apply in_index in Hi as [_ Hd]. apply Hd.
    - exact (Hct _ _ Hc).
    - exact (Hct _ _ Hc).
    - exact (Hct _ _ Hc).
    - exact (Hct _ _ Hc).
    - exact (Hct _ _ Hc).
    - eapply default_valid; [exact Hc|apply Hd|exact Hsp].
    - eapply default_valid; [exact Hc|apply Hd|exact Hsp].
    - eapply default_valid; [exact Hc|apply Hd|exact Hsp].
    - eapply default_valid; [exact Hc|apply Hd|exact Hsp].
    - eapply default_valid; [exact Hc|apply Hd|exact Hsp].
    - apply in_all_refs in Hi as [Hi _]. exact Hi.
    - apply endpoint_valid in Hr as (_ & Hs & _). subst sp. destruct (ri_schema r) as [i|]; [apply ident_valid; exact Hs|apply valid_zero].
    - apply endpoint_valid in Hr as (Hs & _ & Hi & _). destruct Hsp as [[_ ->]|[_ ->]]; [exact Hs|apply ident_valid; exact Hi].
    - apply endpoint_valid in Hr as (Hs & _). exact Hs.
    - apply endpoint_valid in Hr as (_ & _ & _ & Hs). apply ident_valid. exact (forall_in _ _ _ Hs Hi).
    - destruct Hk as (Hi & _). apply in_all_refs in Hi as [Hi _]. exact Hi.
    - destruct Hk as (Hi & _). apply in_all_refs in Hi as (G1 & G2 & G3 & _). destruct (ir_rel i); injection Hsp as -> ->; assumption.
    - apply in_all_refs in Hi as (G1 & G2 & G3 & _). destruct (ir_rel i); injection Hsp as -> ->; assumption.
    - assert (Hi : In i (all_refs x)) by (rewrite E; apply in_mid). apply in_all_refs in Hi as [Hi _]. exact Hi.
  Qed.

  (** A default setting of a parsed column has a place. *)
  Lemma default_placed t c st v : column_of x t c -> has_default c st v -> distinct_keys (cs_attributes st) ->
    exists sp, default_at st sp.
  Proof.
    intros Hc [E Ev] Hd. apply (in_settings _ _ _ Hc) in E as (_ & (_ & _ & _ & _ & _ & H & _) & _).
    destruct H as [[_ H]|(l1 & a & l2 & El & (k & [<-|[]] & Hk) & _ & Hr)]; [congruence|].
    unfold reads_value in Hr. rewrite Ev in Hr. destruct (at_value a) as [l|] eqn:Ea; [|discriminate].
    exists (lit_span l), l1, a, l2, l. split; [exact El|]. split; [|auto].
    apply Forall_forall. intros b Hb Eb. unfold distinct_keys in Hd. rewrite El, map_app in Hd. cbn [map] in Hd.
    apply NoDup_split in Hd as [Hd _]. apply Hd. rewrite Hk, <- Eb. apply in_map. exact Hb.
  Qed.
End Spans.

Lemma analyze_parsed inp x : schema_ok inp x ->
  match analyze x with
  | Ok an => analyzed_ok x an
  | Err (ErSem e sp) => violates x e sp /\ valid_span inp sp
  | Err _ => False
  | Panic => unsized_default x
  end.
Proof.
  intros K. pose proof (analyze_ok x) as H. destruct (analyze x) as [an|[| | |e sp]|]; cbn [ok_or] in H; auto.
  - split; [exact H|]. eapply violation_valid; eassumption.
  - destruct H as [H|(e & sp & H & Hb)].
    + destruct H as [t c tn st v Hc Hm Hl Hd Ha|t c Hc H|t c st v Hc Hd Hk H].
      * exists t, c, tn, st, v. auto.
      * exfalso. apply (in_cols _ _ K) in Hc as (_ & _ & (_ & name & E & _) & _). exact (H name E).
      * exfalso. destruct (default_placed _ _ K _ _ _ _ Hc Hd Hk) as (sp & Hs). exact (H sp Hs).
    + exfalso. apply (violation_valid _ _ K), valid_ok in H. destruct K as (K0 & _). congruence.
Qed.
