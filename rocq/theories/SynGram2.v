(** * SynGram2: blocks and whole texts. *)

From Verif Require Export SynType.

(** ** Keywords and words *)
Fixpoint clash (a b : str) : bool :=
  match a, b with
  | c :: a, d :: b => if lower c =? lower d then clash a b else true
  | _, _ => false
  end.
Lemma clash_ok a b w m : clash a b = true -> map lower w = map lower b -> strip_prefix_ci a (w ++ m) = None.
Proof.
  revert b w. induction a as [|c a IH]; intros [|d b] [|e w] H Hw; try discriminate. cbn [map] in Hw. injection Hw as He Hw.
  cbn [clash] in H. cbn [app strip_prefix_ci]. rewrite He. destruct (lower c =? lower d); [|reflexivity]. rewrite (IH b w H Hw). reflexivity.
Qed.
Lemma X_clash k k' i r : clash (s k) (s k') = true -> kw k' i r -> X (CI k) i.
Proof.
  intros Hc (w & m & -> & Hw & _) off. unfold CI. cbn [eval]. rewrite (clash_ok _ (s k')); [reflexivity|exact Hc|].
  apply any_case_ci in Hw. symmetry. exact Hw.
Qed.
Lemma same_letter_letter c d : same_letter c d -> letter d -> letter c.
Proof. unfold same_letter, letter. lia. Qed.
Lemma any_case_letters w k : any_case w k -> Forall letter k -> Forall letter w.
Proof.
  induction 1 as [|c d w k Hc Hw IH]; intros Hk; constructor; apply Forall_cons_iff in Hk as [H1 H2]; [eapply same_letter_letter; eassumption|auto].
Qed.
Lemma kw_first k i r c x : kw k i r -> s k = c :: x -> letter c -> hd_in letter i.
Proof.
  intros (w & m & -> & Hw & _) Hk Hc. rewrite Hk in Hw. inversion Hw; subst. eexists _, _. split; [reflexivity|]. eapply same_letter_letter; eassumption.
Qed.
Lemma kw_fin k i r : kw k i r -> fin r = r.
Proof. intros (w & m & _ & _ & Hl). eapply lay_idem. exact Hl. Qed.
Lemma tok_fin k i r : tok k i r -> fin r = r.
Proof. intros (m & _ & Hl). eapply lay_idem. exact Hl. Qed.
Lemma letters_words k : Forall letter k -> Forall word_char k.
Proof. apply Forall_impl. apply letter_word. Qed.
Lemma note_letters k : any_case k (s "Note") -> Forall letter k /\ k <> [].
Proof.
  intros H. split; [eapply any_case_letters; [exact H|]|intros ->; inversion H]. cbn [s]. repeat constructor; unfold letter; cbn; lia.
Qed.

Lemma word_solid c x : word_char c -> solid (c :: x).
Proof. intros H. apply solid_char; [|]; unfold word_char, letter, digit, is_ws, is_nl in *; lia. Qed.
Lemma fin_word c x : word_char c -> fin (c :: x) = c :: x.
Proof. intros H. apply fin_solid, word_solid. exact H. Qed.
Lemma fin_space x : fin (32 :: x) = fin x.
Proof.
  destruct (lay_of x) as (g & E0 & Hg & Hn). apply lay_fin. exists (32 :: g). cbn [app]. rewrite <- E0. split; [reflexivity|]. split; [|exact Hn].
  assert (W : is_ws 32) by (unfold is_ws; auto).
  destruct Hg as [Hg|[Hr Hg]]; [left; constructor; assumption|]. right. split; [exact Hr|].
  destruct Hg as [g Hg|g body Hg Hb]; [apply ge_gap; constructor; assumption|apply (ge_line (32 :: g)); [constructor; assumption|exact Hb]].
Qed.
Lemma spaced_tail_app k z : Forall word_char k -> spaced_tail (k ++ z) -> spaced_tail z.
Proof.
  induction k as [|c k IH]; intros Hk H; [exact H|]. apply Forall_cons_iff in Hk as [Hc Hk]. cbn [app] in H. inversion H; subst; [auto|].
  exfalso. revert Hc. unfold word_char, letter, digit. lia.
Qed.
Lemma fin_tail z m : spaced_tail z -> z <> [] -> hd_in word_char (fin (z ++ m)).
Proof.
  intros [|c t Hc Ht|c t Hc Ht] Hz; [congruence| |]; cbn [app].
  - rewrite fin_word by exact Hc. eexists _, _. split; [reflexivity|exact Hc].
  - rewrite fin_space, fin_word by exact Hc. eexists _, _. split; [reflexivity|exact Hc].
Qed.
(** A keyword at the start of a phrase or word is all of it, or more of the word follows. *)
Lemma phrase_kw w m k y : spaced_word w -> no_phrase m -> Forall word_char k -> k <> [] -> w ++ m = k ++ y ->
  (w = k /\ y = m) \/ hd_in word_char (fin y).
Proof.
  intros Hw Hm Hk Hne H. pose proof (phrase_prefix _ _ _ _ Hw Hm Hk H) as (z & ->). rewrite <- app_assoc in H. apply app_inv_head in H. subst y.
  destruct z as [|e z]; [left; rewrite app_nil_r; auto|]. right. apply fin_tail; [|discriminate].
  destruct Hw as (c & w' & E0 & _ & Ht). destruct k as [|d k]; [congruence|]. cbn [app] in E0. injection E0 as -> <-.
  eapply spaced_tail_app; [|exact Ht]. apply Forall_cons_iff in Hk as [_ Hk]. exact Hk.
Qed.
Lemma plain_kw w m k y : word w -> no_word m -> Forall word_char k -> w ++ m = k ++ y -> (w = k /\ y = m) \/ hd_in word_char (fin y).
Proof.
  intros Hw Hm Hk H. apply app_cut in H as [(x & -> & ->)|(x & -> & -> & Hx)].
  - destruct x as [|e x]; [left; rewrite app_nil_r; auto|]. right. cbn [app].
    assert (He : word_char e).
    { destruct Hw as (c & w' & E0 & Hc & Hw). assert (Hf : Forall word_char (k ++ e :: x)) by (rewrite E0; constructor; [apply letter_word; exact Hc|exact Hw]).
      apply Forall_app in Hf as [_ Hf]. apply Forall_cons_iff in Hf as [Hf _]. exact Hf. }
    rewrite fin_word by exact He. eexists _, _. split; [reflexivity|exact He].
  - exfalso. destruct x as [|e x]; [congruence|]. apply (Hm e (x ++ y) eq_refl). apply Forall_app in Hk as [_ Hk]. apply Forall_cons_iff in Hk as [Hk _]. exact Hk.
Qed.

(** ** Column settings *)
Definition d_col_item (p : pair) (x : a_col_item) : Prop :=
  p_rule p = R_col_attribute /\ exists q, into_inner p = [q] /\ match x with CIAttr a => d_attr q a | CIRef a => d_inline q a end.
Definition d_col_settings (p : pair) (x : a_col_settings) : Prop :=
  p_rule p = R_col_settings /\ exists l, Forall2 d_col_item (into_inner p) l /\
    s_attrs x = pick (fun y => match y with CIAttr a => Some a | _ => None end) l /\
    s_refs x = pick (fun y => match y with CIRef a => Some a | _ => None end) l.

Lemma word_not_58 c : word_char c -> c <> 58. Proof. unfold word_char, letter, digit. lia. Qed.
Lemma X_ref_attr i r a : attr i r a -> then_or 44 93 r -> X ref_inline i.
Proof.
  intros Ha Hr. apply X_rule. intros off. unfold L at 1. rewrite eval_seq, eval_str.
  destruct (strip_prefix (s "ref") i) as [y|] eqn:E0; [|reflexivity]. apply strip_prefix_spec in E0.
  destruct (skipf NonAtomic y) as [g y'] eqn:Es. apply skipf_fin in Es. subst y'.
  assert (HX : X (ESeq (L ":") (ESeq relation ref_ident)) (fin y)); [|rewrite HX; reflexivity]. subst i.
  assert (Hk3 : Forall word_char (s "ref")) by (cbn [s]; repeat constructor; unfold word_char, letter; cbn; lia).
  assert (Hph : exists k m, phrase (s "ref" ++ y) m k /\
     (m = r \/ exists m' v, tok (s ":") m m' /\ (literal_r m' r v \/ bare m' r v \/ exists w, quote dq m' r w /\ v = VString w))).
  { inversion Ha; subst; eexists _, _; split; try eassumption; eauto 6. }
  destruct Hph as (k & m & (m0 & E1 & Hk & Hm0 & Hl) & Hnext).
  symmetry in E1. apply phrase_kw in E1 as [[-> ->]|(c & x & -> & Hc)]; try assumption; [| |discriminate].
  - apply lay_fin in Hl. rewrite Hl. destruct Hnext as [->|(m' & v & Ht & Hv)].
    + eapply X_tok; [reflexivity|]. eapply nh_then; [exact Hr| |]; discriminate.
    + eapply X_seq2; [apply F_str; exact Ht|]. apply X_seq1, X_rel. intros c x ->.
      assert (Hfirst : value_start c \/ letter c \/ c = 34).
      { destruct Hv as [Hv|[(w & Hw & _)|(w & Hw & _)]].
        - apply literal_first in Hv as (c' & x' & [= <- _] & Hc). auto.
        - apply phrase_first in Hw as (c' & x' & [= <- _] & Hc). auto.
        - destruct Hw as (i' & m1 & [= -> _] & _). auto. }
      revert Hfirst. unfold value_start, letter, digit. lia.
  - eapply X_tok; [reflexivity|]. apply nh_cons. apply word_not_58. exact Hc.
Qed.
Lemma F_col_item i r x : col_item i r x -> then_or 44 93 r -> F col_attribute i r (one d_col_item x).
Proof.
  intros Hx Hr. destruct x as [a|a]; cbn [col_item] in Hx.
  - eapply F_node; [apply F_alt2; [eapply X_ref_attr; eassumption|apply F_attr; eassumption]|].
    intros p Hp (q & Hq & Hd). split; [exact Hp|]. exists q. auto.
  - eapply F_node; [apply F_alt1, F_inline; [exact Hx|]|].
    + eapply nh_then; [exact Hr| |]; discriminate.
    + intros p Hp (q & Hq & Hd). split; [exact Hp|]. exists q. auto.
Qed.
Lemma B_col_item i m ps : E col_attribute i m ps -> exists x, col_item i (fin m) x /\ one d_col_item x ps.
Proof.
  intros H. apply E_rule in H as (p & -> & Hp & H). apply E_alt in H as [H|[H _]].
  - apply B_inline in H as (x & Hx & q & Hq & Hd). exists (CIRef x). split; [exact Hx|]. exists p. split; [reflexivity|]. split; [exact Hp|]. eauto.
  - apply B_attr in H as (x & Hx & q & Hq & Hd). exists (CIAttr x). split; [exact Hx|]. exists p. split; [reflexivity|]. split; [exact Hp|]. eauto.
Qed.
Lemma F_col_settings i r x : col_settings_r i r x -> F col_settings i r (one d_col_settings x).
Proof.
  intros (l & Hl & H1 & H2). eapply F_node; [eapply (F_bracketed col_item col_attribute d_col_item); [reflexivity|apply F_col_item| |exact Hl]|].
  - intros y. apply X_rule, X_alt; [apply X_rule, X_seq1, X_str; intros m E0; discriminate|]. apply X_attr. intros c z [= <- _]. unfold letter. lia.
  - intros p Hp HF. split; [exact Hp|]. exists l. auto.
Qed.
Lemma B_col_settings i m ps : E col_settings i m ps -> exists x, col_settings_r i (fin m) x /\ one d_col_settings x ps.
Proof.
  intros H. apply E_rule in H as (p & -> & Hp & H). eapply B_bracketed in H as (l & Hl & HF); [|apply B_col_item].
  exists (mkColSet (pick (fun y => match y with CIAttr a => Some a | _ => None end) l) (pick (fun y => match y with CIRef a => Some a | _ => None end) l)).
  split; [exists l; auto|]. exists p. split; [reflexivity|]. split; [exact Hp|]. exists l. auto.
Qed.

(** ** Columns *)
Definition d_col (p : pair) (c : a_col) : Prop :=
  p_rule p = R_table_col /\ exists x y st, into_inner p = x :: y :: st /\ d_ident x (c_name c) /\ d_type y (c_type c) /\
    opt_den d_col_settings (c_settings c) st.
Definition item_start (c : char) : Prop := name_start c \/ c = 125.
Definition item_follow (i : str) : Prop := hd_in item_start i.
Lemma item_nh i c : item_follow i -> ~ item_start c -> nh c i.
Proof. apply hd_nh. Qed.
Lemma item_not c : c = 46 \/ c = 40 \/ c = 91 \/ c = 39 \/ c = 58 \/ c = 123 -> ~ item_start c.
Proof. unfold item_start, name_start, letter. lia. Qed.
Lemma F_col i r c : column i r c -> item_follow r -> F table_col i r (one d_col c).
Proof.
  intros [i' m1 m2 r' n ty st Hn Hty Hst] Hr.
  assert (Hm2 : nh 46 m2 /\ nh 40 m2).
  { inversion Hst; subst; [split; apply item_nh; try assumption; apply item_not; auto|].
    destruct H as (l & Hb & _). apply listed_bracket in Hb as (m & m' & (x & -> & _) & _). split; apply nh_cons; discriminate. }
  eapply F_node.
  - eapply F_cat; [apply F_ident; exact Hn|]. intros _. eapply F_cat; [apply F_type; [exact Hty| |]; apply Hm2|]. intros Hf.
    eapply (F_maybe col_settings_r _ d_col_settings (fun _ => True)); [|exact Hf|exact Hst|exact Logic.I|].
    + intros i0 m0 a0 H0 _. apply F_col_settings. exact H0.
    + intros ->. inversion Hst; subst. apply X_rule, X_bracketed. apply item_nh; [exact Hr|apply item_not; auto].
  - intros p Hp (p1 & p2 & Hi & (x & -> & Hx) & p3 & p4 & -> & (y & -> & Hy) & Hs). split; [exact Hp|]. exists x, y, p4. auto.
Qed.
Lemma B_col i m ps : E table_col i m ps -> exists c, column i (fin m) c /\ one d_col c ps.
Proof.
  intros H. apply E_rule in H as (p & -> & Hp & H). apply E_seq in H as (m1 & ps1 & ps2 & H1 & H2 & Hi).
  apply B_ident in H1 as (n & Hn & x & -> & Hx). apply E_seq in H2 as (m2 & ps3 & ps4 & H2 & H3 & ->).
  apply B_type in H2 as (ty & Hty & y & -> & Hy). eapply (B_maybe col_settings_r) in H3 as (st & Hst & Hd); [|apply B_col_settings|apply fin_fin].
  exists (mkCol n ty st). split; [econstructor; eassumption|]. exists p. split; [reflexivity|]. split; [exact Hp|]. exists x, y, ps4. auto.
Qed.

(** ** Indexes *)
Definition d_index_col (p : pair) (c : a_index_col) : Prop :=
  p_rule p = R_indexes_ident /\ exists q, into_inner p = [q] /\
    match c with IName w => d_ident q w | IExpr v => exists w, d_bqs q w /\ v = VString w end.
Definition d_index (p : pair) (x : a_index) : Prop :=
  (p_rule p = R_indexes_single \/ p_rule p = R_indexes_multi) /\ exists cs st, into_inner p = cs ++ st /\
    Forall2 d_index_col cs (x_cols x) /\ opt_den (d_settings R_indexes_settings) (x_settings x) st.
Definition d_indexes (p : pair) (l : list a_index) : Prop :=
  p_rule p = R_indexes_decl /\ exists q, into_inner p = [q] /\ p_rule q = R_indexes_block /\ Forall2 d_index (into_inner q) l.

Lemma F_index_col i r c : index_col i r c -> F indexes_ident i r (one d_index_col c).
Proof.
  intros [i' r' w Hw|i' r' v Hv].
  - eapply F_node; [apply F_alt1, F_ident; exact Hw|]. intros p Hp (q & Hq & Hd). split; [exact Hp|]. exists q. auto.
  - eapply F_node; [apply F_alt2; [|rewrite bqs_rule; apply F_quoted; [apply ok_bq|exact Hv]]|].
    + destruct Hv as (i1 & m & -> & _). apply X_ident. intros c0 x0 [= <- _]. apply name_start_not. auto 20.
    + intros p Hp (q & Hq & Hd). split; [exact Hp|]. exists q. split; [exact Hq|]. exists v. auto.
Qed.
Lemma B_index_col i m ps : E indexes_ident i m ps -> exists c, index_col i (fin m) c /\ one d_index_col c ps.
Proof.
  intros H. apply E_rule in H as (p & -> & Hp & H). apply E_alt in H as [H|[H _]].
  - apply B_ident in H as (w & Hw & q & Hq & Hd). exists (IName w). split; [constructor; exact Hw|]. exists p. split; [reflexivity|]. split; [exact Hp|]. eauto.
  - rewrite bqs_rule in H. apply B_quoted in H as (w & Hw & q & Hq & Hd); [|apply ok_bq]. exists (IExpr (VString w)). split; [constructor; exact Hw|].
    exists p. split; [reflexivity|]. split; [exact Hp|]. exists q. split; [exact Hq|]. exists w. auto.
Qed.
Definition index_start (c : char) : Prop := name_start c \/ c = 96.
Lemma index_col_first i r c : index_col i r c -> hd_in index_start i.
Proof.
  intros [i' r' w Hw|i' r' v (i1 & m & -> & _)].
  - apply name_first in Hw as (c' & x & -> & Hc). exists c', x. split; [reflexivity|left; exact Hc].
  - eexists _, _. split; [reflexivity|right; reflexivity].
Qed.
Lemma X_index_col i : (forall c x, i = c :: x -> ~ index_start c) -> X indexes_ident i.
Proof.
  intros H. apply X_rule, X_alt.
  - apply X_ident. intros c x E0 Hc. apply (H c x E0). left. exact Hc.
  - apply X_bqs. intros x E0. apply (H 96 x E0). right. reflexivity.
Qed.
Lemma F_index i r x : index i r x -> nh 91 r -> F (EAlt indexes_single indexes_multi) i r (one d_index x).
Proof.
  intros [i' m r' c st Hc Hst|i' m r' l st Hb Hst] Hr.
  - apply F_alt1. eapply F_node.
    + eapply F_cat; [apply F_index_col; exact Hc|]. intros Hf. eapply F_maybe_settings; eassumption.
    + intros p Hp (p1 & p2 & Hi & (q & -> & Hq) & Hs). split; [auto|]. exists [q], p2. split; [exact Hi|]. split; [constructor; [exact Hq|constructor]|exact Hs].
  - apply listed_bracket in Hb as (m1 & m2 & Ht1 & Hl & Ht2). apply F_alt2.
    + destruct Ht1 as (y & -> & _). apply X_rule, X_seq1, X_index_col. intros c z [= <- _]. unfold index_start, name_start, letter. cbn. lia.
    + eapply F_node.
      * eapply F_tok; [exact Ht1|]. intros Hf. eapply F_cat; [eapply (F_listed index_col indexes_ident d_index_col 41); [discriminate|reflexivity| | |exact Hf|exact Hl|]|].
        -- intros i0 m0 a0 H0 _. apply F_index_col. exact H0.
        -- intros y. apply X_index_col. intros c z [= <- _]. unfold index_start, name_start, letter. lia.
        -- destruct Ht2 as (y & -> & _). exists 41, y. auto.
        -- intros _. eapply F_tok; [exact Ht2|]. intros Hf2. eapply F_maybe_settings; eassumption.
      * intros p Hp (p1 & p2 & Hi & HF & Hs). split; [auto|]. exists p1, p2. auto.
Qed.
Lemma B_index i m ps : E (EAlt indexes_single indexes_multi) i m ps -> exists x, index i (fin m) x /\ one d_index x ps.
Proof.
  intros H. apply E_alt in H as [H|[H _]]; apply E_rule in H as (p & -> & Hp & H).
  - apply E_seq in H as (m1 & ps1 & ps2 & H1 & H2 & Hi). apply B_index_col in H1 as (c & Hc & q & -> & Hq).
    apply B_maybe_settings in H2 as (st & Hst & Hd); [|apply fin_fin]. exists (mkIndex [c] st). split; [econstructor; eassumption|].
    exists p. split; [reflexivity|]. split; [auto|]. exists [q], ps2. split; [exact Hi|]. split; [constructor; [exact Hq|constructor]|exact Hd].
  - apply E_tok in H as (m1 & Ht1 & Hf & H). apply E_seq in H as (m2 & ps1 & ps2 & H1 & H2 & Hi).
    eapply (B_listed index_col) in H1 as (l & Hl & HF); [|apply B_index_col|exact Hf].
    apply E_tok in H2 as (m3 & Ht2 & Hf2 & H2). apply B_maybe_settings in H2 as (st & Hst & Hd); [|exact Hf2].
    exists (mkIndex l st). split; [eapply index_list; [apply listed_bracket; eauto|exact Hst]|].
    exists p. split; [reflexivity|]. split; [auto|]. exists ps1, ps2. auto.
Qed.
Lemma index_first i r x : index i r x -> hd_in (fun c => index_start c \/ c = 40) i.
Proof.
  intros [i' m r' c st Hc Hst|i' m r' l st Hb Hst].
  - apply index_col_first in Hc as (c' & y & -> & Hc). exists c', y. auto.
  - apply listed_bracket in Hb as (m1 & m2 & (y & -> & _) & _). eexists _, _. split; [reflexivity|]. auto.
Qed.
Lemma F_indexes i r l : indexes i r l -> F indexes_decl i r (one d_indexes l).
Proof.
  intros [i' m r' l' Hk Hb]. eapply F_node; [eapply F_word; [exact Hk|]; intros _; apply F_rule;
    eapply (F_braced index (EAlt indexes_single indexes_multi) d_index (nh 91)); [reflexivity|apply F_index| | | |exact Hb]|].
  - intros i0 m0 a0 H0. eapply hd_nh; [eapply index_first; exact H0|]. unfold index_start, name_start, letter. lia.
  - intros y. apply nh_cons. discriminate.
  - intros y. apply X_alt; apply X_rule.
    + apply X_seq1, X_index_col. intros c z [= <- _]. unfold index_start, name_start, letter. lia.
    + apply X_seq1, X_str. intros z E0. discriminate.
  - intros p Hp (q & Hq & Hr & HF). split; [exact Hp|]. exists q. auto.
Qed.
Lemma B_indexes i m ps : E indexes_decl i m ps -> exists l, indexes i (fin m) l /\ one d_indexes l ps.
Proof.
  intros H. apply E_rule in H as (p & -> & Hp & H). apply E_word in H as (m1 & Hk & _ & H). apply E_rule in H as (q & Hq & Hr & H).
  eapply (B_braced index) in H as (l & Hl & HF); [|apply B_index]. exists l. split; [econstructor; eassumption|].
  exists p. split; [reflexivity|]. split; [exact Hp|]. exists q. auto.
Qed.

(** ** Tables *)
Definition d_table_item (p : pair) (x : a_table_item) : Prop :=
  match x with TICol c => d_col p c | TINote v => d_note p v | TIIndexes l => d_indexes p l end.
Definition col_of (x : a_table_item) := match x with TICol c => Some c | _ => None end.
Definition note_of (x : a_table_item) := match x with TINote v => Some v | _ => None end.
Definition indexes_of (x : a_table_item) := match x with TIIndexes v => Some v | _ => None end.
Definition d_alias (p : pair) (w : str) : Prop := p_rule p = R_table_alias /\ exists q, into_inner p = [q] /\ d_ident q w.
Definition d_table (p : pair) (t : a_table) : Prop :=
  p_rule p = R_table_decl /\ exists d al st b l, into_inner p = d :: al ++ st ++ [b] /\ d_decl d (t_schema t, t_name t) /\
    opt_den d_alias (t_alias t) al /\ opt_den (d_settings R_block_settings) (t_settings t) st /\
    p_rule b = R_table_block /\ Forall2 d_table_item (into_inner b) l /\
    t_cols t = pick col_of l /\ t_notes t = pick note_of l /\ t_indexes t = pick indexes_of l.

Lemma note_first i r v : note i r v -> hd_in letter i.
Proof. intros [i' m1 m2 r' w Hk _ _|i' m1 m2 m3 r' w Hk _ _ _]; (eapply kw_first; [exact Hk|reflexivity|]); unfold letter; cbn; lia. Qed.
Lemma letter_item i : hd_in letter i -> item_follow i.
Proof. intros (c & x & -> & Hc). exists c, x. split; [reflexivity|]. left. left. exact Hc. Qed.
Lemma name_item i : hd_in name_start i -> item_follow i.
Proof. intros (c & x & -> & Hc). exists c, x. split; [reflexivity|]. left. exact Hc. Qed.
Lemma table_item_first i r x : table_item i r x -> item_follow i.
Proof.
  destruct x as [c|v|l]; cbn [table_item].
  - intros [i' m1 m2 r' n ty st Hn _ _]. apply name_item. eapply name_first. exact Hn.
  - intros H. apply letter_item. eapply note_first. exact H.
  - intros [i' m r' l' Hk _]. apply letter_item. eapply kw_first; [exact Hk|reflexivity|]. unfold letter; cbn; lia.
Qed.
(** A keyword followed by a symbol is not a column. *)
Lemma X_col_kw k i r c y : kw k i (c :: r) -> Forall letter (s k) -> s k = y -> y <> [] -> ~ name_start c -> ~ word_char c -> X table_col i.
Proof.
  intros (w & m & -> & Hw & Hl) Hlet <- Hne Hc Hwc. pose proof (any_case_letters _ _ Hw Hlet) as Hwl.
  assert (Hm : no_word m).
  { intros d x -> Hd. apply lay_solid in Hl; [|apply word_solid; exact Hd]. injection Hl as -> _. tauto. }
  assert (Hword : word w).
  { destruct w as [|a w]; [inversion Hw as [E0|]; congruence|]. apply Forall_cons_iff in Hwl as [H1 H2]. exists a, w. split; [reflexivity|]. split; [exact H1|apply letters_words; exact H2]. }
  apply X_rule. eapply X_seq2.
  - apply F_ident. left. exists m. split; [reflexivity|]. split; [exact Hword|]. split; [exact Hm|exact Hl].
  - apply X_seq1, X_type. intros d x [= <- _]. exact Hc.
Qed.
Lemma F_table_item i r x : table_item i r x -> item_follow r -> F (EAlt (EAlt table_col note_decl) indexes_decl) i r (one d_table_item x).
Proof.
  intros Hx Hr. destruct x as [c|v|l]; cbn [table_item] in Hx.
  - apply F_alt1, F_alt1, F_col; assumption.
  - apply F_alt1, F_alt2.
    + assert (Hl : Forall letter (s "Note")) by (cbn [s]; repeat constructor; unfold letter; cbn; lia).
      assert (exists c z, kw "Note" i (c :: z) /\ (c = 58 \/ c = 123)) as (c & z & Hk & Hc).
      { inversion Hx as [i' m1 m2 r' w Hk (y & -> & _) _|i' m1 m2 m3 r' w Hk (y & -> & _) _ _]; subst; eexists _, _; (split; [exact Hk|]); auto. }
      eapply X_col_kw; [exact Hk|exact Hl|reflexivity|discriminate| |].
      * apply name_start_not. tauto.
      * unfold word_char, letter, digit. lia.
    + apply F_note; [exact Hx|]. apply item_nh; [exact Hr|apply item_not; auto].
  - apply F_alt2.
    + assert (Hl : Forall letter (s "Indexes")) by (cbn [s]; repeat constructor; unfold letter; cbn; lia).
      inversion Hx as [i' m r' l' Hk (m1 & m2 & (y & -> & _) & _)]; subst. apply X_alt.
      * eapply X_col_kw; [exact Hk|exact Hl|reflexivity|discriminate| |]; [apply name_start_not; tauto|unfold word_char, letter, digit; cbn; lia].
      * apply X_rule, X_alt; apply X_rule, X_seq1; eapply (X_clash "Note" "Indexes"); try eassumption; reflexivity.
    + apply F_indexes. exact Hx.
Qed.
Lemma B_table_item i m ps : E (EAlt (EAlt table_col note_decl) indexes_decl) i m ps -> exists x, table_item i (fin m) x /\ one d_table_item x ps.
Proof.
  intros H. apply E_alt in H as [H|[H _]]; [apply E_alt in H as [H|[H _]]|].
  - apply B_col in H as (c & Hc & Hd). exists (TICol c). auto.
  - apply B_note in H as (c & Hc & Hd). exists (TINote c). auto.
  - apply B_indexes in H as (c & Hc & Hd). exists (TIIndexes c). auto.
Qed.
Lemma X_item_125 y : X (EAlt (EAlt table_col note_decl) indexes_decl) (125 :: y).
Proof.
  assert (Hk : forall k c x, s k = c :: x -> lower c <> lower 125 -> X (CI k) (125 :: y)).
  { intros k c x E0 Hc off. unfold CI. cbn [eval]. rewrite E0. cbn [strip_prefix_ci]. destruct (N.eqb_spec (lower c) (lower 125)); [congruence|reflexivity]. }
  repeat apply X_alt.
  - apply X_rule, X_seq1, X_ident. intros c x [= <- _]. apply name_start_not. tauto.
  - apply X_rule, X_alt; apply X_rule, X_seq1; eapply Hk; (reflexivity || discriminate).
  - apply X_rule, X_seq1; eapply Hk; (reflexivity || discriminate).
Qed.
Lemma F_alias i r w : alias i r w -> F table_alias i r (one d_alias w).
Proof.
  intros (m & Hk & Hn). eapply F_node; [eapply F_word; [exact Hk|]; intros _; apply F_ident; exact Hn|].
  intros p Hp (q & Hq & Hd). split; [exact Hp|]. exists q. auto.
Qed.
Lemma B_alias i m ps : E table_alias i m ps -> exists w, alias i (fin m) w /\ one d_alias w ps.
Proof.
  intros H. apply E_rule in H as (p & -> & Hp & H). apply E_word in H as (m1 & Hk & _ & H). apply B_ident in H as (w & Hw & q & Hq & Hd).
  exists w. split; [exists m1; auto|]. exists p. split; [reflexivity|]. split; [exact Hp|]. exists q. auto.
Qed.
Lemma settings_then i r o : maybe attrs i r o -> (exists x, r = 123 :: x) -> exists c x, i = c :: x /\ (c = 91 \/ c = 123).
Proof.
  intros [i'|i' r' a Ha] (x & E0); [subst; eexists _, _; split; [reflexivity|]; auto|]. apply attrs_first in Ha as (y & ->). eexists _, _. split; [reflexivity|]. auto.
Qed.
Lemma braces_first {A} (R : reader A) i r l : braces R i r l -> exists x, i = 123 :: x.
Proof. intros (m & m' & (x & -> & _) & _). eexists. reflexivity. Qed.
Lemma X_alias i : (exists c x, i = c :: x /\ (c = 91 \/ c = 123)) -> X table_alias i.
Proof.
  intros (c & x & -> & Hc). apply X_rule, X_seq1. intros off. unfold CI. cbn [eval s strip_prefix_ci]. destruct Hc as [-> | ->]; reflexivity.
Qed.
Lemma F_table i r t : table i r t -> F table_decl i r (one d_table t).
Proof.
  intros [i' m1 m2 m3 m4 r' d al st l Hk Hd Hal Hst Hb].
  assert (H4 : exists x, m4 = 123 :: x) by (eapply braces_first; exact Hb).
  assert (H3 : exists c x, m3 = c :: x /\ (c = 91 \/ c = 123)) by (eapply settings_then; eassumption).
  assert (H2 : nh 46 m2).
  { inversion Hal; subst.
    - destruct H3 as (c & x & -> & Hc). apply nh_cons. lia.
    - destruct H as (m & Hka & _). eapply hd_nh; [eapply kw_first; [exact Hka|reflexivity|]|]; unfold letter; cbn; lia. }
  eapply F_node.
  - eapply F_word; [exact Hk|]. intros _. eapply F_cat; [apply F_decl; eassumption|]. intros Hf2.
    eapply F_cat; [eapply (F_maybe alias _ d_alias (fun _ => True)); [|exact Hf2|exact Hal|exact Logic.I|]|].
    + intros i0 m0 a0 H0 _. apply F_alias. exact H0.
    + intros ->. inversion Hal; subst. apply X_alias. exact H3.
    + intros Hf3. eapply F_cat; [eapply F_maybe_settings; [exact Hf3|exact Hst|]|].
      * destruct H4 as (x & ->). apply nh_cons. discriminate.
      * intros _. apply F_rule. eapply (F_braced table_item _ d_table_item item_follow); [reflexivity|apply F_table_item|apply table_item_first| |apply X_item_125|exact Hb].
        intros y. eexists _, _. split; [reflexivity|right; reflexivity].
  - intros p Hp (p1 & p2 & Hi & (dd & -> & Hdd) & p3 & p4 & -> & Hald & p5 & p6 & -> & Hsd & b & -> & Hbr & HF). split; [exact Hp|].
    exists dd, p3, p5, b, l. cbn [t_schema t_name t_alias t_settings t_cols t_notes t_indexes]. destruct d as [sc n]. auto 12.
Qed.
Lemma B_table i m ps : E table_decl i m ps -> exists t, table i (fin m) t /\ one d_table t ps.
Proof.
  intros H. apply E_rule in H as (p & -> & Hp & H). apply E_word in H as (m1 & Hk & _ & H).
  apply E_seq in H as (m2 & ps1 & ps2 & H1 & H & Hi). apply B_decl in H1 as (d & Hd & dd & -> & Hdd).
  apply E_seq in H as (m3 & ps3 & ps4 & H1 & H & ->). eapply (B_maybe alias) in H1 as (al & Hal & Hald); [|apply B_alias|apply fin_fin].
  apply E_seq in H as (m4 & ps5 & ps6 & H1 & H & ->). apply B_maybe_settings in H1 as (st & Hst & Hsd); [|apply fin_fin].
  apply E_rule in H as (b & -> & Hb & H). eapply (B_braced table_item) in H as (l & Hl & HF); [|apply B_table_item].
  eexists. split; [eapply table_r; eassumption|]. exists p. split; [reflexivity|]. split; [exact Hp|]. exists dd, ps3, ps5, b, l.
  cbn [t_schema t_name t_alias t_settings t_cols t_notes t_indexes]. destruct d as [sc n]. auto 12.
Qed.

(** ** Enums *)
Definition d_enum_value (p : pair) (x : str * option (list a_attr)) : Prop :=
  p_rule p = R_enum_value /\ exists q st, into_inner p = q :: st /\ d_ident q (fst x) /\ opt_den (d_settings R_enum_settings) (snd x) st.
Definition d_enum (p : pair) (e : a_enum) : Prop :=
  p_rule p = R_enum_decl /\ exists d b, into_inner p = [d; b] /\ d_decl d (m_schema e, m_name e) /\ p_rule b = R_enum_block /\
    Forall2 d_enum_value (into_inner b) (m_values e).
Lemma F_enum_value i r x : enum_value_r i r x -> nh 91 r -> F enum_value i r (one d_enum_value x).
Proof.
  intros (m & Hn & Hst) Hr. eapply F_node.
  - eapply F_cat; [apply F_ident; exact Hn|]. intros Hf. eapply F_maybe_settings; eassumption.
  - intros p Hp (p1 & p2 & Hi & (q & -> & Hq) & Hs). split; [exact Hp|]. exists q, p2. auto.
Qed.
Lemma B_enum_value i m ps : E enum_value i m ps -> exists x, enum_value_r i (fin m) x /\ one d_enum_value x ps.
Proof.
  intros H. apply E_rule in H as (p & -> & Hp & H). apply E_seq in H as (m1 & ps1 & ps2 & H1 & H2 & Hi).
  apply B_ident in H1 as (n & Hn & q & -> & Hq). apply B_maybe_settings in H2 as (st & Hst & Hd); [|apply fin_fin].
  exists (n, st). split; [exists (fin m1); auto|]. exists p. split; [reflexivity|]. split; [exact Hp|]. exists q, ps2. auto.
Qed.
Lemma F_enum i r e : enum i r e -> F enum_decl i r (one d_enum e).
Proof.
  intros [i' m1 m2 r' d l Hk Hd Hb]. eapply F_node.
  - eapply F_word; [exact Hk|]. intros _. eapply F_cat; [apply F_decl; [exact Hd|]|].
    + apply braces_first in Hb as (x & ->). apply nh_cons. discriminate.
    + intros _. apply F_rule. eapply (F_braced enum_value_r _ d_enum_value (nh 91)); [reflexivity|apply F_enum_value| | | |exact Hb].
      * intros i0 m0 a0 (m & Hn & _). eapply hd_nh; [eapply name_first; exact Hn|]. apply name_start_not. tauto.
      * intros y. apply nh_cons. discriminate.
      * intros y. apply X_rule, X_seq1, X_ident. intros c x [= <- _]. apply name_start_not. tauto.
  - intros p Hp (p1 & p2 & Hi & (dd & -> & Hdd) & b & -> & Hbr & HF). split; [exact Hp|]. exists dd, b. destruct d as [sc n]. auto.
Qed.
Lemma B_enum i m ps : E enum_decl i m ps -> exists e, enum i (fin m) e /\ one d_enum e ps.
Proof.
  intros H. apply E_rule in H as (p & -> & Hp & H). apply E_word in H as (m1 & Hk & _ & H).
  apply E_seq in H as (m2 & ps1 & ps2 & H1 & H & Hi). apply B_decl in H1 as (d & Hd & dd & -> & Hdd).
  apply E_rule in H as (b & -> & Hb & H). eapply (B_braced enum_value_r) in H as (l & Hl & HF); [|apply B_enum_value].
  eexists. split; [eapply enum_r; eassumption|]. exists p. split; [reflexivity|]. split; [exact Hp|]. exists dd, b. destruct d as [sc n]. auto.
Qed.

(** ** Notes among other items *)
Lemma X_note i : (forall k y, i = k ++ y -> any_case k (s "Note") -> nh 123 (fin y) /\ forall m, tok (s ":") (fin y) m -> nh 39 m) -> X note_decl i.
Proof.
  intros H. assert (Hd : (exists w m, strip_prefix_ci (s "Note") i = Some (w, m)) \/ strip_prefix_ci (s "Note") i = None).
  { destruct (strip_prefix_ci (s "Note") i) as [[w m]|]; eauto. }
  destruct Hd as [(w & m & E0)|E0].
  - apply strip_prefix_ci_spec in E0 as [-> Hc]. apply any_case_ci in Hc. destruct (H w m eq_refl Hc) as [H1 H2].
    assert (Hk : kw "Note" (w ++ m) (fin m)) by (exists w, m; split; [reflexivity|]; split; [exact Hc|apply lay_of]).
    apply X_rule, X_alt; apply X_rule; (eapply X_seq2; [apply F_kw; exact Hk|]).
    + destruct (strip_prefix (s ":") (fin m)) as [m'|] eqn:E1.
      * apply strip_prefix_spec in E1. assert (Ht : tok (s ":") (fin m) (fin m')) by (exists m'; split; [exact E1|apply lay_of]).
        eapply X_seq2; [apply F_str; exact Ht|]. apply X_string. eapply H2. exact Ht.
      * apply X_seq1, X_str. intros m' E2. apply strip_prefix_spec in E2. congruence.
    + eapply X_tok; [reflexivity|]. exact H1.
  - apply X_rule, X_alt; apply X_rule, X_seq1; intros off; unfold CI; cbn [eval]; rewrite E0; reflexivity.
Qed.
Lemma word_nh c i : hd_in word_char i -> ~ word_char c -> nh c i.
Proof. apply hd_nh. Qed.
Lemma word_no_tok x i m c y : hd_in word_char i -> s x = c :: y -> ~ word_char c -> ~ tok (s x) i m.
Proof. intros (d & z & -> & Hd) Hx Hc (m' & E0 & _). rewrite Hx in E0. injection E0 as -> _. tauto. Qed.
Lemma tok_nh x i m c y : nh c i -> s x = c :: y -> ~ tok (s x) i m.
Proof. intros Hn Hx (m' & -> & _). rewrite Hx in Hn. apply (Hn (y ++ m') eq_refl). Qed.
Lemma not_word_58 : ~ word_char 58. Proof. unfold word_char, letter, digit. lia. Qed.
Lemma not_word_123 : ~ word_char 123. Proof. unfold word_char, letter, digit. lia. Qed.
(** No note where a name stands that is followed by neither [:] nor [{]. *)
Lemma X_note_name i r w : name i r w -> nh 58 r -> nh 123 r -> X note_decl i.
Proof.
  intros Hn H58 H123. apply X_note. intros k y -> Hk. destruct (note_letters _ Hk) as [Hkl Hne].
  destruct Hn as [(m & E0 & Hw & Hm & Hl)|(i' & m & E0 & _)].
  - symmetry in E0. apply plain_kw in E0 as [[-> ->]|Hh]; try assumption; [| |apply letters_words; exact Hkl].
    + apply lay_fin in Hl. rewrite Hl. split; [exact H123|]. intros m' Ht. exfalso. apply (tok_nh ":" r m' 58 [] H58 eq_refl Ht).
    + split; [apply word_nh; [exact Hh|apply not_word_123]|]. intros m' Ht. exfalso. apply (word_no_tok ":" (fin y) m' 58 [] Hh eq_refl not_word_58 Ht).
  - exfalso. destruct k as [|c k]; [congruence|]. injection E0 as -> _. apply Forall_cons_iff in Hkl as [Hc _]. destruct (letter_34 Hc).
Qed.

(** ** Table groups *)
Definition d_group_item (p : pair) (x : a_group_item) : Prop := match x with GINote v => d_note p v | GIName d => d_decl p d end.
Definition gnote_of (x : a_group_item) := match x with GINote v => Some v | _ => None end.
Definition gname_of (x : a_group_item) := match x with GIName v => Some v | _ => None end.
Definition d_group (p : pair) (g : a_group) : Prop :=
  p_rule p = R_table_group_decl /\ exists n st b l, into_inner p = n :: st ++ [b] /\ d_ident n (g_name g) /\
    opt_den (d_settings R_block_settings) (g_settings g) st /\ p_rule b = R_table_group_block /\ Forall2 d_group_item (into_inner b) l /\
    g_notes g = pick gnote_of l /\ g_items g = pick gname_of l.
Lemma F_group_item i r x : group_item i r x -> item_follow r -> F (EAlt note_decl decl_ident) i r (one d_group_item x).
Proof.
  intros Hx Hr. destruct x as [v|d]; cbn [group_item] in Hx.
  - apply F_alt1, F_note; [exact Hx|]. apply item_nh; [exact Hr|apply item_not; auto].
  - apply F_alt2; [|apply F_decl; [exact Hx|apply item_nh; [exact Hr|apply item_not; auto]]].
    destruct d as [[sc|] n]; cbn [decl_name] in Hx.
    + destruct Hx as (m & m' & Hs & (y & -> & _) & _). eapply X_note_name; [exact Hs| |]; apply nh_cons; discriminate.
    + eapply X_note_name; [exact Hx| |]; (apply item_nh; [exact Hr|apply item_not; auto 8]).
Qed.
Lemma B_group_item i m ps : E (EAlt note_decl decl_ident) i m ps -> exists x, group_item i (fin m) x /\ one d_group_item x ps.
Proof.
  intros H. apply E_alt in H as [H|[H _]].
  - apply B_note in H as (c & Hc & Hd). exists (GINote c). auto.
  - apply B_decl in H as (c & Hc & Hd). exists (GIName c). auto.
Qed.
Lemma X_note_first c y : ~ letter c -> X note_decl (c :: y).
Proof.
  intros Hc. apply X_note. intros k z E0 Hk. destruct (note_letters _ Hk) as [Hl Hne]. destruct k as [|d k]; [congruence|].
  injection E0 as <- _. apply Forall_cons_iff in Hl as [Hl _]. tauto.
Qed.
Lemma F_group i r g : group i r g -> F table_group_decl i r (one d_group g).
Proof.
  intros [i' m1 m2 m3 r' n st l Hk Hn Hst Hb]. eapply F_node.
  - eapply F_word; [exact Hk|]. intros _. eapply F_cat; [apply F_ident; exact Hn|]. intros Hf2.
    eapply F_cat; [eapply F_maybe_settings; [exact Hf2|exact Hst|]|].
    + apply braces_first in Hb as (x & ->). apply nh_cons. discriminate.
    + intros _. apply F_rule. eapply (F_braced group_item _ d_group_item item_follow); [reflexivity|apply F_group_item| | | |exact Hb].
      * intros i0 m0 [v|d] H0; cbn [group_item] in H0; [apply letter_item; eapply note_first; exact H0|apply name_item; eapply decl_first; exact H0].
      * intros y. eexists _, _. split; [reflexivity|right; reflexivity].
      * intros y. apply X_alt; [apply X_note_first; unfold letter; lia|]. apply X_rule, X_seq1, X_ident. intros c x [= <- _]. apply name_start_not. tauto.
  - intros p Hp (p1 & p2 & Hi & (x & -> & Hx) & p3 & p4 & -> & Hsd & b & -> & Hbr & HF). split; [exact Hp|]. exists x, p3, b, l. auto 9.
Qed.
Lemma B_group i m ps : E table_group_decl i m ps -> exists g, group i (fin m) g /\ one d_group g ps.
Proof.
  intros H. apply E_rule in H as (p & -> & Hp & H). apply E_word in H as (m1 & Hk & _ & H).
  apply E_seq in H as (m2 & ps1 & ps2 & H1 & H & Hi). apply B_ident in H1 as (n & Hn & x & -> & Hx).
  apply E_seq in H as (m4 & ps5 & ps6 & H1 & H & ->). apply B_maybe_settings in H1 as (st & Hst & Hsd); [|apply fin_fin].
  apply E_rule in H as (b & -> & Hb & H). eapply (B_braced group_item) in H as (l & Hl & HF); [|apply B_group_item].
  eexists. split; [eapply group_r; eassumption|]. exists p. split; [reflexivity|]. split; [exact Hp|]. exists x, ps5, b, l. auto 9.
Qed.

(** ** Projects *)
Definition d_project_item (p : pair) (x : a_project_item) : Prop := match x with PINote v => d_note p v | PIProp d => d_prop p d end.
Definition pnote_of (x : a_project_item) := match x with PINote v => Some v | _ => None end.
Definition pprop_of (x : a_project_item) := match x with PIProp v => Some v | _ => None end.
Definition d_project (p : pair) (g : a_project) : Prop :=
  p_rule p = R_project_decl /\ exists n b l, into_inner p = [n; b] /\ d_ident n (p_name g) /\
    p_rule b = R_project_block /\ Forall2 d_project_item (into_inner b) l /\
    p_notes g = pick pnote_of l /\ p_props g = pick pprop_of l.
Lemma note_case k : any_case k (s "note") <-> any_case k (s "Note").
Proof. rewrite !any_case_ci. unfold ci_eq. reflexivity. Qed.
Lemma X_note_prop i r x : property_r i r x -> X note_decl i.
Proof.
  destruct x as [k v]. intros (m & m' & (m0 & -> & Hw & Hm & Hl) & Ht & Hv & Hno). cbn [fst snd] in *.
  apply X_note. intros k' y E0 Hk'. destruct (note_letters _ Hk') as [Hkl Hne].
  apply phrase_kw in E0 as [[-> ->]|Hh]; try assumption; [| |apply letters_words; exact Hkl].
  - apply lay_fin in Hl. rewrite Hl. split; [destruct Ht as (z & -> & _); apply nh_cons; discriminate|]. intros m1 Ht1.
    assert (m1 = m'). { destruct Ht as (z1 & -> & L1), Ht1 as (z2 & E0 & L2). apply app_inv_head in E0. subst z2. apply lay_fin in L1, L2. congruence. } subst m1.
    destruct Hv as [Hv|(w & Hw1 & _ & ->)].
    + intros z ->. apply Hno. split; [apply note_case; exact Hk'|].
      inversion Hv as [i1 r1 w Ht0|i1 r1 w (i2 & m2 & E0 & _)|i1 r1 (m2 & E0 & _)|i1 r1 (m2 & E0 & _)|i1 r1 (m2 & E0 & _)|d m2 r1 [Hd Hd'] ? ? ? E0|d1 d2 m2 r1 f0 [Hd Hd'] ? ? ? ? E0|h m2 r1 ? ? ? E0|h m2 r1 ? ? ? ? E0]; subst; eauto; try discriminate.
      * destruct d as [|c d]; [congruence|]. injection E0 as -> _. apply Forall_cons_iff in Hd' as [Hd' _]. revert Hd'. unfold digit. lia.
      * destruct d1 as [|c d1]; [congruence|]. injection E0 as -> _. apply Forall_cons_iff in Hd' as [Hd' _]. revert Hd'. unfold digit. lia.
    + eapply hd_nh; [eapply phrase_first; exact Hw1|]. unfold letter. lia.
  - split; [apply word_nh; [exact Hh|apply not_word_123]|]. intros m1 Ht1. exfalso. apply (word_no_tok ":" (fin y) m1 58 [] Hh eq_refl not_word_58 Ht1).
Qed.
Lemma F_project_item i r x : project_item i r x -> item_follow r -> F (EAlt note_decl property) i r (one d_project_item x).
Proof.
  intros Hx Hr. assert (Hr' : nh 39 r) by (apply item_nh; [exact Hr|apply item_not; auto]).
  destruct x as [v|d]; cbn [project_item] in Hx.
  - apply F_alt1, F_note; assumption.
  - apply F_alt2; [eapply X_note_prop; exact Hx|apply F_property; assumption].
Qed.
Lemma eval_ci k a off j : eval skip (CI k) a off j = match strip_prefix_ci (s k) j with Some (m, y) => ROk m y [] | None => RFail end.
Proof. reflexivity. Qed.
Lemma string_not_fail i r w off : text i r w -> eval skip string_value NonAtomic off i = RFail -> False.
Proof.
  intros Ht H. apply X_rule_inv in H. rewrite eval_alt in H. destruct (eval skip triple_quoted_string NonAtomic off i) eqn:E1; try discriminate.
  destruct Ht as [Ht|Ht].
  - rewrite tqs_rule in E1. eapply F_not_X; [apply F_quoted; [apply ok_tq|exact Ht]|exact E1].
  - rewrite sqs_rule in H. eapply F_not_X; [apply F_quoted; [apply ok_sq|exact Ht]|exact H].
Qed.
Lemma B_project_item i m ps : E (EAlt note_decl property) i m ps -> exists x, project_item i (fin m) x /\ one d_project_item x ps.
Proof.
  intros H. apply E_alt in H as [H|[H (off & Hf)]].
  - apply B_note in H as (c & Hc & Hd). exists (PINote c). auto.
  - apply B_property in H as (k & v & m1 & m2 & Hk & Ht & Hv & Hd). exists (PIProp (k, v)). split; [|exact Hd].
    exists m1, m2. cbn [fst snd]. split; [exact Hk|]. split; [exact Ht|]. split; [exact Hv|]. intros [Hn (w & ->)].
    assert (Hw : text m2 (fin m) w).
    { destruct Hv as [Hv|(w' & _ & _ & E0)]; [|discriminate]. inversion Hv; subst. assumption. }
    apply X_rule_inv in Hf. rewrite eval_alt in Hf. destruct (eval skip note_short NonAtomic off i) as [| |] eqn:E1; try discriminate.
    apply X_rule_inv in E1. destruct Hk as (m0 & -> & _ & _ & Hl). apply note_case in Hn.
    rewrite eval_seq, eval_ci in E1. rewrite (proj2 (strip_prefix_ci_spec (s "Note") (k ++ m0) k m0)) in E1 by (split; [reflexivity|apply any_case_ci; exact Hn]).
    destruct (skipf NonAtomic m0) as [g y] eqn:Es. apply skipf_fin in Es. apply lay_fin in Hl. rewrite Hl in Es. subst y.
    rewrite eval_seq in E1. unfold L in E1. rewrite eval_str in E1. destruct Ht as (m3 & -> & Hl3).
    rewrite (proj2 (strip_prefix_spec (s ":") (s ":" ++ m3) m3) eq_refl) in E1.
    destruct (skipf NonAtomic m3) as [g3 y3] eqn:Es3. apply skipf_fin in Es3. apply lay_fin in Hl3. rewrite Hl3 in Es3. subst y3.
    match type of E1 with context [eval skip string_value NonAtomic ?o m2] => destruct (eval skip string_value NonAtomic o m2) eqn:E2; try discriminate; eapply string_not_fail; [exact Hw|exact E2] end.
Qed.
Lemma F_project i r g : project i r g -> F project_decl i r (one d_project g).
Proof.
  intros [i' m1 m2 r' n l Hk Hn Hb]. eapply F_node.
  - eapply F_word; [exact Hk|]. intros _. eapply F_cat; [apply F_ident; exact Hn|]. intros _. apply F_rule.
    eapply (F_braced project_item _ d_project_item item_follow); [reflexivity|apply F_project_item| | | |exact Hb].
    + intros i0 m0 [v|d] H0; cbn [project_item] in H0; apply letter_item; [eapply note_first; exact H0|destruct H0 as (m & m' & H0 & _); eapply phrase_first; exact H0].
    + intros y. eexists _, _. split; [reflexivity|right; reflexivity].
    + intros y. apply X_alt; [apply X_note_first; unfold letter; lia|]. apply X_rule, X_seq1. intros off. apply eval_svar_fail. intros c x [= <- _]. unfold letter. lia.
  - intros p Hp (p1 & p2 & Hi & (x & -> & Hx) & b & -> & Hbr & HF). split; [exact Hp|]. exists x, b, l. auto 9.
Qed.
Lemma B_project i m ps : E project_decl i m ps -> exists g, project i (fin m) g /\ one d_project g ps.
Proof.
  intros H. apply E_rule in H as (p & -> & Hp & H). apply E_word in H as (m1 & Hk & _ & H).
  apply E_seq in H as (m2 & ps1 & ps2 & H1 & H & Hi). apply B_ident in H1 as (n & Hn & x & -> & Hx).
  apply E_rule in H as (b & -> & Hb & H). eapply (B_braced project_item) in H as (l & Hl & HF); [|apply B_project_item].
  eexists. split; [eapply project_r; eassumption|]. exists p. split; [reflexivity|]. split; [exact Hp|]. exists x, b, l. auto 9.
Qed.

(** ** Whole texts *)
Definition d_block (p : pair) (b : a_block) : Prop :=
  match b with
  | AProject x => d_project p x | ATable x => d_table p x | AGroup x => d_group p x
  | ANote x => d_note p x | ARef x => d_ref p x | AEnum x => d_enum p x
  end.
Definition d_schema (p : pair) (a : a_schema) : Prop :=
  p_rule p = R_schema /\ exists ps e, into_inner p = ps ++ [e] /\ Forall2 d_block ps a /\ p_rule e = R_EOI.
Definition decls : pexp := EAlt (EAlt (EAlt (EAlt (EAlt project_decl table_decl) enum_decl) ref_decl) table_group_decl) note_decl.
Definition top_follow (i : str) : Prop := i = [] \/ hd_in letter i.
Lemma top_nh i c : top_follow i -> ~ letter c -> nh c i.
Proof. intros [->|H] Hc; [intros x E0; discriminate|eapply hd_nh; eassumption]. Qed.
Lemma block_first i r b : block_r i r b -> hd_in letter i.
Proof.
  assert (HL : forall k i r c x, kw k i r -> s k = c :: x -> letter c -> hd_in letter i) by (intros; eapply kw_first; eassumption).
  destruct b; cbn [block_r].
  - intros [i' m1 m2 r' n l Hk _ _]; (eapply HL; [exact Hk|reflexivity|]); unfold letter; cbn; lia.
  - intros [i' m1 m2 m3 m4 r' d al st l Hk _ _ _ _]; (eapply HL; [exact Hk|reflexivity|]); unfold letter; cbn; lia.
  - intros [i' m1 m2 m3 r' n st l Hk _ _ _]; (eapply HL; [exact Hk|reflexivity|]); unfold letter; cbn; lia.
  - apply note_first.
  - intros [i' m1 m2 m3 r' n a Hk _ _ _|i' m1 m2 m3 m4 r' n a Hk _ _ _ _]; (eapply HL; [exact Hk|reflexivity|]); unfold letter; cbn; lia.
  - intros [i' m1 m2 r' d l Hk _ _]; (eapply HL; [exact Hk|reflexivity|]); unfold letter; cbn; lia.
Qed.
Ltac no_kw Hk := repeat first [apply X_alt | apply X_rule; try apply X_seq1]; (eapply X_clash; [|exact Hk]; reflexivity).
Lemma F_block i r b : block_r i r b -> top_follow r -> F decls i r (one d_block b).
Proof.
  intros Hb Hr. unfold decls. destruct b as [x|x|x|x|x|x]; cbn [block_r] in Hb.
  - apply F_alt1, F_alt1, F_alt1, F_alt1, F_alt1, F_project. exact Hb.
  - apply F_alt1, F_alt1, F_alt1, F_alt1, F_alt2; [|apply F_table; exact Hb]. inversion Hb as [i' m1 m2 m3 m4 r' d al st l Hk _ _ _ _]; subst.
    no_kw Hk.
  - apply F_alt1, F_alt2; [|apply F_group; exact Hb]. inversion Hb as [i' m1 m2 m3 r' n st l Hk _ _ _]; subst.
    no_kw Hk.
  - apply F_alt2; [|apply F_note; [exact Hb|apply top_nh; [exact Hr|unfold letter; lia]]].
    assert (exists z, kw "Note" i z) as (z & Hk) by (inversion Hb; subst; eauto). no_kw Hk.
  - apply F_alt1, F_alt1, F_alt2; [|apply F_ref; [exact Hb|split; apply top_nh; try exact Hr; unfold letter; lia]].
    assert (exists z, kw "Ref" i z) as (z & Hk) by (inversion Hb; subst; eauto). no_kw Hk.
  - apply F_alt1, F_alt1, F_alt1, F_alt2; [|apply F_enum; exact Hb]. inversion Hb as [i' m1 m2 r' d l Hk _ _]; subst.
    no_kw Hk.
Qed.
Lemma B_block i m ps : E decls i m ps -> exists b, block_r i (fin m) b /\ one d_block b ps.
Proof.
  intros H. apply E_alt in H as [H|[H _]]; [apply E_alt in H as [H|[H _]]; [apply E_alt in H as [H|[H _]]; [apply E_alt in H as [H|[H _]]; [apply E_alt in H as [H|[H _]]|]|]|]|].
  - apply B_project in H as (x & Hx & Hd). exists (AProject x). auto.
  - apply B_table in H as (x & Hx & Hd). exists (ATable x). auto.
  - apply B_enum in H as (x & Hx & Hd). exists (AEnum x). auto.
  - apply B_ref in H as (x & Hx & Hd). exists (ARef x). auto.
  - apply B_group in H as (x & Hx & Hd). exists (AGroup x). auto.
  - apply B_note in H as (x & Hx & Hd). exists (ANote x). auto.
Qed.
Lemma X_block_nil : X decls [].
Proof. intros off. reflexivity. Qed.
Lemma eval_soi inp : eval skip ESoi NonAtomic 0 inp = ROk [] inp [].
Proof. reflexivity. Qed.
Lemma schema_rule : schema = N_ R_schema (ESeq ESoi (ESeq (ERep decls) EOI)).
Proof. reflexivity. Qed.
Lemma F_eoi : F EOI [] [] (fun ps => exists e, ps = [e] /\ p_rule e = R_EOI).
Proof. intros off. eexists _, [], _. split; [reflexivity|]. split; [apply lay_self; reflexivity|]. eexists. split; reflexivity. Qed.
Theorem schema_reads inp a : dbml_text inp a -> exists t p, run schema NonAtomic 0 inp = ROk t [] [p] /\ d_schema p a.
Proof.
  intros (m & Hl & Hm). unfold run. rewrite schema_rule, eval_normal, eval_seq, eval_soi.
  destruct (skipf NonAtomic inp) as [g y] eqn:Es. apply skipf_fin in Es. pose proof (lay_idem _ _ Hl) as Hf. apply lay_fin in Hl. rewrite Hl in Es. subst y.
  assert (HF : F (ESeq (ERep decls) EOI) m [] (cat (fun ps => Forall2 d_block ps a) (fun ps => exists e, ps = [e] /\ p_rule e = R_EOI))).
  { eapply F_cat; [eapply (F_many block_r decls d_block top_follow); [reflexivity|apply F_block| |exact Hm|left; reflexivity|apply X_block_nil|exact Hf]|intros _; apply F_eoi].
    intros i0 m0 a0 H0. right. eapply block_first. exact H0. }
  match goal with |- context [eval skip (ESeq (ERep decls) EOI) NonAtomic ?o m] => destruct (HF o) as (t & r & ps & E0 & Lr & p1 & p2 & -> & HF1 & e & -> & He) end.
  rewrite E0. cbn [app]. rewrite emit_ok by discriminate.
  assert (r = []) as ->.
  { assert (HE : E (ESeq (ERep decls) EOI) m r (p1 ++ [e])) by (eexists _, _; exact E0). apply E_seq in HE as (m1 & q1 & q2 & _ & HE & _).
    destruct HE as (o & t2 & HE). unfold EOI in HE. rewrite eval_normal in HE. cbn [eval] in HE. destruct (fin m1); [|discriminate]. cbn in HE. congruence. }
  eexists _, _. split; [reflexivity|]. split; [reflexivity|]. exists p1, e. auto.
Qed.
Theorem schema_read inp t r ps : run schema NonAtomic 0 inp = ROk t r ps -> exists p a, ps = [p] /\ d_schema p a /\ dbml_text inp a.
Proof.
  unfold run. rewrite schema_rule, eval_normal, eval_seq, eval_soi.
  destruct (skipf NonAtomic inp) as [g y] eqn:Es. apply skipf_fin in Es. subst y.
  match goal with |- context [eval skip (ESeq (ERep decls) EOI) NonAtomic ?o (fin inp)] => destruct (eval skip (ESeq (ERep decls) EOI) NonAtomic o (fin inp)) as [t2 m2 ps2| |] eqn:E0 end; try discriminate.
  rewrite emit_ok by discriminate. intros H. injection H as _ _ <-.
  assert (HE : E (ESeq (ERep decls) EOI) (fin inp) m2 ps2) by (eexists _, _; exact E0). apply E_seq in HE as (m1 & q1 & q2 & HE1 & HE2 & ->).
  eapply (B_many block_r decls d_block) in HE1 as (a & Ha & HF); [|apply B_block|apply fin_fin].
  assert (Hend : fin m1 = [] /\ exists e, q2 = [e] /\ p_rule e = R_EOI).
  { destruct HE2 as (o & t3 & HE). unfold EOI in HE. rewrite eval_normal in HE. cbn [eval] in HE. destruct (fin m1); [|discriminate]. cbn in HE. injection HE as _ _ <-. split; [reflexivity|]. eexists. split; reflexivity. }
  destruct Hend as (E1 & e & -> & He). rewrite E1 in Ha. eexists _, a. split; [reflexivity|]. split.
  - split; [reflexivity|]. exists q1, e. auto.
  - exists (fin inp). split; [apply lay_of|exact Ha].
Qed.
