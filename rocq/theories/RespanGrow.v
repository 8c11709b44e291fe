(** * RespanGrow: nodes read in a text with something after it. *)

From Verif Require Import SynLex SynEval SynCut.
From Verif Require Import SynGrow.
From Verif Require Export RespanLoc.
From Verif Require Import Syntax.

Section After.
Variables inp t : str.
Notation z := (10 :: t).
Notation inp' := (inp ++ z).
Notation safe := (safe t).
Notation ext := (ext t).

Lemma pos_grow i : pos inp' (i ++ z) = pos inp i.
Proof. unfold pos. rewrite !blen_app. lia. Qed.
Lemma span_grow i m : span inp' (i ++ z) (m ++ z) = span inp i m.
Proof. unfold span. rewrite !pos_grow. reflexivity. Qed.
Lemma px_ne i m : px i m -> i <> [].
Proof. intros (x & Hx & ->) E. apply app_eq_nil in E. tauto. Qed.
Lemma sx_ne i m : sx i m -> m <> [] -> i <> [].
Proof. intros (x & ->) H E. apply app_eq_nil in E. tauto. Qed.
Lemma safe_sx i m : sx i m -> safe i -> safe m.
Proof. intros (x & ->). apply safe_suffix. Qed.
Lemma safe_px i m : px i m -> safe i -> safe m.
Proof. intros (x & _ & ->). apply safe_suffix. Qed.
Lemma ext_ne r : r <> [] -> ext r = r ++ z.
Proof. destruct r; [congruence|reflexivity]. Qed.
Lemma close_ne w m : s w <> [] -> s w ++ m <> [].
Proof. intros H E. apply app_eq_nil in E. tauto. Qed.

(** [gA]: whatever follows; [gB]: something follows. *)
Definition gA {A} (R R' : reader A) : Prop := forall i m x, R i m x -> px i m /\ (safe i -> R' (i ++ z) (m ++ z) x).
Definition gB {A} (R R' : reader A) : Prop := forall i m x, R i m x -> px i m /\ (m <> [] -> safe i -> R' (i ++ z) (m ++ z) x).
Lemma gAB {A} (R R' : reader A) : gA R R' -> gB R R'.
Proof. intros H i m x Hx. destruct (H _ _ _ Hx). auto. Qed.

Ltac ne := repeat first [assumption | apply close_ne; discriminate | eapply px_ne; eassumption | eapply sx_ne; [eassumption|]].
Ltac sf := repeat first [eassumption | eapply safe_px; [eassumption|] | eapply safe_sx; [eassumption|]].

Lemma g_lay m r : lay m r -> sx m r /\ (r <> [] -> safe m -> lay (m ++ z) (r ++ z)).
Proof. intros H. split; [apply lay_sx; exact H|]. intros Hr Hs. rewrite <- (ext_ne r) by exact Hr. apply lay_grow; assumption. Qed.
Lemma g_tok w i r : w <> [] -> tok w i r -> px i r /\ (r <> [] -> safe i -> tok w (i ++ z) (r ++ z)).
Proof.
  intros Hw (m & -> & Hl). destruct (g_lay _ _ Hl) as [H1 H2]. split; [eapply px_sx_trans; [apply px_app; exact Hw|exact H1]|].
  intros Hr Hs. apply safe_suffix in Hs. exists (m ++ z). split; [symmetry; apply app_assoc|auto].
Qed.
Lemma g_kw k i r : s k <> [] -> kw k i r -> px i r /\ (r <> [] -> safe i -> kw k (i ++ z) (r ++ z)).
Proof.
  intros Hk H. split; [eapply kw_px; eassumption|]. destruct H as (w & m & -> & Hw & Hl). destruct (g_lay _ _ Hl) as [H1 H2].
  intros Hr Hs. apply safe_suffix in Hs. exists w, (m ++ z). split; [symmetry; apply app_assoc|auto].
Qed.
Lemma gA_next {A} (R R' : reader A) i r x : gA R R' -> next R i r x -> px i r /\ (safe i -> next R' (i ++ z) (ext r) x).
Proof.
  intros H (m & Hx & Hl). destruct (H _ _ _ Hx) as [H1 H2]. pose proof (lay_sx _ _ Hl) as H3. split; [eapply px_sx_trans; eassumption|].
  intros Hs. exists (m ++ z). split; [auto|]. apply lay_grow; [sf|exact Hl].
Qed.
Lemma gB_next {A} (R R' : reader A) : gB R R' -> gB (next R) (next R').
Proof.
  intros H i r x (m & Hx & Hl). destruct (H _ _ _ Hx) as [H1 H2]. destruct (g_lay _ _ Hl) as [H3 H4]. split; [eapply px_sx_trans; eassumption|].
  intros Hr Hs. exists (m ++ z). split; [apply H2; [ne|exact Hs]|]. apply H4; [exact Hr|sf].
Qed.
Lemma g_commas {A} (R R' : reader A) i r l : gB R R' -> commas R i r l -> px i r /\ (r <> [] -> safe i -> commas R' (i ++ z) (r ++ z) l).
Proof.
  intros H Hl. induction Hl as [i r a Ha|i m m' r a l Ha Ht Hl [P1 Q1]].
  - destruct (H _ _ _ Ha) as [P Q]. split; [exact P|]. intros Hr Hs. constructor. auto.
  - destruct (H _ _ _ Ha) as [P Q]. destruct (g_tok (s ",") _ _ ltac:(discriminate) Ht) as [P0 Q0]. split; [eapply px_trans; [|eapply px_trans]; eassumption|].
    intros Hr Hs. eapply commas_more; [apply Q; [ne|exact Hs]|apply Q0; [ne|sf]|apply Q1; [exact Hr|sf]].
Qed.
Lemma g_many {A} (R R' : reader A) i r l : gB R R' -> many R i r l -> sx i r /\ (r <> [] -> safe i -> many R' (i ++ z) (r ++ z) l).
Proof.
  intros H Hl. induction Hl as [i|i m r a l Ha Hl [P1 Q1]].
  - split; [apply sx_refl|]. intros Hr Hs. constructor.
  - destruct (H _ _ _ Ha) as [P Q]. split; [apply px_sx; eapply px_sx_trans; eassumption|].
    intros Hr Hs. econstructor; [apply Q; [ne|exact Hs]|apply Q1; [exact Hr|sf]].
Qed.
Lemma g_maybe {A} (R R' : reader A) i r o : gB R R' -> maybe R i r o -> sx i r /\ (r <> [] -> safe i -> maybe R' (i ++ z) (r ++ z) o).
Proof.
  intros H H0. destruct H0 as [i0|i0 r0 a Ha]; [split; [apply sx_refl|constructor]|]. destruct (H _ _ _ Ha) as [P Q].
  split; [apply px_sx; exact P|]. intros Hr Hs. constructor. auto.
Qed.
Lemma gA_list {A} op cl (R R' : reader A) : s op <> [] -> s cl <> [] -> gB R R' -> gA (list_at op cl R) (list_at op cl R').
Proof.
  intros Ho Hc H i m l H0. destruct H0 as [i0 m0 Ht|i0 m1 m0 l0 Ht Hl]; destruct (g_tok _ _ _ Ho Ht) as [P Q].
  - split; [eapply px_sx_trans; [exact P|exists (s cl); reflexivity]|]. intros Hs. constructor. rewrite app_assoc. apply Q; [apply close_ne; exact Hc|exact Hs].
  - destruct (g_commas _ _ _ _ _ (gB_next _ _ H) Hl) as [P1 Q1]. split; [eapply px_sx_trans; [eapply px_trans; eassumption|exists (s cl); reflexivity]|].
    intros Hs. eapply list_some; [apply Q; [ne|exact Hs]|]. rewrite app_assoc. apply Q1; [apply close_ne; exact Hc|sf].
Qed.
Lemma gA_braces {A} (R R' : reader A) : gB R R' -> gA (braces_at R) (braces_at R').
Proof.
  intros H i m l (m1 & Ht & Hl). destruct (g_tok (s "{") _ _ ltac:(discriminate) Ht) as [P Q]. destruct (g_many _ _ _ _ _ (gB_next _ _ H) Hl) as [P1 Q1].
  split; [eapply px_sx_trans; [eapply px_sx_trans; eassumption|exists (s "}"); reflexivity]|].
  intros Hs. exists (m1 ++ z). split; [apply Q; [ne|exact Hs]|]. rewrite app_assoc. apply Q1; [ne|sf].
Qed.
Lemma gB_tail {A B} (R R' : reader A) (O O' : reader B) i m a o : gB R R' -> gB O O' -> tail_at R O i m a o ->
  px i m /\ (m <> [] -> safe i -> tail_at R' O' (i ++ z) (m ++ z) a o).
Proof.
  intros HR HO H0. destruct H0 as [i0 m0 a0 Ha|i0 m1 m0 a0 b Ha Hb]; destruct (gB_next _ _ HR _ _ _ Ha) as [P Q].
  - split; [exact P|]. intros Hm Hs. constructor. auto.
  - destruct (HO _ _ _ Hb) as [P1 Q1]. split; [eapply px_trans; eassumption|]. intros Hm Hs. econstructor; [apply Q; [ne|exact Hs]|apply Q1; [exact Hm|sf]].
Qed.

(** ** Words and literals *)
Lemma gA_plain : gA plain_at plain_at.
Proof. intros i m w H. split; [eapply plain_px; exact H|]. destruct H as (-> & H1 & H2). intros _. split; [symmetry; apply app_assoc|]. split; [exact H1|apply no_word_grow; exact H2]. Qed.
Lemma gA_phrase : gA phrase_at phrase_at.
Proof. intros i m w H. split; [eapply phrase_px; exact H|]. destruct H as (-> & H1 & H2). intros _. split; [symmetry; apply app_assoc|]. split; [exact H1|apply no_phrase_grow; exact H2]. Qed.
Lemma gA_quote q : q <> [] -> gA (quote_at q) (quote_at q).
Proof.
  intros Hq i m v H. split; [eapply quote_px; eassumption|]. destruct H as (i' & -> & Hl & Hc). intros Hs. apply safe_suffix in Hs.
  destruct (g_lay _ _ Hl) as [_ G]. exists (i' ++ z). split; [symmetry; apply app_assoc|]. split; [|exact Hc].
  rewrite !app_assoc in *. apply G; [|exact Hs]. intros E. apply app_eq_nil in E as [E _]. apply app_eq_nil in E as [_ E]. contradiction.
Qed.
Lemma gA_text : gA text_at text_at.
Proof.
  intros i m v [H|H]; (edestruct gA_quote as [P Q]; [|exact H|split; [exact P|]]; [discriminate|]); intros Hs; [left|right]; auto.
Qed.
Lemma gA_value : gA value_at value_at.
Proof.
  intros i m v H. split; [eapply value_px; exact H|]. intros Hs.
  destruct H as [i0 m0 v0 H|i0 m0 v0 H|m0|m0|m0|d m0 Hd Hn Hp|d1 d2 m0 f0 Hd Hd2 Hn Hf|h m0 Hh Hl|h m0 Hh Hl Hno].
  - constructor. apply gA_text; assumption.
  - constructor. apply gA_quote; [discriminate|assumption..].
  - rewrite <- app_assoc. constructor.
  - rewrite <- app_assoc. constructor.
  - rewrite <- app_assoc. constructor.
  - rewrite <- app_assoc. constructor; [exact Hd|apply no_digit_grow; exact Hn|]. intros m' E. destruct m0 as [|c m0]; cbn in E; [discriminate|]. injection E as -> _. apply (Hp m0). reflexivity.
  - rewrite <- !app_assoc. constructor; [exact Hd|exact Hd2|apply no_digit_grow; exact Hn|exact Hf].
  - rewrite <- !app_assoc. constructor; assumption.
  - rewrite <- !app_assoc. apply va_hex3; [exact Hh|exact Hl|]. intros h' m' E L F. destruct (le_lt_dec (List.length h') (List.length m0)) as [Hle|Hlt].
    + apply (Hno h' (skipn (List.length h') m0)); [|exact L|exact F].
      assert (E' : firstn (List.length h') (m0 ++ z) = h') by (rewrite E, firstn_app, firstn_all, Nat.sub_diag, firstn_O, app_nil_r; reflexivity).
      rewrite firstn_app in E'. replace (List.length h' - List.length m0)%nat with 0%nat in E' by lia. rewrite firstn_O, app_nil_r in E'.
      rewrite <- E' at 1. symmetry. apply firstn_skipn.
    + assert (H : In 10 h').
      { assert (E' : firstn (List.length h') (m0 ++ z) = h') by (rewrite E, firstn_app, firstn_all, Nat.sub_diag, firstn_O, app_nil_r; reflexivity).
        rewrite <- E', firstn_app. apply in_or_app. right. destruct (List.length h' - List.length m0)%nat eqn:En; [lia|]. left. reflexivity. }
      rewrite Forall_forall in F. specialize (F 10 H). unfold hex_digit, digit in F. lia.
Qed.
Lemma gA_or {A} (R S R' S' : reader A) : gA R R' -> gA S S' -> gA (fun i m v => R i m v \/ S i m v) (fun i m v => R' i m v \/ S' i m v).
Proof. intros H1 H2 i m v [H|H]; [destruct (H1 _ _ _ H)|destruct (H2 _ _ _ H)]; split; auto. Qed.
Lemma gA_string q : q <> [] -> gA (string_at q) (string_at q).
Proof. intros Hq i m v (w & H & E). destruct (gA_quote q Hq _ _ _ H) as [P Q]. split; [exact P|]. intros Hs. exists w. auto. Qed.
Lemma gA_note_text : gA note_text_at note_text_at.
Proof. apply (gA_or (string_at tq) (string_at sq)); apply gA_string; discriminate. Qed.
Lemma gA_bare : gA bare_at bare_at.
Proof. intros i m v (w & H & E). destruct (gA_phrase _ _ _ H) as [P Q]. split; [exact P|]. intros Hs. exists w. auto. Qed.
Lemma gA_plain_value : gA plain_value_at plain_value_at.
Proof. apply (gA_or value_at bare_at); [apply gA_value|apply gA_bare]. Qed.
Lemma gA_attr_value : gA attr_value_at attr_value_at.
Proof. apply (gA_or plain_value_at (string_at dq)); [apply gA_plain_value|apply gA_string; discriminate]. Qed.
Lemma gA_ident : gA (ident_at inp) (ident_at inp').
Proof.
  intros i m x (E1 & E2 & H). destruct (gA_or _ _ _ _ gA_plain (gA_quote dq ltac:(discriminate)) _ _ _ H) as [P Q]. split; [exact P|]. intros Hs.
  split; [rewrite E1 at 1; symmetry; apply app_assoc|]. split; [rewrite span_grow; exact E2|exact (Q Hs)].
Qed.
Lemma gA_key : gA (key_at inp) (key_at inp').
Proof.
  intros i m x (E1 & E2 & H). destruct (gA_phrase _ _ _ H) as [P Q]. split; [exact P|]. intros Hs.
  split; [rewrite E1 at 1; symmetry; apply app_assoc|]. split; [rewrite span_grow; exact E2|exact (Q Hs)].
Qed.
Lemma gA_lit R : gA R R -> gA (lit inp R) (lit inp' R).
Proof.
  intros HR i m x (E1 & E2 & H & Hf). destruct (HR _ _ _ H) as [P Q]. split; [exact P|]. intros Hs.
  split; [rewrite E1 at 1; symmetry; apply app_assoc|]. split; [rewrite span_grow; exact E2|auto].
Qed.

(** Each part in turn; then what is left of it is not empty, and what it needs safe is. *)
Ltac ga L H := let P := fresh "P" in let Q := fresh "Q" in destruct (L _ _ _ H) as [P Q].
Ltac nx L H := ga (gB_next _ _ (gAB _ _ L)) H.
Ltac nb L H := ga (gB_next _ _ L) H.
Ltac my L H := let P := fresh "P" in let Q := fresh "Q" in destruct (g_maybe _ _ _ _ _ (gB_next _ _ (gAB _ _ L)) H) as [P Q].
Ltac tk H := let P := fresh "P" in let Q := fresh "Q" in match type of H with
  | tok ?w ?i ?m => destruct (g_tok w i m ltac:(discriminate) H) as [P Q] | kw ?w ?i ?m => destruct (g_kw w i m ltac:(discriminate) H) as [P Q]
  | lay ?i ?m => destruct (g_lay i m H) as [P Q] end.
Ltac pxs := repeat first [eassumption | eapply px_trans; [eassumption|] | eapply sx_px_trans; [eassumption|] | eapply px_sx_trans; [eassumption|]].
Ltac qq := match goal with
  | Q : _ <> [] -> SynGrow.safe t _ -> _ |- _ => eapply Q; [solve [ne]|solve [sf]]
  | Q : SynGrow.safe t _ -> _ |- _ => eapply Q; solve [sf] end.

(** ** Settings *)
Lemma gB_attribute : gB (attribute_at inp) (attribute_at inp').
Proof.
  intros i m x H. destruct H as [i m k Hk|i m1 m2 m k v Hk Ht Hv].
  - nx gA_key Hk. split; [exact P|]. intros Hm Hs. rewrite <- span_grow. constructor. qq.
  - nx gA_key Hk. tk Ht. ga (gA_lit _ gA_attr_value) Hv. split; [pxs|]. intros Hm Hs. rewrite <- span_grow. econstructor; qq.
Qed.
Lemma gA_attributes : gA (attributes_at inp) (attributes_at inp').
Proof. apply gA_list; [discriminate..|apply gB_attribute]. Qed.
Ltac st := let H := fresh in intros i m x H; destruct H as (E & H); try (destruct H as [H ?]); destruct (gA_attributes _ _ _ H) as [P Q]; split; [exact P|]; intros Hs; split; [rewrite span_grow; exact E|]; try split; try assumption; auto.
Lemma gA_table_settings : gA (table_settings_at inp) (table_settings_at inp').
Proof. intros i m x (E & H). ga gA_attributes H. split; [exact P|]. intros Hs. split; [rewrite span_grow; exact E|auto]. Qed.
Lemma gA_group_settings : gA (group_settings_at inp) (group_settings_at inp').
Proof. intros i m x (E & H). ga gA_attributes H. split; [exact P|]. intros Hs. split; [rewrite span_grow; exact E|auto]. Qed.
Lemma gA_enum_settings : gA (enum_settings_at inp) (enum_settings_at inp').
Proof. intros i m x (E & H & K). ga gA_attributes H. split; [exact P|]. intros Hs. split; [rewrite span_grow; exact E|auto]. Qed.
Lemma gA_ref_settings : gA (ref_settings_at inp) (ref_settings_at inp').
Proof. intros i m x (E & H & K). ga gA_attributes H. split; [exact P|]. intros Hs. split; [rewrite span_grow; exact E|auto]. Qed.
Lemma gA_index_settings : gA (index_settings_at inp) (index_settings_at inp').
Proof. intros i m x (E & H & K). ga gA_attributes H. split; [exact P|]. intros Hs. split; [rewrite span_grow; exact E|auto]. Qed.

(** ** References *)
Lemma gB_decl : gB (decl_at inp) (decl_at inp').
Proof.
  intros i m x H. destruct H as [i m n Hn|i m1 m2 m sc n Hsc Ht Hn].
  - nx gA_ident Hn. split; [exact P|]. intros Hm Hs. constructor. qq.
  - nx gA_ident Hsc. tk Ht. ga gA_ident Hn. split; [pxs|]. intros Hm Hs. econstructor; qq.
Qed.
Lemma gA_columns : gA (columns_at inp) (columns_at inp').
Proof.
  intros i m x H. destruct H as [i m c Hc|i m1 m l Ht Hl].
  - ga gA_ident Hc. split; [exact P|]. intros Hs. constructor. qq.
  - tk Ht. destruct (g_commas _ _ _ _ _ (gB_next _ _ (gAB _ _ gA_ident)) Hl) as [P1 Q1].
    split; [eapply px_sx_trans; [eapply px_trans; eassumption|exists (s ")"); reflexivity]|]. intros Hs. eapply columns_more; [qq|]. rewrite app_assoc. qq.
Qed.
Lemma gA_endpoint : gA (endpoint_at inp) (endpoint_at inp').
Proof.
  intros i m x H. destruct H as [i m1 m2 m t0 l H1 H2 H3|i m1 m2 m3 m4 m sc t0 l H1 H2 H3 H4 H5].
  - nx gA_ident H1. tk H2. ga gA_columns H3. split; [pxs|]. intros Hs. rewrite <- span_grow. econstructor; qq.
  - nx gA_ident H1. tk H2. nx gA_ident H3. tk H4. ga gA_columns H5. split; [pxs|]. intros Hs. rewrite <- span_grow. eapply endpoint_schema; qq.
Qed.
Lemma gA_rel : gA rel_at rel_at.
Proof. intros i m x (w & E & ->). split; [apply px_app; destruct x; cbn in E; congruence|]. intros Hs. exists w. split; [exact E|symmetry; apply app_assoc]. Qed.
Lemma gA_inline : gA (inline_at inp) (inline_at inp').
Proof.
  intros i m x H. destruct H as [i m1 m2 m3 m x e H1 H2 H3 H4]. tk H1. tk H2. nx gA_rel H3. ga gA_endpoint H4. split; [pxs|]. intros Hs. rewrite <- span_grow. econstructor; qq.
Qed.
(** A statement without settings reaches up to what follows the layout. *)
Definition to (e : N) (r : ref_block_t) : ref_block_t :=
  mkRefBlock (fst (rb_span r), e) (rb_name r) (rb_rel r) (rb_lhs r) (rb_rhs r) (rb_settings r).
Lemma g_stmt n i m x : stmt_at inp n i m x -> px i m /\ rb_span x = span inp i m /\
  (m <> [] \/ rb_settings x <> None -> safe i -> stmt_at inp' n (i ++ z) (m ++ z) x) /\
  (m = [] -> rb_settings x = None -> safe i -> stmt_at inp' n (i ++ z) (fin t) (to (pos inp' (fin t)) x)).
Proof.
  intros H. destruct H as [i m1 m2 m x a b st H1 H2 H3]. nx gA_endpoint H1. nx gA_rel H2.
  destruct H3 as [i0 m0 a0 Ha|i0 m3 m0 a0 b0 Ha Hb].
  - nx gA_endpoint Ha. destruct (gA_next _ _ _ _ _ gA_endpoint Ha) as [_ Q2]. split; [pxs|]. split; [reflexivity|]. cbn [rb_settings].
    split; [intros [Hm|Hm] Hs; [|congruence]; rewrite <- span_grow; econstructor; [qq|qq|constructor; qq]|].
    intros -> _ Hs. unfold to. cbn [rb_span rb_name rb_rel rb_lhs rb_rhs rb_settings]. unfold span at 1. cbn [fst]. rewrite <- pos_grow.
    apply (stmt_intro inp' n (i ++ z) (m1 ++ z) (i0 ++ z) (fin t)); [qq|qq|]. constructor. apply Q2. sf.
  - nx gA_endpoint Ha. ga gA_ref_settings Hb. split; [pxs|]. split; [reflexivity|]. cbn [rb_settings]. split; [|congruence].
    intros _ Hs. rewrite <- span_grow. econstructor; [qq|qq|]. econstructor; qq.
Qed.
Lemma gB_stmt n : gB (stmt_at inp n) (stmt_at inp' n).
Proof. intros i m x H. destruct (g_stmt _ _ _ _ H) as (P & _ & Q & _). split; [exact P|]. intros Hm. apply Q. left. exact Hm. Qed.
Lemma g_reference i m x : reference_at inp i m x -> px i m /\ (safe i ->
  (reference_at inp' (i ++ z) (m ++ z) x /\ (rb_settings x = None -> exists k, px k [] /\ snd (rb_span x) = pos inp k)) \/
  (m = [] /\ rb_settings x = None /\ snd (rb_span x) = pos inp [] /\ reference_at inp' (i ++ z) (fin t) (to (pos inp' (fin t)) x))).
Proof.
  intros H. destruct H as [i m1 m2 m3 m n r H1 H2 H3 H4|i m1 m2 m3 m n r H1 H2 H3 H4].
  - tk H1. my gA_ident H2. tk H3. destruct (g_stmt _ _ _ _ H4) as (P3 & E & Q3 & Q4). split; [pxs|]. intros Hs.
    destruct m as [|c m].
    + destruct (rb_settings r) as [x|] eqn:Er.
      * left. split; [|congruence]. assert (H : Some x <> None) by discriminate. specialize (Q3 (or_intror H)). econstructor; qq.
      * right. split; [reflexivity|]. split; [reflexivity|]. split; [rewrite E; reflexivity|]. specialize (Q4 eq_refl eq_refl). econstructor; qq.
    + left. split; [|intros _; exists (c :: m); split; [exists (c :: m); split; [discriminate|symmetry; apply app_nil_r]|rewrite E; reflexivity]].
      assert (H : c :: m <> []) by discriminate. specialize (Q3 (or_introl H)). econstructor; qq.
  - tk H1. my gA_ident H2. tk H3. nb (gB_stmt n) H4. split; [eapply px_sx_trans; [|exists (s "}"); reflexivity]; pxs|]. intros Hs. left. split.
    + eapply reference_braces; [qq|qq|qq|]. rewrite app_assoc. qq.
    + intros _. destruct H4 as (k & Hk & Hl). destruct (g_stmt _ _ _ _ Hk) as (_ & E & _). exists k. split; [|rewrite E; reflexivity].
      exists k. split; [|symmetry; apply app_nil_r]. apply lay_sx in Hl. eapply sx_ne; [exact Hl|apply close_ne; discriminate].
Qed.
Lemma gA_note : gA (note_at inp) (note_at inp').
Proof.
  intros i m x H. destruct H as [i m1 m2 m v H1 H2 H3|i m1 m2 m v H1 H2 H3]; tk H1; tk H2.
  - ga (gA_lit _ gA_note_text) H3. split; [pxs|]. intros Hs. rewrite <- span_grow. econstructor; qq.
  - nx (gA_lit _ gA_note_text) H3. split; [eapply px_sx_trans; [|exists (s "}"); reflexivity]; pxs|]. intros Hs. rewrite <- span_grow.
    eapply note_braces_at; [qq|qq|]. rewrite app_assoc. qq.
Qed.

(** ** Tables *)
Lemma no_dim_grow m : no_dim m -> no_dim (m ++ z).
Proof.
  intros Hd d x Fd E. assert (Q : exists y, m = s "[" ++ d ++ s "]" ++ y); [|destruct Q as (y & Ey); exact (Hd d y Fd Ey)].
  destruct m as [|c m]; cbn in E; [discriminate|]. injection E as -> E. clear -Fd E.
  assert (Q : exists y, m = d ++ s "]" ++ y); [|destruct Q as (y & ->); exists y; reflexivity].
  revert m E. induction Fd as [|a d Ha _ IH]; intros m E; (destruct m as [|c m]; cbn in E; [injection E as E _; try discriminate|]).
  + injection E as -> _. exists m. reflexivity.
  + subst a. destruct Ha. lia.
  + injection E as -> E. destruct (IH m E) as (y & ->). exists y. reflexivity.
Qed.
Lemma gA_type : gA (type_at inp) (type_at inp').
Proof.
  intros i m x (E1 & E2 & H1 & H2 & H3 & H4). split; [rewrite E1; apply px_app; eapply type_raw_ne; exact H1|]. intros Hs.
  split; [rewrite E1 at 1; symmetry; apply app_assoc|]. split; [rewrite span_grow; exact E2|]. split; [exact H1|].
  split; [|split; [apply no_dim_grow; exact H3|exact H4]]. intros y c E Hc. apply no_word_grow. eapply H2; eassumption.
Qed.
Lemma gB_col_item : gB (col_item_at inp) (col_item_at inp').
Proof. intros i m [a|r] H; cbn [col_item_at] in *; [apply gB_attribute|apply (gAB _ _ gA_inline)]; exact H. Qed.
Lemma gA_col_settings : gA (col_settings_at inp) (col_settings_at inp').
Proof.
  intros i m x (E1 & l & H1 & H2). ga (gA_list "[" "]" _ _ ltac:(discriminate) ltac:(discriminate) gB_col_item) H1. split; [exact P|]. intros Hs.
  split; [rewrite span_grow; exact E1|]. exists l. auto.
Qed.
Ltac tl L O H := let P := fresh "P" in let Q := fresh "Q" in destruct (gB_tail _ _ _ _ _ _ _ _ L O H) as [P Q].
Lemma gB_column : gB (column_at inp) (column_at inp').
Proof.
  intros i m x H. destruct H as [i m1 m n ty st H1 H2]. nx gA_ident H1. tl (gAB _ _ gA_type) (gAB _ _ gA_col_settings) H2. split; [pxs|].
  intros Hm Hs. rewrite <- span_grow. econstructor; qq.
Qed.
Lemma gA_index_col : gA (index_col_at inp) (index_col_at inp').
Proof.
  intros i m x H. destruct H as [i m x H|i m v H].
  - ga gA_ident H. split; [exact P|]. intros Hs. constructor. qq.
  - ga (gA_lit _ (gA_string bq ltac:(discriminate))) H. split; [exact P|]. intros Hs. constructor. qq.
Qed.
Lemma gB_index : gB (index_at inp) (index_at inp').
Proof.
  intros i m x H. destruct H as [i m c st H|i m l st H].
  - tl (gAB _ _ gA_index_col) (gAB _ _ gA_index_settings) H. split; [exact P|]. intros Hm Hs. rewrite <- span_grow. constructor. qq.
  - tl (gAB _ _ (gA_list "(" ")" _ _ ltac:(discriminate) ltac:(discriminate) (gAB _ _ gA_index_col))) (gAB _ _ gA_index_settings) H. split; [exact P|]. intros Hm Hs.
    rewrite <- span_grow. apply index_multi. qq.
Qed.
Lemma gA_indexes : gA (indexes_at inp) (indexes_at inp').
Proof.
  intros i m x H. destruct H as [i m1 m l H1 H2]. tk H1. ga (gA_braces _ _ gB_index) H2. split; [pxs|]. intros Hs. rewrite <- span_grow. econstructor; qq.
Qed.
Lemma gB_table_item : gB (table_item_at inp) (table_item_at inp').
Proof. intros i m [a|a|a] H; cbn [table_item_at] in *; [apply gB_column|apply (gAB _ _ gA_note)|apply (gAB _ _ gA_indexes)]; exact H. Qed.
Lemma gA_alias : gA (alias_at inp) (alias_at inp').
Proof. intros i m x (m1 & H1 & H2). tk H1. ga gA_ident H2. split; [pxs|]. intros Hs. exists (m1 ++ z). split; qq. Qed.
Lemma gA_table : gA (table_at inp) (table_at inp').
Proof.
  intros i m x H. destruct H as [i m1 m2 m3 m4 m5 m d al st l H1 H2 H3 H4 H5 H6]. tk H1. ga gB_decl H2. tk H3. my gA_alias H4. my gA_table_settings H5.
  ga (gA_braces _ _ gB_table_item) H6. split; [pxs|]. intros Hs. rewrite <- !span_grow. econstructor; qq.
Qed.

(** ** Enums, groups, projects *)
Lemma gB_enum_value : gB (enum_value_at inp) (enum_value_at inp').
Proof.
  intros i m x H. destruct H as [i m v st H]. tl (gAB _ _ gA_ident) (gAB _ _ gA_enum_settings) H. split; [exact P|]. intros Hm Hs. rewrite <- span_grow. constructor. qq.
Qed.
Lemma gA_enum : gA (enum_at inp) (enum_at inp').
Proof.
  intros i m x H. destruct H as [i m1 m2 m3 m d l H1 H2 H3 H4]. tk H1. ga gB_decl H2. tk H3. ga (gA_braces _ _ gB_enum_value) H4.
  split; [pxs|]. intros Hs. rewrite <- !span_grow. econstructor; qq.
Qed.
Lemma gB_group_part : gB (group_part_at inp) (group_part_at inp').
Proof.
  intros i m x H. destruct H as [i m n H|i m d H].
  - ga gA_note H. split; [exact P|]. intros Hm Hs. constructor. qq.
  - ga gB_decl H. split; [exact P|]. intros Hm Hs. rewrite <- span_grow. constructor. qq.
Qed.
Lemma gA_group : gA (group_at inp) (group_at inp').
Proof.
  intros i m x H. destruct H as [i m1 m2 m3 m n st l H1 H2 H3 H4]. tk H1. nx gA_ident H2. my gA_group_settings H3. ga (gA_braces _ _ gB_group_part) H4.
  split; [pxs|]. intros Hs. rewrite <- span_grow. econstructor; qq.
Qed.
Lemma gB_property : gB (property_at inp) (property_at inp').
Proof.
  intros i m x H. destruct H as [i m1 m2 m k v H1 H2 H3 H4]. nx gA_key H1. tk H2. ga (gA_lit _ gA_plain_value) H3. split; [pxs|]. intros Hm Hs.
  rewrite <- span_grow. econstructor; [qq|qq|qq|exact H4].
Qed.
Lemma gB_project_item : gB (project_item_at inp) (project_item_at inp').
Proof. intros i m [a|a] H; cbn [project_item_at] in *; [apply (gAB _ _ gA_note)|apply gB_property]; exact H. Qed.
Lemma gA_project : gA (project_at inp) (project_at inp').
Proof.
  intros i m x H. destruct H as [i m1 m2 m n l props db H1 H2 H3 -> H4]. tk H1. nx gA_ident H2. ga (gA_braces _ _ gB_project_item) H3. split; [pxs|]. intros Hs.
  rewrite <- span_grow. econstructor; [qq|qq|qq|reflexivity|exact H4].
Qed.
End After.
