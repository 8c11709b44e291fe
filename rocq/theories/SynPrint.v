(** * SynPrint: every writable meaning has a text. *)

From Verif Require Export SynMain.
From Verif Require Import LexRules Syntax.
From Verif Require Export Writable.

Lemma num_text n : exists d, digits d /\ digits_value 0 d = n.
Proof.
  induction n as [n IH] using (well_founded_induction N.lt_wf_0).
  destruct (N.lt_ge_cases n 10) as [Hn|Hn].
  - exists [48 + n]. split; [split; [discriminate|]; constructor; [unfold digit; lia|constructor]|]. cbn [digits_value]. lia.
  - destruct (IH (n / 10)) as (d & [Hd1 Hd2] & Hv); [apply N.div_lt; lia|]. exists (d ++ [48 + n mod 10]).
    pose proof (N.mod_upper_bound n 10 ltac:(lia)) as Hm. split; [split|].
    + destruct d; discriminate.
    + apply Forall_app. split; [exact Hd2|]. constructor; [revert Hm; generalize (n mod 10); intros k Hm; split; lia|constructor].
    + assert (E0 : forall l a c, digits_value a (l ++ [c]) = 10 * digits_value a l + (c - 48)).
      { induction l as [|x l IHl]; intros a c; cbn [app digits_value]; [reflexivity|apply IHl]. }
      rewrite E0, Hv. pose proof (N.div_mod n 10 ltac:(lia)) as Hdm. revert Hdm Hm. generalize (n mod 10) (n / 10). intros k q -> Hm. lia.
Qed.
Lemma int_text z : (0 <= z)%Z -> exists d, digits d /\ Z.of_N (digits_value 0 d) = z.
Proof. intros H. destruct (num_text (Z.to_N z)) as (d & Hd & Hv). exists d. split; [exact Hd|]. rewrite Hv. lia. Qed.

(** ** Texts that end in a line feed and start a token *)
Definition nls (r : str) : Prop := no_layout_start r.
Definition starts (w : str) : Prop := exists c x, w = c :: x /\ ~ is_ws c /\ c <> 47.
Definition wr {A} (R : reader A) (a : A) : Prop := exists w, starts w /\ forall r, nls r -> R (w ++ r) r a.
Lemma starts_nls w r : starts w -> nls (w ++ r).
Proof. intros (c & x & -> & H1 & H2). apply solid_no_layout. split; assumption. Qed.
Lemma starts_app w r : starts w -> starts (w ++ r).
Proof. intros (c & x & -> & H1 & H2). exists c, (x ++ r). auto. Qed.
Lemma starts_s c x : ~ is_ws c -> c <> 47 -> starts (c :: x).
Proof. intros H1 H2. exists c, x. auto. Qed.
Definition nl : str := [10].
Lemma lay_nl r : nls r -> lay (nl ++ r) r.
Proof.
  intros H. exists nl. split; [reflexivity|]. split; [left; unfold nl; constructor; [unfold is_ws; auto|constructor]|exact H].
Qed.
Lemma lay_id r : nls r -> lay r r.
Proof. intros H. exists []. split; [reflexivity|]. split; [left; constructor|exact H]. Qed.
Lemma tok_nl x r : nls r -> tok x (x ++ nl ++ r) r.
Proof. intros H. exists (nl ++ r). split; [reflexivity|apply lay_nl; exact H]. Qed.
Lemma kw_nl k r : nls r -> kw k (s k ++ nl ++ r) r.
Proof.
  intros H. exists (s k), (nl ++ r). split; [reflexivity|]. split; [|apply lay_nl; exact H].
  unfold any_case. induction (s k); constructor; [left; reflexivity|assumption].
Qed.
Lemma nil_nls : nls [].
Proof. apply solid_no_layout. exact Logic.I. Qed.
Lemma not_ws_lit c : (c =? 32) || (c =? 9) || (c =? 10) || (c =? 13) || (c =? 47) = false -> ~ is_ws c /\ c <> 47.
Proof. rewrite !orb_false_iff, !N.eqb_neq. unfold is_ws. tauto. Qed.
Ltac st := match goal with |- starts (s ?k ++ _) => cbn [s app] | |- starts (s ?k) => cbn [s] | _ => idtac end;
  apply starts_s; apply not_ws_lit; reflexivity.
Lemma no_word_nl r : no_word (nl ++ r).
Proof. intros c m [= <- _]. unfold word_char, letter, digit. lia. Qed.
Lemma no_phrase_nl r : no_phrase (nl ++ r).
Proof. split; [apply no_word_nl|]. intros c m [= ]. Qed.
Lemma no_digit_nl r : no_digit (nl ++ r).
Proof. intros c m [= <- _]. unfold digit. lia. Qed.
Lemma letter_starts c x : letter c -> starts (c :: x).
Proof. intros H. apply starts_s; unfold letter, is_ws in *; lia. Qed.
Lemma no_char q v : ~ In q v -> closes_first [q] v.
Proof.
  intros H. induction v as [|c v IH]; intros a b E0.
  - destruct a as [|x a]; cbn in E0; [injection E0 as <-; reflexivity|]. injection E0 as _ E0. destruct a; discriminate.
  - destruct a as [|x a]; cbn in E0.
    + injection E0 as -> _. destruct H. left. reflexivity.
    + injection E0 as _ E0. apply (IH (fun Hi => H (or_intror Hi)) a b E0).
Qed.
Definition mark (q : str) : Prop := exists c q', q = c :: q' /\ ~ is_ws c /\ c <> 47 /\ c <> 42.
Lemma firm_nls v q z : firm v -> mark q -> no_layout_start (v ++ q ++ z).
Proof.
  intros (F1 & F2 & F3) (c & q' & -> & Q1 & Q2 & Q3). cbn [app]. destruct v as [|a v]; [apply solid_no_layout; split; assumption|].
  split; [|split].
  - intros d r [= <- _]. apply (F1 a v eq_refl).
  - intros r E. cbn in E. destruct v as [|b v]; cbn in E; injection E as -> E1 E2; [congruence|]. subst b. apply (F2 v). reflexivity.
  - intros body r E. cbn in E. destruct v as [|b v]; cbn in E; injection E as -> E1 E2; [congruence|]. subst b. apply (F3 v). reflexivity.
Qed.
Ltac mk := eexists _, _; split; [reflexivity|]; unfold is_ws; repeat split; try discriminate; intuition discriminate.
Lemma mark_dq : mark dq. Proof. mk. Qed.
Lemma mark_sq : mark sq. Proof. mk. Qed.
Lemma mark_tq : mark tq. Proof. mk. Qed.
Lemma mark_bq : mark bq. Proof. mk. Qed.
Lemma quote_nl q v r : closes_first q v -> firm v -> mark q -> nls r -> quote q (q ++ v ++ q ++ nl ++ r) r v.
Proof.
  intros Hc Hs Hq Hr. exists (v ++ q ++ nl ++ r), (nl ++ r). split; [reflexivity|]. split; [|split; [exact Hc|apply lay_nl; exact Hr]].
  apply lay_id, firm_nls; assumption.
Qed.
Ltac apps := cbn [app]; rewrite ?app_nil_l, <- ?app_assoc.

Lemma wr_name w : w_name firm w -> wr name w.
Proof.
  intros [Hw|[Hs Hn]].
  - exists (w ++ nl). split; [destruct Hw as (c & x & -> & Hc & _); apply letter_starts; exact Hc|].
    intros r Hr. apps. left. exists (nl ++ r). split; [reflexivity|]. split; [exact Hw|]. split; [apply no_word_nl|apply lay_nl; exact Hr].
  - exists (dq ++ w ++ dq ++ nl). split; [st|]. intros r Hr. apps. right. apply quote_nl; [apply no_char; exact Hn|exact Hs|apply mark_dq|exact Hr].
Qed.
Lemma wr_phrase w : spaced_word w -> wr phrase w.
Proof.
  intros Hw. exists (w ++ nl). split; [destruct Hw as (c & x & -> & Hc & _); apply letter_starts; exact Hc|].
  intros r Hr. apps. exists (nl ++ r). split; [reflexivity|]. split; [exact Hw|]. split; [apply no_phrase_nl|apply lay_nl; exact Hr].
Qed.
Lemma wr_text v : w_text firm v -> wr text v.
Proof.
  intros [Hs [H|H]].
  - exists (tq ++ v ++ tq ++ nl). split; [st|]. intros r Hr. apps. left. apply quote_nl; [exact H|exact Hs|apply mark_tq|exact Hr].
  - exists (sq ++ v ++ sq ++ nl). split; [st|]. intros r Hr. apps. right. apply quote_nl; [exact H|exact Hs|apply mark_sq|exact Hr].
Qed.
Lemma wr_expr v : w_expr firm v -> wr (quote bq) v.
Proof.
  intros [Hs H]. exists (bq ++ v ++ bq ++ nl). split; [st|]. intros r Hr. apps. apply quote_nl; [apply no_char; exact H|exact Hs|apply mark_bq|exact Hr].
Qed.
Lemma digits_starts d x : digits d -> starts (d ++ x).
Proof.
  intros [Hn Hd]. destruct d as [|c d]; [congruence|]. apply Forall_cons_iff in Hd as [Hc _]. cbn [app]. apply starts_s; unfold digit, is_ws in *; lia.
Qed.
Lemma wr_literal v : w_literal firm v -> wr literal_r v.
Proof.
  destruct v as [x|x|z|f|b|x|x|]; cbn [w_literal]; intros H.
  1,2,3,4,5,6,7,8: try tauto.
  all: match goal with
  | H : w_text firm ?x |- _ => apply wr_text in H as (w & Hw & H); exists w; split; [exact Hw|]; intros r Hr; constructor; auto
  | H : w_expr firm ?x |- _ => apply wr_expr in H as (w & Hw & H); exists w; split; [exact Hw|]; intros r Hr; constructor; auto
  | _ => idtac
  end.
  all: try match goal with
  | H : (0 <= ?z)%Z |- _ => apply int_text in H as (d & Hd & <-); exists (d ++ nl); split; [apply digits_starts; exact Hd|];
       intros r Hr; apps; apply lr_int; [exact Hd|apply no_digit_nl|intros m' E0; discriminate|apply lay_nl; exact Hr]
  | H : w_decimal _ |- _ => destruct H as (d1 & d2 & H1 & H2 & H3); exists (d1 ++ s "." ++ d2 ++ nl); split; [apply digits_starts; exact H1|];
       intros r Hr; apps; apply lr_dec; [exact H1|exact H2|apply no_digit_nl|apply lay_nl; exact Hr|exact H3]
  | H : w_hex _ |- _ => destruct H as (h & -> & Hh & Hl); exists (s "#" ++ h ++ nl); split; [st|]; intros r Hr; apps
  end.
  all: try match goal with
  | b : bool |- _ => destruct b
  end.
  all: try match goal with
  | |- wr _ (VBool true) => exists (s "true" ++ nl); split; [st|]; intros r Hr; apps; apply lr_true, tok_nl; exact Hr
  | |- wr _ (VBool false) => exists (s "false" ++ nl); split; [st|]; intros r Hr; apps; apply lr_false, tok_nl; exact Hr
  | |- wr _ VNull => exists (s "null" ++ nl); split; [st|]; intros r Hr; apps; apply lr_null, tok_nl; exact Hr
  end.
  destruct Hl as [Hl|Hl].
  - apply lr_hex3; [exact Hh|exact Hl| |apply lay_nl; exact Hr].
    intros h' m' E0 Hl' Hf. destruct h' as [|c h']; [discriminate|]. injection E0 as <- _. apply Forall_cons_iff in Hf as [Hf _]. revert Hf. unfold hex_digit, digit. lia.
  - apply lr_hex6; [exact Hh|exact Hl|apply lay_nl; exact Hr].
Qed.
Lemma wr_bare v : w_bare v -> wr bare v.
Proof.
  intros (w & -> & Hw & Hn). apply wr_phrase in Hw as (x & Hx & Hw). exists x. split; [exact Hx|]. intros r Hr. exists w. auto.
Qed.
Lemma wr_dq w : firm w -> ~ In 34 w -> wr (quote dq) w.
Proof.
  intros Hs Hn. exists (dq ++ w ++ dq ++ nl). split; [st|]. intros r Hr. apps. apply quote_nl; [apply no_char; exact Hn|exact Hs|apply mark_dq|exact Hr].
Qed.
Lemma wr_attr a : w_attr firm a -> wr attr a.
Proof.
  destruct a as [k o]. intros [Hk Ho]. cbn [fst snd] in *. apply wr_phrase in Hk as (x & Hx & Hk). destruct o as [v|].
  - assert (Hv : exists y, starts y /\ forall r, nls r -> literal_r (y ++ r) r v \/ bare (y ++ r) r v \/ (exists w, quote dq (y ++ r) r w /\ v = VString w)).
    { destruct (Ho v eq_refl) as [H|[H|(w & -> & H1 & H2)]].
      - apply wr_literal in H as (y & Hy & H). exists y. auto.
      - apply wr_bare in H as (y & Hy & H). exists y. auto.
      - destruct (wr_dq _ H1 H2) as (y & Hy & H). exists y. split; [exact Hy|]. eauto 6. }
    destruct Hv as (y & Hy & Hv). exists (x ++ s ":" ++ nl ++ y). split; [apply starts_app; exact Hx|]. intros r Hr. apps.
    eapply attr_value; [apply Hk; apply (starts_nls (s ":")); st|apply tok_nl, starts_nls; exact Hy|apply Hv; exact Hr].
  - exists x. split; [exact Hx|]. intros r Hr. apply attr_flag, Hk, Hr.
Qed.

(** ** Lists *)
Lemma wr_commas {A} (R : reader A) l : l <> [] -> Forall (wr R) l -> wr (commas R) l.
Proof.
  intros Hne H. induction H as [|a l (w & Hw & Ha) Hl IH]; [congruence|]. destruct l as [|b l].
  - exists w. split; [exact Hw|]. intros r Hr. apply commas_one, Ha, Hr.
  - destruct IH as (w2 & Hw2 & IH); [discriminate|]. exists (w ++ s "," ++ nl ++ w2). split; [apply starts_app; exact Hw|]. intros r Hr. apps.
    eapply commas_more; [apply Ha; apply (starts_nls (s ",")); st|apply tok_nl, starts_nls; exact Hw2|apply IH; exact Hr].
Qed.
Lemma wr_bracket op cl {A} (R : reader A) l : starts (s op) -> starts (s cl) -> Forall (wr R) l -> wr (bracket op cl R) l.
Proof.
  intros Hop Hcl H. destruct l as [|a l].
  - exists (s op ++ nl ++ s cl ++ nl). split; [apply starts_app; exact Hop|]. intros r Hr. apps.
    eapply bracket_none; [apply tok_nl, starts_nls; exact Hcl|apply tok_nl; exact Hr].
  - apply wr_commas in H as (w & Hw & H); [|discriminate]. exists (s op ++ nl ++ w ++ s cl ++ nl). split; [apply starts_app; exact Hop|]. intros r Hr. apps.
    eapply bracket_some; [apply tok_nl, starts_nls; exact Hw|apply H, starts_nls; exact Hcl|apply tok_nl; exact Hr].
Qed.
(** Possibly empty parts. *)
Definition wo {A} (R : reader A) (a : A) : Prop := exists w, (w = [] \/ starts w) /\ forall r, nls r -> R (w ++ r) r a.
Lemma wo_nls w r : w = [] \/ starts w -> nls r -> nls (w ++ r).
Proof. intros [->|H] Hr; [exact Hr|apply starts_nls; exact H]. Qed.
Lemma wo_maybe {A} (R : reader A) o : (forall a, o = Some a -> wr R a) -> wo (maybe R) o.
Proof.
  intros H. destruct o as [a|].
  - destruct (H a eq_refl) as (w & Hw & Ha). exists w. split; [right; exact Hw|]. intros r Hr. apply maybe_yes, Ha, Hr.
  - exists []. split; [left; reflexivity|]. intros r Hr. apply maybe_no.
Qed.
Lemma wo_many {A} (R : reader A) l : Forall (wr R) l -> wo (many R) l.
Proof.
  induction 1 as [|a l (w & Hw & Ha) Hl (w2 & Hw2 & IH)].
  - exists []. split; [left; reflexivity|]. intros r Hr. apply many_nil.
  - exists (w ++ w2). split; [right; apply starts_app; exact Hw|]. intros r Hr. apps. eapply many_cons; [apply Ha, wo_nls; assumption|apply IH; exact Hr].
Qed.
Lemma wr_braces {A} (R : reader A) l : Forall (wr R) l -> wr (braces R) l.
Proof.
  intros H. apply wo_many in H as (w & Hw & H). exists (s "{" ++ nl ++ w ++ s "}" ++ nl). split; [st|]. intros r Hr. apps.
  exists (w ++ s "}" ++ nl ++ r), (s "}" ++ nl ++ r).
  assert (H1 : nls (s "}" ++ nl ++ r)) by (apply (starts_nls (s "}")); st).
  split; [apply tok_nl, wo_nls; assumption|]. split; [apply H; exact H1|apply tok_nl; exact Hr].
Qed.
Lemma wo_attrs o : w_attrs firm o -> wo (maybe attrs) o.
Proof.
  intros H. apply wo_maybe. intros l ->. apply wr_bracket; [st|st|]. eapply Forall_impl; [|exact (H l eq_refl)]. apply wr_attr.
Qed.

(** ** References *)
Lemma wr_decl d : w_decl firm d -> wr decl_name d.
Proof.
  destruct d as [[sc|] n]; intros [Hs Hn]; cbn [fst snd] in *; apply wr_name in Hn as (w & Hw & Hn).
  - destruct (wr_name _ (Hs sc eq_refl)) as (w1 & Hw1 & H1). exists (w1 ++ s "." ++ nl ++ w). split; [apply starts_app; exact Hw1|]. intros r Hr. apps.
    eexists _, _. split; [apply H1; apply (starts_nls (s ".")); st|]. split; [apply tok_nl, starts_nls; exact Hw|apply Hn; exact Hr].
  - exists w. split; [exact Hw|]. intros r Hr. apply Hn, Hr.
Qed.
Lemma wr_columns l : l <> [] -> Forall (w_name firm) l -> wr columns l.
Proof.
  intros Hne H. assert (H' : Forall (wr name) l) by (eapply Forall_impl; [|exact H]; apply wr_name).
  apply wr_commas in H' as (w & Hw & Hl); [|exact Hne]. exists (s "(" ++ nl ++ w ++ s ")" ++ nl). split; [st|]. intros r Hr. apps.
  eapply cols_more; [apply tok_nl, starts_nls; exact Hw|apply Hl; apply (starts_nls (s ")")); st|apply tok_nl; exact Hr].
Qed.
Lemma wr_end e : w_end firm e -> wr endpoint e.
Proof.
  destruct e as [sc t l]. intros ([Hs Ht] & Hne & Hl). cbn [e_schema e_table e_cols fst snd] in *.
  apply wr_name in Ht as (w & Hw & Ht). destruct (wr_columns l Hne Hl) as (w2 & Hw2 & H2). destruct sc as [sc|].
  - destruct (wr_name _ (Hs sc eq_refl)) as (w1 & Hw1 & H1). exists (w1 ++ s "." ++ nl ++ w ++ s "." ++ nl ++ w2). split; [apply starts_app; exact Hw1|]. intros r Hr. apps.
    eapply end_schema; [apply H1; apply (starts_nls (s ".")); st|apply tok_nl, starts_nls; exact Hw|apply Ht; apply (starts_nls (s ".")); st|apply tok_nl, starts_nls; exact Hw2|apply H2; exact Hr].
  - exists (w ++ s "." ++ nl ++ w2). split; [apply starts_app; exact Hw|]. intros r Hr. apps.
    eapply end_table; [apply Ht; apply (starts_nls (s ".")); st|apply tok_nl, starts_nls; exact Hw2|apply H2; exact Hr].
Qed.
Lemma wr_rel x : w_rel x -> wr rel x.
Proof.
  intros Hx. assert (H : exists t, symbol x = Some t /\ starts t).
  { destruct x; [destruct (Hx eq_refl)| | | |]; (eexists; split; [reflexivity|st]). }
  destruct H as (t & Ht & Hs). exists (t ++ nl). split; [apply starts_app; exact Hs|]. intros r Hr. apps. exists t. split; [exact Ht|apply tok_nl; exact Hr].
Qed.
Lemma wr_inline x : w_inline firm x -> wr inline x.
Proof.
  destruct x as [rl e]. intros [Hr0 He]. cbn [fst snd] in *. apply wr_rel in Hr0 as (w1 & Hw1 & H1). apply wr_end in He as (w2 & Hw2 & H2).
  exists (s "ref" ++ nl ++ s ":" ++ nl ++ w1 ++ w2). split; [st|]. intros r Hr. apps.
  eapply inline_ref; [apply tok_nl; apply (starts_nls (s ":")); st|apply tok_nl, starts_nls; exact Hw1|apply H1, starts_nls; exact Hw2|apply H2; exact Hr].
Qed.
Lemma wr_ref f : w_block firm (ARef f) -> wr reference f.
Proof.
  destruct f as [n x a b st0]. cbn [w_block f_name f_rel f_lhs f_rhs f_settings]. intros (Hn & Hx & Ha & Hb & Hst).
  assert (Hn' : wo (maybe name) n) by (apply wo_maybe; intros w ->; apply wr_name, Hn; reflexivity).
  destruct Hn' as (w0 & Hw0 & H0). apply wr_rel in Hx as (w2 & Hw2 & H2). apply wr_end in Ha as (w1 & Hw1 & H1). apply wr_end in Hb as (w3 & Hw3 & H3).
  apply wo_attrs in Hst as (w4 & Hw4 & H4). exists (s "Ref" ++ nl ++ w0 ++ s ":" ++ nl ++ w1 ++ w2 ++ w3 ++ w4). split; [st|]. intros r Hr. apps.
  assert (K1 : forall z, nls (s ":" ++ z)) by (intros z; apply starts_nls; st).
  eapply ref_colon; [apply kw_nl, wo_nls; [exact Hw0|apply K1]|apply H0, K1|apply tok_nl, starts_nls; exact Hw1|].
  econstructor; [apply H1, starts_nls; exact Hw2|apply H2, starts_nls; exact Hw3|apply H3, wo_nls; assumption|apply H4; exact Hr].
Qed.
Lemma wr_note v : w_note firm v -> wr note v.
Proof.
  intros (w & -> & Hw). apply wr_text in Hw as (w1 & Hw1 & H1). exists (s "Note" ++ nl ++ s ":" ++ nl ++ w1). split; [st|]. intros r Hr. apps.
  eapply note_colon; [apply kw_nl; apply (starts_nls (s ":")); st|apply tok_nl, starts_nls; exact Hw1|apply H1; exact Hr].
Qed.

(** ** Column types *)
Definition same (a b : str) : Prop := (In 34 a <-> In 34 b) /\ (dotted_quote a <-> dotted_quote b).
Lemma dotted_split u c v : c <> 46 -> c <> 34 -> (dotted_quote (u ++ c :: v) <-> dotted_quote u \/ (~ In 34 u /\ dotted_quote v)).
Proof.
  intros C1 C2. split.
  - intros (x & y & E & Hx). apply app_eq_app in E as (l & [[E1 E2]|[E1 E2]]).
    + subst u. destruct l as [|a [|b l]]; cbn in E2.
      * injection E2 as E2 _. congruence.
      * injection E2 as _ E2 _. congruence.
      * injection E2 as <- <- _. left. exists x, l. auto.
    + subst x. destruct l as [|a l]; cbn in E2; injection E2 as E2 E3; [congruence|]. subst a v. right.
      rewrite in_app_iff in Hx. split; [tauto|]. exists l, y. split; [reflexivity|]. intros Hi. apply Hx. right. right. exact Hi.
  - intros [(x & y & -> & Hx)|(Hu & x & y & -> & Hx)].
    + exists x, (y ++ c :: v). split; [rewrite <- !app_assoc; reflexivity|exact Hx].
    + exists (u ++ c :: x), y. split; [rewrite <- app_assoc; reflexivity|]. rewrite in_app_iff. intros [Hi|[Hi|Hi]]; congruence || tauto.
Qed.
Lemma dotted_none t : ~ In 34 t -> ~ dotted_quote t.
Proof. intros H (x & y & -> & _). apply H. rewrite in_app_iff. right. left. reflexivity. Qed.
Lemma dotted_pre q t : ~ In 34 q -> (dotted_quote (q ++ t) <-> dotted_quote t).
Proof.
  intros Hq. split.
  - intros (x & y & E & Hx). apply app_eq_app in E as (l & [[E1 E2]|[E1 E2]]).
    + subst q. destruct l as [|a l]; cbn in E2; [subst t; exists [], y; split; [reflexivity|intros []]|]. injection E2 as <- _. destruct Hq. rewrite in_app_iff. right. left. reflexivity.
    + subst x t. exists l, y. split; [reflexivity|]. rewrite in_app_iff in Hx. tauto.
  - intros (x & y & -> & Hx). exists (q ++ x), y. split; [rewrite <- !app_assoc; reflexivity|]. rewrite in_app_iff. tauto.
Qed.
Definition tame (q : str) : Prop := ~ In 34 q /\ forall x, q <> 46 :: x.
Lemma dotted_post t q : tame q -> (dotted_quote (t ++ q) <-> dotted_quote t).
Proof.
  intros [H1 H2]. destruct q as [|c q]; [rewrite app_nil_r; reflexivity|]. rewrite dotted_split.
  - split; [intros [H|[_ H]]; [exact H|]|auto]. apply dotted_none in H; [destruct H|]. intros Hi. apply H1. right. exact Hi.
  - intros ->. apply (H2 q). reflexivity.
  - intros ->. apply H1. left. reflexivity.
Qed.
Lemma dotted_dq t q : tame q -> (dotted_quote (t ++ dq ++ q) <-> dotted_quote t).
Proof.
  intros [H1 H2]. split.
  - intros (x & y & E & Hx). apply app_eq_app in E as (l & [[E1 E2]|[E1 E2]]).
    + subst t. destruct l as [|a [|b l]]; cbn in E2.
      * injection E2 as E2. destruct (H2 y). symmetry. exact E2.
      * injection E2 as _ E2 _. discriminate.
      * injection E2 as <- <- _. exists x, l. auto.
    + subst x. destruct l as [|a l]; cbn in E2; [injection E2 as E2; destruct (H2 y); exact E2|injection E2 as E2 E3]. subst q. destruct H1. rewrite in_app_iff. right. left. reflexivity.
  - intros (x & y & -> & Hx). exists x, (y ++ dq ++ q). split; [rewrite <- !app_assoc; reflexivity|exact Hx].
Qed.
Lemma same_none t : ~ In 34 t -> same t [].
Proof. intros H. split; [cbn; tauto|]. split; intros K; [destruct (dotted_none _ H K)|destruct (dotted_none [] (fun x => x) K)]. Qed.
Lemma same_quoted q x : tame q -> same (q ++ x ++ q) x.
Proof.
  intros Hq. split; [rewrite !in_app_iff; destruct Hq as [Hq _]; tauto|]. rewrite dotted_pre by apply Hq. apply dotted_post. exact Hq.
Qed.
Lemma digits_tame d : Forall digit d -> tame d.
Proof.
  intros H. split; [intros Hi|intros x ->]; [rewrite Forall_forall in H; specialize (H 34 Hi)|inversion H as [|? ? H0]; subst; clear H; rename H0 into H]; revert H; unfold digit; lia.
Qed.
Ltac tm := split; [intros Hq; repeat (destruct Hq as [Hq|Hq]; [discriminate|]); destruct Hq|intros ? ?; discriminate].
Lemma arg_same raw v : arg_text raw v -> same raw (arg_words v).
Proof.
  intros H. destruct H as [raw v [-> _]|raw v [-> _]|raw v [-> _]|d [_ Hd]|d1 d2 f [_ H1] H2 _| | | |h Hh _]; cbn [arg_words].
  1,2,3: apply same_quoted; tm.
  all: apply same_none.
  - apply digits_tame, Hd.
  - rewrite !in_app_iff. intros [Hi|[[Hi|[]]|Hi]]; [apply digits_tame in H1; apply H1, Hi|discriminate|apply digits_tame in H2; apply H2, Hi].
  - cbn. intuition discriminate.
  - cbn. intuition discriminate.
  - cbn. intuition discriminate.
  - intros [Hi|Hi]; [discriminate|]. rewrite Forall_forall in Hh. specialize (Hh 34 Hi). revert Hh. unfold hex_digit, digit. lia.
Qed.
Lemma join_same raws l : Forall2 (fun r v => same r (arg_words v)) raws l -> same (join (s ",") raws) (join (s ",") (map arg_words l)).
Proof.
  induction 1 as [|r v raws l Hr H IH]; [split; tauto|]. destruct H as [|r2 v2 raws l Hr2 H]; [exact Hr|].
  change (join (s ",") (map arg_words (v :: v2 :: l))) with (arg_words v ++ 44 :: join (s ",") (map arg_words (v2 :: l))).
  change (join (s ",") (r :: r2 :: raws)) with (r ++ 44 :: join (s ",") (r2 :: raws)).
  split; [rewrite !in_app_iff; cbn [In]; destruct Hr as [Hr _], IH as [IH _]; rewrite Hr, IH; tauto|].
  rewrite !dotted_split by discriminate. destruct Hr as [Hr1 Hr3], IH as [_ IH]. rewrite Hr1, Hr3, IH. tauto.
Qed.
Lemma args_same ta l : args_r ta l -> (dotted_quote ta <-> dotted_quote (join (s ",") (map arg_words l))).
Proof.
  intros [|raws l' H]; [reflexivity|].
  assert (S : same (join (s ",") raws) (join (s ",") (map arg_words l'))) by (apply join_same; clear -H; induction H as [|r v rs vs H1 H2 IH]; constructor; [apply arg_same; exact H1|exact IH]).
  destruct S as [_ S]. rewrite dotted_pre by (intros [Hi|[]]; discriminate). rewrite dotted_post by tm. exact S.
Qed.
Lemma dims_tame td l : dims_r td l -> tame td.
Proof.
  induction 1 as [|t d ts ds Ht Hts IH]; [tm|]. split; [|destruct Ht; discriminate].
  rewrite in_app_iff. intros [Hi|Hi]; [|apply IH, Hi]. destruct Ht as [|d [_ Hd]]; [cbn in Hi; intuition discriminate|].
  rewrite !in_app_iff in Hi. destruct Hi as [[Hi|[]]|[Hi|[Hi|[]]]]; [discriminate| |discriminate]. apply digits_tame in Hd. apply Hd, Hi.
Qed.
Lemma spaced_tame b : spaced_word b -> ~ In 34 b.
Proof.
  intros Hb Hi. assert (Hsp : Forall (fun c => word_char c \/ c = 32) b).
  { destruct Hb as (c & z & -> & Hc & Ht). constructor; [left; apply letter_word; exact Hc|]. clear -Ht. induction Ht as [|c t Hc Ht IH|c t Hc Ht IH]; [constructor|constructor; [left; exact Hc|exact IH]|constructor; [right; reflexivity|constructor; [left; exact Hc|exact IH]]]. }
  rewrite Forall_forall in Hsp. specialize (Hsp 34 Hi). revert Hsp. unfold word_char, letter, digit. lia.
Qed.
Lemma closes_no q v : closes_first [q] v -> ~ In q v.
Proof.
  intros Hw Hi. apply in_split in Hi as (w1 & w2 & ->). specialize (Hw w1 (w2 ++ [q])). rewrite <- app_assoc in Hw. specialize (Hw eq_refl). destruct w2; discriminate.
Qed.
Lemma schema_dotted t : no_schema (dq ++ t) <-> ~ dotted_quote t.
Proof.
  split.
  - intros H (x & y & -> & Hx). apply (H x y (no_char _ _ Hx)). reflexivity.
  - intros H w x Hw E. apply app_inv_head in E. subst t. apply H. exists w, x. split; [reflexivity|apply closes_no; exact Hw].
Qed.
Lemma quoted_schema b ta args td1 d1 td2 d2 : spaced_word b -> args_r ta args -> dims_r td1 d1 -> dims_r td2 d2 ->
  (no_schema (dq ++ b ++ ta ++ td1 ++ dq ++ td2) <-> ~ dotted_quote (join (s ",") (map arg_words args))).
Proof.
  intros Hb Ha H1 H2. rewrite schema_dotted, dotted_pre by (apply spaced_tame; exact Hb). rewrite <- (args_same _ _ Ha).
  replace (ta ++ td1 ++ dq ++ td2) with ((ta ++ td1) ++ dq ++ td2) by (rewrite <- app_assoc; reflexivity).
  rewrite dotted_dq by (eapply dims_tame; exact H2). rewrite dotted_post by (eapply dims_tame; exact H1). reflexivity.
Qed.
Lemma arg_exists v : w_arg v -> exists raw, arg_text raw v.
Proof.
  destruct v; cbn [w_arg]; intros H; try tauto.
  all: match goal with
  | H : closes_first tq ?x \/ _ |- _ => destruct H as [H|H]; [exists (tq ++ x ++ tq); apply ag_triple|exists (sq ++ x ++ sq); apply ag_single]; split; auto
  | H : ~ In 96 ?x |- _ => exists (bq ++ x ++ bq); apply ag_expr; split; [reflexivity|apply no_char; exact H]
  | H : (0 <= _)%Z |- _ => apply int_text in H as (d & Hd1 & <-); exists d; apply ag_int; exact Hd1
  | H : w_decimal _ |- _ => destruct H as (d1 & d2 & H1 & H2 & H3); exists (d1 ++ s "." ++ d2); apply ag_dec; assumption
  | H : w_hex _ |- _ => destruct H as (h & -> & Hh & Hl); exists (s "#" ++ h); apply ag_hex; assumption
  | b : bool |- _ => destruct b; [exists (s "true")|exists (s "false")]; constructor
  | _ => exists (s "null"); constructor
  end.
Qed.
Lemma args_exist l : Forall w_arg l -> exists ta, args_r ta l.
Proof.
  intros H. assert (HF : exists raws, Forall2 arg_text raws l).
  { induction H as [|v l Hv Hl (raws & IH1)]; [exists []; constructor|]. destruct (arg_exists v Hv) as (raw & Hr1). exists (raw :: raws). constructor; assumption. }
  destruct HF as (raws & H1). exists (s "(" ++ join (s ",") raws ++ s ")"). apply args_given; exact H1.
Qed.
Lemma dims_exist l : exists td, dims_r td l.
Proof.
  induction l as [|o l (td & H1)]; [exists []; constructor|]. destruct o as [n|].
  - destruct (num_text n) as (d & Hd & <-). exists ((s "[" ++ d ++ s "]") ++ td). constructor; [constructor; exact Hd|exact H1].
  - exists (s "[]" ++ td). constructor; [constructor|exact H1].
Qed.
Lemma prefix_exists np : np = [] \/ (exists w, np = w ++ s "." /\ ~ In 34 w) ->
  exists p, prefix_r p np /\ ((p = [] /\ np = []) \/ starts p).
Proof.
  intros [->|(w & -> & H)].
  - exists []. split; [constructor|auto].
  - exists ((dq ++ w ++ dq) ++ s "."). split; [apply pre_quoted; split; [reflexivity|apply no_char; exact H]|]. right. apps. st.
Qed.
Lemma wr_type t : w_type t -> wr type_r t.
Proof.
  destruct t as [tn args dims]. intros (np & b & Hn & Hnp & Hb & Ha). cbn [y_name y_args] in *. subst tn.
  apply prefix_exists in Hnp as (p & Hp & Hps). destruct (args_exist _ Ha) as (ta & Hta). destruct (dims_exist dims) as (td & Htd).
  assert (K : forall raw, type_raw raw (mkType (CT_Raw (np ++ b)) args dims) -> starts raw -> wr type_r (mkType (CT_Raw (np ++ b)) args dims)).
  { intros raw Hraw Hs. exists (raw ++ nl). split; [apply starts_app; exact Hs|]. intros r Hr. apps. exists raw, (nl ++ r).
    split; [reflexivity|]. split; [exact Hraw|]. split; [intros x c _ _; apply no_word_nl|]. split; [intros d x _ [= ]|apply lay_nl; exact Hr]. }
  destruct Hb as [Hb|[Hb Hx]].
  - apply (K (p ++ b ++ ta ++ td)); [constructor; assumption|]. destruct Hps as [[-> _]|Hps]; [|apply starts_app; exact Hps].
    destruct Hb as (c & x & -> & Hc & _). apply letter_starts. exact Hc.
  - apply (K (p ++ dq ++ b ++ ta ++ [] ++ dq ++ td)).
    + change dims with ([] ++ dims). eapply ty_quoted; try eassumption; [constructor|]. intros Hp0.
      destruct Hps as [[_ Hnp]|(c & x & -> & _)]; [|discriminate]. apply (quoted_schema _ _ args _ [] _ dims); [exact Hb|exact Hta|constructor|exact Htd|exact (Hx Hnp)].
    + destruct Hps as [[-> _]|Hps]; [cbn [app]; st|apply starts_app; exact Hps].
Qed.

(** ** Columns, indexes, tables *)
Lemma pick_app {A B} (f : A -> option B) l1 l2 : pick f (l1 ++ l2) = pick f l1 ++ pick f l2.
Proof. apply flat_map_app. Qed.
Lemma pick_map {A B C} (f : B -> option C) (g : A -> B) (h : A -> C) l : (forall a, f (g a) = Some (h a)) -> pick f (map g l) = map h l.
Proof. intros H. induction l as [|a l IH]; [reflexivity|]. cbn. rewrite H. cbn. f_equal. exact IH. Qed.
Lemma pick_none {A B C} (f : B -> option C) (g : A -> B) l : (forall a, f (g a) = None) -> pick f (map g l) = [].
Proof. intros H. induction l as [|a l IH]; [reflexivity|]. cbn. rewrite H. exact IH. Qed.
Lemma Forall_map_wr {A B} (R : reader B) (g : A -> B) (P : A -> Prop) l : (forall a, P a -> wr R (g a)) -> Forall P l -> Forall (wr R) (map g l).
Proof. intros H HF. apply Forall_map. eapply Forall_impl; [|exact HF]. exact H. Qed.
Lemma wr_col_settings x : Forall (w_attr firm) (s_attrs x) -> Forall (w_inline firm) (s_refs x) -> wr col_settings_r x.
Proof.
  intros Ha Hr. assert (HF : Forall (wr col_item) (map CIAttr (s_attrs x) ++ map CIRef (s_refs x))).
  { apply Forall_app. split; [eapply Forall_map_wr; [|exact Ha]; intros a H; apply wr_attr in H; exact H|eapply Forall_map_wr; [|exact Hr]; intros a H; apply wr_inline in H; exact H]. }
  apply (wr_bracket "[" "]") in HF as (w & Hw & H); [|st|st]. exists w. split; [exact Hw|]. intros r Hr0. eexists. split; [apply H; exact Hr0|].
  rewrite !pick_app. split.
  - rewrite (pick_map _ CIAttr (fun a => a)) by reflexivity. rewrite (pick_none _ CIRef) by reflexivity. rewrite map_id, app_nil_r. reflexivity.
  - rewrite (pick_map _ CIRef (fun a => a)) by reflexivity. rewrite (pick_none _ CIAttr) by reflexivity. rewrite map_id. reflexivity.
Qed.
Lemma wr_col c : w_col firm c -> wr column c.
Proof.
  destruct c as [n ty st0]. intros (Hn & Ht & Hst). cbn [c_name c_type c_settings] in *. apply wr_name in Hn as (w1 & Hw1 & H1). apply wr_type in Ht as (w2 & Hw2 & H2).
  assert (H3 : wo (maybe col_settings_r) st0) by (apply wo_maybe; intros x ->; apply wr_col_settings; apply (Hst x eq_refl)). destruct H3 as (w3 & Hw3 & H3).
  exists (w1 ++ w2 ++ w3). split; [apply starts_app; exact Hw1|]. intros r Hr. apps.
  econstructor; [apply H1, starts_nls; exact Hw2|apply H2, wo_nls; assumption|apply H3; exact Hr].
Qed.
Lemma wr_index x : w_index firm x -> wr index x.
Proof.
  destruct x as [l st0]. intros [Hl Hst]. cbn [x_cols x_settings] in *. apply wo_attrs in Hst as (w2 & Hw2 & H2).
  assert (HF : Forall (wr index_col) l).
  { eapply Forall_impl; [|exact Hl]. intros [w|v].
    - intros Hw. apply wr_name in Hw as (x & Hx & Hw). exists x. split; [exact Hx|]. intros r Hr. constructor. auto.
    - intros (w & -> & Hw). apply wr_expr in Hw as (x & Hx & Hw). exists x. split; [exact Hx|]. intros r Hr. constructor. auto. }
  apply (wr_bracket "(" ")") in HF as (w & Hw & H); [|st|st]. exists (w ++ w2). split; [apply starts_app; exact Hw|]. intros r Hr. apps.
  eapply index_list; [apply H, wo_nls; assumption|apply H2; exact Hr].
Qed.
Lemma wr_indexes l : Forall (w_index firm) l -> wr indexes l.
Proof.
  intros H. assert (HF : Forall (wr index) l) by (eapply Forall_impl; [|exact H]; apply wr_index). apply wr_braces in HF as (w & Hw & HF).
  exists (s "Indexes" ++ nl ++ w). split; [st|]. intros r Hr. apps. econstructor; [apply kw_nl, starts_nls; exact Hw|apply HF; exact Hr].
Qed.
Lemma wr_table t : w_table firm t -> wr table t.
Proof.
  destruct t as [sc n al st0 cols notes ixs]. unfold w_table. cbn [t_schema t_name t_alias t_settings t_cols t_notes t_indexes]. intros (Hd & Hal & Hst & Hc & Hn & Hx).
  apply wr_decl in Hd as (w1 & Hw1 & H1). apply wo_attrs in Hst as (w3 & Hw3 & H3).
  assert (H2 : wo (maybe alias) al).
  { apply wo_maybe. intros w ->. destruct (wr_name _ (Hal w eq_refl)) as (x & Hx0 & H). exists (s "as " ++ nl ++ x). split; [st|]. intros r Hr. apps.
    eexists. split; [apply kw_nl, starts_nls; exact Hx0|apply H; exact Hr]. }
  destruct H2 as (w2 & Hw2 & H2).
  assert (HF : Forall (wr table_item) (map TICol cols ++ map TINote notes ++ map TIIndexes ixs)).
  { apply Forall_app. split; [|apply Forall_app; split].
    - eapply Forall_map_wr; [|exact Hc]. intros a H. apply wr_col in H. exact H.
    - eapply Forall_map_wr; [|exact Hn]. intros a H. apply wr_note in H. exact H.
    - eapply Forall_map_wr; [|exact Hx]. intros a H. apply wr_indexes in H. exact H. }
  apply wr_braces in HF as (w4 & Hw4 & H4). exists (s "Table " ++ nl ++ w1 ++ w2 ++ w3 ++ w4). split; [st|]. intros r Hr. apps.
  match goal with |- table _ _ ?T => replace T with (mkATable (fst (sc, n)) (snd (sc, n)) al st0
      (pick (fun x => match x with TICol c => Some c | _ => None end) (map TICol cols ++ map TINote notes ++ map TIIndexes ixs))
      (pick (fun x => match x with TINote v => Some v | _ => None end) (map TICol cols ++ map TINote notes ++ map TIIndexes ixs))
      (pick (fun x => match x with TIIndexes v => Some v | _ => None end) (map TICol cols ++ map TINote notes ++ map TIIndexes ixs))) end.
  - econstructor; [apply kw_nl, starts_nls; exact Hw1|apply H1, wo_nls; [exact Hw2|apply wo_nls; [exact Hw3|apply starts_nls; exact Hw4]]|
      apply H2, wo_nls; [exact Hw3|apply starts_nls; exact Hw4]|apply H3, starts_nls; exact Hw4|apply H4; exact Hr].
  - rewrite !pick_app. cbn [fst snd]. f_equal.
    + rewrite (pick_map _ TICol (fun a => a)) by reflexivity. rewrite (pick_none _ TINote), (pick_none _ TIIndexes) by reflexivity. rewrite map_id, !app_nil_r. reflexivity.
    + rewrite (pick_map _ TINote (fun a => a)) by reflexivity. rewrite (pick_none _ TICol), (pick_none _ TIIndexes) by reflexivity. rewrite map_id, !app_nil_r. reflexivity.
    + rewrite (pick_map _ TIIndexes (fun a => a)) by reflexivity. rewrite (pick_none _ TICol), (pick_none _ TINote) by reflexivity. rewrite map_id. reflexivity.
Qed.

(** ** Other blocks *)
Lemma wr_enum e : w_block firm (AEnum e) -> wr enum e.
Proof.
  destruct e as [sc n l]. cbn [w_block m_schema m_name m_values]. intros (Hd & Hl). apply wr_decl in Hd as (w1 & Hw1 & H1).
  assert (HF : Forall (wr enum_value_r) l).
  { eapply Forall_impl; [|exact Hl]. intros [w o] [Hw Ho]. cbn [fst snd] in *. apply wr_name in Hw as (x & Hx & Hw). apply wo_attrs in Ho as (y & Hy & Ho).
    exists (x ++ y). split; [apply starts_app; exact Hx|]. intros r Hr. apps. eexists. cbn [fst snd]. split; [apply Hw, wo_nls; assumption|apply Ho; exact Hr]. }
  apply wr_braces in HF as (w2 & Hw2 & H2). exists (s "Enum " ++ nl ++ w1 ++ w2). split; [st|]. intros r Hr. apps.
  apply (enum_r _ (w1 ++ w2 ++ r) (w2 ++ r) _ (sc, n)); [apply kw_nl, starts_nls; exact Hw1|apply H1, starts_nls; exact Hw2|apply H2; exact Hr].
Qed.
Lemma wr_group g : w_block firm (AGroup g) -> wr group g.
Proof.
  destruct g as [n st0 notes items]. cbn [w_block g_name g_settings g_notes g_items]. intros (Hd & Hst & Hn & Hi). apply wr_name in Hd as (w1 & Hw1 & H1).
  apply wo_attrs in Hst as (w3 & Hw3 & H3).
  assert (HF : Forall (wr group_item) (map GINote notes ++ map GIName items)).
  { apply Forall_app. split.
    - eapply Forall_map_wr; [|exact Hn]. intros a H. apply wr_note in H. exact H.
    - eapply Forall_map_wr; [|exact Hi]. intros a H. apply wr_decl in H. exact H. }
  apply wr_braces in HF as (w4 & Hw4 & H4). exists (s "TableGroup " ++ nl ++ w1 ++ w3 ++ w4). split; [st|]. intros r Hr. apps.
  match goal with |- group _ _ ?T => replace T with (mkAGroup n st0
      (pick (fun x => match x with GINote v => Some v | _ => None end) (map GINote notes ++ map GIName items))
      (pick (fun x => match x with GIName d => Some d | _ => None end) (map GINote notes ++ map GIName items))) end.
  - econstructor; [apply kw_nl, starts_nls; exact Hw1|apply H1, wo_nls; [exact Hw3|apply starts_nls; exact Hw4]|apply H3, starts_nls; exact Hw4|apply H4; exact Hr].
  - rewrite !pick_app. f_equal.
    + rewrite (pick_map _ GINote (fun a => a)) by reflexivity. rewrite (pick_none _ GIName) by reflexivity. rewrite map_id, !app_nil_r. reflexivity.
    + rewrite (pick_map _ GIName (fun a => a)) by reflexivity. rewrite (pick_none _ GINote) by reflexivity. rewrite map_id. reflexivity.
Qed.
Lemma wr_project g : w_block firm (AProject g) -> wr project g.
Proof.
  destruct g as [n props notes]. cbn [w_block p_name p_props p_notes]. intros (Hd & Hn & Hp). apply wr_name in Hd as (w1 & Hw1 & H1).
  assert (HF : Forall (wr project_item) (map PIProp props ++ map PINote notes)).
  { apply Forall_app. split.
    - eapply Forall_map_wr; [|exact Hp]. intros [k v] (Hk & Hv & Hno). cbn [fst snd] in *. apply wr_phrase in Hk as (x & Hx & Hk).
      assert (Hv' : exists y, starts y /\ forall r, nls r -> literal_r (y ++ r) r v \/ bare (y ++ r) r v).
      { destruct Hv as [H|H]; [apply wr_literal in H as (y & Hy & H)|apply wr_bare in H as (y & Hy & H)]; exists y; auto. }
      destruct Hv' as (y & Hy & Hv'). exists (x ++ s ":" ++ nl ++ y). split; [apply starts_app; exact Hx|]. intros r Hr. apps. cbn [project_item].
      eexists _, _. cbn [fst snd]. split; [apply Hk; apply (starts_nls (s ":")); st|]. split; [apply tok_nl, starts_nls; exact Hy|]. split; [apply Hv'; exact Hr|exact Hno].
    - eapply Forall_map_wr; [|exact Hn]. intros a H. apply wr_note in H. exact H. }
  apply wr_braces in HF as (w4 & Hw4 & H4). exists (s "Project " ++ nl ++ w1 ++ w4). split; [st|]. intros r Hr. apps.
  match goal with |- project _ _ ?T => replace T with (mkAProject n
      (pick (fun x => match x with PIProp p => Some p | _ => None end) (map PIProp props ++ map PINote notes))
      (pick (fun x => match x with PINote v => Some v | _ => None end) (map PIProp props ++ map PINote notes))) end.
  - econstructor; [apply kw_nl, starts_nls; exact Hw1|apply H1, starts_nls; exact Hw4|apply H4; exact Hr].
  - rewrite !pick_app. f_equal.
    + rewrite (pick_map _ PIProp (fun a => a)) by reflexivity. rewrite (pick_none _ PINote) by reflexivity. rewrite map_id, !app_nil_r. reflexivity.
    + rewrite (pick_map _ PINote (fun a => a)) by reflexivity. rewrite (pick_none _ PIProp) by reflexivity. rewrite map_id. reflexivity.
Qed.
Lemma wr_block b : w_block firm b -> wr block_r b.
Proof.
  destruct b as [x|x|x|x|x|x]; intros H.
  - apply wr_project in H. exact H.
  - apply wr_table in H. exact H.
  - apply wr_group in H. exact H.
  - apply wr_note in H. exact H.
  - apply wr_ref in H. exact H.
  - apply wr_enum in H. exact H.
Qed.
Theorem has_text a : writable a -> exists t, dbml_text t a.
Proof.
  intros H. assert (HF : Forall (wr block_r) a) by (eapply Forall_impl; [|exact H]; apply wr_block).
  apply wo_many in HF as (w & Hw & HF). exists (w ++ []). exists (w ++ []). split; [apply lay_id, wo_nls; [exact Hw|apply nil_nls]|apply HF, nil_nls].
Qed.
Theorem round_trip a : writable a -> fits a ->
  exists t x, dbml_text t a /\ parse_dbml_unchecked t = Some (Ok x) /\ meaning x = settle a.
Proof.
  intros Hw Hf. destruct (has_text a Hw) as (t & Ht). destruct (written_is_read t a Ht Hf) as (x & Hx & Hm). eauto.
Qed.
Lemma settled_settle a : (forall b, In b a -> settle_block b = b) -> settle a = a.
Proof. intros H. unfold settle. rewrite <- (map_id a) at 2. apply map_ext_in. exact H. Qed.

(** ** Examples: two layouts of one schema *)
Definition plain_block (b : a_block) : Prop :=
  match b with
  | AProject p => p_notes p = [] | ATable t => t_notes t = [] /\ t_indexes t = [] | AGroup g => g_notes g = [] | _ => True
  end.
Lemma last_only_nil {A} (l : list A) : last_only l = [] -> l = [].
Proof. destruct l as [|a l]; [reflexivity|]. intros H. destruct (last_only_ne _ _ H). Qed.
Lemma settle_plain a b : settle a = b -> Forall plain_block b -> a = b.
Proof.
  intros <- H. induction a as [|x a IH]; [reflexivity|]. cbn [settle map] in *. apply Forall_cons_iff in H as [H1 H2]. f_equal; [|exact (IH H2)].
  destruct x as [p|t|g|v|r|e]; cbn [settle_block plain_block p_notes t_notes t_indexes g_notes] in *; try reflexivity.
  - destruct p; cbn in *. apply last_only_nil in H1. subst. reflexivity.
  - destruct t; cbn in *. destruct H1 as [H1 H3]. apply last_only_nil in H1, H3. subst. reflexivity.
  - destruct g; cbn in *. apply last_only_nil in H1. subst. reflexivity.
Qed.
Lemma gap_app g h : gap g -> gap h -> gap (g ++ h).
Proof.
  intros Hg Hh. induction Hg as [|c g Hc Hg IH|body c g Hb Hc Hg IH|body g Hb Hg IH]; [exact Hh| | |].
  - constructor; assumption.
  - rewrite <- app_assoc. rewrite <- app_assoc. cbn [app]. apply gap_line; assumption.
  - rewrite <- !app_assoc. apply gap_block; assumption.
Qed.
Lemma lay_more g t m : gap g -> lay t m -> lay (g ++ t) m.
Proof.
  intros Hg (h & -> & Hh & Hm). exists (g ++ h). split; [apply app_assoc|]. split; [|exact Hm].
  destruct Hh as [Hh|[Hr Hh]]; [left; apply gap_app; assumption|right; split; [exact Hr|]].
  destruct Hh as [h Hh|h body Hh Hb]; [apply ge_gap, gap_app; assumption|]. rewrite app_assoc. apply ge_line; [apply gap_app; assumption|exact Hb].
Qed.
Theorem leading_layout g t a : gap g -> dbml_text t a -> dbml_text (g ++ t) a.
Proof. intros Hg (m & Hl & Hm). exists m. split; [apply lay_more; assumption|exact Hm]. Qed.
Lemma parsed_text inp x a : parse_dbml_unchecked inp = Some (Ok x) -> meaning x = a -> Forall plain_block a -> dbml_text inp a /\ fits a.
Proof.
  intros H Hm Hp. destruct (accepts_iff _ _ H) as (b & Hb & Hf & E0). rewrite Hm in E0. symmetry in E0. apply settle_plain in E0; [|exact Hp]. subst b. auto.
Qed.

Definition tight : str := s "Table a.t as u[k:'v']{id int(3,`e`)[][2][pk,ref:>b.c.x]""e f""""x y""}Enum z{p q[note:""w""]}Ref:t.(a,b)<>v.(c,d)[update:set null]TableGroup g{a.t n}".
Definition loose : str := s "// all of it
  TABLE a . ""t""   AS  /* alias */ ""u"" [ k : '''v''' ]
  { ""id""	int(3,`e`)[][2]  // the key
      [ pk , ref : > b . c . ( ""x"" ) ]
    ""e f"" ""x y""
  }
enum z { ""p"" q [ note : 'w' ] }
ref { t.(a,b) <> v.(c,d) [ update : set null ] }
  tableGROUP g{ a . t   n }/* end */".
Definition both : a_schema :=
  [ATable (mkATable (Some (s "a")) (s "t") (Some (s "u")) (Some [(s "k", Some (VString (s "v")))])
     [mkCol (s "id") (mkType (CT_Raw (s "int")) [VInteger 3; VExpr (s "e")] [None; Some 2])
        (Some (mkColSet [(s "pk", None)] [(Many2One, mkEnd (Some (s "b")) (s "c") [s "x"])]));
      mkCol (s "e f") (mkType (CT_Raw (s "x y")) [] []) None] [] []);
   AEnum (mkAEnum None (s "z") [(s "p", None); (s "q", Some [(s "note", Some (VString (s "w")))])]);
   ARef (mkARef None Many2Many (mkEnd None (s "t") [s "a"; s "b"]) (mkEnd None (s "v") [s "c"; s "d"])
     (Some [(s "update", Some (VEnum (s "set null")))]));
   AGroup (mkAGroup (s "g") None [] [(Some (s "a"), s "t"); (None, s "n")])].
Lemma both_plain : Forall plain_block both.
Proof. repeat constructor. Qed.
Lemma tight_text : dbml_text tight both /\ fits both.
Proof.
  destruct (parse_dbml_unchecked tight) as [[x|e|]|] eqn:E0; try (exfalso; vm_compute in E0; discriminate).
  apply (parsed_text _ x); [exact E0| |exact both_plain]. vm_compute in E0. injection E0 as <-. vm_compute. reflexivity.
Qed.
Lemma loose_text : dbml_text loose both.
Proof.
  destruct (parse_dbml_unchecked loose) as [[x|e|]|] eqn:E0; try (exfalso; vm_compute in E0; discriminate).
  apply (parsed_text _ x); [exact E0| |exact both_plain]. vm_compute in E0. injection E0 as <-. vm_compute. reflexivity.
Qed.
Ltac wd := match goal with
  | |- word ?x => let y := eval vm_compute in x in change (word y); eexists _, _; split; [reflexivity|]; split; [unfold letter; lia|repeat constructor; unfold word_char, letter, digit; lia]
  | |- spaced_word ?x => let y := eval vm_compute in x in change (spaced_word y); eexists _, _; split; [reflexivity|]; split; [unfold letter; lia|
      repeat first [apply st_nil | apply st_space; [unfold word_char, letter, digit; lia|] | apply st_char; [unfold word_char, letter, digit; lia|]]]
  end.
Ltac no34 := let H := fresh in intros H; vm_compute in H; intuition discriminate.
Ltac frm := split; [intros ? ? [= <- _]; unfold is_ws; intuition discriminate|split; intros ? [= ]].
Ltac nm := first [left; wd | right; split; [frm|no34]].
Lemma both_writable : writable both.
Proof.
  assert (Tv : w_text firm (s "v")) by (split; [frm|right; apply no_char; no34]).
  assert (Tw : w_text firm (s "w")) by (split; [frm|right; apply no_char; no34]).
  unfold both. constructor; [|constructor; [|constructor; [|constructor; [|constructor]]]].
  - unfold w_block, w_table. cbn [t_schema t_name t_alias t_settings t_cols t_notes t_indexes]. split; [split; [intros sc [= <-]; nm|nm]|]. split; [intros w [= <-]; nm|].
    split; [|split; [|split; constructor]].
    + intros l [= <-]. constructor; [|constructor]. split; [wd|]. intros v [= <-]. left. exact Tv.
    + constructor; [|constructor; [|constructor]].
      * split; [nm|]. split.
        -- exists [], (s "int"). split; [reflexivity|]. split; [left; reflexivity|]. split; [left; wd|]. constructor; [cbn; lia|]. constructor; [|constructor]. cbn [w_arg]. no34.
        -- intros st0 [= <-]. split.
           ++ constructor; [|constructor]. split; [wd|]. intros v [= ].
           ++ constructor; [|constructor]. split; [discriminate|]. split; [split; [intros sc [= <-]; nm|nm]|]. split; [discriminate|]. constructor; [nm|constructor].
      * split; [nm|]. split.
        -- exists [], (s "x y"). split; [reflexivity|]. split; [left; reflexivity|]. split; [right; split; [wd|intros _; apply dotted_none; intros []]|constructor].
        -- intros st0 [= ].
  - split; [split; [intros sc [= ]|nm]|]. constructor; [|constructor; [|constructor]]; (split; [nm|]).
    + intros l [= ].
    + intros l [= <-]. constructor; [|constructor]. split; [wd|]. intros v [= <-]. left. exact Tw.
  - split; [intros w [= ]|]. split; [discriminate|]. split; [|split].
    + split; [split; [intros sc [= ]|nm]|]. split; [discriminate|]. constructor; [nm|constructor; [nm|constructor]].
    + split; [split; [intros sc [= ]|nm]|]. split; [discriminate|]. constructor; [nm|constructor; [nm|constructor]].
    + intros l [= <-]. constructor; [|constructor]. split; [wd|]. intros v [= <-]. right. left. exists (s "set null"). split; [reflexivity|]. split; [wd|].
      intros (k & x & Hk & E0). cbn [In] in Hk. destruct Hk as [<-|[<-|[<-|[]]]]; discriminate.
  - split; [nm|]. split; [intros l [= ]|]. split; [constructor|]. constructor; [split; [intros sc [= <-]; nm|nm]|constructor; [split; [intros sc [= ]|nm]|constructor]].
Qed.
