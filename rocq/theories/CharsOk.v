(** * CharsOk: characters without a meaning do not matter. *)

From Verif Require Export SynPrint.
From Verif Require Import LexRules Syntax Writable Chars.

Notation nn := (Forall special) (only parsing).
Lemma special_dec c : {special c} + {~ special c}.
Proof.
  destruct (existsb (N.eqb c) ([32; 9; 10; 13; 95] ++ marks) || ((97 <=? c) && (c <=? 122)) || ((65 <=? c) && (c <=? 90)) || ((48 <=? c) && (c <=? 57))) eqn:Ec.
  - left. unfold special, is_ws, word_char, letter, digit. rewrite !orb_true_iff, !andb_true_iff, !N.leb_le in Ec.
    destruct Ec as [[[Ec|Ec]|Ec]|Ec]; [|lia..]. apply existsb_exists in Ec as (x & Hx & Ex). apply N.eqb_eq in Ex. subst x.
    apply in_app_or in Hx as [Hx|Hx]; [|tauto]. destruct Hx as [<-|[<-|[<-|[<-|[<-|[]]]]]]; tauto.
  - right. intros Hs. unfold special, is_ws, word_char, letter, digit in Hs. rewrite !orb_false_iff in Ec. destruct Ec as [[[E1 E2] E3] E4].
    rewrite andb_false_iff, !N.leb_gt in E2, E3, E4.
    assert (Hn : ~ In c ([32; 9; 10; 13; 95] ++ marks)).
    { intros Hi. assert (existsb (N.eqb c) ([32; 9; 10; 13; 95] ++ marks) = true) by (apply existsb_exists; exists c; split; [exact Hi|apply N.eqb_refl]). congruence. }
    apply Hn, in_or_app. destruct Hs as [Hs|[[Hs|[Hs|Hs]]|Hs]]; [left; cbn; intuition congruence|lia|lia|left; cbn; intuition congruence|right; exact Hs].
Qed.

(** Relations that keep what has a meaning. *)
Class good (R : char -> char -> Prop) : Prop := { good_same : forall c d, R c d -> same_char c d; good_refl : forall c, special c -> R c c }.
Definition back (R : char -> char -> Prop) : char -> char -> Prop := fun c d => R d c.
#[export] Instance good_back R : good R -> good (back R).
Proof. intros [H1 H2]. split; [|exact H2]. intros c d H. destruct (H1 _ _ H) as [->|[]]; [left; reflexivity|right; auto]. Qed.
Lemma wc_nn c : word_char c -> special c.
Proof. intros H. right. left. exact H. Qed.
Ltac spc := match goal with |- special ?c => let v := eval vm_compute in c in change (special v) end; first [left; unfold is_ws; tauto | right; left; unfold word_char, letter, digit; lia | right; right; vm_compute; tauto].
Ltac nnl := repeat (constructor; [spc|]); constructor.
Lemma same_letter_special c d : same_letter c d -> special d -> special c.
Proof. intros [->|H]; [auto|]. intros Hd. right. left. left. unfold letter. lia. Qed.

Section General.
  Context {R : char -> char -> Prop} {G : good R}.
  Notation E := (same_str R).
  Lemma e_char c d : R c d -> special c \/ special d -> d = c.
  Proof. intros H Hs. destruct (good_same _ _ H) as [->|[H1 H2]]; [reflexivity|tauto]. Qed.
  Lemma e_refl x : nn x -> E x x.
  Proof. induction 1; constructor; [apply good_refl; assumption|assumption]. Qed.
  Lemma e_sym x y : E x y -> same_str (back R) y x.
  Proof. induction 1; constructor; assumption. Qed.
  Lemma e_app x y x' y' : E x y -> E x' y' -> E (x ++ x') (y ++ y').
  Proof. apply Forall2_app. Qed.
  Lemma e_nil y : E [] y -> y = [].
  Proof. intros H. inversion H. reflexivity. Qed.
  Lemma e_head c x y : E (c :: x) y -> special c -> exists z, y = c :: z /\ E x z.
  Proof. intros H Hc. inversion H as [|? d ? z Hd Hz]; subst. exists z. rewrite (e_char _ _ Hd (or_introl Hc)). auto. Qed.
  Lemma e_word w x y : nn w -> E (w ++ x) y -> exists z, y = w ++ z /\ E x z.
  Proof.
    intros Hw. revert y. induction Hw as [|c w Hc Hw IH]; intros y H; [exists y; auto|]. cbn [app] in H. apply e_head in H as (z & -> & H); [|exact Hc].
    apply IH in H as (z' & -> & H). exists z'. auto.
  Qed.
  Lemma e_nonl x y : nn x -> E x y -> y = x.
  Proof. intros Hx H. rewrite <- (app_nil_r x) in H. apply e_word in H as (z & -> & H); [|exact Hx]. apply e_nil in H as ->. apply app_nil_r. Qed.
  Lemma e_split u r z : E (u ++ r) z -> exists u' r', z = u' ++ r' /\ E u u' /\ E r r'.
  Proof. intros H. apply Forall2_app_inv_l in H as (u' & r' & H1 & H2 & ->). eauto. Qed.
  Lemma e_not c d (P : char -> Prop) : (forall x, P x -> special x) -> R c d -> ~ P c -> ~ P d.
  Proof. intros HP H Hc Hd. apply Hc. rewrite <- (e_char _ _ H (or_intror (HP _ Hd))). exact Hd. Qed.
End General.
Section Mid.
  Context {X : char -> char -> Prop} {G : good X}.
  Notation E := (same_str X).
  Lemma e_find x y a k b : E x y -> nn k -> y = a ++ k ++ b -> exists a' b', x = a' ++ k ++ b' /\ same_str (back X) a a' /\ same_str (back X) b b'.
  Proof.
    intros H Hk ->. apply e_sym in H. apply e_split in H as (u & r & -> & H1 & H2).
    apply e_word in H2 as (z & -> & H2); [|exact Hk]. exists u, z. auto.
  Qed.
  Lemma e_nots (P : char -> Prop) x y : (forall c, P c -> special c) -> E x y -> Forall (fun c => ~ P c) x -> Forall (fun c => ~ P c) y.
  Proof. intros HP H. induction H; intros Hx; [constructor|]. inversion Hx; subst. constructor; [eapply e_not; eassumption|auto]. Qed.

  Lemma e_closes q v v' : nn q -> E v v' -> closes_first q v -> closes_first q v'.
  Proof.
    intros Hq H Hc a b E0. destruct (e_find (v ++ q) _ a q b (e_app _ _ _ _ H (e_refl q Hq)) Hq E0) as (a' & b' & E1 & _ & H2).
    apply Hc in E1 as ->. inversion H2. reflexivity.
  Qed.
End Mid.

(** ** Layout *)
Section Both.
  Context {X : char -> char -> Prop} {G : good X}.
  Notation E := (same_str X).
Lemma ws_special c : is_ws c -> special c.
Proof. intros H. left. exact H. Qed.
Lemma nl_special c : is_nl c -> special c.
Proof. unfold is_nl. intros H. left. unfold is_ws. tauto. Qed.
Lemma e_gap g : gap g -> forall g', E g g' -> gap g'.
Proof.
  induction 1 as [|c g Hc Hg IH|body c g Hb Hc Hg IH|body g Hb Hg IH]; intros g' H.
  - apply e_nil in H as ->. constructor.
  - apply e_head in H as (z & -> & H); [|apply ws_special; exact Hc]. constructor; [exact Hc|apply IH; exact H].
  - apply e_word in H as (z & -> & H); [|nnl]. apply e_split in H as (b' & r & -> & H1 & H2). apply e_head in H2 as (g2 & -> & H2); [|apply nl_special; exact Hc].
    apply gap_line; [|exact Hc|apply IH; exact H2]. eapply e_nots; [exact nl_special|exact H1|exact Hb].
  - apply e_word in H as (z & -> & H); [|nnl]. apply e_split in H as (b' & r & -> & H1 & H2).
    apply e_word in H2 as (g2 & -> & H2); [|nnl]. apply gap_block; [|apply IH; exact H2].
    intros p q E0. destruct (e_find (body ++ s "*") _ p (s "*/") q (e_app _ _ _ _ H1 (e_refl (s "*") ltac:(nnl))) ltac:(nnl) E0) as (p' & q' & E1 & _).
    apply (Hb _ _ E1).
Qed.
Lemma e_nls r r' : E r r' -> no_layout_start r -> no_layout_start r'.
Proof.
  intros H (H1 & H2 & H3). split; [|split].
  - intros c x -> Hc. apply e_sym in H. apply e_head in H as (z & -> & _); [|apply ws_special; exact Hc]. exact (H1 c z eq_refl Hc).
  - intros x ->. apply e_sym in H. apply e_word in H as (z & -> & _); [|nnl]. exact (H2 z eq_refl).
  - intros b x ->. apply e_sym in H. apply e_word in H as (z & -> & H); [|nnl]. apply e_split in H as (p & q & -> & _ & H). apply e_word in H as (q' & -> & _); [|nnl]. exact (H3 p q' eq_refl).
Qed.
Lemma e_lay i r i' : lay i r -> E i i' -> exists r', lay i' r' /\ E r r'.
Proof.
  intros (g & -> & Hg & Hr) H. apply e_split in H as (g' & r' & -> & H1 & H2).
  exists r'. split; [|exact H2]. exists g'. split; [reflexivity|]. split; [|eapply e_nls; eassumption].
  destruct Hg as [Hg|[-> Hg]]; [left; apply (e_gap _ Hg _ H1)|]. apply e_nil in H2 as ->. right. split; [reflexivity|].
  destruct Hg as [g Hg|g body Hg Hb]; [apply ge_gap, (e_gap _ Hg _ H1)|].
  apply e_split in H1 as (g2 & r2 & -> & H1 & H2). apply e_word in H2 as (b' & -> & H2); [|nnl].
  apply ge_line; [apply (e_gap _ Hg _ H1)|]. eapply e_nots; [exact nl_special|exact H2|exact Hb].
Qed.

(** ** Readers *)
Notation v_chars := (v_chars X).
Notation attr_chars := (attr_chars X).
Notation attrs_chars := (attrs_chars X).
Notation decl_chars := (decl_chars X).
Notation end_chars := (end_chars X).
Notation inline_chars := (inline_chars X).
Notation type_chars := (type_chars X).
Notation col_set_chars := (col_set_chars X).
Notation col_chars := (col_chars X).
Notation index_col_chars := (index_col_chars X).
Notation index_chars := (index_chars X).
Notation table_chars := (table_chars X).
Notation enum_chars := (enum_chars X).
Notation ref_chars := (ref_chars X).
Notation group_chars := (group_chars X).
Notation project_chars := (project_chars X).
Notation block_chars := (block_chars X).
Notation schema_chars := (schema_chars X).
Definition keeps {A} (R : reader A) (Q : A -> A -> Prop) : Prop :=
  forall i r a i', R i r a -> E i i' -> exists r' b, R i' r' b /\ E r r' /\ Q a b.
Lemma e_tok w i r i' : nn w -> tok w i r -> E i i' -> exists r', tok w i' r' /\ E r r'.
Proof.
  intros Hw (m & -> & Hl) H. apply e_word in H as (z & -> & H); [|exact Hw]. destruct (e_lay _ _ _ Hl H) as (r' & H1 & H2). exists r'. split; [exists z; auto|exact H2].
Qed.
Lemma case_nn w k : nn k -> any_case w k -> nn w.
Proof.
  intros Hk H. induction H as [|c d w k Hc H IH]; [constructor|]. inversion Hk; subst. constructor; [|apply IH; assumption].
  eapply same_letter_special; eassumption.
Qed.
Lemma e_kw k i r i' : nn (s k) -> kw k i r -> E i i' -> exists r', kw k i' r' /\ E r r'.
Proof.
  intros Hk (w & m & -> & Hw & Hl) H. apply e_word in H as (z & -> & H); [|eapply case_nn; eassumption]. destruct (e_lay _ _ _ Hl H) as (r' & H1 & H2).
  exists r'. split; [exists w, z; auto|exact H2].
Qed.
Ltac tk := match goal with
  | H : tok ?w ?i ?r, K : E ?i ?i' |- _ => let r' := fresh "r'" in let H1 := fresh "T" in let H2 := fresh "K" in
      destruct (e_tok w i r i' ltac:(nnl) H K) as (r' & H1 & H2); clear H
  | H : kw ?w ?i ?r, K : E ?i ?i' |- _ => let r' := fresh "r'" in let H1 := fresh "T" in let H2 := fresh "K" in
      destruct (e_kw w i r i' ltac:(nnl) H K) as (r' & H1 & H2); clear H
  | H : lay ?i ?r, K : E ?i ?i' |- _ => let r' := fresh "r'" in let H1 := fresh "T" in let H2 := fresh "K" in
      destruct (e_lay i r i' H K) as (r' & H1 & H2); clear H
  end.
Ltac rd L := match goal with
  | H : _, K : E ?i ?i' |- _ => let r' := fresh "r'" in let b := fresh "b" in let H1 := fresh "T" in let H2 := fresh "K" in let H3 := fresh "Q" in
      destruct (L i _ _ i' H K) as (r' & b & H1 & H2 & H3); clear H
  end.
Lemma digit_nn d : Forall digit d -> nn d.
Proof. apply Forall_impl. intros c Hc. apply wc_nn. unfold word_char. tauto. Qed.
Lemma hex_nn d : Forall hex_digit d -> nn d.
Proof. apply Forall_impl. intros c Hc. apply wc_nn. unfold hex_digit, word_char, letter, digit in *. lia. Qed.
Lemma word_nn w : word w -> nn w.
Proof. intros (c & x & -> & Hc & Hx). constructor; [apply wc_nn; left; exact Hc|]. eapply Forall_impl; [|exact Hx]. apply wc_nn. Qed.
Lemma spaced_nn w : spaced_word w -> nn w.
Proof.
  intros (c & x & -> & Hc & Hx). constructor; [apply wc_nn; left; exact Hc|]. induction Hx as [|d t Hd Ht IH|d t Hd Ht IH]; [constructor|constructor; [apply wc_nn; exact Hd|exact IH]|].
  constructor; [left; unfold is_ws; tauto|]. constructor; [apply wc_nn; exact Hd|exact IH].
Qed.
Lemma e_no_word m m' : E m m' -> no_word m -> no_word m'.
Proof. intros H Hm c x -> Hc. apply e_sym in H. apply e_head in H as (z & -> & _); [|apply wc_nn; exact Hc]. exact (Hm c z eq_refl Hc). Qed.
Lemma e_no_phrase m m' : E m m' -> no_phrase m -> no_phrase m'.
Proof.
  intros H [H1 H2]. split; [eapply e_no_word; eassumption|]. intros c x -> Hc. apply e_sym in H. apply e_head in H as (z & -> & H); [|left; unfold is_ws; tauto].
  apply e_head in H as (z' & -> & _); [|apply wc_nn; exact Hc]. exact (H2 c z' eq_refl Hc).
Qed.
Lemma e_no_digit m m' : E m m' -> no_digit m -> no_digit m'.
Proof.
  intros H Hm c x -> Hc. assert (special c) by (apply wc_nn; unfold word_char; tauto). apply e_sym in H. apply e_head in H as (z & -> & _); [|assumption]. exact (Hm c z eq_refl Hc).
Qed.
Lemma e_quote q : nn q -> keeps (quote q) E.
Proof.
  intros Hq i r v i' (j & m & -> & Hl & Hc & Hm) H. apply e_word in H as (j' & -> & H); [|exact Hq]. tk.
  apply e_split in K as (v' & w & -> & H1 & H2). apply e_word in H2 as (m' & -> & H2); [|exact Hq]. tk.
  exists r', v'. split; [|split; [exact K|exact H1]]. exists j', m'. split; [reflexivity|]. split; [exact T|]. split; [eapply e_closes; eassumption|exact T0].
Qed.
Lemma e_dq : keeps (quote dq) E. Proof. apply e_quote; nnl. Qed.
Lemma e_sq : keeps (quote sq) E. Proof. apply e_quote; nnl. Qed.
Lemma e_tq : keeps (quote tq) E. Proof. apply e_quote; nnl. Qed.
Lemma e_bq : keeps (quote bq) E. Proof. apply e_quote; nnl. Qed.
Lemma e_name : keeps name E.
Proof.
  intros i r w i' [(m & -> & Hw & Hn & Hl)|Hd] H.
  - apply e_word in H as (m' & -> & H); [|apply word_nn; exact Hw]. pose proof (e_no_word _ _ H Hn) as Hn'. tk. exists r', w.
    split; [left; exists m'; auto|]. split; [exact K|apply e_refl, word_nn; exact Hw].
  - rd e_dq. exists r', b. split; [right; exact T|auto].
Qed.
Lemma e_text : keeps text E.
Proof.
  intros i r w i' [Hd|Hd] H; [rd e_tq; exists r', b; split; [left; exact T|auto]|rd e_sq; exists r', b; split; [right; exact T|auto]].
Qed.
Lemma e_phrase : keeps phrase eq.
Proof.
  intros i r w i' (m & -> & Hw & Hn & Hl) H. apply e_word in H as (m' & -> & H); [|apply spaced_nn; exact Hw]. pose proof (e_no_phrase _ _ H Hn) as Hn'. tk.
  exists r', w. split; [exists m'; auto|auto].
Qed.
Lemma e_literal : keeps literal_r v_chars.
Proof.
  intros i r v i' Hv H. destruct Hv.
  - rd e_text. exists r', (VString b). split; [constructor; exact T|]. split; [exact K|exact Q].
  - rd e_bq. exists r', (VExpr b). split; [constructor; exact T|]. split; [exact K|exact Q].
  - tk. eexists _, _. split; [apply lr_true; exact T|]. split; [exact K|reflexivity].
  - tk. eexists _, _. split; [apply lr_false; exact T|]. split; [exact K|reflexivity].
  - tk. eexists _, _. split; [apply lr_null; exact T|]. split; [exact K|reflexivity].
  - match goal with Hd : digits _ |- _ => pose proof (digit_nn _ (proj2 Hd)) as Hdn end. apply e_word in H as (m' & -> & H); [|exact Hdn].
    assert (no_digit m') by (eapply e_no_digit; eassumption). assert (forall x, m' <> s "." ++ x) by (intros x ->; apply e_sym in H; apply e_word in H as (z & -> & _); [|nnl]; congruence).
    tk. eexists _, _. split; [apply lr_int; eassumption|]. split; [exact K|reflexivity].
  - match goal with Hd : digits _, Hd2 : Forall digit _ |- _ => pose proof (digit_nn _ (proj2 Hd)) as Hdn; pose proof (digit_nn _ Hd2) as Hdn2 end. apply e_word in H as (m1 & -> & H); [|exact Hdn].
    apply e_word in H as (m2 & -> & H); [|nnl]. apply e_word in H as (m' & -> & H); [|exact Hdn2]. assert (no_digit m') by (eapply e_no_digit; eassumption).
    tk. eexists _, _. split; [apply lr_dec; eassumption|]. split; [exact K|reflexivity].
  - apply e_word in H as (m1 & -> & H); [|nnl]. apply e_word in H as (m' & -> & H); [|apply hex_nn; assumption]. tk.
    eexists _, _. split; [apply lr_hex6; eassumption|]. split; [exact K|]. apply e_refl, Forall_app. split; [nnl|apply hex_nn; assumption].
  - apply e_word in H as (m1 & -> & H); [|nnl]. apply e_word in H as (m' & -> & H); [|apply hex_nn; assumption].
    assert (forall h' x, m' = h' ++ x -> List.length h' = 3%nat -> ~ Forall hex_digit h').
    { intros h' x -> Hl Hh. apply e_sym in H. apply e_word in H as (z & -> & _); [|apply hex_nn; exact Hh].
      match goal with Hx : forall h' m', _ = _ -> _ |- _ => exact (Hx h' z eq_refl Hl Hh) end. }
    tk. eexists _, _. split; [apply lr_hex3; eassumption|]. split; [exact K|]. apply e_refl, Forall_app. split; [nnl|apply hex_nn; assumption].
Qed.
Lemma e_bare : keeps bare v_chars.
Proof. intros i r v i' (w & Hw & Hn & ->) H. assert (Hs : spaced_word w) by (destruct Hw as (m & _ & Hs & _); exact Hs). rd e_phrase. subst b. exists r', (VEnum w). split; [exists w; auto|]. split; [exact K|]. apply e_refl. apply spaced_nn. exact Hs. Qed.
Lemma e_attr : keeps attr attr_chars.
Proof.
  intros i r a i' [i0 r0 k Hk|i0 m m' r0 k v Hk Ht Hv] H.
  - rd e_phrase. subst b. exists r', (k, None). split; [constructor; exact T|]. split; [exact K|]. split; [reflexivity|exact Logic.I].
  - rd e_phrase. subst b. tk.
    assert (B : exists r1 b, (literal_r r'0 r1 b \/ bare r'0 r1 b \/ (exists w, quote dq r'0 r1 w /\ b = VString w)) /\ E r0 r1 /\ v_chars v b).
    { destruct Hv as [Hv|[Hv|(w & Hv & ->)]].
      - rd e_literal. eauto 6.
      - rd e_bare. eauto 7.
      - rd e_dq. exists r'1, (VString b). split; [eauto|]. split; [exact K1|exact Q]. }
    destruct B as (r1 & b & B1 & B2 & B3). exists r1, (k, Some b). split; [eapply attr_value; eassumption|]. split; [exact B2|]. split; [reflexivity|exact B3].
Qed.
Lemma e_many {A} (R : reader A) Q : keeps R Q -> keeps (many R) (Forall2 Q).
Proof.
  intros HR i r l i' Hm. revert i'. induction Hm as [i|i m r a l H1 H2 IH]; intros i' H.
  - exists i', []. split; [constructor|]. split; [exact H|constructor].
  - destruct (HR _ _ _ _ H1 H) as (m' & b & B1 & B2 & B3). destruct (IH _ B2) as (r' & l' & C1 & C2 & C3).
    exists r', (b :: l'). split; [econstructor; eassumption|]. split; [exact C2|constructor; assumption].
Qed.
Lemma e_commas {A} (R : reader A) Q : keeps R Q -> keeps (commas R) (Forall2 Q).
Proof.
  intros HR i r l i' Hm. revert i'. induction Hm as [i r a H1|i m m' r a l H1 Ht H2 IH]; intros i' H; destruct (HR _ _ _ _ H1 H) as (m2 & b & B1 & B2 & B3).
  - exists m2, [b]. split; [constructor; exact B1|]. split; [exact B2|constructor; [exact B3|constructor]].
  - tk. destruct (IH _ K) as (r2 & l' & C1 & C2 & C3). exists r2, (b :: l'). split; [econstructor; eassumption|]. split; [exact C2|constructor; assumption].
Qed.
Lemma e_bracket op cl {A} (R : reader A) Q : nn (s op) -> nn (s cl) -> keeps R Q -> keeps (bracket op cl R) (Forall2 Q).
Proof.
  intros Ho Hc HR i r l i' [i0 m r0 H1 H2|i0 m m' r0 l0 H1 H2 H3] H; destruct (e_tok _ _ _ _ Ho H1 H) as (m1 & A1 & A2).
  - destruct (e_tok _ _ _ _ Hc H2 A2) as (m2 & B1 & B2). exists m2, []. split; [econstructor; eassumption|]. split; [exact B2|constructor].
  - destruct (e_commas R Q HR _ _ _ _ H2 A2) as (m2 & l' & B1 & B2 & B3). destruct (e_tok _ _ _ _ Hc H3 B2) as (m3 & C1 & C2).
    exists m3, l'. split; [eapply bracket_some; eassumption|]. auto.
Qed.
Lemma e_braces {A} (R : reader A) Q : keeps R Q -> keeps (braces R) (Forall2 Q).
Proof.
  intros HR i r l i' (m & m' & H1 & H2 & H3) H. tk. destruct (e_many R Q HR _ _ _ _ H2 K) as (m2 & l' & B1 & B2 & B3). tk.
  exists r'0, l'. split; [exists r', m2; auto|auto].
Qed.
Lemma e_maybe {A} (R : reader A) Q : keeps R Q -> keeps (maybe R) (o_chars Q).
Proof.
  intros HR i r l i' [i0|i0 r0 a Ha] H; [exists i', None; split; [constructor|split; [exact H|exact Logic.I]]|].
  destruct (HR _ _ _ _ Ha H) as (r' & b & B1 & B2 & B3). exists r', (Some b). split; [constructor; exact B1|]. split; [exact B2|exact B3].
Qed.
Lemma e_attrs : keeps attrs (Forall2 attr_chars).
Proof. apply e_bracket; [nnl|nnl|exact e_attr]. Qed.
Lemma e_mattrs : keeps (maybe attrs) attrs_chars.
Proof. apply e_maybe, e_attrs. Qed.
Lemma e_decl : keeps decl_name decl_chars.
Proof.
  intros i r [[sc|] n] i'; cbn [decl_name].
  - intros (m & m' & H1 & H2 & H3) H. rd e_name. tk. rd e_name. exists r'1, (Some b, b0). split; [eexists _, _; eauto|]. split; [assumption|split; assumption].
  - intros H1 H. rd e_name. exists r', (None, b). split; [exact T|]. split; [assumption|split; [exact Logic.I|assumption]].
Qed.
Lemma e_columns : keeps columns (Forall2 E).
Proof.
  intros i r l i' [i0 r0 c H1|i0 m m' r0 l0 H1 H2 H3] H.
  - rd e_name. exists r', [b]. split; [constructor; exact T|]. split; [exact K|constructor; [exact Q|constructor]].
  - tk. destruct (e_commas _ _ e_name _ _ _ _ H2 K) as (m2 & l' & B1 & B2 & B3). tk. exists r'0, l'. split; [eapply cols_more; eassumption|auto].
Qed.
Lemma e_endpoint : keeps endpoint end_chars.
Proof.
  intros i r e i' [i0 m1 m2 r0 t l Ht H1 Hl|i0 m1 m2 m3 m4 r0 sc t l Hs H1 Ht H2 Hl] H.
  - rd e_name. tk. rd e_columns. eexists _, (mkEnd None _ _). split; [eapply end_table; eassumption|]. split; [eassumption|]. split; [split; [exact Logic.I|assumption]|assumption].
  - rd e_name. tk. rd e_name. tk. rd e_columns. eexists _, (mkEnd (Some _) _ _). split; [eapply end_schema; eassumption|]. split; [eassumption|]. split; [split; [exact Q|exact Q0]|assumption].
Qed.
Lemma e_rel : keeps rel eq.
Proof.
  intros i r x i' (t & Hx & Ht) H. assert (Hn : nn t) by (destruct x; cbn in Hx; try discriminate; injection Hx as <-; nnl).
  destruct (e_tok _ _ _ _ Hn Ht H) as (r' & A1 & A2). exists r', x. split; [exists t; auto|auto].
Qed.
Lemma e_inline : keeps inline inline_chars.
Proof.
  intros i r x i' [i0 m1 m2 m3 r0 rl e H1 H2 H3 H4] H. tk. tk. rd e_rel. subst b. rd e_endpoint. exists r'2, (rl, b). split; [econstructor; eassumption|].
  split; [assumption|split; [reflexivity|assumption]].
Qed.
Lemma e_note : keeps note v_chars.
Proof.
  intros i r v i' [i0 m1 m2 r0 w H1 H2 H3|i0 m1 m2 m3 r0 w H1 H2 H3 H4] H; tk; tk; rd e_text.
  - exists r'1, (VString b). split; [eapply note_colon; eassumption|auto].
  - tk. exists r'2, (VString b). split; [eapply note_braces; eassumption|auto].
Qed.
Lemma e_ref_body n n' : o_chars E n n' -> forall i r a i', ref_body n i r a -> E i i' -> exists r' b, ref_body n' i' r' b /\ E r r' /\ ref_chars a b.
Proof.
  intros Hn i r a i' [i0 m1 m2 m3 r0 x e1 e2 st H1 H2 H3 H4] H. rd e_endpoint. rd e_rel. subst b0. rd e_endpoint. rd e_mattrs.
  eexists _, (mkARef n' x b b0 b1). split; [econstructor; eassumption|]. split; [eassumption|]. split; [exact Hn|]. auto.
Qed.
Lemma e_reference : keeps reference ref_chars.
Proof.
  intros i r a i' [i0 m1 m2 m3 r0 n a0 H1 H2 H3 H4|i0 m1 m2 m3 m4 r0 n a0 H1 H2 H3 H4 H5] H; tk;
    destruct (e_maybe _ _ e_name _ _ _ _ H2 K) as (m2' & n' & B1 & B2 & B3); tk; destruct (e_ref_body n n' B3 _ _ _ _ H4 K0) as (m4' & b & C1 & C2 & C3).
  - exists m4', b. split; [eapply ref_colon; eassumption|auto].
  - tk. exists r'1, b. split; [eapply ref_braces; eassumption|auto].
Qed.

(** ** Column types *)
Lemma e_verbatim q raw v raw' : nn q -> quoted_verbatim q raw v -> E raw raw' -> exists v', quoted_verbatim q raw' v' /\ E v v'.
Proof.
  intros Hq [-> Hc] H. apply e_word in H as (z & -> & H); [|exact Hq]. apply e_split in H as (v' & w & -> & H1 & H2).
  apply e_nonl in H2 as ->; [|exact Hq]. exists v'. split; [split; [reflexivity|eapply e_closes; eassumption]|exact H1].
Qed.
Lemma e_arg raw v raw' : arg_text raw v -> E raw raw' -> exists v', arg_text raw' v' /\ v_chars v v'.
Proof.
  intros Hv H. destruct Hv as [raw v Hq|raw v Hq|raw v Hq|d Hd|d1 d2 f H1 H2 H3| | | |h Hh Hl].
  - destruct (e_verbatim sq _ _ _ ltac:(nnl) Hq H) as (v' & A1 & A2). exists (VString v'). split; [apply ag_single; exact A1|exact A2].
  - destruct (e_verbatim tq _ _ _ ltac:(nnl) Hq H) as (v' & A1 & A2). exists (VString v'). split; [apply ag_triple; exact A1|exact A2].
  - destruct (e_verbatim bq _ _ _ ltac:(nnl) Hq H) as (v' & A1 & A2). exists (VExpr v'). split; [apply ag_expr; exact A1|exact A2].
  - apply e_nonl in H as ->; [|apply digit_nn, Hd]. eexists. split; [apply ag_int; exact Hd|reflexivity].
  - apply e_nonl in H as ->; [|apply Forall_app; split; [apply digit_nn, H1|apply Forall_app; split; [nnl|apply digit_nn, H2]]]. eexists. split; [apply ag_dec; eassumption|reflexivity].
  - apply e_nonl in H as ->; [|nnl]. eexists. split; [constructor|reflexivity].
  - apply e_nonl in H as ->; [|nnl]. eexists. split; [constructor|reflexivity].
  - apply e_nonl in H as ->; [|nnl]. eexists. split; [constructor|reflexivity].
  - apply e_nonl in H as ->; [|apply Forall_app; split; [nnl|apply hex_nn; exact Hh]]. eexists. split; [apply ag_hex; assumption|]. apply e_refl, Forall_app. split; [nnl|apply hex_nn; exact Hh].
Qed.
Lemma e_join raws l z : Forall2 arg_text raws l -> E (join (s ",") raws) z -> exists raws' l', z = join (s ",") raws' /\ Forall2 arg_text raws' l' /\ Forall2 v_chars l l'.
Proof.
  intros H. revert z. induction H as [|raw v raws l Hv H IH]; intros z Hz.
  - apply e_nil in Hz as ->. exists [], []. repeat split; constructor.
  - destruct H as [|r2 v2 raws l Hv2 H].
    + destruct (e_arg _ _ _ Hv Hz) as (v' & A1 & A2). exists [z], [v']. repeat split; constructor; (assumption || constructor).
    + change (join (s ",") (raw :: r2 :: raws)) with (raw ++ s "," ++ join (s ",") (r2 :: raws)) in Hz.
      apply e_split in Hz as (raw' & w & -> & H1 & H2). apply e_word in H2 as (z' & -> & H2); [|nnl].
      destruct (e_arg _ _ _ Hv H1) as (v' & A1 & A2). destruct (IH _ H2) as (raws' & l' & -> & B1 & B2).
      exists (raw' :: raws'), (v' :: l'). split; [|split; constructor; assumption]. destruct B1 as [|r3 v3 rs vs B0 B1]; [inversion B2|reflexivity].
Qed.
Lemma e_args ta l z : args_r ta l -> E ta z -> exists l', args_r z l' /\ Forall2 v_chars l l'.
Proof.
  intros [|raws l0 H] Hz; [apply e_nil in Hz as ->; exists []; split; constructor|]. apply e_word in Hz as (w & -> & Hz); [|nnl].
  apply e_split in Hz as (u & v & -> & H1 & H2). apply e_nonl in H2 as ->; [|nnl].
  destruct (e_join _ _ _ H H1) as (raws' & l' & -> & B1 & B2). exists l'. split; [apply args_given; exact B1|exact B2].
Qed.
Lemma dims_nn td l : dims_r td l -> nn td.
Proof.
  induction 1 as [|t d ts ds Ht Hts IH]; [constructor|]. apply Forall_app. split; [|exact IH]. destruct Ht as [|d [_ Hd]]; [nnl|]. apply Forall_app. split; [nnl|]. apply Forall_app. split; [apply digit_nn; exact Hd|nnl].
Qed.
Lemma e_prefix p np z : prefix_r p np -> E p z -> exists np', prefix_r z np' /\ E np np' /\ (z = [] -> p = []).
Proof.
  intros [|w Hw|raw w Hq] H.
  - apply e_nil in H as ->. exists []. split; [constructor|]. split; [constructor|auto].
  - apply e_nonl in H as ->; [|apply Forall_app; split; [apply word_nn; exact Hw|nnl]]. eexists. split; [apply pre_word; exact Hw|]. split; [apply e_refl, Forall_app; split; [apply word_nn; exact Hw|nnl]|]. auto.
  - apply e_split in H as (raw' & v & -> & H1 & H2). apply e_nonl in H2 as ->; [|nnl].
    destruct (e_verbatim dq _ _ _ ltac:(nnl) Hq H1) as (v' & A1 & A2). exists (v' ++ s "."). split; [apply pre_quoted; exact A1|].
    split; [apply e_app; [exact A2|apply e_refl; nnl]|]. intros E0. destruct raw'; discriminate.
Qed.
Lemma e_no_schema raw raw' : E raw raw' -> no_schema raw -> no_schema raw'.
Proof.
  intros H Hn w x Hw ->. apply e_sym in H. apply e_word in H as (z & -> & H); [|nnl]. apply e_split in H as (w' & y & -> & H1 & H2).
  apply e_word in H2 as (y' & -> & H2); [|nnl]. apply e_word in H2 as (x' & -> & H2); [|nnl]. apply (Hn w' x'); [|reflexivity]. exact (@e_closes (back X) _ dq w w' ltac:(nnl) H1 Hw).
Qed.
Lemma e_type_raw raw ty raw' : type_raw raw ty -> E raw raw' -> exists ty', type_raw raw' ty' /\ type_chars ty ty'.
Proof.
  intros Hr H. destruct Hr as [p np b ta args td dims Hp Hb Ha Hd|p np b ta args td1 d1 td2 d2 Hp Hb Ha H1 H2 Hs].
  - apply e_split in H as (p' & z & -> & K1 & K2).
    apply e_word in K2 as (z' & -> & K2); [|apply word_nn; exact Hb].
    apply e_split in K2 as (ta' & td' & -> & K3 & K4).
    apply e_nonl in K4 as ->; [|eapply dims_nn; exact Hd]. destruct (e_prefix _ _ _ Hp K1) as (np' & A1 & A2 & _). destruct (e_args _ _ _ Ha K3) as (l' & B1 & B2).
    eexists. split; [apply ty_bare; eassumption|]. split; [cbn; apply e_app; [exact A2|apply e_refl, word_nn; exact Hb]|]. split; [exact B2|reflexivity].
  - pose proof H as H0. apply e_split in H as (p' & z & -> & K1 & K2).
    apply e_word in K2 as (z' & -> & K2); [|nnl]. apply e_word in K2 as (z2 & -> & K2); [|apply spaced_nn; exact Hb].
    apply e_split in K2 as (ta' & z3 & -> & K3 & K4).
    apply e_nonl in K4 as ->; [|apply Forall_app; split; [eapply dims_nn; exact H1|apply Forall_app; split; [nnl|eapply dims_nn; exact H2]]].
    destruct (e_prefix _ _ _ Hp K1) as (np' & A1 & A2 & A3). destruct (e_args _ _ _ Ha K3) as (l' & B1 & B2).
    eexists. split; [eapply ty_quoted; try eassumption|].
    + intros Hp'. specialize (A3 Hp'). subst p p'. specialize (Hs eq_refl). eapply e_no_schema; [exact H0|exact Hs].
    + split; [cbn; apply e_app; [exact A2|apply e_refl, spaced_nn; exact Hb]|]. split; [exact B2|reflexivity].
Qed.
Lemma e_type : keeps type_r type_chars.
Proof.
  intros i r ty i' (raw & m & -> & Hr & Hm & Hd & Hl) H.
  assert (B : exists raw' m', i' = raw' ++ m' /\ E raw raw' /\ E m m').
  { apply e_split in H as (u & w & -> & K1 & K2). eauto. }
  destruct B as (raw' & m' & -> & K1 & K2). clear H. destruct (e_type_raw _ _ _ Hr K1) as (ty' & A1 & A2).
  assert (no_merge raw' m').
  { intros x d Ex Hx. apply (e_no_word _ _ K2). pose proof (e_sym _ _ K1) as K3. rewrite Ex in K3.
    apply e_split in K3 as (x' & w & Ew & K3 & K4). apply e_nonl in K4 as ->; [|constructor; [apply wc_nn; exact Hx|constructor]].
    exact (Hm x' d Ew Hx). }
  assert (no_dim m').
  { intros d x Hdg ->. apply e_sym in K2. apply e_word in K2 as (w & -> & K2); [|nnl]. apply e_word in K2 as (w2 & -> & K2); [|apply digit_nn; exact Hdg].
    apply e_word in K2 as (w3 & -> & K2); [|nnl]. exact (Hd d w3 Hdg eq_refl). }
  tk. exists r', ty'. split; [exists raw', m'; auto 6|auto].
Qed.

(** ** Blocks *)
Lemma pick_rel {A B} (f : A -> option B) (P : A -> A -> Prop) (Q : B -> B -> Prop) l l' :
  (forall a a', P a a' -> o_chars Q (f a) (f a')) -> Forall2 P l l' -> Forall2 Q (pick f l) (pick f l').
Proof.
  intros H HF. induction HF as [|a b l l' Hab HF IH]; [constructor|]. cbn. specialize (H a b Hab). destruct (f a), (f b); cbn in H |- *; try contradiction; [constructor; assumption|exact IH].
Qed.
Definition col_item_chars (a b : a_col_item) : Prop :=
  match a, b with CIAttr x, CIAttr y => attr_chars x y | CIRef x, CIRef y => inline_chars x y | _, _ => False end.
Lemma e_col_settings : keeps col_settings_r col_set_chars.
Proof.
  assert (B : keeps col_item col_item_chars).
  { intros i r [a|a] i'; cbn [col_item]; intros Ha H; [rd e_attr; exists r', (CIAttr b); auto|rd e_inline; exists r', (CIRef b); auto]. }
  intros i r x i' (l & Hl & E1 & E2) H. destruct (e_bracket "[" "]" _ _ ltac:(nnl) ltac:(nnl) B _ _ _ _ Hl H) as (r' & l' & C1 & C2 & C3).
  eexists r', (mkColSet _ _). split; [exists l'; split; [exact C1|split; reflexivity]|]. split; [exact C2|]. split; cbn [s_attrs s_refs]; rewrite ?E1, ?E2;
    (eapply pick_rel; [|exact C3]; intros [a|a] [b|b] Hab; cbn in *; try contradiction; auto).
Qed.
Lemma e_column : keeps column col_chars.
Proof.
  intros i r c i' [i0 m1 m2 r0 n ty st H1 H2 H3] H. rd e_name. rd e_type. destruct (e_maybe _ _ e_col_settings _ _ _ _ H3 K0) as (r2 & st' & C1 & C2 & C3).
  exists r2, (mkCol b b0 st'). split; [econstructor; eassumption|]. split; [exact C2|]. split; [exact Q|]. split; [exact Q0|exact C3].
Qed.
Lemma e_index : keeps index index_chars.
Proof.
  assert (B : keeps index_col index_col_chars).
  { intros i r c i' [i0 r0 w Hw|i0 r0 v Hv] H; [rd e_name; exists r', (IName b); split; [constructor; exact T|auto]|rd e_bq; exists r', (IExpr (VString b)); split; [constructor; exact T|auto]]. }
  intros i r x i' [i0 m r0 c st H1 H2|i0 m r0 l st H1 H2] H.
  - rd B. rd e_mattrs. exists r'0, (mkIndex [b] b0). split; [eapply index_one; eassumption|]. split; [assumption|]. split; [constructor; [assumption|constructor]|assumption].
  - destruct (e_bracket "(" ")" _ _ ltac:(nnl) ltac:(nnl) B _ _ _ _ H1 H) as (r' & l' & C1 & C2 & C3). rd e_mattrs.
    exists r'0, (mkIndex l' b). split; [eapply index_list; eassumption|]. split; [assumption|]. split; assumption.
Qed.
Lemma e_indexes : keeps indexes (Forall2 index_chars).
Proof.
  intros i r l i' [i0 m r0 l0 H1 H2] H. tk. destruct (e_braces _ _ e_index _ _ _ _ H2 K) as (r2 & l' & C1 & C2 & C3). exists r2, l'. split; [econstructor; eassumption|auto].
Qed.
Definition table_item_chars (a b : a_table_item) : Prop :=
  match a, b with TICol x, TICol y => col_chars x y | TINote x, TINote y => v_chars x y | TIIndexes x, TIIndexes y => Forall2 index_chars x y | _, _ => False end.
Lemma e_table : keeps table table_chars.
Proof.
  assert (B : keeps table_item table_item_chars).
  { intros i r [a|a|a] i'; cbn [table_item]; intros Ha H; [rd e_column; exists r', (TICol b); auto|rd e_note; exists r', (TINote b); auto|rd e_indexes; exists r', (TIIndexes b); auto]. }
  assert (Ba : keeps alias E).
  { intros i r w i' (m & H1 & H2) H. tk. rd e_name. exists r'0, b. split; [exists r'; auto|auto]. }
  intros i r t i' [i0 m1 m2 m3 m4 r0 d al st l H1 H2 H3 H4 H5] H. tk. rd e_decl. destruct (e_maybe _ _ Ba _ _ _ _ H3 K0) as (r2 & al' & C1 & C2 & C3).
  rd e_mattrs. destruct (e_braces _ _ B _ _ _ _ H5 K1) as (r3 & l' & D1 & D2 & D3).
  eexists _, _. split; [eapply table_r; eassumption|]. split; [exact D2|]. unfold table_chars. cbn [t_schema t_name t_alias t_settings t_cols t_notes t_indexes].
  split; [destruct d, b; exact Q|]. split; [exact C3|]. split; [exact Q0|].
  split; [|split]; (eapply pick_rel; [|exact D3]; intros [x|x|x] [y|y|y] Hab; cbn in *; try contradiction; auto).
Qed.
Lemma e_enum : keeps enum enum_chars.
Proof.
  assert (B : keeps enum_value_r (fun x y => E (fst x) (fst y) /\ attrs_chars (snd x) (snd y))).
  { intros i r [x o] i' (m & H1 & H2) H. cbn [fst snd] in *. rd e_name. rd e_mattrs. exists r'0, (b, b0). split; [exists r'; auto|auto]. }
  intros i r e i' [i0 m1 m2 r0 d l H1 H2 H3] H. tk. rd e_decl. destruct (e_braces _ _ B _ _ _ _ H3 K0) as (r3 & l' & D1 & D2 & D3).
  eexists _, _. split; [eapply enum_r; eassumption|]. split; [exact D2|]. split; [cbn [m_schema m_name]; destruct d, b; exact Q|exact D3].
Qed.
Definition group_item_chars (a b : a_group_item) : Prop :=
  match a, b with GINote x, GINote y => v_chars x y | GIName x, GIName y => decl_chars x y | _, _ => False end.
Lemma e_group : keeps group group_chars.
Proof.
  assert (B : keeps group_item group_item_chars).
  { intros i r [a|a] i'; cbn [group_item]; intros Ha H; [rd e_note; exists r', (GINote b); auto|rd e_decl; exists r', (GIName b); auto]. }
  intros i r g i' [i0 m1 m2 m3 r0 n st l H1 H2 H3 H4] H. tk. rd e_name. rd e_mattrs. destruct (e_braces _ _ B _ _ _ _ H4 K1) as (r3 & l' & D1 & D2 & D3).
  eexists _, _. split; [eapply group_r; eassumption|]. split; [exact D2|]. unfold group_chars. cbn [g_name g_settings g_notes g_items].
  split; [exact Q|]. split; [exact Q0|]. split; (eapply pick_rel; [|exact D3]; intros [x|x] [y|y] Hab; cbn in *; try contradiction; auto).
Qed.
Definition project_item_chars (a b : a_project_item) : Prop :=
  match a, b with PINote x, PINote y => v_chars x y | PIProp x, PIProp y => fst x = fst y /\ v_chars (snd x) (snd y) | _, _ => False end.
Lemma e_property : keeps property_r (fun x y => fst x = fst y /\ v_chars (snd x) (snd y)).
Proof.
  intros i r [k v] i' (m & m' & H1 & H2 & H3 & H4) H. cbn [fst snd] in *. rd e_phrase. subst b. tk.
  assert (B : exists r1 b, (literal_r r'0 r1 b \/ bare r'0 r1 b) /\ E r r1 /\ v_chars v b).
  { destruct H3 as [H3|H3]; [rd e_literal|rd e_bare]; eauto 6. }
  destruct B as (r1 & b & B1 & B2 & B3). exists r1, (k, b). split; [|auto]. exists r', r'0. cbn [fst snd]. split; [exact T|]. split; [exact T0|]. split; [exact B1|].
  intros [Hk (w & ->)]. apply H4. split; [exact Hk|]. destruct v; cbn in B3; try discriminate. eauto.
Qed.
Lemma e_project : keeps project project_chars.
Proof.
  assert (B : keeps project_item project_item_chars).
  { intros i r [a|a] i'; cbn [project_item]; intros Ha H; [rd e_note; exists r', (PINote b); auto|rd e_property; exists r', (PIProp b); auto]. }
  intros i r g i' [i0 m1 m2 r0 n l H1 H2 H4] H. tk. rd e_name. destruct (e_braces _ _ B _ _ _ _ H4 K0) as (r3 & l' & D1 & D2 & D3).
  eexists _, _. split; [eapply project_r; eassumption|]. split; [exact D2|]. unfold project_chars. cbn [p_name p_props p_notes].
  split; [exact Q|]. split; (eapply pick_rel; [|exact D3]; intros [x|x] [y|y] Hab; cbn in *; try contradiction; auto).
Qed.
Lemma e_block : keeps block_r block_chars.
Proof.
  intros i r [x|x|x|x|x|x] i'; cbn [block_r]; intros Hx H.
  - rd e_project. exists r', (AProject b). auto.
  - rd e_table. exists r', (ATable b). auto.
  - rd e_group. exists r', (AGroup b). auto.
  - rd e_note. exists r', (ANote b). auto.
  - rd e_reference. exists r', (ARef b). auto.
  - rd e_enum. exists r', (AEnum b). auto.
Qed.
Theorem chars_text t1 t2 a : E t1 t2 -> dbml_text t1 a -> exists b, dbml_text t2 b /\ schema_chars a b.
Proof.
  intros H (m & Hl & Hm). tk. destruct (e_many _ _ e_block _ _ _ _ Hm K) as (r2 & b & B1 & B2 & B3). apply e_nil in B2 as ->.
  exists b. split; [exists r'; auto|exact B3].
Qed.
End Both.
