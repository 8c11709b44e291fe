(** * EditsMain: a part of a text can be exchanged (proofs for C73). *)

From Verif Require Import SynLex SynEval SynCut LocMain SynMain LocErase RespanBase LocCut LocSwap LocUniq CompleteOk SynGrow PiecesOk EditsOk.
From Verif Require Import Api Parser Syntax.
From Verif Require Import Respan.
From Verif Require Export Edits.

Lemma begins_fin z : begins z -> fin z = z.
Proof. intros (c & r & -> & H). apply fin_solid. unfold letter in H. cbn [solid]. unfold is_ws. lia. Qed.
Lemma begins_app w c : begins w -> begins (w ++ c).
Proof. intros (d & r & -> & H). exists d, (r ++ c). split; [reflexivity|exact H]. Qed.
(** ** A block starts with a keyword *)
Definition keyed (i : str) : Prop := forall h m, i = h ++ m -> List.length h = 3%nat -> ~ Forall hex_digit h.
Lemma kw_keyed k c1 c2 k' i m : s k = c1 :: c2 :: k' -> (c1 = 80 \/ c1 = 84 \/ c1 = 82 \/ c1 = 78 \/ c1 = 112 \/ c1 = 116 \/ c1 = 114 \/ c1 = 110 \/ c2 = 110) -> kw k i m -> keyed i.
Proof.
  intros Ek Hc (w & j & -> & Hw & _) h x E L F. rewrite Ek in Hw. inversion Hw as [|a1 ? w1 ? H1 Hw1]; subst. inversion Hw1 as [|a2 ? w2 ? H2 Hw2]; subst.
  destruct h as [|h1 [|h2 h]]; try discriminate. cbn in E. injection E as <- <- _. inversion F as [|? ? F1 F']; subst. inversion F' as [|? ? F2 _]; subst.
  unfold same_letter, hex_digit, digit in *. lia.
Qed.
Lemma top_keyed t i m b : top_at t i m b -> keyed i.
Proof.
  intros H. destruct b as [x|x|x|x|x|x]; cbn [top_at] in H; destruct H;
    (match goal with K : kw _ _ _ |- _ => eapply kw_keyed; [| |exact K]; [reflexivity|vm_compute; tauto] end).
Qed.
Lemma keyed_grow w c i : begins w -> w = i -> keyed w -> (3 <= List.length w)%nat -> keyed (w ++ c).
Proof.
  intros _ _ K Hl h m E L. apply app_eq_app in E as (l & [[E1 E2]|[E1 E2]]); [exact (K h l E1 L)|].
  assert (l = []) as ->. { rewrite E1, app_length in L. destruct l as [|n0 l]; [reflexivity|]. cbn [List.length] in L. lia. }
  rewrite app_nil_r in E1. subst h. apply (K w []); [symmetry; apply app_nil_r|exact L].
Qed.
Lemma top_long t i m b : top_at t i m b -> (3 <= List.length i)%nat.
Proof.
  intros H. assert (Q : forall k i m, (3 <= List.length (s k))%nat -> kw k i m -> (3 <= List.length i)%nat).
  { intros k j n Hk (w & j' & -> & Hw & _). rewrite app_length. assert (E : List.length w = List.length (s k)) by (clear -Hw; induction Hw; cbn [List.length]; congruence). lia. }
  destruct b as [x|x|x|x|x|x]; cbn [top_at] in H; destruct H;
    match goal with K : kw _ _ _ |- _ => eapply Q; [|exact K]; vm_compute; lia end.
Qed.

(** ** Traces as lists *)
Lemma trace_first t tr j : trace t tr -> many (next (top_at t)) (nxt tr) (nxt (skipn j tr)) (map snd (firstn j tr)).
Proof.
  intros H. revert tr H. induction j as [|j IH]; intros tr H; [constructor|]. destruct H as [|i m b l Hb Hl H]; [constructor|].
  cbn [firstn skipn map snd nxt fst]. econstructor; [exists m; split; eassumption|]. apply IH. exact H.
Qed.
Lemma trace_all t tr : trace t tr -> many (next (top_at t)) (nxt tr) [] (map snd tr).
Proof. intros H. induction H as [|i m b l Hb Hl H IH]; [constructor|]. econstructor; [exists m; split; eassumption|exact IH]. Qed.
Lemma trace_ne t tr j : trace t tr -> nxt (skipn j tr) <> [] -> exists i m b, nth_error tr j = Some (i, m, b) /\ i = nxt (skipn j tr).
Proof.
  revert tr. induction j as [|j IH]; intros tr H Hn; destruct H as [|i m b l Hb Hl H]; try (destruct (Hn eq_refl)); [exists i, m, b; split; reflexivity|]. apply IH; assumption.
Qed.
Lemma trace_last_ne t tr j : trace t tr -> nxt (skipn (S j) tr) <> [] -> exists i m b, nth_error tr j = Some (i, m, b).
Proof.
  revert tr. induction j as [|j IH]; intros tr H Hn; destruct H as [|i m b l Hb Hl H]; try (destruct (Hn eq_refl)); [exists i, m, b; reflexivity|]. apply IH; assumption.
Qed.

(** ** The new part *)
Section New.
Variables w c : str.
Variable y : schema_t.
Hypothesis Hw : located w y.
Hypothesis Bw : begins w.
Hypothesis Hy : ends_closed y.
Hypothesis Hcom : comments_apart w c.
Lemma new_trace : exists tr i b l, trace w (tr ++ [(i, [], b)]) /\ nxt (tr ++ [(i, [], b)]) = w /\ sb_blocks y = l ++ [b] /\ map snd tr = l /\ (forall r, b <> BRef r) /\ top_at w i [] b /\ sx w i.
Proof.
  destruct Hw as (E1 & E2 & m0 & Hl & Hm). assert (m0 = w) as -> by (apply lay_fin in Hl; rewrite begins_fin in Hl by exact Bw; congruence).
  destruct (trace_of _ _ _ Hm) as (tr & Htr & En & Em). destruct Hy as (l & b & El & Hr & Hs). rewrite El in Em.
  destruct (map_eq_app _ _ _ _ Em) as (tr1 & tr2 & -> & Em1 & Em2). destruct tr2 as [|[[i m] b'] [|? ?]]; try discriminate. cbn in Em2. injection Em2 as ->.
  destruct (trace_at w _ (List.length tr1) i m b Htr) as (H1 & H2 & H3 & H4); [rewrite nth_error_app2, Nat.sub_diag by lia; reflexivity|]. rewrite En in H4.
  rewrite (top_span _ _ _ _ H1 Hr), E1 in Hs. pose proof (sx_trans _ _ _ H4 (px_sx _ _ (top_px _ _ _ _ H1))) as Sm. unfold span, pos in Hs. cbn [snd] in Hs.
  assert (m = []) as ->. { apply blen_0. apply blen_sx in Sm. lia. }
  exists tr1, i, b, l. repeat (split; [assumption|]). exact H4.
Qed.
Lemma new_last : exists u e, w = u ++ [e] /\ shut e.
Proof.
  destruct new_trace as (tr & i & b & l & _ & _ & _ & _ & Hr & Hb & Hs). pose proof (top_shut w i [] b Hb Hr) as S. eapply seals_sx in S; [|exact Hs]. destruct S as (u & e & E & He). eauto.
Qed.
Lemma new_keyed : keyed w /\ (3 <= List.length w)%nat.
Proof.
  destruct new_trace as (tr & i & b & l & Htr & En & _ & _ & _ & _ & _). destruct Htr as [|i0 m0 b0 l0 Hb _ _]; [cbn in En; destruct Bw as (? & ? & E & _); congruence|]. cbn in En. subst i0.
  split; [eapply top_keyed; exact Hb|eapply top_long; exact Hb].
Qed.
Lemma new_many : many (next (top_at (w ++ c))) (w ++ c) (fin c) (sb_blocks y).
Proof.
  destruct new_trace as (tr & i & b & l & Htr & En & El & Em & Hr & Hb & Hs). destruct new_last as (u & e & Ew & He). rewrite El, <- Em. clear El Em l.
  assert (Q : sx w (nxt (tr ++ [(i, [], b)])) -> many (next (top_at (w ++ c))) (nxt (tr ++ [(i, [], b)]) ++ c) (fin c) (map snd tr ++ [b])).
  2:{ rewrite <- En at 2. apply Q. rewrite En. apply sx_refl. }
  clear En. induction tr as [|[[i1 m1] b1] tr IH]; intros Sx; cbn [app nxt fst map snd] in *.
  - econstructor; [|constructor]. exists c. split; [|apply lay_of].
    destruct (s_closed w [] c False) with (i := i) (m := @nil N) (b := b) as (i0 & E0 & _ & Q); try assumption; try solve [intros []].
    + eapply right_lay; eassumption.
    + eapply right_word; eassumption.
    + eapply right_phrase; eassumption.
    + eapply right_digit; eassumption.
    + eapply right_dot; eassumption.
    + eapply right_hex; eassumption.
    + eapply right_dim; eassumption.
    + rewrite app_nil_r. exact Hb.
    + rewrite app_nil_r in E0. subst i0. apply Q. exact Hs.
  - inversion Htr as [|i2 m2 b2 l2 Hb1 Hl Htr1]; subst i2 m2 b2 l2. set (n := nxt (tr ++ [(i, [], b)])) in *.
    assert (Hn : n <> []). { unfold n. destruct tr as [|[[i3 m3] b3] tr]; cbn [app nxt fst]; [eapply px_ne'; eapply top_px; exact Hb|]. cbn [app] in Htr1. inversion Htr1; subst. eapply px_ne'. eapply top_px. eassumption. }
    pose proof (lay_sx _ _ Hl) as Sl. pose proof (top_px _ _ _ _ Hb1) as P1.
    assert (N1 : next (top_at w) i1 n b1) by (exists m1; split; assumption).
    econstructor; [|apply IH; [exact Htr1|eapply sx_trans; [exact Sx|]; eapply sx_trans; [apply px_sx; exact P1|exact Sl]]].
    destruct (s_next w [] c False) with (R := top_at (w ++ [])) (R' := top_at (w ++ c)) (i := i1) (m := n) (x := b1) as (i0 & E0 & _ & Q); try solve [intros []].
    + eapply right_lay; eassumption.
    + apply s_top; try solve [intros []].
      * eapply right_lay; eassumption.
      * eapply right_word; eassumption.
      * eapply right_phrase; eassumption.
      * eapply right_digit; eassumption.
      * eapply right_dot; eassumption.
      * eapply right_hex; eassumption.
      * eapply right_dim; eassumption.
    + rewrite !app_nil_r. exact N1.
    + rewrite app_nil_r in E0. subst i0. apply Q; [exact Sx|left; exact Hn].
Qed.
End New.

(** ** All three parts *)
Lemma further_span a z i m : ends z i -> px i m -> span (a ++ z) i m = further (blen a) (span z i m).
Proof.
  intros H1 H2. apply blen_sx in H1. apply blen_px in H2. unfold span, pos, further. cbn [fst snd]. rewrite blen_app.
  destruct (N.eqb_spec (blen z - blen m) 0) as [E|E]; f_equal; lia.
Qed.
Lemma moved_span p q c i m : ends c i -> px i m -> span (q ++ c) i m = moved (blen p) (blen q) (span (p ++ c) i m).
Proof.
  intros H1 H2. apply blen_sx in H1. apply blen_px in H2. unfold span, pos, moved. cbn [fst snd]. rewrite !blen_app. f_equal; lia.
Qed.
Lemma edit t x a w c w' y j k : parse_dbml_unchecked t = Some (Ok x) -> t = a ++ w ++ c -> (j <= k)%nat -> edge x j (blen a) -> edge x k (blen (a ++ w)) -> begins (w ++ c) ->
  parse_dbml_unchecked w' = Some (Ok y) -> w' = [] \/ (begins w' /\ ends_closed y) -> begins (w' ++ c) -> comments_apart a w' -> comments_apart w' c ->
  parse_dbml_unchecked (a ++ w' ++ c) = Some (Ok (mkSchema (0, blen (a ++ w' ++ c)) (a ++ w' ++ c)
    (firstn j (sb_blocks x) ++ map (at_block (further (blen a))) (sb_blocks y) ++ map (at_block (moved (blen (a ++ w)) (blen (a ++ w')))) (skipn k (sb_blocks x))))).
Proof.
  intros H Et Hjk Ej Ek Bz1 Hy Hw' Bz2 C1 C2. apply located_exact. apply located_exact in H. apply located_exact in Hy.
  destruct H as (E1 & E2 & m0 & Hl & Hm). apply trace_of in Hm as (tr & Htr & <- & Em).
  pose proof (edge_at t x tr j a (w ++ c) E1 Hl Htr Em Et Ej) as [Lj _]. assert (Et2 : t = (a ++ w) ++ c) by (rewrite <- app_assoc; exact Et).
  pose proof (edge_at t x tr k (a ++ w) c E1 Hl Htr Em Et2 Ek) as [Lk _]. apply lay_fin in Lj, Lk. rewrite (begins_fin _ Bz1) in Lj.
  assert (Hlast : a = [] \/ exists u e, a = u ++ [e] /\ stop e).
  { assert (K : forall i, sx t i -> seals stop i (w ++ c) -> exists u e, a = u ++ [e] /\ stop e).
    { intros i Hi Hs. eapply seals_sx in Hs; [|exact Hi]. destruct Hs as (u & e & E & He). rewrite Et in E. change (u ++ e :: w ++ c) with (u ++ [e] ++ w ++ c) in E. rewrite (app_assoc u [e]) in E. apply app_inv_tail in E. eauto. }
    destruct j as [|j].
    - cbn [skipn] in Lj. rewrite <- Lj in Hl. destruct (lay_seal _ _ Hl (begins_ne _ Bz1)) as [E|E]; [left|right; apply (K t); [apply sx_refl|exact E]].
      rewrite Et in E. change (w ++ c) with ([] ++ w ++ c) in E at 2. apply app_inv_tail in E. exact E.
    - right. destruct (trace_last_ne t tr j Htr) as (i & m & b & Hn); [rewrite <- Lj; apply begins_ne; exact Bz1|]. destruct (trace_at _ _ _ _ _ _ Htr Hn) as (T1 & T2 & T3 & T4). rewrite <- Lj in T2.
      apply (K i); [eapply sx_trans; [apply lay_sx; exact Hl|exact T4]|]. eapply top_seal; eassumption. }
  assert (Hkey : keyed (w' ++ c)).
  { destruct Hw' as [->|[B Hc]].
    - cbn [app] in *. rewrite (begins_fin _ Bz2) in Lk. destruct (trace_ne t tr k Htr) as (i & m & b & Hn & E); [rewrite <- Lk; apply begins_ne; exact Bz2|].
      destruct (trace_at _ _ _ _ _ _ Htr Hn) as (T1 & _). rewrite <- Lk in E. subst i. eapply top_keyed. exact T1.
    - destruct (new_keyed w' y Hy B Hc) as [K1 K2]. eapply keyed_grow; try eassumption; reflexivity. }
  assert (Hcom : forall r, sx a r -> no_layout_start (r ++ w ++ c) -> forall body x, r ++ w' ++ c <> s "/*" ++ body ++ s "*/" ++ x).
  { intros r Hr (_ & _ & Hn) body z E. destruct r as [|d [|d' r]].
    - destruct Bz2 as (d & q & Eq & Hd). cbn [app] in E. rewrite Eq in E. injection E as -> _. unfold letter in Hd. lia.
    - destruct Bz2 as (d' & q & Eq & Hd). cbn [app] in E. rewrite Eq in E. injection E as _ -> _. unfold letter in Hd. lia.
    - cbn [app] in E. injection E as -> -> E. assert (K : (exists b q, r = b ++ s "*/" ++ q) -> False) by (intros (b & q & ->); apply (Hn b (q ++ w ++ c)); cbn [app s]; rewrite <- !app_assoc; reflexivity).
      destruct (close_split _ _ _ _ E) as [D|[(b & q & D)|(_ & q & D)]]; [exact (K D)| |destruct Bz2 as (d & q' & Eq & Hd); rewrite Eq in D; injection D as -> _; unfold letter in Hd; lia].
      destruct (close_split _ _ _ _ D) as [(b' & q' & D')|[(b' & q' & ->)|((b' & D') & _)]].
      + destruct C1 as [C1|C1]; [|exact (C1 _ _ D')]. destruct Hr as (p & Hr). destruct (C1 p r) as (b2 & q2 & E'); [exact Hr|]. apply K. eauto.
      + apply (Hn (r ++ w ++ b') q'). cbn [app s]. rewrite <- !app_assoc. reflexivity.
      + destruct Hw' as [->|[B Hc]]; [destruct b'; discriminate|]. destruct (new_last w' y Hy B Hc) as (u & e & Eu & He). rewrite Eu in D'. apply last_eq in D' as ->. destruct He; discriminate. }
  set (z1 := w ++ c) in *. set (z2 := w' ++ c) in *.
  assert (X1 : forall r, sx a r -> good True r -> no_layout_start (r ++ z1) -> no_layout_start (r ++ z2)) by (clear -Bz1 Bz2 Hlast Hkey Hcom; intros r; eapply left_lay; eassumption).
  assert (X2 : forall r, sx a r -> good True r -> no_word (r ++ z1) -> no_word (r ++ z2)) by (clear -Bz1 Bz2 Hlast Hkey Hcom; intros r; eapply left_word; eassumption).
  assert (X3 : forall r, sx a r -> good True r -> no_phrase (r ++ z1) -> no_phrase (r ++ z2)) by (clear -Bz1 Bz2 Hlast Hkey Hcom; intros r; eapply left_phrase; eassumption).
  assert (X4 : forall r, sx a r -> good True r -> no_digit (r ++ z1) -> no_digit (r ++ z2)) by (clear -Bz1 Bz2 Hlast Hkey Hcom; intros r; eapply left_digit; eassumption).
  assert (X5 : forall r, sx a r -> good True r -> (forall m, r ++ z1 <> s "." ++ m) -> (forall m, r ++ z2 <> s "." ++ m)) by (clear -Bz1 Bz2 Hlast Hkey Hcom; intros r; eapply left_dot; eassumption).
  assert (X6 : forall r, sx a r -> good True r -> (forall h m, r ++ z1 = h ++ m -> List.length h = 3%nat -> ~ Forall hex_digit h) -> (forall h m, r ++ z2 = h ++ m -> List.length h = 3%nat -> ~ Forall hex_digit h)) by (clear -Bz1 Bz2 Hlast Hkey Hcom; intros r; eapply left_hex; eassumption).
  assert (X7 : forall r, sx a r -> good True r -> no_dim (r ++ z1) -> no_dim (r ++ z2)) by (clear -Bz1 Bz2 Hlast Hkey Hcom; intros r; eapply left_dim; eassumption).
  (* before *)
  pose proof (trace_first t tr j Htr) as M1. rewrite <- Lj, Et in M1. change z1 with ([] ++ z1) in M1 at 2.
  apply (s_many a z1 z2 True (next (top_at (a ++ z1))) (next (top_at (a ++ z2)))) in M1; [|apply s_next; [exact (left_some1 z1 Bz1)|exact X1|apply s_top; try assumption; exact (left_some1 z1 Bz1)]].
  destruct M1 as (i0 & Ei & Si & M1). rewrite Ei, Et in Hl.
  assert (Sa : sx a i0). { apply lay_sx in Hl as (p & Hl). rewrite app_assoc in Hl. apply app_inv_tail in Hl. exists p. exact Hl. }
  specialize (M1 Sa (or_intror Logic.I)). cbn [app] in M1.
  pose proof Hl as L0. apply (sw_lay a z1 z2 True (left_some1 z1 Bz1) X1) in L0 as (i1 & Ei1 & _ & L0). apply app_inv_tail in Ei1. subst i1.
  specialize (L0 (sx_refl _) ltac:(right; exact Logic.I)).
  split; [reflexivity|]. split; [reflexivity|]. exists (i0 ++ z2). split; [exact L0|]. cbn [sb_blocks].
  rewrite <- Em, firstn_map. eapply many_app; [exact M1|].
  (* the new part *)
  apply many_app with (m := fin c).
  - assert (Q : many (next (top_at z2)) z2 (fin c) (sb_blocks y)).
    { destruct Hw' as [->|[B Hc]]; [|apply new_many; assumption]. unfold z2. cbn [app]. rewrite (begins_fin c Bz2).
      destruct Hy as (_ & _ & m1 & Hm1 & Hm2). apply lay_fin in Hm1. cbn in Hm1. subst m1. inversion Hm2 as [|? ? ? ? ? (? & T & _) _]; subst; [constructor|]. apply top_px, px_ne' in T. congruence. }
    destruct (mv_many z2 _ _ _ _ _ _ (mv_next z2 _ _ _ (mv_top z2 z2 (a ++ z2) (further (blen a)) (further_span a z2))) (sx_refl _) Q) as [_ Q']. exact Q'.
  - pose proof (trace_all t _ (trace_skip t tr k Htr)) as M3. rewrite <- Lk in M3. rewrite skipn_map.
    assert (Sc : sx c (fin c)) by (apply lay_sx, lay_of).
    assert (Sp : forall i m, ends c i -> px i m -> span (a ++ z2) i m = moved (blen (a ++ w)) (blen (a ++ w')) (span t i m)).
    { intros i m Hi Hp. rewrite Et2. unfold z2. rewrite (app_assoc a w' c). apply moved_span; assumption. }
    destruct (mv_many c _ _ _ _ _ _ (mv_next c _ _ _ (mv_top c t (a ++ z2) _ Sp)) Sc M3) as [_ Q]. exact Q.
Qed.
Lemma insert t x a c w y k : parse_dbml_unchecked t = Some (Ok x) -> t = a ++ c -> edge x k (blen a) -> begins c ->
  parse_dbml_unchecked w = Some (Ok y) -> begins w -> ends_closed y -> comments_apart a w -> comments_apart w c ->
  parse_dbml_unchecked (a ++ w ++ c) = Some (Ok (mkSchema (0, blen (a ++ w ++ c)) (a ++ w ++ c)
    (firstn k (sb_blocks x) ++ map (at_block (further (blen a))) (sb_blocks y) ++ map (at_block (moved (blen a) (blen (a ++ w)))) (skipn k (sb_blocks x))))).
Proof.
  intros H Et He Bc Hy Bw Cy C1 C2. pose proof (edit t x a [] c w y k k H Et (le_n k) He) as Q. rewrite app_nil_r in Q. apply Q; auto. apply begins_app. exact Bw.
Qed.
Lemma delete t x a w c j k : parse_dbml_unchecked t = Some (Ok x) -> t = a ++ w ++ c -> (j <= k)%nat -> edge x j (blen a) -> edge x k (blen (a ++ w)) -> begins (w ++ c) -> begins c ->
  parse_dbml_unchecked (a ++ c) = Some (Ok (mkSchema (0, blen (a ++ c)) (a ++ c)
    (firstn j (sb_blocks x) ++ map (at_block (moved (blen (a ++ w)) (blen a))) (skipn k (sb_blocks x))))).
Proof.
  intros H Et Hjk Ej Ek B1 Bc. assert (Hn : parse_dbml_unchecked [] = Some (Ok (mkSchema (0, 0) [] []))) by (vm_compute; reflexivity).
  pose proof (edit t x a w c [] _ j k H Et Hjk Ej Ek B1 Hn (or_introl eq_refl) Bc) as Q. rewrite app_nil_r in Q. apply Q; [right|left].
  - intros u v E. symmetry in E. apply app_eq_nil in E. destruct E as [_ E]. discriminate.
  - intros u v E. destruct u; discriminate.
Qed.
