(** * RespanJoin: the AST of two texts joined. *)

From Verif Require Import SynLex SynEval SynCut LocUniq SynGram2.
From Verif Require Import SynGrow.
From Verif Require Export RespanGrow.
From Verif Require Import Respan Syntax.

Section Join.
Variables t1 t2 : str.
Notation z := (10 :: t2).
Notation inp' := (t1 ++ z).
Notation n := (blen t1).
Notation e := (blen t1 + 1 + (blen t2 - blen (fin t2))).

Lemma pos_fin : pos inp' (fin t2) = e.
Proof. unfold pos. rewrite blen_app. cbn [blen]. change (ulen 10) with 1.
  pose proof (lay_sx _ _ (lay_of t2)) as H. apply blen_sx in H. lia. Qed.
Lemma top_join i r b : safe t2 i -> sx t1 i -> next (top_at t1) i r b -> px i r /\ next (top_at inp') (i ++ z) (ext t2 r) (stretch n e b).
Proof.
  intros Hs Ht H. destruct b as [x|x|x|x|x|x].
  5: { destruct H as (m & Hx & Hl). cbn [top_at] in Hx. destruct (g_reference t1 t2 _ _ _ Hx) as [P Q]. pose proof (lay_sx _ _ Hl) as P2. split; [eapply px_sx_trans; eassumption|].
    destruct (Q Hs) as [[Q1 Q2]|(-> & Q1 & Q2 & Q3)].
    - exists (m ++ z). split; [|apply lay_grow; [eapply safe_px; eassumption|exact Hl]]. unfold stretch. destruct (rb_settings x) as [st|] eqn:Es; [exact Q1|].
      destruct (Q2 eq_refl) as (k & Hk & ->). destruct Hk as (k' & Hk & ->). rewrite app_nil_r in *. replace (pos t1 k' =? n) with false; [exact Q1|]. symmetry. apply N.eqb_neq.
      unfold pos. assert (0 < blen k') by (destruct k' as [|c k']; [congruence|]; cbn [blen]; pose proof (ulen_pos c); lia). destruct (N.eq_dec n 0); [|lia].
      destruct t1 as [|c u]; [|cbn [blen] in *; pose proof (ulen_pos c); lia]. exfalso. destruct Ht as (y & Ht). symmetry in Ht. apply app_eq_nil in Ht as [_ ->]. destruct P as (y' & Hy & P). symmetry in P. apply app_eq_nil in P. tauto.
    - apply lay_fin in Hl. assert (r = []) as -> by (rewrite <- Hl; apply fin_solid; exact Logic.I). exists (fin t2). split; [|apply lay_self, fin_fin].
      unfold stretch. rewrite Q1. rewrite Q2. unfold pos at 1. cbn [blen]. rewrite N.sub_0_r, N.eqb_refl. cbn [top_at]. rewrite <- pos_fin. unfold to in Q3. rewrite Q1 in Q3. exact Q3. }
  all: cbn [stretch].
  - destruct (gA_next _ _ _ _ _ _ (gA_project t1 t2) H) as [P Q]. auto.
  - destruct (gA_next _ _ _ _ _ _ (gA_table t1 t2) H) as [P Q]. auto.
  - destruct (gA_next _ _ _ _ _ _ (gA_group t1 t2) H) as [P Q]. auto.
  - destruct (gA_next _ _ _ _ _ _ (gA_note t1 t2) H) as [P Q]. auto.
  - destruct (gA_next _ _ _ _ _ _ (gA_enum t1 t2) H) as [P Q]. auto.
Qed.
Lemma many_join i r l : safe t2 i -> sx t1 i -> many (next (top_at t1)) i r l -> many (next (top_at inp')) (ext t2 i) (ext t2 r) (map (stretch n e) l).
Proof.
  intros Hs Ht H. induction H as [i|i m r b l Hb _ IH]; [constructor|]. destruct (top_join _ _ _ Hs Ht Hb) as [P Q]. cbn [map].
  rewrite (ext_ne t2 i) by (eapply px_ne; exact P). econstructor; [exact Q|]. apply IH; [eapply safe_px; eassumption|eapply sx_trans; [exact Ht|apply px_sx; exact P]].
Qed.
Lemma located_join x y : safe t2 t1 -> located t1 x -> located t2 y -> located inp' (joined e x y).
Proof.
  intros Hs (E1 & E2 & m & Hl & Hm) (E3 & E4 & m' & Hl' & Hm'). unfold joined. rewrite E1, E3. split; [reflexivity|]. split; [reflexivity|]. exists (ext t2 m).
  pose proof (lay_sx _ _ Hl) as P. split; [apply lay_grow; assumption|]. cbn [sb_blocks]. eapply many_app.
  - apply many_join; [eapply safe_sx; eassumption|exact P|exact Hm].
  - cbn [ext]. apply lay_fin in Hl' as E. rewrite E. destruct (mv_many t2 _ _ _ m' [] _ (mv_next _ _ _ _ (mv_top (t1 ++ [10]) t2)) (lay_sx _ _ Hl') Hm') as [_ Q].
    rewrite <- app_assoc in Q. rewrite blen_app in Q. exact Q.
Qed.
End Join.
