(** * RespanLoc: the AST of a text with something before it. *)

From Verif Require Import SynMain LocErase.
From Verif Require Export RespanBase.
From Verif Require Import Respan Syntax.

Section Shift.
Variables g inp : str.
Notation inp' := (g ++ inp).
Notation f := (further (blen g)).
Lemma span_after i m : ends inp i -> px i m -> span inp' i m = f (span inp i m).
Proof.
  intros H1 H2. apply blen_sx in H1. apply blen_px in H2. unfold span, pos, further. cbn [fst snd]. rewrite blen_app.
  destruct (N.eqb_spec (blen inp - blen m) 0); [lia|]. f_equal; lia.
Qed.

Definition mv_ident := RespanBase.mv_ident inp inp inp' f span_after.
Definition mv_key := RespanBase.mv_key inp inp inp' f span_after.
Definition mv_lit := RespanBase.mv_lit inp inp inp' f span_after.
Definition mv_inline := RespanBase.mv_inline inp inp inp' f span_after.
Definition mv_decl := RespanBase.mv_decl inp inp inp' f span_after.
Definition mv_endpoint := RespanBase.mv_endpoint inp inp inp' f span_after.
Definition mv_note := RespanBase.mv_note inp inp inp' f span_after.
Definition mv_index_col := RespanBase.mv_index_col inp inp inp' f span_after.
Definition mv_alias := RespanBase.mv_alias inp inp inp' f span_after.
Definition mv_group_part := RespanBase.mv_group_part inp inp inp' f span_after.
Definition mv_top := RespanBase.mv_top inp inp inp' f span_after.
End Shift.


Lemma gap_lay g t m : gap g -> lay t m -> lay (g ++ t) m.
Proof.
  intros Hg (x & -> & [Hx|[-> Hx]] & Hn).
  - exists (g ++ x). rewrite app_assoc. split; [reflexivity|]. split; [left; apply gap_app; assumption|exact Hn].
  - exists (g ++ x). rewrite app_assoc. split; [reflexivity|]. split; [right; split; [reflexivity|inversion Hx as [y Hy|y body Hy Hb]; subst; [constructor; apply gap_app; assumption|rewrite app_assoc; constructor; [apply gap_app; assumption|exact Hb]]]|exact Hn].
Qed.
(** The AST of a text with layout before it. *)
Lemma located_after g t x : gap g -> located t x -> located (g ++ t) (schema_after g x).
Proof.
  intros Hg (E1 & E2 & m & Hl & Hm). unfold schema_after. rewrite E1. split; [reflexivity|]. split; [reflexivity|]. exists m.
  split; [apply gap_lay; assumption|]. cbn [sb_blocks]. eapply (mv_many t); [apply mv_next; apply mv_top| |exact Hm]. apply lay_sx. exact Hl.
Qed.
