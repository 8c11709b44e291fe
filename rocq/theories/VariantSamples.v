(** * VariantSamples: texts used by the examples of PropsVariants. *)

From Verif Require Import Samples TextSamples.
From Verif Require Import Answer Validity Variants.
From Verif Require Import Syntax.

Definition v_inline : str := prj "Table t { a int [pk] } Table u { b int [note: 'x', ref: > t.a] }".
Definition v_block : str := prj "Table t { a int [pk] } Table u { b int [note: 'x'] } Ref r: u.b > t.a".
Definition v_turned : str := prj "Table t { a int [pk] } Table u { b int [note: 'x'] } Ref r: t.a < u.b".
Definition v_order : str := s "Ref r: u.b > t.a Table u { b int [note: 'x'] } Table t { c int [unique, null] a int [pk] } Enum e { y z } Project p {}".
Definition v_order' : str := prj "Enum e { z y } Table t { a int [pk] c int [null, unique] } Table u { b int [note: 'x'] } Ref r: u.b > t.a".
Definition v_notes : str := s "Project q { database_type: 'PostgreSQL' } Note: 'n' Table t [headercolor: #abc] { a int [pk, increment] } Table u { b int } Ref: u.b > t.a [delete: cascade]".
Definition v_renamed : str := prj "Table ""my t"" { a int [pk] } Table u { ""my b"" int [note: 'x'] } Ref r: u.""my b"" > ""my t"".a".
Definition v_other : str := s "Project q {} Table w.v as x { a int [pk] c int [ref: > x.a] } Enum e { y }".
Definition v_union : str := prj "Table t { a int [pk] } Table u { b int [note: 'x'] } Ref r: u.b > t.a Table w.v as x { a int [pk] c int [ref: > x.a] } Enum e { y }".
Definition v_more : str := s "Table w.v as x { a int [pk] c int [ref: > x.a] } Enum e { y }".
(** Exchanges two names. *)
Definition swap (a b w : str) : str := if str_eqb w a then b else if str_eqb w b then a else w.
Lemma swap_twice a b w : swap a b (swap a b w) = w.
Proof.
  unfold swap. destruct (str_eqb w a) eqn:E1; [apply str_eqb_eq in E1; subst|destruct (str_eqb w b) eqn:E2; [apply str_eqb_eq in E2; subst|]].
  - destruct (str_eqb b a) eqn:E; [apply str_eqb_eq in E; congruence|]. rewrite (proj2 (str_eqb_eq b b) eq_refl). reflexivity.
  - rewrite (proj2 (str_eqb_eq a a) eq_refl). reflexivity.
  - rewrite E1, E2. reflexivity.
Qed.
Lemma swap_undoes a b : undoes (swap a b) (swap a b).
Proof. intros x. split; apply swap_twice. Qed.
Lemma swap_injective a b : injective (swap a b).
Proof. intros x y E. rewrite <- (swap_twice a b x), E. apply swap_twice. Qed.

Ltac once_tac := unfold once; repeat constructor; cbn; intuition discriminate.
Ltac edit_tac := split; [once_tac|]; intros k v Hk; cbn in Hk |- *;
  repeat match goal with H : _ \/ _ |- _ => destruct H end; subst; try contradiction; cbn; intuition (try discriminate; try congruence).
Lemma v_reannotated : reannotated (says v_block) (says v_notes).
Proof.
  constructor.
  - eexists. split; [vm_compute; reflexivity|]. vm_compute. repeat constructor; intros [].
  - vm_compute. constructor; [|constructor; [|constructor]]; (do 3 (split; [reflexivity|]); split; [|split; [|constructor]]).
    + intros l [= <-]. once_tac.
    + constructor; [|constructor]. do 3 (split; [reflexivity|]). edit_tac.
    + intros l [= ].
    + constructor; [|constructor]. do 3 (split; [reflexivity|]). edit_tac.
  - vm_compute. constructor.
  - vm_compute. constructor.
  - vm_compute. constructor; [|constructor]. do 3 (split; [reflexivity|]). intros l [= <-]. once_tac.
Qed.
