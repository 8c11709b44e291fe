(** * LocMain: the parser computes the located AST. *)

From Verif Require Import LocErase LocUniq LocSound.
From Verif Require Import Api ParseFacts Parser.
From Verif Require Import Located.

Lemma located_exact inp x : parse_dbml_unchecked inp = Some (Ok x) <-> located inp x.
Proof.
  split; [apply located_sound|]. intros H. destruct (located_accepted _ _ H) as (y & Hy & _).
  rewrite (located_unique _ _ _ H (located_sound _ _ Hy)). exact Hy.
Qed.
Lemma located_checked inp x : parse_dbml inp = Some (Ok x) -> located inp x.
Proof. intros H. apply located_sound, checked_same. exact H. Qed.
