(** * PropsMeaning: DBML is unambiguous, misfits, repeated notes and all. *)

From Verif Require Import Samples OneMeaning SynPrint.
From Verif Require Import Syntax.

(** Compare C47_one_meaning: whether or not it fits, and up to every note and index block. *)
Theorem C47_unambiguous : forall t a b, dbml_text t a -> dbml_text t b -> a = b.
Proof. exact says_one. Qed.
Print Assumptions C47_unambiguous.
Example C47_unambiguous_meets : dbml_text tight both.
Proof. exact (proj1 tight_text). Qed.
