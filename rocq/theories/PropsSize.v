(** * PropsSize: a schema is no larger than its text (C76).

    Nothing but statements, examples and assumption audits.  [schema_size] ([Size]) counts
    the characters of all names and values of a schema, and at least 1 for every part. *)

From Verif Require Import Samples SizeOk.
From Verif Require Import Syntax Size.

Theorem C76_no_larger : forall t x, parse_dbml_unchecked t = Some (Ok x) -> (schema_size (meaning x) <= List.length t)%nat.
Proof. exact schema_no_larger. Qed.
Print Assumptions C76_no_larger.
(** Also with the notes and index blocks that the AST does not keep. *)
Theorem C76_text : forall t a, dbml_text t a -> (schema_size a <= List.length t)%nat.
Proof. exact text_size. Qed.
Print Assumptions C76_text.

Example C76_shop : parse_dbml_unchecked shop = Some (Ok shop_ast) /\ schema_size (meaning shop_ast) = 560%nat /\ List.length shop = 947%nat.
Proof. split; [exact shop_parsed|]. vm_compute. split; reflexivity. Qed.
