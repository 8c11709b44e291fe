(** * Complete: the whole answer to a text, from the text alone (specification only).

    [answers t r]: by the grammar ([Syntax], [Located]), by what fits ([Faults]) and by the
    rules in their order ([Report]), the answer to the text [t] is [r]. *)

From Verif Require Export Located Faults Report.
From Verif Require Import Err Parser.

Inductive answers (t : str) : outcome schema_t -> Prop :=
(** Not a DBML text. *)
| ungrammatical : (forall a, ~ dbml_text t a) -> answers t (Err ErGrammar)
(** It is, but something written does not fit. *)
| misfit m sp l : faults t ((m, sp) :: l) -> answers t (Err (ErMsg m sp))
(** The AST it stands for breaks a rule, or has the default that is never checked. *)
| broken x e sp : located t x -> reports x (Fault e sp) -> answers t (Err (ErSem e sp))
| crashing x : located t x -> reports x Crash -> answers t Panic
(** Or breaks none. *)
| fine x : located t x -> (forall f, ~ reports x f) -> answers t (Ok x).
(** Without the rules. *)
Inductive reads (t : str) : outcome schema_t -> Prop :=
| reads_not : (forall a, ~ dbml_text t a) -> reads t (Err ErGrammar)
| reads_misfit m sp l : faults t ((m, sp) :: l) -> reads t (Err (ErMsg m sp))
| reads_ast x : located t x -> reads t (Ok x).
