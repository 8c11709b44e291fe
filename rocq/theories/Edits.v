(** * Edits: exchanging a part of a text (specification only). *)

From Verif Require Export Pieces Layout TextSpec.

(** What was at the offset [p] is at the offset [q] now. *)
Definition moved (p q : N) (sp : range) : range := (fst sp - p + q, snd sp - p + q).
(** [t] begins with a letter, so with a keyword if it is DBML: no layout first. *)
Definition begins (t : str) : Prop := exists c r, t = c :: r /\ letter c.
(** The last block of [y] is no reference, and ends where the text does. *)
Definition ends_closed (y : schema_t) : Prop :=
  exists l b, sb_blocks y = l ++ [b] /\ (forall r, b <> BRef r) /\ snd (block_span b) = blen (sb_input y).
(** No comment can be opened in [t] and ended in [u]. *)
Definition comments_apart (t u : str) : Prop := comments_closed t \/ forall a b, u <> a ++ s "*/" ++ b.
