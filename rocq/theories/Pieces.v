(** * Pieces: where a text can be cut (specification only). *)

From Verif Require Export AstSpec Respan.

(** [d] bytes back. *)
Definition back (d : N) (sp : range) : range := (fst sp - d, snd sp - d).
(** [edge x k p]: the byte offset [p] lies between the first [k] top-level blocks of [x] and the
    others, and is known from [x]: the start or the end of the text, or of a block that is no
    reference (the range of a reference does not show where its text starts). *)
Inductive edge (x : schema_t) : nat -> N -> Prop :=
| edge_first : edge x 0 0
| edge_last : edge x (List.length (sb_blocks x)) (blen (sb_input x))
| edge_before k b : nth_error (sb_blocks x) k = Some b -> (forall r, b <> BRef r) -> edge x k (fst (block_span b))
| edge_after k b : nth_error (sb_blocks x) k = Some b -> (forall r, b <> BRef r) -> edge x (S k) (snd (block_span b)).
(** The blocks between the first [j] and the first [k]. *)
Definition between (j k : nat) (x : schema_t) : list block := firstn (k - j) (skipn j (sb_blocks x)).
