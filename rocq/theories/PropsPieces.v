(** * PropsPieces: pieces of a text. *)

From Verif Require Import Samples PiecesOk.
From Verif Require Import Api Parser.
From Verif Require Import Pieces.

(** What lies between two edges of a text is DBML, and stands for the blocks between them, as
    far back as the piece starts. *)
Theorem C72_piece : forall t x a w c j k,
  parse_dbml_unchecked t = Some (Ok x) -> t = a ++ w ++ c -> (j <= k)%nat -> edge x j (blen a) -> edge x k (blen (a ++ w)) ->
  parse_dbml_unchecked w = Some (Ok (mkSchema (0, blen w) w (map (at_block (back (blen a))) (between j k x)))).
Proof. exact piece. Qed.
Print Assumptions C72_piece.
(** The range of a block that is no reference is a text of its own, which stands for that block
    alone. *)
Theorem C72_alone : forall t x k b,
  parse_dbml_unchecked t = Some (Ok x) -> nth_error (sb_blocks x) k = Some b -> (forall r, b <> BRef r) ->
  exists a w c, t = a ++ w ++ c /\ block_span b = (blen a, blen (a ++ w)) /\
    parse_dbml_unchecked w = Some (Ok (mkSchema (0, blen w) w [at_block (back (blen a)) b])).
Proof. exact alone. Qed.
Print Assumptions C72_alone.

Lemma edge_at_start x k b p : nth_error (sb_blocks x) k = Some b -> (forall r, b <> BRef r) -> p = fst (block_span b) -> edge x k p.
Proof. intros H H1 ->. exact (edge_before x k b H H1). Qed.
Lemma edge_at_end x k b p : nth_error (sb_blocks x) k = Some b -> (forall r, b <> BRef r) -> p = snd (block_span b) -> edge x (S k) p.
Proof. intros H H1 ->. exact (edge_after x k b H H1). Qed.
(** A text with four blocks, cut at the start of the third and at the end of the fourth. *)
Definition a_ : str := s "Project p{} // x" ++ [10] ++ s "Ref r: a.b > c.d ".
Definition w_ : str := s "Table c{d int [pk, default: 7]} Enum e{x}".
Definition c_ : str := s " /* y */ Note: 'n'".
Example C72_meets : exists x r t e n,
  parse_dbml_unchecked (a_ ++ w_ ++ c_) = Some (Ok x) /\ sb_blocks x = [BProject r; BRef t; BTable e; BEnum n; BNote (mkNote (84, 93) (mkLiteral (90, 93) (s "'n'") (VString (s "n"))))] /\
  edge x 2 (blen a_) /\ edge x 4 (blen (a_ ++ w_)) /\
  parse_dbml_unchecked w_ = Some (Ok (mkSchema (0, 41) w_ [BTable (at_table (back 34) e); BEnum (at_enum (back 34) n)])).
Proof.
  do 5 eexists. split; [vm_compute; reflexivity|]. split; [reflexivity|]. split; [|split; [|vm_compute; reflexivity]].
  - eapply edge_at_start; [reflexivity|discriminate|vm_compute; reflexivity].
  - eapply edge_at_end; [reflexivity|discriminate|vm_compute; reflexivity].
Qed.
(** The range of a reference is its statement, which is no text of its own. *)
Example C72_reference : exists r,
  parse_dbml_unchecked (s "Ref x: a.b > c.d") = Some (Ok (mkSchema (0, 16) (s "Ref x: a.b > c.d") [BRef r])) /\ rb_span r = (7, 16) /\
  parse_dbml_unchecked (s "a.b > c.d") = Some (Err ErGrammar).
Proof. eexists. repeat split; vm_compute; reflexivity. Qed.
