(** * PropsEdits: exchanging a part of a text. *)

From Verif Require Import Samples SynGrow EditsMain PropsPieces.
From Verif Require Import Api Parser.
From Verif Require Import Edits.

(** What lies between two edges of a text can be exchanged for another text.  What comes before
    it is read as before; what comes after it too, as far on as that moved; and what the new
    part stands for comes between. *)
Theorem C73_edit : forall t x a w c w' y j k,
  parse_dbml_unchecked t = Some (Ok x) -> t = a ++ w ++ c -> (j <= k)%nat -> edge x j (blen a) -> edge x k (blen (a ++ w)) -> begins (w ++ c) ->
  parse_dbml_unchecked w' = Some (Ok y) -> w' = [] \/ (begins w' /\ ends_closed y) -> begins (w' ++ c) -> comments_apart a w' -> comments_apart w' c ->
  parse_dbml_unchecked (a ++ w' ++ c) = Some (Ok (mkSchema (0, blen (a ++ w' ++ c)) (a ++ w' ++ c)
    (firstn j (sb_blocks x) ++ map (at_block (further (blen a))) (sb_blocks y) ++ map (at_block (moved (blen (a ++ w)) (blen (a ++ w')))) (skipn k (sb_blocks x))))).
Proof. exact edit. Qed.
Print Assumptions C73_edit.
(** A text put in at an edge: all blocks stay, those behind it move on by its length. *)
Theorem C73_insert : forall t x a c w y k,
  parse_dbml_unchecked t = Some (Ok x) -> t = a ++ c -> edge x k (blen a) -> begins c ->
  parse_dbml_unchecked w = Some (Ok y) -> begins w -> ends_closed y -> comments_apart a w -> comments_apart w c ->
  parse_dbml_unchecked (a ++ w ++ c) = Some (Ok (mkSchema (0, blen (a ++ w ++ c)) (a ++ w ++ c)
    (firstn k (sb_blocks x) ++ map (at_block (further (blen a))) (sb_blocks y) ++ map (at_block (moved (blen a) (blen (a ++ w)))) (skipn k (sb_blocks x))))).
Proof. exact insert. Qed.
Print Assumptions C73_insert.
(** What lies between two edges can be left out, whatever it is, and whatever comments there
    are: the other blocks stay. *)
Theorem C73_delete : forall t x a w c j k,
  parse_dbml_unchecked t = Some (Ok x) -> t = a ++ w ++ c -> (j <= k)%nat -> edge x j (blen a) -> edge x k (blen (a ++ w)) -> begins (w ++ c) -> begins c ->
  parse_dbml_unchecked (a ++ c) = Some (Ok (mkSchema (0, blen (a ++ c)) (a ++ c)
    (firstn j (sb_blocks x) ++ map (at_block (moved (blen (a ++ w)) (blen a))) (skipn k (sb_blocks x))))).
Proof. exact delete. Qed.
Print Assumptions C73_delete.

(** The text of [C72_meets]: its table is exchanged for a project and a note. *)
Definition a1_ : str := s "Project p{} // x" ++ [10] ++ s "Ref r: a.b > c.d ".
Definition w1_ : str := s "Table c{d int [pk, default: 7]} ".
Definition c1_ : str := s "Enum e{x} /* y */ Note: 'n'".
Definition n1_ : str := s "Ref: x.y - z.w /* q */ Enum f{y}".
Example C73_meets : exists x y p r t e n r2 e2,
  parse_dbml_unchecked (a1_ ++ w1_ ++ c1_) = Some (Ok x) /\ sb_blocks x = [BProject p; BRef r; BTable t; BEnum e; BNote n] /\
  edge x 2 (blen a1_) /\ edge x 3 (blen (a1_ ++ w1_)) /\ begins (w1_ ++ c1_) /\
  parse_dbml_unchecked n1_ = Some (Ok y) /\ sb_blocks y = [BRef r2; BEnum e2] /\ begins n1_ /\ ends_closed y /\ begins (n1_ ++ c1_) /\ comments_apart a1_ n1_ /\ comments_apart n1_ c1_ /\
  parse_dbml_unchecked (a1_ ++ n1_ ++ c1_) = Some (Ok (mkSchema (0, 93) (a1_ ++ n1_ ++ c1_)
    [BProject p; BRef r; BRef (at_ref (further 34) r2); BEnum (at_enum (further 34) e2); BEnum (at_enum (moved 66 66) e); BNote (at_note (moved 66 66) n)])).
Proof.
  do 9 eexists. split; [vm_compute; reflexivity|]. split; [reflexivity|]. split; [|split; [|split; [|split; [vm_compute; reflexivity|split; [reflexivity|split; [|split; [|split; [|split; [|split]]]]]]]]].
  - eapply edge_at_start; [reflexivity|discriminate|vm_compute; reflexivity].
  - eapply (edge_at_start _ 3); [reflexivity|discriminate|vm_compute; reflexivity].
  - eexists _, _. split; [vm_compute; reflexivity|]. vm_compute. right. split; discriminate.
  - eexists _, _. split; [vm_compute; reflexivity|]. vm_compute. right. split; discriminate.
  - eexists [_], _. split; [reflexivity|]. split; [discriminate|vm_compute; reflexivity].
  - eexists _, _. split; [vm_compute; reflexivity|]. vm_compute. right. split; discriminate.
  - left. apply closed_ok. vm_compute. reflexivity.
  - left. apply closed_ok. vm_compute. reflexivity.
  - vm_compute. reflexivity.
Qed.
(** Comments must stay apart: each of the two notes is DBML, and so is the text they are put
    into, but a comment opened in the first would be ended in the second, and a single note with
    no text be left. *)
Example C73_comment :
  (exists x, parse_dbml_unchecked (s "Note: '/*' Enum e{x}") = Some (Ok x)) /\ (exists y, parse_dbml_unchecked (s "Note: '*/'") = Some (Ok y)) /\
  exists z n e, parse_dbml_unchecked (s "Note: '/*' Note: '*/' Enum e{x}") = Some (Ok z) /\ sb_blocks z = [BNote n; BEnum e] /\ lit_value (nb_value n) = VString [].
Proof. split; [eexists; vm_compute; reflexivity|]. split; [eexists; vm_compute; reflexivity|]. do 3 eexists. split; [vm_compute; reflexivity|]. split; reflexivity. Qed.
(** The new part must not end in a reference: its last word could go on. *)
Example C73_open : exists x y z,
  parse_dbml_unchecked (s "Enum e{x}") = Some (Ok x) /\ parse_dbml_unchecked (s "Ref: a.b > c.d") = Some (Ok y) /\
  parse_dbml_unchecked (s "Ref: a.b > c.dEnum e{x}") = Some (Err z).
Proof. do 3 eexists. repeat split; vm_compute; reflexivity. Qed.
