(** * Layout: what may stand between two tokens of a DBML text.

    A small specification, independent of the parser model: white space is a
    blank, tab, line feed or carriage return; a line comment runs from [//] to the
    end of its line; a block comment runs from [/*] to the first [*/]. *)

From Verif Require Import Str.

Definition is_ws (c : char) : Prop := c = 32 \/ c = 9 \/ c = 10 \/ c = 13.
Definition is_nl (c : char) : Prop := c = 10 \/ c = 13.

(** The first [*/] of [body */] is the final one. *)
Definition no_close (body : str) : Prop := forall a b, body ++ s "*" <> a ++ s "*/" ++ b.

(** A run of white space and complete comments. *)
Inductive gap : str -> Prop :=
| gap_nil : gap []
| gap_ws c g : is_ws c -> gap g -> gap (c :: g)
| gap_line body c g : Forall (fun x => ~ is_nl x) body -> is_nl c -> gap g ->
    gap (s "//" ++ body ++ c :: g)
| gap_block body g : no_close body -> gap g -> gap (s "/*" ++ body ++ s "*/" ++ g).

(** At the end of the input the last line comment needs no line end. *)
Inductive gap_eof : str -> Prop :=
| ge_gap g : gap g -> gap_eof g
| ge_line g body : gap g -> Forall (fun x => ~ is_nl x) body -> gap_eof (g ++ s "//" ++ body).

(** [x] starts neither with white space nor with a comment. *)
Definition solid (x : str) : Prop :=
  match x with
  | [] => True
  | c :: _ => ~ is_ws c /\ c <> 47
  end.
(** The exact form: no white space, no [//], no terminated block comment. *)
Definition no_layout_start (x : str) : Prop :=
  (forall c r, x = c :: r -> ~ is_ws c) /\
  (forall r, x <> s "//" ++ r) /\
  (forall body r, x <> s "/*" ++ body ++ s "*/" ++ r).

(** Every block comment opened in [t] (be it within quotes) is ended in [t]. *)
Definition comments_closed (t : str) : Prop := forall a b, t = a ++ s "/*" ++ b -> exists c d, b = c ++ s "*/" ++ d.
