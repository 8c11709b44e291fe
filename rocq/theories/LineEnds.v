(** * LineEnds: every line end of a text written in another way.  Specification only. *)

From Verif Require Export Lines.

(** Every line feed as [n], every carriage return as [r]. *)
Fixpoint ends_as (n r t : str) : str :=
  match t with
  | [] => []
  | c :: t' => (if c =? 10 then n else if c =? 13 then r else [c]) ++ ends_as n r t'
  end.
