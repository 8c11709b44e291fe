(** * ShownSpec: lines and columns.  Specification only. *)

From Verif Require Export Str.

(** Whoever has read [a] is in line [l], before column [c], both counted from 1: [a] is
    [l - 1] whole lines, each with its line end, and [c - 1] characters. *)
Definition located_at (a : str) (p : N * N) : Prop :=
  exists lines y, a = List.concat (map (fun x => x ++ [10]) lines) ++ y /\ Forall (fun x => ~ In 10 x) lines /\ ~ In 10 y /\
    p = (1 + N.of_nat (List.length lines), 1 + N.of_nat (List.length y)).
(** The end of a marked part that ends with [a]: as before, but a part that ends with a line
    end is shown to end on that line, and never in column 1. *)
Definition ends_at (a : str) (p : N * N) : Prop :=
  (located_at a p /\ snd p <> 1) \/
  (exists a' l c, a = a' ++ [10] /\ located_at a' (l, c) /\ p = (l, c + 1)) \/
  (a = [] /\ p = (1, 2)).
(** Order of positions. *)
Definition not_after (p q : N * N) : Prop := fst p < fst q \/ (fst p = fst q /\ snd p <= snd q).
