(** * DrawSpec: what an error should look like when printed.  Specification only. *)

From Verif Require Export ShownSpec.

(** [q] goes to the end of its line, line feed included; [after] is what follows. *)
Definition whole_line (q after : str) : Prop := (exists q', q = q' ++ [10] /\ ~ In 10 q') \/ (~ In 10 q /\ after = []).
(** [p ++ q] is a whole line of the text, between [before] and [after], with its line feed if
    it has one; a place in it comes after [p]. *)
Definition in_line (inp before p q after : str) : Prop :=
  inp = before ++ p ++ q ++ after /\ (before = [] \/ exists x, before = x ++ [10]) /\ ~ In 10 p /\ whole_line q after.
(** Byte [from], at line and column [at_], is the place after [p] in that line. *)
Definition place (inp before p q after : str) (from : N) (at_ : N * N) : Prop :=
  in_line inp before p q after /\ from = blen (before ++ p) /\ located_at (before ++ p) at_.
(** A line printed without carriage returns and line feeds. *)
Inductive plain : str -> str -> Prop :=
| plain_nil : plain [] []
| plain_end c t x : c = 10 \/ c = 13 -> plain t x -> plain (c :: t) x
| plain_char c t x : c <> 10 -> c <> 13 -> plain t x -> plain (c :: t) (c :: x).
(** A line printed with visible signs for them. *)
Definition visible (t x : str) : Prop :=
  Forall2 (fun c d => (c = 13 /\ d = 9229) \/ (c = 10 /\ d = 9226) \/ (c <> 13 /\ c <> 10 /\ d = c)) t x.
Definition printed_line (t x : str) : Prop := plain t x \/ visible t x.
(** They are made visible exactly if they matter ([P]). *)
Definition printed_if (P : Prop) (t x : str) : Prop := (P /\ visible t x) \/ (~ P /\ plain t x).
Definition starts_with_line_end (t : str) : Prop := exists c r, t = c :: r /\ (c = 10 \/ c = 13).
Definition ends_with_line_end (t : str) : Prop := exists c r, t = r ++ [c] /\ (c = 10 \/ c = 13).
Definition blank (t : str) : Prop := Forall (eq 32) t.
(** Blanks as wide as [p], below it: tabs where it has tabs. *)
Definition below (p u : str) : Prop := Forall2 (fun c d => (c = 9 /\ d = 9) \/ (c <> 9 /\ d = 32)) p u.
(** [^], [^^], [^-^], [^--^]... [n] wide, at least 1. *)
Definition mark (n : nat) (m : str) : Prop :=
  (m = [94] /\ (n <= 1)%nat) \/ exists k, m = 94 :: List.repeat 45 k ++ [94] /\ n = (k + 2)%nat.
(** A number, right-aligned over [bar]. *)
Definition numbered (bar : str) (n : N) (t : str) : Prop :=
  exists b, blank b /\ t = b ++ dec_of_N n /\ List.length t = List.length bar.
(** The drawing:
<<
  --> line:column
   |
 n | excerpt
more
   | underline
   |
   = message
>> *)
Definition frame (bar : str) (at_ : N * N) (num excerpt more underline msg : str) : str :=
  bar ++ s "--> " ++ dec_of_N (fst at_) ++ s ":" ++ dec_of_N (snd at_) ++ [10] ++
  bar ++ s " |" ++ [10] ++
  num ++ s " | " ++ excerpt ++ [10] ++
  more ++
  bar ++ s " | " ++ underline ++ [10] ++
  bar ++ s " |" ++ [10] ++
  bar ++ s " = " ++ msg.
(** Between the first line and the last: dots if lines are left out. *)
Definition dots (bar : str) (first last : N) (t : str) : Prop :=
  (last <= first + 1 /\ t = []) \/ (first + 1 < last /\ t = bar ++ s " | ..." ++ [10]).
