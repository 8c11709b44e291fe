(** * PropsDraw: what a user sees when an error is printed.

    Nothing but statements, examples and assumption audits.  Lines, excerpts and the frame
    of a printed error are specified in [DrawSpec], lines and columns in [ShownSpec]. *)

From Verif Require Import Err Api Shown FirmOk Draw DrawOk DrawSpec.

(** ** C82 *)
(** Every error can be printed: no subtraction in the drawing goes below zero. *)
Theorem C82_prints : forall inp e, parse_dbml inp = Some (Err e) -> exists d, print_error inp e = Some d.
Proof. exact printed. Qed.
Print Assumptions C82_prints.
(** The print gives line and column, and beside the line's number that very line of the text, and
    the message below. *)
Theorem C82_excerpt : forall inp e sh, parse_dbml inp = Some (Err e) -> show_error inp e = Some sh ->
  exists before p q after bar num x more u : str,
    place inp before p q after (sh_from sh) (sh_start sh) /\ printed_line (p ++ q) x /\ blank bar /\ numbered bar (fst (sh_start sh)) num /\
    print_error inp e = Some (frame bar (sh_start sh) num x more u (sh_message sh)).
Proof. exact printed_frame. Qed.
Print Assumptions C82_excerpt.
(** Below the line of a grammar error is a caret, exactly below its column, whatever tabs and
    letters come before it, unless a carriage return without line feed does.  Line ends are
    printed as signs exactly if the error is at one. *)
Theorem C82_grammar_caret : forall inp sh, parse_dbml inp = Some (Err ErGrammar) -> show_error inp ErGrammar = Some sh ->
  exists before p q after bar num x u : str,
    place inp before p q after (sh_from sh) (sh_start sh) /\ printed_if (starts_with_line_end q) (p ++ q) x /\ blank bar /\ numbered bar (fst (sh_start sh)) num /\
    print_error inp ErGrammar = Some (frame bar (sh_start sh) num x [] u (sh_message sh)) /\
    (~ In 13 p -> (exists x', x = p ++ x') /\ exists ind, u = ind ++ s "^---" /\ below p ind).
Proof. exact printed_grammar. Qed.
Print Assumptions C82_grammar_caret.
(** An error that names a part of the text names at least one character, but for two cases,
    reported at the very beginning of the text: the text is empty (and so lacks a project), or the
    schema to be found is not written there (the endpoint of a reference names only a table). *)
Theorem C82_names_something : forall inp e sh to, parse_dbml inp = Some (Err e) -> show_error inp e = Some sh -> sh_to sh = Some to ->
  sh_from sh < to \/ (sh_from sh = 0 /\ to = 0 /\ (inp = [] \/ exists sp, e = ErSem SchemaNotFound sp)).
Proof. exact named_part. Qed.
Print Assumptions C82_names_something.
(** An error of a part [m] of the text: if [m] lies in one line, only that line is printed and the
    marks are below [m], all of it and nothing else.  If [m] goes over several lines and ends
    inside its last one, that line follows with its number, after dots if others come between.  Line ends are printed as
    signs in the first line exactly if [m] starts or ends with one (and, which looks like a slip
    of pest, in the last line exactly if it does not). *)
Theorem C82_marked_part : forall inp e sh (a m b : str), show_error inp e = Some sh ->
  inp = a ++ m ++ b -> sh_from sh = blen a -> sh_to sh = Some (blen (a ++ m)) -> m <> [] ->
  exists before p q after bar num x more u : str,
    place inp before p q after (sh_from sh) (sh_start sh) /\ printed_if (starts_with_line_end m \/ ends_with_line_end m) (p ++ q) x /\ blank bar /\ numbered bar (fst (sh_start sh)) num /\
    print_error inp e = Some (frame bar (sh_start sh) num x more u (sh_message sh)) /\
    (~ In 10 m -> more = [] /\ (exists q', q = m ++ q') /\
       (~ In 13 p -> (exists x', x = p ++ x') /\ exists ind mk, u = ind ++ mk /\ below p ind /\ mark (List.length m) mk)) /\
    (forall m1 m2 l c, m = m1 ++ 10 :: m2 -> m2 <> [] -> ~ In 10 m2 -> sh_end sh = Some (l, c) -> exists q2 r2 num2 cl g : str,
       b = q2 ++ r2 /\ whole_line (m2 ++ q2) r2 /\ numbered bar l num2 /\ ((starts_with_line_end m \/ ends_with_line_end m) /\ cl = m2 ++ q2 \/ ~ (starts_with_line_end m \/ ends_with_line_end m) /\ visible (m2 ++ q2) cl) /\
       dots bar (fst (sh_start sh)) l g /\ more = g ++ num2 ++ s " | " ++ cl ++ [10]).
Proof. exact printed_part. Qed.
Print Assumptions C82_marked_part.

Definition nl1 : str := [10].
Definition print_of (inp : str) : option str := match parse_dbml inp with Some (Err e) => print_error inp e | _ => None end.
(** A tab before, a line feed of two characters. *)
Definition tabbed : str := s "Project p {}" ++ [13; 10] ++ s "Table t { a int }" ++ [13; 10] ++ [9] ++ s "Table t { a int }".
Example C82_one_line : print_of tabbed = Some (
  s " --> 3:8" ++ nl1 ++
  s "  |" ++ nl1 ++
  s "3 | " ++ [9] ++ s "Table t { a int }" ++ nl1 ++
  s "  | " ++ [9] ++ s "      ^^" ++ nl1 ++
  s "  |" ++ nl1 ++
  s "  = Duplicate table name").
Proof. vm_compute. reflexivity. Qed.
Example C82_one_line_meets : exists sh a m b, show_error tabbed (ErSem DuplicateTableName (40, 42)) = Some sh /\ parse_dbml tabbed = Some (Err (ErSem DuplicateTableName (40, 42))) /\
  tabbed = a ++ m ++ b /\ sh_from sh = blen a /\ sh_to sh = Some (blen (a ++ m)) /\ m = s "t " /\ ~ In 10 m.
Proof.
  eexists. exists (s "Project p {}" ++ [13; 10] ++ s "Table t { a int }" ++ [13; 10] ++ [9] ++ s "Table "), (s "t "), (s "{ a int }").
  repeat split; try (vm_compute; reflexivity). intros [H|[H|[]]]; discriminate H.
Qed.
Example C82_grammar : print_of (s "Table t { a }") = Some (
  s " --> 1:13" ++ nl1 ++
  s "  |" ++ nl1 ++
  s "1 | Table t { a }" ++ nl1 ++
  s "  |             ^---" ++ nl1 ++
  s "  |" ++ nl1 ++
  s "  = expected col_type").
Proof. vm_compute. reflexivity. Qed.
Example C82_dots : print_of (s "Table t { a int }" ++ nl1 ++ s "Table u { a int }" ++ nl1 ++ s "Table v { a int }") = Some (
  s " --> 1:1" ++ nl1 ++
  s "  |" ++ nl1 ++
  s "1 | Table t { a int }" ++ nl1 ++
  s "  | ..." ++ nl1 ++
  s "3 | Table v { a int }" ++ nl1 ++
  s "  | ^---------------^" ++ nl1 ++
  s "  |" ++ nl1 ++
  s "  = Project setting not found").
Proof. vm_compute. reflexivity. Qed.
(** What the theorem does not promise is not so.  A part that ends with a line end (here the second column
    with the line end after it, which its span includes): the line after it is printed with the
    number of the line before. *)
Example C82_odd : print_of (s "Project p {}" ++ nl1 ++ s "Table t {" ++ nl1 ++ s "a int" ++ nl1 ++ s "a int" ++ nl1 ++ s "b int }") = Some (
  s " --> 4:1" ++ nl1 ++
  s "  |" ++ nl1 ++
  s "4 | a int" ++ [9226] ++ nl1 ++
  s "4 | b int }" ++ nl1 ++
  s "  | ^----^" ++ nl1 ++
  s "  |" ++ nl1 ++
  s "  = Duplicate column name").
Proof. vm_compute. reflexivity. Qed.

(** The two cases that name nothing do occur. *)
Example C82_nothing : parse_dbml [] = Some (Err (ErSem ProjectSettingNotFound (0, 0))) /\
  parse_dbml (s "Project p {} Table a.t { x int [pk] } Ref: a.t.x - u.x") = Some (Err (ErSem SchemaNotFound (0, 0))).
Proof. split; vm_compute; reflexivity. Qed.
