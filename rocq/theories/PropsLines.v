(** * PropsLines: line ends and indentation.

    [same_lines t1 t2] ([Lines]): the texts differ only in how line ends are written
    (line feed, carriage return or both) and in the white space that follows a line end:
    blank lines and indentation.  [schema_lines a b]: so do
    the names and values of [a] and [b], which are the same otherwise.  [no_breaks a]:
    no name and no value of [a] spans lines. *)

From Verif Require Import Answer LinesMain TextSamples.
From Verif Require Import SynPrint Syntax Lines.

(** ** C75 *)
Theorem C75_says_the_same : forall t1 t2 a, same_lines t1 t2 -> dbml_text t1 a -> no_breaks a -> dbml_text t2 a.
Proof. exact lines_same. Qed.
Print Assumptions C75_says_the_same.
Theorem C75_same_answer : forall t1 t2 a, same_lines t1 t2 -> dbml_text t1 a -> no_breaks a ->
  same_answer (parse_dbml t1) (parse_dbml t2).
Proof. exact lines_answer. Qed.
Print Assumptions C75_same_answer.
(** With names or values that span lines. *)
Theorem C75_values_that_span_lines : forall t1 t2 x, same_lines t1 t2 -> parse_dbml_unchecked t1 = Some (Ok x) ->
  exists y, parse_dbml_unchecked t2 = Some (Ok y) /\ schema_lines (meaning x) (meaning y).
Proof. exact lines_read. Qed.
Print Assumptions C75_values_that_span_lines.
(** The outcome is the same kind of outcome. *)
Theorem C75_same_outcome : forall t1 t2, same_lines t1 t2 ->
  match parse_dbml_unchecked t1, parse_dbml_unchecked t2 with
  | Some (Ok x), Some (Ok y) => schema_lines (meaning x) (meaning y)
  | Some (Err ErGrammar), Some (Err ErGrammar) => True
  | Some (Err (ErMsg _ _)), Some (Err (ErMsg _ _)) => True
  | _, _ => False
  end.
Proof. exact lines_outcome. Qed.
Print Assumptions C75_same_outcome.
Theorem C75_no_new_errors : forall t1 t2, same_lines t1 t2 ->
  (parse_dbml_unchecked t1 = Some (Err ErGrammar) <-> parse_dbml_unchecked t2 = Some (Err ErGrammar)).
Proof. exact lines_grammar. Qed.
Print Assumptions C75_no_new_errors.
Theorem C75_windows : forall t, same_lines t (crlf t).
Proof. exact crlf_lines. Qed.
Print Assumptions C75_windows.
(** Without blank lines and indentation. *)
Theorem C75_flush_left : forall t, same_lines t (flush_left false t).
Proof. intros t. exact (proj1 (flush_lines t)). Qed.
Print Assumptions C75_flush_left.

Lemma no_breaks_check a :
  forallb (fun b => forallb (forallb (fun c => negb ((c =? 10) || (c =? 13)))) (block_flat b)) a = true -> no_breaks a.
Proof.
  intros H b x Hb Hx c Hc. rewrite forallb_forall in H. specialize (H b Hb). rewrite forallb_forall in H. specialize (H x Hx).
  rewrite forallb_forall in H. specialize (H c Hc). apply negb_true_iff, orb_false_iff in H as [H1 H2]. apply N.eqb_neq in H1, H2. unfold is_nl. tauto.
Qed.
Example C75_meets : dbml_text loose both /\ no_breaks both /\ crlf loose <> loose /\ flush_left false loose <> loose.
Proof. split; [exact loose_text|]. split; [apply no_breaks_check; vm_compute; reflexivity|split; vm_compute; discriminate]. Qed.
Definition two_lines : str := s "Note: 'a
b'".
Definition note_value (o : option (outcome schema_t)) : option str :=
  match o with Some (Ok x) => match meaning x with [ANote (VString v)] => Some v | _ => None end | _ => None end.
Example C75_spanning : note_value (parse_dbml_unchecked two_lines) = Some (s "a" ++ [10] ++ s "b") /\
  note_value (parse_dbml_unchecked (crlf two_lines)) = Some (s "a" ++ [13; 10] ++ s "b").
Proof. vm_compute. split; reflexivity. Qed.
(** An array too long for a number, on the third line. *)
Definition too_long : str := s "Table t {" ++ 10 :: s "  a int" ++ 10 :: s "  b int[99999999999]" ++ 10 :: s "}".
Example C75_meets_outcome : match parse_dbml_unchecked too_long, parse_dbml_unchecked (crlf too_long) with
  | Some (Err (ErMsg _ _)), Some (Err (ErMsg _ _)) => True | _, _ => False end.
Proof. vm_compute. exact Logic.I. Qed.
(** White space before a line end is not free: a keyword needs a blank. *)
Definition keyword_line (w : str) : str := s "Table" ++ w ++ [10] ++ s "t { id int }".
Example C75_before_a_line_end : (match parse_dbml_unchecked (keyword_line [32]) with Some (Ok _) => true | _ => false end) = true /\
  parse_dbml_unchecked (keyword_line []) = Some (Err ErGrammar).
Proof. vm_compute. split; reflexivity. Qed.
