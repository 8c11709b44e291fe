(** * PropsCrlf: a grammar error is the same with other line ends.

    Nothing but statements, examples and assumption audits.  [crlf] ([Lines]) puts a
    carriage return before every line feed, [ends_as] ([LineEnds]) writes them in any way. *)

From Verif Require SameTrack.
From Verif Require Import CrlfTrack EndsTrack.
From Verif Require Import Err Api AstSpec.
From Verif Require Import Track Shown Draw DrawSpec Lines LineEnds.

(** ** C84 *)
(** Take two texts that differ only in line ends, blank lines and the indentation after them
    ([same_lines], as in C75).  Then both are DBML, or both not; and then the error is at the
    same place of both, before [b] and [b'], for the same missing and unexpected rules. *)
Theorem C84_same_lines : forall t t', same_lines t t' ->
  match grammar_error t, grammar_error t' with
  | None, None => True
  | Some p, Some p' => exists a b a' b', t = a ++ b /\ t' = a' ++ b' /\ same_lines a a' /\ same_lines b b' /\
      rep_pos p = blen a /\ rep_pos p' = blen a' /\ rep_positives p' = rep_positives p /\ rep_negatives p' = rep_negatives p
  | _, _ => False
  end.
Proof. exact SameTrack.report_same. Qed.
Print Assumptions C84_same_lines.

(** Write every line feed of a text in another way, [n], and every carriage return in another
    way, [r] (a line end and any blank lines and indentation: [breaks]).  Then both texts are
    DBML, or both not; and then the error is at the same place [a] of the text, for the same
    missing and unexpected rules. *)
Theorem C84_any_line_ends : forall n r t, breaks n -> breaks r ->
  match grammar_error t, grammar_error (ends_as n r t) with
  | None, None => True
  | Some p, Some p' => exists a b, t = a ++ b /\ rep_pos p = blen a /\ rep_pos p' = blen (ends_as n r a) /\
      rep_positives p' = rep_positives p /\ rep_negatives p' = rep_negatives p
  | _, _ => False
  end.
Proof. exact (fun n r t Hn Hr => report_ends n r Hn Hr t). Qed.
Print Assumptions C84_any_line_ends.

(** Shown, it has the same message. *)
Theorem C84_same_message : forall t t' sh, same_lines t t' -> show_error t ErGrammar = Some sh ->
  exists sh' a b a' b', show_error t' ErGrammar = Some sh' /\ sh_message sh' = sh_message sh /\
    t = a ++ b /\ t' = a' ++ b' /\ same_lines a a' /\ same_lines b b' /\ sh_from sh = blen a /\ sh_from sh' = blen a'.
Proof. exact SameTrack.message_same. Qed.
Print Assumptions C84_same_message.

(** In particular with Windows line ends. *)
Theorem C84_grammar_error : forall t,
  match grammar_error t, grammar_error (crlf t) with
  | None, None => True
  | Some r, Some r' => exists a b, t = a ++ b /\ rep_pos r = blen a /\ rep_pos r' = blen (crlf a) /\
      rep_positives r' = rep_positives r /\ rep_negatives r' = rep_negatives r
  | _, _ => False
  end.
Proof. exact report_crlf. Qed.
Print Assumptions C84_grammar_error.

(** Shown, it has the same message, line and column. *)
Theorem C84_shown : forall t sh, ~ In 13 t -> show_error t ErGrammar = Some sh ->
  exists a b, t = a ++ b /\ sh_from sh = blen a /\
    show_error (crlf t) ErGrammar = Some (mkShown (sh_message sh) (blen (crlf a)) None (sh_start sh) None).
Proof. exact show_crlf. Qed.
Print Assumptions C84_shown.

(** Printed, it is the same to the letter, unless it is at a line end. *)
Theorem C84_printed : forall a b, ~ In 13 (a ++ b) -> (exists sh, show_error (a ++ b) ErGrammar = Some sh /\ sh_from sh = blen a) ->
  ~ starts_with_line_end b -> print_error (crlf (a ++ b)) ErGrammar = print_error (a ++ b) ErGrammar.
Proof. exact print_crlf_at. Qed.
Print Assumptions C84_printed.

(** At a line end, which is printed visibly, one more sign is printed: U+240D before U+240A. *)
Theorem C84_printed_at_a_line_end : forall a b, ~ In 13 (a ++ 10 :: b) -> (exists sh, show_error (a ++ 10 :: b) ErGrammar = Some sh /\ sh_from sh = blen a) ->
  exists x y, print_error (a ++ 10 :: b) ErGrammar = Some (x ++ 9226 :: y) /\ print_error (crlf (a ++ 10 :: b)) ErGrammar = Some (x ++ 9229 :: 9226 :: y).
Proof. exact print_crlf_end. Qed.
Print Assumptions C84_printed_at_a_line_end.

(** A column without a type, on the third line; a note that spans lines before it. *)
Definition no_type : str := s "Note: 'a" ++ 10 :: s "b'" ++ 10 :: s "Table t { a }".
Example C84_meets : ~ In 13 no_type /\ crlf no_type <> no_type /\
  option_map (fun x => (sh_message x, sh_from x, sh_start x)) (show_error no_type ErGrammar) = Some (s "expected col_type", 24, (3, 13)) /\
  option_map (fun x => (sh_message x, sh_from x, sh_start x)) (show_error (crlf no_type) ErGrammar) = Some (s "expected col_type", 26, (3, 13)).
Proof. split; [vm_compute; intuition discriminate|]. split; [vm_compute; discriminate|]. vm_compute. split; reflexivity. Qed.
Example C84_meets_printed : exists a b, no_type = a ++ b /\ ~ starts_with_line_end b /\ (exists sh, show_error no_type ErGrammar = Some sh /\ sh_from sh = blen a) /\
  option_map lines_of (print_error (crlf no_type) ErGrammar) = Some (map (fun l => l ++ [10])
    [s " --> 3:13"; s "  |"; s "3 | Table t { a }"; s "  |             ^---"; s "  |"] ++ [s "  = expected col_type"]).
Proof.
  exists (firstn 24 no_type), (s "}"). split; [vm_compute; reflexivity|]. split.
  - intros (c & r & E & [-> | ->]); vm_compute in E; discriminate.
  - split; [eexists; split; vm_compute; reflexivity|vm_compute; reflexivity].
Qed.
(** An error at a line end: no layout may follow the opening parenthesis. *)
Example C84_meets_line_end : let a := s "Table t { a char(" in let b := s "1x) }" in
  (exists sh, show_error (a ++ 10 :: b) ErGrammar = Some sh /\ sh_from sh = blen a).
Proof. eexists. split; vm_compute; reflexivity. Qed.
(** Another indentation for every line, and one blank line. *)
Example C84_meets_same : let t := s "Table t {" ++ 10 :: s "  a" ++ 10 :: s "}" in let t' := s "Table t {" ++ 10 :: 10 :: s "a" ++ [13; 10] ++ s "    }" in
  same_lines t t' /\ grammar_error t = Some (mkReport 14 [R_col_type] []) /\ grammar_error t' = Some (mkReport 18 [R_col_type] []).
Proof.
  cbv zeta. split; [|vm_compute; split; reflexivity].
  assert (K : forall c w, c = 10 \/ c = 13 -> Forall is_ws w -> breaks (c :: w)) by (intros c w H W; exists c, w; repeat split; [exact H|exact W]).
  do 9 apply sl_char.
  change (same_lines ((10 :: s "  ") ++ (97 :: [10] ++ s "}")) ([10; 10] ++ (97 :: (13 :: 10 :: s "    ") ++ s "}"))).
  apply sl_break; [apply K; [auto|]|apply K; [auto|]|]; try (repeat (apply Forall_cons; [unfold is_ws; auto|]); apply Forall_nil).
  apply sl_char. apply sl_break; [apply K; [auto|]|apply K; [auto|]|]; try (repeat (apply Forall_cons; [unfold is_ws; auto|]); apply Forall_nil).
  apply sl_char, sl_nil.
Qed.
(** Double spacing and indentation. *)
Example C84_meets_any : let n := [10; 10] ++ s "    " in let t := s "Table t {" ++ 10 :: s "a" ++ 10 :: s "}" in
  breaks n /\ breaks [10] /\ grammar_error t = Some (mkReport 12 [R_col_type] []) /\ grammar_error (ends_as n [10] t) = Some (mkReport 22 [R_col_type] []).
Proof.
  cbv zeta. split; [exists 10, (10 :: s "    "); split; [reflexivity|]; split; [left; reflexivity|]; repeat (apply Forall_cons; [unfold is_ws; auto|]); apply Forall_nil|].
  split; [exists 10, []; repeat split; [left; reflexivity|constructor]|]. vm_compute. split; reflexivity.
Qed.
