(** * PropsShown: what a caller is told when a text is not DBML, and where errors are.

    Nothing but statements, examples and assumption audits.  Which rules are tried where is
    in [TrackSpec], lines and columns in [ShownSpec], texts that are DBML in [Syntax]. *)

From Verif Require Import Samples TextSamples Track TrackSpec TrackFacts OptimOk Shown ShownSpec ShownOk MessageSpec.
From Verif Require Import Err Api AstSpec.
From Verif Require Import Syntax.
From Coq Require Import Sorted.

(** ** C62 *)
(** There is a report exactly when parsing fails for the grammar. *)
Theorem C62_reported : forall inp, parse_dbml inp = Some (Err ErGrammar) <-> exists rep, grammar_error inp = Some rep.
Proof. exact reported. Qed.
Print Assumptions C62_reported.
(** It points between two characters of the text. *)
Theorem C62_located : forall inp rep, grammar_error inp = Some rep -> exists a b, inp = a ++ b /\ rep_pos rep = blen a.
Proof. exact report_located. Qed.
Print Assumptions C62_located.
(** It says what is expected there, at least one thing, each once, in the grammar's order;
    and never that something is unexpected. *)
Theorem C62_list : forall inp rep, grammar_error inp = Some rep ->
  rep_positives rep <> [] /\ StronglySorted (fun a b => rule_index a < rule_index b) (rep_positives rep) /\ rep_negatives rep = [].
Proof. exact (fun inp rep H => let K := report_ok inp rep H in conj (rt_some _ _ K) (conj (rt_sorted _ _ K) (rt_neg _ _ K))). Qed.
Print Assumptions C62_list.
(** Each thing listed was looked for at that place, and is not there. *)
Theorem C62_listed_is_missing : forall inp rep r, grammar_error inp = Some rep -> In r (rep_positives rep) ->
  exists c, calls oschema NonAtomic LkNone 0 inp c /\ missed c /\ c_rule c = r /\ c_pos c = rep_pos rep.
Proof. exact (fun inp rep r H => rt_listed _ _ (report_ok inp rep H) r). Qed.
Print Assumptions C62_listed_is_missing.
(** No rule that was looked for further on is missing. *)
Theorem C62_furthest : forall inp rep c, grammar_error inp = Some rep -> calls oschema NonAtomic LkNone 0 inp c -> missed c -> c_pos c <= rep_pos rep.
Proof. exact (fun inp rep c H => rt_far _ _ (report_ok inp rep H) c). Qed.
Print Assumptions C62_furthest.
(** All that is missing there is accounted for: it is listed, or part of something listed, or
    something listed is part of it. *)
Theorem C62_nothing_left_out : forall inp rep c, grammar_error inp = Some rep -> calls oschema NonAtomic LkNone 0 inp c -> missed c -> c_pos c = rep_pos rep ->
  exists d, calls oschema NonAtomic LkNone 0 inp d /\ missed d /\ c_pos d = rep_pos rep /\ In (c_rule d) (rep_positives rep) /\ (during c d \/ during d c).
Proof. exact (fun inp rep c H => rt_all _ _ (report_ok inp rep H) c). Qed.
Print Assumptions C62_nothing_left_out.
(** Below a text that is DBML, the error is not before what was added (comments and blanks
    at its beginning aside), unless a comment joins both or what is added goes on with the
    last declaration: with a quote, a dot or a bracket. *)
Theorem C62_error_in_the_rest : forall t1 t2 a rep, dbml_text t1 a ->
  comments_closed t1 \/ (forall x y, t2 <> x ++ s "*/" ++ y) ->
  (forall c x, lay t2 (c :: x) -> c <> 39 /\ c <> 46 /\ c <> 91) ->
  grammar_error (t1 ++ 10 :: t2) = Some rep -> exists g r, t2 = g ++ r /\ lay t2 r /\ blen (t1 ++ 10 :: g) <= rep_pos rep.
Proof. exact error_in_the_rest. Qed.
Print Assumptions C62_error_in_the_rest.
(** The message lists the rules, and errors with the same message are of the same kind. *)
Theorem C62_message : forall inp inp' e e' sh sh', parse_dbml inp = Some (Err e) -> parse_dbml inp' = Some (Err e') ->
  show_error inp e = Some sh -> show_error inp' e' = Some sh' -> sh_message sh = sh_message sh' ->
  match e, e' with
  | ErSem a _, ErSem b _ => same_kind a b
  | ErMsg a _, ErMsg b _ => a = b
  | ErGrammar, ErGrammar => exists rep rep', grammar_error inp = Some rep /\ grammar_error inp' = Some rep' /\ rep_positives rep = rep_positives rep'
  | _, _ => False
  end.
Proof. exact shown_kind. Qed.
Print Assumptions C62_message.

Example C62_column : grammar_error (s "Table t { a }") = Some (mkReport 12 [R_col_type] []).
Proof. vm_compute. reflexivity. Qed.
Example C62_top : grammar_error (s "Table t { a int } x") = Some (mkReport 18 [R_EOI; R_ref_decl; R_note_decl; R_enum_decl; R_table_decl; R_table_group_decl; R_project_decl] []).
Proof. vm_compute. reflexivity. Qed.
Example C62_meets : exists a rep, dbml_text (s "Table t { a int }") a /\ comments_closed (s "Table t { a int }") /\
  (forall c x, lay (s " x") (c :: x) -> c <> 39 /\ c <> 46 /\ c <> 91) /\ grammar_error (s "Table t { a int }" ++ 10 :: s " x") = Some rep /\ rep_pos rep = 19.
Proof.
  exists (says (s "Table t { a int }")). eexists. split; [apply says_text; [vm_compute; discriminate|repeat constructor]|]. split; [|split; [|split; [vm_compute; reflexivity|reflexivity]]].
  - apply SynGrow.closed_ok; vm_compute; reflexivity.
  - intros c x H. apply SynEval.lay_fin in H. vm_compute in H. injection H as <- _. repeat split; discriminate.
Qed.
Example C62_text : option_map sh_message (show_error (s "Table t { a int } x") ErGrammar)
  = Some (s "expected EOI, ref_decl, note_decl, enum_decl, table_decl, table_group_decl, or project_decl").
Proof. vm_compute. reflexivity. Qed.
(** Not everything is reported where a reader would: what is missing here is the bracket. *)
Example C62_odd : grammar_error (s "Table t { a int [pk") = Some (mkReport 17 [R_ref_inline] []).
Proof. vm_compute. reflexivity. Qed.

(** ** C63 *)
(** Every error has a place, and its line and column are those of that place. *)
Theorem C63_start : forall inp e, parse_dbml inp = Some (Err e) -> exists sh, show_error inp e = Some sh /\
  exists a b, inp = a ++ b /\ sh_from sh = blen a /\ located_at a (sh_start sh).
Proof. exact (fun inp e H => let (sh, S) := error_shown inp e H in ex_intro _ sh (conj S (error_start inp e sh H S))). Qed.
Print Assumptions C63_start.
(** The same for the end of the part an error marks, and the end is not before the start. *)
Theorem C63_end : forall inp e sh to, parse_dbml inp = Some (Err e) -> show_error inp e = Some sh -> sh_to sh = Some to ->
  exists a b p, inp = a ++ b /\ to = blen a /\ sh_end sh = Some p /\ ends_at a p /\ sh_from sh <= to /\ (sh_from sh < to -> not_after (sh_start sh) p).
Proof. exact error_end. Qed.
Print Assumptions C63_end.
(** Line and column tell the place. *)
Theorem C63_unambiguous : forall a b a' b' p, a ++ b = a' ++ b' -> located_at a p -> located_at a' p -> a = a'.
Proof. exact located_unique. Qed.
Print Assumptions C63_unambiguous.

Definition two_lines : str := s "Project p {}" ++ [13; 10] ++ s "Table t { a x(1) }" ++ [10] ++ s "Table t { a int }".
Example C63_semantic : match parse_dbml two_lines with
  | Some (Err e) => match show_error two_lines e with
                    | Some sh => sh_message sh = s "Duplicate table name" /\ sh_start sh = (3, 7) /\ sh_end sh = Some (3, 9)
                    | None => False end
  | _ => False end.
Proof. vm_compute. repeat split; reflexivity. Qed.
Example C63_line_end : match parse_dbml (s "Table t { a int }" ++ [10]) with
  | Some (Err e) => match show_error (s "Table t { a int }" ++ [10]) e with
                    | Some sh => sh_start sh = (1, 1) /\ sh_end sh = Some (1, 19)
                    | None => False end
  | _ => False end.
Proof. vm_compute. repeat split; reflexivity. Qed.

(** ** C64 *)
(** The rewriting pest's optimizer does on the grammar changes no outcome. *)
Theorem C64_optimizer : forall a off inp, eval skip schema a off inp = eval skip oschema a off inp.
Proof. exact optimizer_harmless. Qed.
Print Assumptions C64_optimizer.
Example C64_rewrites : schema <> oschema.
Proof. vm_compute. discriminate. Qed.
