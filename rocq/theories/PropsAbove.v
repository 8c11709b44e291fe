(** * PropsAbove: lines added at the top move what is reported down.

    Nothing but statements, examples and assumption audits.  What moving down means is in
    [AboveSpec], what layout is ([gap]) in [Layout]. *)

From Verif Require Import TextSamples AboveOk TrackShift.
From Verif Require Import Err Api AstSpec.
From Verif Require Import Track Shown ShownSpec Draw DrawSpec Layout Syntax AboveSpec.

(** ** C83 *)
(** With layout put before it, a text that is not DBML is reported as not DBML at the same
    place, and for the same missing rules unless that place is the very beginning. *)
Theorem C83_grammar_error : forall g t rep, gap g -> grammar_error t = Some rep ->
  exists rep', grammar_error (g ++ t) = Some rep' /\ rep_pos rep' = rep_pos rep + blen g /\
    (0 < rep_pos rep -> rep_positives rep' = rep_positives rep /\ rep_negatives rep' = rep_negatives rep).
Proof. exact report_after. Qed.
Print Assumptions C83_grammar_error.

(** With whole lines of layout above it, every error of a text is shown as many lines further
    down, in the same columns and with the same message: unless it is about the text as a
    whole, has no place at all, or is a grammar error at the very beginning. *)
Theorem C83_moves_down : forall g t e sh, gap g -> whole_lines g -> parse_dbml t = Some (Err e) -> show_error t e = Some sh -> ~ of_whole_text e -> sh_to sh <> Some 0 ->
  exists e' sh', parse_dbml (g ++ t) = Some (Err e') /\ show_error (g ++ t) e' = Some sh' /\ moved_below g sh sh' /\
    (sh_message sh' = sh_message sh \/ (e = ErGrammar /\ sh_from sh = 0)).
Proof.
  intros g t e sh Hg Hw E S Ht Hz. destruct (moves_below g t e sh Hg Hw E S Ht Hz) as (sh' & S' & M & Hm).
  exists (Respan.error_after g t e), sh'. split; [exact (parse_below g t e Hg E)|]. auto.
Qed.
Print Assumptions C83_moves_down.

(** Printed, it shows the same source lines with the same marks below them: only the numbers
    in the margin (and the message, in that one case) are other. *)
Theorem C83_printed : forall g t e sh x, gap g -> whole_lines g -> parse_dbml t = Some (Err e) -> show_error t e = Some sh -> print_error t e = Some x ->
  ~ of_whole_text e -> sh_to sh <> Some 0 ->
  exists e' sh' excerpt last end_line marks, parse_dbml (g ++ t) = Some (Err e') /\ show_error (g ++ t) e' = Some sh' /\ moved_below g sh sh' /\
    x = picture (sh_start sh) excerpt last end_line marks (sh_message sh) /\
    print_error (g ++ t) e' = Some (picture (sh_start sh') excerpt (last_down (lines g) last) (end_line + lines g) marks (sh_message sh')).
Proof.
  intros g t e sh x Hg Hw E S P Ht Hz. destruct (print_below g t e sh x Hg Hw E S P Ht Hz) as (sh' & ex & last & el & marks & H).
  exists (Respan.error_after g t e), sh', ex, last, el, marks. split; [exact (parse_below g t e Hg E)|exact H].
Qed.
Print Assumptions C83_printed.

(** The same for declarations: a misplaced or unreadable value in a text is reported, and printed,
    as many lines further down as a text without such values put above it has, and one for the
    line end between.  (As in C71, a comment opened in the upper text must not be ended in the
    lower one.) *)
Theorem C83_declarations_above : forall t1 t2 x e sh p, comments_closed t1 \/ (forall a b, t2 <> a ++ s "*/" ++ b) ->
  parse_dbml_unchecked t1 = Some (Ok x) -> parse_dbml_unchecked t2 = Some (Err e) -> e <> ErGrammar -> show_error t2 e = Some sh -> print_error t2 e = Some p ->
  exists e' sh' excerpt last end_line marks, parse_dbml_unchecked (t1 ++ 10 :: t2) = Some (Err e') /\ parse_dbml (t1 ++ 10 :: t2) = Some (Err e') /\
    show_error (t1 ++ 10 :: t2) e' = Some sh' /\ moved_below (t1 ++ [10]) sh sh' /\ sh_message sh' = sh_message sh /\
    p = picture (sh_start sh) excerpt last end_line marks (sh_message sh) /\
    print_error (t1 ++ 10 :: t2) e' = Some (picture (sh_start sh') excerpt (last_down (lines t1 + 1) last) (end_line + (lines t1 + 1)) marks (sh_message sh)).
Proof. exact misfit_below. Qed.
Print Assumptions C83_declarations_above.

(** And what is put below leaves it where it is. *)
Theorem C83_declarations_below : forall t1 t2 r2 e sh, comments_closed t1 \/ (forall a b, t2 <> a ++ s "*/" ++ b) ->
  parse_dbml_unchecked t1 = Some (Err e) -> e <> ErGrammar -> parse_dbml_unchecked t2 = Some r2 -> r2 <> Err ErGrammar -> show_error t1 e = Some sh ->
  parse_dbml_unchecked (t1 ++ 10 :: t2) = Some (Err e) /\ parse_dbml (t1 ++ 10 :: t2) = Some (Err e) /\ show_error (t1 ++ 10 :: t2) e = Some sh.
Proof. exact misfit_above. Qed.
Print Assumptions C83_declarations_below.

(** An error about the text as a whole still starts where the text starts; its end moves. *)
Theorem C83_whole_text : forall g t e sh, gap g -> whole_lines g -> t <> [] -> parse_dbml t = Some (Err e) -> show_error t e = Some sh -> of_whole_text e ->
  exists e' sh', parse_dbml (g ++ t) = Some (Err e') /\ show_error (g ++ t) e' = Some sh' /\ sh_message sh' = sh_message sh /\
    sh_from sh' = sh_from sh /\ sh_start sh' = sh_start sh /\ sh_to sh' = option_map (fun b => b + blen g) (sh_to sh) /\ sh_end sh' = option_map (down (lines g)) (sh_end sh).
Proof.
  intros g t e sh Hg Hw Hn E S Ht. destruct (whole_below g t e sh Hg Hw Hn E S Ht) as (sh' & S' & H).
  exists (Respan.error_after g t e), sh'. split; [exact (parse_below g t e Hg E)|]. auto.
Qed.
Print Assumptions C83_whole_text.

(** An error without a place is shown as before. *)
Theorem C83_no_place : forall g t e sh, gap g -> parse_dbml t = Some (Err e) -> show_error t e = Some sh -> ~ of_whole_text e -> sh_to sh = Some 0 ->
  parse_dbml (g ++ t) = Some (Err e) /\ show_error (g ++ t) e = Some sh.
Proof.
  intros g t e sh Hg E S Ht Hz. destruct (nowhere_below g t e sh Hg E S Ht Hz) as [A B].
  split; [|exact B]. rewrite <- A. exact (parse_below g t e Hg E).
Qed.
Print Assumptions C83_no_place.

(** Two comment lines above. *)
Definition above : str := s "// one" ++ 10 :: s "/* two */ " ++ [10].
Example C83_above : gap above /\ whole_lines above /\ lines above = 2.
Proof.
  split; [|split; [right; exists (s "// one" ++ 10 :: s "/* two */ "); reflexivity|reflexivity]].
  change (gap (s "//" ++ s " one" ++ 10 :: s "/*" ++ s " two " ++ s "*/" ++ [32; 10])).
  apply gap_line; [repeat constructor; intros [H|H]; discriminate|left; reflexivity|].
  apply gap_block; [|apply gap_ws; [left; reflexivity|apply gap_ws; [right; right; left; reflexivity|constructor]]].
  intros a b. destruct a as [|a0 [|a1 [|a2 [|a3 [|a4 [|a5 a]]]]]]; try discriminate. intros H. cbn in H. injection H as _ _ _ _ _ _ H. destruct a; discriminate.
Qed.
Example C83_meets : let t := s "Table t { a }" in
  option_map sh_start (show_error t ErGrammar) = Some (1, 13) /\ option_map sh_start (show_error (above ++ t) ErGrammar) = Some (3, 13).
Proof. vm_compute. split; reflexivity. Qed.
Example C83_meets_analyzer : let t := s "Project p { }" ++ 10 :: s "Table t { a e }" ++ [10] ++ s "Table t { a int }" in
  option_map (fun r => match r with Err e => option_map (fun x => (sh_start x, sh_end x)) (show_error t e) | _ => None end) (parse_dbml t) = Some (Some ((3, 7), Some (3, 9))) /\
  option_map (fun r => match r with Err e => option_map (fun x => (sh_start x, sh_end x)) (show_error (above ++ t) e) | _ => None end) (parse_dbml (above ++ t)) = Some (Some ((5, 7), Some (5, 9))).
Proof. vm_compute. split; reflexivity. Qed.
Example C83_printed_meets : let t := s "Table t { a }" in
  option_map lines_of (print_error t ErGrammar) = Some (map (fun l => l ++ [10])
    [s " --> 1:13"; s "  |"; s "1 | Table t { a }"; s "  |             ^---"; s "  |"] ++ [s "  = expected col_type"]) /\
  option_map lines_of (print_error (above ++ t) ErGrammar) = Some (map (fun l => l ++ [10])
    [s " --> 3:13"; s "  |"; s "3 | Table t { a }"; s "  |             ^---"; s "  |"] ++ [s "  = expected col_type"]).
Proof. vm_compute. split; reflexivity. Qed.
Definition shown_at (t : str) : option (N * N) :=
  match parse_dbml t with Some (Err e) => option_map sh_start (show_error t e) | _ => None end.
Example C83_declarations_meets : let t1 := s "Enum e { x }" ++ 10 :: s "Ref: a.b > c.d" in let t2 := s "Table t { a int [default: 99999999999999999999] }" in
  comments_closed t1 /\ (exists x, parse_dbml_unchecked t1 = Some (Ok x)) /\ (exists m sp, parse_dbml_unchecked t2 = Some (Err (ErMsg m sp))) /\
  shown_at t2 = Some (1, 27) /\ shown_at (t1 ++ 10 :: t2) = Some (3, 27) /\ shown_at (t2 ++ 10 :: t1) = Some (1, 27).
Proof.
  cbv zeta. split; [apply SynGrow.closed_ok; vm_compute; reflexivity|]. split; [eexists; vm_compute; reflexivity|]. split; [do 2 eexists; vm_compute; reflexivity|].
  vm_compute. repeat split; reflexivity.
Qed.
(** At the very beginning the rules are summed up; below a line they are named one by one. *)
Example C83_beginning :
  grammar_error (s "x") = Some (mkReport 0 [R_schema] []) /\
  grammar_error (10 :: s "x") = Some (mkReport 1 [R_EOI; R_ref_decl; R_note_decl; R_enum_decl; R_table_decl; R_table_group_decl; R_project_decl] []).
Proof. vm_compute. split; reflexivity. Qed.
Example C83_no_place_meets : let t := s "Project p {} Table a.t { x int [pk] } Ref: a.t.x - u.x" in
  parse_dbml t = Some (Err (ErSem SchemaNotFound (0, 0))) /\ parse_dbml (above ++ t) = Some (Err (ErSem SchemaNotFound (0, 0))).
Proof. vm_compute. split; reflexivity. Qed.
Example C83_whole_meets : let t := s "Table t { a int }" in
  parse_dbml t = Some (Err (ErSem ProjectSettingNotFound (0, 17))) /\ parse_dbml (above ++ t) = Some (Err (ErSem ProjectSettingNotFound (0, 35))).
Proof. vm_compute. split; reflexivity. Qed.
