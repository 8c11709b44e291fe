(** * PropsJoin: texts join, and so do their ASTs. *)

From Verif Require Import Samples RespanJoinOk.
From Verif Require Import Api Parser Layout Lex TextSpec.
From Verif Require Import Syntax.
From Verif Require Import Respan.

(** A DBML text after another, on a new line: the answer is made of the two answers.  No
    comment may be opened in the first without being ended there (it can be, behind a quote)
    that the second ends; [r] is what is left of the second after its leading
    layout. *)
Theorem C71_join : forall t1 t2 r r1 r2,
  comments_closed t1 \/ (forall a b, t2 <> a ++ s "*/" ++ b) -> lay t2 r ->
  parse_dbml_unchecked t1 = Some r1 -> r1 <> Err ErGrammar -> parse_dbml_unchecked t2 = Some r2 -> r2 <> Err ErGrammar ->
  parse_dbml_unchecked (t1 ++ 10 :: t2) = Some (join (blen t1 + 1 + (blen t2 - blen r)) t1 t2 r1 r2).
Proof. exact unchecked_join. Qed.
Print Assumptions C71_join.
(** What is not DBML does not become DBML behind a DBML text, if it starts with a letter (after
    its leading layout). *)
Theorem C71_not : forall t1 t2 r,
  comments_closed t1 \/ (forall a b, t2 <> a ++ s "*/" ++ b) -> lay t2 r ->
  (exists c x, r = c :: x /\ letter c) ->
  parse_dbml_unchecked t1 <> Some (Err ErGrammar) -> parse_dbml_unchecked t2 = Some (Err ErGrammar) ->
  parse_dbml_unchecked (t1 ++ 10 :: t2) = Some (Err ErGrammar).
Proof. exact unchecked_join_not. Qed.
Print Assumptions C71_not.

(** The reference at the end of the first text grows by the layout after it (from 20..29 to
    20..32); what comes behind is moved. *)
Definition one_t : str := s "Project p{}/**/Ref: a.b > c.d".
Definition two_t : str := s "  Table t{a int[default:9]}".
Example C71_meets_ok :
  comments_closed one_t /\ lay two_t (s "Table t{a int[default:9]}") /\
  exists p r p' r' t t', parse_dbml_unchecked one_t = Some (Ok (mkSchema (0, 29) one_t [BProject p; BRef r])) /\ rb_span r = (20, 29) /\
    parse_dbml_unchecked two_t = Some (Ok (mkSchema (0, 27) two_t [BTable t])) /\ tb_span t = (2, 27) /\
    parse_dbml_unchecked (one_t ++ 10 :: two_t) = Some (Ok (mkSchema (0, 57) (one_t ++ 10 :: two_t) [BProject p'; BRef r'; BTable t'])) /\
    rb_span r' = (20, 32) /\ tb_span t' = (32, 57) /\ p' = p.
Proof.
  split; [apply SynGrow.closed_ok; vm_compute; reflexivity|]. split; [apply SynEval.lay_fin; vm_compute; reflexivity|].
  do 6 eexists. repeat split; vm_compute; reflexivity.
Qed.
Example C71_meets_misfit :
  parse_dbml_unchecked (s "Table t{a int[99999999999]}") = Some (Err (ErMsg (s "number too large to fit in target type") (14, 25))) /\
  parse_dbml_unchecked (s "Table t{a int}" ++ 10 :: s "Table t{a int[99999999999]}") = Some (Err (ErMsg (s "number too large to fit in target type") (29, 40))) /\
  parse_dbml_unchecked (s "Table t{a int[99999999999]}" ++ 10 :: s "Table u{a b}") = Some (Err (ErMsg (s "number too large to fit in target type") (14, 25))).
Proof. repeat split; vm_compute; reflexivity. Qed.
Example C71_meets_not : parse_dbml_unchecked (s "Table t") = Some (Err ErGrammar) /\ parse_dbml_unchecked (s "Table u{a b}" ++ 10 :: s "Table t") = Some (Err ErGrammar).
Proof. split; vm_compute; reflexivity. Qed.
(** Why the conditions: a comment opened behind a quote in the first text and ended in the
    second; settings, no text by themselves, that belong to the reference before. *)
Example C71_comment : exists x y z,
  parse_dbml_unchecked (s "Note:'/* x'") = Some (Ok x) /\ List.length (sb_blocks x) = 1%nat /\
  parse_dbml_unchecked (s "Note:'*/ y'") = Some (Ok y) /\ List.length (sb_blocks y) = 1%nat /\
  parse_dbml_unchecked (s "Note:'/* x'" ++ 10 :: s "Note:'*/ y'") = Some (Ok z) /\ List.length (sb_blocks z) = 1%nat.
Proof. do 3 eexists. repeat split; vm_compute; reflexivity. Qed.
Example C71_settings : exists x,
  parse_dbml_unchecked (s "[delete: cascade]") = Some (Err ErGrammar) /\
  parse_dbml_unchecked (s "Ref: a.b > c.d" ++ 10 :: s "[delete: cascade]") = Some (Ok x) /\ List.length (sb_blocks x) = 1%nat.
Proof. eexists. repeat split; vm_compute; reflexivity. Qed.
