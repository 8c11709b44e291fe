(** * PropsChars: characters DBML gives no meaning to.

    [special c] ([Chars]): white space, letters, digits, [_] and the marks of the syntax.
    [other_chars t1 t2]: the texts differ only in characters that are not special, position
    by position.  [schema_chars same_char a b]: so do the names and values of [a] and [b],
    which are the same otherwise.  [respells f]: [f] leaves special characters alone and
    makes none; [respelled_schema f a]: [a] with [f] applied to all its names and values.
    [sp_schema f x] ([CharsAst]): the AST [x] with [f] applied to every text in it (names, raw
    spellings, values, notes, the input) and every span and flag as it was.
    [answer_alike f r r']: so with schemas; errors are the same at the same place, what they
    quote respelled; or both panic. *)

From Verif Require Import Samples Answer CharsOk CharsMain CharsValid CharsLoc CharsTrack CharsAnswer Shown Analyzer TextSamples.
From Verif Require Import Syntax Chars CharsAst.

(** ** C79 *)
(** What is DBML does not depend on such characters, nor does what it says, but for themselves. *)
Theorem C79_same_outcome : forall t1 t2, other_chars t1 t2 ->
  match parse_dbml_unchecked t1, parse_dbml_unchecked t2 with
  | Some (Ok x), Some (Ok y) => schema_chars same_char (meaning x) (meaning y)
  | Some (Err ErGrammar), Some (Err ErGrammar) => True
  | Some (Err (ErMsg _ _)), Some (Err (ErMsg _ _)) => True
  | _, _ => False
  end.
Proof. exact other_outcome. Qed.
Print Assumptions C79_same_outcome.
Theorem C79_says : forall f t a, respells f -> dbml_text t a -> dbml_text (map f t) (respelled_schema f a).
Proof. intros f t a H. exact (map_text f H t a). Qed.
Print Assumptions C79_says.
Theorem C79_read : forall f t x, respells f -> parse_dbml_unchecked t = Some (Ok x) ->
  exists y, parse_dbml_unchecked (map f t) = Some (Ok y) /\ meaning y = respelled_schema f (meaning x).
Proof. intros f t x H. exact (map_read f H t x). Qed.
Print Assumptions C79_read.
(** Checking only compares such characters and counts their bytes. *)
Theorem C79_accepted : forall f t, respells f -> (forall c d, f c = f d -> c = d) -> (forall c, ulen (f c) = ulen c) ->
  is_accepted t -> is_accepted (map f t).
Proof. intros f t H1 H2 H3. exact (map_accepted f H1 H2 H3 t). Qed.
Print Assumptions C79_accepted.
Theorem C79_accepted_iff : forall f f' t, (forall c, f' (f c) = c /\ f (f' c) = c) -> respells f -> (forall c, ulen (f c) = ulen c) ->
  (is_accepted t <-> is_accepted (map f t)).
Proof. exact map_accepted_iff. Qed.
Print Assumptions C79_accepted_iff.

(** The whole answer: the AST is the same node for node and span for span, its texts respelled. *)
Theorem C79_ast : forall f t x, respells f -> (forall c, ulen (f c) = ulen c) ->
  parse_dbml_unchecked t = Some (Ok x) -> parse_dbml_unchecked (map f t) = Some (Ok (sp_schema f x)).
Proof. exact same_ast. Qed.
Print Assumptions C79_ast.
Theorem C79_checked_ast : forall f t x, respells f -> (forall c d, f c = f d -> c = d) -> (forall c, ulen (f c) = ulen c) ->
  parse_dbml t = Some (Ok x) -> parse_dbml (map f t) = Some (Ok (sp_schema f x)).
Proof. intros f t x H1 H2 H3. exact (same_checked f H1 H3 H2 t x). Qed.
Print Assumptions C79_checked_ast.
Theorem C79_answer : forall f t, respells f -> (forall c, ulen (f c) = ulen c) ->
  answer_alike f (parse_dbml_unchecked t) (parse_dbml_unchecked (map f t)).
Proof. intros f t H1 H2. exact (unchecked_m f H1 H2 t). Qed.
Print Assumptions C79_answer.
Theorem C79_checked_answer : forall f t, respells f -> (forall c, ulen (f c) = ulen c) -> (forall c d, f c = f d -> c = d) ->
  answer_alike f (parse_dbml t) (parse_dbml (map f t)).
Proof. intros f t H1 H2 H3. exact (checked_m f H1 H2 H3 t). Qed.
Print Assumptions C79_checked_answer.
(** A grammar error is reported at the same place with the same expectations; every error is
    shown at the same lines and columns. *)
Theorem C79_grammar_error : forall f t, respells f -> (forall c, ulen (f c) = ulen c) -> grammar_error (map f t) = grammar_error t.
Proof. intros f t H1 H2. exact (same_report f H1 H2 t). Qed.
Print Assumptions C79_grammar_error.
Theorem C79_shown : forall f t e sh, respells f -> (forall c, ulen (f c) = ulen c) -> (forall c d, f c = f d -> c = d) ->
  parse_dbml t = Some (Err e) -> show_error t e = Some sh ->
  exists e' sh', parse_dbml (map f t) = Some (Err e') /\ show_error (map f t) e' = Some sh' /\
    sh_from sh' = sh_from sh /\ sh_to sh' = sh_to sh /\ sh_start sh' = sh_start sh /\ sh_end sh' = sh_end sh.
Proof. intros f t e sh H1 H2 H3. exact (shown_m f H1 H2 H3 t e sh). Qed.
Print Assumptions C79_shown.
(** So with the analyzer on any AST, and with get_table_refs. *)
Theorem C79_analyze : forall f x, respells f -> (forall c, ulen (f c) = ulen c) -> (forall c d, f c = f d -> c = d) ->
  analyze (sp_schema f x) = sp_outcome f (sp_analyzed f) (analyze x).
Proof. intros f x H1 H2 H3. exact (analyze_m f H1 H2 H3 x). Qed.
Print Assumptions C79_analyze.
Theorem C79_table_refs : forall f tid a, (forall c d, f c = f d -> c = d) ->
  get_table_refs (sp_table_ident f tid) (sp_analyzed f a) = sp_table_ref f (get_table_refs tid a).
Proof. intros f tid a H. exact (table_refs_m f H tid a). Qed.
Print Assumptions C79_table_refs.

(** Greek for Cyrillic, in quotes and comments. *)
Definition greek (c : char) : char := if (945 <=? c) && (c <=? 969) then c + 127 else if (1072 <=? c) && (c <=? 1096) then c - 127 else c.
Definition greek_text : str :=
  s "Project p{} // " ++ [945] ++ s "
Table """ ++ [945; 946] ++ s """ { """ ++ [947] ++ s """ int [pk] c varchar(4) [default: '" ++ [945; 945] ++ s "'] }
Table u { k int [ref: > """ ++ [945; 946] ++ s """.""" ++ [947] ++ s """] }".
Lemma special_small c : special c -> c < 128.
Proof.
  intros [H|[H|H]]; [unfold is_ws in H; lia|unfold word_char, letter, digit in H; lia|]. assert (E : Forall (fun c => c < 128) marks) by (vm_compute; repeat constructor).
  rewrite Forall_forall in E. exact (E _ H).
Qed.
Lemma greek_ok : respells greek /\ (forall c, greek (greek c) = c /\ greek (greek c) = c) /\ (forall c, ulen (greek c) = ulen c).
Proof.
  unfold greek. split; [|split].
  - intros c. destruct ((945 <=? c) && (c <=? 969)) eqn:E1; [apply andb_true_iff in E1; rewrite !N.leb_le in E1; right; split; intros K; apply special_small in K; lia|].
    destruct ((1072 <=? c) && (c <=? 1096)) eqn:E2; [apply andb_true_iff in E2; rewrite !N.leb_le in E2; right; split; intros K; apply special_small in K; lia|left; reflexivity].
  - assert (K : forall c, let d := if (945 <=? c) && (c <=? 969) then c + 127 else if (1072 <=? c) && (c <=? 1096) then c - 127 else c in
      (if (945 <=? d) && (d <=? 969) then d + 127 else if (1072 <=? d) && (d <=? 1096) then d - 127 else d) = c).
    { intros c d. remember d as e eqn:Hd. unfold d in Hd. clear d.
      repeat (match type of Hd with context[?a <=? ?b] => destruct (N.leb_spec a b) end; cbn [andb] in Hd);
      repeat (match goal with |- context[?a <=? ?b] => destruct (N.leb_spec a b) end; cbn [andb]); lia. }
    intros c. split; apply K.
  - intros c. unfold ulen.
    repeat (match goal with |- context[(?a <=? c)] => destruct (N.leb_spec a c) | |- context[(c <=? ?a)] => destruct (N.leb_spec c a) end; cbn [andb]); 
    repeat (match goal with |- context[(?a <? ?b)] => destruct (N.ltb_spec a b) | |- context[(?a <=? ?b)] => destruct (N.leb_spec a b) end; cbn [andb]); try lia.
Qed.
Example C79_meets : is_accepted greek_text /\ map greek greek_text <> greek_text /\ other_chars greek_text (map greek greek_text).
Proof. split; [apply accepts; vm_compute; discriminate|]. split; [vm_compute; discriminate|]. apply map_other. exact (proj1 greek_ok). Qed.
(** A backslash escapes nothing: it is a character like any other. *)
Example C79_backslash : ~ special 92 /\ parse_dbml_unchecked (s "Note: 'a\'b'") = Some (Err ErGrammar).
Proof.
  split; [|vm_compute; reflexivity]. intros [H|[H|H]]; [unfold is_ws in H; lia|unfold word_char, letter, digit in H; lia|]. vm_compute in H. intuition discriminate.
Qed.
(** Outside quotes and comments there are none: a non-breaking space or a typographic quote is an error. *)
Example C79_outside : parse_dbml_unchecked (s "Table" ++ [160] ++ s "t { a int }") = Some (Err ErGrammar) /\
  parse_dbml_unchecked (s "Note: " ++ [8216] ++ s "a" ++ [8217]) = Some (Err ErGrammar) /\ ~ special 160 /\ ~ special 8216.
Proof. split; [vm_compute; reflexivity|]. split; [vm_compute; reflexivity|]. split; intros K; apply special_small in K; lia. Qed.
(** The bytes count: a two-byte character for a one-byte one changes the verdict. *)
Example C79_bytes : is_accepted (s "Project p{} Table t{a char(1) [default: '!']}") /\
  ~ is_accepted (s "Project p{} Table t{a char(1) [default: '" ++ [233] ++ s "']}") /\ same_char 33 233.
Proof.
  split; [apply accepts; vm_compute; discriminate|]. split; [intros [x H]; vm_compute in H; discriminate|]. right. split; intros K; [|apply special_small in K; lia].
  destruct K as [H|[H|H]]; [unfold is_ws in H; lia|unfold word_char, letter, digit in H; lia|]. vm_compute in H. intuition discriminate.
Qed.

(** The names of the example do change. *)
Example C79_ast_meets : exists x, parse_dbml greek_text = Some (Ok x) /\ parse_dbml (map greek greek_text) = Some (Ok (sp_schema greek x)) /\ sp_schema greek x <> x.
Proof.
  assert (E : is_accepted greek_text) by (apply accepts; vm_compute; discriminate). destruct E as [x Hx]. exists x. split; [exact Hx|].
  destruct greek_ok as (H1 & H2 & H3). split.
  - apply same_checked; [exact H1|exact H3| |exact Hx]. intros c d E. rewrite <- (proj1 (H2 c)), <- (proj1 (H2 d)), E. reflexivity.
  - intros E. assert (K : map greek (sb_input x) = sb_input x) by (rewrite <- E at 2; reflexivity). pose proof (ParseFacts.checked_same _ _ Hx) as Hx'.
    clear Hx E. vm_compute in Hx'. injection Hx' as <-. vm_compute in K. discriminate.
Qed.

(** Errors that quote: the index type, the default and the type. *)
Example C79_errors_meet :
  parse_dbml (s "Project p{} Table t{a int Indexes{a [type: '" ++ [945] ++ s "']}}") = Some (Err (ErMsg (not_supported [945]) (37, 47))) /\
  parse_dbml (map greek (s "Project p{} Table t{a int Indexes{a [type: '" ++ [945] ++ s "']}}")) = Some (Err (ErMsg (not_supported [1072]) (37, 47))) /\
  parse_dbml (map greek (s "Project p{} Table t{a char(1) [default: '" ++ [945] ++ s "']}")) = Some (Err (ErSem (InvalidDefaultValue [1072] (s "char(1)")) (40, 44))).
Proof. vm_compute. auto. Qed.
