(** * Grammar: src/dbml.pest, rule by rule.  The comment on each definition is
    its line in src/dbml.pest. *)

From Verif Require Export Peg.

(** Concrete-syntax helpers: right-nested [~] and [|]. *)
Declare Scope pest_scope.
Delimit Scope pest_scope with pest.
Local Notation "a ~ b" := (ESeq a b) (at level 45, right associativity) : pest_scope.
Local Notation "a / b" := (EAlt a b) (at level 40, left associativity) : pest_scope.
Local Notation "a ?" := (EOpt a) (at level 10, format "a ?") : pest_scope.
Local Notation "a *" := (ERep a) (at level 10, format "a *") : pest_scope.
Local Open Scope pest_scope.

Definition L (x : string) : pexp := EStr (s x).
Definition CI (x : string) : pexp := EInsens (s x).
Definition N_ (r : rule) (e : pexp) : pexp := ERule r TNormal e.
Definition A_ (r : rule) (e : pexp) : pexp := ERule r TAtomic e.
Definition C_ (r : rule) (e : pexp) : pexp := ERule r TCompound e.

(** pest built-ins: NEWLINE, ASCII_DIGIT, ASCII_ALPHA, ASCII_ALPHANUMERIC,
    ASCII_HEX_DIGIT. *)
Definition NEWLINE : pexp := EStr [10] / EStr [13; 10] / EStr [13].
Definition ASCII_DIGIT : pexp := ERange 48 57.
Definition ASCII_ALPHA : pexp := ERange 97 122 / ERange 65 90.
Definition ASCII_ALPHANUMERIC : pexp := ERange 97 122 / ERange 65 90 / ERange 48 57.
Definition ASCII_HEX_DIGIT : pexp := ERange 48 57 / ERange 97 102 / ERange 65 70.
Definition DQ : pexp := EStr [34].
Definition SQ : pexp := EStr [39].
Definition BQ : pexp := EStr [96].
Definition TQ : pexp := EStr [39; 39; 39].

(** dbml.pest:1 *)
Definition WHITESPACE : pexp := L " " / EStr [9] / NEWLINE.
(** dbml.pest:5-6 *)
Definition single_line_comment : pexp :=
  N_ R_single_line_comment (L "//" ~ (ENot NEWLINE ~ EAny)*).
Definition multi_line_comment : pexp :=
  N_ R_multi_line_comment (L "/*" ~ (ENot (L "*/") ~ EAny)* ~ L "*/").
(** dbml.pest:2 *)
Definition COMMENT : pexp := single_line_comment / multi_line_comment.

(** pest_generator's [hidden::skip] when both WHITESPACE and COMMENT are defined:
    WHITESPACE* ~ (COMMENT ~ WHITESPACE* )*, every part run atomically. *)
Definition skip_exp : pexp := WHITESPACE* ~ (COMMENT ~ WHITESPACE*)*.
Definition skip (inp : str) : pres := eval (fun i => ROk [] i []) skip_exp Atomic 0 inp.

(** Running a rule of the grammar. *)
Definition run (e : pexp) (a : atomicity) (off : N) (inp : str) : pres := eval skip e a off inp.

(** dbml.pest:9-16 literals *)
Definition double_quoted_value : pexp := A_ R_double_quoted_value ((ENot DQ ~ EAny)*).
Definition double_quoted_string : pexp := N_ R_double_quoted_string (DQ ~ double_quoted_value ~ DQ).
Definition single_quoted_value : pexp := A_ R_single_quoted_value ((ENot SQ ~ EAny)*).
Definition single_quoted_string : pexp := N_ R_single_quoted_string (SQ ~ single_quoted_value ~ SQ).
Definition backquoted_quoted_value : pexp := A_ R_backquoted_quoted_value ((ENot BQ ~ EAny)*).
Definition backquoted_quoted_string : pexp :=
  N_ R_backquoted_quoted_string (BQ ~ backquoted_quoted_value ~ BQ).
Definition triple_quoted_value : pexp := A_ R_triple_quoted_value ((ENot TQ ~ EAny)*).
Definition triple_quoted_string : pexp := N_ R_triple_quoted_string (TQ ~ triple_quoted_value ~ TQ).

(** dbml.pest:18-19 *)
Definition var : pexp := A_ R_var (ASCII_ALPHA ~ (ASCII_ALPHANUMERIC / L "_")*).
Definition spaced_var : pexp :=
  A_ R_spaced_var (ASCII_ALPHA ~ ((L " ")? ~ (ASCII_ALPHANUMERIC / L "_"))*).

(** dbml.pest:21 *)
Definition ident : pexp := N_ R_ident (var / double_quoted_string).

(** dbml.pest:29-35 values *)
Definition string_value : pexp := N_ R_string_value (triple_quoted_string / single_quoted_string).
Definition integer : pexp := A_ R_integer (ASCII_DIGIT ~ ASCII_DIGIT*).
Definition decimal : pexp := A_ R_decimal ((ASCII_DIGIT ~ ASCII_DIGIT*) ~ L "." ~ ASCII_DIGIT*).
Definition number_value : pexp := N_ R_number_value (decimal / integer).
Definition boolean_value : pexp := A_ R_boolean_value (L "true" / L "false" / L "null").
Definition hex3 : pexp := ASCII_HEX_DIGIT ~ ASCII_HEX_DIGIT ~ ASCII_HEX_DIGIT.
Definition hex_value : pexp := A_ R_hex_value (L "#" ~ hex3 ~ hex3?).
Definition value : pexp :=
  N_ R_value (string_value / backquoted_quoted_string / boolean_value / number_value / hex_value).

(** dbml.pest:24-26 attributes and properties *)
Definition property : pexp := N_ R_property (spaced_var ~ L ":" ~ (value / spaced_var)).
Definition attribute : pexp :=
  N_ R_attribute (spaced_var ~ (L ":" ~ (value / spaced_var / double_quoted_string))?).
(** [ "[" ~ (x ~ ("," ~ x)* )? ~ "]" ], the common shape of lines 26, 42, 58, 66, 73. *)
Definition bracketed (x : pexp) : pexp := L "[" ~ (x ~ (L "," ~ x)*)? ~ L "]".
Definition block_settings : pexp := N_ R_block_settings (bracketed attribute).

(** dbml.pest:38 *)
Definition decl_ident : pexp := N_ R_decl_ident (ident ~ (L "." ~ ident)?).

(** dbml.pest:41-49 ref block *)
Definition relation : pexp := A_ R_relation (L "<>" / L "-" / L ">" / L "<").
Definition rel_settings : pexp := N_ R_rel_settings (bracketed attribute).
Definition ref_composition : pexp :=
  N_ R_ref_composition (ident / (L "(" ~ ident ~ (L "," ~ ident)* ~ L ")")).
Definition ref_ident : pexp :=
  N_ R_ref_ident (ident ~ L "." ~ (ident ~ L ".")? ~ ref_composition).
Definition ref_inline : pexp := N_ R_ref_inline (L "ref" ~ L ":" ~ relation ~ ref_ident).
Definition ref_stmt : pexp := N_ R_ref_stmt (ref_ident ~ relation ~ ref_ident ~ rel_settings?).
Definition ref_short : pexp := N_ R_ref_short (CI "Ref" ~ ident? ~ L ":" ~ ref_stmt).
Definition ref_block : pexp := N_ R_ref_block (CI "Ref" ~ ident? ~ L "{" ~ ref_stmt ~ L "}").
Definition ref_decl : pexp := N_ R_ref_decl (ref_block / ref_short).

(** dbml.pest:53-55 note block (line 52, note_inline, is used by no other rule) *)
Definition note_short : pexp := N_ R_note_short (CI "Note" ~ L ":" ~ string_value).
Definition note_block : pexp := N_ R_note_block (CI "Note" ~ L "{" ~ string_value ~ L "}").
Definition note_decl : pexp := N_ R_note_decl (note_short / note_block).

(** dbml.pest:58-63 indexes block *)
Definition indexes_settings : pexp := N_ R_indexes_settings (bracketed attribute).
Definition indexes_ident : pexp := N_ R_indexes_ident (ident / backquoted_quoted_string).
Definition indexes_multi : pexp :=
  N_ R_indexes_multi
    (L "(" ~ (indexes_ident ~ (L "," ~ indexes_ident)*)? ~ L ")" ~ indexes_settings?).
Definition indexes_single : pexp := N_ R_indexes_single (indexes_ident ~ indexes_settings?).
Definition indexes_block : pexp :=
  N_ R_indexes_block (L "{" ~ (indexes_single / indexes_multi)* ~ L "}").
Definition indexes_decl : pexp := N_ R_indexes_decl (CI "Indexes" ~ indexes_block).

(** dbml.pest:66-69 enum block *)
Definition enum_settings : pexp := N_ R_enum_settings (bracketed attribute).
Definition enum_value : pexp := N_ R_enum_value (ident ~ enum_settings?).
Definition enum_block : pexp := N_ R_enum_block (L "{" ~ enum_value* ~ L "}").
Definition enum_decl : pexp := N_ R_enum_decl (CI "Enum " ~ decl_ident ~ enum_block).

(** dbml.pest:72-82 table block *)
Definition col_attribute : pexp := N_ R_col_attribute (ref_inline / attribute).
Definition col_settings : pexp := N_ R_col_settings (bracketed col_attribute).
Definition col_type_arg : pexp :=
  N_ R_col_type_arg (L "(" ~ (value ~ (L "," ~ value)*)? ~ L ")").
Definition col_type_array : pexp := N_ R_col_type_array (L "[" ~ integer? ~ L "]").
Definition col_type_unquoted : pexp :=
  C_ R_col_type_unquoted (var ~ col_type_arg? ~ col_type_array*).
Definition col_type_quoted : pexp :=
  C_ R_col_type_quoted
    (DQ ~ spaced_var ~ col_type_arg? ~ col_type_array* ~ DQ ~ col_type_array*).
Definition col_type : pexp :=
  C_ R_col_type ((ident ~ L ".")? ~ (col_type_quoted / col_type_unquoted)).
Definition table_col : pexp := N_ R_table_col (ident ~ col_type ~ col_settings?).
Definition table_block : pexp :=
  N_ R_table_block (L "{" ~ (table_col / note_decl / indexes_decl)* ~ L "}").
Definition table_alias : pexp := N_ R_table_alias (CI "as " ~ ident).
Definition table_decl : pexp :=
  N_ R_table_decl (CI "Table " ~ decl_ident ~ table_alias? ~ block_settings? ~ table_block).

(** dbml.pest:85-86 table group block *)
Definition table_group_block : pexp :=
  N_ R_table_group_block (L "{" ~ (note_decl / decl_ident)* ~ L "}").
Definition table_group_decl : pexp :=
  N_ R_table_group_decl (CI "TableGroup " ~ ident ~ block_settings? ~ table_group_block).

(** dbml.pest:89-90 project block *)
Definition project_block : pexp :=
  N_ R_project_block (L "{" ~ (note_decl / property)* ~ L "}").
Definition project_decl : pexp := N_ R_project_decl (CI "Project " ~ ident ~ project_block).

(** the built-in EOI rule *)
Definition EOI : pexp := N_ R_EOI EEnd.

(** dbml.pest:92 *)
Definition schema : pexp :=
  N_ R_schema
    (ESoi ~ (project_decl / table_decl / enum_decl / ref_decl / table_group_decl / note_decl)* ~ EOI).
