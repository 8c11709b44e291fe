(** * Shown: what an error of [parse_dbml] shows: message, line and column.

    pest 2.7, [pest::error::Error]: built by [Error::new_from_pos] for grammar errors
    and by [Error::new_from_span] in src/parser/err.rs:13-31 and
    src/analyzer/err.rs:136-145.  Of its fields, [variant] (by its message), [location]
    and [line_col] are modelled here; the excerpts [line] and [continued_line] and the drawing
    that [Display] makes of them are in [Draw]. *)

From Verif Require Export Track Message.

(** [#[derive(Debug)]] of the generated [Rule]. *)
Definition rule_name (r : rule) : str :=
  match r with
  | R_EOI => s "EOI"
  | R_single_line_comment => s "single_line_comment" | R_multi_line_comment => s "multi_line_comment"
  | R_double_quoted_value => s "double_quoted_value" | R_double_quoted_string => s "double_quoted_string"
  | R_single_quoted_value => s "single_quoted_value" | R_single_quoted_string => s "single_quoted_string"
  | R_backquoted_quoted_value => s "backquoted_quoted_value" | R_backquoted_quoted_string => s "backquoted_quoted_string"
  | R_triple_quoted_value => s "triple_quoted_value" | R_triple_quoted_string => s "triple_quoted_string"
  | R_var => s "var" | R_spaced_var => s "spaced_var" | R_ident => s "ident"
  | R_property => s "property" | R_attribute => s "attribute" | R_block_settings => s "block_settings"
  | R_string_value => s "string_value" | R_integer => s "integer" | R_decimal => s "decimal"
  | R_number_value => s "number_value" | R_boolean_value => s "boolean_value"
  | R_hex_value => s "hex_value" | R_value => s "value" | R_decl_ident => s "decl_ident"
  | R_relation => s "relation" | R_rel_settings => s "rel_settings" | R_ref_composition => s "ref_composition"
  | R_ref_ident => s "ref_ident" | R_ref_inline => s "ref_inline" | R_ref_stmt => s "ref_stmt"
  | R_ref_short => s "ref_short" | R_ref_block => s "ref_block" | R_ref_decl => s "ref_decl"
  | R_note_short => s "note_short" | R_note_block => s "note_block" | R_note_decl => s "note_decl"
  | R_indexes_settings => s "indexes_settings" | R_indexes_ident => s "indexes_ident"
  | R_indexes_multi => s "indexes_multi" | R_indexes_single => s "indexes_single"
  | R_indexes_block => s "indexes_block" | R_indexes_decl => s "indexes_decl"
  | R_enum_settings => s "enum_settings" | R_enum_value => s "enum_value" | R_enum_block => s "enum_block" | R_enum_decl => s "enum_decl"
  | R_col_attribute => s "col_attribute" | R_col_settings => s "col_settings"
  | R_col_type_arg => s "col_type_arg" | R_col_type_array => s "col_type_array"
  | R_col_type_unquoted => s "col_type_unquoted" | R_col_type_quoted => s "col_type_quoted" | R_col_type => s "col_type"
  | R_table_col => s "table_col" | R_table_block => s "table_block" | R_table_alias => s "table_alias" | R_table_decl => s "table_decl"
  | R_table_group_block => s "table_group_block" | R_table_group_decl => s "table_group_decl"
  | R_project_block => s "project_block" | R_project_decl => s "project_decl"
  | R_schema => s "schema"
  end.

(** [Error::enumerate] *)
Fixpoint comma_join (l : list str) : str :=
  match l with
  | [] => []
  | [x] => x
  | x :: l' => x ++ s ", " ++ comma_join l'
  end.
Definition enumerate (rules : list rule) : str :=
  match rules with
  | [a] => rule_name a
  | [a; b] => rule_name a ++ s " or " ++ rule_name b
  | _ => comma_join (map rule_name (removelast rules)) ++ s ", or " ++ rule_name (last rules R_EOI)
  end.
(** [Error::parsing_error_message] *)
Definition parsing_message (positives negatives : list rule) : str :=
  match negatives, positives with
  | _ :: _, _ :: _ => s "unexpected " ++ enumerate negatives ++ s "; expected " ++ enumerate positives
  | _ :: _, [] => s "unexpected " ++ enumerate negatives
  | [], _ :: _ => s "expected " ++ enumerate positives
  | [], [] => s "unknown parsing error"
  end.

(** [&input[..pos]] *)
Fixpoint upto (pos : N) (inp : str) : str :=
  if pos =? 0 then [] else
  match inp with
  | [] => []
  | c :: r => c :: upto (pos - ulen c) r
  end.
(** [Position::line_col]: over the chars before the position. *)
Fixpoint line_col_from (pre : str) (line col : N) : N * N :=
  match pre with
  | [] => (line, col)
  | c :: r =>
      if c =? 13 then
        match r with
        | d :: r' => if d =? 10 then line_col_from r' (line + 1) 1 else line_col_from r line (col + 1)
        | [] => (line, col + 1)
        end
      else if c =? 10 then line_col_from r (line + 1) 1
      else line_col_from r line (col + 1)
  end.
Definition line_col (inp : str) (pos : N) : N * N := line_col_from (upto pos inp) 1 1.
(** [Position::skip_back(1)] *)
Definition back (inp : str) (pos : N) : N := blen (removelast (upto pos inp)).
(** [Error::new_from_span]: a span that ends after a line end shows that line end. *)
Definition end_line_col (inp : str) (pos : N) : N * N :=
  let '(l, c) := line_col inp pos in
  if c =? 1 then let '(l', c') := line_col inp (back inp pos) in (l', c' + 1) else (l, c).

Record shown_error : Set := mkShown { sh_message : str; sh_from : N; sh_to : option N; sh_start : N * N; sh_end : option (N * N) }.
(** [Error::new_from_pos], [Error::new_from_span] *)
Definition from_pos (m : str) (inp : str) (pos : N) : shown_error := mkShown m pos None (line_col inp pos) None.
Definition from_span (m : str) (inp : str) (sp : range) : shown_error :=
  mkShown m (fst sp) (Some (snd sp)) (line_col inp (fst sp)) (Some (end_line_col inp (snd sp))).
(** An error [e] of [parse_dbml inp].  [None]: no grammar error to show. *)
Definition show_error (inp : str) (e : error) : option shown_error :=
  match e with
  | ErGrammar =>
      match grammar_error inp with
      | Some rep => Some (from_pos (parsing_message (rep_positives rep) (rep_negatives rep)) inp (rep_pos rep))
      | None => None
      end
  | ErRules rs sp => Some (from_span (parsing_message rs []) inp sp)
  | ErMsg m sp => Some (from_span m inp sp)
  | ErSem e sp => Some (from_span (message e) inp sp)
  end.
