(** * BuildWork: how much work building the AST is, and [parse_dbml] as a whole.

    [Parser.parse_schema] with a clock, as [CheckWork] is [Analyzer.analyze] with one.  One unit is
    one round of a loop, one comparison with a keyword, or one character copied or read: copying a string costs
    its length and one more, so does reading a number (Rust reads integers digit by digit, and
    decimals in one pass and a bounded number of corrections).  Printing a value ([to_string]) costs its length and one more, or
    6 if it is a number or a keyword (no [i64] and no [f64] prints more than 350 characters).  An error costs a pass over the text (pest looks
    for the line and column), charged once, at the end.

    Simplification: [Vec::push] and the clones of single fixed-size values count as the round of the loop they
    are in; [Pair::as_str], [as_rule], [into_inner] and spans are constant time in pest.  All
    the definitions below follow the definition of the same name (without [_c]) in [Parser]. *)

From Verif Require Export Parser CheckWork Work Api.
Local Open Scope nat_scope.

Definition omap_c {A B} (f : A -> B) (x : clocked (outcome A)) : clocked (outcome B) := (omap f (fst x), snd x).
(** Copying [x]. *)
Definition copying (x : str) : nat := 1 + List.length x.
(** Cloning and printing a value. *)
Definition cloning (v : value_t) : nat :=
  match v with VEnum x | VString x | VHexColor x | VExpr x => copying x | _ => 1 end.
Definition printing (v : value_t) : nat :=
  match v with VInteger _ | VDecimal _ | VBool _ | VNull => 6 | _ => cloning v end.

(** parser/mod.rs:899-924 *)
Definition parse_ident_c (p : pair) : clocked (outcome ident_t) :=
  match into_inner p with
  | [] => now Panic
  | p1 :: _ =>
      match p_rule p1 with
      | R_var => spend (copying (as_str p1) + copying (as_str p1)) (Ok (mkIdent (span_of p1) (as_str p1) (as_str p1)))
      | R_double_quoted_string =>
          spend (copying (as_str p1) + copying (pairs_as_str (into_inner p1)))
            (Ok (mkIdent (span_of p1) (as_str p1) (pairs_as_str (into_inner p1))))
      | _ => now (throw_rules [R_var; R_double_quoted_string] p1)
      end
  end.

(** parser/mod.rs:876-897 *)
Definition parse_decl_ident_c (p : pair) : clocked (outcome (option ident_t * ident_t)) :=
  let?* toks := map_c (fun p1 =>
      match p_rule p1 with
      | R_ident => parse_ident_c p1
      | _ => now (throw_rules [R_ident] p1)
      end) (into_inner p) in
  match toks with
  | [name] => now (Ok (None, name))
  | [sch; name] => now (Ok (Some sch, name))
  | _ => now Panic
  end.

(** parser/mod.rs:790-816 *)
Definition parse_string_value_c (p : pair) : clocked (outcome str) :=
  fold_c (fun out p1 =>
    match p_rule p1 with
    | R_triple_quoted_string =>
        fold_c (fun out p2 =>
          match p_rule p2 with
          | R_triple_quoted_value => spend (copying (as_str p2)) (Ok (as_str p2))
          | _ => now (throw_rules [R_triple_quoted_value] p2)
          end) (into_inner p1) out
    | R_single_quoted_string =>
        fold_c (fun out p2 =>
          match p_rule p2 with
          | R_single_quoted_value => spend (copying (as_str p2)) (Ok (as_str p2))
          | _ => now (throw_rules [R_single_quoted_value] p2)
          end) (into_inner p1) out
    | _ => now (throw_rules [R_triple_quoted_string; R_single_quoted_string] p1)
    end) (into_inner p) [].

(** parser/mod.rs:818-874 *)
Definition parse_value_c (p : pair) : clocked (outcome value_t) :=
  match into_inner p with
  | [] => now Panic
  | p1 :: _ =>
      match p_rule p1 with
      | R_string_value => omap_c VString (parse_string_value_c p1)
      | R_number_value =>
          match into_inner p1 with
          | [] => now Panic
          | p2 :: _ =>
              match p_rule p2 with
              | R_decimal => spend (copying (as_str p2)) (Ok (VDecimal (f64_of_lit (as_str p2))))
              | R_integer => spend (copying (as_str p2))
                               match parse_i64 (as_str p2) with
                               | Some v => Ok (VInteger v)
                               | None => throw_msg int_overflow_msg p2
                               end
              | _ => now (throw_rules [R_decimal; R_integer] p2)
              end
          end
      | R_boolean_value =>
          spend (3 + copying (as_str p1))
            match value_from_str (as_str p1) with
            | Some v => Ok v
            | None => throw_msg (s "'" ++ as_str p1 ++ s "' is incompatible with boolean value") p1
            end
      | R_hex_value => spend (copying (as_str p1)) (Ok (VHexColor (as_str p1)))
      | R_backquoted_quoted_string => spend (copying (pairs_as_str (into_inner p1))) (Ok (VExpr (pairs_as_str (into_inner p1))))
      | _ => now (throw_rules [R_string_value; R_number_value; R_boolean_value; R_hex_value;
                          R_backquoted_quoted_string] p1)
      end
  end.

(** parser/mod.rs:926-968 *)
Definition parse_attribute_c (p : pair) : clocked (outcome attribute_t) :=
  fold_c (fun acc p1 =>
    match p_rule p1 with
    | R_spaced_var =>
        spend (2 + copying (as_str p1) + copying (as_str p1))
        match id_raw (at_key acc) with
        | [] => Ok (mkAttr (at_span acc) (mkIdent (span_of p1) (as_str p1) (as_str p1)) (at_value acc))
        | _ => Ok (mkAttr (at_span acc) (at_key acc)
                     (Some (mkLiteral (span_of p1) (as_str p1) (VEnum (as_str p1)))))
        end
    | R_value =>
        let?* v := parse_value_c p1 in
        spend (copying (as_str p1)) (Ok (mkAttr (at_span acc) (at_key acc) (Some (mkLiteral (span_of p1) (as_str p1) v))))
    | R_double_quoted_string =>
        spend (copying (as_str p1) + copying (pairs_as_str (into_inner p1)))
          (Ok (mkAttr (at_span acc) (at_key acc)
              (Some (mkLiteral (span_of p1) (as_str p1) (VString (pairs_as_str (into_inner p1)))))))
    | _ => now (throw_rules [R_value; R_spaced_var; R_double_quoted_string] p1)
    end) (into_inner p) (mkAttr (span_of p) ident0 None).

(** parser/mod.rs:970-983 *)
Definition parse_property_c (p : pair) : clocked (outcome property_t) :=
  let?* init := parse_attribute_c p in
  match at_value init with
  | Some v => now (Ok (mkProp (at_span init) (at_key init) v))
  | None => now (throw_rules [R_property] p)
  end.

(** [attr.value.clone().map(|v| v.value.to_string())], [attr.value.clone()]: the copy has the raw text too *)
Definition attr_printing (a : attribute_t) : nat :=
  match at_value a with Some l => copying (lit_raw l) + cloning (lit_value l) + printing (lit_value l) | None => 1 end.
Definition attr_value_string_c (a : attribute_t) : clocked (option str) := spend (attr_printing a) (attr_value_string a).

Definition parse_attributes_c (p : pair) : clocked (outcome (list attribute_t)) :=
  map_c (fun p1 => match p_rule p1 with
                     | R_attribute => parse_attribute_c p1
                     | _ => now (throw_rules [R_attribute] p1)
                     end) (into_inner p).

(** parser/mod.rs:197-210 *)
Definition parse_table_settings_c (p : pair) : clocked (outcome table_settings_t) :=
  let?* l := parse_attributes_c p in now (Ok (mkTableSettings (span_of p) l)).

(** parser/mod.rs:577-590 *)
Definition parse_table_group_settings_c (p : pair) : clocked (outcome group_settings_t) :=
  let?* l := parse_attributes_c p in now (Ok (mkGroupSettings (span_of p) l)).

(** parser/mod.rs:644-671 *)
Fixpoint note_decl_c (l : list pair) : clocked (outcome note_t) :=
  match l with
  | [] => now Panic
  | p1 :: l' =>
      let* _ := spend 1 tt in
      match p_rule p1 with
      | R_note_short | R_note_block =>
          match into_inner p1 with
          | [] => note_decl_c l'
          | p2 :: _ =>
              match p_rule p2 with
              | R_string_value =>
                  let* _ := spend (copying (as_str p2)) tt in
                  omap_c (fun v => mkNote (span_of p1) (mkLiteral (span_of p2) (as_str p2) (VString v)))
                       (parse_string_value_c p2)
              | _ => now (throw_rules [R_string_value] p2)
              end
          end
      | _ => now (throw_rules [R_note_short; R_note_block] p1)
      end
  end.
Definition parse_note_decl_c (p : pair) : clocked (outcome note_t) := note_decl_c (into_inner p).

(** parser/mod.rs:102-141 *)
Definition parse_project_decl_c (p : pair) : clocked (outcome project_t) :=
  fold_c (fun acc p1 =>
    match p_rule p1 with
    | R_ident =>
        let?* i := parse_ident_c p1 in
        now (Ok (mkProject (pj_span acc) (pj_properties acc) i (pj_database_type acc) (pj_note acc)))
    | R_project_block =>
        fold_c (fun acc p2 =>
          match p_rule p2 with
          | R_property =>
              let?* prop := parse_property_c p2 in
              let* db := spend (3 + cloning (lit_value (pr_value prop)))
                       (if str_eqb (id_str (pr_key prop)) (s "database_type") then
                          match lit_value (pr_value prop) with
                          | VString name => Some (database_type_from_str name)
                          | _ => pj_database_type acc
                          end
                        else pj_database_type acc) in
              now (Ok (mkProject (pj_span acc) (pj_properties acc ++ [prop]) (pj_ident acc) db (pj_note acc)))
          | R_note_decl =>
              let?* n := parse_note_decl_c p2 in
              now (Ok (mkProject (pj_span acc) (pj_properties acc) (pj_ident acc) (pj_database_type acc) (Some n)))
          | _ => now (throw_rules [R_property; R_note_decl] p2)
          end) (into_inner p1) acc
    | _ => now (throw_rules [R_project_block] p1)
    end) (into_inner p) (project0 (span_of p)).

(** parser/mod.rs:294-303 *)
Definition parse_col_type_arg_c (p : pair) : clocked (outcome (list value_t)) :=
  fold_c (fun acc p1 =>
    match p_rule p1 with
    | R_value => let?* v := parse_value_c p1 in now (Ok (acc ++ [v]))
    | _ => now (throw_rules [R_value] p1)
    end) (into_inner p) [].

(** parser/mod.rs:232-238 *)
Definition build_type_name_with_schema_c (sch : option ident_t) (tn : pair) : clocked str :=
  spend (copying (as_str tn) + match sch with Some i => copying (id_str i) | None => 0 end) (build_type_name_with_schema sch tn).

(** parser/mod.rs:262-274 *)
Definition parse_col_type_array_c (p : pair) : clocked (outcome (option N)) :=
  fold_c (fun _ p3 =>
    match p_rule p3 with
    | R_integer => spend (copying (as_str p3))
                   match parse_u32 (as_str p3) with
                   | Some v => Ok (Some v)
                   | None => throw_msg int_overflow_msg p3
                   end
    | _ => now (throw_rules [R_integer] p3)
    end) (into_inner p) None.

(** parser/mod.rs:240-292 *)
Definition parse_col_type_c (p : pair) : clocked (outcome col_type_t) :=
  let* _ := spend (copying (as_str p)) tt in
  omap_c snd (fold_c (fun (acc : option ident_t * col_type_t) p1 =>
    let '(sch, out) := acc in
    match p_rule p1 with
    | R_ident => let?* i := parse_ident_c p1 in now (Ok (Some i, out))
    | R_col_type_quoted | R_col_type_unquoted =>
        omap_c (fun o => (sch, o)) (fold_c (fun out p2 =>
          match p_rule p2 with
          | R_var | R_spaced_var =>
              let* n := build_type_name_with_schema_c sch p2 in
              now (Ok (mkColType (ct_span out) (ct_raw out) (CT_Raw n) (ct_args out) (ct_arrays out)))
          | R_col_type_arg =>
              let?* a := parse_col_type_arg_c p2 in
              now (Ok (mkColType (ct_span out) (ct_raw out) (ct_type_name out) a (ct_arrays out)))
          | R_col_type_array =>
              let?* v := parse_col_type_array_c p2 in
              now (Ok (mkColType (ct_span out) (ct_raw out) (ct_type_name out) (ct_args out) (ct_arrays out ++ [v])))
          | _ => now (throw_rules [R_var; R_spaced_var; R_col_type_arg; R_col_type_array] p2)
          end) (into_inner p1) out)
    | _ => now (throw_rules [R_col_type_quoted; R_col_type_unquoted] p1)
    end) (into_inner p) (None, mkColType (span_of p) (as_str p) CT_Undef [] [])).

(** parser/mod.rs:503-535 *)
Definition parse_ref_ident_c (p : pair) : clocked (outcome ref_ident_t) :=
  let?* st := fold_c (fun (acc : list ident_t * list ident_t) p1 =>
      let '(toks, comps) := acc in
      match p_rule p1 with
      | R_ident => let?* i := parse_ident_c p1 in now (Ok (toks ++ [i], comps))
      | R_ref_composition =>
          omap_c (fun c => (toks, c)) (fold_c (fun comps p2 =>
            match p_rule p2 with
            | R_ident => let?* i := parse_ident_c p2 in now (Ok (comps ++ [i]))
            | _ => now (throw_rules [R_ident] p2)
            end) (into_inner p1) comps)
      | _ => now (throw_rules [R_ident; R_ref_composition] p1)
      end) (into_inner p) ([], []) in
  match fst st with
  | [t] => now (Ok (mkRefIdent (span_of p) None t (snd st)))
  | [sc; t] => now (Ok (mkRefIdent (span_of p) (Some sc) t (snd st)))
  | _ => now Panic
  end.

(** parser/mod.rs:479-501; [Relation::from_str], refs.rs:43-56 *)
Definition parse_ref_inline_c (p : pair) : clocked (outcome ref_inline_t) :=
  fold_c (fun acc p1 =>
    match p_rule p1 with
    | R_relation =>
        spend (4 + copying (as_str p1))
        match relation_from_str (as_str p1) with
        | Some r => Ok (mkRefInline (rin_span acc) r (rin_rhs acc))
        | None => throw_msg (rel_msg (as_str p1)) p1
        end
    | R_ref_ident =>
        let?* i := parse_ref_ident_c p1 in now (Ok (mkRefInline (rin_span acc) (rin_rel acc) i))
    | _ => now (throw_rules [R_relation; R_ref_ident] p1)
    end) (into_inner p) (mkRefInline (span_of p) Undef ref_ident0).

(** parser/mod.rs:305-342; the comparisons of lines 317-330 and the clone or text of the value *)
Definition parse_col_settings_c (p : pair) : clocked (outcome col_settings_t) :=
  fold_c (fun acc p1 =>
    match p_rule p1 with
    | R_col_attribute =>
        fold_c (fun acc p2 =>
          match p_rule p2 with
          | R_attribute => let?* a := parse_attribute_c p2 in spend (8 + attr_printing a) (Ok (col_settings_add_attr acc a))
          | R_ref_inline => let?* r := parse_ref_inline_c p2 in now (Ok (col_settings_add_ref acc r))
          | _ => now (throw_rules [R_ref_inline; R_attribute] p2)
          end) (into_inner p1) acc
    | _ => now (throw_rules [R_col_attribute] p1)
    end) (into_inner p) (col_settings0 (span_of p)).

(** parser/mod.rs:212-230 *)
Definition parse_table_col_c (p : pair) : clocked (outcome table_col_t) :=
  fold_c (fun acc p1 =>
    match p_rule p1 with
    | R_ident => let?* i := parse_ident_c p1 in
                 now (Ok (mkTableCol (tc_span acc) i (tc_type acc) (tc_settings acc)))
    | R_col_type => let?* t := parse_col_type_c p1 in
                    now (Ok (mkTableCol (tc_span acc) (tc_name acc) t (tc_settings acc)))
    | R_col_settings => let?* x := parse_col_settings_c p1 in
                        now (Ok (mkTableCol (tc_span acc) (tc_name acc) (tc_type acc) (Some x)))
    | _ => now (throw_rules [R_ident; R_col_type; R_col_settings] p1)
    end) (into_inner p) (mkTableCol (span_of p) ident0 col_type0 None).

(** parser/mod.rs:718-749 *)
Definition parse_indexes_ident_c (p : pair) : clocked (outcome indexes_col) :=
  match into_inner p with
  | [] => now Panic
  | p1 :: _ =>
      match p_rule p1 with
      | R_ident => omap_c ICString (parse_ident_c p1)
      | R_backquoted_quoted_string =>
          match into_inner p1 with
          | [] => now Panic
          | p2 :: _ =>
              match p_rule p2 with
              | R_backquoted_quoted_value =>
                  spend (copying (as_str p1) + copying (as_str p2))
                    (Ok (ICExpr (mkLiteral (span_of p1) (as_str p1) (VString (as_str p2)))))
              | _ => now (throw_rules [R_backquoted_quoted_value] p2)
              end
          end
      | _ => now (throw_rules [R_ident; R_backquoted_quoted_string] p1)
      end
  end.

(** parser/mod.rs:751-788 *)
Definition parse_indexes_settings_c (p : pair) : clocked (outcome indexes_settings_t) :=
  fold_c (fun acc p1 =>
    match p_rule p1 with
    | R_attribute =>
        let?* attr := parse_attribute_c p1 in
        let* _ := spend 5 tt in
        let k := id_str (at_key attr) in
        let '(mkIndexesSettings sp attrs ty un pk nt nm) := acc in
        let attrs' := attrs ++ [attr] in
        if str_eqb k (s "unique") then now (Ok (mkIndexesSettings sp attrs' ty true pk nt nm))
        else if str_eqb k (s "pk") then now (Ok (mkIndexesSettings sp attrs' ty un true nt nm))
        else if str_eqb k (s "type") then
          let* v := attr_value_string_c attr in
          match v with
          | Some v => let* _ := spend (2 + attr_printing attr) tt in
                      match indexes_type_from_str v with
                      | Some t => now (Ok (mkIndexesSettings sp attrs' (Some t) un pk nt nm))
                      | None => now (throw_msg (idx_type_msg v) p1)
                      end
          | None => now (Ok (mkIndexesSettings sp attrs' None un pk nt nm))
          end
        else if str_eqb k (s "name") then
          let* v := attr_value_string_c attr in now (Ok (mkIndexesSettings sp attrs' ty un pk nt v))
        else if str_eqb k (s "note") then
          let* v := attr_value_string_c attr in now (Ok (mkIndexesSettings sp attrs' ty un pk v nm))
        else now (Ok (mkIndexesSettings sp attrs' ty un pk nt nm))
    | _ => now (throw_rules [R_attribute] p1)
    end) (into_inner p) (indexes_settings0 (span_of p)).

(** parser/mod.rs:701-716 *)
Definition parse_indexes_single_multi_c (p : pair) : clocked (outcome indexes_def) :=
  fold_c (fun acc p1 =>
    match p_rule p1 with
    | R_indexes_ident =>
        let?* c := parse_indexes_ident_c p1 in
        now (Ok (mkIndexesDef (idf_span acc) (idf_cols acc ++ [c]) (idf_settings acc)))
    | R_indexes_settings =>
        let?* x := parse_indexes_settings_c p1 in
        now (Ok (mkIndexesDef (idf_span acc) (idf_cols acc) (Some x)))
    | _ => now (throw_rules [R_indexes_ident; R_indexes_settings] p1)
    end) (into_inner p) (mkIndexesDef (span_of p) [] None).

(** parser/mod.rs:685-699 *)
Definition parse_indexes_block_c (p : pair) : clocked (outcome indexes_block_t) :=
  fold_c (fun acc p1 =>
    match p_rule p1 with
    | R_indexes_single | R_indexes_multi =>
        let?* d := parse_indexes_single_multi_c p1 in
        now (Ok (mkIndexesBlock (ib_span acc) (ib_defs acc ++ [d])))
    | _ => now (throw_rules [R_indexes_single; R_indexes_multi] p1)
    end) (into_inner p) (mkIndexesBlock (span_of p) []).

(** parser/mod.rs:673-683 *)
Definition parse_indexes_decl_c (p : pair) : clocked (outcome indexes_block_t) :=
  match into_inner p with
  | [] => now Panic
  | p1 :: _ => match p_rule p1 with
               | R_indexes_block => parse_indexes_block_c p1
               | _ => now (throw_rules [R_indexes_block] p1)
               end
  end.

(** parser/mod.rs:143-195 *)
Definition parse_table_decl_c (p : pair) : clocked (outcome table_t) :=
  fold_c (fun acc p1 =>
    let '(mkTable sp cols id nt ix st) := acc in
    match p_rule p1 with
    | R_decl_ident =>
        let?* d := parse_decl_ident_c p1 in
        now (Ok (mkTable sp cols (mkTableIdent (span_of p1) (snd d) (fst d) (ti_alias id)) nt ix st))
    | R_table_alias =>
        fold_c (fun acc p2 =>
          match p_rule p2 with
          | R_ident =>
              let?* a := parse_ident_c p2 in
              let '(mkTable sp cols id nt ix st) := acc in
              now (Ok (mkTable sp cols (mkTableIdent (ti_span id) (ti_name id) (ti_schema id) (Some a)) nt ix st))
          | _ => now (throw_rules [R_ident] p2)
          end) (into_inner p1) acc
    | R_table_block =>
        fold_c (fun acc p2 =>
          let '(mkTable sp cols id nt ix st) := acc in
          match p_rule p2 with
          | R_table_col => let?* c := parse_table_col_c p2 in now (Ok (mkTable sp (cols ++ [c]) id nt ix st))
          | R_note_decl => let?* n := parse_note_decl_c p2 in now (Ok (mkTable sp cols id (Some n) ix st))
          | R_indexes_decl => let?* i := parse_indexes_decl_c p2 in now (Ok (mkTable sp cols id nt (Some i) st))
          | _ => now (throw_rules [R_table_col; R_note_decl; R_indexes_decl] p2)
          end) (into_inner p1) acc
    | R_block_settings =>
        let?* x := parse_table_settings_c p1 in now (Ok (mkTable sp cols id nt ix (Some x)))
    | _ => now (throw_rules [R_decl_ident; R_table_alias; R_table_block; R_block_settings] p1)
    end) (into_inner p) (table0 (span_of p)).

(** parser/mod.rs:389-412 *)
Definition parse_enum_settings_c (p : pair) : clocked (outcome enum_value_settings_t) :=
  fold_c (fun acc p2 =>
    match p_rule p2 with
    | R_attribute =>
        let?* attr := parse_attribute_c p2 in
        let* nt := spend (1 + attr_printing attr) (if str_eqb (id_str (at_key attr)) (s "note") then attr_value_string attr
                  else evs_note acc) in
        now (Ok (mkEnumValueSettings (evs_span acc) (evs_attributes acc ++ [attr]) nt))
    | _ => now (throw_rules [R_attribute] p2)
    end) (into_inner p) (mkEnumValueSettings (span_of p) [] None).

(** parser/mod.rs:380-418 *)
Definition parse_enum_value_c (p : pair) : clocked (outcome enum_value_t) :=
  fold_c (fun acc p1 =>
    match p_rule p1 with
    | R_ident => let?* i := parse_ident_c p1 in now (Ok (mkEnumValue (ev_span acc) i (ev_settings acc)))
    | R_enum_settings =>
        let?* x := parse_enum_settings_c p1 in now (Ok (mkEnumValue (ev_span acc) (ev_value acc) (Some x)))
    | _ => now (throw_rules [R_ident; R_enum_settings] p1)
    end) (into_inner p) (mkEnumValue (span_of p) ident0 None).

(** parser/mod.rs:368-378 *)
Definition parse_enum_block_c (p : pair) : clocked (outcome (list enum_value_t)) :=
  map_c (fun p1 => match p_rule p1 with
                     | R_enum_value => parse_enum_value_c p1
                     | _ => now (throw_rules [R_enum_value] p1)
                     end) (into_inner p).

(** parser/mod.rs:344-366 *)
Definition parse_enum_decl_c (p : pair) : clocked (outcome enum_t) :=
  fold_c (fun acc p1 =>
    match p_rule p1 with
    | R_decl_ident =>
        let?* d := parse_decl_ident_c p1 in
        now (Ok (mkEnum (en_span acc) (mkEnumIdent (span_of p1) (fst d) (snd d)) (en_values acc)))
    | R_enum_block =>
        let?* v := parse_enum_block_c p1 in now (Ok (mkEnum (en_span acc) (en_ident acc) v))
    | _ => now (throw_rules [R_decl_ident; R_enum_block] p1)
    end) (into_inner p) (mkEnum (span_of p) (mkEnumIdent range0 None ident0) []).

(** parser/mod.rs:604-631; [ReferentialAction::from_str], refs.rs:66-77 *)
Definition parse_ref_action_c (attr : attribute_t) (p1 : pair) : clocked (outcome (option ref_action)) :=
  spend (5 + attr_printing attr) (parse_ref_action attr p1).

(** parser/mod.rs:592-642 *)
Definition parse_rel_settings_c (p : pair) : clocked (outcome ref_settings_t) :=
  fold_c (fun acc p1 =>
    match p_rule p1 with
    | R_attribute =>
        let?* attr := parse_attribute_c p1 in
        let* _ := spend 2 tt in
        let k := id_str (at_key attr) in
        let attrs' := rs_attributes acc ++ [attr] in
        if str_eqb k (s "update") then
          let?* a := parse_ref_action_c attr p1 in
          now (Ok (mkRefSettings (rs_span acc) attrs' (rs_on_delete acc) a))
        else if str_eqb k (s "delete") then
          let?* a := parse_ref_action_c attr p1 in
          now (Ok (mkRefSettings (rs_span acc) attrs' a (rs_on_update acc)))
        else now (Ok (mkRefSettings (rs_span acc) attrs' (rs_on_delete acc) (rs_on_update acc)))
    | _ => now (throw_rules [R_attribute] p1)
    end) (into_inner p) (mkRefSettings (span_of p) [] None None).

(** parser/mod.rs:448-477 *)
Definition parse_ref_stmt_c (p : pair) : clocked (outcome ref_block_t) :=
  fold_c (fun acc p1 =>
    let '(mkRefBlock sp nm rel lhs rhs st) := acc in
    match p_rule p1 with
    | R_relation =>
        spend (4 + copying (as_str p1))
        match relation_from_str (as_str p1) with
        | Some r => Ok (mkRefBlock sp nm r lhs rhs st)
        | None => throw_msg (rel_msg (as_str p1)) p1
        end
    | R_ref_ident =>
        let?* v := parse_ref_ident_c p1 in
        let* _ := spend 1 tt in
        if relation_eqb rel Undef then now (Ok (mkRefBlock sp nm rel v rhs st))
        else now (Ok (mkRefBlock sp nm rel lhs v st))
    | R_rel_settings =>
        let?* x := parse_rel_settings_c p1 in now (Ok (mkRefBlock sp nm rel lhs rhs (Some x)))
    | _ => now (throw_rules [R_relation; R_ref_ident; R_rel_settings] p1)
    end) (into_inner p) (mkRefBlock (span_of p) None Undef ref_ident0 ref_ident0 None).

(** parser/mod.rs:426-439 *)
Fixpoint ref_decl_inner_c (name : option ident_t) (l : list pair) : clocked (outcome (option ref_block_t)) :=
  match l with
  | [] => now (Ok None)
  | p2 :: l' =>
      let* _ := spend 1 tt in
      match p_rule p2 with
      | R_ref_stmt =>
          omap_c (fun o => Some (mkRefBlock (rb_span o) name (rb_rel o) (rb_lhs o) (rb_rhs o) (rb_settings o)))
               (parse_ref_stmt_c p2)
      | R_ident => let?* i := parse_ident_c p2 in ref_decl_inner_c (Some i) l'
      | _ => now (throw_rules [R_ref_stmt; R_ident] p2)
      end
  end.

(** parser/mod.rs:420-446 *)
Fixpoint ref_decl_c (l : list pair) : clocked (outcome ref_block_t) :=
  match l with
  | [] => now Panic
  | p1 :: l' =>
      let* _ := spend 1 tt in
      match p_rule p1 with
      | R_ref_block | R_ref_short =>
          let?* r := ref_decl_inner_c None (into_inner p1) in
          match r with
          | Some b => now (Ok b)
          | None => ref_decl_c l'
          end
      | _ => now (throw_rules [R_ref_block; R_ref_short] p1)
      end
  end.
Definition parse_ref_decl_c (p : pair) : clocked (outcome ref_block_t) := ref_decl_c (into_inner p).

(** parser/mod.rs:537-575 *)
Definition parse_table_group_decl_c (p : pair) : clocked (outcome group_t) :=
  fold_c (fun acc p1 =>
    let '(mkGroup sp id nt items st) := acc in
    match p_rule p1 with
    | R_ident => let?* i := parse_ident_c p1 in now (Ok (mkGroup sp i nt items st))
    | R_table_group_block =>
        fold_c (fun acc p2 =>
          let '(mkGroup sp id nt items st) := acc in
          match p_rule p2 with
          | R_decl_ident =>
              let?* d := parse_decl_ident_c p2 in
              now (Ok (mkGroup sp id nt (items ++ [mkGroupItem (span_of p2) (fst d) (snd d)]) st))
          | R_note_decl => let?* n := parse_note_decl_c p2 in now (Ok (mkGroup sp id (Some n) items st))
          | _ => now (throw_rules [R_decl_ident; R_note_decl] p2)
          end) (into_inner p1) acc
    | R_block_settings =>
        let?* x := parse_table_group_settings_c p1 in now (Ok (mkGroup sp id nt items (Some x)))
    | _ => now (throw_rules [R_ident; R_table_group_block; R_block_settings] p1)
    end) (into_inner p) (mkGroup (span_of p) ident0 None [] None).

(** parser/mod.rs:68-100 *)
Definition parse_block_c (p1 : pair) : clocked (outcome (option block)) :=
  match p_rule p1 with
  | R_project_decl => omap_c (fun x => Some (BProject x)) (parse_project_decl_c p1)
  | R_table_decl => omap_c (fun x => Some (BTable x)) (parse_table_decl_c p1)
  | R_enum_decl => omap_c (fun x => Some (BEnum x)) (parse_enum_decl_c p1)
  | R_ref_decl => omap_c (fun x => Some (BRef x)) (parse_ref_decl_c p1)
  | R_note_decl => omap_c (fun x => Some (BNote x)) (parse_note_decl_c p1)
  | R_table_group_decl => omap_c (fun x => Some (BTableGroup x)) (parse_table_group_decl_c p1)
  | R_EOI => now (Ok None)
  | _ => now (throw_rules [R_project_decl; R_table_decl; R_enum_decl; R_ref_decl; R_table_group_decl] p1)
  end.
Definition parse_schema_c (p : pair) (input : str) : clocked (outcome schema_t) :=
  fold_c (fun acc p1 =>
    let?* b := parse_block_c p1 in
    match b with
    | Some b => now (Ok (mkSchema (sb_span acc) (sb_input acc) (sb_blocks acc ++ [b])))
    | None => now (Ok acc)
    end) (into_inner p) (mkSchema (span_of p) input []).

(** parser/mod.rs:57-66, after the grammar run: the AST from the pairs, and one pass over the text for the place of an
    error. *)
Definition build_c (input : str) (ps : list pair) : clocked (outcome schema_t) :=
  match ps with
  | [] => now Panic
  | p :: _ =>
      let* _ := spend (2 + List.length input) tt in
      match p_rule p with
      | R_schema => parse_schema_c p input
      | _ => now (throw_rules [R_schema] p)
      end
  end.
(** The work of building the AST. *)
Definition build_work (input : str) : nat :=
  match run schema NonAtomic 0 input with ROk _ _ ps => snd (build_c input ps) | _ => 0 end.

(** src/lib.rs:59-63 [parse_dbml]: the grammar run ([Work]), building the AST, and the checks ([CheckWork]). *)
Definition parse_dbml_c (input : str) : option (outcome schema_t) * N :=
  let '(r, n) := run_w schema input in
  match r with
  | RLoop => (None, n)
  | RFail => (Some (Err ErGrammar), n)
  | ROk _ _ ps =>
      let b := build_c input ps in
      let c := bind_c b (fun ast => omap_c (fun _ => ast) (analyze_c ast)) in
      (Some (fst c), n + N.of_nat (snd c))%N
  end.
