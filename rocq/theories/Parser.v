(** * Parser: src/parser/mod.rs — from pest pairs to the AST, function by function.
    [unreachable!] is [Panic]. *)

From Verif Require Export Grammar Err.

(** [Pairs::as_str]: the input from the first pair's start to the last pair's end.
    Simplification: written for at most one inner pair, the only case that occurs
    (double_quoted_string, backquoted_quoted_string each have one inner pair). *)
Definition pairs_as_str (l : list pair) : str := List.concat (map as_str l).

(** [str::parse::<i64>] / [parse::<u32>] on a non-empty digit string. *)
Definition parse_i64 (x : str) : option Z :=
  let n := N_of_digits x in if n <=? 9223372036854775807 then Some (Z.of_N n) else None.
Definition parse_u32 (x : str) : option N :=
  let n := N_of_digits x in if n <=? 4294967295 then Some n else None.
Definition int_overflow_msg : str := s "number too large to fit in target type".

(** parser/mod.rs:899-924 *)
Definition parse_ident (p : pair) : outcome ident_t :=
  match into_inner p with
  | [] => Panic
  | p1 :: _ =>
      match p_rule p1 with
      | R_var => Ok (mkIdent (span_of p1) (as_str p1) (as_str p1))
      | R_double_quoted_string =>
          Ok (mkIdent (span_of p1) (as_str p1) (pairs_as_str (into_inner p1)))
      | _ => throw_rules [R_var; R_double_quoted_string] p1
      end
  end.

(** parser/mod.rs:876-897 *)
Definition parse_decl_ident (p : pair) : outcome (option ident_t * ident_t) :=
  let? toks := try_map (fun p1 =>
      match p_rule p1 with
      | R_ident => parse_ident p1
      | _ => throw_rules [R_ident] p1
      end) (into_inner p) in
  match toks with
  | [name] => Ok (None, name)
  | [sch; name] => Ok (Some sch, name)
  | _ => Panic
  end.

(** parser/mod.rs:790-816 *)
Definition parse_string_value (p : pair) : outcome str :=
  try_fold (fun out p1 =>
    match p_rule p1 with
    | R_triple_quoted_string =>
        try_fold (fun out p2 =>
          match p_rule p2 with
          | R_triple_quoted_value => Ok (as_str p2)
          | _ => throw_rules [R_triple_quoted_value] p2
          end) (into_inner p1) out
    | R_single_quoted_string =>
        try_fold (fun out p2 =>
          match p_rule p2 with
          | R_single_quoted_value => Ok (as_str p2)
          | _ => throw_rules [R_single_quoted_value] p2
          end) (into_inner p1) out
    | _ => throw_rules [R_triple_quoted_string; R_single_quoted_string] p1
    end) (into_inner p) [].

(** parser/mod.rs:818-874.  [parse::<f64>] never fails on [decimal]'s text. *)
Definition parse_value (p : pair) : outcome value_t :=
  match into_inner p with
  | [] => Panic
  | p1 :: _ =>
      match p_rule p1 with
      | R_string_value => omap VString (parse_string_value p1)
      | R_number_value =>
          match into_inner p1 with
          | [] => Panic
          | p2 :: _ =>
              match p_rule p2 with
              | R_decimal => Ok (VDecimal (f64_of_lit (as_str p2)))
              | R_integer => match parse_i64 (as_str p2) with
                             | Some v => Ok (VInteger v)
                             | None => throw_msg int_overflow_msg p2
                             end
              | _ => throw_rules [R_decimal; R_integer] p2
              end
          end
      | R_boolean_value =>
          match value_from_str (as_str p1) with
          | Some v => Ok v
          | None => throw_msg (s "'" ++ as_str p1 ++ s "' is incompatible with boolean value") p1
          end
      | R_hex_value => Ok (VHexColor (as_str p1))
      | R_backquoted_quoted_string => Ok (VExpr (pairs_as_str (into_inner p1)))
      | _ => throw_rules [R_string_value; R_number_value; R_boolean_value; R_hex_value;
                          R_backquoted_quoted_string] p1
      end
  end.

(** parser/mod.rs:926-968 *)
Definition parse_attribute (p : pair) : outcome attribute_t :=
  try_fold (fun acc p1 =>
    match p_rule p1 with
    | R_spaced_var =>
        match id_raw (at_key acc) with
        | [] => Ok (mkAttr (at_span acc) (mkIdent (span_of p1) (as_str p1) (as_str p1)) (at_value acc))
        | _ => Ok (mkAttr (at_span acc) (at_key acc)
                     (Some (mkLiteral (span_of p1) (as_str p1) (VEnum (as_str p1)))))
        end
    | R_value =>
        let? v := parse_value p1 in
        Ok (mkAttr (at_span acc) (at_key acc) (Some (mkLiteral (span_of p1) (as_str p1) v)))
    | R_double_quoted_string =>
        Ok (mkAttr (at_span acc) (at_key acc)
              (Some (mkLiteral (span_of p1) (as_str p1) (VString (pairs_as_str (into_inner p1))))))
    | _ => throw_rules [R_value; R_spaced_var; R_double_quoted_string] p1
    end) (into_inner p) (mkAttr (span_of p) ident0 None).

(** parser/mod.rs:970-983 *)
Definition parse_property (p : pair) : outcome property_t :=
  let? init := parse_attribute p in
  match at_value init with
  | Some v => Ok (mkProp (at_span init) (at_key init) v)
  | None => throw_rules [R_property] p
  end.

(** [attr.value.clone().map(|v| v.value.to_string())] *)
Definition attr_value_string (a : attribute_t) : option str :=
  option_map (fun l => value_to_string (lit_value l)) (at_value a).

(** Settings that are just attribute lists: parser/mod.rs:197-210 and 577-590. *)
Definition parse_attributes (p : pair) : outcome (list attribute_t) :=
  try_map (fun p1 => match p_rule p1 with
                     | R_attribute => parse_attribute p1
                     | _ => throw_rules [R_attribute] p1
                     end) (into_inner p).

(** parser/mod.rs:197-210 *)
Definition parse_table_settings (p : pair) : outcome table_settings_t :=
  let? l := parse_attributes p in Ok (mkTableSettings (span_of p) l).

(** parser/mod.rs:577-590 *)
Definition parse_table_group_settings (p : pair) : outcome group_settings_t :=
  let? l := parse_attributes p in Ok (mkGroupSettings (span_of p) l).

(** parser/mod.rs:644-671 *)
Definition parse_note_decl (p : pair) : outcome note_t :=
  (fix go (l : list pair) : outcome note_t :=
     match l with
     | [] => Panic
     | p1 :: l' =>
         match p_rule p1 with
         | R_note_short | R_note_block =>
             (* first inner pair decides: return or throw; empty: next p1 *)
             match into_inner p1 with
             | [] => go l'
             | p2 :: _ =>
                 match p_rule p2 with
                 | R_string_value =>
                     omap (fun v => mkNote (span_of p1) (mkLiteral (span_of p2) (as_str p2) (VString v)))
                          (parse_string_value p2)
                 | _ => throw_rules [R_string_value] p2
                 end
             end
         | _ => throw_rules [R_note_short; R_note_block] p1
         end
     end) (into_inner p).

(** parser/mod.rs:102-141 *)
Definition project0 (sp : range) : project_t := mkProject sp [] ident0 None None.
Definition parse_project_decl (p : pair) : outcome project_t :=
  try_fold (fun acc p1 =>
    match p_rule p1 with
    | R_ident =>
        let? i := parse_ident p1 in
        Ok (mkProject (pj_span acc) (pj_properties acc) i (pj_database_type acc) (pj_note acc))
    | R_project_block =>
        try_fold (fun acc p2 =>
          match p_rule p2 with
          | R_property =>
              let? prop := parse_property p2 in
              let db := if str_eqb (id_str (pr_key prop)) (s "database_type") then
                          match lit_value (pr_value prop) with
                          | VString name => Some (database_type_from_str name)
                          | _ => pj_database_type acc
                          end
                        else pj_database_type acc in
              Ok (mkProject (pj_span acc) (pj_properties acc ++ [prop]) (pj_ident acc) db (pj_note acc))
          | R_note_decl =>
              let? n := parse_note_decl p2 in
              Ok (mkProject (pj_span acc) (pj_properties acc) (pj_ident acc) (pj_database_type acc) (Some n))
          | _ => throw_rules [R_property; R_note_decl] p2
          end) (into_inner p1) acc
    | _ => throw_rules [R_project_block] p1
    end) (into_inner p) (project0 (span_of p)).

(** parser/mod.rs:294-303 *)
Definition parse_col_type_arg (p : pair) : outcome (list value_t) :=
  try_fold (fun acc p1 =>
    match p_rule p1 with
    | R_value => let? v := parse_value p1 in Ok (acc ++ [v])
    | _ => throw_rules [R_value] p1
    end) (into_inner p) [].

(** parser/mod.rs:232-238 *)
Definition build_type_name_with_schema (sch : option ident_t) (tn : pair) : str :=
  match sch with
  | Some i => id_str i ++ s "." ++ as_str tn
  | None => as_str tn
  end.

(** parser/mod.rs:262-274, the array dimension *)
Definition parse_col_type_array (p : pair) : outcome (option N) :=
  try_fold (fun _ p3 =>
    match p_rule p3 with
    | R_integer => match parse_u32 (as_str p3) with
                   | Some v => Ok (Some v)
                   | None => throw_msg int_overflow_msg p3
                   end
    | _ => throw_rules [R_integer] p3
    end) (into_inner p) None.

(** parser/mod.rs:240-292; the state is (schema, out) *)
Definition parse_col_type (p : pair) : outcome col_type_t :=
  omap snd (try_fold (fun (acc : option ident_t * col_type_t) p1 =>
    let '(sch, out) := acc in
    match p_rule p1 with
    | R_ident => let? i := parse_ident p1 in Ok (Some i, out)
    | R_col_type_quoted | R_col_type_unquoted =>
        omap (fun o => (sch, o)) (try_fold (fun out p2 =>
          match p_rule p2 with
          | R_var | R_spaced_var =>
              Ok (mkColType (ct_span out) (ct_raw out)
                    (CT_Raw (build_type_name_with_schema sch p2)) (ct_args out) (ct_arrays out))
          | R_col_type_arg =>
              let? a := parse_col_type_arg p2 in
              Ok (mkColType (ct_span out) (ct_raw out) (ct_type_name out) a (ct_arrays out))
          | R_col_type_array =>
              let? v := parse_col_type_array p2 in
              Ok (mkColType (ct_span out) (ct_raw out) (ct_type_name out) (ct_args out) (ct_arrays out ++ [v]))
          | _ => throw_rules [R_var; R_spaced_var; R_col_type_arg; R_col_type_array] p2
          end) (into_inner p1) out)
    | _ => throw_rules [R_col_type_quoted; R_col_type_unquoted] p1
    end) (into_inner p) (None, mkColType (span_of p) (as_str p) CT_Undef [] [])).

(** parser/mod.rs:503-535; the state is (tmp_tokens, compositions) *)
Definition parse_ref_ident (p : pair) : outcome ref_ident_t :=
  let? st := try_fold (fun (acc : list ident_t * list ident_t) p1 =>
      let '(toks, comps) := acc in
      match p_rule p1 with
      | R_ident => let? i := parse_ident p1 in Ok (toks ++ [i], comps)
      | R_ref_composition =>
          omap (fun c => (toks, c)) (try_fold (fun comps p2 =>
            match p_rule p2 with
            | R_ident => let? i := parse_ident p2 in Ok (comps ++ [i])
            | _ => throw_rules [R_ident] p2
            end) (into_inner p1) comps)
      | _ => throw_rules [R_ident; R_ref_composition] p1
      end) (into_inner p) ([], []) in
  match fst st with
  | [t] => Ok (mkRefIdent (span_of p) None t (snd st))
  | [sc; t] => Ok (mkRefIdent (span_of p) (Some sc) t (snd st))
  | _ => Panic
  end.

(** [Relation::from_str] error text, refs.rs:52 *)
Definition rel_msg (x : str) : str := s "invalid relation symbol '" ++ x ++ s "'".

(** parser/mod.rs:479-501 *)
Definition parse_ref_inline (p : pair) : outcome ref_inline_t :=
  try_fold (fun acc p1 =>
    match p_rule p1 with
    | R_relation =>
        match relation_from_str (as_str p1) with
        | Some r => Ok (mkRefInline (rin_span acc) r (rin_rhs acc))
        | None => throw_msg (rel_msg (as_str p1)) p1
        end
    | R_ref_ident =>
        let? i := parse_ref_ident p1 in Ok (mkRefInline (rin_span acc) (rin_rel acc) i)
    | _ => throw_rules [R_relation; R_ref_ident] p1
    end) (into_inner p) (mkRefInline (span_of p) Undef ref_ident0).

(** parser/mod.rs:317-330: the effect of one column attribute *)
Definition col_settings_add_attr (acc : col_settings_t) (attr : attribute_t) : col_settings_t :=
  let k := id_str (at_key attr) in
  let '(mkColSettings sp attrs pk un nu inc nt df rf) := acc in
  let attrs' := attrs ++ [attr] in
  if str_eqb k (s "unique") then mkColSettings sp attrs' pk true nu inc nt df rf
  else if str_eqb k (s "primary key") || str_eqb k (s "pk")
       then mkColSettings sp attrs' true un nu inc nt df rf
  else if str_eqb k (s "null") then mkColSettings sp attrs' pk un (Some Null) inc nt df rf
  else if str_eqb k (s "not null") then mkColSettings sp attrs' pk un (Some NotNull) inc nt df rf
  else if str_eqb k (s "increment") then mkColSettings sp attrs' pk un nu true nt df rf
  else if str_eqb k (s "default")
       then mkColSettings sp attrs' pk un nu inc nt (option_map lit_value (at_value attr)) rf
  else if str_eqb k (s "note")
       then mkColSettings sp attrs' pk un nu inc (attr_value_string attr) df rf
  else mkColSettings sp attrs' pk un nu inc nt df rf.

Definition col_settings0 (sp : range) : col_settings_t :=
  mkColSettings sp [] false false None false None None [].

Definition col_settings_add_ref (acc : col_settings_t) (r : ref_inline_t) : col_settings_t :=
  let '(mkColSettings sp attrs pk un nu inc nt df rf) := acc in
  mkColSettings sp attrs pk un nu inc nt df (rf ++ [r]).

(** parser/mod.rs:305-342 *)
Definition parse_col_settings (p : pair) : outcome col_settings_t :=
  try_fold (fun acc p1 =>
    match p_rule p1 with
    | R_col_attribute =>
        try_fold (fun acc p2 =>
          match p_rule p2 with
          | R_attribute => let? a := parse_attribute p2 in Ok (col_settings_add_attr acc a)
          | R_ref_inline => let? r := parse_ref_inline p2 in Ok (col_settings_add_ref acc r)
          | _ => throw_rules [R_ref_inline; R_attribute] p2
          end) (into_inner p1) acc
    | _ => throw_rules [R_col_attribute] p1
    end) (into_inner p) (col_settings0 (span_of p)).

(** parser/mod.rs:212-230 *)
Definition parse_table_col (p : pair) : outcome table_col_t :=
  try_fold (fun acc p1 =>
    match p_rule p1 with
    | R_ident => let? i := parse_ident p1 in
                 Ok (mkTableCol (tc_span acc) i (tc_type acc) (tc_settings acc))
    | R_col_type => let? t := parse_col_type p1 in
                    Ok (mkTableCol (tc_span acc) (tc_name acc) t (tc_settings acc))
    | R_col_settings => let? x := parse_col_settings p1 in
                        Ok (mkTableCol (tc_span acc) (tc_name acc) (tc_type acc) (Some x))
    | _ => throw_rules [R_ident; R_col_type; R_col_settings] p1
    end) (into_inner p) (mkTableCol (span_of p) ident0 col_type0 None).

(** parser/mod.rs:718-749 *)
Definition parse_indexes_ident (p : pair) : outcome indexes_col :=
  match into_inner p with
  | [] => Panic
  | p1 :: _ =>
      match p_rule p1 with
      | R_ident => omap ICString (parse_ident p1)
      | R_backquoted_quoted_string =>
          match into_inner p1 with
          | [] => Panic
          | p2 :: _ =>
              match p_rule p2 with
              | R_backquoted_quoted_value =>
                  Ok (ICExpr (mkLiteral (span_of p1) (as_str p1) (VString (as_str p2))))
              | _ => throw_rules [R_backquoted_quoted_value] p2
              end
          end
      | _ => throw_rules [R_ident; R_backquoted_quoted_string] p1
      end
  end.

(** parser/mod.rs:751-788 *)
Definition indexes_settings0 (sp : range) : indexes_settings_t :=
  mkIndexesSettings sp [] None false false None None.
Definition idx_type_msg (x : str) : str := s "'" ++ x ++ s "' type is not supported!".
Definition parse_indexes_settings (p : pair) : outcome indexes_settings_t :=
  try_fold (fun acc p1 =>
    match p_rule p1 with
    | R_attribute =>
        let? attr := parse_attribute p1 in
        let k := id_str (at_key attr) in
        let '(mkIndexesSettings sp attrs ty un pk nt nm) := acc in
        let attrs' := attrs ++ [attr] in
        if str_eqb k (s "unique") then Ok (mkIndexesSettings sp attrs' ty true pk nt nm)
        else if str_eqb k (s "pk") then Ok (mkIndexesSettings sp attrs' ty un true nt nm)
        else if str_eqb k (s "type") then
          match attr_value_string attr with
          | Some v => match indexes_type_from_str v with
                      | Some t => Ok (mkIndexesSettings sp attrs' (Some t) un pk nt nm)
                      | None => throw_msg (idx_type_msg v) p1
                      end
          | None => Ok (mkIndexesSettings sp attrs' None un pk nt nm)
          end
        else if str_eqb k (s "name") then
          Ok (mkIndexesSettings sp attrs' ty un pk nt (attr_value_string attr))
        else if str_eqb k (s "note") then
          Ok (mkIndexesSettings sp attrs' ty un pk (attr_value_string attr) nm)
        else Ok (mkIndexesSettings sp attrs' ty un pk nt nm)
    | _ => throw_rules [R_attribute] p1
    end) (into_inner p) (indexes_settings0 (span_of p)).

(** parser/mod.rs:701-716 *)
Definition parse_indexes_single_multi (p : pair) : outcome indexes_def :=
  try_fold (fun acc p1 =>
    match p_rule p1 with
    | R_indexes_ident =>
        let? c := parse_indexes_ident p1 in
        Ok (mkIndexesDef (idf_span acc) (idf_cols acc ++ [c]) (idf_settings acc))
    | R_indexes_settings =>
        let? x := parse_indexes_settings p1 in
        Ok (mkIndexesDef (idf_span acc) (idf_cols acc) (Some x))
    | _ => throw_rules [R_indexes_ident; R_indexes_settings] p1
    end) (into_inner p) (mkIndexesDef (span_of p) [] None).

(** parser/mod.rs:685-699 *)
Definition parse_indexes_block (p : pair) : outcome indexes_block_t :=
  try_fold (fun acc p1 =>
    match p_rule p1 with
    | R_indexes_single | R_indexes_multi =>
        let? d := parse_indexes_single_multi p1 in
        Ok (mkIndexesBlock (ib_span acc) (ib_defs acc ++ [d]))
    | _ => throw_rules [R_indexes_single; R_indexes_multi] p1
    end) (into_inner p) (mkIndexesBlock (span_of p) []).

(** parser/mod.rs:673-683 *)
Definition parse_indexes_decl (p : pair) : outcome indexes_block_t :=
  match into_inner p with
  | [] => Panic
  | p1 :: _ => match p_rule p1 with
               | R_indexes_block => parse_indexes_block p1
               | _ => throw_rules [R_indexes_block] p1
               end
  end.

(** parser/mod.rs:143-195 *)
Definition table0 (sp : range) : table_t :=
  mkTable sp [] (mkTableIdent range0 ident0 None None) None None None.
Definition parse_table_decl (p : pair) : outcome table_t :=
  try_fold (fun acc p1 =>
    let '(mkTable sp cols id nt ix st) := acc in
    match p_rule p1 with
    | R_decl_ident =>
        let? d := parse_decl_ident p1 in
        Ok (mkTable sp cols (mkTableIdent (span_of p1) (snd d) (fst d) (ti_alias id)) nt ix st)
    | R_table_alias =>
        try_fold (fun acc p2 =>
          match p_rule p2 with
          | R_ident =>
              let? a := parse_ident p2 in
              let '(mkTable sp cols id nt ix st) := acc in
              Ok (mkTable sp cols (mkTableIdent (ti_span id) (ti_name id) (ti_schema id) (Some a)) nt ix st)
          | _ => throw_rules [R_ident] p2
          end) (into_inner p1) acc
    | R_table_block =>
        try_fold (fun acc p2 =>
          let '(mkTable sp cols id nt ix st) := acc in
          match p_rule p2 with
          | R_table_col => let? c := parse_table_col p2 in Ok (mkTable sp (cols ++ [c]) id nt ix st)
          | R_note_decl => let? n := parse_note_decl p2 in Ok (mkTable sp cols id (Some n) ix st)
          | R_indexes_decl => let? i := parse_indexes_decl p2 in Ok (mkTable sp cols id nt (Some i) st)
          | _ => throw_rules [R_table_col; R_note_decl; R_indexes_decl] p2
          end) (into_inner p1) acc
    | R_block_settings =>
        let? x := parse_table_settings p1 in Ok (mkTable sp cols id nt ix (Some x))
    | _ => throw_rules [R_decl_ident; R_table_alias; R_table_block; R_block_settings] p1
    end) (into_inner p) (table0 (span_of p)).

(** parser/mod.rs:389-412 *)
Definition parse_enum_settings (p : pair) : outcome enum_value_settings_t :=
  try_fold (fun acc p2 =>
    match p_rule p2 with
    | R_attribute =>
        let? attr := parse_attribute p2 in
        let nt := if str_eqb (id_str (at_key attr)) (s "note") then attr_value_string attr
                  else evs_note acc in
        Ok (mkEnumValueSettings (evs_span acc) (evs_attributes acc ++ [attr]) nt)
    | _ => throw_rules [R_attribute] p2
    end) (into_inner p) (mkEnumValueSettings (span_of p) [] None).

(** parser/mod.rs:380-418 *)
Definition parse_enum_value (p : pair) : outcome enum_value_t :=
  try_fold (fun acc p1 =>
    match p_rule p1 with
    | R_ident => let? i := parse_ident p1 in Ok (mkEnumValue (ev_span acc) i (ev_settings acc))
    | R_enum_settings =>
        let? x := parse_enum_settings p1 in Ok (mkEnumValue (ev_span acc) (ev_value acc) (Some x))
    | _ => throw_rules [R_ident; R_enum_settings] p1
    end) (into_inner p) (mkEnumValue (span_of p) ident0 None).

(** parser/mod.rs:368-378 *)
Definition parse_enum_block (p : pair) : outcome (list enum_value_t) :=
  try_map (fun p1 => match p_rule p1 with
                     | R_enum_value => parse_enum_value p1
                     | _ => throw_rules [R_enum_value] p1
                     end) (into_inner p).

(** parser/mod.rs:344-366 *)
Definition parse_enum_decl (p : pair) : outcome enum_t :=
  try_fold (fun acc p1 =>
    match p_rule p1 with
    | R_decl_ident =>
        let? d := parse_decl_ident p1 in
        Ok (mkEnum (en_span acc) (mkEnumIdent (span_of p1) (fst d) (snd d)) (en_values acc))
    | R_enum_block =>
        let? v := parse_enum_block p1 in Ok (mkEnum (en_span acc) (en_ident acc) v)
    | _ => throw_rules [R_decl_ident; R_enum_block] p1
    end) (into_inner p) (mkEnum (span_of p) (mkEnumIdent range0 None ident0) []).

(** parser/mod.rs:604-631: the referential action of an attribute value *)
Definition parse_ref_action (attr : attribute_t) (p1 : pair) : outcome (option ref_action) :=
  match at_value attr with
  | Some (mkLiteral _ _ (VEnum v)) =>
      match ref_action_from_str v with
      | Some a => Ok (Some a)
      | None => throw_msg (s "invalid referential action") p1
      end
  | _ => Ok None
  end.

(** parser/mod.rs:592-642 *)
Definition parse_rel_settings (p : pair) : outcome ref_settings_t :=
  try_fold (fun acc p1 =>
    match p_rule p1 with
    | R_attribute =>
        let? attr := parse_attribute p1 in
        let k := id_str (at_key attr) in
        let attrs' := rs_attributes acc ++ [attr] in
        if str_eqb k (s "update") then
          let? a := parse_ref_action attr p1 in
          Ok (mkRefSettings (rs_span acc) attrs' (rs_on_delete acc) a)
        else if str_eqb k (s "delete") then
          let? a := parse_ref_action attr p1 in
          Ok (mkRefSettings (rs_span acc) attrs' a (rs_on_update acc))
        else Ok (mkRefSettings (rs_span acc) attrs' (rs_on_delete acc) (rs_on_update acc))
    | _ => throw_rules [R_attribute] p1
    end) (into_inner p) (mkRefSettings (span_of p) [] None None).

(** parser/mod.rs:448-477 *)
Definition parse_ref_stmt (p : pair) : outcome ref_block_t :=
  try_fold (fun acc p1 =>
    let '(mkRefBlock sp nm rel lhs rhs st) := acc in
    match p_rule p1 with
    | R_relation =>
        match relation_from_str (as_str p1) with
        | Some r => Ok (mkRefBlock sp nm r lhs rhs st)
        | None => throw_msg (rel_msg (as_str p1)) p1
        end
    | R_ref_ident =>
        let? v := parse_ref_ident p1 in
        if relation_eqb rel Undef then Ok (mkRefBlock sp nm rel v rhs st)
        else Ok (mkRefBlock sp nm rel lhs v st)
    | R_rel_settings =>
        let? x := parse_rel_settings p1 in Ok (mkRefBlock sp nm rel lhs rhs (Some x))
    | _ => throw_rules [R_relation; R_ref_ident; R_rel_settings] p1
    end) (into_inner p) (mkRefBlock (span_of p) None Undef ref_ident0 ref_ident0 None).

(** parser/mod.rs:426-439: the inner loop of [parse_ref_decl]; [inl] = returned *)
Fixpoint ref_decl_inner (name : option ident_t) (l : list pair) : outcome (option ref_block_t) :=
  match l with
  | [] => Ok None
  | p2 :: l' =>
      match p_rule p2 with
      | R_ref_stmt =>
          omap (fun o => Some (mkRefBlock (rb_span o) name (rb_rel o) (rb_lhs o) (rb_rhs o) (rb_settings o)))
               (parse_ref_stmt p2)
      | R_ident => let? i := parse_ident p2 in ref_decl_inner (Some i) l'
      | _ => throw_rules [R_ref_stmt; R_ident] p2
      end
  end.

(** parser/mod.rs:420-446 *)
Definition parse_ref_decl (p : pair) : outcome ref_block_t :=
  (fix go (l : list pair) : outcome ref_block_t :=
     match l with
     | [] => Panic
     | p1 :: l' =>
         match p_rule p1 with
         | R_ref_block | R_ref_short =>
             let? r := ref_decl_inner None (into_inner p1) in
             match r with
             | Some b => Ok b
             | None => go l'
             end
         | _ => throw_rules [R_ref_block; R_ref_short] p1
         end
     end) (into_inner p).

(** parser/mod.rs:537-575 *)
Definition parse_table_group_decl (p : pair) : outcome group_t :=
  try_fold (fun acc p1 =>
    let '(mkGroup sp id nt items st) := acc in
    match p_rule p1 with
    | R_ident => let? i := parse_ident p1 in Ok (mkGroup sp i nt items st)
    | R_table_group_block =>
        try_fold (fun acc p2 =>
          let '(mkGroup sp id nt items st) := acc in
          match p_rule p2 with
          | R_decl_ident =>
              let? d := parse_decl_ident p2 in
              Ok (mkGroup sp id nt (items ++ [mkGroupItem (span_of p2) (fst d) (snd d)]) st)
          | R_note_decl => let? n := parse_note_decl p2 in Ok (mkGroup sp id (Some n) items st)
          | _ => throw_rules [R_decl_ident; R_note_decl] p2
          end) (into_inner p1) acc
    | R_block_settings =>
        let? x := parse_table_group_settings p1 in Ok (mkGroup sp id nt items (Some x))
    | _ => throw_rules [R_ident; R_table_group_block; R_block_settings] p1
    end) (into_inner p) (mkGroup (span_of p) ident0 None [] None).

(** parser/mod.rs:68-100 *)
Definition parse_block (p1 : pair) : outcome (option block) :=
  match p_rule p1 with
  | R_project_decl => omap (fun x => Some (BProject x)) (parse_project_decl p1)
  | R_table_decl => omap (fun x => Some (BTable x)) (parse_table_decl p1)
  | R_enum_decl => omap (fun x => Some (BEnum x)) (parse_enum_decl p1)
  | R_ref_decl => omap (fun x => Some (BRef x)) (parse_ref_decl p1)
  | R_note_decl => omap (fun x => Some (BNote x)) (parse_note_decl p1)
  | R_table_group_decl => omap (fun x => Some (BTableGroup x)) (parse_table_group_decl p1)
  | R_EOI => Ok None
  | _ => throw_rules [R_project_decl; R_table_decl; R_enum_decl; R_ref_decl; R_table_group_decl] p1
  end.
Definition parse_schema (p : pair) (input : str) : outcome schema_t :=
  try_fold (fun acc p1 =>
    let? b := parse_block p1 in
    match b with
    | Some b => Ok (mkSchema (sb_span acc) (sb_input acc) (sb_blocks acc ++ [b]))
    | None => Ok acc
    end) (into_inner p) (mkSchema (span_of p) input []).

(** parser/mod.rs:57-66 = [dbml_rs::parse_dbml_unchecked] (src/lib.rs:27).
    [None]: the grammar run would not terminate (proved impossible). *)
Definition parse_dbml_unchecked (input : str) : option (outcome schema_t) :=
  match run schema NonAtomic 0 input with
  | RLoop => None
  | RFail => Some (Err ErGrammar)
  | ROk _ _ [] => Some Panic
  | ROk _ _ (p :: _) =>
      Some (match p_rule p with
            | R_schema => parse_schema p input
            | _ => throw_rules [R_schema] p
            end)
  end.
