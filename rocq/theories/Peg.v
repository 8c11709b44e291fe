(** * Peg: the runtime of the [pest] parser generator (pest 2.7), as used by
    [#[derive(Parser)] #[grammar = "src/dbml.pest"]] (src/parser/mod.rs:18-20).

    Modelled: the code pest_generator emits for each grammar construct and the
    [ParserState] combinators it calls ([sequence], [optional], [repeat],
    [lookahead], [rule], [atomic], [match_string], [match_insensitive],
    [match_range], [skip], [start_of_input], [end_of_input]).  The token queue is
    represented by the tree of pairs it encodes.

    Simplifications:
    - grammar failure carries no information here ([Track] adds pest's furthest-failure
      position and expected-rule lists);
    - pest's optimizer is not applied here; it is modelled in [PestMeta] and [Optim] and proved
      harmless (C64);
    - a rule reference is the rule's definition itself: dbml.pest is not
      recursive, so every rule body can be inlined, and evaluation is structural
      recursion on the expression.  Only [e*] needs fuel; running out of fuel is
      the explicit outcome [RLoop] ("pest would not terminate"). *)

From Verif Require Export Str.

(** The [Rule] enum that pest_derive generates from src/dbml.pest. *)
Inductive rule : Set :=
| R_EOI
| R_single_line_comment | R_multi_line_comment
| R_double_quoted_value | R_double_quoted_string
| R_single_quoted_value | R_single_quoted_string
| R_backquoted_quoted_value | R_backquoted_quoted_string
| R_triple_quoted_value | R_triple_quoted_string
| R_var | R_spaced_var | R_ident
| R_property | R_attribute | R_block_settings
| R_string_value | R_integer | R_decimal | R_number_value | R_boolean_value
| R_hex_value | R_value
| R_decl_ident
| R_relation | R_rel_settings | R_ref_composition | R_ref_ident | R_ref_inline
| R_ref_stmt | R_ref_short | R_ref_block | R_ref_decl
| R_note_short | R_note_block | R_note_decl
| R_indexes_settings | R_indexes_ident | R_indexes_multi | R_indexes_single
| R_indexes_block | R_indexes_decl
| R_enum_settings | R_enum_value | R_enum_block | R_enum_decl
| R_col_attribute | R_col_settings | R_col_type_arg | R_col_type_array
| R_col_type_unquoted | R_col_type_quoted | R_col_type | R_table_col
| R_table_block | R_table_alias | R_table_decl
| R_table_group_block | R_table_group_decl
| R_project_block | R_project_decl
| R_schema.

(** [pest::Atomicity]. *)
Inductive atomicity : Set := NonAtomic | CompoundAtomic | Atomic.

(** The modifier of a rule definition: [{}], [@{}], [${}].  (The silent rules
    WHITESPACE, COMMENT and the built-ins emit no token and are inlined.) *)
Inductive rtype : Set := TNormal | TAtomic | TCompound.

(** Grammar expressions. *)
Inductive pexp : Set :=
| EStr (x : str)                 (* "..."   : match_string *)
| EInsens (x : str)              (* ^"..."  : match_insensitive *)
| ERange (lo hi : char)          (* 'a'..'z': match_range *)
| EAny                           (* ANY *)
| ESoi                           (* SOI *)
| EEnd                           (* the body of EOI: end_of_input *)
| ESeq (a b : pexp)              (* a ~ b *)
| EAlt (a b : pexp)              (* a | b *)
| EOpt (a : pexp)                (* a? *)
| ERep (a : pexp)                (* a* *)
| ENot (a : pexp)                (* !a *)
| ERule (r : rule) (t : rtype) (body : pexp).

(** [pest::iterators::Pair]: rule, span, the text under the span ([as_str]) and
    the inner pairs ([into_inner]). *)
Inductive pair : Set :=
| Pair (p_rule : rule) (p_start p_end : N) (p_txt : str) (p_inner : list pair).

Definition p_rule (p : pair) := let (r, _, _, _, _) := p in r.
Definition p_start (p : pair) := let (_, a, _, _, _) := p in a.
Definition p_end (p : pair) := let (_, _, b, _, _) := p in b.
Definition as_str (p : pair) := let (_, _, _, t, _) := p in t.
Definition into_inner (p : pair) := let (_, _, _, _, i) := p in i.

(** src/parser/helper.rs:6-8 [s2r] composed with [Pair::as_span]. *)
Definition span_of (p : pair) : range := (p_start p, p_end p).

(** Result of running one expression at a position: the text consumed, the
    remaining input and the pairs emitted. *)
Inductive pres : Set :=
| ROk (txt rest : str) (ps : list pair)
| RFail
| RLoop.

(** [match_string]: prefix test. *)
Fixpoint strip_prefix (x inp : str) : option str :=
  match x with
  | [] => Some inp
  | c :: x' => match inp with
               | [] => None
               | d :: inp' => if c =? d then strip_prefix x' inp' else None
               end
  end.

(** [u8::to_ascii_lowercase] on one char. *)
Definition lower (c : char) : char := if (65 <=? c) && (c <=? 90) then c + 32 else c.

(** [match_insensitive]: [eq_ignore_ascii_case] on a slice of the same byte
    length; for the ASCII keywords of dbml.pest this is char-wise. Returns the
    text matched and the rest. *)
Fixpoint strip_prefix_ci (x inp : str) : option (str * str) :=
  match x with
  | [] => Some ([], inp)
  | c :: x' => match inp with
               | [] => None
               | d :: inp' => if lower c =? lower d then
                                match strip_prefix_ci x' inp' with
                                | Some (t, r) => Some (d :: t, r)
                                | None => None
                                end
                              else None
               end
  end.

Section Eval.
  (** [hidden::skip] in non-atomic context: text skipped and the rest. *)
  Variable skip : str -> pres.

  (** Emit a pair unless inside an [@] rule ([ParserState::rule]). *)
  Definition emit (a : atomicity) (r : rule) (off : N) (res : pres) : pres :=
    match res with
    | ROk t rest ps =>
        match a with
        | Atomic => ROk t rest []
        | _ => ROk t rest [Pair r off (off + blen t) t ps]
        end
    | _ => res
    end.

  (** Implicit whitespace/comment skipping between the parts of a sequence. *)
  Definition do_skip (a : atomicity) (inp : str) : pres :=
    match a with
    | NonAtomic => skip inp
    | _ => ROk [] inp []
    end.

  (** Sequencing: run [f], then [g] where [f] stopped. *)
  Definition bind_res (r : pres) (off : N) (g : N -> str -> pres) : pres :=
    match r with
    | ROk t1 inp1 ps1 =>
        match g (off + blen t1) inp1 with
        | ROk t2 inp2 ps2 => ROk (t1 ++ t2) inp2 (ps1 ++ ps2)
        | RFail => RFail
        | RLoop => RLoop
        end
    | RFail => RFail
    | RLoop => RLoop
    end.

  (** [ParserState::repeat]: as many times as possible; never fails. *)
  Fixpoint repeat (f : N -> str -> pres) (fuel : nat) (off : N) (inp : str) : pres :=
    match fuel with
    | O => RLoop
    | S n =>
        match f off inp with
        | RFail => ROk [] inp []
        | RLoop => RLoop
        | ROk t inp' ps =>
            match repeat f n (off + blen t) inp' with
            | ROk t2 inp2 ps2 => ROk (t ++ t2) inp2 (ps ++ ps2)
            | RFail => RFail
            | RLoop => RLoop
            end
        end
    end.

  Definition fuel_for (inp : str) : nat := S (List.length inp).

  Fixpoint eval (e : pexp) (a : atomicity) (off : N) (inp : str) {struct e} : pres :=
    match e with
    | EStr x => match strip_prefix x inp with
                | Some r => ROk x r []
                | None => RFail
                end
    | EInsens x => match strip_prefix_ci x inp with
                   | Some (t, r) => ROk t r []
                   | None => RFail
                   end
    | ERange lo hi => match inp with
                      | c :: r => if (lo <=? c) && (c <=? hi) then ROk [c] r [] else RFail
                      | [] => RFail
                      end
    | EAny => match inp with
              | c :: r => ROk [c] r []
              | [] => RFail
              end
    | ESoi => if off =? 0 then ROk [] inp [] else RFail
    | EEnd => match inp with
              | [] => ROk [] [] []
              | _ => RFail
              end
    | ESeq e1 e2 =>
        (* state.sequence(|s| e1(s).and_then(skip).and_then(e2)) *)
        bind_res (bind_res (eval e1 a off inp) off (fun _ i => do_skip a i)) off (eval e2 a)
    | EAlt e1 e2 =>
        match eval e1 a off inp with
        | RFail => eval e2 a off inp
        | r => r
        end
    | EOpt e1 =>
        match eval e1 a off inp with
        | RFail => ROk [] inp []
        | r => r
        end
    | ERep e1 =>
        match a with
        | NonAtomic =>
            (* sequence(optional(e1 ~ repeat(sequence(skip ~ e1)))) *)
            match eval e1 a off inp with
            | RFail => ROk [] inp []
            | r => bind_res r off
                     (fun off1 inp1 =>
                        repeat (fun o i => bind_res (do_skip a i) o (eval e1 a))
                               (fuel_for inp1) off1 inp1)
            end
        | _ => repeat (eval e1 a) (fuel_for inp) off inp
        end
    | ENot e1 =>
        match eval e1 a off inp with
        | RFail => ROk [] inp []
        | ROk _ _ _ => RFail
        | RLoop => RLoop
        end
    | ERule r TNormal body => emit a r off (eval body a off inp)
    | ERule r TAtomic body => emit a r off (eval body Atomic off inp)
    | ERule r TCompound body => emit CompoundAtomic r off (eval body CompoundAtomic off inp)
    end.
End Eval.
