(** * Track: where a grammar error is reported, and with which rules.

    pest 2.7, [ParserState::rule], [track], [attempts_at], [lookahead] and [state]:
    beside parsing, the parser state remembers the furthest position at which a rule
    failed ([attempt_pos]) and the rules that failed there ([pos_attempts]; those that
    matched under a negative lookahead are in [neg_attempts]).  When parsing fails,
    [pest::state] turns them into
    [Error::new_from_pos(ErrorVariant::ParsingError { positives, negatives }, attempt_pos)],
    which [parse_dbml] and [parse_dbml_unchecked] pass on (src/parser/mod.rs:67 [?]).

    The evaluator is [Peg.eval] with that state threaded through; backtracking does not
    undo it.  Implicit skipping runs its rules atomically, where nothing is tracked, so
    it leaves the state alone.  [skip_until] and the other primitives track nothing. *)

From Verif Require Export Optim.

Inductive look : Set := LkNone | LkPositive | LkNegative.
Record tracked : Set := mkTracked { attempt_pos : N; pos_attempts : list rule; neg_attempts : list rule }.

(** [ParserState::attempts_at] *)
Definition attempts_at (w : tracked) (pos : N) : nat :=
  if attempt_pos w =? pos then (List.length (pos_attempts w) + List.length (neg_attempts w))%nat else O.

(** [ParserState::track] *)
Definition track (a : atomicity) (lk : look) (r : rule) (pos : N) (pi ni prev : nat) (w : tracked) : tracked :=
  match a with
  | Atomic => w
  | _ =>
      if Nat.eqb (attempts_at w pos) (S prev) then w
      else
        let w1 := if pos =? attempt_pos w then mkTracked (attempt_pos w) (firstn pi (pos_attempts w)) (firstn ni (neg_attempts w)) else w in
        let w2 := if attempt_pos w1 <? pos then mkTracked pos [] [] else w1 in
        if pos =? attempt_pos w2 then
          match lk with
          | LkNegative => mkTracked pos (pos_attempts w2) (neg_attempts w2 ++ [r])
          | _ => mkTracked pos (pos_attempts w2 ++ [r]) (neg_attempts w2)
          end
        else w2
  end.

(** [ParserState::rule] around its body: [a] is the atomicity around the call. *)
Definition rule_tracked (a : atomicity) (lk : look) (r : rule) (pos : N) (w : tracked) (run : tracked -> pres * tracked) : pres * tracked :=
  let here := attempt_pos w =? pos in
  let pi := if here then List.length (pos_attempts w) else O in
  let ni := if here then List.length (neg_attempts w) else O in
  let prev := attempts_at w pos in
  let '(res, w') := run w in
  match res, lk with
  | ROk _ _ _, LkNegative => (res, track a lk r pos pi ni prev w')
  | RFail, LkNone | RFail, LkPositive => (res, track a lk r pos pi ni prev w')
  | _, _ => (res, w')
  end.
(** [ParserState::lookahead] with [is_positive = false] *)
Definition flip (lk : look) : look := match lk with LkNegative => LkPositive | _ => LkNegative end.

Section EvalT.
  Variable skip : str -> pres.

  Fixpoint repeat_t (f : N -> str -> tracked -> pres * tracked) (fuel : nat) (off : N) (inp : str) (w : tracked) : pres * tracked :=
    match fuel with
    | O => (RLoop, w)
    | S n =>
        let '(res, w1) := f off inp w in
        match res with
        | RFail => (ROk [] inp [], w1)
        | RLoop => (RLoop, w1)
        | ROk t inp' ps =>
            let '(res2, w2) := repeat_t f n (off + blen t) inp' w1 in
            (match res2 with
             | ROk t2 inp2 ps2 => ROk (t ++ t2) inp2 (ps ++ ps2)
             | RFail => RFail
             | RLoop => RLoop
             end, w2)
        end
    end.
  Definition bind_t (r : pres * tracked) (off : N) (g : N -> str -> tracked -> pres * tracked) : pres * tracked :=
    let '(res, w) := r in
    match res with
    | ROk t1 inp1 ps1 =>
        let '(res2, w2) := g (off + blen t1) inp1 w in
        (match res2 with
         | ROk t2 inp2 ps2 => ROk (t1 ++ t2) inp2 (ps1 ++ ps2)
         | RFail => RFail
         | RLoop => RLoop
         end, w2)
    | RFail => (RFail, w)
    | RLoop => (RLoop, w)
    end.
  Definition emit_t (a : atomicity) (r : rule) (off : N) (x : pres * tracked) : pres * tracked := (emit a r off (fst x), snd x).

  Fixpoint eval_t (e : pexp) (a : atomicity) (lk : look) (off : N) (inp : str) (w : tracked) {struct e} : pres * tracked :=
    match e with
    | ESeq e1 e2 =>
        bind_t (bind_t (eval_t e1 a lk off inp w) off (fun _ i w => (do_skip skip a i, w))) off (eval_t e2 a lk)
    | EAlt e1 e2 =>
        let '(res, w1) := eval_t e1 a lk off inp w in
        match res with
        | RFail => eval_t e2 a lk off inp w1
        | _ => (res, w1)
        end
    | EOpt e1 =>
        let '(res, w1) := eval_t e1 a lk off inp w in
        match res with
        | RFail => (ROk [] inp [], w1)
        | _ => (res, w1)
        end
    | ERep e1 =>
        match a with
        | NonAtomic =>
            let '(res, w1) := eval_t e1 a lk off inp w in
            match res with
            | RFail => (ROk [] inp [], w1)
            | _ => bind_t (res, w1) off
                     (fun off1 inp1 =>
                        repeat_t (fun o i w => bind_t (do_skip skip a i, w) o (eval_t e1 a lk))
                                 (fuel_for inp1) off1 inp1)
            end
        | _ => repeat_t (eval_t e1 a lk) (fuel_for inp) off inp w
        end
    | ENot e1 =>
        let '(res, w1) := eval_t e1 a (flip lk) off inp w in
        (match res with
         | RFail => ROk [] inp []
         | ROk _ _ _ => RFail
         | RLoop => RLoop
         end, w1)
    (* [{}]: rule(r, body); [@{}]: rule(r, atomic(body)); [${}]: atomic(rule(r, body)) *)
    | ERule r TNormal body => emit_t a r off (rule_tracked a lk r off w (eval_t body a lk off inp))
    | ERule r TAtomic body => emit_t a r off (rule_tracked a lk r off w (eval_t body Atomic lk off inp))
    | ERule r TCompound body => emit_t CompoundAtomic r off (rule_tracked CompoundAtomic lk r off w (eval_t body CompoundAtomic lk off inp))
    | _ => (eval skip e a off inp, w)
    end.
End EvalT.

(** The derived [Ord] of [Rule]: [EOI], then the rules in the order of src/dbml.pest. *)
Definition rule_index (r : rule) : N :=
  match r with
  | R_EOI => 0
  | R_single_line_comment => 3
  | R_multi_line_comment => 4
  | R_double_quoted_value => 5
  | R_double_quoted_string => 6
  | R_single_quoted_value => 7
  | R_single_quoted_string => 8
  | R_backquoted_quoted_value => 9
  | R_backquoted_quoted_string => 10
  | R_triple_quoted_value => 11
  | R_triple_quoted_string => 12
  | R_var => 13
  | R_spaced_var => 14
  | R_ident => 15
  | R_property => 16
  | R_attribute => 17
  | R_block_settings => 18
  | R_string_value => 19
  | R_integer => 20
  | R_decimal => 21
  | R_number_value => 22
  | R_boolean_value => 23
  | R_hex_value => 24
  | R_value => 25
  | R_decl_ident => 26
  | R_relation => 27
  | R_rel_settings => 28
  | R_ref_composition => 29
  | R_ref_ident => 30
  | R_ref_inline => 31
  | R_ref_stmt => 32
  | R_ref_short => 33
  | R_ref_block => 34
  | R_ref_decl => 35
  | R_note_short => 37
  | R_note_block => 38
  | R_note_decl => 39
  | R_indexes_settings => 40
  | R_indexes_ident => 41
  | R_indexes_multi => 42
  | R_indexes_single => 43
  | R_indexes_block => 44
  | R_indexes_decl => 45
  | R_enum_settings => 46
  | R_enum_value => 47
  | R_enum_block => 48
  | R_enum_decl => 49
  | R_col_attribute => 50
  | R_col_settings => 51
  | R_col_type_arg => 52
  | R_col_type_array => 53
  | R_col_type_unquoted => 54
  | R_col_type_quoted => 55
  | R_col_type => 56
  | R_table_col => 57
  | R_table_block => 58
  | R_table_alias => 59
  | R_table_decl => 60
  | R_table_group_block => 61
  | R_table_group_decl => 62
  | R_project_block => 63
  | R_project_decl => 64
  | R_schema => 65
  end.
(** [sort] and [dedup] *)
Fixpoint insert (r : rule) (l : list rule) : list rule :=
  match l with
  | [] => [r]
  | x :: l' => if rule_index r <? rule_index x then r :: l else if rule_index r =? rule_index x then l else x :: insert r l'
  end.
Fixpoint sort_dedup (l : list rule) : list rule :=
  match l with
  | [] => []
  | r :: l' => insert r (sort_dedup l')
  end.

(** [pest::state]: what a failed parse reports.  [None] when the text is DBML. *)
Record grammar_report : Set := mkReport { rep_pos : N; rep_positives : list rule; rep_negatives : list rule }.
Definition grammar_error (inp : str) : option grammar_report :=
  match eval_t skip oschema NonAtomic LkNone 0 inp (mkTracked 0 [] []) with
  | (RFail, w) => Some (mkReport (attempt_pos w) (sort_dedup (pos_attempts w)) (sort_dedup (neg_attempts w)))
  | _ => None
  end.
