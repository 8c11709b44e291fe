(** * PestMeta: reading a .pest file and pest's grammar passes.

    pest_meta 2.7, as run by [#[derive(Parser)] #[grammar = "src/dbml.pest"]]
    (src/parser/mod.rs:18-20): the grammar-file syntax (only what dbml.pest uses), then
    the passes of [optimizer::optimize] in their order.  [skip] is not applied here: it
    needs a primitive of its own, see [skip_until] below; [restore_on_err] concerns the
    stack operators, which dbml.pest does not use. *)

From Verif Require Import Shown Optim.
From Verif Require Export Grammar.

(** pest_meta's [ast::Expr]. *)
Inductive sexp : Set :=
| SStr (x : str) | SIns (x : str) | SId (x : str)
| SSeq (a b : sexp) | SAlt (a b : sexp)
| SOpt (a : sexp) | SRep (a : sexp) | SPlus (a : sexp)
| SExact (a : sexp) (n : nat) | SMinMax (a : sexp) (n m : nat)
| SNot (a : sexp).
(** [RuleType] of pest_meta: [{}], [_{}], [@{}], [${}]. *)
Inductive smod : Set := MNormal | MSilent | MAtomic | MCompound.
Record srule : Set := mkSrule { sr_name : str; sr_mod : smod; sr_body : sexp }.

(** ** Tokens of a .pest file *)
Inductive token : Set :=
| KName (x : str) | KStr (x : str) | KNum (n : nat) | KSym (c : char).
Definition is_alpha_ (c : char) : bool := ((97 <=? c) && (c <=? 122)) || ((65 <=? c) && (c <=? 90)) || (c =? 95).
Definition is_digit (c : char) : bool := (48 <=? c) && (c <=? 57).
Fixpoint take_while (f : char -> bool) (i : str) : str * str :=
  match i with
  | c :: i' => if f c then let (x, r) := take_while f i' in (c :: x, r) else ([], i)
  | [] => ([], [])
  end.
(** A string up to its closing quote; the escapes of dbml.pest are backslash-quote
    and backslash-t. *)
Fixpoint string_body (i : str) : option (str * str) :=
  match i with
  | 34 :: r => Some ([], r)
  | 92 :: c :: r =>
      match string_body r with
      | Some (x, r') =>
          if c =? 116 then Some (9 :: x, r') else if (c =? 34) || (c =? 92) then Some (c :: x, r') else None
      | None => None
      end
  | c :: r => match string_body r with Some (x, r') => Some (c :: x, r') | None => None end
  | [] => None
  end.
Fixpoint tokens (fuel : nat) (i : str) : option (list token) :=
  match fuel with
  | O => None
  | S n =>
      match i with
      | [] => Some []
      | 47 :: 47 :: r => tokens n (snd (take_while (fun c => negb (c =? 10)) r))
      | 34 :: r => match string_body r with
                   | Some (x, r') => option_map (cons (KStr x)) (tokens n r')
                   | None => None
                   end
      | c :: r =>
          if (c =? 32) || (c =? 10) || (c =? 9) then tokens n r
          else if is_digit c then
            let (d, r') := take_while is_digit i in option_map (cons (KNum (N.to_nat (fold_left (fun n c => 10 * n + (c - 48)) d 0)))) (tokens n r')
          else if is_alpha_ c then
            let (x, r') := take_while (fun c => is_alpha_ c || is_digit c) i in option_map (cons (KName x)) (tokens n r')
          else option_map (cons (KSym c)) (tokens n r)
      end
  end.

(** ** Expressions: postfix operators bind tightest, then [!], then [~], then [|]; the
    two infix operators are left associative. *)
Fixpoint postfix (fuel : nat) (a : sexp) (k : list token) : sexp * list token :=
  match fuel with
  | O => (a, k)
  | S n =>
      match k with
      | KSym 63 :: k' => postfix n (SOpt a) k'                                          (* ? *)
      | KSym 42 :: k' => postfix n (SRep a) k'                                          (* * *)
      | KSym 43 :: k' => postfix n (SPlus a) k'                                         (* + *)
      | KSym 123 :: KNum x :: KSym 125 :: k' => postfix n (SExact a x) k'               (* {n} *)
      | KSym 123 :: KNum x :: KSym 44 :: KNum y :: KSym 125 :: k' => postfix n (SMinMax a x y) k'  (* {n,m} *)
      | _ => (a, k)
      end
  end.
Fixpoint infix (op : char) (mk : sexp -> sexp -> sexp) (p : list token -> option (sexp * list token))
  (fuel : nat) (a : sexp) (k : list token) : option (sexp * list token) :=
  match fuel with
  | O => None
  | S n =>
      match k with
      | KSym c :: k' =>
          if c =? op then match p k' with Some (b, r) => infix op mk p n (mk a b) r | None => None end
          else Some (a, k)
      | _ => Some (a, k)
      end
  end.
Fixpoint expr (fuel : nat) (k : list token) : option (sexp * list token) :=
  match fuel with
  | O => None
  | S n =>
      let node := fun k =>
        match k with
        | KStr x :: k' => Some (SStr x, k')
        | KSym 94 :: KStr x :: k' => Some (SIns x, k')                                  (* ^ *)
        | KName x :: k' => Some (SId x, k')
        | KSym 40 :: k' => match expr n k' with Some (a, KSym 41 :: r) => Some (a, r) | _ => None end  (* ( ) *)
        | _ => None
        end in
      let post := fun k => match node k with Some (a, r) => Some (postfix n a r) | None => None end in
      let term := fun k =>
        match k with
        | KSym 33 :: k' => match post k' with Some (a, r) => Some (SNot a, r) | None => None end  (* ! *)
        | _ => post k
        end in
      let seq := fun k => match term k with Some (a, r) => infix 126 SSeq term n a r | None => None end in
      match seq k with Some (a, r) => infix 124 SAlt seq n a r | None => None end
  end.
Fixpoint rules (fuel : nat) (k : list token) : option (list srule) :=
  match fuel with
  | O => None
  | S n =>
      let rest := fun x m k =>
        match expr n k with
        | Some (e, KSym 125 :: r) => option_map (cons (mkSrule x m e)) (rules n r)
        | _ => None
        end in
      match k with
      | [] => Some []
      | KName x :: KSym 61 :: KSym 123 :: k' => rest x MNormal k'
      | KName x :: KSym 61 :: KName [95] :: KSym 123 :: k' => rest x MSilent k'
      | KName x :: KSym 61 :: KSym 64 :: KSym 123 :: k' => rest x MAtomic k'
      | KName x :: KSym 61 :: KSym 36 :: KSym 123 :: k' => rest x MCompound k'
      | _ => None
      end
  end.
Definition read_pest (t : str) : option (list srule) :=
  match tokens (S (List.length t)) t with Some k => rules (S (List.length k)) k | None => None end.

(** ** The passes *)
(** optimizer/rotater.rs: [~] and [|] become right associative. *)
Fixpoint seq_onto (a b : sexp) : sexp := match a with SSeq x y => SSeq x (seq_onto y b) | _ => SSeq a b end.
Fixpoint alt_onto (a b : sexp) : sexp := match a with SAlt x y => SAlt x (alt_onto y b) | _ => SAlt a b end.
Fixpoint rotate (e : sexp) : sexp :=
  match e with
  | SSeq a b => seq_onto (rotate a) (rotate b)
  | SAlt a b => alt_onto (rotate a) (rotate b)
  | SOpt a => SOpt (rotate a) | SRep a => SRep (rotate a) | SPlus a => SPlus (rotate a)
  | SExact a n => SExact (rotate a) n | SMinMax a n m => SMinMax (rotate a) n m
  | SNot a => SNot (rotate a)
  | _ => e
  end.
(** optimizer/unroller.rs: [+], [{n}] and [{n,m}] become [~], [*] and [?]. *)
Fixpoint copies (a : sexp) (n : nat) : sexp := match n with O | S O => a | S k => SSeq a (copies a k) end.
Fixpoint min_max (a : sexp) (n m : nat) : sexp :=
  let x := match n with O => SOpt a | S _ => a end in
  match m with O | S O => x | S k => SSeq x (min_max a (pred n) k) end.
Fixpoint unroll (e : sexp) : sexp :=
  match e with
  | SSeq a b => SSeq (unroll a) (unroll b)
  | SAlt a b => SAlt (unroll a) (unroll b)
  | SOpt a => SOpt (unroll a) | SRep a => SRep (unroll a)
  | SPlus a => let a' := unroll a in SSeq a' (SRep a')
  | SExact a n => copies (unroll a) n
  | SMinMax a n m => min_max (unroll a) n m
  | SNot a => SNot (unroll a)
  | _ => e
  end.
Definition sexp_eq_dec (a b : sexp) : {a = b} + {a <> b}.
Proof. decide equality; (apply Nat.eq_dec || (apply list_eq_dec; apply N.eq_dec)). Defined.
(** optimizer/concatenator.rs: in [@] rules, neighbouring literals are joined. *)
Fixpoint concatenate (e : sexp) : sexp :=
  match e with
  | SSeq a b =>
      match concatenate a, concatenate b with
      | SStr x, SStr y => SStr (x ++ y)
      | SIns x, SIns y => SIns (x ++ y)
      | a', b' => SSeq a' b'
      end
  | SAlt a b => SAlt (concatenate a) (concatenate b)
  | SOpt a => SOpt (concatenate a) | SRep a => SRep (concatenate a) | SPlus a => SPlus (concatenate a)
  | SExact a n => SExact (concatenate a) n | SMinMax a n m => SMinMax (concatenate a) n m
  | SNot a => SNot (concatenate a)
  | _ => e
  end.
(** optimizer/factorizer.rs: a common first part of two alternatives is taken out. *)
Definition factor1 (e : sexp) : sexp :=
  match e with
  | SAlt (SSeq l1 r1) (SSeq l2 r2) => if sexp_eq_dec l1 l2 then SSeq l1 (SAlt r1 r2) else e
  | SAlt (SSeq l1 l2) r => if sexp_eq_dec l1 r then SSeq l1 (SOpt l2) else e
  | SAlt l (SSeq r1 r2) => if sexp_eq_dec l r1 then l else e
  | _ => e
  end.
(** Top down; for dbml.pest every visit finds nothing (the pass only goes on below what it
    returns, so on such a grammar the order of visits plays no part). *)
Fixpoint factor (e : sexp) : sexp :=
  factor1 match e with
  | SSeq a b => SSeq (factor a) (factor b) | SAlt a b => SAlt (factor a) (factor b)
  | SOpt a => SOpt (factor a) | SRep a => SRep (factor a) | SPlus a => SPlus (factor a)
  | SExact a n => SExact (factor a) n | SMinMax a n m => SMinMax (factor a) n m
  | SNot a => SNot (factor a)
  | _ => e
  end.
(** optimizer/lister.rs, bottom up. *)
Fixpoint list_pass (e : sexp) : sexp :=
  match e with
  | SSeq a b =>
      let a' := list_pass a in let b' := list_pass b in
      match b' with
      | SRep (SSeq y x) => if sexp_eq_dec a' x then SSeq (SRep (SSeq a' y)) x else SSeq a' b'
      | _ => SSeq a' b'
      end
  | SAlt a b => SAlt (list_pass a) (list_pass b)
  | SOpt a => SOpt (list_pass a) | SRep a => SRep (list_pass a) | SPlus a => SPlus (list_pass a)
  | SExact a n => SExact (list_pass a) n | SMinMax a n m => SMinMax (list_pass a) n m
  | SNot a => SNot (list_pass a)
  | _ => e
  end.
Definition map_body (f : smod -> sexp -> sexp) (r : srule) : srule := mkSrule (sr_name r) (sr_mod r) (f (sr_mod r) (sr_body r)).
(** Desugaring alone, and all the passes. *)
Definition desugar (l : list srule) : list srule := map (map_body (fun _ e => unroll (rotate e))) l.
Definition optimize (l : list srule) : list srule :=
  map (map_body (fun m e =>
    let e := unroll (rotate e) in
    let e := match m with MAtomic => concatenate e | _ => e end in
    list_pass (factor e))) l.

(** ** From rules to one expression: a name stands for the rule of that name, or for a
    built-in of pest. *)
Definition builtin_rule (x : str) : option pexp :=
  if str_eqb x (s "ANY") then Some EAny else if str_eqb x (s "NEWLINE") then Some NEWLINE
  else if str_eqb x (s "ASCII_DIGIT") then Some ASCII_DIGIT else if str_eqb x (s "ASCII_ALPHA") then Some ASCII_ALPHA
  else if str_eqb x (s "ASCII_ALPHANUMERIC") then Some ASCII_ALPHANUMERIC
  else if str_eqb x (s "ASCII_HEX_DIGIT") then Some ASCII_HEX_DIGIT
  else if str_eqb x (s "SOI") then Some ESoi else if str_eqb x (s "EOI") then Some EOI
  else None.
Definition two (f : pexp -> pexp -> pexp) (a b : option pexp) : option pexp :=
  match a, b with Some x, Some y => Some (f x y) | _, _ => None end.
Fixpoint inline_in (name : str -> option pexp) (e : sexp) : option pexp :=
  match e with
  | SStr x => Some (EStr x) | SIns x => Some (EInsens x) | SId x => name x
  | SSeq a b => two ESeq (inline_in name a) (inline_in name b)
  | SAlt a b => two EAlt (inline_in name a) (inline_in name b)
  | SOpt a => option_map EOpt (inline_in name a)
  | SRep a => option_map ERep (inline_in name a)
  | SNot a => option_map ENot (inline_in name a)
  | SPlus _ | SExact _ _ | SMinMax _ _ _ => None
  end.
Definition every_rule : list rule :=
  [R_EOI; R_single_line_comment; R_multi_line_comment; R_double_quoted_value; R_double_quoted_string;
   R_single_quoted_value; R_single_quoted_string; R_backquoted_quoted_value; R_backquoted_quoted_string;
   R_triple_quoted_value; R_triple_quoted_string; R_var; R_spaced_var; R_ident; R_property; R_attribute;
   R_block_settings; R_string_value; R_integer; R_decimal; R_number_value; R_boolean_value; R_hex_value; R_value;
   R_decl_ident; R_relation; R_rel_settings; R_ref_composition; R_ref_ident; R_ref_inline; R_ref_stmt; R_ref_short;
   R_ref_block; R_ref_decl; R_note_short; R_note_block; R_note_decl; R_indexes_settings; R_indexes_ident;
   R_indexes_multi; R_indexes_single; R_indexes_block; R_indexes_decl; R_enum_settings; R_enum_value; R_enum_block;
   R_enum_decl; R_col_attribute; R_col_settings; R_col_type_arg; R_col_type_array; R_col_type_unquoted;
   R_col_type_quoted; R_col_type; R_table_col; R_table_block; R_table_alias; R_table_decl; R_table_group_block;
   R_table_group_decl; R_project_block; R_project_decl; R_schema].
Definition rule_called (x : str) : option rule := find (fun r => str_eqb (rule_name r) x) every_rule.
Fixpoint compile (l : list srule) (depth : nat) (x : str) : option pexp :=
  match builtin_rule x with
  | Some e => Some e
  | None =>
      match depth with
      | O => None
      | S n =>
          match find (fun r => str_eqb (sr_name r) x) l with
          | None => None
          | Some r =>
              match inline_in (compile l n) (sr_body r), sr_mod r, rule_called x with
              | Some e, MSilent, _ => Some e
              | Some e, MNormal, Some k => Some (ERule k TNormal e)
              | Some e, MAtomic, Some k => Some (ERule k TAtomic e)
              | Some e, MCompound, Some k => Some (ERule k TCompound e)
              | _, _, _ => None
              end
          end
      end
  end.

(** Expression [e] is what rule [x] of the .pest file [text] becomes by the passes: the same
    outcome at every place of every text, whatever is skipped implicitly. *)
Definition from_file (text : str) (passes : list srule -> list srule) (x : str) (e : pexp) : Prop :=
  exists l d e', read_pest text = Some l /\ compile (passes l) d x = Some e' /\
    forall sk a off inp, eval sk e' a off inp = eval sk e a off inp.

(** ** The pass [skip] *)
(** [ParserState::skip_until] for one string (what optimizer/skipper.rs makes of
    [(!"x" ~ ANY)*] in an [@] rule): on to the first place where [x] starts, or to the end. *)
Fixpoint skip_until (x : str) (i : str) : str * str :=
  match strip_prefix x i with
  | Some _ => ([], i)
  | None => match i with [] => ([], []) | c :: r => let (t, m) := skip_until x r in (c :: t, m) end
  end.
