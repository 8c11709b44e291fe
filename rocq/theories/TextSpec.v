(** * TextSpec: how identifiers and literals are written in DBML.

    A small specification, independent of the parser model (it uses only the AST
    types, [Layout] and the decimal value of a digit string). *)

From Verif Require Import Layout Ast.
From Verif Require Export F64Spec.

Definition letter (c : char) : Prop := (97 <= c /\ c <= 122) \/ (65 <= c /\ c <= 90).
Definition digit (c : char) : Prop := 48 <= c /\ c <= 57.
Definition hex_digit (c : char) : Prop :=
  digit c \/ (97 <= c /\ c <= 102) \/ (65 <= c /\ c <= 70).
Definition word_char (c : char) : Prop := letter c \/ digit c \/ c = 95.

(** A plain identifier: a letter, then letters, digits and underscores. *)
Definition word (t : str) : Prop := exists c w, t = c :: w /\ letter c /\ Forall word_char w.

(** Words separated by single blanks ("not null", "set default"). *)
Inductive spaced_tail : str -> Prop :=
| st_nil : spaced_tail []
| st_char c t : word_char c -> spaced_tail t -> spaced_tail (c :: t)
| st_space c t : word_char c -> spaced_tail t -> spaced_tail (32 :: c :: t).
Definition spaced_word (t : str) : Prop := exists c w, t = c :: w /\ letter c /\ spaced_tail w.

(** The delimiter [q] occurs in [v ++ q] only at the end. *)
Definition closes_first (q v : str) : Prop := forall a b, v ++ q = a ++ q ++ b -> b = [].

(** [raw] is [v] between two delimiters [q]. *)
Definition quoted_verbatim (q raw v : str) : Prop := raw = q ++ v ++ q /\ closes_first q v.

(** What dbml-rs does outside column types: layout after the opening delimiter is
    dropped; the value is the text after it. *)
Definition quoted (q raw v : str) : Prop :=
  exists g, raw = q ++ g ++ v ++ q /\ gap g /\ no_layout_start v /\ closes_first q v.

Definition dq : str := [34].
Definition sq : str := [39].
Definition bq : str := [96].
Definition tq : str := [39; 39; 39].

(** An identifier: [raw] as written, [name] what it denotes. *)
Definition ident_text (raw name : str) : Prop :=
  (word raw /\ name = raw) \/ quoted dq raw name.

Definition digits (d : str) : Prop := d <> [] /\ Forall digit d.

(** [spells raw v]: the literal text [raw] denotes the value [v]. *)
Inductive spells : str -> value_t -> Prop :=
| sp_single raw v : quoted sq raw v -> spells raw (VString v)
| sp_triple raw v : quoted tq raw v -> spells raw (VString v)
| sp_double raw v : quoted dq raw v -> spells raw (VString v)
| sp_expr raw v : quoted bq raw v -> spells raw (VExpr v)
| sp_int d : digits d -> digits_value 0 d <= 9223372036854775807 ->
    spells d (VInteger (Z.of_N (digits_value 0 d)))
| sp_dec d1 d2 f : digits d1 -> Forall digit d2 -> nearest64 (decimal_value d1 d2) f ->
    spells (d1 ++ s "." ++ d2) (VDecimal f)
| sp_true : spells (s "true") (VBool true)
| sp_false : spells (s "false") (VBool false)
| sp_null : spells (s "null") VNull
| sp_hex h : Forall hex_digit h -> (List.length h = 3 \/ List.length h = 6)%nat ->
    spells (s "#" ++ h) (VHexColor (s "#" ++ h))
| sp_enum raw : spaced_word raw -> spells raw (VEnum raw).
