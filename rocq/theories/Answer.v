(** * Answer: comparing the answers to two texts.

    Specification only.  [is_accepted t]: [parse_dbml] returns [Ok].  [same_answer]: both
    texts are accepted with the same meaning, or both fail in the same way. *)

From Coq Require Import Permutation.
From Verif Require Export Err Api Syntax.

Definition is_accepted (t : str) : Prop := exists x, parse_dbml t = Some (Ok x).

(** An error without the raw spellings it quotes (default values and types, and the
    types in a foreign key mismatch; an unquoted and a quoted type are spelled
    differently).  Column names and everything else stay. *)
Definition sem_kind (e : sem_err) : sem_err :=
  match e with
  | InvalidDefaultValue v _ => InvalidDefaultValue v []
  | DataTypeExceeded _ => DataTypeExceeded []
  | MismatchedForeignKeyType r l _ _ => MismatchedForeignKeyType r l [] []
  | _ => e
  end.
(** Both texts are accepted, with the same meaning, or both fail in the same way; only
    positions and raw spellings may differ. *)
Definition same_answer (p q : option (outcome schema_t)) : Prop :=
  match p, q with
  | Some (Ok x), Some (Ok y) => meaning x = meaning y
  | Some (Err ErGrammar), Some (Err ErGrammar) => True
  | Some (Err (ErMsg _ _)), Some (Err (ErMsg _ _)) => True
  | Some (Err (ErSem e _)), Some (Err (ErSem e' _)) => sem_kind e = sem_kind e'
  | Some Panic, Some Panic => True
  | _, _ => False
  end.

(** ** Texts without some blocks *)
Definition removable_block (b : a_block) : Prop :=
  match b with ANote _ | ARef _ | AGroup _ => True | _ => False end.
(** [b] is [a] without some of its notes, references and table groups. *)
Inductive trimmed_text : a_schema -> a_schema -> Prop :=
| tt_nil : trimmed_text [] []
| tt_keep x b a : trimmed_text b a -> trimmed_text (x :: b) (x :: a)
| tt_drop x b a : removable_block x -> trimmed_text b a -> trimmed_text b (x :: a).

(** ** Texts with index definitions in another order *)
Inductive reindexed_text : a_schema -> a_schema -> Prop :=
| rt_nil : reindexed_text [] []
| rt_same x a b : reindexed_text a b -> reindexed_text (x :: a) (x :: b)
| rt_table sc n al st cols notes pre l l' a b : Permutation l l' -> reindexed_text a b ->
    reindexed_text (ATable (mkATable sc n al st cols notes (pre ++ [l])) :: a)
                   (ATable (mkATable sc n al st cols notes (pre ++ [l'])) :: b).
