(** * MessageSpec: kinds of errors.  Specification only. *)

From Verif Require Export Err.

(** Which rule an error is about: the error without its parameters. *)
Definition same_kind (a b : sem_err) : Prop :=
  match a, b with
  | InvalidDataTypeArguments _ _, InvalidDataTypeArguments _ _ => True
  | InvalidDefaultValue _ _, InvalidDefaultValue _ _ => True
  | DataTypeExceeded _, DataTypeExceeded _ => True
  | MismatchedForeignKeyType _ _ _ _, MismatchedForeignKeyType _ _ _ _ => True
  | _, _ => a = b
  end.
(** The message shows what is wrong. *)
Definition shown_in (x m : str) : Prop := exists a b, m = a ++ s "'" ++ x ++ s "'" ++ b.
(** No quote character, so that the message can be taken apart. *)
Definition unquoted (x : str) : Prop := ~ In 39 x.
Definition params (e : sem_err) : list str :=
  match e with
  | InvalidDataTypeArguments t _ => [t]
  | InvalidDefaultValue v t => [v; t]
  | DataTypeExceeded t => [t]
  | MismatchedForeignKeyType r l rt lt => [r; l; rt; lt]
  | _ => []
  end.
