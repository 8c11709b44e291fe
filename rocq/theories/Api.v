(** * Api: src/lib.rs. *)

From Verif Require Export Parser Analyzer.

(** lib.rs:59-63 [parse_dbml]: parse, analyse, and return the AST as parsed. *)
Definition parse_dbml (input : str) : option (outcome schema_t) :=
  match parse_dbml_unchecked input with
  | None => None
  | Some r => Some (let? ast := r in omap (fun _ => ast) (analyze ast))
  end.
