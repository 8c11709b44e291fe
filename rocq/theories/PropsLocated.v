(** * PropsLocated: the AST of a text.

    [located t x] (Located): the text [t] stands for the AST [x] — every span, raw
    spelling, decoded name and value, and every field derived from settings. *)

From Verif Require Import Samples LocMain LocUniq Located.
From Verif Require Import Api Parser.

Theorem C66_ast : forall t x, parse_dbml_unchecked t = Some (Ok x) <-> located t x.
Proof. exact located_exact. Qed.
Print Assumptions C66_ast.
Theorem C66_one_ast : forall t x y, located t x -> located t y -> x = y.
Proof. exact located_unique. Qed.
Print Assumptions C66_one_ast.
Theorem C66_checked : forall t x, parse_dbml t = Some (Ok x) -> located t x.
Proof. exact located_checked. Qed.
Print Assumptions C66_checked.

Definition one_table : str := s "Table a{id int[pk, ref: > b.c]} //x".
Definition word_at (a b : N) (w : string) : ident_t := mkIdent (a, b) (s w) (s w).
Definition one_table_ast : schema_t := mkSchema (0, 35) one_table
  [BTable (mkTable (0, 31)
    [mkTableCol (8, 30) (word_at 8 10 "id") (mkColType (11, 14) (s "int") (CT_Raw (s "int")) [] [])
      (Some (mkColSettings (14, 30) [mkAttr (15, 17) (word_at 15 17 "pk") None] true false None false None None
        [mkRefInline (19, 29) Many2One (mkRefIdent (26, 29) None (word_at 26 27 "b") [word_at 28 29 "c"])]))]
    (mkTableIdent (6, 7) (word_at 6 7 "a") None None) None None None)].
Example C66_meets : located one_table one_table_ast.
Proof. apply located_exact. vm_compute. reflexivity. Qed.
Example C66_meets_checked : exists x, parse_dbml (s "Project p{}Table a{id int[pk]}") = Some (Ok x).
Proof. eexists. vm_compute. reflexivity. Qed.
