(** * Samples: concrete DBML texts for the examples beside the theorems. *)

From Verif Require Export Api.

(** The outcome of [parse_dbml] as a value that computes. *)
Definition accepted (inp : str) : option schema_t :=
  match parse_dbml inp with Some (Ok x) => Some x | _ => None end.
Definition parsed (inp : str) : option schema_t :=
  match parse_dbml_unchecked inp with Some (Ok x) => Some x | _ => None end.
Lemma accepted_ok inp x : accepted inp = Some x -> parse_dbml inp = Some (Ok x).
Proof. unfold accepted. destruct (parse_dbml inp) as [[y| |]|]; congruence. Qed.
Lemma parsed_ok inp x : parsed inp = Some x -> parse_dbml_unchecked inp = Some (Ok x).
Proof. unfold parsed. destruct (parse_dbml_unchecked inp) as [[y| |]|]; congruence. Qed.
Definition get {A} (d : A) (o : option A) : A := match o with Some a => a | None => d end.
Definition schema0 : schema_t := mkSchema range0 [] [].

Definition shop : str := s
"Project shop {
  database_type: 'PostgreSQL'
  Note: 'demo'
}
// main tables
Table core.users as U [headercolor: #aabbcc] {
  id integer [pk, increment]
  name varchar(40) [not null, unique, default: 'bob', note: 'full name']
  age smallint [null, default: 21]
  role job_role [default: admin]
  active bool [default: true]
  tags text[][7]
  Indexes {
    (name, age) [type: btree, name: 'by_name']
    `lower(name)`
    (id, age) [unique]
  }
  Note: 'people'
}
Table posts {
  id bigint [primary key]
  author integer [ref: > U.id]
  ""title text"" varchar(255)
  price decimal(10,2)
  a integer
  b smallint [null, default: null]
}
Enum job_role {
  admin [note: 'boss']
  guest
}
Ref follow: core.users.id - posts2.uid [delete: cascade, update: no action]
Ref: posts.(a, b) > core.users.(id, age)
Table posts2 {
  uid integer [unique]
  ch char(3) [default: 'abc']
  n bigint [default: 9]
}
TableGroup g1 {
  U
  posts
}
Note {
  'free text'
}
".
Definition shop_ast : schema_t := Eval vm_compute in get schema0 (accepted shop).
Lemma shop_ok : parse_dbml shop = Some (Ok shop_ast).
Proof. apply accepted_ok. vm_compute. reflexivity. Qed.
Lemma shop_parsed : parse_dbml_unchecked shop = Some (Ok shop_ast).
Proof. apply parsed_ok. vm_compute. reflexivity. Qed.

(** A text accepted apart from its tables. *)
Definition prj (x : string) : str := s "Project p { } " ++ s x.
(** Turns the index definitions of every table round. *)
Definition swap_defs (x : schema_t) : schema_t :=
  mkSchema (sb_span x) (sb_input x) (map (fun b => match b with
    | BTable t => BTable (mkTable (tb_span t) (tb_cols t) (tb_ident t) (tb_note t)
        (option_map (fun ib => mkIndexesBlock (ib_span ib) (rev (ib_defs ib))) (tb_indexes t)) (tb_settings t))
    | b => b end) (sb_blocks x)).
(** Writes [T] for the right-hand table of every reference. *)
Definition respell (x : schema_t) : schema_t :=
  mkSchema (sb_span x) (sb_input x) (map (fun b => match b with
    | BRef r => BRef (mkRefBlock (rb_span r) (rb_name r) (rb_rel r) (rb_lhs r)
        (mkRefIdent (ri_span (rb_rhs r)) (ri_schema (rb_rhs r))
           (mkIdent (id_span (ri_table (rb_rhs r))) (s "T") (s "T")) (ri_compositions (rb_rhs r))) (rb_settings r))
    | b => b end) (sb_blocks x)).
