(** * Err: results and errors (src/parser/err.rs, src/analyzer/err.rs). *)

From Verif Require Export Peg Ast.

(** src/analyzer/err.rs:116-134 *)
Inductive fk_err : Set :=
| FK_NeitherUniqueNorPrimary | FK_NeitherUniqueNorPrimaryComposite
| FK_One2One | FK_One2OneComposite | FK_Many2Many | FK_Many2ManyComposite.

(** src/analyzer/err.rs:18-114 (u32 [n_arg] as [N]) *)
Inductive sem_err : Set :=
| NullablePrimaryKey | ArrayPrimaryKey | InvalidIndexesSetting | DuplicateAttributeKey
| DuplicatePropertyKey | DuplicateProjectSetting | DuplicatePrimaryKey | DuplicateUniqueKey
| DuplicateIndexKey | DuplicateTableName | DuplicateColumnName | ConflictRelation
| DuplicateEnumName | DuplicateEnumValue | DuplicateTableGroupName | DuplicateTableGroupItem
| DuplicateAlias | ConflictNullableSetting | ProjectSettingNotFound | EmptyIndexesBlock
| InvalidEnum | InvalidDataType
| InvalidDataTypeArguments (raw_type : str) (n_arg : N)
| InvalidArgumentValue
| InvalidDefaultValue (raw_value raw_type : str)
| DefaultNullInNonNullable
| DataTypeExceeded (raw_type : str)
| TableGroupNotFound | SchemaNotFound | TableNotFound | ColumnNotFound | EnumNotFound
| EnumValueNotFound
| MismatchedForeignKeyType (r_ident l_ident r_type l_type : str)
| InvalidForeignKey (err : fk_err)
| MismatchedCompositeForeignKey.

(** [pest::error::Error<Rule>] as this crate builds it:
    - [ErGrammar]: [DBMLParser::parse] failed (what it reports is in [Track]);
    - [ErRules]: [throw_rules] (src/parser/err.rs:13-21);
    - [ErMsg]: [throw_msg] (src/parser/err.rs:23-30);
    - [ErSem]: [throw_err] (src/analyzer/err.rs:136-145); the [Display] text of the
      variant is represented by the variant itself. *)
Inductive error : Set :=
| ErGrammar
| ErRules (rules : list rule) (sp : range)
| ErMsg (msg : str) (sp : range)
| ErSem (e : sem_err) (sp : range).

(** [Result<A, Error<Rule>>] plus the panic path ([unreachable!], [unwrap] on
    [None], out-of-bounds indexing). *)
Inductive outcome (A : Type) : Type :=
| Ok (a : A)
| Err (e : error)
| Panic.
Arguments Ok {A} a.
Arguments Err {A} e.
Arguments Panic {A}.

Definition bind {A B} (x : outcome A) (f : A -> outcome B) : outcome B :=
  match x with
  | Ok a => f a
  | Err e => Err e
  | Panic => Panic
  end.
(** Rust's [let a = x?; b] *)
Notation "'let?' a := x 'in' b" := (bind x (fun a => b))
  (at level 200, a pattern, x at level 100, b at level 200, right associativity).

Definition omap {A B} (f : A -> B) (x : outcome A) : outcome B :=
  match x with Ok a => Ok (f a) | Err e => Err e | Panic => Panic end.

(** [Iterator::try_fold], and a [for] loop whose body may fail. *)
Fixpoint try_fold {A B} (f : B -> A -> outcome B) (l : list A) (acc : B) : outcome B :=
  match l with
  | [] => Ok acc
  | a :: l' => let? acc' := f acc a in try_fold f l' acc'
  end.

(** [iter.map(f).collect::<Result<Vec<_>, _>>()] *)
Fixpoint try_map {A B} (f : A -> outcome B) (l : list A) : outcome (list B) :=
  match l with
  | [] => Ok []
  | a :: l' => let? b := f a in let? bs := try_map f l' in Ok (b :: bs)
  end.

(** src/parser/err.rs:13-30 *)
Definition throw_rules {A} (rs : list rule) (p : pair) : outcome A := Err (ErRules rs (span_of p)).
Definition throw_msg {A} (m : str) (p : pair) : outcome A := Err (ErMsg m (span_of p)).

(** [pest::Span::new(input, start, end)] is [Some] iff [input.get(start..end)] is. *)
Definition span_ok (input : str) (sp : range) : bool :=
  match slice input (fst sp) (snd sp) with Some _ => true | None => false end.

(** src/analyzer/err.rs:136-145: [Span::new(..).unwrap()] panics on a bad span. *)
Definition throw_err {A} (e : sem_err) (sp : range) (input : str) : outcome A :=
  if span_ok input sp then Err (ErSem e sp) else Panic.
