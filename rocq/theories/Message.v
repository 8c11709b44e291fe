(** * Message: the texts of errors.

    [#[derive(Display)]] of src/analyzer/err.rs, and the [message] of the
    [ErrorVariant::CustomError] that [throw_msg] and [throw_err] build. *)

From Verif Require Export Err.

(** src/analyzer/err.rs:116-134 *)
Definition fk_message (e : fk_err) : str :=
  match e with
  | FK_NeitherUniqueNorPrimary => s "the referenced column is neither a primary key or a unique key"
  | FK_NeitherUniqueNorPrimaryComposite => s "the referenced column is neither a composite primary key or a composite unique key"
  | FK_One2One => s "either side of the one-to-one relation must be a primary key or a unique key"
  | FK_One2OneComposite => s "either side of the composite one-to-one relation must be a composite primary key or a composite unique key"
  | FK_Many2Many => s "both sides of the many-to-many relation must be a primary key or a unique key"
  | FK_Many2ManyComposite => s "both sides of the composite many-to-many relation must be either a composite primary key or a composite unique key"
  end.

(** src/analyzer/err.rs:18-114 *)
Definition message (e : sem_err) : str :=
  match e with
  | NullablePrimaryKey => s "Nullable primary key: a nullable primary is not allowed"
  | ArrayPrimaryKey => s "Array primary key: an array with primary is not allowed"
  | InvalidIndexesSetting => s "Invalid indexes setting: can specify either 'pk', 'unique', or 'type' within a setting"
  | DuplicateAttributeKey => s "Duplicate attribute key"
  | DuplicatePropertyKey => s "Duplicate property key"
  | DuplicateProjectSetting => s "Duplicate project setting"
  | DuplicatePrimaryKey => s "Duplicate primary key"
  | DuplicateUniqueKey => s "Duplicate unique key"
  | DuplicateIndexKey => s "Duplicate index key"
  | DuplicateTableName => s "Duplicate table name"
  | DuplicateColumnName => s "Duplicate column name"
  | ConflictRelation => s "Conflict relation"
  | DuplicateEnumName => s "Duplicate enum name"
  | DuplicateEnumValue => s "Duplicate enum value"
  | DuplicateTableGroupName => s "Duplicate table group name"
  | DuplicateTableGroupItem => s "Duplicate table group item"
  | DuplicateAlias => s "Duplicate alias"
  | ConflictNullableSetting => s "Conflict nullable setting: 'null' and 'not null' must not appear within the same setting"
  | ProjectSettingNotFound => s "Project setting not found"
  | EmptyIndexesBlock => s "Empty indexes block"
  | InvalidEnum => s "Invalid enum"
  | InvalidDataType => s "Invalid data type"
  | InvalidDataTypeArguments raw_type n_arg =>
      s "Invalid data type arguments: '" ++ raw_type ++ s "' requires only " ++ dec_of_N n_arg ++ s " argument(s)"
  | InvalidArgumentValue => s "Invalid argument value: the value for the argument is not integer"
  | InvalidDefaultValue raw_value raw_type =>
      s "Invalid default value: the defualt value '" ++ raw_value ++ s "' is not associated with '" ++ raw_type ++ s "'"
  | DefaultNullInNonNullable => s "Default null in non-nullable: the default value cannot be null in non-nullable field"
  | DataTypeExceeded raw_type => s "Data type exceeded: the default value exceeds the maximum value of '" ++ raw_type ++ s "'"
  | TableGroupNotFound => s "Table group not found"
  | SchemaNotFound => s "Schema not found"
  | TableNotFound => s "Table not found"
  | ColumnNotFound => s "Column not found"
  | EnumNotFound => s "Enum not found"
  | EnumValueNotFound => s "Enum value not found"
  | MismatchedForeignKeyType r_ident l_ident r_type l_type =>
      s "Mismatched foreign key type: '" ++ l_ident ++ s "': '" ++ l_type ++ s "' (left) and '" ++ r_ident ++ s "': '" ++ r_type
        ++ s "' (right) are incompatible"
  | InvalidForeignKey err => s "Invalid foreign key: " ++ fk_message err
  | MismatchedCompositeForeignKey => s "Mismatched composite foreign key"
  end.

(** The [message] of [ErrorVariant::CustomError { message }]: src/parser/err.rs:23-30 and
    src/analyzer/err.rs:136-145.  [None] for a [ParsingError]. *)
Definition custom_message (e : error) : option str :=
  match e with
  | ErGrammar | ErRules _ _ => None
  | ErMsg m _ => Some m
  | ErSem e _ => Some (message e)
  end.
