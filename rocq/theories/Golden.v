(** * Golden: the model against the repository's own expectations (generated by tools/mkgolden.py).

    tests/mod.rs: [format!("{:#?}", parse_dbml_unchecked(input))] equals the file in tests/out;
    every input in tests/dbml/validator is rejected by [parse_dbml]; tests/dbml/checked is accepted.
    These are tests of the model, not theorems about the code. *)

From Verif Require Import DebugFmt.
Set Warnings "-abstract-large-number".

Fixpoint same (a b : str) : bool :=
  match a, b with [], [] => true | x :: a', y :: b' => if N.eqb x y then same a' b' else false | _, _ => false end.
Definition prints (i o : str) : bool := match debug_unchecked i with Some o' => same o o' | None => false end.

(** tests/dbml/array_type.in.dbml *)
Example golden__array_type : prints
(s "Table sal_emp {
  name text
  pay_by_quarter ""int[]"" [not null]
  schedule ""text[][]"" [null]
  unquoted text[] [not null]
  mixed ""character varying""[]
}

Table tictactoe {
  squares ""integer[3][3]""
}
")
(s "SchemaBlock {
    span_range: 0..201,
    input: ""Table sal_emp {\n  name text\n  pay_by_quarter \""int[]\"" [not null]\n  schedule \""text[][]\"" [null]\n  unquoted text[] [not null]\n  mixed \""character varying\""[]\n}\n\nTable tictactoe {\n  squares \""integer[3][3]\""\n}\n"",
    blocks: [
        Table(
            TableBlock {
                span_range: 0..153,
                cols: [
                    TableColumn {
                        span_range: 18..30,
                        name: Ident {
                            span_range: 18..22,
                            raw: ""name"",
                            to_string: ""name"",
                        },
                        type: ColumnType {
                            span_range: 23..27,
                            raw: ""text"",
                            type_name: Raw(
                                ""text"",
                            ),
                            args: [],
                            arrays: [],
                        },
                        settings: None,
                    },
                    TableColumn {
                        span_range: 30..63,
                        name: Ident {
                            span_range: 30..44,
                            raw: ""pay_by_quarter"",
                            to_string: ""pay_by_quarter"",
                        },
                        type: ColumnType {
                            span_range: 45..52,
                            raw: ""\""int[]\"""",
                            type_name: Raw(
                                ""int"",
                            ),
                            args: [],
                            arrays: [
                                None,
                            ],
                        },
                        settings: Some(
                            ColumnSettings {
                                span_range: 53..63,
                                attributes: [
              " ++
 s "                      Attribute {
                                        span_range: 54..62,
                                        key: Ident {
                                            span_range: 54..62,
                                            raw: ""not null"",
                                            to_string: ""not null"",
                                        },
                                        value: None,
                                    },
                                ],
                                is_pk: false,
                                is_unique: false,
                                nullable: Some(
                                    NotNull,
                                ),
                                is_incremental: false,
                                note: None,
                                default: None,
                                refs: [],
                            },
                        ),
                    },
                    TableColumn {
                        span_range: 66..92,
                        name: Ident {
                            span_range: 66..74,
                            raw: ""schedule"",
                            to_string: ""schedule"",
                        },
                        type: ColumnType {
                            span_range: 75..85,
                            raw: ""\""text[][]\"""",
                            type_name: Raw(
                                ""text"",
                            ),
                            args: [],
                            arrays: [
                                None,
                                None,
                            ],
                        },
                        settings: Some(
                            ColumnSettings {
                                span_range: 86..92,
                                attributes: [
                                    Attribute {
               " ++
 s "                         span_range: 87..91,
                                        key: Ident {
                                            span_range: 87..91,
                                            raw: ""null"",
                                            to_string: ""null"",
                                        },
                                        value: None,
                                    },
                                ],
                                is_pk: false,
                                is_unique: false,
                                nullable: Some(
                                    Null,
                                ),
                                is_incremental: false,
                                note: None,
                                default: None,
                                refs: [],
                            },
                        ),
                    },
                    TableColumn {
                        span_range: 95..121,
                        name: Ident {
                            span_range: 95..103,
                            raw: ""unquoted"",
                            to_string: ""unquoted"",
                        },
                        type: ColumnType {
                            span_range: 104..110,
                            raw: ""text[]"",
                            type_name: Raw(
                                ""text"",
                            ),
                            args: [],
                            arrays: [
                                None,
                            ],
                        },
                        settings: Some(
                            ColumnSettings {
                                span_range: 111..121,
                                attributes: [
                                    Attribute {
                                        span_range: 112..120,
                                        key: Ident " ++
 s "{
                                            span_range: 112..120,
                                            raw: ""not null"",
                                            to_string: ""not null"",
                                        },
                                        value: None,
                                    },
                                ],
                                is_pk: false,
                                is_unique: false,
                                nullable: Some(
                                    NotNull,
                                ),
                                is_incremental: false,
                                note: None,
                                default: None,
                                refs: [],
                            },
                        ),
                    },
                    TableColumn {
                        span_range: 124..152,
                        name: Ident {
                            span_range: 124..129,
                            raw: ""mixed"",
                            to_string: ""mixed"",
                        },
                        type: ColumnType {
                            span_range: 130..151,
                            raw: ""\""character varying\""[]"",
                            type_name: Raw(
                                ""character varying"",
                            ),
                            args: [],
                            arrays: [
                                None,
                            ],
                        },
                        settings: None,
                    },
                ],
                ident: TableIdent {
                    span_range: 6..14,
                    name: Ident {
                        span_range: 6..13,
                        raw: ""sal_emp"",
                        to_string: ""sal_emp"",
                    },
                    schema: None,
                    alias:" ++
 s " None,
                },
                note: None,
                indexes: None,
                settings: None,
            },
        ),
        Table(
            TableBlock {
                span_range: 155..200,
                cols: [
                    TableColumn {
                        span_range: 175..199,
                        name: Ident {
                            span_range: 175..182,
                            raw: ""squares"",
                            to_string: ""squares"",
                        },
                        type: ColumnType {
                            span_range: 183..198,
                            raw: ""\""integer[3][3]\"""",
                            type_name: Raw(
                                ""integer"",
                            ),
                            args: [],
                            arrays: [
                                Some(
                                    3,
                                ),
                                Some(
                                    3,
                                ),
                            ],
                        },
                        settings: None,
                    },
                ],
                ident: TableIdent {
                    span_range: 161..171,
                    name: Ident {
                        span_range: 161..170,
                        raw: ""tictactoe"",
                        to_string: ""tictactoe"",
                    },
                    schema: None,
                    alias: None,
                },
                note: None,
                indexes: None,
                settings: None,
            },
        ),
    ],
}") = true.
Proof. vm_compute. reflexivity. Qed.

(** tests/dbml/comment.in.dbml *)
Example golden__comment : prints
(s "Table orders { // abc
  id int [pk] // primary key
  user_id int [not null, unique]
  status varchar [note: 'Status of an order']
  created_at varchar [note: 'When order created'] // add column note

  Indexes { // abc
    id [type: hash] // abc
    created_at // abc
  } // abc

  // abc
} // abc

// acb

Enum products_status { //abc
  out_of_stock
  in_stock [note: 'In stock']
  running_low [note: 'less than 20'] // add column note
  // abc
} //abc")
(s "SchemaBlock {
    span_range: 0..453,
    input: ""Table orders { // abc\n  id int [pk] // primary key\n  user_id int [not null, unique]\n  status varchar [note: 'Status of an order']\n  created_at varchar [note: 'When order created'] // add column note\n\n  Indexes { // abc\n    id [type: hash] // abc\n    created_at // abc\n  } // abc\n\n  // abc\n} // abc\n\n// acb\n\nEnum products_status { //abc\n  out_of_stock\n  in_stock [note: 'In stock']\n  running_low [note: 'less than 20'] // add column note\n  // abc\n} //abc"",
    blocks: [
        Table(
            TableBlock {
                span_range: 0..290,
                cols: [
                    TableColumn {
                        span_range: 24..35,
                        name: Ident {
                            span_range: 24..26,
                            raw: ""id"",
                            to_string: ""id"",
                        },
                        type: ColumnType {
                            span_range: 27..30,
                            raw: ""int"",
                            type_name: Raw(
                                ""int"",
                            ),
                            args: [],
                            arrays: [],
                        },
                        settings: Some(
                            ColumnSettings {
                                span_range: 31..35,
                                attributes: [
                                    Attribute {
                                        span_range: 32..34,
                                        key: Ident {
                                            span_range: 32..34,
                                            raw: ""pk"",
                                            to_string: ""pk"",
                                        },
                                        value: None,
                                    },
                                ],
                                is_pk: t" ++
 s "rue,
                                is_unique: false,
                                nullable: None,
                                is_incremental: false,
                                note: None,
                                default: None,
                                refs: [],
                            },
                        ),
                    },
                    TableColumn {
                        span_range: 53..83,
                        name: Ident {
                            span_range: 53..60,
                            raw: ""user_id"",
                            to_string: ""user_id"",
                        },
                        type: ColumnType {
                            span_range: 61..64,
                            raw: ""int"",
                            type_name: Raw(
                                ""int"",
                            ),
                            args: [],
                            arrays: [],
                        },
                        settings: Some(
                            ColumnSettings {
                                span_range: 65..83,
                                attributes: [
                                    Attribute {
                                        span_range: 66..74,
                                        key: Ident {
                                            span_range: 66..74,
                                            raw: ""not null"",
                                            to_string: ""not null"",
                                        },
                                        value: None,
                                    },
                                    Attribute {
                                        span_range: 76..82,
                                        key: Ident {
                                            span_range: 76..82,
                                            raw: ""unique"",
                                      " ++
 s "      to_string: ""unique"",
                                        },
                                        value: None,
                                    },
                                ],
                                is_pk: false,
                                is_unique: true,
                                nullable: Some(
                                    NotNull,
                                ),
                                is_incremental: false,
                                note: None,
                                default: None,
                                refs: [],
                            },
                        ),
                    },
                    TableColumn {
                        span_range: 86..129,
                        name: Ident {
                            span_range: 86..92,
                            raw: ""status"",
                            to_string: ""status"",
                        },
                        type: ColumnType {
                            span_range: 93..100,
                            raw: ""varchar"",
                            type_name: Raw(
                                ""varchar"",
                            ),
                            args: [],
                            arrays: [],
                        },
                        settings: Some(
                            ColumnSettings {
                                span_range: 101..129,
                                attributes: [
                                    Attribute {
                                        span_range: 102..128,
                                        key: Ident {
                                            span_range: 102..106,
                                            raw: ""note"",
                                            to_string: ""note"",
                                        },
                                        value: Some(
                                      " ++
 s "      Literal {
                                                span_range: 108..128,
                                                raw: ""'Status of an order'"",
                                                value: String(
                                                    ""Status of an order"",
                                                ),
                                            },
                                        ),
                                    },
                                ],
                                is_pk: false,
                                is_unique: false,
                                nullable: None,
                                is_incremental: false,
                                note: Some(
                                    ""Status of an order"",
                                ),
                                default: None,
                                refs: [],
                            },
                        ),
                    },
                    TableColumn {
                        span_range: 132..179,
                        name: Ident {
                            span_range: 132..142,
                            raw: ""created_at"",
                            to_string: ""created_at"",
                        },
                        type: ColumnType {
                            span_range: 143..150,
                            raw: ""varchar"",
                            type_name: Raw(
                                ""varchar"",
                            ),
                            args: [],
                            arrays: [],
                        },
                        settings: Some(
                            ColumnSettings {
                                span_range: 151..179,
                                attributes: [
                                    Attribute {
                                        span_range: 152..178,
                             " ++
 s "           key: Ident {
                                            span_range: 152..156,
                                            raw: ""note"",
                                            to_string: ""note"",
                                        },
                                        value: Some(
                                            Literal {
                                                span_range: 158..178,
                                                raw: ""'When order created'"",
                                                value: String(
                                                    ""When order created"",
                                                ),
                                            },
                                        ),
                                    },
                                ],
                                is_pk: false,
                                is_unique: false,
                                nullable: None,
                                is_incremental: false,
                                note: Some(
                                    ""When order created"",
                                ),
                                default: None,
                                refs: [],
                            },
                        ),
                    },
                ],
                ident: TableIdent {
                    span_range: 6..13,
                    name: Ident {
                        span_range: 6..12,
                        raw: ""orders"",
                        to_string: ""orders"",
                    },
                    schema: None,
                    alias: None,
                },
                note: None,
                indexes: Some(
                    IndexesBlock {
                        span_range: 210..271,
                        defs: [
                            IndexesDef {
                                span_range: 223..238,
    " ++
 s "                            cols: [
                                    String(
                                        Ident {
                                            span_range: 223..225,
                                            raw: ""id"",
                                            to_string: ""id"",
                                        },
                                    ),
                                ],
                                settings: Some(
                                    IndexesSettings {
                                        span_range: 226..238,
                                        attributes: [
                                            Attribute {
                                                span_range: 227..237,
                                                key: Ident {
                                                    span_range: 227..231,
                                                    raw: ""type"",
                                                    to_string: ""type"",
                                                },
                                                value: Some(
                                                    Literal {
                                                        span_range: 233..237,
                                                        raw: ""hash"",
                                                        value: Enum(
                                                            ""hash"",
                                                        ),
                                                    },
                                                ),
                                            },
                                        ],
                                        type: Some(
                                            Hash,
                                        ),
                                        is_unique: false,
                                        is" ++
 s "_pk: false,
                                        note: None,
                                        name: None,
                                    },
                                ),
                            },
                            IndexesDef {
                                span_range: 250..270,
                                cols: [
                                    String(
                                        Ident {
                                            span_range: 250..260,
                                            raw: ""created_at"",
                                            to_string: ""created_at"",
                                        },
                                    ),
                                ],
                                settings: None,
                            },
                        ],
                    },
                ),
                settings: None,
            },
        ),
        Enum(
            EnumBlock {
                span_range: 307..447,
                ident: EnumIdent {
                    span_range: 312..328,
                    schema: None,
                    name: Ident {
                        span_range: 312..327,
                        raw: ""products_status"",
                        to_string: ""products_status"",
                    },
                },
                values: [
                    EnumValue {
                        span_range: 338..353,
                        value: Ident {
                            span_range: 338..350,
                            raw: ""out_of_stock"",
                            to_string: ""out_of_stock"",
                        },
                        settings: None,
                    },
                    EnumValue {
                        span_range: 353..380,
                        value: Ident {
                            span_range: 353..361,
                            raw: ""in_stock"",
                     " ++
 s "       to_string: ""in_stock"",
                        },
                        settings: Some(
                            EnumValueSettings {
                                span_range: 362..380,
                                attributes: [
                                    Attribute {
                                        span_range: 363..379,
                                        key: Ident {
                                            span_range: 363..367,
                                            raw: ""note"",
                                            to_string: ""note"",
                                        },
                                        value: Some(
                                            Literal {
                                                span_range: 369..379,
                                                raw: ""'In stock'"",
                                                value: String(
                                                    ""In stock"",
                                                ),
                                            },
                                        ),
                                    },
                                ],
                                note: Some(
                                    ""In stock"",
                                ),
                            },
                        ),
                    },
                    EnumValue {
                        span_range: 383..417,
                        value: Ident {
                            span_range: 383..394,
                            raw: ""running_low"",
                            to_string: ""running_low"",
                        },
                        settings: Some(
                            EnumValueSettings {
                                span_range: 395..417,
                                attributes: [
                                    Attribute {
                                     " ++
 s "   span_range: 396..416,
                                        key: Ident {
                                            span_range: 396..400,
                                            raw: ""note"",
                                            to_string: ""note"",
                                        },
                                        value: Some(
                                            Literal {
                                                span_range: 402..416,
                                                raw: ""'less than 20'"",
                                                value: String(
                                                    ""less than 20"",
                                                ),
                                            },
                                        ),
                                    },
                                ],
                                note: Some(
                                    ""less than 20"",
                                ),
                            },
                        ),
                    },
                ],
            },
        ),
    ],
}") = true.
Proof. vm_compute. reflexivity. Qed.

(** tests/dbml/composite_pk.in.dbml *)
Example golden__composite_pk : prints
(s "Table users {
  id int [primary key]
  full_name varchar
  email varchar [unique]
  gender varchar
  date_of_birth varchar
  created_at varchar
  country_code int 
  active boolean [not null]
  
  indexes {
    id [pk]
  }
}

Table users {
  id int [primary key]
  full_name varchar
  email varchar [unique]
  gender varchar
  date_of_birth varchar
  created_at varchar
  country_code int 
  active boolean [not null]
  
  indexes {
    (id, full_name, gender) [pk]
  }
}")
(s "SchemaBlock {
    span_range: 0..471,
    input: ""Table users {\n  id int [primary key]\n  full_name varchar\n  email varchar [unique]\n  gender varchar\n  date_of_birth varchar\n  created_at varchar\n  country_code int \n  active boolean [not null]\n  \n  indexes {\n    id [pk]\n  }\n}\n\nTable users {\n  id int [primary key]\n  full_name varchar\n  email varchar [unique]\n  gender varchar\n  date_of_birth varchar\n  created_at varchar\n  country_code int \n  active boolean [not null]\n  \n  indexes {\n    (id, full_name, gender) [pk]\n  }\n}"",
    blocks: [
        Table(
            TableBlock {
                span_range: 0..224,
                cols: [
                    TableColumn {
                        span_range: 16..36,
                        name: Ident {
                            span_range: 16..18,
                            raw: ""id"",
                            to_string: ""id"",
                        },
                        type: ColumnType {
                            span_range: 19..22,
                            raw: ""int"",
                            type_name: Raw(
                                ""int"",
                            ),
                            args: [],
                            arrays: [],
                        },
                        settings: Some(
                            ColumnSettings {
                                span_range: 23..36,
                                attributes: [
                                    Attribute {
                                        span_range: 24..35,
                                        key: Ident {
                                            span_range: 24..35,
                                            raw: ""primary key"",
                                            to_string: ""primary key"",
                                        },
                                        value: None,
                                    },
                                " ++
 s "],
                                is_pk: true,
                                is_unique: false,
                                nullable: None,
                                is_incremental: false,
                                note: None,
                                default: None,
                                refs: [],
                            },
                        ),
                    },
                    TableColumn {
                        span_range: 39..59,
                        name: Ident {
                            span_range: 39..48,
                            raw: ""full_name"",
                            to_string: ""full_name"",
                        },
                        type: ColumnType {
                            span_range: 49..56,
                            raw: ""varchar"",
                            type_name: Raw(
                                ""varchar"",
                            ),
                            args: [],
                            arrays: [],
                        },
                        settings: None,
                    },
                    TableColumn {
                        span_range: 59..81,
                        name: Ident {
                            span_range: 59..64,
                            raw: ""email"",
                            to_string: ""email"",
                        },
                        type: ColumnType {
                            span_range: 65..72,
                            raw: ""varchar"",
                            type_name: Raw(
                                ""varchar"",
                            ),
                            args: [],
                            arrays: [],
                        },
                        settings: Some(
                            ColumnSettings {
                                span_range: 73..81,
                                attributes: [
                                    Attribute {
     " ++
 s "                                   span_range: 74..80,
                                        key: Ident {
                                            span_range: 74..80,
                                            raw: ""unique"",
                                            to_string: ""unique"",
                                        },
                                        value: None,
                                    },
                                ],
                                is_pk: false,
                                is_unique: true,
                                nullable: None,
                                is_incremental: false,
                                note: None,
                                default: None,
                                refs: [],
                            },
                        ),
                    },
                    TableColumn {
                        span_range: 84..101,
                        name: Ident {
                            span_range: 84..90,
                            raw: ""gender"",
                            to_string: ""gender"",
                        },
                        type: ColumnType {
                            span_range: 91..98,
                            raw: ""varchar"",
                            type_name: Raw(
                                ""varchar"",
                            ),
                            args: [],
                            arrays: [],
                        },
                        settings: None,
                    },
                    TableColumn {
                        span_range: 101..125,
                        name: Ident {
                            span_range: 101..114,
                            raw: ""date_of_birth"",
                            to_string: ""date_of_birth"",
                        },
                        type: ColumnType {
                            span_range: 115..122,
                       " ++
 s "     raw: ""varchar"",
                            type_name: Raw(
                                ""varchar"",
                            ),
                            args: [],
                            arrays: [],
                        },
                        settings: None,
                    },
                    TableColumn {
                        span_range: 125..146,
                        name: Ident {
                            span_range: 125..135,
                            raw: ""created_at"",
                            to_string: ""created_at"",
                        },
                        type: ColumnType {
                            span_range: 136..143,
                            raw: ""varchar"",
                            type_name: Raw(
                                ""varchar"",
                            ),
                            args: [],
                            arrays: [],
                        },
                        settings: None,
                    },
                    TableColumn {
                        span_range: 146..166,
                        name: Ident {
                            span_range: 146..158,
                            raw: ""country_code"",
                            to_string: ""country_code"",
                        },
                        type: ColumnType {
                            span_range: 159..162,
                            raw: ""int"",
                            type_name: Raw(
                                ""int"",
                            ),
                            args: [],
                            arrays: [],
                        },
                        settings: None,
                    },
                    TableColumn {
                        span_range: 166..191,
                        name: Ident {
                            span_range: 166..172,
                            raw: ""active"",
                            to_string: ""active"",
 " ++
 s "                       },
                        type: ColumnType {
                            span_range: 173..180,
                            raw: ""boolean"",
                            type_name: Raw(
                                ""boolean"",
                            ),
                            args: [],
                            arrays: [],
                        },
                        settings: Some(
                            ColumnSettings {
                                span_range: 181..191,
                                attributes: [
                                    Attribute {
                                        span_range: 182..190,
                                        key: Ident {
                                            span_range: 182..190,
                                            raw: ""not null"",
                                            to_string: ""not null"",
                                        },
                                        value: None,
                                    },
                                ],
                                is_pk: false,
                                is_unique: false,
                                nullable: Some(
                                    NotNull,
                                ),
                                is_incremental: false,
                                note: None,
                                default: None,
                                refs: [],
                            },
                        ),
                    },
                ],
                ident: TableIdent {
                    span_range: 6..12,
                    name: Ident {
                        span_range: 6..11,
                        raw: ""users"",
                        to_string: ""users"",
                    },
                    schema: None,
                    alias: None,
                },
                note: None,
                ind" ++
 s "exes: Some(
                    IndexesBlock {
                        span_range: 205..222,
                        defs: [
                            IndexesDef {
                                span_range: 211..218,
                                cols: [
                                    String(
                                        Ident {
                                            span_range: 211..213,
                                            raw: ""id"",
                                            to_string: ""id"",
                                        },
                                    ),
                                ],
                                settings: Some(
                                    IndexesSettings {
                                        span_range: 214..218,
                                        attributes: [
                                            Attribute {
                                                span_range: 215..217,
                                                key: Ident {
                                                    span_range: 215..217,
                                                    raw: ""pk"",
                                                    to_string: ""pk"",
                                                },
                                                value: None,
                                            },
                                        ],
                                        type: None,
                                        is_unique: false,
                                        is_pk: true,
                                        note: None,
                                        name: None,
                                    },
                                ),
                            },
                        ],
                    },
                ),
                settings: None,
            },
        ),
        Table(
            TableBlock" ++
 s " {
                span_range: 226..471,
                cols: [
                    TableColumn {
                        span_range: 242..262,
                        name: Ident {
                            span_range: 242..244,
                            raw: ""id"",
                            to_string: ""id"",
                        },
                        type: ColumnType {
                            span_range: 245..248,
                            raw: ""int"",
                            type_name: Raw(
                                ""int"",
                            ),
                            args: [],
                            arrays: [],
                        },
                        settings: Some(
                            ColumnSettings {
                                span_range: 249..262,
                                attributes: [
                                    Attribute {
                                        span_range: 250..261,
                                        key: Ident {
                                            span_range: 250..261,
                                            raw: ""primary key"",
                                            to_string: ""primary key"",
                                        },
                                        value: None,
                                    },
                                ],
                                is_pk: true,
                                is_unique: false,
                                nullable: None,
                                is_incremental: false,
                                note: None,
                                default: None,
                                refs: [],
                            },
                        ),
                    },
                    TableColumn {
                        span_range: 265..285,
                        name: Ident {
                            span_range: 265..274,
      " ++
 s "                      raw: ""full_name"",
                            to_string: ""full_name"",
                        },
                        type: ColumnType {
                            span_range: 275..282,
                            raw: ""varchar"",
                            type_name: Raw(
                                ""varchar"",
                            ),
                            args: [],
                            arrays: [],
                        },
                        settings: None,
                    },
                    TableColumn {
                        span_range: 285..307,
                        name: Ident {
                            span_range: 285..290,
                            raw: ""email"",
                            to_string: ""email"",
                        },
                        type: ColumnType {
                            span_range: 291..298,
                            raw: ""varchar"",
                            type_name: Raw(
                                ""varchar"",
                            ),
                            args: [],
                            arrays: [],
                        },
                        settings: Some(
                            ColumnSettings {
                                span_range: 299..307,
                                attributes: [
                                    Attribute {
                                        span_range: 300..306,
                                        key: Ident {
                                            span_range: 300..306,
                                            raw: ""unique"",
                                            to_string: ""unique"",
                                        },
                                        value: None,
                                    },
                                ],
                                is_pk: false,
                                is_unique: true,
          " ++
 s "                      nullable: None,
                                is_incremental: false,
                                note: None,
                                default: None,
                                refs: [],
                            },
                        ),
                    },
                    TableColumn {
                        span_range: 310..327,
                        name: Ident {
                            span_range: 310..316,
                            raw: ""gender"",
                            to_string: ""gender"",
                        },
                        type: ColumnType {
                            span_range: 317..324,
                            raw: ""varchar"",
                            type_name: Raw(
                                ""varchar"",
                            ),
                            args: [],
                            arrays: [],
                        },
                        settings: None,
                    },
                    TableColumn {
                        span_range: 327..351,
                        name: Ident {
                            span_range: 327..340,
                            raw: ""date_of_birth"",
                            to_string: ""date_of_birth"",
                        },
                        type: ColumnType {
                            span_range: 341..348,
                            raw: ""varchar"",
                            type_name: Raw(
                                ""varchar"",
                            ),
                            args: [],
                            arrays: [],
                        },
                        settings: None,
                    },
                    TableColumn {
                        span_range: 351..372,
                        name: Ident {
                            span_range: 351..361,
                            raw: ""created_at"",
                            to_string: ""crea" ++
 s "ted_at"",
                        },
                        type: ColumnType {
                            span_range: 362..369,
                            raw: ""varchar"",
                            type_name: Raw(
                                ""varchar"",
                            ),
                            args: [],
                            arrays: [],
                        },
                        settings: None,
                    },
                    TableColumn {
                        span_range: 372..392,
                        name: Ident {
                            span_range: 372..384,
                            raw: ""country_code"",
                            to_string: ""country_code"",
                        },
                        type: ColumnType {
                            span_range: 385..388,
                            raw: ""int"",
                            type_name: Raw(
                                ""int"",
                            ),
                            args: [],
                            arrays: [],
                        },
                        settings: None,
                    },
                    TableColumn {
                        span_range: 392..417,
                        name: Ident {
                            span_range: 392..398,
                            raw: ""active"",
                            to_string: ""active"",
                        },
                        type: ColumnType {
                            span_range: 399..406,
                            raw: ""boolean"",
                            type_name: Raw(
                                ""boolean"",
                            ),
                            args: [],
                            arrays: [],
                        },
                        settings: Some(
                            ColumnSettings {
                                span_range: 407..417,
                                attribute" ++
 s "s: [
                                    Attribute {
                                        span_range: 408..416,
                                        key: Ident {
                                            span_range: 408..416,
                                            raw: ""not null"",
                                            to_string: ""not null"",
                                        },
                                        value: None,
                                    },
                                ],
                                is_pk: false,
                                is_unique: false,
                                nullable: Some(
                                    NotNull,
                                ),
                                is_incremental: false,
                                note: None,
                                default: None,
                                refs: [],
                            },
                        ),
                    },
                ],
                ident: TableIdent {
                    span_range: 232..238,
                    name: Ident {
                        span_range: 232..237,
                        raw: ""users"",
                        to_string: ""users"",
                    },
                    schema: None,
                    alias: None,
                },
                note: None,
                indexes: Some(
                    IndexesBlock {
                        span_range: 431..469,
                        defs: [
                            IndexesDef {
                                span_range: 437..465,
                                cols: [
                                    String(
                                        Ident {
                                            span_range: 438..440,
                                            raw: ""id"",
                                            to_string: ""id"",
                          " ++
 s "              },
                                    ),
                                    String(
                                        Ident {
                                            span_range: 442..451,
                                            raw: ""full_name"",
                                            to_string: ""full_name"",
                                        },
                                    ),
                                    String(
                                        Ident {
                                            span_range: 453..459,
                                            raw: ""gender"",
                                            to_string: ""gender"",
                                        },
                                    ),
                                ],
                                settings: Some(
                                    IndexesSettings {
                                        span_range: 461..465,
                                        attributes: [
                                            Attribute {
                                                span_range: 462..464,
                                                key: Ident {
                                                    span_range: 462..464,
                                                    raw: ""pk"",
                                                    to_string: ""pk"",
                                                },
                                                value: None,
                                            },
                                        ],
                                        type: None,
                                        is_unique: false,
                                        is_pk: true,
                                        note: None,
                                        name: None,
                                    },
                                ),
                     " ++
 s "       },
                        ],
                    },
                ),
                settings: None,
            },
        ),
    ],
}") = true.
Proof. vm_compute. reflexivity. Qed.

(** tests/dbml/default_tables.in.dbml *)
Example golden__default_tables : prints
(s "Table orders {
  id int [pk, default: 123]
  user_id int [not null, unique]
  status varchar [default: 'Completed']
  created_at varchar [default: `now()`]
}

Table order_items {
  order_id int
  product_id int
  quantity int
}

Table products {
  id int [pk]
  name varchar [default: null]
  merchant_id int [not null]
  price float [default: 123.12]
  stock boolean [default: true]
  expiration date [default:`current_date + interval 1 year`]
}")
(s "SchemaBlock {
    span_range: 0..446,
    input: ""Table orders {\n  id int [pk, default: 123]\n  user_id int [not null, unique]\n  status varchar [default: 'Completed']\n  created_at varchar [default: `now()`]\n}\n\nTable order_items {\n  order_id int\n  product_id int\n  quantity int\n}\n\nTable products {\n  id int [pk]\n  name varchar [default: null]\n  merchant_id int [not null]\n  price float [default: 123.12]\n  stock boolean [default: true]\n  expiration date [default:`current_date + interval 1 year`]\n}"",
    blocks: [
        Table(
            TableBlock {
                span_range: 0..157,
                cols: [
                    TableColumn {
                        span_range: 17..42,
                        name: Ident {
                            span_range: 17..19,
                            raw: ""id"",
                            to_string: ""id"",
                        },
                        type: ColumnType {
                            span_range: 20..23,
                            raw: ""int"",
                            type_name: Raw(
                                ""int"",
                            ),
                            args: [],
                            arrays: [],
                        },
                        settings: Some(
                            ColumnSettings {
                                span_range: 24..42,
                                attributes: [
                                    Attribute {
                                        span_range: 25..27,
                                        key: Ident {
                                            span_range: 25..27,
                                            raw: ""pk"",
                                            to_string: ""pk"",
                                        },
                                        value: None,
                                    },
                                    Attribute {
                                   " ++
 s "     span_range: 29..41,
                                        key: Ident {
                                            span_range: 29..36,
                                            raw: ""default"",
                                            to_string: ""default"",
                                        },
                                        value: Some(
                                            Literal {
                                                span_range: 38..41,
                                                raw: ""123"",
                                                value: Integer(
                                                    123,
                                                ),
                                            },
                                        ),
                                    },
                                ],
                                is_pk: true,
                                is_unique: false,
                                nullable: None,
                                is_incremental: false,
                                note: None,
                                default: Some(
                                    Integer(
                                        123,
                                    ),
                                ),
                                refs: [],
                            },
                        ),
                    },
                    TableColumn {
                        span_range: 45..75,
                        name: Ident {
                            span_range: 45..52,
                            raw: ""user_id"",
                            to_string: ""user_id"",
                        },
                        type: ColumnType {
                            span_range: 53..56,
                            raw: ""int"",
                            type_name: Raw(
                                ""int"",
                            ),
            " ++
 s "                args: [],
                            arrays: [],
                        },
                        settings: Some(
                            ColumnSettings {
                                span_range: 57..75,
                                attributes: [
                                    Attribute {
                                        span_range: 58..66,
                                        key: Ident {
                                            span_range: 58..66,
                                            raw: ""not null"",
                                            to_string: ""not null"",
                                        },
                                        value: None,
                                    },
                                    Attribute {
                                        span_range: 68..74,
                                        key: Ident {
                                            span_range: 68..74,
                                            raw: ""unique"",
                                            to_string: ""unique"",
                                        },
                                        value: None,
                                    },
                                ],
                                is_pk: false,
                                is_unique: true,
                                nullable: Some(
                                    NotNull,
                                ),
                                is_incremental: false,
                                note: None,
                                default: None,
                                refs: [],
                            },
                        ),
                    },
                    TableColumn {
                        span_range: 78..115,
                        name: Ident {
                            span_range: 78..84,
                            raw: ""status"",
                 " ++
 s "           to_string: ""status"",
                        },
                        type: ColumnType {
                            span_range: 85..92,
                            raw: ""varchar"",
                            type_name: Raw(
                                ""varchar"",
                            ),
                            args: [],
                            arrays: [],
                        },
                        settings: Some(
                            ColumnSettings {
                                span_range: 93..115,
                                attributes: [
                                    Attribute {
                                        span_range: 94..114,
                                        key: Ident {
                                            span_range: 94..101,
                                            raw: ""default"",
                                            to_string: ""default"",
                                        },
                                        value: Some(
                                            Literal {
                                                span_range: 103..114,
                                                raw: ""'Completed'"",
                                                value: String(
                                                    ""Completed"",
                                                ),
                                            },
                                        ),
                                    },
                                ],
                                is_pk: false,
                                is_unique: false,
                                nullable: None,
                                is_incremental: false,
                                note: None,
                                default: Some(
                                    String(
                                        ""Completed"",
                            " ++
 s "        ),
                                ),
                                refs: [],
                            },
                        ),
                    },
                    TableColumn {
                        span_range: 118..155,
                        name: Ident {
                            span_range: 118..128,
                            raw: ""created_at"",
                            to_string: ""created_at"",
                        },
                        type: ColumnType {
                            span_range: 129..136,
                            raw: ""varchar"",
                            type_name: Raw(
                                ""varchar"",
                            ),
                            args: [],
                            arrays: [],
                        },
                        settings: Some(
                            ColumnSettings {
                                span_range: 137..155,
                                attributes: [
                                    Attribute {
                                        span_range: 138..154,
                                        key: Ident {
                                            span_range: 138..145,
                                            raw: ""default"",
                                            to_string: ""default"",
                                        },
                                        value: Some(
                                            Literal {
                                                span_range: 147..154,
                                                raw: ""`now()`"",
                                                value: Expr(
                                                    ""now()"",
                                                ),
                                            },
                                        ),
                                    },
                                ],
               " ++
 s "                 is_pk: false,
                                is_unique: false,
                                nullable: None,
                                is_incremental: false,
                                note: None,
                                default: Some(
                                    Expr(
                                        ""now()"",
                                    ),
                                ),
                                refs: [],
                            },
                        ),
                    },
                ],
                ident: TableIdent {
                    span_range: 6..13,
                    name: Ident {
                        span_range: 6..12,
                        raw: ""orders"",
                        to_string: ""orders"",
                    },
                    schema: None,
                    alias: None,
                },
                note: None,
                indexes: None,
                settings: None,
            },
        ),
        Table(
            TableBlock {
                span_range: 159..227,
                cols: [
                    TableColumn {
                        span_range: 181..196,
                        name: Ident {
                            span_range: 181..189,
                            raw: ""order_id"",
                            to_string: ""order_id"",
                        },
                        type: ColumnType {
                            span_range: 190..193,
                            raw: ""int"",
                            type_name: Raw(
                                ""int"",
                            ),
                            args: [],
                            arrays: [],
                        },
                        settings: None,
                    },
                    TableColumn {
                        span_range: 196..213,
                        name: Ident {
                            sp" ++
 s "an_range: 196..206,
                            raw: ""product_id"",
                            to_string: ""product_id"",
                        },
                        type: ColumnType {
                            span_range: 207..210,
                            raw: ""int"",
                            type_name: Raw(
                                ""int"",
                            ),
                            args: [],
                            arrays: [],
                        },
                        settings: None,
                    },
                    TableColumn {
                        span_range: 213..226,
                        name: Ident {
                            span_range: 213..221,
                            raw: ""quantity"",
                            to_string: ""quantity"",
                        },
                        type: ColumnType {
                            span_range: 222..225,
                            raw: ""int"",
                            type_name: Raw(
                                ""int"",
                            ),
                            args: [],
                            arrays: [],
                        },
                        settings: None,
                    },
                ],
                ident: TableIdent {
                    span_range: 165..177,
                    name: Ident {
                        span_range: 165..176,
                        raw: ""order_items"",
                        to_string: ""order_items"",
                    },
                    schema: None,
                    alias: None,
                },
                note: None,
                indexes: None,
                settings: None,
            },
        ),
        Table(
            TableBlock {
                span_range: 229..446,
                cols: [
                    TableColumn {
                        span_range: 248..259,
                        name: Ident {
               " ++
 s "             span_range: 248..250,
                            raw: ""id"",
                            to_string: ""id"",
                        },
                        type: ColumnType {
                            span_range: 251..254,
                            raw: ""int"",
                            type_name: Raw(
                                ""int"",
                            ),
                            args: [],
                            arrays: [],
                        },
                        settings: Some(
                            ColumnSettings {
                                span_range: 255..259,
                                attributes: [
                                    Attribute {
                                        span_range: 256..258,
                                        key: Ident {
                                            span_range: 256..258,
                                            raw: ""pk"",
                                            to_string: ""pk"",
                                        },
                                        value: None,
                                    },
                                ],
                                is_pk: true,
                                is_unique: false,
                                nullable: None,
                                is_incremental: false,
                                note: None,
                                default: None,
                                refs: [],
                            },
                        ),
                    },
                    TableColumn {
                        span_range: 262..290,
                        name: Ident {
                            span_range: 262..266,
                            raw: ""name"",
                            to_string: ""name"",
                        },
                        type: ColumnType {
                            span_range: 267..274,
              " ++
 s "              raw: ""varchar"",
                            type_name: Raw(
                                ""varchar"",
                            ),
                            args: [],
                            arrays: [],
                        },
                        settings: Some(
                            ColumnSettings {
                                span_range: 275..290,
                                attributes: [
                                    Attribute {
                                        span_range: 276..289,
                                        key: Ident {
                                            span_range: 276..283,
                                            raw: ""default"",
                                            to_string: ""default"",
                                        },
                                        value: Some(
                                            Literal {
                                                span_range: 285..289,
                                                raw: ""null"",
                                                value: Null,
                                            },
                                        ),
                                    },
                                ],
                                is_pk: false,
                                is_unique: false,
                                nullable: None,
                                is_incremental: false,
                                note: None,
                                default: Some(
                                    Null,
                                ),
                                refs: [],
                            },
                        ),
                    },
                    TableColumn {
                        span_range: 293..319,
                        name: Ident {
                            span_range: 293..304,
                            raw: ""merchant_" ++
 s "id"",
                            to_string: ""merchant_id"",
                        },
                        type: ColumnType {
                            span_range: 305..308,
                            raw: ""int"",
                            type_name: Raw(
                                ""int"",
                            ),
                            args: [],
                            arrays: [],
                        },
                        settings: Some(
                            ColumnSettings {
                                span_range: 309..319,
                                attributes: [
                                    Attribute {
                                        span_range: 310..318,
                                        key: Ident {
                                            span_range: 310..318,
                                            raw: ""not null"",
                                            to_string: ""not null"",
                                        },
                                        value: None,
                                    },
                                ],
                                is_pk: false,
                                is_unique: false,
                                nullable: Some(
                                    NotNull,
                                ),
                                is_incremental: false,
                                note: None,
                                default: None,
                                refs: [],
                            },
                        ),
                    },
                    TableColumn {
                        span_range: 322..351,
                        name: Ident {
                            span_range: 322..327,
                            raw: ""price"",
                            to_string: ""price"",
                        },
                        type: ColumnType {
                            s" ++
 s "pan_range: 328..333,
                            raw: ""float"",
                            type_name: Raw(
                                ""float"",
                            ),
                            args: [],
                            arrays: [],
                        },
                        settings: Some(
                            ColumnSettings {
                                span_range: 334..351,
                                attributes: [
                                    Attribute {
                                        span_range: 335..350,
                                        key: Ident {
                                            span_range: 335..342,
                                            raw: ""default"",
                                            to_string: ""default"",
                                        },
                                        value: Some(
                                            Literal {
                                                span_range: 344..350,
                                                raw: ""123.12"",
                                                value: Decimal(
                                                    123.12,
                                                ),
                                            },
                                        ),
                                    },
                                ],
                                is_pk: false,
                                is_unique: false,
                                nullable: None,
                                is_incremental: false,
                                note: None,
                                default: Some(
                                    Decimal(
                                        123.12,
                                    ),
                                ),
                                refs: [],
                            },
                        " ++
 s "),
                    },
                    TableColumn {
                        span_range: 354..383,
                        name: Ident {
                            span_range: 354..359,
                            raw: ""stock"",
                            to_string: ""stock"",
                        },
                        type: ColumnType {
                            span_range: 360..367,
                            raw: ""boolean"",
                            type_name: Raw(
                                ""boolean"",
                            ),
                            args: [],
                            arrays: [],
                        },
                        settings: Some(
                            ColumnSettings {
                                span_range: 368..383,
                                attributes: [
                                    Attribute {
                                        span_range: 369..382,
                                        key: Ident {
                                            span_range: 369..376,
                                            raw: ""default"",
                                            to_string: ""default"",
                                        },
                                        value: Some(
                                            Literal {
                                                span_range: 378..382,
                                                raw: ""true"",
                                                value: Bool(
                                                    true,
                                                ),
                                            },
                                        ),
                                    },
                                ],
                                is_pk: false,
                                is_unique: false,
                                nullable: None,
                              " ++
 s "  is_incremental: false,
                                note: None,
                                default: Some(
                                    Bool(
                                        true,
                                    ),
                                ),
                                refs: [],
                            },
                        ),
                    },
                    TableColumn {
                        span_range: 386..444,
                        name: Ident {
                            span_range: 386..396,
                            raw: ""expiration"",
                            to_string: ""expiration"",
                        },
                        type: ColumnType {
                            span_range: 397..401,
                            raw: ""date"",
                            type_name: Raw(
                                ""date"",
                            ),
                            args: [],
                            arrays: [],
                        },
                        settings: Some(
                            ColumnSettings {
                                span_range: 402..444,
                                attributes: [
                                    Attribute {
                                        span_range: 403..443,
                                        key: Ident {
                                            span_range: 403..410,
                                            raw: ""default"",
                                            to_string: ""default"",
                                        },
                                        value: Some(
                                            Literal {
                                                span_range: 411..443,
                                                raw: ""`current_date + interval 1 year`"",
                                                value: Expr(
                                        " ++
 s "            ""current_date + interval 1 year"",
                                                ),
                                            },
                                        ),
                                    },
                                ],
                                is_pk: false,
                                is_unique: false,
                                nullable: None,
                                is_incremental: false,
                                note: None,
                                default: Some(
                                    Expr(
                                        ""current_date + interval 1 year"",
                                    ),
                                ),
                                refs: [],
                            },
                        ),
                    },
                ],
                ident: TableIdent {
                    span_range: 235..244,
                    name: Ident {
                        span_range: 235..243,
                        raw: ""products"",
                        to_string: ""products"",
                    },
                    schema: None,
                    alias: None,
                },
                note: None,
                indexes: None,
                settings: None,
            },
        ),
    ],
}") = true.
Proof. vm_compute. reflexivity. Qed.

(** tests/dbml/enum_tables.in.dbml *)
Example golden__enum_tables : prints
(s "Enum job_status {
  created [note: 'Job created and pending']
  running [note: 'Waiting for warehouse to process']
  done
  failed
	""wait for validation"" [note: 'Enum label that has white spaces']
}

Table jobs {
  id integer [pk]
  status job_status [note: 'This is a column note']
}

Enum ""order status"" {
  created [note: 'Order created']
  pending
  processing
  completed
}

Table orders {
  id int PK unique
  status ""order status""
  created_at varchar
}")
(s "SchemaBlock {
    span_range: 0..460,
    input: ""Enum job_status {\n  created [note: 'Job created and pending']\n  running [note: 'Waiting for warehouse to process']\n  done\n  failed\n\t\""wait for validation\"" [note: 'Enum label that has white spaces']\n}\n\nTable jobs {\n  id integer [pk]\n  status job_status [note: 'This is a column note']\n}\n\nEnum \""order status\"" {\n  created [note: 'Order created']\n  pending\n  processing\n  completed\n}\n\nTable orders {\n  id int PK unique\n  status \""order status\""\n  created_at varchar\n}"",
    blocks: [
        Enum(
            EnumBlock {
                span_range: 0..198,
                ident: EnumIdent {
                    span_range: 5..16,
                    schema: None,
                    name: Ident {
                        span_range: 5..15,
                        raw: ""job_status"",
                        to_string: ""job_status"",
                    },
                },
                values: [
                    EnumValue {
                        span_range: 20..61,
                        value: Ident {
                            span_range: 20..27,
                            raw: ""created"",
                            to_string: ""created"",
                        },
                        settings: Some(
                            EnumValueSettings {
                                span_range: 28..61,
                                attributes: [
                                    Attribute {
                                        span_range: 29..60,
                                        key: Ident {
                                            span_range: 29..33,
                                            raw: ""note"",
                                            to_string: ""note"",
                                        },
                                        value: Some(
                                            Literal {
                                                span_range" ++
 s ": 35..60,
                                                raw: ""'Job created and pending'"",
                                                value: String(
                                                    ""Job created and pending"",
                                                ),
                                            },
                                        ),
                                    },
                                ],
                                note: Some(
                                    ""Job created and pending"",
                                ),
                            },
                        ),
                    },
                    EnumValue {
                        span_range: 64..114,
                        value: Ident {
                            span_range: 64..71,
                            raw: ""running"",
                            to_string: ""running"",
                        },
                        settings: Some(
                            EnumValueSettings {
                                span_range: 72..114,
                                attributes: [
                                    Attribute {
                                        span_range: 73..113,
                                        key: Ident {
                                            span_range: 73..77,
                                            raw: ""note"",
                                            to_string: ""note"",
                                        },
                                        value: Some(
                                            Literal {
                                                span_range: 79..113,
                                                raw: ""'Waiting for warehouse to process'"",
                                                value: String(
                                                    ""Waiting for warehouse to process"",
                                                )" ++
 s ",
                                            },
                                        ),
                                    },
                                ],
                                note: Some(
                                    ""Waiting for warehouse to process"",
                                ),
                            },
                        ),
                    },
                    EnumValue {
                        span_range: 117..124,
                        value: Ident {
                            span_range: 117..121,
                            raw: ""done"",
                            to_string: ""done"",
                        },
                        settings: None,
                    },
                    EnumValue {
                        span_range: 124..132,
                        value: Ident {
                            span_range: 124..130,
                            raw: ""failed"",
                            to_string: ""failed"",
                        },
                        settings: None,
                    },
                    EnumValue {
                        span_range: 132..196,
                        value: Ident {
                            span_range: 132..153,
                            raw: ""\""wait for validation\"""",
                            to_string: ""wait for validation"",
                        },
                        settings: Some(
                            EnumValueSettings {
                                span_range: 154..196,
                                attributes: [
                                    Attribute {
                                        span_range: 155..195,
                                        key: Ident {
                                            span_range: 155..159,
                                            raw: ""note"",
                                            to_string: ""note"",
                                        },
            " ++
 s "                            value: Some(
                                            Literal {
                                                span_range: 161..195,
                                                raw: ""'Enum label that has white spaces'"",
                                                value: String(
                                                    ""Enum label that has white spaces"",
                                                ),
                                            },
                                        ),
                                    },
                                ],
                                note: Some(
                                    ""Enum label that has white spaces"",
                                ),
                            },
                        ),
                    },
                ],
            },
        ),
        Table(
            TableBlock {
                span_range: 200..284,
                cols: [
                    TableColumn {
                        span_range: 215..230,
                        name: Ident {
                            span_range: 215..217,
                            raw: ""id"",
                            to_string: ""id"",
                        },
                        type: ColumnType {
                            span_range: 218..225,
                            raw: ""integer"",
                            type_name: Raw(
                                ""integer"",
                            ),
                            args: [],
                            arrays: [],
                        },
                        settings: Some(
                            ColumnSettings {
                                span_range: 226..230,
                                attributes: [
                                    Attribute {
                                        span_range: 227..229,
                                        key: Ident {
            " ++
 s "                                span_range: 227..229,
                                            raw: ""pk"",
                                            to_string: ""pk"",
                                        },
                                        value: None,
                                    },
                                ],
                                is_pk: true,
                                is_unique: false,
                                nullable: None,
                                is_incremental: false,
                                note: None,
                                default: None,
                                refs: [],
                            },
                        ),
                    },
                    TableColumn {
                        span_range: 233..282,
                        name: Ident {
                            span_range: 233..239,
                            raw: ""status"",
                            to_string: ""status"",
                        },
                        type: ColumnType {
                            span_range: 240..250,
                            raw: ""job_status"",
                            type_name: Raw(
                                ""job_status"",
                            ),
                            args: [],
                            arrays: [],
                        },
                        settings: Some(
                            ColumnSettings {
                                span_range: 251..282,
                                attributes: [
                                    Attribute {
                                        span_range: 252..281,
                                        key: Ident {
                                            span_range: 252..256,
                                            raw: ""note"",
                                            to_string: ""note"",
                                        },
                  " ++
 s "                      value: Some(
                                            Literal {
                                                span_range: 258..281,
                                                raw: ""'This is a column note'"",
                                                value: String(
                                                    ""This is a column note"",
                                                ),
                                            },
                                        ),
                                    },
                                ],
                                is_pk: false,
                                is_unique: false,
                                nullable: None,
                                is_incremental: false,
                                note: Some(
                                    ""This is a column note"",
                                ),
                                default: None,
                                refs: [],
                            },
                        ),
                    },
                ],
                ident: TableIdent {
                    span_range: 206..211,
                    name: Ident {
                        span_range: 206..210,
                        raw: ""jobs"",
                        to_string: ""jobs"",
                    },
                    schema: None,
                    alias: None,
                },
                note: None,
                indexes: None,
                settings: None,
            },
        ),
        Enum(
            EnumBlock {
                span_range: 286..378,
                ident: EnumIdent {
                    span_range: 291..306,
                    schema: None,
                    name: Ident {
                        span_range: 291..305,
                        raw: ""\""order status\"""",
                        to_string: ""order status"",
                    },
                },
     " ++
 s "           values: [
                    EnumValue {
                        span_range: 310..341,
                        value: Ident {
                            span_range: 310..317,
                            raw: ""created"",
                            to_string: ""created"",
                        },
                        settings: Some(
                            EnumValueSettings {
                                span_range: 318..341,
                                attributes: [
                                    Attribute {
                                        span_range: 319..340,
                                        key: Ident {
                                            span_range: 319..323,
                                            raw: ""note"",
                                            to_string: ""note"",
                                        },
                                        value: Some(
                                            Literal {
                                                span_range: 325..340,
                                                raw: ""'Order created'"",
                                                value: String(
                                                    ""Order created"",
                                                ),
                                            },
                                        ),
                                    },
                                ],
                                note: Some(
                                    ""Order created"",
                                ),
                            },
                        ),
                    },
                    EnumValue {
                        span_range: 344..354,
                        value: Ident {
                            span_range: 344..351,
                            raw: ""pending"",
                            to_string: ""pending"",
                        },
              " ++
 s "          settings: None,
                    },
                    EnumValue {
                        span_range: 354..367,
                        value: Ident {
                            span_range: 354..364,
                            raw: ""processing"",
                            to_string: ""processing"",
                        },
                        settings: None,
                    },
                    EnumValue {
                        span_range: 367..377,
                        value: Ident {
                            span_range: 367..376,
                            raw: ""completed"",
                            to_string: ""completed"",
                        },
                        settings: None,
                    },
                ],
            },
        ),
        Table(
            TableBlock {
                span_range: 380..460,
                cols: [
                    TableColumn {
                        span_range: 397..404,
                        name: Ident {
                            span_range: 397..399,
                            raw: ""id"",
                            to_string: ""id"",
                        },
                        type: ColumnType {
                            span_range: 400..403,
                            raw: ""int"",
                            type_name: Raw(
                                ""int"",
                            ),
                            args: [],
                            arrays: [],
                        },
                        settings: None,
                    },
                    TableColumn {
                        span_range: 404..416,
                        name: Ident {
                            span_range: 404..406,
                            raw: ""PK"",
                            to_string: ""PK"",
                        },
                        type: ColumnType {
                            span_range: 407..413,
                          " ++
 s "  raw: ""unique"",
                            type_name: Raw(
                                ""unique"",
                            ),
                            args: [],
                            arrays: [],
                        },
                        settings: None,
                    },
                    TableColumn {
                        span_range: 416..440,
                        name: Ident {
                            span_range: 416..422,
                            raw: ""status"",
                            to_string: ""status"",
                        },
                        type: ColumnType {
                            span_range: 423..437,
                            raw: ""\""order status\"""",
                            type_name: Raw(
                                ""order status"",
                            ),
                            args: [],
                            arrays: [],
                        },
                        settings: None,
                    },
                    TableColumn {
                        span_range: 440..459,
                        name: Ident {
                            span_range: 440..450,
                            raw: ""created_at"",
                            to_string: ""created_at"",
                        },
                        type: ColumnType {
                            span_range: 451..458,
                            raw: ""varchar"",
                            type_name: Raw(
                                ""varchar"",
                            ),
                            args: [],
                            arrays: [],
                        },
                        settings: None,
                    },
                ],
                ident: TableIdent {
                    span_range: 386..393,
                    name: Ident {
                        span_range: 386..392,
                        raw: ""orders"",
                        to_string: ""orde" ++
 s "rs"",
                    },
                    schema: None,
                    alias: None,
                },
                note: None,
                indexes: None,
                settings: None,
            },
        ),
    ],
}") = true.
Proof. vm_compute. reflexivity. Qed.

(** tests/dbml/general_schema.in.dbml *)
Example golden__general_schema : prints
(s "Enum ""orders_status"" {
  ""created""
  ""running""
  ""done""
  ""failure""
}

Enum ""product status"" {
  ""Out of Stock""
  ""In Stock""
}

Table ""orders"" [headercolor: #fff] {
  ""id"" int [pk, increment]
  ""user_id"" int [unique, not null]
  ""status"" orders_status
  ""created_at"" varchar
}

Table ""order_items"" {
  ""order_id"" int
  ""product_id"" int
  ""quantity"" int [default: 1]
}

Table ""products"" {
  ""id"" int [pk]
  ""name"" varchar
  ""merchant_id"" int [not null]
  ""price"" int
  ""status"" ""product status""
  ""created_at"" datetime [default: `now()`]

        
Indexes {
  (merchant_id, status) [name: 'product_status']
  id [type: hash, unique]
}
}

Table ""users"" {
  ""id"" int [pk]
  ""full_name"" varchar
  ""email"" varchar [unique]
  ""gender"" varchar
  ""date_of_birth"" varchar
  ""created_at"" varchar
  ""country_code"" int
}

TableGroup g1 {
  users
  merchants
}

TableGroup g2 {
  countries
  orders
}

Table ""merchants"" {
  ""id"" int [pk]
  ""merchant_name"" varchar
  ""country_code"" int
  ""created_at"" varchar
  ""admin_id"" int
}

Table ""countries"" {
  ""code"" int [pk]
  ""name"" varchar
  ""continent_name"" varchar
}

Ref:""orders"".""id"" < ""order_items"".""order_id""

Ref:""products"".""id"" < ""order_items"".""product_id""

Ref:""countries"".""code"" < ""users"".""country_code""

Ref:""countries"".""code"" < ""merchants"".""country_code""

Ref:""merchants"".""id"" < ""products"".""merchant_id""

Ref:""users"".""id"" < ""merchants"".""admin_id""
")
(s "SchemaBlock {
    span_range: 0..1389,
    input: ""Enum \""orders_status\"" {\n  \""created\""\n  \""running\""\n  \""done\""\n  \""failure\""\n}\n\nEnum \""product status\"" {\n  \""Out of Stock\""\n  \""In Stock\""\n}\n\nTable \""orders\"" [headercolor: #fff] {\n  \""id\"" int [pk, increment]\n  \""user_id\"" int [unique, not null]\n  \""status\"" orders_status\n  \""created_at\"" varchar\n}\n\nTable \""order_items\"" {\n  \""order_id\"" int\n  \""product_id\"" int\n  \""quantity\"" int [default: 1]\n}\n\nTable \""products\"" {\n  \""id\"" int [pk]\n  \""name\"" varchar\n  \""merchant_id\"" int [not null]\n  \""price\"" int\n  \""status\"" \""product status\""\n  \""created_at\"" datetime [default: `now()`]\n\n        \nIndexes {\n  (merchant_id, status) [name: 'product_status']\n  id [type: hash, unique]\n}\n}\n\nTable \""users\"" {\n  \""id\"" int [pk]\n  \""full_name\"" varchar\n  \""email\"" varchar [unique]\n  \""gender\"" varchar\n  \""date_of_birth\"" varchar\n  \""created_at\"" varchar\n  \""country_code\"" int\n}\n\nTableGroup g1 {\n  users\n  merchants\n}\n\nTableGroup g2 {\n  countries\n  orders\n}\n\nTable \""merchants\"" {\n  \""id\"" int [pk]\n  \""merchant_name\"" varchar\n  \""country_code\"" int\n  \""created_at\"" varchar\n  \""admin_id\"" int\n}\n\nTable \""countries\"" {\n  \""code\"" int [pk]\n  \""name\"" varchar\n  \""continent_name\"" varchar\n}\n\nRef:\""orders\"".\""id\"" < \""order_items\"".\""order_id\""\n\nRef:\""products\"".\""id\"" < \""order_items\"".\""product_id\""\n\nRef:\""countries\"".\""code\"" < \""users\"".\""country_code\""\n\nRef:\""countries\"".\""code\"" < \""merchants\"".\""country_code\""\n\nRef:\""merchants\"".\""id\"" < \""products\"".\""merchant_id\""\n\nRef:\""users\"".\""id\"" < \""merchants\"".\""admin_id\""\n"",
    blocks: [
        Enum(
            EnumBlock {
                span_range: 0..69,
                ident: EnumIdent {
                    span_range: 5..21,
                    schema: None,
                    name: Ident {
                        span_range: 5..20,
                        raw: ""\""orders_status\"""",
                " ++
 s "        to_string: ""orders_status"",
                    },
                },
                values: [
                    EnumValue {
                        span_range: 25..37,
                        value: Ident {
                            span_range: 25..34,
                            raw: ""\""created\"""",
                            to_string: ""created"",
                        },
                        settings: None,
                    },
                    EnumValue {
                        span_range: 37..49,
                        value: Ident {
                            span_range: 37..46,
                            raw: ""\""running\"""",
                            to_string: ""running"",
                        },
                        settings: None,
                    },
                    EnumValue {
                        span_range: 49..58,
                        value: Ident {
                            span_range: 49..55,
                            raw: ""\""done\"""",
                            to_string: ""done"",
                        },
                        settings: None,
                    },
                    EnumValue {
                        span_range: 58..68,
                        value: Ident {
                            span_range: 58..67,
                            raw: ""\""failure\"""",
                            to_string: ""failure"",
                        },
                        settings: None,
                    },
                ],
            },
        ),
        Enum(
            EnumBlock {
                span_range: 71..126,
                ident: EnumIdent {
                    span_range: 76..93,
                    schema: None,
                    name: Ident {
                        span_range: 76..92,
                        raw: ""\""product status\"""",
                        to_string: ""product status"",
                    },
                },
                values: [
                   " ++
 s " EnumValue {
                        span_range: 97..114,
                        value: Ident {
                            span_range: 97..111,
                            raw: ""\""Out of Stock\"""",
                            to_string: ""Out of Stock"",
                        },
                        settings: None,
                    },
                    EnumValue {
                        span_range: 114..125,
                        value: Ident {
                            span_range: 114..124,
                            raw: ""\""In Stock\"""",
                            to_string: ""In Stock"",
                        },
                        settings: None,
                    },
                ],
            },
        ),
        Table(
            TableBlock {
                span_range: 128..276,
                cols: [
                    TableColumn {
                        span_range: 167..191,
                        name: Ident {
                            span_range: 167..171,
                            raw: ""\""id\"""",
                            to_string: ""id"",
                        },
                        type: ColumnType {
                            span_range: 172..175,
                            raw: ""int"",
                            type_name: Raw(
                                ""int"",
                            ),
                            args: [],
                            arrays: [],
                        },
                        settings: Some(
                            ColumnSettings {
                                span_range: 176..191,
                                attributes: [
                                    Attribute {
                                        span_range: 177..179,
                                        key: Ident {
                                            span_range: 177..179,
                                            raw: ""pk"",
                                            to_s" ++
 s "tring: ""pk"",
                                        },
                                        value: None,
                                    },
                                    Attribute {
                                        span_range: 181..190,
                                        key: Ident {
                                            span_range: 181..190,
                                            raw: ""increment"",
                                            to_string: ""increment"",
                                        },
                                        value: None,
                                    },
                                ],
                                is_pk: true,
                                is_unique: false,
                                nullable: None,
                                is_incremental: true,
                                note: None,
                                default: None,
                                refs: [],
                            },
                        ),
                    },
                    TableColumn {
                        span_range: 194..226,
                        name: Ident {
                            span_range: 194..203,
                            raw: ""\""user_id\"""",
                            to_string: ""user_id"",
                        },
                        type: ColumnType {
                            span_range: 204..207,
                            raw: ""int"",
                            type_name: Raw(
                                ""int"",
                            ),
                            args: [],
                            arrays: [],
                        },
                        settings: Some(
                            ColumnSettings {
                                span_range: 208..226,
                                attributes: [
                                    Attribute {
                                  " ++
 s "      span_range: 209..215,
                                        key: Ident {
                                            span_range: 209..215,
                                            raw: ""unique"",
                                            to_string: ""unique"",
                                        },
                                        value: None,
                                    },
                                    Attribute {
                                        span_range: 217..225,
                                        key: Ident {
                                            span_range: 217..225,
                                            raw: ""not null"",
                                            to_string: ""not null"",
                                        },
                                        value: None,
                                    },
                                ],
                                is_pk: false,
                                is_unique: true,
                                nullable: Some(
                                    NotNull,
                                ),
                                is_incremental: false,
                                note: None,
                                default: None,
                                refs: [],
                            },
                        ),
                    },
                    TableColumn {
                        span_range: 229..254,
                        name: Ident {
                            span_range: 229..237,
                            raw: ""\""status\"""",
                            to_string: ""status"",
                        },
                        type: ColumnType {
                            span_range: 238..251,
                            raw: ""orders_status"",
                            type_name: Raw(
                                ""orders_status"",
                            ),
                 " ++
 s "           args: [],
                            arrays: [],
                        },
                        settings: None,
                    },
                    TableColumn {
                        span_range: 254..275,
                        name: Ident {
                            span_range: 254..266,
                            raw: ""\""created_at\"""",
                            to_string: ""created_at"",
                        },
                        type: ColumnType {
                            span_range: 267..274,
                            raw: ""varchar"",
                            type_name: Raw(
                                ""varchar"",
                            ),
                            args: [],
                            arrays: [],
                        },
                        settings: None,
                    },
                ],
                ident: TableIdent {
                    span_range: 134..143,
                    name: Ident {
                        span_range: 134..142,
                        raw: ""\""orders\"""",
                        to_string: ""orders"",
                    },
                    schema: None,
                    alias: None,
                },
                note: None,
                indexes: None,
                settings: Some(
                    TableSettings {
                        span_range: 143..162,
                        attributes: [
                            Attribute {
                                span_range: 144..161,
                                key: Ident {
                                    span_range: 144..155,
                                    raw: ""headercolor"",
                                    to_string: ""headercolor"",
                                },
                                value: Some(
                                    Literal {
                                        span_range: 157..161,
                                       " ++
 s " raw: ""#fff"",
                                        value: HexColor(
                                            ""#fff"",
                                        ),
                                    },
                                ),
                            },
                        ],
                    },
                ),
            },
        ),
        Table(
            TableBlock {
                span_range: 278..367,
                cols: [
                    TableColumn {
                        span_range: 302..319,
                        name: Ident {
                            span_range: 302..312,
                            raw: ""\""order_id\"""",
                            to_string: ""order_id"",
                        },
                        type: ColumnType {
                            span_range: 313..316,
                            raw: ""int"",
                            type_name: Raw(
                                ""int"",
                            ),
                            args: [],
                            arrays: [],
                        },
                        settings: None,
                    },
                    TableColumn {
                        span_range: 319..338,
                        name: Ident {
                            span_range: 319..331,
                            raw: ""\""product_id\"""",
                            to_string: ""product_id"",
                        },
                        type: ColumnType {
                            span_range: 332..335,
                            raw: ""int"",
                            type_name: Raw(
                                ""int"",
                            ),
                            args: [],
                            arrays: [],
                        },
                        settings: None,
                    },
                    TableColumn {
                        span_range: 338..365,
                        name" ++
 s ": Ident {
                            span_range: 338..348,
                            raw: ""\""quantity\"""",
                            to_string: ""quantity"",
                        },
                        type: ColumnType {
                            span_range: 349..352,
                            raw: ""int"",
                            type_name: Raw(
                                ""int"",
                            ),
                            args: [],
                            arrays: [],
                        },
                        settings: Some(
                            ColumnSettings {
                                span_range: 353..365,
                                attributes: [
                                    Attribute {
                                        span_range: 354..364,
                                        key: Ident {
                                            span_range: 354..361,
                                            raw: ""default"",
                                            to_string: ""default"",
                                        },
                                        value: Some(
                                            Literal {
                                                span_range: 363..364,
                                                raw: ""1"",
                                                value: Integer(
                                                    1,
                                                ),
                                            },
                                        ),
                                    },
                                ],
                                is_pk: false,
                                is_unique: false,
                                nullable: None,
                                is_incremental: false,
                                note: None,
                                default: Some(
                   " ++
 s "                 Integer(
                                        1,
                                    ),
                                ),
                                refs: [],
                            },
                        ),
                    },
                ],
                ident: TableIdent {
                    span_range: 284..298,
                    name: Ident {
                        span_range: 284..297,
                        raw: ""\""order_items\"""",
                        to_string: ""order_items"",
                    },
                    schema: None,
                    alias: None,
                },
                note: None,
                indexes: None,
                settings: None,
            },
        ),
        Table(
            TableBlock {
                span_range: 369..635,
                cols: [
                    TableColumn {
                        span_range: 390..403,
                        name: Ident {
                            span_range: 390..394,
                            raw: ""\""id\"""",
                            to_string: ""id"",
                        },
                        type: ColumnType {
                            span_range: 395..398,
                            raw: ""int"",
                            type_name: Raw(
                                ""int"",
                            ),
                            args: [],
                            arrays: [],
                        },
                        settings: Some(
                            ColumnSettings {
                                span_range: 399..403,
                                attributes: [
                                    Attribute {
                                        span_range: 400..402,
                                        key: Ident {
                                            span_range: 400..402,
                                            raw: ""pk"",
                           " ++
 s "                 to_string: ""pk"",
                                        },
                                        value: None,
                                    },
                                ],
                                is_pk: true,
                                is_unique: false,
                                nullable: None,
                                is_incremental: false,
                                note: None,
                                default: None,
                                refs: [],
                            },
                        ),
                    },
                    TableColumn {
                        span_range: 406..423,
                        name: Ident {
                            span_range: 406..412,
                            raw: ""\""name\"""",
                            to_string: ""name"",
                        },
                        type: ColumnType {
                            span_range: 413..420,
                            raw: ""varchar"",
                            type_name: Raw(
                                ""varchar"",
                            ),
                            args: [],
                            arrays: [],
                        },
                        settings: None,
                    },
                    TableColumn {
                        span_range: 423..451,
                        name: Ident {
                            span_range: 423..436,
                            raw: ""\""merchant_id\"""",
                            to_string: ""merchant_id"",
                        },
                        type: ColumnType {
                            span_range: 437..440,
                            raw: ""int"",
                            type_name: Raw(
                                ""int"",
                            ),
                            args: [],
                            arrays: [],
                        },
                     " ++
 s "   settings: Some(
                            ColumnSettings {
                                span_range: 441..451,
                                attributes: [
                                    Attribute {
                                        span_range: 442..450,
                                        key: Ident {
                                            span_range: 442..450,
                                            raw: ""not null"",
                                            to_string: ""not null"",
                                        },
                                        value: None,
                                    },
                                ],
                                is_pk: false,
                                is_unique: false,
                                nullable: Some(
                                    NotNull,
                                ),
                                is_incremental: false,
                                note: None,
                                default: None,
                                refs: [],
                            },
                        ),
                    },
                    TableColumn {
                        span_range: 454..468,
                        name: Ident {
                            span_range: 454..461,
                            raw: ""\""price\"""",
                            to_string: ""price"",
                        },
                        type: ColumnType {
                            span_range: 462..465,
                            raw: ""int"",
                            type_name: Raw(
                                ""int"",
                            ),
                            args: [],
                            arrays: [],
                        },
                        settings: None,
                    },
                    TableColumn {
                        span_range: 468..496,
                        name: Id" ++
 s "ent {
                            span_range: 468..476,
                            raw: ""\""status\"""",
                            to_string: ""status"",
                        },
                        type: ColumnType {
                            span_range: 477..493,
                            raw: ""\""product status\"""",
                            type_name: Raw(
                                ""product status"",
                            ),
                            args: [],
                            arrays: [],
                        },
                        settings: None,
                    },
                    TableColumn {
                        span_range: 496..536,
                        name: Ident {
                            span_range: 496..508,
                            raw: ""\""created_at\"""",
                            to_string: ""created_at"",
                        },
                        type: ColumnType {
                            span_range: 509..517,
                            raw: ""datetime"",
                            type_name: Raw(
                                ""datetime"",
                            ),
                            args: [],
                            arrays: [],
                        },
                        settings: Some(
                            ColumnSettings {
                                span_range: 518..536,
                                attributes: [
                                    Attribute {
                                        span_range: 519..535,
                                        key: Ident {
                                            span_range: 519..526,
                                            raw: ""default"",
                                            to_string: ""default"",
                                        },
                                        value: Some(
                                            Literal {
                             " ++
 s "                   span_range: 528..535,
                                                raw: ""`now()`"",
                                                value: Expr(
                                                    ""now()"",
                                                ),
                                            },
                                        ),
                                    },
                                ],
                                is_pk: false,
                                is_unique: false,
                                nullable: None,
                                is_incremental: false,
                                note: None,
                                default: Some(
                                    Expr(
                                        ""now()"",
                                    ),
                                ),
                                refs: [],
                            },
                        ),
                    },
                ],
                ident: TableIdent {
                    span_range: 375..386,
                    name: Ident {
                        span_range: 375..385,
                        raw: ""\""products\"""",
                        to_string: ""products"",
                    },
                    schema: None,
                    alias: None,
                },
                note: None,
                indexes: Some(
                    IndexesBlock {
                        span_range: 555..633,
                        defs: [
                            IndexesDef {
                                span_range: 559..605,
                                cols: [
                                    String(
                                        Ident {
                                            span_range: 560..571,
                                            raw: ""merchant_id"",
                                            to_string: ""merchant_id"",
   " ++
 s "                                     },
                                    ),
                                    String(
                                        Ident {
                                            span_range: 573..579,
                                            raw: ""status"",
                                            to_string: ""status"",
                                        },
                                    ),
                                ],
                                settings: Some(
                                    IndexesSettings {
                                        span_range: 581..605,
                                        attributes: [
                                            Attribute {
                                                span_range: 582..604,
                                                key: Ident {
                                                    span_range: 582..586,
                                                    raw: ""name"",
                                                    to_string: ""name"",
                                                },
                                                value: Some(
                                                    Literal {
                                                        span_range: 588..604,
                                                        raw: ""'product_status'"",
                                                        value: String(
                                                            ""product_status"",
                                                        ),
                                                    },
                                                ),
                                            },
                                        ],
                                        type: None,
                                        is_unique: false,
                                        is_pk: false,
      " ++
 s "                                  note: None,
                                        name: Some(
                                            ""product_status"",
                                        ),
                                    },
                                ),
                            },
                            IndexesDef {
                                span_range: 608..631,
                                cols: [
                                    String(
                                        Ident {
                                            span_range: 608..610,
                                            raw: ""id"",
                                            to_string: ""id"",
                                        },
                                    ),
                                ],
                                settings: Some(
                                    IndexesSettings {
                                        span_range: 611..631,
                                        attributes: [
                                            Attribute {
                                                span_range: 612..622,
                                                key: Ident {
                                                    span_range: 612..616,
                                                    raw: ""type"",
                                                    to_string: ""type"",
                                                },
                                                value: Some(
                                                    Literal {
                                                        span_range: 618..622,
                                                        raw: ""hash"",
                                                        value: Enum(
                                                            ""hash"",
                                                        ),
                                  " ++
 s "                  },
                                                ),
                                            },
                                            Attribute {
                                                span_range: 624..630,
                                                key: Ident {
                                                    span_range: 624..630,
                                                    raw: ""unique"",
                                                    to_string: ""unique"",
                                                },
                                                value: None,
                                            },
                                        ],
                                        type: Some(
                                            Hash,
                                        ),
                                        is_unique: true,
                                        is_pk: false,
                                        note: None,
                                        name: None,
                                    },
                                ),
                            },
                        ],
                    },
                ),
                settings: None,
            },
        ),
        Table(
            TableBlock {
                span_range: 637..808,
                cols: [
                    TableColumn {
                        span_range: 655..668,
                        name: Ident {
                            span_range: 655..659,
                            raw: ""\""id\"""",
                            to_string: ""id"",
                        },
                        type: ColumnType {
                            span_range: 660..663,
                            raw: ""int"",
                            type_name: Raw(
                                ""int"",
                            ),
                            args: [],
                " ++
 s "            arrays: [],
                        },
                        settings: Some(
                            ColumnSettings {
                                span_range: 664..668,
                                attributes: [
                                    Attribute {
                                        span_range: 665..667,
                                        key: Ident {
                                            span_range: 665..667,
                                            raw: ""pk"",
                                            to_string: ""pk"",
                                        },
                                        value: None,
                                    },
                                ],
                                is_pk: true,
                                is_unique: false,
                                nullable: None,
                                is_incremental: false,
                                note: None,
                                default: None,
                                refs: [],
                            },
                        ),
                    },
                    TableColumn {
                        span_range: 671..693,
                        name: Ident {
                            span_range: 671..682,
                            raw: ""\""full_name\"""",
                            to_string: ""full_name"",
                        },
                        type: ColumnType {
                            span_range: 683..690,
                            raw: ""varchar"",
                            type_name: Raw(
                                ""varchar"",
                            ),
                            args: [],
                            arrays: [],
                        },
                        settings: None,
                    },
                    TableColumn {
                        span_range: 693..717,
                        name: Ident {" ++
 s "
                            span_range: 693..700,
                            raw: ""\""email\"""",
                            to_string: ""email"",
                        },
                        type: ColumnType {
                            span_range: 701..708,
                            raw: ""varchar"",
                            type_name: Raw(
                                ""varchar"",
                            ),
                            args: [],
                            arrays: [],
                        },
                        settings: Some(
                            ColumnSettings {
                                span_range: 709..717,
                                attributes: [
                                    Attribute {
                                        span_range: 710..716,
                                        key: Ident {
                                            span_range: 710..716,
                                            raw: ""unique"",
                                            to_string: ""unique"",
                                        },
                                        value: None,
                                    },
                                ],
                                is_pk: false,
                                is_unique: true,
                                nullable: None,
                                is_incremental: false,
                                note: None,
                                default: None,
                                refs: [],
                            },
                        ),
                    },
                    TableColumn {
                        span_range: 720..739,
                        name: Ident {
                            span_range: 720..728,
                            raw: ""\""gender\"""",
                            to_string: ""gender"",
                        },
                        type: ColumnType {
              " ++
 s "              span_range: 729..736,
                            raw: ""varchar"",
                            type_name: Raw(
                                ""varchar"",
                            ),
                            args: [],
                            arrays: [],
                        },
                        settings: None,
                    },
                    TableColumn {
                        span_range: 739..765,
                        name: Ident {
                            span_range: 739..754,
                            raw: ""\""date_of_birth\"""",
                            to_string: ""date_of_birth"",
                        },
                        type: ColumnType {
                            span_range: 755..762,
                            raw: ""varchar"",
                            type_name: Raw(
                                ""varchar"",
                            ),
                            args: [],
                            arrays: [],
                        },
                        settings: None,
                    },
                    TableColumn {
                        span_range: 765..788,
                        name: Ident {
                            span_range: 765..777,
                            raw: ""\""created_at\"""",
                            to_string: ""created_at"",
                        },
                        type: ColumnType {
                            span_range: 778..785,
                            raw: ""varchar"",
                            type_name: Raw(
                                ""varchar"",
                            ),
                            args: [],
                            arrays: [],
                        },
                        settings: None,
                    },
                    TableColumn {
                        span_range: 788..807,
                        name: Ident {
                            span_range: 788..802,
                " ++
 s "            raw: ""\""country_code\"""",
                            to_string: ""country_code"",
                        },
                        type: ColumnType {
                            span_range: 803..806,
                            raw: ""int"",
                            type_name: Raw(
                                ""int"",
                            ),
                            args: [],
                            arrays: [],
                        },
                        settings: None,
                    },
                ],
                ident: TableIdent {
                    span_range: 643..651,
                    name: Ident {
                        span_range: 643..650,
                        raw: ""\""users\"""",
                        to_string: ""users"",
                    },
                    schema: None,
                    alias: None,
                },
                note: None,
                indexes: None,
                settings: None,
            },
        ),
        TableGroup(
            TableGroupBlock {
                span_range: 810..847,
                ident: Ident {
                    span_range: 821..823,
                    raw: ""g1"",
                    to_string: ""g1"",
                },
                note: None,
                items: [
                    TableGroupItem {
                        span_range: 828..836,
                        schema: None,
                        ident_alias: Ident {
                            span_range: 828..833,
                            raw: ""users"",
                            to_string: ""users"",
                        },
                    },
                    TableGroupItem {
                        span_range: 836..846,
                        schema: None,
                        ident_alias: Ident {
                            span_range: 836..845,
                            raw: ""merchants"",
                            to_string: ""merchants"",
      " ++
 s "                  },
                    },
                ],
                settings: None,
            },
        ),
        TableGroup(
            TableGroupBlock {
                span_range: 849..887,
                ident: Ident {
                    span_range: 860..862,
                    raw: ""g2"",
                    to_string: ""g2"",
                },
                note: None,
                items: [
                    TableGroupItem {
                        span_range: 867..879,
                        schema: None,
                        ident_alias: Ident {
                            span_range: 867..876,
                            raw: ""countries"",
                            to_string: ""countries"",
                        },
                    },
                    TableGroupItem {
                        span_range: 879..886,
                        schema: None,
                        ident_alias: Ident {
                            span_range: 879..885,
                            raw: ""orders"",
                            to_string: ""orders"",
                        },
                    },
                ],
                settings: None,
            },
        ),
        Table(
            TableBlock {
                span_range: 889..1013,
                cols: [
                    TableColumn {
                        span_range: 911..924,
                        name: Ident {
                            span_range: 911..915,
                            raw: ""\""id\"""",
                            to_string: ""id"",
                        },
                        type: ColumnType {
                            span_range: 916..919,
                            raw: ""int"",
                            type_name: Raw(
                                ""int"",
                            ),
                            args: [],
                            arrays: [],
                        },
                        settings: Some(
 " ++
 s "                           ColumnSettings {
                                span_range: 920..924,
                                attributes: [
                                    Attribute {
                                        span_range: 921..923,
                                        key: Ident {
                                            span_range: 921..923,
                                            raw: ""pk"",
                                            to_string: ""pk"",
                                        },
                                        value: None,
                                    },
                                ],
                                is_pk: true,
                                is_unique: false,
                                nullable: None,
                                is_incremental: false,
                                note: None,
                                default: None,
                                refs: [],
                            },
                        ),
                    },
                    TableColumn {
                        span_range: 927..953,
                        name: Ident {
                            span_range: 927..942,
                            raw: ""\""merchant_name\"""",
                            to_string: ""merchant_name"",
                        },
                        type: ColumnType {
                            span_range: 943..950,
                            raw: ""varchar"",
                            type_name: Raw(
                                ""varchar"",
                            ),
                            args: [],
                            arrays: [],
                        },
                        settings: None,
                    },
                    TableColumn {
                        span_range: 953..974,
                        name: Ident {
                            span_range: 953..967,
                            raw: " ++
 s """\""country_code\"""",
                            to_string: ""country_code"",
                        },
                        type: ColumnType {
                            span_range: 968..971,
                            raw: ""int"",
                            type_name: Raw(
                                ""int"",
                            ),
                            args: [],
                            arrays: [],
                        },
                        settings: None,
                    },
                    TableColumn {
                        span_range: 974..997,
                        name: Ident {
                            span_range: 974..986,
                            raw: ""\""created_at\"""",
                            to_string: ""created_at"",
                        },
                        type: ColumnType {
                            span_range: 987..994,
                            raw: ""varchar"",
                            type_name: Raw(
                                ""varchar"",
                            ),
                            args: [],
                            arrays: [],
                        },
                        settings: None,
                    },
                    TableColumn {
                        span_range: 997..1012,
                        name: Ident {
                            span_range: 997..1007,
                            raw: ""\""admin_id\"""",
                            to_string: ""admin_id"",
                        },
                        type: ColumnType {
                            span_range: 1008..1011,
                            raw: ""int"",
                            type_name: Raw(
                                ""int"",
                            ),
                            args: [],
                            arrays: [],
                        },
                        settings: None,
                    },
                ],
                ident: Table" ++
 s "Ident {
                    span_range: 895..907,
                    name: Ident {
                        span_range: 895..906,
                        raw: ""\""merchants\"""",
                        to_string: ""merchants"",
                    },
                    schema: None,
                    alias: None,
                },
                note: None,
                indexes: None,
                settings: None,
            },
        ),
        Table(
            TableBlock {
                span_range: 1015..1098,
                cols: [
                    TableColumn {
                        span_range: 1037..1052,
                        name: Ident {
                            span_range: 1037..1043,
                            raw: ""\""code\"""",
                            to_string: ""code"",
                        },
                        type: ColumnType {
                            span_range: 1044..1047,
                            raw: ""int"",
                            type_name: Raw(
                                ""int"",
                            ),
                            args: [],
                            arrays: [],
                        },
                        settings: Some(
                            ColumnSettings {
                                span_range: 1048..1052,
                                attributes: [
                                    Attribute {
                                        span_range: 1049..1051,
                                        key: Ident {
                                            span_range: 1049..1051,
                                            raw: ""pk"",
                                            to_string: ""pk"",
                                        },
                                        value: None,
                                    },
                                ],
                                is_pk: true,
                                is_unique: false,
" ++
 s "                                nullable: None,
                                is_incremental: false,
                                note: None,
                                default: None,
                                refs: [],
                            },
                        ),
                    },
                    TableColumn {
                        span_range: 1055..1072,
                        name: Ident {
                            span_range: 1055..1061,
                            raw: ""\""name\"""",
                            to_string: ""name"",
                        },
                        type: ColumnType {
                            span_range: 1062..1069,
                            raw: ""varchar"",
                            type_name: Raw(
                                ""varchar"",
                            ),
                            args: [],
                            arrays: [],
                        },
                        settings: None,
                    },
                    TableColumn {
                        span_range: 1072..1097,
                        name: Ident {
                            span_range: 1072..1088,
                            raw: ""\""continent_name\"""",
                            to_string: ""continent_name"",
                        },
                        type: ColumnType {
                            span_range: 1089..1096,
                            raw: ""varchar"",
                            type_name: Raw(
                                ""varchar"",
                            ),
                            args: [],
                            arrays: [],
                        },
                        settings: None,
                    },
                ],
                ident: TableIdent {
                    span_range: 1021..1033,
                    name: Ident {
                        span_range: 1021..1032,
                        raw: ""\""countries\"""",
    " ++
 s "                    to_string: ""countries"",
                    },
                    schema: None,
                    alias: None,
                },
                note: None,
                indexes: None,
                settings: None,
            },
        ),
        Ref(
            RefBlock {
                span_range: 1104..1146,
                name: None,
                rel: One2Many,
                lhs: RefIdent {
                    span_range: 1104..1117,
                    schema: None,
                    table: Ident {
                        span_range: 1104..1112,
                        raw: ""\""orders\"""",
                        to_string: ""orders"",
                    },
                    compositions: [
                        Ident {
                            span_range: 1113..1117,
                            raw: ""\""id\"""",
                            to_string: ""id"",
                        },
                    ],
                },
                rhs: RefIdent {
                    span_range: 1120..1144,
                    schema: None,
                    table: Ident {
                        span_range: 1120..1133,
                        raw: ""\""order_items\"""",
                        to_string: ""order_items"",
                    },
                    compositions: [
                        Ident {
                            span_range: 1134..1144,
                            raw: ""\""order_id\"""",
                            to_string: ""order_id"",
                        },
                    ],
                },
                settings: None,
            },
        ),
        Ref(
            RefBlock {
                span_range: 1150..1196,
                name: None,
                rel: One2Many,
                lhs: RefIdent {
                    span_range: 1150..1165,
                    schema: None,
                    table: Ident {
                        span_range: 1150..1160,
                        r" ++
 s "aw: ""\""products\"""",
                        to_string: ""products"",
                    },
                    compositions: [
                        Ident {
                            span_range: 1161..1165,
                            raw: ""\""id\"""",
                            to_string: ""id"",
                        },
                    ],
                },
                rhs: RefIdent {
                    span_range: 1168..1194,
                    schema: None,
                    table: Ident {
                        span_range: 1168..1181,
                        raw: ""\""order_items\"""",
                        to_string: ""order_items"",
                    },
                    compositions: [
                        Ident {
                            span_range: 1182..1194,
                            raw: ""\""product_id\"""",
                            to_string: ""product_id"",
                        },
                    ],
                },
                settings: None,
            },
        ),
        Ref(
            RefBlock {
                span_range: 1200..1245,
                name: None,
                rel: One2Many,
                lhs: RefIdent {
                    span_range: 1200..1218,
                    schema: None,
                    table: Ident {
                        span_range: 1200..1211,
                        raw: ""\""countries\"""",
                        to_string: ""countries"",
                    },
                    compositions: [
                        Ident {
                            span_range: 1212..1218,
                            raw: ""\""code\"""",
                            to_string: ""code"",
                        },
                    ],
                },
                rhs: RefIdent {
                    span_range: 1221..1243,
                    schema: None,
                    table: Ident {
                        span_range: 1221..1228,
                        raw: ""\""users\"""",
       " ++
 s "                 to_string: ""users"",
                    },
                    compositions: [
                        Ident {
                            span_range: 1229..1243,
                            raw: ""\""country_code\"""",
                            to_string: ""country_code"",
                        },
                    ],
                },
                settings: None,
            },
        ),
        Ref(
            RefBlock {
                span_range: 1249..1298,
                name: None,
                rel: One2Many,
                lhs: RefIdent {
                    span_range: 1249..1267,
                    schema: None,
                    table: Ident {
                        span_range: 1249..1260,
                        raw: ""\""countries\"""",
                        to_string: ""countries"",
                    },
                    compositions: [
                        Ident {
                            span_range: 1261..1267,
                            raw: ""\""code\"""",
                            to_string: ""code"",
                        },
                    ],
                },
                rhs: RefIdent {
                    span_range: 1270..1296,
                    schema: None,
                    table: Ident {
                        span_range: 1270..1281,
                        raw: ""\""merchants\"""",
                        to_string: ""merchants"",
                    },
                    compositions: [
                        Ident {
                            span_range: 1282..1296,
                            raw: ""\""country_code\"""",
                            to_string: ""country_code"",
                        },
                    ],
                },
                settings: None,
            },
        ),
        Ref(
            RefBlock {
                span_range: 1302..1347,
                name: None,
                rel: One2Many,
                lhs: RefIdent {
                    span_ra" ++
 s "nge: 1302..1318,
                    schema: None,
                    table: Ident {
                        span_range: 1302..1313,
                        raw: ""\""merchants\"""",
                        to_string: ""merchants"",
                    },
                    compositions: [
                        Ident {
                            span_range: 1314..1318,
                            raw: ""\""id\"""",
                            to_string: ""id"",
                        },
                    ],
                },
                rhs: RefIdent {
                    span_range: 1321..1345,
                    schema: None,
                    table: Ident {
                        span_range: 1321..1331,
                        raw: ""\""products\"""",
                        to_string: ""products"",
                    },
                    compositions: [
                        Ident {
                            span_range: 1332..1345,
                            raw: ""\""merchant_id\"""",
                            to_string: ""merchant_id"",
                        },
                    ],
                },
                settings: None,
            },
        ),
        Ref(
            RefBlock {
                span_range: 1351..1389,
                name: None,
                rel: One2Many,
                lhs: RefIdent {
                    span_range: 1351..1363,
                    schema: None,
                    table: Ident {
                        span_range: 1351..1358,
                        raw: ""\""users\"""",
                        to_string: ""users"",
                    },
                    compositions: [
                        Ident {
                            span_range: 1359..1363,
                            raw: ""\""id\"""",
                            to_string: ""id"",
                        },
                    ],
                },
                rhs: RefIdent {
                    span_range: 1366..1388,
                    s" ++
 s "chema: None,
                    table: Ident {
                        span_range: 1366..1377,
                        raw: ""\""merchants\"""",
                        to_string: ""merchants"",
                    },
                    compositions: [
                        Ident {
                            span_range: 1378..1388,
                            raw: ""\""admin_id\"""",
                            to_string: ""admin_id"",
                        },
                    ],
                },
                settings: None,
            },
        ),
    ],
}") = true.
Proof. vm_compute. reflexivity. Qed.

(** tests/dbml/header_color_tables.in.dbml *)
Example golden__header_color_tables : prints
(s "Table orders [HeaderColor: #0065ab] { // headercolor is case-insensitive.
	id int //columns
	user_id int
	status varchar
	create_at date_time
}")
(s "SchemaBlock {
    span_range: 0..143,
    input: ""Table orders [HeaderColor: #0065ab] { // headercolor is case-insensitive.\n\tid int //columns\n\tuser_id int\n\tstatus varchar\n\tcreate_at date_time\n}"",
    blocks: [
        Table(
            TableBlock {
                span_range: 0..143,
                cols: [
                    TableColumn {
                        span_range: 75..93,
                        name: Ident {
                            span_range: 75..77,
                            raw: ""id"",
                            to_string: ""id"",
                        },
                        type: ColumnType {
                            span_range: 78..81,
                            raw: ""int"",
                            type_name: Raw(
                                ""int"",
                            ),
                            args: [],
                            arrays: [],
                        },
                        settings: None,
                    },
                    TableColumn {
                        span_range: 93..106,
                        name: Ident {
                            span_range: 93..100,
                            raw: ""user_id"",
                            to_string: ""user_id"",
                        },
                        type: ColumnType {
                            span_range: 101..104,
                            raw: ""int"",
                            type_name: Raw(
                                ""int"",
                            ),
                            args: [],
                            arrays: [],
                        },
                        settings: None,
                    },
                    TableColumn {
                        span_range: 106..122,
                        name: Ident {
                            span_range: 106..112,
                            raw: ""status"",
                            to_string: ""status"",
                        },
    " ++
 s "                    type: ColumnType {
                            span_range: 113..120,
                            raw: ""varchar"",
                            type_name: Raw(
                                ""varchar"",
                            ),
                            args: [],
                            arrays: [],
                        },
                        settings: None,
                    },
                    TableColumn {
                        span_range: 122..142,
                        name: Ident {
                            span_range: 122..131,
                            raw: ""create_at"",
                            to_string: ""create_at"",
                        },
                        type: ColumnType {
                            span_range: 132..141,
                            raw: ""date_time"",
                            type_name: Raw(
                                ""date_time"",
                            ),
                            args: [],
                            arrays: [],
                        },
                        settings: None,
                    },
                ],
                ident: TableIdent {
                    span_range: 6..13,
                    name: Ident {
                        span_range: 6..12,
                        raw: ""orders"",
                        to_string: ""orders"",
                    },
                    schema: None,
                    alias: None,
                },
                note: None,
                indexes: None,
                settings: Some(
                    TableSettings {
                        span_range: 13..35,
                        attributes: [
                            Attribute {
                                span_range: 14..34,
                                key: Ident {
                                    span_range: 14..25,
                                    raw: ""HeaderColor"",
                                    to_" ++
 s "string: ""HeaderColor"",
                                },
                                value: Some(
                                    Literal {
                                        span_range: 27..34,
                                        raw: ""#0065ab"",
                                        value: HexColor(
                                            ""#0065ab"",
                                        ),
                                    },
                                ),
                            },
                        ],
                    },
                ),
            },
        ),
    ],
}") = true.
Proof. vm_compute. reflexivity. Qed.

(** tests/dbml/index_tables.in.dbml *)
Example golden__index_tables : prints
(s "Table users {
  id int [primary key]
  full_name varchar
  email varchar [unique]
  gender varchar
  date_of_birth varchar
  created_at varchar
  country_code int 
  active boolean [not null]
  
  indexes {
    (id) [unique, note: 'index note']
    full_name [name: 'User Name']
    (email,created_at) [type: hash]
    `now()`
    (active, `lower(full_name)`)
    (`getdate()`, `upper(gender)`)
    (`reverse(country_code)`)
  }
}
")
(s "SchemaBlock {
    span_range: 0..431,
    input: ""Table users {\n  id int [primary key]\n  full_name varchar\n  email varchar [unique]\n  gender varchar\n  date_of_birth varchar\n  created_at varchar\n  country_code int \n  active boolean [not null]\n  \n  indexes {\n    (id) [unique, note: 'index note']\n    full_name [name: 'User Name']\n    (email,created_at) [type: hash]\n    `now()`\n    (active, `lower(full_name)`)\n    (`getdate()`, `upper(gender)`)\n    (`reverse(country_code)`)\n  }\n}\n"",
    blocks: [
        Table(
            TableBlock {
                span_range: 0..430,
                cols: [
                    TableColumn {
                        span_range: 16..36,
                        name: Ident {
                            span_range: 16..18,
                            raw: ""id"",
                            to_string: ""id"",
                        },
                        type: ColumnType {
                            span_range: 19..22,
                            raw: ""int"",
                            type_name: Raw(
                                ""int"",
                            ),
                            args: [],
                            arrays: [],
                        },
                        settings: Some(
                            ColumnSettings {
                                span_range: 23..36,
                                attributes: [
                                    Attribute {
                                        span_range: 24..35,
                                        key: Ident {
                                            span_range: 24..35,
                                            raw: ""primary key"",
                                            to_string: ""primary key"",
                                        },
                                        value: None,
                                    },
                                ],
                                is_pk: true,
" ++
 s "                                is_unique: false,
                                nullable: None,
                                is_incremental: false,
                                note: None,
                                default: None,
                                refs: [],
                            },
                        ),
                    },
                    TableColumn {
                        span_range: 39..59,
                        name: Ident {
                            span_range: 39..48,
                            raw: ""full_name"",
                            to_string: ""full_name"",
                        },
                        type: ColumnType {
                            span_range: 49..56,
                            raw: ""varchar"",
                            type_name: Raw(
                                ""varchar"",
                            ),
                            args: [],
                            arrays: [],
                        },
                        settings: None,
                    },
                    TableColumn {
                        span_range: 59..81,
                        name: Ident {
                            span_range: 59..64,
                            raw: ""email"",
                            to_string: ""email"",
                        },
                        type: ColumnType {
                            span_range: 65..72,
                            raw: ""varchar"",
                            type_name: Raw(
                                ""varchar"",
                            ),
                            args: [],
                            arrays: [],
                        },
                        settings: Some(
                            ColumnSettings {
                                span_range: 73..81,
                                attributes: [
                                    Attribute {
                                        span_range: 7" ++
 s "4..80,
                                        key: Ident {
                                            span_range: 74..80,
                                            raw: ""unique"",
                                            to_string: ""unique"",
                                        },
                                        value: None,
                                    },
                                ],
                                is_pk: false,
                                is_unique: true,
                                nullable: None,
                                is_incremental: false,
                                note: None,
                                default: None,
                                refs: [],
                            },
                        ),
                    },
                    TableColumn {
                        span_range: 84..101,
                        name: Ident {
                            span_range: 84..90,
                            raw: ""gender"",
                            to_string: ""gender"",
                        },
                        type: ColumnType {
                            span_range: 91..98,
                            raw: ""varchar"",
                            type_name: Raw(
                                ""varchar"",
                            ),
                            args: [],
                            arrays: [],
                        },
                        settings: None,
                    },
                    TableColumn {
                        span_range: 101..125,
                        name: Ident {
                            span_range: 101..114,
                            raw: ""date_of_birth"",
                            to_string: ""date_of_birth"",
                        },
                        type: ColumnType {
                            span_range: 115..122,
                            raw: ""varchar"",
                           " ++
 s " type_name: Raw(
                                ""varchar"",
                            ),
                            args: [],
                            arrays: [],
                        },
                        settings: None,
                    },
                    TableColumn {
                        span_range: 125..146,
                        name: Ident {
                            span_range: 125..135,
                            raw: ""created_at"",
                            to_string: ""created_at"",
                        },
                        type: ColumnType {
                            span_range: 136..143,
                            raw: ""varchar"",
                            type_name: Raw(
                                ""varchar"",
                            ),
                            args: [],
                            arrays: [],
                        },
                        settings: None,
                    },
                    TableColumn {
                        span_range: 146..166,
                        name: Ident {
                            span_range: 146..158,
                            raw: ""country_code"",
                            to_string: ""country_code"",
                        },
                        type: ColumnType {
                            span_range: 159..162,
                            raw: ""int"",
                            type_name: Raw(
                                ""int"",
                            ),
                            args: [],
                            arrays: [],
                        },
                        settings: None,
                    },
                    TableColumn {
                        span_range: 166..191,
                        name: Ident {
                            span_range: 166..172,
                            raw: ""active"",
                            to_string: ""active"",
                        },
                      " ++
 s "  type: ColumnType {
                            span_range: 173..180,
                            raw: ""boolean"",
                            type_name: Raw(
                                ""boolean"",
                            ),
                            args: [],
                            arrays: [],
                        },
                        settings: Some(
                            ColumnSettings {
                                span_range: 181..191,
                                attributes: [
                                    Attribute {
                                        span_range: 182..190,
                                        key: Ident {
                                            span_range: 182..190,
                                            raw: ""not null"",
                                            to_string: ""not null"",
                                        },
                                        value: None,
                                    },
                                ],
                                is_pk: false,
                                is_unique: false,
                                nullable: Some(
                                    NotNull,
                                ),
                                is_incremental: false,
                                note: None,
                                default: None,
                                refs: [],
                            },
                        ),
                    },
                ],
                ident: TableIdent {
                    span_range: 6..12,
                    name: Ident {
                        span_range: 6..11,
                        raw: ""users"",
                        to_string: ""users"",
                    },
                    schema: None,
                    alias: None,
                },
                note: None,
                indexes: Some(
                    IndexesBlock {
 " ++
 s "                       span_range: 205..428,
                        defs: [
                            IndexesDef {
                                span_range: 211..244,
                                cols: [
                                    String(
                                        Ident {
                                            span_range: 212..214,
                                            raw: ""id"",
                                            to_string: ""id"",
                                        },
                                    ),
                                ],
                                settings: Some(
                                    IndexesSettings {
                                        span_range: 216..244,
                                        attributes: [
                                            Attribute {
                                                span_range: 217..223,
                                                key: Ident {
                                                    span_range: 217..223,
                                                    raw: ""unique"",
                                                    to_string: ""unique"",
                                                },
                                                value: None,
                                            },
                                            Attribute {
                                                span_range: 225..243,
                                                key: Ident {
                                                    span_range: 225..229,
                                                    raw: ""note"",
                                                    to_string: ""note"",
                                                },
                                                value: Some(
                                                    Literal {
                                                " ++
 s "        span_range: 231..243,
                                                        raw: ""'index note'"",
                                                        value: String(
                                                            ""index note"",
                                                        ),
                                                    },
                                                ),
                                            },
                                        ],
                                        type: None,
                                        is_unique: true,
                                        is_pk: false,
                                        note: Some(
                                            ""index note"",
                                        ),
                                        name: None,
                                    },
                                ),
                            },
                            IndexesDef {
                                span_range: 249..278,
                                cols: [
                                    String(
                                        Ident {
                                            span_range: 249..258,
                                            raw: ""full_name"",
                                            to_string: ""full_name"",
                                        },
                                    ),
                                ],
                                settings: Some(
                                    IndexesSettings {
                                        span_range: 259..278,
                                        attributes: [
                                            Attribute {
                                                span_range: 260..277,
                                                key: Ident {
                                                    span_range: 260..264,
 " ++
 s "                                                   raw: ""name"",
                                                    to_string: ""name"",
                                                },
                                                value: Some(
                                                    Literal {
                                                        span_range: 266..277,
                                                        raw: ""'User Name'"",
                                                        value: String(
                                                            ""User Name"",
                                                        ),
                                                    },
                                                ),
                                            },
                                        ],
                                        type: None,
                                        is_unique: false,
                                        is_pk: false,
                                        note: None,
                                        name: Some(
                                            ""User Name"",
                                        ),
                                    },
                                ),
                            },
                            IndexesDef {
                                span_range: 283..314,
                                cols: [
                                    String(
                                        Ident {
                                            span_range: 284..289,
                                            raw: ""email"",
                                            to_string: ""email"",
                                        },
                                    ),
                                    String(
                                        Ident {
                                            span_range: 290..300,
          " ++
 s "                                  raw: ""created_at"",
                                            to_string: ""created_at"",
                                        },
                                    ),
                                ],
                                settings: Some(
                                    IndexesSettings {
                                        span_range: 302..314,
                                        attributes: [
                                            Attribute {
                                                span_range: 303..313,
                                                key: Ident {
                                                    span_range: 303..307,
                                                    raw: ""type"",
                                                    to_string: ""type"",
                                                },
                                                value: Some(
                                                    Literal {
                                                        span_range: 309..313,
                                                        raw: ""hash"",
                                                        value: Enum(
                                                            ""hash"",
                                                        ),
                                                    },
                                                ),
                                            },
                                        ],
                                        type: Some(
                                            Hash,
                                        ),
                                        is_unique: false,
                                        is_pk: false,
                                        note: None,
                                        name: None,
                                    },
                                )" ++
 s ",
                            },
                            IndexesDef {
                                span_range: 319..331,
                                cols: [
                                    Expr(
                                        Literal {
                                            span_range: 319..326,
                                            raw: ""`now()`"",
                                            value: String(
                                                ""now()"",
                                            ),
                                        },
                                    ),
                                ],
                                settings: None,
                            },
                            IndexesDef {
                                span_range: 331..364,
                                cols: [
                                    String(
                                        Ident {
                                            span_range: 332..338,
                                            raw: ""active"",
                                            to_string: ""active"",
                                        },
                                    ),
                                    Expr(
                                        Literal {
                                            span_range: 340..358,
                                            raw: ""`lower(full_name)`"",
                                            value: String(
                                                ""lower(full_name)"",
                                            ),
                                        },
                                    ),
                                ],
                                settings: None,
                            },
                            IndexesDef {
                                span_range: 364..399,
                                cols: [
                      " ++
 s "              Expr(
                                        Literal {
                                            span_range: 365..376,
                                            raw: ""`getdate()`"",
                                            value: String(
                                                ""getdate()"",
                                            ),
                                        },
                                    ),
                                    Expr(
                                        Literal {
                                            span_range: 378..393,
                                            raw: ""`upper(gender)`"",
                                            value: String(
                                                ""upper(gender)"",
                                            ),
                                        },
                                    ),
                                ],
                                settings: None,
                            },
                            IndexesDef {
                                span_range: 399..427,
                                cols: [
                                    Expr(
                                        Literal {
                                            span_range: 400..423,
                                            raw: ""`reverse(country_code)`"",
                                            value: String(
                                                ""reverse(country_code)"",
                                            ),
                                        },
                                    ),
                                ],
                                settings: None,
                            },
                        ],
                    },
                ),
                settings: None,
            },
        ),
    ],
}") = true.
Proof. vm_compute. reflexivity. Qed.

(** tests/dbml/multiline_string.in.dbml *)
Example golden__multiline_string : prints
(s "Table users {
  id int [note: '''

    # Objective
      * Support writing long string that can \
'span' over multiple lines
      * Support writing markdown for DBML Note
  
    # Syntax

  ''']
}")
(s "SchemaBlock {
    span_range: 0..197,
    input: ""Table users {\n  id int [note: '''\n\n    # Objective\n      * Support writing long string that can \\\n'span' over multiple lines\n      * Support writing markdown for DBML Note\n  \n    # Syntax\n\n  ''']\n}"",
    blocks: [
        Table(
            TableBlock {
                span_range: 0..197,
                cols: [
                    TableColumn {
                        span_range: 16..195,
                        name: Ident {
                            span_range: 16..18,
                            raw: ""id"",
                            to_string: ""id"",
                        },
                        type: ColumnType {
                            span_range: 19..22,
                            raw: ""int"",
                            type_name: Raw(
                                ""int"",
                            ),
                            args: [],
                            arrays: [],
                        },
                        settings: Some(
                            ColumnSettings {
                                span_range: 23..195,
                                attributes: [
                                    Attribute {
                                        span_range: 24..194,
                                        key: Ident {
                                            span_range: 24..28,
                                            raw: ""note"",
                                            to_string: ""note"",
                                        },
                                        value: Some(
                                            Literal {
                                                span_range: 30..194,
                                                raw: ""'''\n\n    # Objective\n      * Support writing long string that can \\\n'span' over multiple lines\n      * Support writing markdown for DBML Note\n  \n    # Syntax\n\n  '''"",
                  " ++
 s "                              value: String(
                                                    ""# Objective\n      * Support writing long string that can \\\n'span' over multiple lines\n      * Support writing markdown for DBML Note\n  \n    # Syntax\n\n  "",
                                                ),
                                            },
                                        ),
                                    },
                                ],
                                is_pk: false,
                                is_unique: false,
                                nullable: None,
                                is_incremental: false,
                                note: Some(
                                    ""# Objective\n      * Support writing long string that can \\\n'span' over multiple lines\n      * Support writing markdown for DBML Note\n  \n    # Syntax\n\n  "",
                                ),
                                default: None,
                                refs: [],
                            },
                        ),
                    },
                ],
                ident: TableIdent {
                    span_range: 6..12,
                    name: Ident {
                        span_range: 6..11,
                        raw: ""users"",
                        to_string: ""users"",
                    },
                    schema: None,
                    alias: None,
                },
                note: None,
                indexes: None,
                settings: None,
            },
        ),
    ],
}") = true.
Proof. vm_compute. reflexivity. Qed.

(** tests/dbml/project.in.dbml *)
Example golden__project : prints
(s "Project ecommerce {
  note: '''
    # Introduction
    This is an ecommerce project

    # Description
    ...
  '''
  database_type: 'PostgreSQL'
}

Enum ""orders_status"" {
  ""created""
  ""running""
  ""done""
  ""failure""
}

Enum ""product status"" {
  ""Out of Stock""
  ""In Stock""
}

Table ""orders"" [headercolor: #fff] {
  ""id"" int [pk, increment]
  ""user_id"" int [unique, not null]
  ""status"" orders_status
  ""created_at"" varchar
}

Table ""order_items"" {
  ""order_id"" int
  ""product_id"" int
  ""quantity"" int [default: 1]
}

Table ""products"" {
  ""id"" int [pk]
  ""name"" varchar
  ""merchant_id"" int [not null]
  ""price"" int
  ""status"" ""product status""
  ""created_at"" datetime [default: `now()`]

        
Indexes {
  (merchant_id, status) [name: 'product_status']
  id [type: hash, unique]
}
}

Table ""users"" {
  ""id"" int [pk]
  ""full_name"" varchar
  ""email"" varchar [unique]
  ""gender"" varchar
  ""date_of_birth"" varchar
  ""created_at"" varchar
  ""country_code"" int
}

TableGroup g1 {
  users
  merchants
}

TableGroup g2 {
  countries
  orders
}

Table ""merchants"" {
  ""id"" int [pk]
  ""merchant_name"" varchar
  ""country_code"" int
  ""created_at"" varchar
  ""admin_id"" int
}

Table ""countries"" {
  ""code"" int [pk]
  ""name"" varchar
  ""continent_name"" varchar
}

Ref:""orders"".""id"" < ""order_items"".""order_id""

Ref:""products"".""id"" < ""order_items"".""product_id""

Ref:""countries"".""code"" < ""users"".""country_code""

Ref:""countries"".""code"" < ""merchants"".""country_code""

Ref:""merchants"".""id"" < ""products"".""merchant_id""

Ref:""users"".""id"" < ""merchants"".""admin_id""")
(s "SchemaBlock {
    span_range: 0..1538,
    input: ""Project ecommerce {\n  note: '''\n    # Introduction\n    This is an ecommerce project\n\n    # Description\n    ...\n  '''\n  database_type: 'PostgreSQL'\n}\n\nEnum \""orders_status\"" {\n  \""created\""\n  \""running\""\n  \""done\""\n  \""failure\""\n}\n\nEnum \""product status\"" {\n  \""Out of Stock\""\n  \""In Stock\""\n}\n\nTable \""orders\"" [headercolor: #fff] {\n  \""id\"" int [pk, increment]\n  \""user_id\"" int [unique, not null]\n  \""status\"" orders_status\n  \""created_at\"" varchar\n}\n\nTable \""order_items\"" {\n  \""order_id\"" int\n  \""product_id\"" int\n  \""quantity\"" int [default: 1]\n}\n\nTable \""products\"" {\n  \""id\"" int [pk]\n  \""name\"" varchar\n  \""merchant_id\"" int [not null]\n  \""price\"" int\n  \""status\"" \""product status\""\n  \""created_at\"" datetime [default: `now()`]\n\n        \nIndexes {\n  (merchant_id, status) [name: 'product_status']\n  id [type: hash, unique]\n}\n}\n\nTable \""users\"" {\n  \""id\"" int [pk]\n  \""full_name\"" varchar\n  \""email\"" varchar [unique]\n  \""gender\"" varchar\n  \""date_of_birth\"" varchar\n  \""created_at\"" varchar\n  \""country_code\"" int\n}\n\nTableGroup g1 {\n  users\n  merchants\n}\n\nTableGroup g2 {\n  countries\n  orders\n}\n\nTable \""merchants\"" {\n  \""id\"" int [pk]\n  \""merchant_name\"" varchar\n  \""country_code\"" int\n  \""created_at\"" varchar\n  \""admin_id\"" int\n}\n\nTable \""countries\"" {\n  \""code\"" int [pk]\n  \""name\"" varchar\n  \""continent_name\"" varchar\n}\n\nRef:\""orders\"".\""id\"" < \""order_items\"".\""order_id\""\n\nRef:\""products\"".\""id\"" < \""order_items\"".\""product_id\""\n\nRef:\""countries\"".\""code\"" < \""users\"".\""country_code\""\n\nRef:\""countries\"".\""code\"" < \""merchants\"".\""country_code\""\n\nRef:\""merchants\"".\""id\"" < \""products\"".\""merchant_id\""\n\nRef:\""users\"".\""id\"" < \""merchants\"".\""admin_id\"""",
    blocks: [
        Project(
            ProjectBlock {
                span_range: 0..148,
                properties: [
                    Property {
                        " ++
 s "span_range: 119..146,
                        key: Ident {
                            span_range: 119..132,
                            raw: ""database_type"",
                            to_string: ""database_type"",
                        },
                        value: Literal {
                            span_range: 134..146,
                            raw: ""'PostgreSQL'"",
                            value: String(
                                ""PostgreSQL"",
                            ),
                        },
                    },
                ],
                ident: Ident {
                    span_range: 8..17,
                    raw: ""ecommerce"",
                    to_string: ""ecommerce"",
                },
                database_type: Some(
                    PostgreSQL,
                ),
                note: Some(
                    NoteBlock {
                        span_range: 22..116,
                        value: Literal {
                            span_range: 28..116,
                            raw: ""'''\n    # Introduction\n    This is an ecommerce project\n\n    # Description\n    ...\n  '''"",
                            value: String(
                                ""# Introduction\n    This is an ecommerce project\n\n    # Description\n    ...\n  "",
                            ),
                        },
                    },
                ),
            },
        ),
        Enum(
            EnumBlock {
                span_range: 150..219,
                ident: EnumIdent {
                    span_range: 155..171,
                    schema: None,
                    name: Ident {
                        span_range: 155..170,
                        raw: ""\""orders_status\"""",
                        to_string: ""orders_status"",
                    },
                },
                values: [
                    EnumValue {
                        span_range: 175..187,
                        value: Ident {
   " ++
 s "                         span_range: 175..184,
                            raw: ""\""created\"""",
                            to_string: ""created"",
                        },
                        settings: None,
                    },
                    EnumValue {
                        span_range: 187..199,
                        value: Ident {
                            span_range: 187..196,
                            raw: ""\""running\"""",
                            to_string: ""running"",
                        },
                        settings: None,
                    },
                    EnumValue {
                        span_range: 199..208,
                        value: Ident {
                            span_range: 199..205,
                            raw: ""\""done\"""",
                            to_string: ""done"",
                        },
                        settings: None,
                    },
                    EnumValue {
                        span_range: 208..218,
                        value: Ident {
                            span_range: 208..217,
                            raw: ""\""failure\"""",
                            to_string: ""failure"",
                        },
                        settings: None,
                    },
                ],
            },
        ),
        Enum(
            EnumBlock {
                span_range: 221..276,
                ident: EnumIdent {
                    span_range: 226..243,
                    schema: None,
                    name: Ident {
                        span_range: 226..242,
                        raw: ""\""product status\"""",
                        to_string: ""product status"",
                    },
                },
                values: [
                    EnumValue {
                        span_range: 247..264,
                        value: Ident {
                            span_range: 247..261,
                            raw: ""\""Out of Stock\"""",
  " ++
 s "                          to_string: ""Out of Stock"",
                        },
                        settings: None,
                    },
                    EnumValue {
                        span_range: 264..275,
                        value: Ident {
                            span_range: 264..274,
                            raw: ""\""In Stock\"""",
                            to_string: ""In Stock"",
                        },
                        settings: None,
                    },
                ],
            },
        ),
        Table(
            TableBlock {
                span_range: 278..426,
                cols: [
                    TableColumn {
                        span_range: 317..341,
                        name: Ident {
                            span_range: 317..321,
                            raw: ""\""id\"""",
                            to_string: ""id"",
                        },
                        type: ColumnType {
                            span_range: 322..325,
                            raw: ""int"",
                            type_name: Raw(
                                ""int"",
                            ),
                            args: [],
                            arrays: [],
                        },
                        settings: Some(
                            ColumnSettings {
                                span_range: 326..341,
                                attributes: [
                                    Attribute {
                                        span_range: 327..329,
                                        key: Ident {
                                            span_range: 327..329,
                                            raw: ""pk"",
                                            to_string: ""pk"",
                                        },
                                        value: None,
                                    },
                                    Attribute {
     " ++
 s "                                   span_range: 331..340,
                                        key: Ident {
                                            span_range: 331..340,
                                            raw: ""increment"",
                                            to_string: ""increment"",
                                        },
                                        value: None,
                                    },
                                ],
                                is_pk: true,
                                is_unique: false,
                                nullable: None,
                                is_incremental: true,
                                note: None,
                                default: None,
                                refs: [],
                            },
                        ),
                    },
                    TableColumn {
                        span_range: 344..376,
                        name: Ident {
                            span_range: 344..353,
                            raw: ""\""user_id\"""",
                            to_string: ""user_id"",
                        },
                        type: ColumnType {
                            span_range: 354..357,
                            raw: ""int"",
                            type_name: Raw(
                                ""int"",
                            ),
                            args: [],
                            arrays: [],
                        },
                        settings: Some(
                            ColumnSettings {
                                span_range: 358..376,
                                attributes: [
                                    Attribute {
                                        span_range: 359..365,
                                        key: Ident {
                                            span_range: 359..365,
                                            raw: ""uniq" ++
 s "ue"",
                                            to_string: ""unique"",
                                        },
                                        value: None,
                                    },
                                    Attribute {
                                        span_range: 367..375,
                                        key: Ident {
                                            span_range: 367..375,
                                            raw: ""not null"",
                                            to_string: ""not null"",
                                        },
                                        value: None,
                                    },
                                ],
                                is_pk: false,
                                is_unique: true,
                                nullable: Some(
                                    NotNull,
                                ),
                                is_incremental: false,
                                note: None,
                                default: None,
                                refs: [],
                            },
                        ),
                    },
                    TableColumn {
                        span_range: 379..404,
                        name: Ident {
                            span_range: 379..387,
                            raw: ""\""status\"""",
                            to_string: ""status"",
                        },
                        type: ColumnType {
                            span_range: 388..401,
                            raw: ""orders_status"",
                            type_name: Raw(
                                ""orders_status"",
                            ),
                            args: [],
                            arrays: [],
                        },
                        settings: None,
                    },
                    TableColumn {
                " ++
 s "        span_range: 404..425,
                        name: Ident {
                            span_range: 404..416,
                            raw: ""\""created_at\"""",
                            to_string: ""created_at"",
                        },
                        type: ColumnType {
                            span_range: 417..424,
                            raw: ""varchar"",
                            type_name: Raw(
                                ""varchar"",
                            ),
                            args: [],
                            arrays: [],
                        },
                        settings: None,
                    },
                ],
                ident: TableIdent {
                    span_range: 284..293,
                    name: Ident {
                        span_range: 284..292,
                        raw: ""\""orders\"""",
                        to_string: ""orders"",
                    },
                    schema: None,
                    alias: None,
                },
                note: None,
                indexes: None,
                settings: Some(
                    TableSettings {
                        span_range: 293..312,
                        attributes: [
                            Attribute {
                                span_range: 294..311,
                                key: Ident {
                                    span_range: 294..305,
                                    raw: ""headercolor"",
                                    to_string: ""headercolor"",
                                },
                                value: Some(
                                    Literal {
                                        span_range: 307..311,
                                        raw: ""#fff"",
                                        value: HexColor(
                                            ""#fff"",
                                        ),
                                   " ++
 s " },
                                ),
                            },
                        ],
                    },
                ),
            },
        ),
        Table(
            TableBlock {
                span_range: 428..517,
                cols: [
                    TableColumn {
                        span_range: 452..469,
                        name: Ident {
                            span_range: 452..462,
                            raw: ""\""order_id\"""",
                            to_string: ""order_id"",
                        },
                        type: ColumnType {
                            span_range: 463..466,
                            raw: ""int"",
                            type_name: Raw(
                                ""int"",
                            ),
                            args: [],
                            arrays: [],
                        },
                        settings: None,
                    },
                    TableColumn {
                        span_range: 469..488,
                        name: Ident {
                            span_range: 469..481,
                            raw: ""\""product_id\"""",
                            to_string: ""product_id"",
                        },
                        type: ColumnType {
                            span_range: 482..485,
                            raw: ""int"",
                            type_name: Raw(
                                ""int"",
                            ),
                            args: [],
                            arrays: [],
                        },
                        settings: None,
                    },
                    TableColumn {
                        span_range: 488..515,
                        name: Ident {
                            span_range: 488..498,
                            raw: ""\""quantity\"""",
                            to_string: ""quantity"",
                        },
              " ++
 s "          type: ColumnType {
                            span_range: 499..502,
                            raw: ""int"",
                            type_name: Raw(
                                ""int"",
                            ),
                            args: [],
                            arrays: [],
                        },
                        settings: Some(
                            ColumnSettings {
                                span_range: 503..515,
                                attributes: [
                                    Attribute {
                                        span_range: 504..514,
                                        key: Ident {
                                            span_range: 504..511,
                                            raw: ""default"",
                                            to_string: ""default"",
                                        },
                                        value: Some(
                                            Literal {
                                                span_range: 513..514,
                                                raw: ""1"",
                                                value: Integer(
                                                    1,
                                                ),
                                            },
                                        ),
                                    },
                                ],
                                is_pk: false,
                                is_unique: false,
                                nullable: None,
                                is_incremental: false,
                                note: None,
                                default: Some(
                                    Integer(
                                        1,
                                    ),
                                ),
                                refs: [],
                " ++
 s "            },
                        ),
                    },
                ],
                ident: TableIdent {
                    span_range: 434..448,
                    name: Ident {
                        span_range: 434..447,
                        raw: ""\""order_items\"""",
                        to_string: ""order_items"",
                    },
                    schema: None,
                    alias: None,
                },
                note: None,
                indexes: None,
                settings: None,
            },
        ),
        Table(
            TableBlock {
                span_range: 519..785,
                cols: [
                    TableColumn {
                        span_range: 540..553,
                        name: Ident {
                            span_range: 540..544,
                            raw: ""\""id\"""",
                            to_string: ""id"",
                        },
                        type: ColumnType {
                            span_range: 545..548,
                            raw: ""int"",
                            type_name: Raw(
                                ""int"",
                            ),
                            args: [],
                            arrays: [],
                        },
                        settings: Some(
                            ColumnSettings {
                                span_range: 549..553,
                                attributes: [
                                    Attribute {
                                        span_range: 550..552,
                                        key: Ident {
                                            span_range: 550..552,
                                            raw: ""pk"",
                                            to_string: ""pk"",
                                        },
                                        value: None,
                                    },
                                " ++
 s "],
                                is_pk: true,
                                is_unique: false,
                                nullable: None,
                                is_incremental: false,
                                note: None,
                                default: None,
                                refs: [],
                            },
                        ),
                    },
                    TableColumn {
                        span_range: 556..573,
                        name: Ident {
                            span_range: 556..562,
                            raw: ""\""name\"""",
                            to_string: ""name"",
                        },
                        type: ColumnType {
                            span_range: 563..570,
                            raw: ""varchar"",
                            type_name: Raw(
                                ""varchar"",
                            ),
                            args: [],
                            arrays: [],
                        },
                        settings: None,
                    },
                    TableColumn {
                        span_range: 573..601,
                        name: Ident {
                            span_range: 573..586,
                            raw: ""\""merchant_id\"""",
                            to_string: ""merchant_id"",
                        },
                        type: ColumnType {
                            span_range: 587..590,
                            raw: ""int"",
                            type_name: Raw(
                                ""int"",
                            ),
                            args: [],
                            arrays: [],
                        },
                        settings: Some(
                            ColumnSettings {
                                span_range: 591..601,
                                attributes: [
                                    A" ++
 s "ttribute {
                                        span_range: 592..600,
                                        key: Ident {
                                            span_range: 592..600,
                                            raw: ""not null"",
                                            to_string: ""not null"",
                                        },
                                        value: None,
                                    },
                                ],
                                is_pk: false,
                                is_unique: false,
                                nullable: Some(
                                    NotNull,
                                ),
                                is_incremental: false,
                                note: None,
                                default: None,
                                refs: [],
                            },
                        ),
                    },
                    TableColumn {
                        span_range: 604..618,
                        name: Ident {
                            span_range: 604..611,
                            raw: ""\""price\"""",
                            to_string: ""price"",
                        },
                        type: ColumnType {
                            span_range: 612..615,
                            raw: ""int"",
                            type_name: Raw(
                                ""int"",
                            ),
                            args: [],
                            arrays: [],
                        },
                        settings: None,
                    },
                    TableColumn {
                        span_range: 618..646,
                        name: Ident {
                            span_range: 618..626,
                            raw: ""\""status\"""",
                            to_string: ""status"",
                        },
                      " ++
 s "  type: ColumnType {
                            span_range: 627..643,
                            raw: ""\""product status\"""",
                            type_name: Raw(
                                ""product status"",
                            ),
                            args: [],
                            arrays: [],
                        },
                        settings: None,
                    },
                    TableColumn {
                        span_range: 646..686,
                        name: Ident {
                            span_range: 646..658,
                            raw: ""\""created_at\"""",
                            to_string: ""created_at"",
                        },
                        type: ColumnType {
                            span_range: 659..667,
                            raw: ""datetime"",
                            type_name: Raw(
                                ""datetime"",
                            ),
                            args: [],
                            arrays: [],
                        },
                        settings: Some(
                            ColumnSettings {
                                span_range: 668..686,
                                attributes: [
                                    Attribute {
                                        span_range: 669..685,
                                        key: Ident {
                                            span_range: 669..676,
                                            raw: ""default"",
                                            to_string: ""default"",
                                        },
                                        value: Some(
                                            Literal {
                                                span_range: 678..685,
                                                raw: ""`now()`"",
                                                value: Expr(
                                   " ++
 s "                 ""now()"",
                                                ),
                                            },
                                        ),
                                    },
                                ],
                                is_pk: false,
                                is_unique: false,
                                nullable: None,
                                is_incremental: false,
                                note: None,
                                default: Some(
                                    Expr(
                                        ""now()"",
                                    ),
                                ),
                                refs: [],
                            },
                        ),
                    },
                ],
                ident: TableIdent {
                    span_range: 525..536,
                    name: Ident {
                        span_range: 525..535,
                        raw: ""\""products\"""",
                        to_string: ""products"",
                    },
                    schema: None,
                    alias: None,
                },
                note: None,
                indexes: Some(
                    IndexesBlock {
                        span_range: 705..783,
                        defs: [
                            IndexesDef {
                                span_range: 709..755,
                                cols: [
                                    String(
                                        Ident {
                                            span_range: 710..721,
                                            raw: ""merchant_id"",
                                            to_string: ""merchant_id"",
                                        },
                                    ),
                                    String(
                                        Ident {
                              " ++
 s "              span_range: 723..729,
                                            raw: ""status"",
                                            to_string: ""status"",
                                        },
                                    ),
                                ],
                                settings: Some(
                                    IndexesSettings {
                                        span_range: 731..755,
                                        attributes: [
                                            Attribute {
                                                span_range: 732..754,
                                                key: Ident {
                                                    span_range: 732..736,
                                                    raw: ""name"",
                                                    to_string: ""name"",
                                                },
                                                value: Some(
                                                    Literal {
                                                        span_range: 738..754,
                                                        raw: ""'product_status'"",
                                                        value: String(
                                                            ""product_status"",
                                                        ),
                                                    },
                                                ),
                                            },
                                        ],
                                        type: None,
                                        is_unique: false,
                                        is_pk: false,
                                        note: None,
                                        name: Some(
                                            ""product_status"",
                                        )" ++
 s ",
                                    },
                                ),
                            },
                            IndexesDef {
                                span_range: 758..781,
                                cols: [
                                    String(
                                        Ident {
                                            span_range: 758..760,
                                            raw: ""id"",
                                            to_string: ""id"",
                                        },
                                    ),
                                ],
                                settings: Some(
                                    IndexesSettings {
                                        span_range: 761..781,
                                        attributes: [
                                            Attribute {
                                                span_range: 762..772,
                                                key: Ident {
                                                    span_range: 762..766,
                                                    raw: ""type"",
                                                    to_string: ""type"",
                                                },
                                                value: Some(
                                                    Literal {
                                                        span_range: 768..772,
                                                        raw: ""hash"",
                                                        value: Enum(
                                                            ""hash"",
                                                        ),
                                                    },
                                                ),
                                            },
                                            Attribute {
                          " ++
 s "                      span_range: 774..780,
                                                key: Ident {
                                                    span_range: 774..780,
                                                    raw: ""unique"",
                                                    to_string: ""unique"",
                                                },
                                                value: None,
                                            },
                                        ],
                                        type: Some(
                                            Hash,
                                        ),
                                        is_unique: true,
                                        is_pk: false,
                                        note: None,
                                        name: None,
                                    },
                                ),
                            },
                        ],
                    },
                ),
                settings: None,
            },
        ),
        Table(
            TableBlock {
                span_range: 787..958,
                cols: [
                    TableColumn {
                        span_range: 805..818,
                        name: Ident {
                            span_range: 805..809,
                            raw: ""\""id\"""",
                            to_string: ""id"",
                        },
                        type: ColumnType {
                            span_range: 810..813,
                            raw: ""int"",
                            type_name: Raw(
                                ""int"",
                            ),
                            args: [],
                            arrays: [],
                        },
                        settings: Some(
                            ColumnSettings {
                                span_range: 814..818,
           " ++
 s "                     attributes: [
                                    Attribute {
                                        span_range: 815..817,
                                        key: Ident {
                                            span_range: 815..817,
                                            raw: ""pk"",
                                            to_string: ""pk"",
                                        },
                                        value: None,
                                    },
                                ],
                                is_pk: true,
                                is_unique: false,
                                nullable: None,
                                is_incremental: false,
                                note: None,
                                default: None,
                                refs: [],
                            },
                        ),
                    },
                    TableColumn {
                        span_range: 821..843,
                        name: Ident {
                            span_range: 821..832,
                            raw: ""\""full_name\"""",
                            to_string: ""full_name"",
                        },
                        type: ColumnType {
                            span_range: 833..840,
                            raw: ""varchar"",
                            type_name: Raw(
                                ""varchar"",
                            ),
                            args: [],
                            arrays: [],
                        },
                        settings: None,
                    },
                    TableColumn {
                        span_range: 843..867,
                        name: Ident {
                            span_range: 843..850,
                            raw: ""\""email\"""",
                            to_string: ""email"",
                        },
                        type:" ++
 s " ColumnType {
                            span_range: 851..858,
                            raw: ""varchar"",
                            type_name: Raw(
                                ""varchar"",
                            ),
                            args: [],
                            arrays: [],
                        },
                        settings: Some(
                            ColumnSettings {
                                span_range: 859..867,
                                attributes: [
                                    Attribute {
                                        span_range: 860..866,
                                        key: Ident {
                                            span_range: 860..866,
                                            raw: ""unique"",
                                            to_string: ""unique"",
                                        },
                                        value: None,
                                    },
                                ],
                                is_pk: false,
                                is_unique: true,
                                nullable: None,
                                is_incremental: false,
                                note: None,
                                default: None,
                                refs: [],
                            },
                        ),
                    },
                    TableColumn {
                        span_range: 870..889,
                        name: Ident {
                            span_range: 870..878,
                            raw: ""\""gender\"""",
                            to_string: ""gender"",
                        },
                        type: ColumnType {
                            span_range: 879..886,
                            raw: ""varchar"",
                            type_name: Raw(
                                ""varchar"",
                            ),
   " ++
 s "                         args: [],
                            arrays: [],
                        },
                        settings: None,
                    },
                    TableColumn {
                        span_range: 889..915,
                        name: Ident {
                            span_range: 889..904,
                            raw: ""\""date_of_birth\"""",
                            to_string: ""date_of_birth"",
                        },
                        type: ColumnType {
                            span_range: 905..912,
                            raw: ""varchar"",
                            type_name: Raw(
                                ""varchar"",
                            ),
                            args: [],
                            arrays: [],
                        },
                        settings: None,
                    },
                    TableColumn {
                        span_range: 915..938,
                        name: Ident {
                            span_range: 915..927,
                            raw: ""\""created_at\"""",
                            to_string: ""created_at"",
                        },
                        type: ColumnType {
                            span_range: 928..935,
                            raw: ""varchar"",
                            type_name: Raw(
                                ""varchar"",
                            ),
                            args: [],
                            arrays: [],
                        },
                        settings: None,
                    },
                    TableColumn {
                        span_range: 938..957,
                        name: Ident {
                            span_range: 938..952,
                            raw: ""\""country_code\"""",
                            to_string: ""country_code"",
                        },
                        type: ColumnType {
                            span_range:" ++
 s " 953..956,
                            raw: ""int"",
                            type_name: Raw(
                                ""int"",
                            ),
                            args: [],
                            arrays: [],
                        },
                        settings: None,
                    },
                ],
                ident: TableIdent {
                    span_range: 793..801,
                    name: Ident {
                        span_range: 793..800,
                        raw: ""\""users\"""",
                        to_string: ""users"",
                    },
                    schema: None,
                    alias: None,
                },
                note: None,
                indexes: None,
                settings: None,
            },
        ),
        TableGroup(
            TableGroupBlock {
                span_range: 960..997,
                ident: Ident {
                    span_range: 971..973,
                    raw: ""g1"",
                    to_string: ""g1"",
                },
                note: None,
                items: [
                    TableGroupItem {
                        span_range: 978..986,
                        schema: None,
                        ident_alias: Ident {
                            span_range: 978..983,
                            raw: ""users"",
                            to_string: ""users"",
                        },
                    },
                    TableGroupItem {
                        span_range: 986..996,
                        schema: None,
                        ident_alias: Ident {
                            span_range: 986..995,
                            raw: ""merchants"",
                            to_string: ""merchants"",
                        },
                    },
                ],
                settings: None,
            },
        ),
        TableGroup(
            TableGroupBlock {
                span_range: 99" ++
 s "9..1037,
                ident: Ident {
                    span_range: 1010..1012,
                    raw: ""g2"",
                    to_string: ""g2"",
                },
                note: None,
                items: [
                    TableGroupItem {
                        span_range: 1017..1029,
                        schema: None,
                        ident_alias: Ident {
                            span_range: 1017..1026,
                            raw: ""countries"",
                            to_string: ""countries"",
                        },
                    },
                    TableGroupItem {
                        span_range: 1029..1036,
                        schema: None,
                        ident_alias: Ident {
                            span_range: 1029..1035,
                            raw: ""orders"",
                            to_string: ""orders"",
                        },
                    },
                ],
                settings: None,
            },
        ),
        Table(
            TableBlock {
                span_range: 1039..1163,
                cols: [
                    TableColumn {
                        span_range: 1061..1074,
                        name: Ident {
                            span_range: 1061..1065,
                            raw: ""\""id\"""",
                            to_string: ""id"",
                        },
                        type: ColumnType {
                            span_range: 1066..1069,
                            raw: ""int"",
                            type_name: Raw(
                                ""int"",
                            ),
                            args: [],
                            arrays: [],
                        },
                        settings: Some(
                            ColumnSettings {
                                span_range: 1070..1074,
                                attributes: [
                                    A" ++
 s "ttribute {
                                        span_range: 1071..1073,
                                        key: Ident {
                                            span_range: 1071..1073,
                                            raw: ""pk"",
                                            to_string: ""pk"",
                                        },
                                        value: None,
                                    },
                                ],
                                is_pk: true,
                                is_unique: false,
                                nullable: None,
                                is_incremental: false,
                                note: None,
                                default: None,
                                refs: [],
                            },
                        ),
                    },
                    TableColumn {
                        span_range: 1077..1103,
                        name: Ident {
                            span_range: 1077..1092,
                            raw: ""\""merchant_name\"""",
                            to_string: ""merchant_name"",
                        },
                        type: ColumnType {
                            span_range: 1093..1100,
                            raw: ""varchar"",
                            type_name: Raw(
                                ""varchar"",
                            ),
                            args: [],
                            arrays: [],
                        },
                        settings: None,
                    },
                    TableColumn {
                        span_range: 1103..1124,
                        name: Ident {
                            span_range: 1103..1117,
                            raw: ""\""country_code\"""",
                            to_string: ""country_code"",
                        },
                        type: ColumnType {
                      " ++
 s "      span_range: 1118..1121,
                            raw: ""int"",
                            type_name: Raw(
                                ""int"",
                            ),
                            args: [],
                            arrays: [],
                        },
                        settings: None,
                    },
                    TableColumn {
                        span_range: 1124..1147,
                        name: Ident {
                            span_range: 1124..1136,
                            raw: ""\""created_at\"""",
                            to_string: ""created_at"",
                        },
                        type: ColumnType {
                            span_range: 1137..1144,
                            raw: ""varchar"",
                            type_name: Raw(
                                ""varchar"",
                            ),
                            args: [],
                            arrays: [],
                        },
                        settings: None,
                    },
                    TableColumn {
                        span_range: 1147..1162,
                        name: Ident {
                            span_range: 1147..1157,
                            raw: ""\""admin_id\"""",
                            to_string: ""admin_id"",
                        },
                        type: ColumnType {
                            span_range: 1158..1161,
                            raw: ""int"",
                            type_name: Raw(
                                ""int"",
                            ),
                            args: [],
                            arrays: [],
                        },
                        settings: None,
                    },
                ],
                ident: TableIdent {
                    span_range: 1045..1057,
                    name: Ident {
                        span_range: 1045..1056,
                       " ++
 s " raw: ""\""merchants\"""",
                        to_string: ""merchants"",
                    },
                    schema: None,
                    alias: None,
                },
                note: None,
                indexes: None,
                settings: None,
            },
        ),
        Table(
            TableBlock {
                span_range: 1165..1248,
                cols: [
                    TableColumn {
                        span_range: 1187..1202,
                        name: Ident {
                            span_range: 1187..1193,
                            raw: ""\""code\"""",
                            to_string: ""code"",
                        },
                        type: ColumnType {
                            span_range: 1194..1197,
                            raw: ""int"",
                            type_name: Raw(
                                ""int"",
                            ),
                            args: [],
                            arrays: [],
                        },
                        settings: Some(
                            ColumnSettings {
                                span_range: 1198..1202,
                                attributes: [
                                    Attribute {
                                        span_range: 1199..1201,
                                        key: Ident {
                                            span_range: 1199..1201,
                                            raw: ""pk"",
                                            to_string: ""pk"",
                                        },
                                        value: None,
                                    },
                                ],
                                is_pk: true,
                                is_unique: false,
                                nullable: None,
                                is_incremental: false,
                                note: None,
      " ++
 s "                          default: None,
                                refs: [],
                            },
                        ),
                    },
                    TableColumn {
                        span_range: 1205..1222,
                        name: Ident {
                            span_range: 1205..1211,
                            raw: ""\""name\"""",
                            to_string: ""name"",
                        },
                        type: ColumnType {
                            span_range: 1212..1219,
                            raw: ""varchar"",
                            type_name: Raw(
                                ""varchar"",
                            ),
                            args: [],
                            arrays: [],
                        },
                        settings: None,
                    },
                    TableColumn {
                        span_range: 1222..1247,
                        name: Ident {
                            span_range: 1222..1238,
                            raw: ""\""continent_name\"""",
                            to_string: ""continent_name"",
                        },
                        type: ColumnType {
                            span_range: 1239..1246,
                            raw: ""varchar"",
                            type_name: Raw(
                                ""varchar"",
                            ),
                            args: [],
                            arrays: [],
                        },
                        settings: None,
                    },
                ],
                ident: TableIdent {
                    span_range: 1171..1183,
                    name: Ident {
                        span_range: 1171..1182,
                        raw: ""\""countries\"""",
                        to_string: ""countries"",
                    },
                    schema: None,
                    alias: None,
                },
" ++
 s "                note: None,
                indexes: None,
                settings: None,
            },
        ),
        Ref(
            RefBlock {
                span_range: 1254..1296,
                name: None,
                rel: One2Many,
                lhs: RefIdent {
                    span_range: 1254..1267,
                    schema: None,
                    table: Ident {
                        span_range: 1254..1262,
                        raw: ""\""orders\"""",
                        to_string: ""orders"",
                    },
                    compositions: [
                        Ident {
                            span_range: 1263..1267,
                            raw: ""\""id\"""",
                            to_string: ""id"",
                        },
                    ],
                },
                rhs: RefIdent {
                    span_range: 1270..1294,
                    schema: None,
                    table: Ident {
                        span_range: 1270..1283,
                        raw: ""\""order_items\"""",
                        to_string: ""order_items"",
                    },
                    compositions: [
                        Ident {
                            span_range: 1284..1294,
                            raw: ""\""order_id\"""",
                            to_string: ""order_id"",
                        },
                    ],
                },
                settings: None,
            },
        ),
        Ref(
            RefBlock {
                span_range: 1300..1346,
                name: None,
                rel: One2Many,
                lhs: RefIdent {
                    span_range: 1300..1315,
                    schema: None,
                    table: Ident {
                        span_range: 1300..1310,
                        raw: ""\""products\"""",
                        to_string: ""products"",
                    },
                    compositions: [
                        Ide" ++
 s "nt {
                            span_range: 1311..1315,
                            raw: ""\""id\"""",
                            to_string: ""id"",
                        },
                    ],
                },
                rhs: RefIdent {
                    span_range: 1318..1344,
                    schema: None,
                    table: Ident {
                        span_range: 1318..1331,
                        raw: ""\""order_items\"""",
                        to_string: ""order_items"",
                    },
                    compositions: [
                        Ident {
                            span_range: 1332..1344,
                            raw: ""\""product_id\"""",
                            to_string: ""product_id"",
                        },
                    ],
                },
                settings: None,
            },
        ),
        Ref(
            RefBlock {
                span_range: 1350..1395,
                name: None,
                rel: One2Many,
                lhs: RefIdent {
                    span_range: 1350..1368,
                    schema: None,
                    table: Ident {
                        span_range: 1350..1361,
                        raw: ""\""countries\"""",
                        to_string: ""countries"",
                    },
                    compositions: [
                        Ident {
                            span_range: 1362..1368,
                            raw: ""\""code\"""",
                            to_string: ""code"",
                        },
                    ],
                },
                rhs: RefIdent {
                    span_range: 1371..1393,
                    schema: None,
                    table: Ident {
                        span_range: 1371..1378,
                        raw: ""\""users\"""",
                        to_string: ""users"",
                    },
                    compositions: [
                        Ident {
                         " ++
 s "   span_range: 1379..1393,
                            raw: ""\""country_code\"""",
                            to_string: ""country_code"",
                        },
                    ],
                },
                settings: None,
            },
        ),
        Ref(
            RefBlock {
                span_range: 1399..1448,
                name: None,
                rel: One2Many,
                lhs: RefIdent {
                    span_range: 1399..1417,
                    schema: None,
                    table: Ident {
                        span_range: 1399..1410,
                        raw: ""\""countries\"""",
                        to_string: ""countries"",
                    },
                    compositions: [
                        Ident {
                            span_range: 1411..1417,
                            raw: ""\""code\"""",
                            to_string: ""code"",
                        },
                    ],
                },
                rhs: RefIdent {
                    span_range: 1420..1446,
                    schema: None,
                    table: Ident {
                        span_range: 1420..1431,
                        raw: ""\""merchants\"""",
                        to_string: ""merchants"",
                    },
                    compositions: [
                        Ident {
                            span_range: 1432..1446,
                            raw: ""\""country_code\"""",
                            to_string: ""country_code"",
                        },
                    ],
                },
                settings: None,
            },
        ),
        Ref(
            RefBlock {
                span_range: 1452..1497,
                name: None,
                rel: One2Many,
                lhs: RefIdent {
                    span_range: 1452..1468,
                    schema: None,
                    table: Ident {
                        span_range: 1452..1463,
                   " ++
 s "     raw: ""\""merchants\"""",
                        to_string: ""merchants"",
                    },
                    compositions: [
                        Ident {
                            span_range: 1464..1468,
                            raw: ""\""id\"""",
                            to_string: ""id"",
                        },
                    ],
                },
                rhs: RefIdent {
                    span_range: 1471..1495,
                    schema: None,
                    table: Ident {
                        span_range: 1471..1481,
                        raw: ""\""products\"""",
                        to_string: ""products"",
                    },
                    compositions: [
                        Ident {
                            span_range: 1482..1495,
                            raw: ""\""merchant_id\"""",
                            to_string: ""merchant_id"",
                        },
                    ],
                },
                settings: None,
            },
        ),
        Ref(
            RefBlock {
                span_range: 1501..1538,
                name: None,
                rel: One2Many,
                lhs: RefIdent {
                    span_range: 1501..1513,
                    schema: None,
                    table: Ident {
                        span_range: 1501..1508,
                        raw: ""\""users\"""",
                        to_string: ""users"",
                    },
                    compositions: [
                        Ident {
                            span_range: 1509..1513,
                            raw: ""\""id\"""",
                            to_string: ""id"",
                        },
                    ],
                },
                rhs: RefIdent {
                    span_range: 1516..1538,
                    schema: None,
                    table: Ident {
                        span_range: 1516..1527,
                        raw: ""\""merchants\"""",
           " ++
 s "             to_string: ""merchants"",
                    },
                    compositions: [
                        Ident {
                            span_range: 1528..1538,
                            raw: ""\""admin_id\"""",
                            to_string: ""admin_id"",
                        },
                    ],
                },
                settings: None,
            },
        ),
    ],
}") = true.
Proof. vm_compute. reflexivity. Qed.

(** tests/dbml/referential_actions.in.dbml *)
Example golden__referential_actions : prints
(s "Table ""orders"" {
  ""id"" int [pk, increment]
  ""user_id"" int [unique, not null]
  ""status"" orders_status_enum
  ""created_at"" varchar(255)
}

Table ""order_items"" {
  ""order_id"" int
  ""product_id"" int
  ""product_name"" varchar(255)
  ""quantity"" int [default: 1]
}

Table ""products"" {
  ""id"" int
  ""name"" varchar(255)
  ""price"" decimal(10,4)
  ""created_at"" datetime [default: `now()`]

Indexes {
  (id, name) [pk]
}
}

Table ""users"" {
  ""id"" int [pk, increment]
  ""name"" varchar(255)
  ""email"" varchar(255) [unique]
  ""date_of_birth"" datetime
  ""created_at"" datetime [default: `now()`]
  ""country_code"" int [not null]
}

Table ""countries"" {
  ""code"" int [pk]
  ""name"" varchar(255)
  ""continent_name"" varchar(255)
}

Ref:""users"".""id"" < ""orders"".""user_id"" [delete: restrict]

Ref:""orders"".""id"" < ""order_items"".""order_id"" [delete: cascade]

Ref:""products"".(""id"", ""name"") < ""order_items"".(""product_id"", ""product_name"") [delete: set null]

Ref:""countries"".""code"" < ""users"".""country_code"" [delete: no action]
")
(s "SchemaBlock {
    span_range: 0..998,
    input: ""Table \""orders\"" {\n  \""id\"" int [pk, increment]\n  \""user_id\"" int [unique, not null]\n  \""status\"" orders_status_enum\n  \""created_at\"" varchar(255)\n}\n\nTable \""order_items\"" {\n  \""order_id\"" int\n  \""product_id\"" int\n  \""product_name\"" varchar(255)\n  \""quantity\"" int [default: 1]\n}\n\nTable \""products\"" {\n  \""id\"" int\n  \""name\"" varchar(255)\n  \""price\"" decimal(10,4)\n  \""created_at\"" datetime [default: `now()`]\n\nIndexes {\n  (id, name) [pk]\n}\n}\n\nTable \""users\"" {\n  \""id\"" int [pk, increment]\n  \""name\"" varchar(255)\n  \""email\"" varchar(255) [unique]\n  \""date_of_birth\"" datetime\n  \""created_at\"" datetime [default: `now()`]\n  \""country_code\"" int [not null]\n}\n\nTable \""countries\"" {\n  \""code\"" int [pk]\n  \""name\"" varchar(255)\n  \""continent_name\"" varchar(255)\n}\n\nRef:\""users\"".\""id\"" < \""orders\"".\""user_id\"" [delete: restrict]\n\nRef:\""orders\"".\""id\"" < \""order_items\"".\""order_id\"" [delete: cascade]\n\nRef:\""products\"".(\""id\"", \""name\"") < \""order_items\"".(\""product_id\"", \""product_name\"") [delete: set null]\n\nRef:\""countries\"".\""code\"" < \""users\"".\""country_code\"" [delete: no action]\n"",
    blocks: [
        Table(
            TableBlock {
                span_range: 0..138,
                cols: [
                    TableColumn {
                        span_range: 19..43,
                        name: Ident {
                            span_range: 19..23,
                            raw: ""\""id\"""",
                            to_string: ""id"",
                        },
                        type: ColumnType {
                            span_range: 24..27,
                            raw: ""int"",
                            type_name: Raw(
                                ""int"",
                            ),
                            args: [],
                            arrays: [],
                        },
                        settings: Some(
                            Col" ++
 s "umnSettings {
                                span_range: 28..43,
                                attributes: [
                                    Attribute {
                                        span_range: 29..31,
                                        key: Ident {
                                            span_range: 29..31,
                                            raw: ""pk"",
                                            to_string: ""pk"",
                                        },
                                        value: None,
                                    },
                                    Attribute {
                                        span_range: 33..42,
                                        key: Ident {
                                            span_range: 33..42,
                                            raw: ""increment"",
                                            to_string: ""increment"",
                                        },
                                        value: None,
                                    },
                                ],
                                is_pk: true,
                                is_unique: false,
                                nullable: None,
                                is_incremental: true,
                                note: None,
                                default: None,
                                refs: [],
                            },
                        ),
                    },
                    TableColumn {
                        span_range: 46..78,
                        name: Ident {
                            span_range: 46..55,
                            raw: ""\""user_id\"""",
                            to_string: ""user_id"",
                        },
                        type: ColumnType {
                            span_range: 56..59,
                            raw: ""int"",
                            type_name: Raw(
            " ++
 s "                    ""int"",
                            ),
                            args: [],
                            arrays: [],
                        },
                        settings: Some(
                            ColumnSettings {
                                span_range: 60..78,
                                attributes: [
                                    Attribute {
                                        span_range: 61..67,
                                        key: Ident {
                                            span_range: 61..67,
                                            raw: ""unique"",
                                            to_string: ""unique"",
                                        },
                                        value: None,
                                    },
                                    Attribute {
                                        span_range: 69..77,
                                        key: Ident {
                                            span_range: 69..77,
                                            raw: ""not null"",
                                            to_string: ""not null"",
                                        },
                                        value: None,
                                    },
                                ],
                                is_pk: false,
                                is_unique: true,
                                nullable: Some(
                                    NotNull,
                                ),
                                is_incremental: false,
                                note: None,
                                default: None,
                                refs: [],
                            },
                        ),
                    },
                    TableColumn {
                        span_range: 81..111,
                        name: Ident {
                            span_range" ++
 s ": 81..89,
                            raw: ""\""status\"""",
                            to_string: ""status"",
                        },
                        type: ColumnType {
                            span_range: 90..108,
                            raw: ""orders_status_enum"",
                            type_name: Raw(
                                ""orders_status_enum"",
                            ),
                            args: [],
                            arrays: [],
                        },
                        settings: None,
                    },
                    TableColumn {
                        span_range: 111..137,
                        name: Ident {
                            span_range: 111..123,
                            raw: ""\""created_at\"""",
                            to_string: ""created_at"",
                        },
                        type: ColumnType {
                            span_range: 124..136,
                            raw: ""varchar(255)"",
                            type_name: Raw(
                                ""varchar"",
                            ),
                            args: [
                                Integer(
                                    255,
                                ),
                            ],
                            arrays: [],
                        },
                        settings: None,
                    },
                ],
                ident: TableIdent {
                    span_range: 6..15,
                    name: Ident {
                        span_range: 6..14,
                        raw: ""\""orders\"""",
                        to_string: ""orders"",
                    },
                    schema: None,
                    alias: None,
                },
                note: None,
                indexes: None,
                settings: None,
            },
        ),
        Table(
            TableBlock {
                span_rang" ++
 s "e: 140..259,
                cols: [
                    TableColumn {
                        span_range: 164..181,
                        name: Ident {
                            span_range: 164..174,
                            raw: ""\""order_id\"""",
                            to_string: ""order_id"",
                        },
                        type: ColumnType {
                            span_range: 175..178,
                            raw: ""int"",
                            type_name: Raw(
                                ""int"",
                            ),
                            args: [],
                            arrays: [],
                        },
                        settings: None,
                    },
                    TableColumn {
                        span_range: 181..200,
                        name: Ident {
                            span_range: 181..193,
                            raw: ""\""product_id\"""",
                            to_string: ""product_id"",
                        },
                        type: ColumnType {
                            span_range: 194..197,
                            raw: ""int"",
                            type_name: Raw(
                                ""int"",
                            ),
                            args: [],
                            arrays: [],
                        },
                        settings: None,
                    },
                    TableColumn {
                        span_range: 200..230,
                        name: Ident {
                            span_range: 200..214,
                            raw: ""\""product_name\"""",
                            to_string: ""product_name"",
                        },
                        type: ColumnType {
                            span_range: 215..227,
                            raw: ""varchar(255)"",
                            type_name: Raw(
                                ""varchar"",
       " ++
 s "                     ),
                            args: [
                                Integer(
                                    255,
                                ),
                            ],
                            arrays: [],
                        },
                        settings: None,
                    },
                    TableColumn {
                        span_range: 230..257,
                        name: Ident {
                            span_range: 230..240,
                            raw: ""\""quantity\"""",
                            to_string: ""quantity"",
                        },
                        type: ColumnType {
                            span_range: 241..244,
                            raw: ""int"",
                            type_name: Raw(
                                ""int"",
                            ),
                            args: [],
                            arrays: [],
                        },
                        settings: Some(
                            ColumnSettings {
                                span_range: 245..257,
                                attributes: [
                                    Attribute {
                                        span_range: 246..256,
                                        key: Ident {
                                            span_range: 246..253,
                                            raw: ""default"",
                                            to_string: ""default"",
                                        },
                                        value: Some(
                                            Literal {
                                                span_range: 255..256,
                                                raw: ""1"",
                                                value: Integer(
                                                    1,
                                                ),
                           " ++
 s "                 },
                                        ),
                                    },
                                ],
                                is_pk: false,
                                is_unique: false,
                                nullable: None,
                                is_incremental: false,
                                note: None,
                                default: Some(
                                    Integer(
                                        1,
                                    ),
                                ),
                                refs: [],
                            },
                        ),
                    },
                ],
                ident: TableIdent {
                    span_range: 146..160,
                    name: Ident {
                        span_range: 146..159,
                        raw: ""\""order_items\"""",
                        to_string: ""order_items"",
                    },
                    schema: None,
                    alias: None,
                },
                note: None,
                indexes: None,
                settings: None,
            },
        ),
        Table(
            TableBlock {
                span_range: 261..412,
                cols: [
                    TableColumn {
                        span_range: 282..293,
                        name: Ident {
                            span_range: 282..286,
                            raw: ""\""id\"""",
                            to_string: ""id"",
                        },
                        type: ColumnType {
                            span_range: 287..290,
                            raw: ""int"",
                            type_name: Raw(
                                ""int"",
                            ),
                            args: [],
                            arrays: [],
                        },
                        settings: None,
          " ++
 s "          },
                    TableColumn {
                        span_range: 293..315,
                        name: Ident {
                            span_range: 293..299,
                            raw: ""\""name\"""",
                            to_string: ""name"",
                        },
                        type: ColumnType {
                            span_range: 300..312,
                            raw: ""varchar(255)"",
                            type_name: Raw(
                                ""varchar"",
                            ),
                            args: [
                                Integer(
                                    255,
                                ),
                            ],
                            arrays: [],
                        },
                        settings: None,
                    },
                    TableColumn {
                        span_range: 315..339,
                        name: Ident {
                            span_range: 315..322,
                            raw: ""\""price\"""",
                            to_string: ""price"",
                        },
                        type: ColumnType {
                            span_range: 323..336,
                            raw: ""decimal(10,4)"",
                            type_name: Raw(
                                ""decimal"",
                            ),
                            args: [
                                Integer(
                                    10,
                                ),
                                Integer(
                                    4,
                                ),
                            ],
                            arrays: [],
                        },
                        settings: None,
                    },
                    TableColumn {
                        span_range: 339..379,
                        name: Ident {
                            sp" ++
 s "an_range: 339..351,
                            raw: ""\""created_at\"""",
                            to_string: ""created_at"",
                        },
                        type: ColumnType {
                            span_range: 352..360,
                            raw: ""datetime"",
                            type_name: Raw(
                                ""datetime"",
                            ),
                            args: [],
                            arrays: [],
                        },
                        settings: Some(
                            ColumnSettings {
                                span_range: 361..379,
                                attributes: [
                                    Attribute {
                                        span_range: 362..378,
                                        key: Ident {
                                            span_range: 362..369,
                                            raw: ""default"",
                                            to_string: ""default"",
                                        },
                                        value: Some(
                                            Literal {
                                                span_range: 371..378,
                                                raw: ""`now()`"",
                                                value: Expr(
                                                    ""now()"",
                                                ),
                                            },
                                        ),
                                    },
                                ],
                                is_pk: false,
                                is_unique: false,
                                nullable: None,
                                is_incremental: false,
                                note: None,
                                default: Some(
                                    " ++
 s "Expr(
                                        ""now()"",
                                    ),
                                ),
                                refs: [],
                            },
                        ),
                    },
                ],
                ident: TableIdent {
                    span_range: 267..278,
                    name: Ident {
                        span_range: 267..277,
                        raw: ""\""products\"""",
                        to_string: ""products"",
                    },
                    schema: None,
                    alias: None,
                },
                note: None,
                indexes: Some(
                    IndexesBlock {
                        span_range: 389..410,
                        defs: [
                            IndexesDef {
                                span_range: 393..408,
                                cols: [
                                    String(
                                        Ident {
                                            span_range: 394..396,
                                            raw: ""id"",
                                            to_string: ""id"",
                                        },
                                    ),
                                    String(
                                        Ident {
                                            span_range: 398..402,
                                            raw: ""name"",
                                            to_string: ""name"",
                                        },
                                    ),
                                ],
                                settings: Some(
                                    IndexesSettings {
                                        span_range: 404..408,
                                        attributes: [
                                            Attribute {
                                      " ++
 s "          span_range: 405..407,
                                                key: Ident {
                                                    span_range: 405..407,
                                                    raw: ""pk"",
                                                    to_string: ""pk"",
                                                },
                                                value: None,
                                            },
                                        ],
                                        type: None,
                                        is_unique: false,
                                        is_pk: true,
                                        note: None,
                                        name: None,
                                    },
                                ),
                            },
                        ],
                    },
                ),
                settings: None,
            },
        ),
        Table(
            TableBlock {
                span_range: 414..614,
                cols: [
                    TableColumn {
                        span_range: 432..456,
                        name: Ident {
                            span_range: 432..436,
                            raw: ""\""id\"""",
                            to_string: ""id"",
                        },
                        type: ColumnType {
                            span_range: 437..440,
                            raw: ""int"",
                            type_name: Raw(
                                ""int"",
                            ),
                            args: [],
                            arrays: [],
                        },
                        settings: Some(
                            ColumnSettings {
                                span_range: 441..456,
                                attributes: [
                                    Attribute {
                              " ++
 s "          span_range: 442..444,
                                        key: Ident {
                                            span_range: 442..444,
                                            raw: ""pk"",
                                            to_string: ""pk"",
                                        },
                                        value: None,
                                    },
                                    Attribute {
                                        span_range: 446..455,
                                        key: Ident {
                                            span_range: 446..455,
                                            raw: ""increment"",
                                            to_string: ""increment"",
                                        },
                                        value: None,
                                    },
                                ],
                                is_pk: true,
                                is_unique: false,
                                nullable: None,
                                is_incremental: true,
                                note: None,
                                default: None,
                                refs: [],
                            },
                        ),
                    },
                    TableColumn {
                        span_range: 459..481,
                        name: Ident {
                            span_range: 459..465,
                            raw: ""\""name\"""",
                            to_string: ""name"",
                        },
                        type: ColumnType {
                            span_range: 466..478,
                            raw: ""varchar(255)"",
                            type_name: Raw(
                                ""varchar"",
                            ),
                            args: [
                                Integer(
                                  " ++
 s "  255,
                                ),
                            ],
                            arrays: [],
                        },
                        settings: None,
                    },
                    TableColumn {
                        span_range: 481..510,
                        name: Ident {
                            span_range: 481..488,
                            raw: ""\""email\"""",
                            to_string: ""email"",
                        },
                        type: ColumnType {
                            span_range: 489..501,
                            raw: ""varchar(255)"",
                            type_name: Raw(
                                ""varchar"",
                            ),
                            args: [
                                Integer(
                                    255,
                                ),
                            ],
                            arrays: [],
                        },
                        settings: Some(
                            ColumnSettings {
                                span_range: 502..510,
                                attributes: [
                                    Attribute {
                                        span_range: 503..509,
                                        key: Ident {
                                            span_range: 503..509,
                                            raw: ""unique"",
                                            to_string: ""unique"",
                                        },
                                        value: None,
                                    },
                                ],
                                is_pk: false,
                                is_unique: true,
                                nullable: None,
                                is_incremental: false,
                                note: None,
                                default: None,
" ++
 s "                                refs: [],
                            },
                        ),
                    },
                    TableColumn {
                        span_range: 513..540,
                        name: Ident {
                            span_range: 513..528,
                            raw: ""\""date_of_birth\"""",
                            to_string: ""date_of_birth"",
                        },
                        type: ColumnType {
                            span_range: 529..537,
                            raw: ""datetime"",
                            type_name: Raw(
                                ""datetime"",
                            ),
                            args: [],
                            arrays: [],
                        },
                        settings: None,
                    },
                    TableColumn {
                        span_range: 540..580,
                        name: Ident {
                            span_range: 540..552,
                            raw: ""\""created_at\"""",
                            to_string: ""created_at"",
                        },
                        type: ColumnType {
                            span_range: 553..561,
                            raw: ""datetime"",
                            type_name: Raw(
                                ""datetime"",
                            ),
                            args: [],
                            arrays: [],
                        },
                        settings: Some(
                            ColumnSettings {
                                span_range: 562..580,
                                attributes: [
                                    Attribute {
                                        span_range: 563..579,
                                        key: Ident {
                                            span_range: 563..570,
                                            raw: ""default"",
            " ++
 s "                                to_string: ""default"",
                                        },
                                        value: Some(
                                            Literal {
                                                span_range: 572..579,
                                                raw: ""`now()`"",
                                                value: Expr(
                                                    ""now()"",
                                                ),
                                            },
                                        ),
                                    },
                                ],
                                is_pk: false,
                                is_unique: false,
                                nullable: None,
                                is_incremental: false,
                                note: None,
                                default: Some(
                                    Expr(
                                        ""now()"",
                                    ),
                                ),
                                refs: [],
                            },
                        ),
                    },
                    TableColumn {
                        span_range: 583..612,
                        name: Ident {
                            span_range: 583..597,
                            raw: ""\""country_code\"""",
                            to_string: ""country_code"",
                        },
                        type: ColumnType {
                            span_range: 598..601,
                            raw: ""int"",
                            type_name: Raw(
                                ""int"",
                            ),
                            args: [],
                            arrays: [],
                        },
                        settings: Some(
                            ColumnSettings {
       " ++
 s "                         span_range: 602..612,
                                attributes: [
                                    Attribute {
                                        span_range: 603..611,
                                        key: Ident {
                                            span_range: 603..611,
                                            raw: ""not null"",
                                            to_string: ""not null"",
                                        },
                                        value: None,
                                    },
                                ],
                                is_pk: false,
                                is_unique: false,
                                nullable: Some(
                                    NotNull,
                                ),
                                is_incremental: false,
                                note: None,
                                default: None,
                                refs: [],
                            },
                        ),
                    },
                ],
                ident: TableIdent {
                    span_range: 420..428,
                    name: Ident {
                        span_range: 420..427,
                        raw: ""\""users\"""",
                        to_string: ""users"",
                    },
                    schema: None,
                    alias: None,
                },
                note: None,
                indexes: None,
                settings: None,
            },
        ),
        Table(
            TableBlock {
                span_range: 616..709,
                cols: [
                    TableColumn {
                        span_range: 638..653,
                        name: Ident {
                            span_range: 638..644,
                            raw: ""\""code\"""",
                            to_string: ""code"",
                        },
         " ++
 s "               type: ColumnType {
                            span_range: 645..648,
                            raw: ""int"",
                            type_name: Raw(
                                ""int"",
                            ),
                            args: [],
                            arrays: [],
                        },
                        settings: Some(
                            ColumnSettings {
                                span_range: 649..653,
                                attributes: [
                                    Attribute {
                                        span_range: 650..652,
                                        key: Ident {
                                            span_range: 650..652,
                                            raw: ""pk"",
                                            to_string: ""pk"",
                                        },
                                        value: None,
                                    },
                                ],
                                is_pk: true,
                                is_unique: false,
                                nullable: None,
                                is_incremental: false,
                                note: None,
                                default: None,
                                refs: [],
                            },
                        ),
                    },
                    TableColumn {
                        span_range: 656..678,
                        name: Ident {
                            span_range: 656..662,
                            raw: ""\""name\"""",
                            to_string: ""name"",
                        },
                        type: ColumnType {
                            span_range: 663..675,
                            raw: ""varchar(255)"",
                            type_name: Raw(
                                ""varchar"",
                            )" ++
 s ",
                            args: [
                                Integer(
                                    255,
                                ),
                            ],
                            arrays: [],
                        },
                        settings: None,
                    },
                    TableColumn {
                        span_range: 678..708,
                        name: Ident {
                            span_range: 678..694,
                            raw: ""\""continent_name\"""",
                            to_string: ""continent_name"",
                        },
                        type: ColumnType {
                            span_range: 695..707,
                            raw: ""varchar(255)"",
                            type_name: Raw(
                                ""varchar"",
                            ),
                            args: [
                                Integer(
                                    255,
                                ),
                            ],
                            arrays: [],
                        },
                        settings: None,
                    },
                ],
                ident: TableIdent {
                    span_range: 622..634,
                    name: Ident {
                        span_range: 622..633,
                        raw: ""\""countries\"""",
                        to_string: ""countries"",
                    },
                    schema: None,
                    alias: None,
                },
                note: None,
                indexes: None,
                settings: None,
            },
        ),
        Ref(
            RefBlock {
                span_range: 715..767,
                name: None,
                rel: One2Many,
                lhs: RefIdent {
                    span_range: 715..727,
                    schema: None,
                    table: Ident {
                        span_r" ++
 s "ange: 715..722,
                        raw: ""\""users\"""",
                        to_string: ""users"",
                    },
                    compositions: [
                        Ident {
                            span_range: 723..727,
                            raw: ""\""id\"""",
                            to_string: ""id"",
                        },
                    ],
                },
                rhs: RefIdent {
                    span_range: 730..748,
                    schema: None,
                    table: Ident {
                        span_range: 730..738,
                        raw: ""\""orders\"""",
                        to_string: ""orders"",
                    },
                    compositions: [
                        Ident {
                            span_range: 739..748,
                            raw: ""\""user_id\"""",
                            to_string: ""user_id"",
                        },
                    ],
                },
                settings: Some(
                    RefSettings {
                        span_range: 749..767,
                        attributes: [
                            Attribute {
                                span_range: 750..766,
                                key: Ident {
                                    span_range: 750..756,
                                    raw: ""delete"",
                                    to_string: ""delete"",
                                },
                                value: Some(
                                    Literal {
                                        span_range: 758..766,
                                        raw: ""restrict"",
                                        value: Enum(
                                            ""restrict"",
                                        ),
                                    },
                                ),
                            },
                        ],
                        on_dele" ++
 s "te: Some(
                            Restrict,
                        ),
                        on_update: None,
                    },
                ),
            },
        ),
        Ref(
            RefBlock {
                span_range: 773..831,
                name: None,
                rel: One2Many,
                lhs: RefIdent {
                    span_range: 773..786,
                    schema: None,
                    table: Ident {
                        span_range: 773..781,
                        raw: ""\""orders\"""",
                        to_string: ""orders"",
                    },
                    compositions: [
                        Ident {
                            span_range: 782..786,
                            raw: ""\""id\"""",
                            to_string: ""id"",
                        },
                    ],
                },
                rhs: RefIdent {
                    span_range: 789..813,
                    schema: None,
                    table: Ident {
                        span_range: 789..802,
                        raw: ""\""order_items\"""",
                        to_string: ""order_items"",
                    },
                    compositions: [
                        Ident {
                            span_range: 803..813,
                            raw: ""\""order_id\"""",
                            to_string: ""order_id"",
                        },
                    ],
                },
                settings: Some(
                    RefSettings {
                        span_range: 814..831,
                        attributes: [
                            Attribute {
                                span_range: 815..830,
                                key: Ident {
                                    span_range: 815..821,
                                    raw: ""delete"",
                                    to_string: ""delete"",
                                },
                     " ++
 s "           value: Some(
                                    Literal {
                                        span_range: 823..830,
                                        raw: ""cascade"",
                                        value: Enum(
                                            ""cascade"",
                                        ),
                                    },
                                ),
                            },
                        ],
                        on_delete: Some(
                            Cascade,
                        ),
                        on_update: None,
                    },
                ),
            },
        ),
        Ref(
            RefBlock {
                span_range: 837..928,
                name: None,
                rel: One2Many,
                lhs: RefIdent {
                    span_range: 837..862,
                    schema: None,
                    table: Ident {
                        span_range: 837..847,
                        raw: ""\""products\"""",
                        to_string: ""products"",
                    },
                    compositions: [
                        Ident {
                            span_range: 849..853,
                            raw: ""\""id\"""",
                            to_string: ""id"",
                        },
                        Ident {
                            span_range: 855..861,
                            raw: ""\""name\"""",
                            to_string: ""name"",
                        },
                    ],
                },
                rhs: RefIdent {
                    span_range: 865..909,
                    schema: None,
                    table: Ident {
                        span_range: 865..878,
                        raw: ""\""order_items\"""",
                        to_string: ""order_items"",
                    },
                    compositions: [
                        Ident {
                        " ++
 s "    span_range: 880..892,
                            raw: ""\""product_id\"""",
                            to_string: ""product_id"",
                        },
                        Ident {
                            span_range: 894..908,
                            raw: ""\""product_name\"""",
                            to_string: ""product_name"",
                        },
                    ],
                },
                settings: Some(
                    RefSettings {
                        span_range: 910..928,
                        attributes: [
                            Attribute {
                                span_range: 911..927,
                                key: Ident {
                                    span_range: 911..917,
                                    raw: ""delete"",
                                    to_string: ""delete"",
                                },
                                value: Some(
                                    Literal {
                                        span_range: 919..927,
                                        raw: ""set null"",
                                        value: Enum(
                                            ""set null"",
                                        ),
                                    },
                                ),
                            },
                        ],
                        on_delete: Some(
                            SetNull,
                        ),
                        on_update: None,
                    },
                ),
            },
        ),
        Ref(
            RefBlock {
                span_range: 934..997,
                name: None,
                rel: One2Many,
                lhs: RefIdent {
                    span_range: 934..952,
                    schema: None,
                    table: Ident {
                        span_range: 934..945,
                        raw: ""\""countries\"""",
                  " ++
 s "      to_string: ""countries"",
                    },
                    compositions: [
                        Ident {
                            span_range: 946..952,
                            raw: ""\""code\"""",
                            to_string: ""code"",
                        },
                    ],
                },
                rhs: RefIdent {
                    span_range: 955..977,
                    schema: None,
                    table: Ident {
                        span_range: 955..962,
                        raw: ""\""users\"""",
                        to_string: ""users"",
                    },
                    compositions: [
                        Ident {
                            span_range: 963..977,
                            raw: ""\""country_code\"""",
                            to_string: ""country_code"",
                        },
                    ],
                },
                settings: Some(
                    RefSettings {
                        span_range: 978..997,
                        attributes: [
                            Attribute {
                                span_range: 979..996,
                                key: Ident {
                                    span_range: 979..985,
                                    raw: ""delete"",
                                    to_string: ""delete"",
                                },
                                value: Some(
                                    Literal {
                                        span_range: 987..996,
                                        raw: ""no action"",
                                        value: Enum(
                                            ""no action"",
                                        ),
                                    },
                                ),
                            },
                        ],
                        on_delete: Some(
                            NoAction,
          " ++
 s "              ),
                        on_update: None,
                    },
                ),
            },
        ),
    ],
}") = true.
Proof. vm_compute. reflexivity. Qed.

(** tests/dbml/sample_1.dbml *)
Example golden__sample_1 : prints
(s "Project project_name {
  database_type: 'PostgreSQL'
  Note: 'Description of the project'
}

Note {
  'A top level sticky note'
}

TableGroup order {
  public.users // users
  // posts
  // P
  P
  orders
}

Table public.""users"" {
  id integer [pk]
  age integer [default: 10]
  username ""character varying[]""
  role varchar
  created_at timestamp
  referral_id integer [ref: > users.id, null]
}

Table posts as P {
  id integer [pk]
  title varchar
  body text [note: 'Content of the post']
  user_id integer [ref: > users.id]
  status post_status [default: draft]
  created_at timestamp
}

Table orders {
  id integer [pk]
  status varchar [
  note: '
  " ++
 [128184] ++
 s " 1 = processing, 
  " ++
 [10004] ++
 [65039] ++
 s " 2 = shipped, 
  " ++
 [10060] ++
 s " 3 = cancelled,
  " ++
 [128532] ++
 s " 4 = refunded
  ']

  // indexes {
  //   (id, country) [pk] // composite primary key
  //   created_at [name: ""created_at_index"", note: 'Date']
  //   booking_date
  //   (country, booking_date) [type: btree, unique]
  //   booking_date [type: hash]
  //   (`id*2`)
  //   (`id*3`,`getdate()`)
  //   (`id*3`, id)
  // }
}

enum post_status {
  draft
  published
  private [note: 'visible via URL only']
}

enum grade {
  ""A+""
  ""A""
  ""A-""
  ""Not Yet Set""
}

// Ref: posts.user_id > users.id [update: restrict] // many-to-one
")
(s "SchemaBlock {
    span_range: 0..1255,
    input: ""Project project_name {\n  database_type: 'PostgreSQL'\n  Note: 'Description of the project'\n}\n\nNote {\n  'A top level sticky note'\n}\n\nTableGroup order {\n  public.users // users\n  // posts\n  // P\n  P\n  orders\n}\n\nTable public.\""users\"" {\n  id integer [pk]\n  age integer [default: 10]\n  username \""character varying[]\""\n  role varchar\n  created_at timestamp\n  referral_id integer [ref: > users.id, null]\n}\n\nTable posts as P {\n  id integer [pk]\n  title varchar\n  body text [note: 'Content of the post']\n  user_id integer [ref: > users.id]\n  status post_status [default: draft]\n  created_at timestamp\n}\n\nTable orders {\n  id integer [pk]\n  status varchar [\n  note: '\n  " ++
 [128184] ++
 s " 1 = processing, \n  " ++
 [10004] ++
 s "\u{fe0f} 2 = shipped, \n  " ++
 [10060] ++
 s " 3 = cancelled,\n  " ++
 [128532] ++
 s " 4 = refunded\n  ']\n\n  // indexes {\n  //   (id, country) [pk] // composite primary key\n  //   created_at [name: \""created_at_index\"", note: 'Date']\n  //   booking_date\n  //   (country, booking_date) [type: btree, unique]\n  //   booking_date [type: hash]\n  //   (`id*2`)\n  //   (`id*3`,`getdate()`)\n  //   (`id*3`, id)\n  // }\n}\n\nenum post_status {\n  draft\n  published\n  private [note: 'visible via URL only']\n}\n\nenum grade {\n  \""A+\""\n  \""A\""\n  \""A-\""\n  \""Not Yet Set\""\n}\n\n// Ref: posts.user_id > users.id [update: restrict] // many-to-one\n"",
    blocks: [
        Project(
            ProjectBlock {
                span_range: 0..91,
                properties: [
                    Property {
                        span_range: 25..52,
                        key: Ident {
                            span_range: 25..38,
                            raw: ""database_type"",
                            to_string: ""database_type"",
                        },
                        value: Literal {
                            span_range: 40..52,
                            raw: ""'PostgreSQL'"",
                            value: String(
                                ""PostgreSQL"",
                            ),
                        },
                    },
                ],
                ident: Ident {
                    span_range: 8..20,
                    raw: ""project_name"",
                    to_string: ""project_name"",
                },
                database_type: Some(
                    PostgreSQL,
                ),
                note: Some(
                    NoteBlock {
                        span_range: 55..89,
                        value: Literal {
                            span_range: 61..89,
                            raw: ""'Description of the project'"",
                            value: String(
                                ""Description of the project"",
                            ),
                        },
  " ++
 s "                  },
                ),
            },
        ),
        Note(
            NoteBlock {
                span_range: 93..129,
                value: Literal {
                    span_range: 102..127,
                    raw: ""'A top level sticky note'"",
                    value: String(
                        ""A top level sticky note"",
                    ),
                },
            },
        ),
        TableGroup(
            TableGroupBlock {
                span_range: 131..206,
                ident: Ident {
                    span_range: 142..147,
                    raw: ""order"",
                    to_string: ""order"",
                },
                note: None,
                items: [
                    TableGroupItem {
                        span_range: 152..164,
                        schema: Some(
                            Ident {
                                span_range: 152..158,
                                raw: ""public"",
                                to_string: ""public"",
                            },
                        ),
                        ident_alias: Ident {
                            span_range: 159..164,
                            raw: ""users"",
                            to_string: ""users"",
                        },
                    },
                    TableGroupItem {
                        span_range: 194..198,
                        schema: None,
                        ident_alias: Ident {
                            span_range: 194..195,
                            raw: ""P"",
                            to_string: ""P"",
                        },
                    },
                    TableGroupItem {
                        span_range: 198..205,
                        schema: None,
                        ident_alias: Ident {
                            span_range: 198..204,
                            raw: ""orders"",
                            to_string: ""orders"",
         " ++
 s "               },
                    },
                ],
                settings: None,
            },
        ),
        Table(
            TableBlock {
                span_range: 208..395,
                cols: [
                    TableColumn {
                        span_range: 233..248,
                        name: Ident {
                            span_range: 233..235,
                            raw: ""id"",
                            to_string: ""id"",
                        },
                        type: ColumnType {
                            span_range: 236..243,
                            raw: ""integer"",
                            type_name: Raw(
                                ""integer"",
                            ),
                            args: [],
                            arrays: [],
                        },
                        settings: Some(
                            ColumnSettings {
                                span_range: 244..248,
                                attributes: [
                                    Attribute {
                                        span_range: 245..247,
                                        key: Ident {
                                            span_range: 245..247,
                                            raw: ""pk"",
                                            to_string: ""pk"",
                                        },
                                        value: None,
                                    },
                                ],
                                is_pk: true,
                                is_unique: false,
                                nullable: None,
                                is_incremental: false,
                                note: None,
                                default: None,
                                refs: [],
                            },
                        ),
                    },
                    TableColu" ++
 s "mn {
                        span_range: 251..276,
                        name: Ident {
                            span_range: 251..254,
                            raw: ""age"",
                            to_string: ""age"",
                        },
                        type: ColumnType {
                            span_range: 255..262,
                            raw: ""integer"",
                            type_name: Raw(
                                ""integer"",
                            ),
                            args: [],
                            arrays: [],
                        },
                        settings: Some(
                            ColumnSettings {
                                span_range: 263..276,
                                attributes: [
                                    Attribute {
                                        span_range: 264..275,
                                        key: Ident {
                                            span_range: 264..271,
                                            raw: ""default"",
                                            to_string: ""default"",
                                        },
                                        value: Some(
                                            Literal {
                                                span_range: 273..275,
                                                raw: ""10"",
                                                value: Integer(
                                                    10,
                                                ),
                                            },
                                        ),
                                    },
                                ],
                                is_pk: false,
                                is_unique: false,
                                nullable: None,
                                is_incremental: false,
                                not" ++
 s "e: None,
                                default: Some(
                                    Integer(
                                        10,
                                    ),
                                ),
                                refs: [],
                            },
                        ),
                    },
                    TableColumn {
                        span_range: 279..312,
                        name: Ident {
                            span_range: 279..287,
                            raw: ""username"",
                            to_string: ""username"",
                        },
                        type: ColumnType {
                            span_range: 288..309,
                            raw: ""\""character varying[]\"""",
                            type_name: Raw(
                                ""character varying"",
                            ),
                            args: [],
                            arrays: [
                                None,
                            ],
                        },
                        settings: None,
                    },
                    TableColumn {
                        span_range: 312..327,
                        name: Ident {
                            span_range: 312..316,
                            raw: ""role"",
                            to_string: ""role"",
                        },
                        type: ColumnType {
                            span_range: 317..324,
                            raw: ""varchar"",
                            type_name: Raw(
                                ""varchar"",
                            ),
                            args: [],
                            arrays: [],
                        },
                        settings: None,
                    },
                    TableColumn {
                        span_range: 327..350,
                        name: Ident {
                           " ++
 s " span_range: 327..337,
                            raw: ""created_at"",
                            to_string: ""created_at"",
                        },
                        type: ColumnType {
                            span_range: 338..347,
                            raw: ""timestamp"",
                            type_name: Raw(
                                ""timestamp"",
                            ),
                            args: [],
                            arrays: [],
                        },
                        settings: None,
                    },
                    TableColumn {
                        span_range: 350..393,
                        name: Ident {
                            span_range: 350..361,
                            raw: ""referral_id"",
                            to_string: ""referral_id"",
                        },
                        type: ColumnType {
                            span_range: 362..369,
                            raw: ""integer"",
                            type_name: Raw(
                                ""integer"",
                            ),
                            args: [],
                            arrays: [],
                        },
                        settings: Some(
                            ColumnSettings {
                                span_range: 370..393,
                                attributes: [
                                    Attribute {
                                        span_range: 388..392,
                                        key: Ident {
                                            span_range: 388..392,
                                            raw: ""null"",
                                            to_string: ""null"",
                                        },
                                        value: None,
                                    },
                                ],
                                is_pk: false,
                " ++
 s "                is_unique: false,
                                nullable: Some(
                                    Null,
                                ),
                                is_incremental: false,
                                note: None,
                                default: None,
                                refs: [
                                    RefInline {
                                        span_range: 371..386,
                                        rel: Many2One,
                                        rhs: RefIdent {
                                            span_range: 378..386,
                                            schema: None,
                                            table: Ident {
                                                span_range: 378..383,
                                                raw: ""users"",
                                                to_string: ""users"",
                                            },
                                            compositions: [
                                                Ident {
                                                    span_range: 384..386,
                                                    raw: ""id"",
                                                    to_string: ""id"",
                                                },
                                            ],
                                        },
                                    },
                                ],
                            },
                        ),
                    },
                ],
                ident: TableIdent {
                    span_range: 214..228,
                    name: Ident {
                        span_range: 221..228,
                        raw: ""\""users\"""",
                        to_string: ""users"",
                    },
                    schema: Some(
                        Ident {
                            span_r" ++
 s "ange: 214..220,
                            raw: ""public"",
                            to_string: ""public"",
                        },
                    ),
                    alias: None,
                },
                note: None,
                indexes: None,
                settings: None,
            },
        ),
        Table(
            TableBlock {
                span_range: 397..590,
                cols: [
                    TableColumn {
                        span_range: 418..433,
                        name: Ident {
                            span_range: 418..420,
                            raw: ""id"",
                            to_string: ""id"",
                        },
                        type: ColumnType {
                            span_range: 421..428,
                            raw: ""integer"",
                            type_name: Raw(
                                ""integer"",
                            ),
                            args: [],
                            arrays: [],
                        },
                        settings: Some(
                            ColumnSettings {
                                span_range: 429..433,
                                attributes: [
                                    Attribute {
                                        span_range: 430..432,
                                        key: Ident {
                                            span_range: 430..432,
                                            raw: ""pk"",
                                            to_string: ""pk"",
                                        },
                                        value: None,
                                    },
                                ],
                                is_pk: true,
                                is_unique: false,
                                nullable: None,
                                is_incremental: false,
                                no" ++
 s "te: None,
                                default: None,
                                refs: [],
                            },
                        ),
                    },
                    TableColumn {
                        span_range: 436..452,
                        name: Ident {
                            span_range: 436..441,
                            raw: ""title"",
                            to_string: ""title"",
                        },
                        type: ColumnType {
                            span_range: 442..449,
                            raw: ""varchar"",
                            type_name: Raw(
                                ""varchar"",
                            ),
                            args: [],
                            arrays: [],
                        },
                        settings: None,
                    },
                    TableColumn {
                        span_range: 452..491,
                        name: Ident {
                            span_range: 452..456,
                            raw: ""body"",
                            to_string: ""body"",
                        },
                        type: ColumnType {
                            span_range: 457..461,
                            raw: ""text"",
                            type_name: Raw(
                                ""text"",
                            ),
                            args: [],
                            arrays: [],
                        },
                        settings: Some(
                            ColumnSettings {
                                span_range: 462..491,
                                attributes: [
                                    Attribute {
                                        span_range: 463..490,
                                        key: Ident {
                                            span_range: 463..467,
                                            raw: ""note"",
    " ++
 s "                                        to_string: ""note"",
                                        },
                                        value: Some(
                                            Literal {
                                                span_range: 469..490,
                                                raw: ""'Content of the post'"",
                                                value: String(
                                                    ""Content of the post"",
                                                ),
                                            },
                                        ),
                                    },
                                ],
                                is_pk: false,
                                is_unique: false,
                                nullable: None,
                                is_incremental: false,
                                note: Some(
                                    ""Content of the post"",
                                ),
                                default: None,
                                refs: [],
                            },
                        ),
                    },
                    TableColumn {
                        span_range: 494..527,
                        name: Ident {
                            span_range: 494..501,
                            raw: ""user_id"",
                            to_string: ""user_id"",
                        },
                        type: ColumnType {
                            span_range: 502..509,
                            raw: ""integer"",
                            type_name: Raw(
                                ""integer"",
                            ),
                            args: [],
                            arrays: [],
                        },
                        settings: Some(
                            ColumnSettings {
                                span_range: 510.." ++
 s "527,
                                attributes: [],
                                is_pk: false,
                                is_unique: false,
                                nullable: None,
                                is_incremental: false,
                                note: None,
                                default: None,
                                refs: [
                                    RefInline {
                                        span_range: 511..526,
                                        rel: Many2One,
                                        rhs: RefIdent {
                                            span_range: 518..526,
                                            schema: None,
                                            table: Ident {
                                                span_range: 518..523,
                                                raw: ""users"",
                                                to_string: ""users"",
                                            },
                                            compositions: [
                                                Ident {
                                                    span_range: 524..526,
                                                    raw: ""id"",
                                                    to_string: ""id"",
                                                },
                                            ],
                                        },
                                    },
                                ],
                            },
                        ),
                    },
                    TableColumn {
                        span_range: 530..565,
                        name: Ident {
                            span_range: 530..536,
                            raw: ""status"",
                            to_string: ""status"",
                        },
                        type: ColumnType {
                  " ++
 s "          span_range: 537..548,
                            raw: ""post_status"",
                            type_name: Raw(
                                ""post_status"",
                            ),
                            args: [],
                            arrays: [],
                        },
                        settings: Some(
                            ColumnSettings {
                                span_range: 549..565,
                                attributes: [
                                    Attribute {
                                        span_range: 550..564,
                                        key: Ident {
                                            span_range: 550..557,
                                            raw: ""default"",
                                            to_string: ""default"",
                                        },
                                        value: Some(
                                            Literal {
                                                span_range: 559..564,
                                                raw: ""draft"",
                                                value: Enum(
                                                    ""draft"",
                                                ),
                                            },
                                        ),
                                    },
                                ],
                                is_pk: false,
                                is_unique: false,
                                nullable: None,
                                is_incremental: false,
                                note: None,
                                default: Some(
                                    Enum(
                                        ""draft"",
                                    ),
                                ),
                                refs: [],
                            },
      " ++
 s "                  ),
                    },
                    TableColumn {
                        span_range: 568..589,
                        name: Ident {
                            span_range: 568..578,
                            raw: ""created_at"",
                            to_string: ""created_at"",
                        },
                        type: ColumnType {
                            span_range: 579..588,
                            raw: ""timestamp"",
                            type_name: Raw(
                                ""timestamp"",
                            ),
                            args: [],
                            arrays: [],
                        },
                        settings: None,
                    },
                ],
                ident: TableIdent {
                    span_range: 403..409,
                    name: Ident {
                        span_range: 403..408,
                        raw: ""posts"",
                        to_string: ""posts"",
                    },
                    schema: None,
                    alias: Some(
                        Ident {
                            span_range: 412..413,
                            raw: ""P"",
                            to_string: ""P"",
                        },
                    ),
                },
                note: None,
                indexes: None,
                settings: None,
            },
        ),
        Table(
            TableBlock {
                span_range: 592..1051,
                cols: [
                    TableColumn {
                        span_range: 609..624,
                        name: Ident {
                            span_range: 609..611,
                            raw: ""id"",
                            to_string: ""id"",
                        },
                        type: ColumnType {
                            span_range: 612..619,
                            raw: ""integer"",
                " ++
 s "            type_name: Raw(
                                ""integer"",
                            ),
                            args: [],
                            arrays: [],
                        },
                        settings: Some(
                            ColumnSettings {
                                span_range: 620..624,
                                attributes: [
                                    Attribute {
                                        span_range: 621..623,
                                        key: Ident {
                                            span_range: 621..623,
                                            raw: ""pk"",
                                            to_string: ""pk"",
                                        },
                                        value: None,
                                    },
                                ],
                                is_pk: true,
                                is_unique: false,
                                nullable: None,
                                is_incremental: false,
                                note: None,
                                default: None,
                                refs: [],
                            },
                        ),
                    },
                    TableColumn {
                        span_range: 627..746,
                        name: Ident {
                            span_range: 627..633,
                            raw: ""status"",
                            to_string: ""status"",
                        },
                        type: ColumnType {
                            span_range: 634..641,
                            raw: ""varchar"",
                            type_name: Raw(
                                ""varchar"",
                            ),
                            args: [],
                            arrays: [],
                        },
                        settings: " ++
 s "Some(
                            ColumnSettings {
                                span_range: 642..746,
                                attributes: [
                                    Attribute {
                                        span_range: 646..745,
                                        key: Ident {
                                            span_range: 646..650,
                                            raw: ""note"",
                                            to_string: ""note"",
                                        },
                                        value: Some(
                                            Literal {
                                                span_range: 652..745,
                                                raw: ""'\n  " ++
 [128184] ++
 s " 1 = processing, \n  " ++
 [10004] ++
 s "\u{fe0f} 2 = shipped, \n  " ++
 [10060] ++
 s " 3 = cancelled,\n  " ++
 [128532] ++
 s " 4 = refunded\n  '"",
                                                value: String(
                                                    """ ++
 [128184] ++
 s " 1 = processing, \n  " ++
 [10004] ++
 s "\u{fe0f} 2 = shipped, \n  " ++
 [10060] ++
 s " 3 = cancelled,\n  " ++
 [128532] ++
 s " 4 = refunded\n  "",
                                                ),
                                            },
                                        ),
                                    },
                                ],
                                is_pk: false,
                                is_unique: false,
                                nullable: None,
                                is_incremental: false,
                                note: Some(
                                    """ ++
 [128184] ++
 s " 1 = processing, \n  " ++
 [10004] ++
 s "\u{fe0f} 2 = shipped, \n  " ++
 [10060] ++
 s " 3 = cancelled,\n  " ++
 [128532] ++
 s " 4 = refunded\n  "",
                                ),
                                default: None,
                                refs: [],
                            },
                        ),
                    },
                ],
                ident: TableIdent {
                    span_range: 598..605,
                    name: Ident {
                        span_range: 598..604,
                        raw: ""orders"",
                        to_string: ""orders"",
                    },
                    schema: None,
                    alias: None,
                },
                note: None,
                indexes: None,
                settings: None,
            },
        ),
        Enum(
            EnumBlock {
                span_range: 1053..1134,
                ident: EnumIdent {
                    span_range: 1058..1070,
                    schema: None,
                    name: Ident {
                        span_range: 1058..1069,
                        raw: ""post_status"",
                        to_string: ""post_status"",
                    },
                },
                values: [
                    EnumValue {
                        span_range: 1074..1082,
                        value: Ident {
                            span_range: 1074..1079,
                            raw: ""draft"",
                            to_string: ""draft"",
                        },
                        settings: None,
                    },
                    EnumValue {
                        span_range: 1082..1094,
                        value: Ident {
                            span_range: 1082..1091,
                            raw: ""published"",
                            to_string: ""published"",
                        },
                        settings: None,
                    },
                    EnumValue {
                        span_range: 1094..1132,
                        value: Ident {
                        " ++
 s "    span_range: 1094..1101,
                            raw: ""private"",
                            to_string: ""private"",
                        },
                        settings: Some(
                            EnumValueSettings {
                                span_range: 1102..1132,
                                attributes: [
                                    Attribute {
                                        span_range: 1103..1131,
                                        key: Ident {
                                            span_range: 1103..1107,
                                            raw: ""note"",
                                            to_string: ""note"",
                                        },
                                        value: Some(
                                            Literal {
                                                span_range: 1109..1131,
                                                raw: ""'visible via URL only'"",
                                                value: String(
                                                    ""visible via URL only"",
                                                ),
                                            },
                                        ),
                                    },
                                ],
                                note: Some(
                                    ""visible via URL only"",
                                ),
                            },
                        ),
                    },
                ],
            },
        ),
        Enum(
            EnumBlock {
                span_range: 1136..1186,
                ident: EnumIdent {
                    span_range: 1141..1147,
                    schema: None,
                    name: Ident {
                        span_range: 1141..1146,
                        raw: ""grade"",
                        to_string: ""grade"",
                    },
          " ++
 s "      },
                values: [
                    EnumValue {
                        span_range: 1151..1158,
                        value: Ident {
                            span_range: 1151..1155,
                            raw: ""\""A+\"""",
                            to_string: ""A+"",
                        },
                        settings: None,
                    },
                    EnumValue {
                        span_range: 1158..1164,
                        value: Ident {
                            span_range: 1158..1161,
                            raw: ""\""A\"""",
                            to_string: ""A"",
                        },
                        settings: None,
                    },
                    EnumValue {
                        span_range: 1164..1171,
                        value: Ident {
                            span_range: 1164..1168,
                            raw: ""\""A-\"""",
                            to_string: ""A-"",
                        },
                        settings: None,
                    },
                    EnumValue {
                        span_range: 1171..1185,
                        value: Ident {
                            span_range: 1171..1184,
                            raw: ""\""Not Yet Set\"""",
                            to_string: ""Not Yet Set"",
                        },
                        settings: None,
                    },
                ],
            },
        ),
    ],
}") = true.
Proof. vm_compute. reflexivity. Qed.

(** tests/dbml/sea_orm_codegen.dbml *)
Example golden__sea_orm_codegen : prints
(s "Project sea_orm_codegen {
  database_type: 'PostgreSQL'
}

Table cake {
  id int [pk, increment]
  name text [null]
}

Table vendor {
  id int [pk, increment]
  name varchar
  fruit_id text [ref: > fruit.id, null]
}

Table fruit {
  id int [pk, increment]
  name varchar
  cake_id int [ref: > cake.id, null]
}

Table filling {
  id int [pk, increment]
  name varchar
}

Table cake_filling {
  cake_id int
  filling_id int

  indexes {
    (cake_id, filling_id) [pk]
  }
}

Ref: cake_filling.cake_id > cake.id [delete: cascade, update: cascade]

Ref: cake_filling.filling_id > filling.id [delete: cascade, update: cascade]
")
(s "SchemaBlock {
    span_range: 0..622,
    input: ""Project sea_orm_codegen {\n  database_type: 'PostgreSQL'\n}\n\nTable cake {\n  id int [pk, increment]\n  name text [null]\n}\n\nTable vendor {\n  id int [pk, increment]\n  name varchar\n  fruit_id text [ref: > fruit.id, null]\n}\n\nTable fruit {\n  id int [pk, increment]\n  name varchar\n  cake_id int [ref: > cake.id, null]\n}\n\nTable filling {\n  id int [pk, increment]\n  name varchar\n}\n\nTable cake_filling {\n  cake_id int\n  filling_id int\n\n  indexes {\n    (cake_id, filling_id) [pk]\n  }\n}\n\nRef: cake_filling.cake_id > cake.id [delete: cascade, update: cascade]\n\nRef: cake_filling.filling_id > filling.id [delete: cascade, update: cascade]\n"",
    blocks: [
        Project(
            ProjectBlock {
                span_range: 0..57,
                properties: [
                    Property {
                        span_range: 28..55,
                        key: Ident {
                            span_range: 28..41,
                            raw: ""database_type"",
                            to_string: ""database_type"",
                        },
                        value: Literal {
                            span_range: 43..55,
                            raw: ""'PostgreSQL'"",
                            value: String(
                                ""PostgreSQL"",
                            ),
                        },
                    },
                ],
                ident: Ident {
                    span_range: 8..23,
                    raw: ""sea_orm_codegen"",
                    to_string: ""sea_orm_codegen"",
                },
                database_type: Some(
                    PostgreSQL,
                ),
                note: None,
            },
        ),
        Table(
            TableBlock {
                span_range: 59..117,
                cols: [
                    TableColumn {
                        span_range: 74..96,
                        name: Ident {
  " ++
 s "                          span_range: 74..76,
                            raw: ""id"",
                            to_string: ""id"",
                        },
                        type: ColumnType {
                            span_range: 77..80,
                            raw: ""int"",
                            type_name: Raw(
                                ""int"",
                            ),
                            args: [],
                            arrays: [],
                        },
                        settings: Some(
                            ColumnSettings {
                                span_range: 81..96,
                                attributes: [
                                    Attribute {
                                        span_range: 82..84,
                                        key: Ident {
                                            span_range: 82..84,
                                            raw: ""pk"",
                                            to_string: ""pk"",
                                        },
                                        value: None,
                                    },
                                    Attribute {
                                        span_range: 86..95,
                                        key: Ident {
                                            span_range: 86..95,
                                            raw: ""increment"",
                                            to_string: ""increment"",
                                        },
                                        value: None,
                                    },
                                ],
                                is_pk: true,
                                is_unique: false,
                                nullable: None,
                                is_incremental: true,
                                note: None,
                                default: None,
                     " ++
 s "           refs: [],
                            },
                        ),
                    },
                    TableColumn {
                        span_range: 99..115,
                        name: Ident {
                            span_range: 99..103,
                            raw: ""name"",
                            to_string: ""name"",
                        },
                        type: ColumnType {
                            span_range: 104..108,
                            raw: ""text"",
                            type_name: Raw(
                                ""text"",
                            ),
                            args: [],
                            arrays: [],
                        },
                        settings: Some(
                            ColumnSettings {
                                span_range: 109..115,
                                attributes: [
                                    Attribute {
                                        span_range: 110..114,
                                        key: Ident {
                                            span_range: 110..114,
                                            raw: ""null"",
                                            to_string: ""null"",
                                        },
                                        value: None,
                                    },
                                ],
                                is_pk: false,
                                is_unique: false,
                                nullable: Some(
                                    Null,
                                ),
                                is_incremental: false,
                                note: None,
                                default: None,
                                refs: [],
                            },
                        ),
                    },
                ],
                ident: TableIdent {
              " ++
 s "      span_range: 65..70,
                    name: Ident {
                        span_range: 65..69,
                        raw: ""cake"",
                        to_string: ""cake"",
                    },
                    schema: None,
                    alias: None,
                },
                note: None,
                indexes: None,
                settings: None,
            },
        ),
        Table(
            TableBlock {
                span_range: 119..215,
                cols: [
                    TableColumn {
                        span_range: 136..158,
                        name: Ident {
                            span_range: 136..138,
                            raw: ""id"",
                            to_string: ""id"",
                        },
                        type: ColumnType {
                            span_range: 139..142,
                            raw: ""int"",
                            type_name: Raw(
                                ""int"",
                            ),
                            args: [],
                            arrays: [],
                        },
                        settings: Some(
                            ColumnSettings {
                                span_range: 143..158,
                                attributes: [
                                    Attribute {
                                        span_range: 144..146,
                                        key: Ident {
                                            span_range: 144..146,
                                            raw: ""pk"",
                                            to_string: ""pk"",
                                        },
                                        value: None,
                                    },
                                    Attribute {
                                        span_range: 148..157,
                                        key: Ident {
                             " ++
 s "               span_range: 148..157,
                                            raw: ""increment"",
                                            to_string: ""increment"",
                                        },
                                        value: None,
                                    },
                                ],
                                is_pk: true,
                                is_unique: false,
                                nullable: None,
                                is_incremental: true,
                                note: None,
                                default: None,
                                refs: [],
                            },
                        ),
                    },
                    TableColumn {
                        span_range: 161..176,
                        name: Ident {
                            span_range: 161..165,
                            raw: ""name"",
                            to_string: ""name"",
                        },
                        type: ColumnType {
                            span_range: 166..173,
                            raw: ""varchar"",
                            type_name: Raw(
                                ""varchar"",
                            ),
                            args: [],
                            arrays: [],
                        },
                        settings: None,
                    },
                    TableColumn {
                        span_range: 176..213,
                        name: Ident {
                            span_range: 176..184,
                            raw: ""fruit_id"",
                            to_string: ""fruit_id"",
                        },
                        type: ColumnType {
                            span_range: 185..189,
                            raw: ""text"",
                            type_name: Raw(
                                ""text"",
                            ),
      " ++
 s "                      args: [],
                            arrays: [],
                        },
                        settings: Some(
                            ColumnSettings {
                                span_range: 190..213,
                                attributes: [
                                    Attribute {
                                        span_range: 208..212,
                                        key: Ident {
                                            span_range: 208..212,
                                            raw: ""null"",
                                            to_string: ""null"",
                                        },
                                        value: None,
                                    },
                                ],
                                is_pk: false,
                                is_unique: false,
                                nullable: Some(
                                    Null,
                                ),
                                is_incremental: false,
                                note: None,
                                default: None,
                                refs: [
                                    RefInline {
                                        span_range: 191..206,
                                        rel: Many2One,
                                        rhs: RefIdent {
                                            span_range: 198..206,
                                            schema: None,
                                            table: Ident {
                                                span_range: 198..203,
                                                raw: ""fruit"",
                                                to_string: ""fruit"",
                                            },
                                            compositions: [
                                                Ident {
                       " ++
 s "                             span_range: 204..206,
                                                    raw: ""id"",
                                                    to_string: ""id"",
                                                },
                                            ],
                                        },
                                    },
                                ],
                            },
                        ),
                    },
                ],
                ident: TableIdent {
                    span_range: 125..132,
                    name: Ident {
                        span_range: 125..131,
                        raw: ""vendor"",
                        to_string: ""vendor"",
                    },
                    schema: None,
                    alias: None,
                },
                note: None,
                indexes: None,
                settings: None,
            },
        ),
        Table(
            TableBlock {
                span_range: 217..309,
                cols: [
                    TableColumn {
                        span_range: 233..255,
                        name: Ident {
                            span_range: 233..235,
                            raw: ""id"",
                            to_string: ""id"",
                        },
                        type: ColumnType {
                            span_range: 236..239,
                            raw: ""int"",
                            type_name: Raw(
                                ""int"",
                            ),
                            args: [],
                            arrays: [],
                        },
                        settings: Some(
                            ColumnSettings {
                                span_range: 240..255,
                                attributes: [
                                    Attribute {
                                        span_range: 241..243,
      " ++
 s "                                  key: Ident {
                                            span_range: 241..243,
                                            raw: ""pk"",
                                            to_string: ""pk"",
                                        },
                                        value: None,
                                    },
                                    Attribute {
                                        span_range: 245..254,
                                        key: Ident {
                                            span_range: 245..254,
                                            raw: ""increment"",
                                            to_string: ""increment"",
                                        },
                                        value: None,
                                    },
                                ],
                                is_pk: true,
                                is_unique: false,
                                nullable: None,
                                is_incremental: true,
                                note: None,
                                default: None,
                                refs: [],
                            },
                        ),
                    },
                    TableColumn {
                        span_range: 258..273,
                        name: Ident {
                            span_range: 258..262,
                            raw: ""name"",
                            to_string: ""name"",
                        },
                        type: ColumnType {
                            span_range: 263..270,
                            raw: ""varchar"",
                            type_name: Raw(
                                ""varchar"",
                            ),
                            args: [],
                            arrays: [],
                        },
                        settings: None,
             " ++
 s "       },
                    TableColumn {
                        span_range: 273..307,
                        name: Ident {
                            span_range: 273..280,
                            raw: ""cake_id"",
                            to_string: ""cake_id"",
                        },
                        type: ColumnType {
                            span_range: 281..284,
                            raw: ""int"",
                            type_name: Raw(
                                ""int"",
                            ),
                            args: [],
                            arrays: [],
                        },
                        settings: Some(
                            ColumnSettings {
                                span_range: 285..307,
                                attributes: [
                                    Attribute {
                                        span_range: 302..306,
                                        key: Ident {
                                            span_range: 302..306,
                                            raw: ""null"",
                                            to_string: ""null"",
                                        },
                                        value: None,
                                    },
                                ],
                                is_pk: false,
                                is_unique: false,
                                nullable: Some(
                                    Null,
                                ),
                                is_incremental: false,
                                note: None,
                                default: None,
                                refs: [
                                    RefInline {
                                        span_range: 286..300,
                                        rel: Many2One,
                                        rhs: RefIdent {
                 " ++
 s "                           span_range: 293..300,
                                            schema: None,
                                            table: Ident {
                                                span_range: 293..297,
                                                raw: ""cake"",
                                                to_string: ""cake"",
                                            },
                                            compositions: [
                                                Ident {
                                                    span_range: 298..300,
                                                    raw: ""id"",
                                                    to_string: ""id"",
                                                },
                                            ],
                                        },
                                    },
                                ],
                            },
                        ),
                    },
                ],
                ident: TableIdent {
                    span_range: 223..229,
                    name: Ident {
                        span_range: 223..228,
                        raw: ""fruit"",
                        to_string: ""fruit"",
                    },
                    schema: None,
                    alias: None,
                },
                note: None,
                indexes: None,
                settings: None,
            },
        ),
        Table(
            TableBlock {
                span_range: 311..368,
                cols: [
                    TableColumn {
                        span_range: 329..351,
                        name: Ident {
                            span_range: 329..331,
                            raw: ""id"",
                            to_string: ""id"",
                        },
                        type: ColumnType {
                            span_range: 332..335,
            " ++
 s "                raw: ""int"",
                            type_name: Raw(
                                ""int"",
                            ),
                            args: [],
                            arrays: [],
                        },
                        settings: Some(
                            ColumnSettings {
                                span_range: 336..351,
                                attributes: [
                                    Attribute {
                                        span_range: 337..339,
                                        key: Ident {
                                            span_range: 337..339,
                                            raw: ""pk"",
                                            to_string: ""pk"",
                                        },
                                        value: None,
                                    },
                                    Attribute {
                                        span_range: 341..350,
                                        key: Ident {
                                            span_range: 341..350,
                                            raw: ""increment"",
                                            to_string: ""increment"",
                                        },
                                        value: None,
                                    },
                                ],
                                is_pk: true,
                                is_unique: false,
                                nullable: None,
                                is_incremental: true,
                                note: None,
                                default: None,
                                refs: [],
                            },
                        ),
                    },
                    TableColumn {
                        span_range: 354..367,
                        name: Ident {
                            sp" ++
 s "an_range: 354..358,
                            raw: ""name"",
                            to_string: ""name"",
                        },
                        type: ColumnType {
                            span_range: 359..366,
                            raw: ""varchar"",
                            type_name: Raw(
                                ""varchar"",
                            ),
                            args: [],
                            arrays: [],
                        },
                        settings: None,
                    },
                ],
                ident: TableIdent {
                    span_range: 317..325,
                    name: Ident {
                        span_range: 317..324,
                        raw: ""filling"",
                        to_string: ""filling"",
                    },
                    schema: None,
                    alias: None,
                },
                note: None,
                indexes: None,
                settings: None,
            },
        ),
        Table(
            TableBlock {
                span_range: 370..471,
                cols: [
                    TableColumn {
                        span_range: 393..407,
                        name: Ident {
                            span_range: 393..400,
                            raw: ""cake_id"",
                            to_string: ""cake_id"",
                        },
                        type: ColumnType {
                            span_range: 401..404,
                            raw: ""int"",
                            type_name: Raw(
                                ""int"",
                            ),
                            args: [],
                            arrays: [],
                        },
                        settings: None,
                    },
                    TableColumn {
                        span_range: 407..425,
                        name: Ident {
                            s" ++
 s "pan_range: 407..417,
                            raw: ""filling_id"",
                            to_string: ""filling_id"",
                        },
                        type: ColumnType {
                            span_range: 418..421,
                            raw: ""int"",
                            type_name: Raw(
                                ""int"",
                            ),
                            args: [],
                            arrays: [],
                        },
                        settings: None,
                    },
                ],
                ident: TableIdent {
                    span_range: 376..389,
                    name: Ident {
                        span_range: 376..388,
                        raw: ""cake_filling"",
                        to_string: ""cake_filling"",
                    },
                    schema: None,
                    alias: None,
                },
                note: None,
                indexes: Some(
                    IndexesBlock {
                        span_range: 433..469,
                        defs: [
                            IndexesDef {
                                span_range: 439..465,
                                cols: [
                                    String(
                                        Ident {
                                            span_range: 440..447,
                                            raw: ""cake_id"",
                                            to_string: ""cake_id"",
                                        },
                                    ),
                                    String(
                                        Ident {
                                            span_range: 449..459,
                                            raw: ""filling_id"",
                                            to_string: ""filling_id"",
                                        },
                                    ),
          " ++
 s "                      ],
                                settings: Some(
                                    IndexesSettings {
                                        span_range: 461..465,
                                        attributes: [
                                            Attribute {
                                                span_range: 462..464,
                                                key: Ident {
                                                    span_range: 462..464,
                                                    raw: ""pk"",
                                                    to_string: ""pk"",
                                                },
                                                value: None,
                                            },
                                        ],
                                        type: None,
                                        is_unique: false,
                                        is_pk: true,
                                        note: None,
                                        name: None,
                                    },
                                ),
                            },
                        ],
                    },
                ),
                settings: None,
            },
        ),
        Ref(
            RefBlock {
                span_range: 478..543,
                name: None,
                rel: Many2One,
                lhs: RefIdent {
                    span_range: 478..498,
                    schema: None,
                    table: Ident {
                        span_range: 478..490,
                        raw: ""cake_filling"",
                        to_string: ""cake_filling"",
                    },
                    compositions: [
                        Ident {
                            span_range: 491..498,
                            raw: ""cake_id"",
                            to_string: ""cake_id"",
          " ++
 s "              },
                    ],
                },
                rhs: RefIdent {
                    span_range: 501..508,
                    schema: None,
                    table: Ident {
                        span_range: 501..505,
                        raw: ""cake"",
                        to_string: ""cake"",
                    },
                    compositions: [
                        Ident {
                            span_range: 506..508,
                            raw: ""id"",
                            to_string: ""id"",
                        },
                    ],
                },
                settings: Some(
                    RefSettings {
                        span_range: 509..543,
                        attributes: [
                            Attribute {
                                span_range: 510..525,
                                key: Ident {
                                    span_range: 510..516,
                                    raw: ""delete"",
                                    to_string: ""delete"",
                                },
                                value: Some(
                                    Literal {
                                        span_range: 518..525,
                                        raw: ""cascade"",
                                        value: Enum(
                                            ""cascade"",
                                        ),
                                    },
                                ),
                            },
                            Attribute {
                                span_range: 527..542,
                                key: Ident {
                                    span_range: 527..533,
                                    raw: ""update"",
                                    to_string: ""update"",
                                },
                                value: Some(
                                    Li" ++
 s "teral {
                                        span_range: 535..542,
                                        raw: ""cascade"",
                                        value: Enum(
                                            ""cascade"",
                                        ),
                                    },
                                ),
                            },
                        ],
                        on_delete: Some(
                            Cascade,
                        ),
                        on_update: Some(
                            Cascade,
                        ),
                    },
                ),
            },
        ),
        Ref(
            RefBlock {
                span_range: 550..621,
                name: None,
                rel: Many2One,
                lhs: RefIdent {
                    span_range: 550..573,
                    schema: None,
                    table: Ident {
                        span_range: 550..562,
                        raw: ""cake_filling"",
                        to_string: ""cake_filling"",
                    },
                    compositions: [
                        Ident {
                            span_range: 563..573,
                            raw: ""filling_id"",
                            to_string: ""filling_id"",
                        },
                    ],
                },
                rhs: RefIdent {
                    span_range: 576..586,
                    schema: None,
                    table: Ident {
                        span_range: 576..583,
                        raw: ""filling"",
                        to_string: ""filling"",
                    },
                    compositions: [
                        Ident {
                            span_range: 584..586,
                            raw: ""id"",
                            to_string: ""id"",
                        },
                    ],
                },
                " ++
 s "settings: Some(
                    RefSettings {
                        span_range: 587..621,
                        attributes: [
                            Attribute {
                                span_range: 588..603,
                                key: Ident {
                                    span_range: 588..594,
                                    raw: ""delete"",
                                    to_string: ""delete"",
                                },
                                value: Some(
                                    Literal {
                                        span_range: 596..603,
                                        raw: ""cascade"",
                                        value: Enum(
                                            ""cascade"",
                                        ),
                                    },
                                ),
                            },
                            Attribute {
                                span_range: 605..620,
                                key: Ident {
                                    span_range: 605..611,
                                    raw: ""update"",
                                    to_string: ""update"",
                                },
                                value: Some(
                                    Literal {
                                        span_range: 613..620,
                                        raw: ""cascade"",
                                        value: Enum(
                                            ""cascade"",
                                        ),
                                    },
                                ),
                            },
                        ],
                        on_delete: Some(
                            Cascade,
                        ),
                        on_update: Some(
                            Cascade,
                        ),
                   " ++
 s " },
                ),
            },
        ),
    ],
}") = true.
Proof. vm_compute. reflexivity. Qed.

(** tests/dbml/table_element.in.dbml *)
Example golden__table_element : prints
(s "Table users [note: 'note in table settings'] {
  id int [pk]
  name varchar [pk]
  gender varchar
  created_at datetime

  Note: 'Short note'

  Indexes {
    id
    (id, name)
  }

  Indexes {
    gender
    created_at
  }

  Note {
    '''
    # Note

    ## Objective
      * Support define element's note inside element body
      * Make writing long note easier with the new syntax
      
    '''
  }
}")
(s "SchemaBlock {
    span_range: 0..407,
    input: ""Table users [note: 'note in table settings'] {\n  id int [pk]\n  name varchar [pk]\n  gender varchar\n  created_at datetime\n\n  Note: 'Short note'\n\n  Indexes {\n    id\n    (id, name)\n  }\n\n  Indexes {\n    gender\n    created_at\n  }\n\n  Note {\n    '''\n    # Note\n\n    ## Objective\n      * Support define element's note inside element body\n      * Make writing long note easier with the new syntax\n      \n    '''\n  }\n}"",
    blocks: [
        Table(
            TableBlock {
                span_range: 0..407,
                cols: [
                    TableColumn {
                        span_range: 49..60,
                        name: Ident {
                            span_range: 49..51,
                            raw: ""id"",
                            to_string: ""id"",
                        },
                        type: ColumnType {
                            span_range: 52..55,
                            raw: ""int"",
                            type_name: Raw(
                                ""int"",
                            ),
                            args: [],
                            arrays: [],
                        },
                        settings: Some(
                            ColumnSettings {
                                span_range: 56..60,
                                attributes: [
                                    Attribute {
                                        span_range: 57..59,
                                        key: Ident {
                                            span_range: 57..59,
                                            raw: ""pk"",
                                            to_string: ""pk"",
                                        },
                                        value: None,
                                    },
                                ],
                                is_pk: true,
                                is" ++
 s "_unique: false,
                                nullable: None,
                                is_incremental: false,
                                note: None,
                                default: None,
                                refs: [],
                            },
                        ),
                    },
                    TableColumn {
                        span_range: 63..80,
                        name: Ident {
                            span_range: 63..67,
                            raw: ""name"",
                            to_string: ""name"",
                        },
                        type: ColumnType {
                            span_range: 68..75,
                            raw: ""varchar"",
                            type_name: Raw(
                                ""varchar"",
                            ),
                            args: [],
                            arrays: [],
                        },
                        settings: Some(
                            ColumnSettings {
                                span_range: 76..80,
                                attributes: [
                                    Attribute {
                                        span_range: 77..79,
                                        key: Ident {
                                            span_range: 77..79,
                                            raw: ""pk"",
                                            to_string: ""pk"",
                                        },
                                        value: None,
                                    },
                                ],
                                is_pk: true,
                                is_unique: false,
                                nullable: None,
                                is_incremental: false,
                                note: None,
                                default: None,
                                refs: [],
     " ++
 s "                       },
                        ),
                    },
                    TableColumn {
                        span_range: 83..100,
                        name: Ident {
                            span_range: 83..89,
                            raw: ""gender"",
                            to_string: ""gender"",
                        },
                        type: ColumnType {
                            span_range: 90..97,
                            raw: ""varchar"",
                            type_name: Raw(
                                ""varchar"",
                            ),
                            args: [],
                            arrays: [],
                        },
                        settings: None,
                    },
                    TableColumn {
                        span_range: 100..123,
                        name: Ident {
                            span_range: 100..110,
                            raw: ""created_at"",
                            to_string: ""created_at"",
                        },
                        type: ColumnType {
                            span_range: 111..119,
                            raw: ""datetime"",
                            type_name: Raw(
                                ""datetime"",
                            ),
                            args: [],
                            arrays: [],
                        },
                        settings: None,
                    },
                ],
                ident: TableIdent {
                    span_range: 6..12,
                    name: Ident {
                        span_range: 6..11,
                        raw: ""users"",
                        to_string: ""users"",
                    },
                    schema: None,
                    alias: None,
                },
                note: Some(
                    NoteBlock {
                        span_range: 227..405,
                        value: " ++
 s "Literal {
                            span_range: 238..401,
                            raw: ""'''\n    # Note\n\n    ## Objective\n      * Support define element's note inside element body\n      * Make writing long note easier with the new syntax\n      \n    '''"",
                            value: String(
                                ""# Note\n\n    ## Objective\n      * Support define element's note inside element body\n      * Make writing long note easier with the new syntax\n      \n    "",
                            ),
                        },
                    },
                ),
                indexes: Some(
                    IndexesBlock {
                        span_range: 192..223,
                        defs: [
                            IndexesDef {
                                span_range: 198..209,
                                cols: [
                                    String(
                                        Ident {
                                            span_range: 198..204,
                                            raw: ""gender"",
                                            to_string: ""gender"",
                                        },
                                    ),
                                ],
                                settings: None,
                            },
                            IndexesDef {
                                span_range: 209..222,
                                cols: [
                                    String(
                                        Ident {
                                            span_range: 209..219,
                                            raw: ""created_at"",
                                            to_string: ""created_at"",
                                        },
                                    ),
                                ],
                                settings: None,
                            },
                  " ++
 s "      ],
                    },
                ),
                settings: Some(
                    TableSettings {
                        span_range: 12..44,
                        attributes: [
                            Attribute {
                                span_range: 13..43,
                                key: Ident {
                                    span_range: 13..17,
                                    raw: ""note"",
                                    to_string: ""note"",
                                },
                                value: Some(
                                    Literal {
                                        span_range: 19..43,
                                        raw: ""'note in table settings'"",
                                        value: String(
                                            ""note in table settings"",
                                        ),
                                    },
                                ),
                            },
                        ],
                    },
                ),
            },
        ),
    ],
}") = true.
Proof. vm_compute. reflexivity. Qed.

(** tests/dbml/table_group.in.dbml *)
Example golden__table_group : prints
(s "Table users as U {
  id int
	full_name varchar
  created_at timestamp
  country_code int
}

Table merchants {
  id int 
  merchant_name varchar
	country_code int
  ""created at"" varchar
  admin_id int [ref: > U.id] // inline relationship (many-to-one)
}

TableGroup g1 [color: #abcdef] {
  users
  merchants

  note: 'A table group description'
}


Note {
   'Some note'
}
")
(s "SchemaBlock {
    span_range: 0..372,
    input: ""Table users as U {\n  id int\n\tfull_name varchar\n  created_at timestamp\n  country_code int\n}\n\nTable merchants {\n  id int \n  merchant_name varchar\n\tcountry_code int\n  \""created at\"" varchar\n  admin_id int [ref: > U.id] // inline relationship (many-to-one)\n}\n\nTableGroup g1 [color: #abcdef] {\n  users\n  merchants\n\n  note: 'A table group description'\n}\n\n\nNote {\n   'Some note'\n}\n"",
    blocks: [
        Table(
            TableBlock {
                span_range: 0..90,
                cols: [
                    TableColumn {
                        span_range: 21..29,
                        name: Ident {
                            span_range: 21..23,
                            raw: ""id"",
                            to_string: ""id"",
                        },
                        type: ColumnType {
                            span_range: 24..27,
                            raw: ""int"",
                            type_name: Raw(
                                ""int"",
                            ),
                            args: [],
                            arrays: [],
                        },
                        settings: None,
                    },
                    TableColumn {
                        span_range: 29..49,
                        name: Ident {
                            span_range: 29..38,
                            raw: ""full_name"",
                            to_string: ""full_name"",
                        },
                        type: ColumnType {
                            span_range: 39..46,
                            raw: ""varchar"",
                            type_name: Raw(
                                ""varchar"",
                            ),
                            args: [],
                            arrays: [],
                        },
                        settings: None,
                    },
                    TableColumn {
" ++
 s "                        span_range: 49..72,
                        name: Ident {
                            span_range: 49..59,
                            raw: ""created_at"",
                            to_string: ""created_at"",
                        },
                        type: ColumnType {
                            span_range: 60..69,
                            raw: ""timestamp"",
                            type_name: Raw(
                                ""timestamp"",
                            ),
                            args: [],
                            arrays: [],
                        },
                        settings: None,
                    },
                    TableColumn {
                        span_range: 72..89,
                        name: Ident {
                            span_range: 72..84,
                            raw: ""country_code"",
                            to_string: ""country_code"",
                        },
                        type: ColumnType {
                            span_range: 85..88,
                            raw: ""int"",
                            type_name: Raw(
                                ""int"",
                            ),
                            args: [],
                            arrays: [],
                        },
                        settings: None,
                    },
                ],
                ident: TableIdent {
                    span_range: 6..12,
                    name: Ident {
                        span_range: 6..11,
                        raw: ""users"",
                        to_string: ""users"",
                    },
                    schema: None,
                    alias: Some(
                        Ident {
                            span_range: 15..16,
                            raw: ""U"",
                            to_string: ""U"",
                        },
                    ),
                },
                note: None,
        " ++
 s "        indexes: None,
                settings: None,
            },
        ),
        Table(
            TableBlock {
                span_range: 92..252,
                cols: [
                    TableColumn {
                        span_range: 112..122,
                        name: Ident {
                            span_range: 112..114,
                            raw: ""id"",
                            to_string: ""id"",
                        },
                        type: ColumnType {
                            span_range: 115..118,
                            raw: ""int"",
                            type_name: Raw(
                                ""int"",
                            ),
                            args: [],
                            arrays: [],
                        },
                        settings: None,
                    },
                    TableColumn {
                        span_range: 122..145,
                        name: Ident {
                            span_range: 122..135,
                            raw: ""merchant_name"",
                            to_string: ""merchant_name"",
                        },
                        type: ColumnType {
                            span_range: 136..143,
                            raw: ""varchar"",
                            type_name: Raw(
                                ""varchar"",
                            ),
                            args: [],
                            arrays: [],
                        },
                        settings: None,
                    },
                    TableColumn {
                        span_range: 145..164,
                        name: Ident {
                            span_range: 145..157,
                            raw: ""country_code"",
                            to_string: ""country_code"",
                        },
                        type: ColumnType {
                            span_range: 158..161,
        " ++
 s "                    raw: ""int"",
                            type_name: Raw(
                                ""int"",
                            ),
                            args: [],
                            arrays: [],
                        },
                        settings: None,
                    },
                    TableColumn {
                        span_range: 164..187,
                        name: Ident {
                            span_range: 164..176,
                            raw: ""\""created at\"""",
                            to_string: ""created at"",
                        },
                        type: ColumnType {
                            span_range: 177..184,
                            raw: ""varchar"",
                            type_name: Raw(
                                ""varchar"",
                            ),
                            args: [],
                            arrays: [],
                        },
                        settings: None,
                    },
                    TableColumn {
                        span_range: 187..213,
                        name: Ident {
                            span_range: 187..195,
                            raw: ""admin_id"",
                            to_string: ""admin_id"",
                        },
                        type: ColumnType {
                            span_range: 196..199,
                            raw: ""int"",
                            type_name: Raw(
                                ""int"",
                            ),
                            args: [],
                            arrays: [],
                        },
                        settings: Some(
                            ColumnSettings {
                                span_range: 200..213,
                                attributes: [],
                                is_pk: false,
                                is_unique: false,
                                nullab" ++
 s "le: None,
                                is_incremental: false,
                                note: None,
                                default: None,
                                refs: [
                                    RefInline {
                                        span_range: 201..212,
                                        rel: Many2One,
                                        rhs: RefIdent {
                                            span_range: 208..212,
                                            schema: None,
                                            table: Ident {
                                                span_range: 208..209,
                                                raw: ""U"",
                                                to_string: ""U"",
                                            },
                                            compositions: [
                                                Ident {
                                                    span_range: 210..212,
                                                    raw: ""id"",
                                                    to_string: ""id"",
                                                },
                                            ],
                                        },
                                    },
                                ],
                            },
                        ),
                    },
                ],
                ident: TableIdent {
                    span_range: 98..108,
                    name: Ident {
                        span_range: 98..107,
                        raw: ""merchants"",
                        to_string: ""merchants"",
                    },
                    schema: None,
                    alias: None,
                },
                note: None,
                indexes: None,
                settings: None,
            },
        ),
        TableGroup(
            TableGroupBlock {
  " ++
 s "              span_range: 254..345,
                ident: Ident {
                    span_range: 265..267,
                    raw: ""g1"",
                    to_string: ""g1"",
                },
                note: Some(
                    NoteBlock {
                        span_range: 310..343,
                        value: Literal {
                            span_range: 316..343,
                            raw: ""'A table group description'"",
                            value: String(
                                ""A table group description"",
                            ),
                        },
                    },
                ),
                items: [
                    TableGroupItem {
                        span_range: 289..297,
                        schema: None,
                        ident_alias: Ident {
                            span_range: 289..294,
                            raw: ""users"",
                            to_string: ""users"",
                        },
                    },
                    TableGroupItem {
                        span_range: 297..310,
                        schema: None,
                        ident_alias: Ident {
                            span_range: 297..306,
                            raw: ""merchants"",
                            to_string: ""merchants"",
                        },
                    },
                ],
                settings: Some(
                    TableGroupSettings {
                        span_range: 268..284,
                        attributes: [
                            Attribute {
                                span_range: 269..283,
                                key: Ident {
                                    span_range: 269..274,
                                    raw: ""color"",
                                    to_string: ""color"",
                                },
                                value: Some(
                                   " ++
 s " Literal {
                                        span_range: 276..283,
                                        raw: ""#abcdef"",
                                        value: HexColor(
                                            ""#abcdef"",
                                        ),
                                    },
                                ),
                            },
                        ],
                    },
                ),
            },
        ),
        Note(
            NoteBlock {
                span_range: 348..371,
                value: Literal {
                    span_range: 358..369,
                    raw: ""'Some note'"",
                    value: String(
                        ""Some note"",
                    ),
                },
            },
        ),
    ],
}") = true.
Proof. vm_compute. reflexivity. Qed.

(** tests/dbml/table_settings.in.dbml *)
Example golden__table_settings : prints
(s "Table ""user"" [headerColor: #555] {
  ""id"" int [pk]
  ""name"" string
}

Table ""country"" [note: 'name is required'] {
  ""id"" int [pk]
  ""name"" string [not null]
}

Table ""product"" [headerColor: #17DACC, note: 'product must have price'] {
  ""id"" int [pk]
  ""name"" string
  ""price"" decimal [not null]
}

Table ""merchant"" [headerColor: #08DAFF, note: 'merchants sell a lot'] {
  ""id"" int [pk]
  ""user_id"" int
  ""product_id"" int
  ""address"" string
}

Ref:""user"".""id"" < ""merchant"".""user_id""

Ref:""product"".""id"" < ""merchant"".""product_id""")
(s "SchemaBlock {
    span_range: 0..528,
    input: ""Table \""user\"" [headerColor: #555] {\n  \""id\"" int [pk]\n  \""name\"" string\n}\n\nTable \""country\"" [note: 'name is required'] {\n  \""id\"" int [pk]\n  \""name\"" string [not null]\n}\n\nTable \""product\"" [headerColor: #17DACC, note: 'product must have price'] {\n  \""id\"" int [pk]\n  \""name\"" string\n  \""price\"" decimal [not null]\n}\n\nTable \""merchant\"" [headerColor: #08DAFF, note: 'merchants sell a lot'] {\n  \""id\"" int [pk]\n  \""user_id\"" int\n  \""product_id\"" int\n  \""address\"" string\n}\n\nRef:\""user\"".\""id\"" < \""merchant\"".\""user_id\""\n\nRef:\""product\"".\""id\"" < \""merchant\"".\""product_id\"""",
    blocks: [
        Table(
            TableBlock {
                span_range: 0..68,
                cols: [
                    TableColumn {
                        span_range: 37..50,
                        name: Ident {
                            span_range: 37..41,
                            raw: ""\""id\"""",
                            to_string: ""id"",
                        },
                        type: ColumnType {
                            span_range: 42..45,
                            raw: ""int"",
                            type_name: Raw(
                                ""int"",
                            ),
                            args: [],
                            arrays: [],
                        },
                        settings: Some(
                            ColumnSettings {
                                span_range: 46..50,
                                attributes: [
                                    Attribute {
                                        span_range: 47..49,
                                        key: Ident {
                                            span_range: 47..49,
                                            raw: ""pk"",
                                            to_string: ""pk"",
                                        },
                                       " ++
 s " value: None,
                                    },
                                ],
                                is_pk: true,
                                is_unique: false,
                                nullable: None,
                                is_incremental: false,
                                note: None,
                                default: None,
                                refs: [],
                            },
                        ),
                    },
                    TableColumn {
                        span_range: 53..67,
                        name: Ident {
                            span_range: 53..59,
                            raw: ""\""name\"""",
                            to_string: ""name"",
                        },
                        type: ColumnType {
                            span_range: 60..66,
                            raw: ""string"",
                            type_name: Raw(
                                ""string"",
                            ),
                            args: [],
                            arrays: [],
                        },
                        settings: None,
                    },
                ],
                ident: TableIdent {
                    span_range: 6..13,
                    name: Ident {
                        span_range: 6..12,
                        raw: ""\""user\"""",
                        to_string: ""user"",
                    },
                    schema: None,
                    alias: None,
                },
                note: None,
                indexes: None,
                settings: Some(
                    TableSettings {
                        span_range: 13..32,
                        attributes: [
                            Attribute {
                                span_range: 14..31,
                                key: Ident {
                                    span_range: 14..25,
                                " ++
 s "    raw: ""headerColor"",
                                    to_string: ""headerColor"",
                                },
                                value: Some(
                                    Literal {
                                        span_range: 27..31,
                                        raw: ""#555"",
                                        value: HexColor(
                                            ""#555"",
                                        ),
                                    },
                                ),
                            },
                        ],
                    },
                ),
            },
        ),
        Table(
            TableBlock {
                span_range: 70..159,
                cols: [
                    TableColumn {
                        span_range: 117..130,
                        name: Ident {
                            span_range: 117..121,
                            raw: ""\""id\"""",
                            to_string: ""id"",
                        },
                        type: ColumnType {
                            span_range: 122..125,
                            raw: ""int"",
                            type_name: Raw(
                                ""int"",
                            ),
                            args: [],
                            arrays: [],
                        },
                        settings: Some(
                            ColumnSettings {
                                span_range: 126..130,
                                attributes: [
                                    Attribute {
                                        span_range: 127..129,
                                        key: Ident {
                                            span_range: 127..129,
                                            raw: ""pk"",
                                            to_string: ""pk"",
                                        },
              " ++
 s "                          value: None,
                                    },
                                ],
                                is_pk: true,
                                is_unique: false,
                                nullable: None,
                                is_incremental: false,
                                note: None,
                                default: None,
                                refs: [],
                            },
                        ),
                    },
                    TableColumn {
                        span_range: 133..157,
                        name: Ident {
                            span_range: 133..139,
                            raw: ""\""name\"""",
                            to_string: ""name"",
                        },
                        type: ColumnType {
                            span_range: 140..146,
                            raw: ""string"",
                            type_name: Raw(
                                ""string"",
                            ),
                            args: [],
                            arrays: [],
                        },
                        settings: Some(
                            ColumnSettings {
                                span_range: 147..157,
                                attributes: [
                                    Attribute {
                                        span_range: 148..156,
                                        key: Ident {
                                            span_range: 148..156,
                                            raw: ""not null"",
                                            to_string: ""not null"",
                                        },
                                        value: None,
                                    },
                                ],
                                is_pk: false,
                                is_unique: false,
                      " ++
 s "          nullable: Some(
                                    NotNull,
                                ),
                                is_incremental: false,
                                note: None,
                                default: None,
                                refs: [],
                            },
                        ),
                    },
                ],
                ident: TableIdent {
                    span_range: 76..86,
                    name: Ident {
                        span_range: 76..85,
                        raw: ""\""country\"""",
                        to_string: ""country"",
                    },
                    schema: None,
                    alias: None,
                },
                note: None,
                indexes: None,
                settings: Some(
                    TableSettings {
                        span_range: 86..112,
                        attributes: [
                            Attribute {
                                span_range: 87..111,
                                key: Ident {
                                    span_range: 87..91,
                                    raw: ""note"",
                                    to_string: ""note"",
                                },
                                value: Some(
                                    Literal {
                                        span_range: 93..111,
                                        raw: ""'name is required'"",
                                        value: String(
                                            ""name is required"",
                                        ),
                                    },
                                ),
                            },
                        ],
                    },
                ),
            },
        ),
        Table(
            TableBlock {
                span_range: 161..297,
                cols: [
                    TableCo" ++
 s "lumn {
                        span_range: 237..250,
                        name: Ident {
                            span_range: 237..241,
                            raw: ""\""id\"""",
                            to_string: ""id"",
                        },
                        type: ColumnType {
                            span_range: 242..245,
                            raw: ""int"",
                            type_name: Raw(
                                ""int"",
                            ),
                            args: [],
                            arrays: [],
                        },
                        settings: Some(
                            ColumnSettings {
                                span_range: 246..250,
                                attributes: [
                                    Attribute {
                                        span_range: 247..249,
                                        key: Ident {
                                            span_range: 247..249,
                                            raw: ""pk"",
                                            to_string: ""pk"",
                                        },
                                        value: None,
                                    },
                                ],
                                is_pk: true,
                                is_unique: false,
                                nullable: None,
                                is_incremental: false,
                                note: None,
                                default: None,
                                refs: [],
                            },
                        ),
                    },
                    TableColumn {
                        span_range: 253..269,
                        name: Ident {
                            span_range: 253..259,
                            raw: ""\""name\"""",
                            to_string: ""name"",
                    " ++
 s "    },
                        type: ColumnType {
                            span_range: 260..266,
                            raw: ""string"",
                            type_name: Raw(
                                ""string"",
                            ),
                            args: [],
                            arrays: [],
                        },
                        settings: None,
                    },
                    TableColumn {
                        span_range: 269..295,
                        name: Ident {
                            span_range: 269..276,
                            raw: ""\""price\"""",
                            to_string: ""price"",
                        },
                        type: ColumnType {
                            span_range: 277..284,
                            raw: ""decimal"",
                            type_name: Raw(
                                ""decimal"",
                            ),
                            args: [],
                            arrays: [],
                        },
                        settings: Some(
                            ColumnSettings {
                                span_range: 285..295,
                                attributes: [
                                    Attribute {
                                        span_range: 286..294,
                                        key: Ident {
                                            span_range: 286..294,
                                            raw: ""not null"",
                                            to_string: ""not null"",
                                        },
                                        value: None,
                                    },
                                ],
                                is_pk: false,
                                is_unique: false,
                                nullable: Some(
                                    NotNull,
                      " ++
 s "          ),
                                is_incremental: false,
                                note: None,
                                default: None,
                                refs: [],
                            },
                        ),
                    },
                ],
                ident: TableIdent {
                    span_range: 167..177,
                    name: Ident {
                        span_range: 167..176,
                        raw: ""\""product\"""",
                        to_string: ""product"",
                    },
                    schema: None,
                    alias: None,
                },
                note: None,
                indexes: None,
                settings: Some(
                    TableSettings {
                        span_range: 177..232,
                        attributes: [
                            Attribute {
                                span_range: 178..198,
                                key: Ident {
                                    span_range: 178..189,
                                    raw: ""headerColor"",
                                    to_string: ""headerColor"",
                                },
                                value: Some(
                                    Literal {
                                        span_range: 191..198,
                                        raw: ""#17DACC"",
                                        value: HexColor(
                                            ""#17DACC"",
                                        ),
                                    },
                                ),
                            },
                            Attribute {
                                span_range: 200..231,
                                key: Ident {
                                    span_range: 200..204,
                                    raw: ""note"",
                                    to_string: ""note"",
           " ++
 s "                     },
                                value: Some(
                                    Literal {
                                        span_range: 206..231,
                                        raw: ""'product must have price'"",
                                        value: String(
                                            ""product must have price"",
                                        ),
                                    },
                                ),
                            },
                        ],
                    },
                ),
            },
        ),
        Table(
            TableBlock {
                span_range: 299..442,
                cols: [
                    TableColumn {
                        span_range: 373..386,
                        name: Ident {
                            span_range: 373..377,
                            raw: ""\""id\"""",
                            to_string: ""id"",
                        },
                        type: ColumnType {
                            span_range: 378..381,
                            raw: ""int"",
                            type_name: Raw(
                                ""int"",
                            ),
                            args: [],
                            arrays: [],
                        },
                        settings: Some(
                            ColumnSettings {
                                span_range: 382..386,
                                attributes: [
                                    Attribute {
                                        span_range: 383..385,
                                        key: Ident {
                                            span_range: 383..385,
                                            raw: ""pk"",
                                            to_string: ""pk"",
                                        },
                                        value: None,
                 " ++
 s "                   },
                                ],
                                is_pk: true,
                                is_unique: false,
                                nullable: None,
                                is_incremental: false,
                                note: None,
                                default: None,
                                refs: [],
                            },
                        ),
                    },
                    TableColumn {
                        span_range: 389..405,
                        name: Ident {
                            span_range: 389..398,
                            raw: ""\""user_id\"""",
                            to_string: ""user_id"",
                        },
                        type: ColumnType {
                            span_range: 399..402,
                            raw: ""int"",
                            type_name: Raw(
                                ""int"",
                            ),
                            args: [],
                            arrays: [],
                        },
                        settings: None,
                    },
                    TableColumn {
                        span_range: 405..424,
                        name: Ident {
                            span_range: 405..417,
                            raw: ""\""product_id\"""",
                            to_string: ""product_id"",
                        },
                        type: ColumnType {
                            span_range: 418..421,
                            raw: ""int"",
                            type_name: Raw(
                                ""int"",
                            ),
                            args: [],
                            arrays: [],
                        },
                        settings: None,
                    },
                    TableColumn {
                        span_range: 424..441,
                        name:" ++
 s " Ident {
                            span_range: 424..433,
                            raw: ""\""address\"""",
                            to_string: ""address"",
                        },
                        type: ColumnType {
                            span_range: 434..440,
                            raw: ""string"",
                            type_name: Raw(
                                ""string"",
                            ),
                            args: [],
                            arrays: [],
                        },
                        settings: None,
                    },
                ],
                ident: TableIdent {
                    span_range: 305..316,
                    name: Ident {
                        span_range: 305..315,
                        raw: ""\""merchant\"""",
                        to_string: ""merchant"",
                    },
                    schema: None,
                    alias: None,
                },
                note: None,
                indexes: None,
                settings: Some(
                    TableSettings {
                        span_range: 316..368,
                        attributes: [
                            Attribute {
                                span_range: 317..337,
                                key: Ident {
                                    span_range: 317..328,
                                    raw: ""headerColor"",
                                    to_string: ""headerColor"",
                                },
                                value: Some(
                                    Literal {
                                        span_range: 330..337,
                                        raw: ""#08DAFF"",
                                        value: HexColor(
                                            ""#08DAFF"",
                                        ),
                                    },
                                ),
                  " ++
 s "          },
                            Attribute {
                                span_range: 339..367,
                                key: Ident {
                                    span_range: 339..343,
                                    raw: ""note"",
                                    to_string: ""note"",
                                },
                                value: Some(
                                    Literal {
                                        span_range: 345..367,
                                        raw: ""'merchants sell a lot'"",
                                        value: String(
                                            ""merchants sell a lot"",
                                        ),
                                    },
                                ),
                            },
                        ],
                    },
                ),
            },
        ),
        Ref(
            RefBlock {
                span_range: 448..484,
                name: None,
                rel: One2Many,
                lhs: RefIdent {
                    span_range: 448..459,
                    schema: None,
                    table: Ident {
                        span_range: 448..454,
                        raw: ""\""user\"""",
                        to_string: ""user"",
                    },
                    compositions: [
                        Ident {
                            span_range: 455..459,
                            raw: ""\""id\"""",
                            to_string: ""id"",
                        },
                    ],
                },
                rhs: RefIdent {
                    span_range: 462..482,
                    schema: None,
                    table: Ident {
                        span_range: 462..472,
                        raw: ""\""merchant\"""",
                        to_string: ""merchant"",
                    },
                    compositions: [
                 " ++
 s "       Ident {
                            span_range: 473..482,
                            raw: ""\""user_id\"""",
                            to_string: ""user_id"",
                        },
                    ],
                },
                settings: None,
            },
        ),
        Ref(
            RefBlock {
                span_range: 488..528,
                name: None,
                rel: One2Many,
                lhs: RefIdent {
                    span_range: 488..502,
                    schema: None,
                    table: Ident {
                        span_range: 488..497,
                        raw: ""\""product\"""",
                        to_string: ""product"",
                    },
                    compositions: [
                        Ident {
                            span_range: 498..502,
                            raw: ""\""id\"""",
                            to_string: ""id"",
                        },
                    ],
                },
                rhs: RefIdent {
                    span_range: 505..528,
                    schema: None,
                    table: Ident {
                        span_range: 505..515,
                        raw: ""\""merchant\"""",
                        to_string: ""merchant"",
                    },
                    compositions: [
                        Ident {
                            span_range: 516..528,
                            raw: ""\""product_id\"""",
                            to_string: ""product_id"",
                        },
                    ],
                },
                settings: None,
            },
        ),
    ],
}") = true.
Proof. vm_compute. reflexivity. Qed.

(** tests/dbml/mysql_importer/general_schema.out.dbml *)
Example golden_mysql_importer_general_schema : prints
(s "Enum ""orders_status_enum"" {
  ""created""
  ""running""
  ""done""
  ""failure""
}

Enum ""products_status_enum"" {
  ""Out of Stock""
  ""In Stock""
}

Table ""orders"" {
  ""id"" int [pk, increment]
  ""user_id"" int [unique, not null]
  ""status"" orders_status_enum
  ""created_at"" varchar(255)
}

Table ""order_items"" {
  ""order_id"" int
  ""product_id"" int
  ""quantity"" int [default: 1]
}

Table ""products"" {
  ""id"" int
  ""name"" varchar(255)
  ""merchant_id"" int [not null]
  ""price"" int [note: 'Products price field']
  ""status"" products_status_enum
  ""created_at"" datetime [default: `now()`]

Indexes {
  (id, price) [pk]
  (merchant_id, status) [name: ""product_status""]
  id [type: hash, unique, name: ""products_index_1""]
}
  Note: 'Notes about products table'
}

Table ""users"" {
  ""id"" int [pk]
  ""full_name"" varchar(255)
  ""email"" varchar(255) [unique]
  ""gender"" varchar(255)
  ""date_of_birth"" varchar(255)
  ""created_at"" varchar(255)
  ""country_code"" int
  Note: 'User basic information'
}

Table ""merchants"" {
  ""id"" int [pk]
  ""merchant_name"" varchar(255)
  ""country_code"" int
  ""created_at"" varchar(255)
  ""admin_id"" int
}

Table ""countries"" {
  ""code"" int [pk]
  ""name"" varchar(255)
  ""continent_name"" varchar(255)
}

Table ""composite_service_item"" {
  ""composite_service_item_id"" int(11) [pk, not null]
  ""service_id"" int(11) [not null]
  ""ticket_item_id"" int(11) [not null]
  ""discount"" decimal(10,0) [not null]
  ""original_price"" decimal(10,0) [not null]
  ""patient_price"" decimal(10,0) [not null]
  ""insurance_price"" decimal(10,0) [not null]

Indexes {
  ticket_item_id [name: ""ticket_item_id""]
  service_id [name: ""service_id""]
  (service_id, ticket_item_id) [type: hash, name: ""service_id, ticket_item_id""]
  composite_service_item_id [type: btree, name: ""composite_service_item_id""]
  (service_id, patient_price) [type: hash, name: ""test test test key""]
}
}

Table ""Countries"" {
  ""Id"" int [pk, not null]
  ""Name"" varchar(32) [not null]
}

Table ""States"" {
  ""Id"" int [not null]
  ""CountryId"" int [not n" ++
 s "ull]
  ""Name"" varchar(32) [not null]

Indexes {
  CountryId [name: ""IX_States_CountryId""]
  (Id, CountryId) [pk]
}
}

Table ""Cities"" {
  ""Id"" int [not null]
  ""CountryId"" int [not null]
  ""StateId"" int [not null]
  ""Name"" varchar(32) [not null]

Indexes {
  CountryId [name: ""IX_Cities_CountryId""]
  (StateId, CountryId) [name: ""IX_Cities_StateId_CountryId""]
  (Id, StateId, CountryId) [pk]
}
}

Ref ""FK_States_Countries_CountryId"":""Countries"".""Id"" < ""States"".""CountryId"" [delete: cascade]

Ref ""FK_Cities_Countries_CountryId"":""Countries"".""Id"" < ""Cities"".""CountryId"" [delete: cascade]

Ref ""FK_Cities_States_StateId_CountryId"":""States"".(""Id"", ""CountryId"") < ""Cities"".(""StateId"", ""CountryId"") [delete: cascade]

Ref:""orders"".""id"" < ""order_items"".""order_id""

Ref:""products"".""id"" < ""order_items"".""product_id""

Ref:""countries"".""code"" < ""users"".""country_code""

Ref:""countries"".""code"" < ""merchants"".""country_code""

Ref:""merchants"".""id"" < ""products"".""merchant_id""

Ref:""users"".""id"" < ""merchants"".""admin_id""")
(s "SchemaBlock {
    span_range: 0..2999,
    input: ""Enum \""orders_status_enum\"" {\n  \""created\""\n  \""running\""\n  \""done\""\n  \""failure\""\n}\n\nEnum \""products_status_enum\"" {\n  \""Out of Stock\""\n  \""In Stock\""\n}\n\nTable \""orders\"" {\n  \""id\"" int [pk, increment]\n  \""user_id\"" int [unique, not null]\n  \""status\"" orders_status_enum\n  \""created_at\"" varchar(255)\n}\n\nTable \""order_items\"" {\n  \""order_id\"" int\n  \""product_id\"" int\n  \""quantity\"" int [default: 1]\n}\n\nTable \""products\"" {\n  \""id\"" int\n  \""name\"" varchar(255)\n  \""merchant_id\"" int [not null]\n  \""price\"" int [note: 'Products price field']\n  \""status\"" products_status_enum\n  \""created_at\"" datetime [default: `now()`]\n\nIndexes {\n  (id, price) [pk]\n  (merchant_id, status) [name: \""product_status\""]\n  id [type: hash, unique, name: \""products_index_1\""]\n}\n  Note: 'Notes about products table'\n}\n\nTable \""users\"" {\n  \""id\"" int [pk]\n  \""full_name\"" varchar(255)\n  \""email\"" varchar(255) [unique]\n  \""gender\"" varchar(255)\n  \""date_of_birth\"" varchar(255)\n  \""created_at\"" varchar(255)\n  \""country_code\"" int\n  Note: 'User basic information'\n}\n\nTable \""merchants\"" {\n  \""id\"" int [pk]\n  \""merchant_name\"" varchar(255)\n  \""country_code\"" int\n  \""created_at\"" varchar(255)\n  \""admin_id\"" int\n}\n\nTable \""countries\"" {\n  \""code\"" int [pk]\n  \""name\"" varchar(255)\n  \""continent_name\"" varchar(255)\n}\n\nTable \""composite_service_item\"" {\n  \""composite_service_item_id\"" int(11) [pk, not null]\n  \""service_id\"" int(11) [not null]\n  \""ticket_item_id\"" int(11) [not null]\n  \""discount\"" decimal(10,0) [not null]\n  \""original_price\"" decimal(10,0) [not null]\n  \""patient_price\"" decimal(10,0) [not null]\n  \""insurance_price\"" decimal(10,0) [not null]\n\nIndexes {\n  ticket_item_id [name: \""ticket_item_id\""]\n  service_id [name: \""service_id\""]\n  (service_id, ticket_item_id) [type: hash, name: \""service_id, ticket_item_id\""]\n  composite_service_item_id [type: btree, name: \""composi" ++
 s "te_service_item_id\""]\n  (service_id, patient_price) [type: hash, name: \""test test test key\""]\n}\n}\n\nTable \""Countries\"" {\n  \""Id\"" int [pk, not null]\n  \""Name\"" varchar(32) [not null]\n}\n\nTable \""States\"" {\n  \""Id\"" int [not null]\n  \""CountryId\"" int [not null]\n  \""Name\"" varchar(32) [not null]\n\nIndexes {\n  CountryId [name: \""IX_States_CountryId\""]\n  (Id, CountryId) [pk]\n}\n}\n\nTable \""Cities\"" {\n  \""Id\"" int [not null]\n  \""CountryId\"" int [not null]\n  \""StateId\"" int [not null]\n  \""Name\"" varchar(32) [not null]\n\nIndexes {\n  CountryId [name: \""IX_Cities_CountryId\""]\n  (StateId, CountryId) [name: \""IX_Cities_StateId_CountryId\""]\n  (Id, StateId, CountryId) [pk]\n}\n}\n\nRef \""FK_States_Countries_CountryId\"":\""Countries\"".\""Id\"" < \""States\"".\""CountryId\"" [delete: cascade]\n\nRef \""FK_Cities_Countries_CountryId\"":\""Countries\"".\""Id\"" < \""Cities\"".\""CountryId\"" [delete: cascade]\n\nRef \""FK_Cities_States_StateId_CountryId\"":\""States\"".(\""Id\"", \""CountryId\"") < \""Cities\"".(\""StateId\"", \""CountryId\"") [delete: cascade]\n\nRef:\""orders\"".\""id\"" < \""order_items\"".\""order_id\""\n\nRef:\""products\"".\""id\"" < \""order_items\"".\""product_id\""\n\nRef:\""countries\"".\""code\"" < \""users\"".\""country_code\""\n\nRef:\""countries\"".\""code\"" < \""merchants\"".\""country_code\""\n\nRef:\""merchants\"".\""id\"" < \""products\"".\""merchant_id\""\n\nRef:\""users\"".\""id\"" < \""merchants\"".\""admin_id\"""",
    blocks: [
        Enum(
            EnumBlock {
                span_range: 0..74,
                ident: EnumIdent {
                    span_range: 5..26,
                    schema: None,
                    name: Ident {
                        span_range: 5..25,
                        raw: ""\""orders_status_enum\"""",
                        to_string: ""orders_status_enum"",
                    },
                },
                values: [
                    EnumValue {
                        span_range: 30..42,
                        value: Ident {
                         " ++
 s "   span_range: 30..39,
                            raw: ""\""created\"""",
                            to_string: ""created"",
                        },
                        settings: None,
                    },
                    EnumValue {
                        span_range: 42..54,
                        value: Ident {
                            span_range: 42..51,
                            raw: ""\""running\"""",
                            to_string: ""running"",
                        },
                        settings: None,
                    },
                    EnumValue {
                        span_range: 54..63,
                        value: Ident {
                            span_range: 54..60,
                            raw: ""\""done\"""",
                            to_string: ""done"",
                        },
                        settings: None,
                    },
                    EnumValue {
                        span_range: 63..73,
                        value: Ident {
                            span_range: 63..72,
                            raw: ""\""failure\"""",
                            to_string: ""failure"",
                        },
                        settings: None,
                    },
                ],
            },
        ),
        Enum(
            EnumBlock {
                span_range: 76..137,
                ident: EnumIdent {
                    span_range: 81..104,
                    schema: None,
                    name: Ident {
                        span_range: 81..103,
                        raw: ""\""products_status_enum\"""",
                        to_string: ""products_status_enum"",
                    },
                },
                values: [
                    EnumValue {
                        span_range: 108..125,
                        value: Ident {
                            span_range: 108..122,
                            raw: ""\""Out of Stock\"""",
                            t" ++
 s "o_string: ""Out of Stock"",
                        },
                        settings: None,
                    },
                    EnumValue {
                        span_range: 125..136,
                        value: Ident {
                            span_range: 125..135,
                            raw: ""\""In Stock\"""",
                            to_string: ""In Stock"",
                        },
                        settings: None,
                    },
                ],
            },
        ),
        Table(
            TableBlock {
                span_range: 139..277,
                cols: [
                    TableColumn {
                        span_range: 158..182,
                        name: Ident {
                            span_range: 158..162,
                            raw: ""\""id\"""",
                            to_string: ""id"",
                        },
                        type: ColumnType {
                            span_range: 163..166,
                            raw: ""int"",
                            type_name: Raw(
                                ""int"",
                            ),
                            args: [],
                            arrays: [],
                        },
                        settings: Some(
                            ColumnSettings {
                                span_range: 167..182,
                                attributes: [
                                    Attribute {
                                        span_range: 168..170,
                                        key: Ident {
                                            span_range: 168..170,
                                            raw: ""pk"",
                                            to_string: ""pk"",
                                        },
                                        value: None,
                                    },
                                    Attribute {
                                " ++
 s "        span_range: 172..181,
                                        key: Ident {
                                            span_range: 172..181,
                                            raw: ""increment"",
                                            to_string: ""increment"",
                                        },
                                        value: None,
                                    },
                                ],
                                is_pk: true,
                                is_unique: false,
                                nullable: None,
                                is_incremental: true,
                                note: None,
                                default: None,
                                refs: [],
                            },
                        ),
                    },
                    TableColumn {
                        span_range: 185..217,
                        name: Ident {
                            span_range: 185..194,
                            raw: ""\""user_id\"""",
                            to_string: ""user_id"",
                        },
                        type: ColumnType {
                            span_range: 195..198,
                            raw: ""int"",
                            type_name: Raw(
                                ""int"",
                            ),
                            args: [],
                            arrays: [],
                        },
                        settings: Some(
                            ColumnSettings {
                                span_range: 199..217,
                                attributes: [
                                    Attribute {
                                        span_range: 200..206,
                                        key: Ident {
                                            span_range: 200..206,
                                            raw: ""unique"",
                      " ++
 s "                      to_string: ""unique"",
                                        },
                                        value: None,
                                    },
                                    Attribute {
                                        span_range: 208..216,
                                        key: Ident {
                                            span_range: 208..216,
                                            raw: ""not null"",
                                            to_string: ""not null"",
                                        },
                                        value: None,
                                    },
                                ],
                                is_pk: false,
                                is_unique: true,
                                nullable: Some(
                                    NotNull,
                                ),
                                is_incremental: false,
                                note: None,
                                default: None,
                                refs: [],
                            },
                        ),
                    },
                    TableColumn {
                        span_range: 220..250,
                        name: Ident {
                            span_range: 220..228,
                            raw: ""\""status\"""",
                            to_string: ""status"",
                        },
                        type: ColumnType {
                            span_range: 229..247,
                            raw: ""orders_status_enum"",
                            type_name: Raw(
                                ""orders_status_enum"",
                            ),
                            args: [],
                            arrays: [],
                        },
                        settings: None,
                    },
                    TableColumn {
                        span_rang" ++
 s "e: 250..276,
                        name: Ident {
                            span_range: 250..262,
                            raw: ""\""created_at\"""",
                            to_string: ""created_at"",
                        },
                        type: ColumnType {
                            span_range: 263..275,
                            raw: ""varchar(255)"",
                            type_name: Raw(
                                ""varchar"",
                            ),
                            args: [
                                Integer(
                                    255,
                                ),
                            ],
                            arrays: [],
                        },
                        settings: None,
                    },
                ],
                ident: TableIdent {
                    span_range: 145..154,
                    name: Ident {
                        span_range: 145..153,
                        raw: ""\""orders\"""",
                        to_string: ""orders"",
                    },
                    schema: None,
                    alias: None,
                },
                note: None,
                indexes: None,
                settings: None,
            },
        ),
        Table(
            TableBlock {
                span_range: 279..368,
                cols: [
                    TableColumn {
                        span_range: 303..320,
                        name: Ident {
                            span_range: 303..313,
                            raw: ""\""order_id\"""",
                            to_string: ""order_id"",
                        },
                        type: ColumnType {
                            span_range: 314..317,
                            raw: ""int"",
                            type_name: Raw(
                                ""int"",
                            ),
                            args: [],
                     " ++
 s "       arrays: [],
                        },
                        settings: None,
                    },
                    TableColumn {
                        span_range: 320..339,
                        name: Ident {
                            span_range: 320..332,
                            raw: ""\""product_id\"""",
                            to_string: ""product_id"",
                        },
                        type: ColumnType {
                            span_range: 333..336,
                            raw: ""int"",
                            type_name: Raw(
                                ""int"",
                            ),
                            args: [],
                            arrays: [],
                        },
                        settings: None,
                    },
                    TableColumn {
                        span_range: 339..366,
                        name: Ident {
                            span_range: 339..349,
                            raw: ""\""quantity\"""",
                            to_string: ""quantity"",
                        },
                        type: ColumnType {
                            span_range: 350..353,
                            raw: ""int"",
                            type_name: Raw(
                                ""int"",
                            ),
                            args: [],
                            arrays: [],
                        },
                        settings: Some(
                            ColumnSettings {
                                span_range: 354..366,
                                attributes: [
                                    Attribute {
                                        span_range: 355..365,
                                        key: Ident {
                                            span_range: 355..362,
                                            raw: ""default"",
                                            to_string: """ ++
 s "default"",
                                        },
                                        value: Some(
                                            Literal {
                                                span_range: 364..365,
                                                raw: ""1"",
                                                value: Integer(
                                                    1,
                                                ),
                                            },
                                        ),
                                    },
                                ],
                                is_pk: false,
                                is_unique: false,
                                nullable: None,
                                is_incremental: false,
                                note: None,
                                default: Some(
                                    Integer(
                                        1,
                                    ),
                                ),
                                refs: [],
                            },
                        ),
                    },
                ],
                ident: TableIdent {
                    span_range: 285..299,
                    name: Ident {
                        span_range: 285..298,
                        raw: ""\""order_items\"""",
                        to_string: ""order_items"",
                    },
                    schema: None,
                    alias: None,
                },
                note: None,
                indexes: None,
                settings: None,
            },
        ),
        Table(
            TableBlock {
                span_range: 370..744,
                cols: [
                    TableColumn {
                        span_range: 391..402,
                        name: Ident {
                            span_range: 391..395,
                            raw:" ++
 s " ""\""id\"""",
                            to_string: ""id"",
                        },
                        type: ColumnType {
                            span_range: 396..399,
                            raw: ""int"",
                            type_name: Raw(
                                ""int"",
                            ),
                            args: [],
                            arrays: [],
                        },
                        settings: None,
                    },
                    TableColumn {
                        span_range: 402..424,
                        name: Ident {
                            span_range: 402..408,
                            raw: ""\""name\"""",
                            to_string: ""name"",
                        },
                        type: ColumnType {
                            span_range: 409..421,
                            raw: ""varchar(255)"",
                            type_name: Raw(
                                ""varchar"",
                            ),
                            args: [
                                Integer(
                                    255,
                                ),
                            ],
                            arrays: [],
                        },
                        settings: None,
                    },
                    TableColumn {
                        span_range: 424..452,
                        name: Ident {
                            span_range: 424..437,
                            raw: ""\""merchant_id\"""",
                            to_string: ""merchant_id"",
                        },
                        type: ColumnType {
                            span_range: 438..441,
                            raw: ""int"",
                            type_name: Raw(
                                ""int"",
                            ),
                            args: [],
                            arrays: [],
               " ++
 s "         },
                        settings: Some(
                            ColumnSettings {
                                span_range: 442..452,
                                attributes: [
                                    Attribute {
                                        span_range: 443..451,
                                        key: Ident {
                                            span_range: 443..451,
                                            raw: ""not null"",
                                            to_string: ""not null"",
                                        },
                                        value: None,
                                    },
                                ],
                                is_pk: false,
                                is_unique: false,
                                nullable: Some(
                                    NotNull,
                                ),
                                is_incremental: false,
                                note: None,
                                default: None,
                                refs: [],
                            },
                        ),
                    },
                    TableColumn {
                        span_range: 455..497,
                        name: Ident {
                            span_range: 455..462,
                            raw: ""\""price\"""",
                            to_string: ""price"",
                        },
                        type: ColumnType {
                            span_range: 463..466,
                            raw: ""int"",
                            type_name: Raw(
                                ""int"",
                            ),
                            args: [],
                            arrays: [],
                        },
                        settings: Some(
                            ColumnSettings {
                                span_range: 467..497,
   " ++
 s "                             attributes: [
                                    Attribute {
                                        span_range: 468..496,
                                        key: Ident {
                                            span_range: 468..472,
                                            raw: ""note"",
                                            to_string: ""note"",
                                        },
                                        value: Some(
                                            Literal {
                                                span_range: 474..496,
                                                raw: ""'Products price field'"",
                                                value: String(
                                                    ""Products price field"",
                                                ),
                                            },
                                        ),
                                    },
                                ],
                                is_pk: false,
                                is_unique: false,
                                nullable: None,
                                is_incremental: false,
                                note: Some(
                                    ""Products price field"",
                                ),
                                default: None,
                                refs: [],
                            },
                        ),
                    },
                    TableColumn {
                        span_range: 500..532,
                        name: Ident {
                            span_range: 500..508,
                            raw: ""\""status\"""",
                            to_string: ""status"",
                        },
                        type: ColumnType {
                            span_range: 509..529,
                            raw: ""products_status_enum"",
      " ++
 s "                      type_name: Raw(
                                ""products_status_enum"",
                            ),
                            args: [],
                            arrays: [],
                        },
                        settings: None,
                    },
                    TableColumn {
                        span_range: 532..572,
                        name: Ident {
                            span_range: 532..544,
                            raw: ""\""created_at\"""",
                            to_string: ""created_at"",
                        },
                        type: ColumnType {
                            span_range: 545..553,
                            raw: ""datetime"",
                            type_name: Raw(
                                ""datetime"",
                            ),
                            args: [],
                            arrays: [],
                        },
                        settings: Some(
                            ColumnSettings {
                                span_range: 554..572,
                                attributes: [
                                    Attribute {
                                        span_range: 555..571,
                                        key: Ident {
                                            span_range: 555..562,
                                            raw: ""default"",
                                            to_string: ""default"",
                                        },
                                        value: Some(
                                            Literal {
                                                span_range: 564..571,
                                                raw: ""`now()`"",
                                                value: Expr(
                                                    ""now()"",
                                                ),
                                            },
  " ++
 s "                                      ),
                                    },
                                ],
                                is_pk: false,
                                is_unique: false,
                                nullable: None,
                                is_incremental: false,
                                note: None,
                                default: Some(
                                    Expr(
                                        ""now()"",
                                    ),
                                ),
                                refs: [],
                            },
                        ),
                    },
                ],
                ident: TableIdent {
                    span_range: 376..387,
                    name: Ident {
                        span_range: 376..386,
                        raw: ""\""products\"""",
                        to_string: ""products"",
                    },
                    schema: None,
                    alias: None,
                },
                note: Some(
                    NoteBlock {
                        span_range: 708..742,
                        value: Literal {
                            span_range: 714..742,
                            raw: ""'Notes about products table'"",
                            value: String(
                                ""Notes about products table"",
                            ),
                        },
                    },
                ),
                indexes: Some(
                    IndexesBlock {
                        span_range: 582..705,
                        defs: [
                            IndexesDef {
                                span_range: 586..602,
                                cols: [
                                    String(
                                        Ident {
                                            span_range: 587..589,
                         " ++
 s "                   raw: ""id"",
                                            to_string: ""id"",
                                        },
                                    ),
                                    String(
                                        Ident {
                                            span_range: 591..596,
                                            raw: ""price"",
                                            to_string: ""price"",
                                        },
                                    ),
                                ],
                                settings: Some(
                                    IndexesSettings {
                                        span_range: 598..602,
                                        attributes: [
                                            Attribute {
                                                span_range: 599..601,
                                                key: Ident {
                                                    span_range: 599..601,
                                                    raw: ""pk"",
                                                    to_string: ""pk"",
                                                },
                                                value: None,
                                            },
                                        ],
                                        type: None,
                                        is_unique: false,
                                        is_pk: true,
                                        note: None,
                                        name: None,
                                    },
                                ),
                            },
                            IndexesDef {
                                span_range: 605..651,
                                cols: [
                                    String(
                                        Ident {
                  " ++
 s "                          span_range: 606..617,
                                            raw: ""merchant_id"",
                                            to_string: ""merchant_id"",
                                        },
                                    ),
                                    String(
                                        Ident {
                                            span_range: 619..625,
                                            raw: ""status"",
                                            to_string: ""status"",
                                        },
                                    ),
                                ],
                                settings: Some(
                                    IndexesSettings {
                                        span_range: 627..651,
                                        attributes: [
                                            Attribute {
                                                span_range: 628..650,
                                                key: Ident {
                                                    span_range: 628..632,
                                                    raw: ""name"",
                                                    to_string: ""name"",
                                                },
                                                value: Some(
                                                    Literal {
                                                        span_range: 634..650,
                                                        raw: ""\""product_status\"""",
                                                        value: String(
                                                            ""product_status"",
                                                        ),
                                                    },
                                                ),
                                            },
                          " ++
 s "              ],
                                        type: None,
                                        is_unique: false,
                                        is_pk: false,
                                        note: None,
                                        name: Some(
                                            ""product_status"",
                                        ),
                                    },
                                ),
                            },
                            IndexesDef {
                                span_range: 654..703,
                                cols: [
                                    String(
                                        Ident {
                                            span_range: 654..656,
                                            raw: ""id"",
                                            to_string: ""id"",
                                        },
                                    ),
                                ],
                                settings: Some(
                                    IndexesSettings {
                                        span_range: 657..703,
                                        attributes: [
                                            Attribute {
                                                span_range: 658..668,
                                                key: Ident {
                                                    span_range: 658..662,
                                                    raw: ""type"",
                                                    to_string: ""type"",
                                                },
                                                value: Some(
                                                    Literal {
                                                        span_range: 664..668,
                                                        raw: ""hash"",
                                           " ++
 s "             value: Enum(
                                                            ""hash"",
                                                        ),
                                                    },
                                                ),
                                            },
                                            Attribute {
                                                span_range: 670..676,
                                                key: Ident {
                                                    span_range: 670..676,
                                                    raw: ""unique"",
                                                    to_string: ""unique"",
                                                },
                                                value: None,
                                            },
                                            Attribute {
                                                span_range: 678..702,
                                                key: Ident {
                                                    span_range: 678..682,
                                                    raw: ""name"",
                                                    to_string: ""name"",
                                                },
                                                value: Some(
                                                    Literal {
                                                        span_range: 684..702,
                                                        raw: ""\""products_index_1\"""",
                                                        value: String(
                                                            ""products_index_1"",
                                                        ),
                                                    },
                                                ),
                                            },
                                     " ++
 s "   ],
                                        type: Some(
                                            Hash,
                                        ),
                                        is_unique: true,
                                        is_pk: false,
                                        note: None,
                                        name: Some(
                                            ""products_index_1"",
                                        ),
                                    },
                                ),
                            },
                        ],
                    },
                ),
                settings: None,
            },
        ),
        Table(
            TableBlock {
                span_range: 746..975,
                cols: [
                    TableColumn {
                        span_range: 764..777,
                        name: Ident {
                            span_range: 764..768,
                            raw: ""\""id\"""",
                            to_string: ""id"",
                        },
                        type: ColumnType {
                            span_range: 769..772,
                            raw: ""int"",
                            type_name: Raw(
                                ""int"",
                            ),
                            args: [],
                            arrays: [],
                        },
                        settings: Some(
                            ColumnSettings {
                                span_range: 773..777,
                                attributes: [
                                    Attribute {
                                        span_range: 774..776,
                                        key: Ident {
                                            span_range: 774..776,
                                            raw: ""pk"",
                                            to_string: ""pk"",
                            " ++
 s "            },
                                        value: None,
                                    },
                                ],
                                is_pk: true,
                                is_unique: false,
                                nullable: None,
                                is_incremental: false,
                                note: None,
                                default: None,
                                refs: [],
                            },
                        ),
                    },
                    TableColumn {
                        span_range: 780..807,
                        name: Ident {
                            span_range: 780..791,
                            raw: ""\""full_name\"""",
                            to_string: ""full_name"",
                        },
                        type: ColumnType {
                            span_range: 792..804,
                            raw: ""varchar(255)"",
                            type_name: Raw(
                                ""varchar"",
                            ),
                            args: [
                                Integer(
                                    255,
                                ),
                            ],
                            arrays: [],
                        },
                        settings: None,
                    },
                    TableColumn {
                        span_range: 807..836,
                        name: Ident {
                            span_range: 807..814,
                            raw: ""\""email\"""",
                            to_string: ""email"",
                        },
                        type: ColumnType {
                            span_range: 815..827,
                            raw: ""varchar(255)"",
                            type_name: Raw(
                                ""varchar"",
                            ),
                          " ++
 s "  args: [
                                Integer(
                                    255,
                                ),
                            ],
                            arrays: [],
                        },
                        settings: Some(
                            ColumnSettings {
                                span_range: 828..836,
                                attributes: [
                                    Attribute {
                                        span_range: 829..835,
                                        key: Ident {
                                            span_range: 829..835,
                                            raw: ""unique"",
                                            to_string: ""unique"",
                                        },
                                        value: None,
                                    },
                                ],
                                is_pk: false,
                                is_unique: true,
                                nullable: None,
                                is_incremental: false,
                                note: None,
                                default: None,
                                refs: [],
                            },
                        ),
                    },
                    TableColumn {
                        span_range: 839..863,
                        name: Ident {
                            span_range: 839..847,
                            raw: ""\""gender\"""",
                            to_string: ""gender"",
                        },
                        type: ColumnType {
                            span_range: 848..860,
                            raw: ""varchar(255)"",
                            type_name: Raw(
                                ""varchar"",
                            ),
                            args: [
                                Integer(
                           " ++
 s "         255,
                                ),
                            ],
                            arrays: [],
                        },
                        settings: None,
                    },
                    TableColumn {
                        span_range: 863..894,
                        name: Ident {
                            span_range: 863..878,
                            raw: ""\""date_of_birth\"""",
                            to_string: ""date_of_birth"",
                        },
                        type: ColumnType {
                            span_range: 879..891,
                            raw: ""varchar(255)"",
                            type_name: Raw(
                                ""varchar"",
                            ),
                            args: [
                                Integer(
                                    255,
                                ),
                            ],
                            arrays: [],
                        },
                        settings: None,
                    },
                    TableColumn {
                        span_range: 894..922,
                        name: Ident {
                            span_range: 894..906,
                            raw: ""\""created_at\"""",
                            to_string: ""created_at"",
                        },
                        type: ColumnType {
                            span_range: 907..919,
                            raw: ""varchar(255)"",
                            type_name: Raw(
                                ""varchar"",
                            ),
                            args: [
                                Integer(
                                    255,
                                ),
                            ],
                            arrays: [],
                        },
                        settings: None,
                    },
                    TableColumn {
    " ++
 s "                    span_range: 922..943,
                        name: Ident {
                            span_range: 922..936,
                            raw: ""\""country_code\"""",
                            to_string: ""country_code"",
                        },
                        type: ColumnType {
                            span_range: 937..940,
                            raw: ""int"",
                            type_name: Raw(
                                ""int"",
                            ),
                            args: [],
                            arrays: [],
                        },
                        settings: None,
                    },
                ],
                ident: TableIdent {
                    span_range: 752..760,
                    name: Ident {
                        span_range: 752..759,
                        raw: ""\""users\"""",
                        to_string: ""users"",
                    },
                    schema: None,
                    alias: None,
                },
                note: Some(
                    NoteBlock {
                        span_range: 943..973,
                        value: Literal {
                            span_range: 949..973,
                            raw: ""'User basic information'"",
                            value: String(
                                ""User basic information"",
                            ),
                        },
                    },
                ),
                indexes: None,
                settings: None,
            },
        ),
        Table(
            TableBlock {
                span_range: 977..1111,
                cols: [
                    TableColumn {
                        span_range: 999..1012,
                        name: Ident {
                            span_range: 999..1003,
                            raw: ""\""id\"""",
                            to_string: ""id"",
                        },
            " ++
 s "            type: ColumnType {
                            span_range: 1004..1007,
                            raw: ""int"",
                            type_name: Raw(
                                ""int"",
                            ),
                            args: [],
                            arrays: [],
                        },
                        settings: Some(
                            ColumnSettings {
                                span_range: 1008..1012,
                                attributes: [
                                    Attribute {
                                        span_range: 1009..1011,
                                        key: Ident {
                                            span_range: 1009..1011,
                                            raw: ""pk"",
                                            to_string: ""pk"",
                                        },
                                        value: None,
                                    },
                                ],
                                is_pk: true,
                                is_unique: false,
                                nullable: None,
                                is_incremental: false,
                                note: None,
                                default: None,
                                refs: [],
                            },
                        ),
                    },
                    TableColumn {
                        span_range: 1015..1046,
                        name: Ident {
                            span_range: 1015..1030,
                            raw: ""\""merchant_name\"""",
                            to_string: ""merchant_name"",
                        },
                        type: ColumnType {
                            span_range: 1031..1043,
                            raw: ""varchar(255)"",
                            type_name: Raw(
                                ""varchar"",
" ++
 s "                            ),
                            args: [
                                Integer(
                                    255,
                                ),
                            ],
                            arrays: [],
                        },
                        settings: None,
                    },
                    TableColumn {
                        span_range: 1046..1067,
                        name: Ident {
                            span_range: 1046..1060,
                            raw: ""\""country_code\"""",
                            to_string: ""country_code"",
                        },
                        type: ColumnType {
                            span_range: 1061..1064,
                            raw: ""int"",
                            type_name: Raw(
                                ""int"",
                            ),
                            args: [],
                            arrays: [],
                        },
                        settings: None,
                    },
                    TableColumn {
                        span_range: 1067..1095,
                        name: Ident {
                            span_range: 1067..1079,
                            raw: ""\""created_at\"""",
                            to_string: ""created_at"",
                        },
                        type: ColumnType {
                            span_range: 1080..1092,
                            raw: ""varchar(255)"",
                            type_name: Raw(
                                ""varchar"",
                            ),
                            args: [
                                Integer(
                                    255,
                                ),
                            ],
                            arrays: [],
                        },
                        settings: None,
                    },
                    TableColumn {
                  " ++
 s "      span_range: 1095..1110,
                        name: Ident {
                            span_range: 1095..1105,
                            raw: ""\""admin_id\"""",
                            to_string: ""admin_id"",
                        },
                        type: ColumnType {
                            span_range: 1106..1109,
                            raw: ""int"",
                            type_name: Raw(
                                ""int"",
                            ),
                            args: [],
                            arrays: [],
                        },
                        settings: None,
                    },
                ],
                ident: TableIdent {
                    span_range: 983..995,
                    name: Ident {
                        span_range: 983..994,
                        raw: ""\""merchants\"""",
                        to_string: ""merchants"",
                    },
                    schema: None,
                    alias: None,
                },
                note: None,
                indexes: None,
                settings: None,
            },
        ),
        Table(
            TableBlock {
                span_range: 1113..1206,
                cols: [
                    TableColumn {
                        span_range: 1135..1150,
                        name: Ident {
                            span_range: 1135..1141,
                            raw: ""\""code\"""",
                            to_string: ""code"",
                        },
                        type: ColumnType {
                            span_range: 1142..1145,
                            raw: ""int"",
                            type_name: Raw(
                                ""int"",
                            ),
                            args: [],
                            arrays: [],
                        },
                        settings: Some(
                            ColumnSettings {
     " ++
 s "                           span_range: 1146..1150,
                                attributes: [
                                    Attribute {
                                        span_range: 1147..1149,
                                        key: Ident {
                                            span_range: 1147..1149,
                                            raw: ""pk"",
                                            to_string: ""pk"",
                                        },
                                        value: None,
                                    },
                                ],
                                is_pk: true,
                                is_unique: false,
                                nullable: None,
                                is_incremental: false,
                                note: None,
                                default: None,
                                refs: [],
                            },
                        ),
                    },
                    TableColumn {
                        span_range: 1153..1175,
                        name: Ident {
                            span_range: 1153..1159,
                            raw: ""\""name\"""",
                            to_string: ""name"",
                        },
                        type: ColumnType {
                            span_range: 1160..1172,
                            raw: ""varchar(255)"",
                            type_name: Raw(
                                ""varchar"",
                            ),
                            args: [
                                Integer(
                                    255,
                                ),
                            ],
                            arrays: [],
                        },
                        settings: None,
                    },
                    TableColumn {
                        span_range: 1175..1205,
                       " ++
 s " name: Ident {
                            span_range: 1175..1191,
                            raw: ""\""continent_name\"""",
                            to_string: ""continent_name"",
                        },
                        type: ColumnType {
                            span_range: 1192..1204,
                            raw: ""varchar(255)"",
                            type_name: Raw(
                                ""varchar"",
                            ),
                            args: [
                                Integer(
                                    255,
                                ),
                            ],
                            arrays: [],
                        },
                        settings: None,
                    },
                ],
                ident: TableIdent {
                    span_range: 1119..1131,
                    name: Ident {
                        span_range: 1119..1130,
                        raw: ""\""countries\"""",
                        to_string: ""countries"",
                    },
                    schema: None,
                    alias: None,
                },
                note: None,
                indexes: None,
                settings: None,
            },
        ),
        Table(
            TableBlock {
                span_range: 1208..1854,
                cols: [
                    TableColumn {
                        span_range: 1243..1293,
                        name: Ident {
                            span_range: 1243..1270,
                            raw: ""\""composite_service_item_id\"""",
                            to_string: ""composite_service_item_id"",
                        },
                        type: ColumnType {
                            span_range: 1271..1278,
                            raw: ""int(11)"",
                            type_name: Raw(
                                ""int"",
                            ),
                           " ++
 s " args: [
                                Integer(
                                    11,
                                ),
                            ],
                            arrays: [],
                        },
                        settings: Some(
                            ColumnSettings {
                                span_range: 1279..1293,
                                attributes: [
                                    Attribute {
                                        span_range: 1280..1282,
                                        key: Ident {
                                            span_range: 1280..1282,
                                            raw: ""pk"",
                                            to_string: ""pk"",
                                        },
                                        value: None,
                                    },
                                    Attribute {
                                        span_range: 1284..1292,
                                        key: Ident {
                                            span_range: 1284..1292,
                                            raw: ""not null"",
                                            to_string: ""not null"",
                                        },
                                        value: None,
                                    },
                                ],
                                is_pk: true,
                                is_unique: false,
                                nullable: Some(
                                    NotNull,
                                ),
                                is_incremental: false,
                                note: None,
                                default: None,
                                refs: [],
                            },
                        ),
                    },
                    TableColumn {
                        span_range: 1296..1327,
 " ++
 s "                       name: Ident {
                            span_range: 1296..1308,
                            raw: ""\""service_id\"""",
                            to_string: ""service_id"",
                        },
                        type: ColumnType {
                            span_range: 1309..1316,
                            raw: ""int(11)"",
                            type_name: Raw(
                                ""int"",
                            ),
                            args: [
                                Integer(
                                    11,
                                ),
                            ],
                            arrays: [],
                        },
                        settings: Some(
                            ColumnSettings {
                                span_range: 1317..1327,
                                attributes: [
                                    Attribute {
                                        span_range: 1318..1326,
                                        key: Ident {
                                            span_range: 1318..1326,
                                            raw: ""not null"",
                                            to_string: ""not null"",
                                        },
                                        value: None,
                                    },
                                ],
                                is_pk: false,
                                is_unique: false,
                                nullable: Some(
                                    NotNull,
                                ),
                                is_incremental: false,
                                note: None,
                                default: None,
                                refs: [],
                            },
                        ),
                    },
                    TableColumn {
                        span_ran" ++
 s "ge: 1330..1365,
                        name: Ident {
                            span_range: 1330..1346,
                            raw: ""\""ticket_item_id\"""",
                            to_string: ""ticket_item_id"",
                        },
                        type: ColumnType {
                            span_range: 1347..1354,
                            raw: ""int(11)"",
                            type_name: Raw(
                                ""int"",
                            ),
                            args: [
                                Integer(
                                    11,
                                ),
                            ],
                            arrays: [],
                        },
                        settings: Some(
                            ColumnSettings {
                                span_range: 1355..1365,
                                attributes: [
                                    Attribute {
                                        span_range: 1356..1364,
                                        key: Ident {
                                            span_range: 1356..1364,
                                            raw: ""not null"",
                                            to_string: ""not null"",
                                        },
                                        value: None,
                                    },
                                ],
                                is_pk: false,
                                is_unique: false,
                                nullable: Some(
                                    NotNull,
                                ),
                                is_incremental: false,
                                note: None,
                                default: None,
                                refs: [],
                            },
                        ),
                    },
                    TableColumn {
       " ++
 s "                 span_range: 1368..1403,
                        name: Ident {
                            span_range: 1368..1378,
                            raw: ""\""discount\"""",
                            to_string: ""discount"",
                        },
                        type: ColumnType {
                            span_range: 1379..1392,
                            raw: ""decimal(10,0)"",
                            type_name: Raw(
                                ""decimal"",
                            ),
                            args: [
                                Integer(
                                    10,
                                ),
                                Integer(
                                    0,
                                ),
                            ],
                            arrays: [],
                        },
                        settings: Some(
                            ColumnSettings {
                                span_range: 1393..1403,
                                attributes: [
                                    Attribute {
                                        span_range: 1394..1402,
                                        key: Ident {
                                            span_range: 1394..1402,
                                            raw: ""not null"",
                                            to_string: ""not null"",
                                        },
                                        value: None,
                                    },
                                ],
                                is_pk: false,
                                is_unique: false,
                                nullable: Some(
                                    NotNull,
                                ),
                                is_incremental: false,
                                note: None,
                                default: None,
                          " ++
 s "      refs: [],
                            },
                        ),
                    },
                    TableColumn {
                        span_range: 1406..1447,
                        name: Ident {
                            span_range: 1406..1422,
                            raw: ""\""original_price\"""",
                            to_string: ""original_price"",
                        },
                        type: ColumnType {
                            span_range: 1423..1436,
                            raw: ""decimal(10,0)"",
                            type_name: Raw(
                                ""decimal"",
                            ),
                            args: [
                                Integer(
                                    10,
                                ),
                                Integer(
                                    0,
                                ),
                            ],
                            arrays: [],
                        },
                        settings: Some(
                            ColumnSettings {
                                span_range: 1437..1447,
                                attributes: [
                                    Attribute {
                                        span_range: 1438..1446,
                                        key: Ident {
                                            span_range: 1438..1446,
                                            raw: ""not null"",
                                            to_string: ""not null"",
                                        },
                                        value: None,
                                    },
                                ],
                                is_pk: false,
                                is_unique: false,
                                nullable: Some(
                                    NotNull,
                                ),
                      " ++
 s "          is_incremental: false,
                                note: None,
                                default: None,
                                refs: [],
                            },
                        ),
                    },
                    TableColumn {
                        span_range: 1450..1490,
                        name: Ident {
                            span_range: 1450..1465,
                            raw: ""\""patient_price\"""",
                            to_string: ""patient_price"",
                        },
                        type: ColumnType {
                            span_range: 1466..1479,
                            raw: ""decimal(10,0)"",
                            type_name: Raw(
                                ""decimal"",
                            ),
                            args: [
                                Integer(
                                    10,
                                ),
                                Integer(
                                    0,
                                ),
                            ],
                            arrays: [],
                        },
                        settings: Some(
                            ColumnSettings {
                                span_range: 1480..1490,
                                attributes: [
                                    Attribute {
                                        span_range: 1481..1489,
                                        key: Ident {
                                            span_range: 1481..1489,
                                            raw: ""not null"",
                                            to_string: ""not null"",
                                        },
                                        value: None,
                                    },
                                ],
                                is_pk: false,
                                is_unique: false,
  " ++
 s "                              nullable: Some(
                                    NotNull,
                                ),
                                is_incremental: false,
                                note: None,
                                default: None,
                                refs: [],
                            },
                        ),
                    },
                    TableColumn {
                        span_range: 1493..1535,
                        name: Ident {
                            span_range: 1493..1510,
                            raw: ""\""insurance_price\"""",
                            to_string: ""insurance_price"",
                        },
                        type: ColumnType {
                            span_range: 1511..1524,
                            raw: ""decimal(10,0)"",
                            type_name: Raw(
                                ""decimal"",
                            ),
                            args: [
                                Integer(
                                    10,
                                ),
                                Integer(
                                    0,
                                ),
                            ],
                            arrays: [],
                        },
                        settings: Some(
                            ColumnSettings {
                                span_range: 1525..1535,
                                attributes: [
                                    Attribute {
                                        span_range: 1526..1534,
                                        key: Ident {
                                            span_range: 1526..1534,
                                            raw: ""not null"",
                                            to_string: ""not null"",
                                        },
                                        value: None,
                    " ++
 s "                },
                                ],
                                is_pk: false,
                                is_unique: false,
                                nullable: Some(
                                    NotNull,
                                ),
                                is_incremental: false,
                                note: None,
                                default: None,
                                refs: [],
                            },
                        ),
                    },
                ],
                ident: TableIdent {
                    span_range: 1214..1239,
                    name: Ident {
                        span_range: 1214..1238,
                        raw: ""\""composite_service_item\"""",
                        to_string: ""composite_service_item"",
                    },
                    schema: None,
                    alias: None,
                },
                note: None,
                indexes: Some(
                    IndexesBlock {
                        span_range: 1545..1852,
                        defs: [
                            IndexesDef {
                                span_range: 1549..1588,
                                cols: [
                                    String(
                                        Ident {
                                            span_range: 1549..1563,
                                            raw: ""ticket_item_id"",
                                            to_string: ""ticket_item_id"",
                                        },
                                    ),
                                ],
                                settings: Some(
                                    IndexesSettings {
                                        span_range: 1564..1588,
                                        attributes: [
                                            Attribute {
                                       " ++
 s "         span_range: 1565..1587,
                                                key: Ident {
                                                    span_range: 1565..1569,
                                                    raw: ""name"",
                                                    to_string: ""name"",
                                                },
                                                value: Some(
                                                    Literal {
                                                        span_range: 1571..1587,
                                                        raw: ""\""ticket_item_id\"""",
                                                        value: String(
                                                            ""ticket_item_id"",
                                                        ),
                                                    },
                                                ),
                                            },
                                        ],
                                        type: None,
                                        is_unique: false,
                                        is_pk: false,
                                        note: None,
                                        name: Some(
                                            ""ticket_item_id"",
                                        ),
                                    },
                                ),
                            },
                            IndexesDef {
                                span_range: 1591..1622,
                                cols: [
                                    String(
                                        Ident {
                                            span_range: 1591..1601,
                                            raw: ""service_id"",
                                            to_string: ""service_id"",
                                        },
   " ++
 s "                                 ),
                                ],
                                settings: Some(
                                    IndexesSettings {
                                        span_range: 1602..1622,
                                        attributes: [
                                            Attribute {
                                                span_range: 1603..1621,
                                                key: Ident {
                                                    span_range: 1603..1607,
                                                    raw: ""name"",
                                                    to_string: ""name"",
                                                },
                                                value: Some(
                                                    Literal {
                                                        span_range: 1609..1621,
                                                        raw: ""\""service_id\"""",
                                                        value: String(
                                                            ""service_id"",
                                                        ),
                                                    },
                                                ),
                                            },
                                        ],
                                        type: None,
                                        is_unique: false,
                                        is_pk: false,
                                        note: None,
                                        name: Some(
                                            ""service_id"",
                                        ),
                                    },
                                ),
                            },
                            IndexesDef {
                                span_range: 1625..1702,
    " ++
 s "                            cols: [
                                    String(
                                        Ident {
                                            span_range: 1626..1636,
                                            raw: ""service_id"",
                                            to_string: ""service_id"",
                                        },
                                    ),
                                    String(
                                        Ident {
                                            span_range: 1638..1652,
                                            raw: ""ticket_item_id"",
                                            to_string: ""ticket_item_id"",
                                        },
                                    ),
                                ],
                                settings: Some(
                                    IndexesSettings {
                                        span_range: 1654..1702,
                                        attributes: [
                                            Attribute {
                                                span_range: 1655..1665,
                                                key: Ident {
                                                    span_range: 1655..1659,
                                                    raw: ""type"",
                                                    to_string: ""type"",
                                                },
                                                value: Some(
                                                    Literal {
                                                        span_range: 1661..1665,
                                                        raw: ""hash"",
                                                        value: Enum(
                                                            ""hash"",
                                                        ),
                                 " ++
 s "                   },
                                                ),
                                            },
                                            Attribute {
                                                span_range: 1667..1701,
                                                key: Ident {
                                                    span_range: 1667..1671,
                                                    raw: ""name"",
                                                    to_string: ""name"",
                                                },
                                                value: Some(
                                                    Literal {
                                                        span_range: 1673..1701,
                                                        raw: ""\""service_id, ticket_item_id\"""",
                                                        value: String(
                                                            ""service_id, ticket_item_id"",
                                                        ),
                                                    },
                                                ),
                                            },
                                        ],
                                        type: Some(
                                            Hash,
                                        ),
                                        is_unique: false,
                                        is_pk: false,
                                        note: None,
                                        name: Some(
                                            ""service_id, ticket_item_id"",
                                        ),
                                    },
                                ),
                            },
                            IndexesDef {
                                span_range: 1705..1779,
                                co" ++
 s "ls: [
                                    String(
                                        Ident {
                                            span_range: 1705..1730,
                                            raw: ""composite_service_item_id"",
                                            to_string: ""composite_service_item_id"",
                                        },
                                    ),
                                ],
                                settings: Some(
                                    IndexesSettings {
                                        span_range: 1731..1779,
                                        attributes: [
                                            Attribute {
                                                span_range: 1732..1743,
                                                key: Ident {
                                                    span_range: 1732..1736,
                                                    raw: ""type"",
                                                    to_string: ""type"",
                                                },
                                                value: Some(
                                                    Literal {
                                                        span_range: 1738..1743,
                                                        raw: ""btree"",
                                                        value: Enum(
                                                            ""btree"",
                                                        ),
                                                    },
                                                ),
                                            },
                                            Attribute {
                                                span_range: 1745..1778,
                                                key: Ident {
                                                    span_range: 1745..1" ++
 s "749,
                                                    raw: ""name"",
                                                    to_string: ""name"",
                                                },
                                                value: Some(
                                                    Literal {
                                                        span_range: 1751..1778,
                                                        raw: ""\""composite_service_item_id\"""",
                                                        value: String(
                                                            ""composite_service_item_id"",
                                                        ),
                                                    },
                                                ),
                                            },
                                        ],
                                        type: Some(
                                            BTree,
                                        ),
                                        is_unique: false,
                                        is_pk: false,
                                        note: None,
                                        name: Some(
                                            ""composite_service_item_id"",
                                        ),
                                    },
                                ),
                            },
                            IndexesDef {
                                span_range: 1782..1850,
                                cols: [
                                    String(
                                        Ident {
                                            span_range: 1783..1793,
                                            raw: ""service_id"",
                                            to_string: ""service_id"",
                                        },
                                    ),
  " ++
 s "                                  String(
                                        Ident {
                                            span_range: 1795..1808,
                                            raw: ""patient_price"",
                                            to_string: ""patient_price"",
                                        },
                                    ),
                                ],
                                settings: Some(
                                    IndexesSettings {
                                        span_range: 1810..1850,
                                        attributes: [
                                            Attribute {
                                                span_range: 1811..1821,
                                                key: Ident {
                                                    span_range: 1811..1815,
                                                    raw: ""type"",
                                                    to_string: ""type"",
                                                },
                                                value: Some(
                                                    Literal {
                                                        span_range: 1817..1821,
                                                        raw: ""hash"",
                                                        value: Enum(
                                                            ""hash"",
                                                        ),
                                                    },
                                                ),
                                            },
                                            Attribute {
                                                span_range: 1823..1849,
                                                key: Ident {
                                                    span_range: 1823..1827,
                             " ++
 s "                       raw: ""name"",
                                                    to_string: ""name"",
                                                },
                                                value: Some(
                                                    Literal {
                                                        span_range: 1829..1849,
                                                        raw: ""\""test test test key\"""",
                                                        value: String(
                                                            ""test test test key"",
                                                        ),
                                                    },
                                                ),
                                            },
                                        ],
                                        type: Some(
                                            Hash,
                                        ),
                                        is_unique: false,
                                        is_pk: false,
                                        note: None,
                                        name: Some(
                                            ""test test test key"",
                                        ),
                                    },
                                ),
                            },
                        ],
                    },
                ),
                settings: None,
            },
        ),
        Table(
            TableBlock {
                span_range: 1856..1935,
                cols: [
                    TableColumn {
                        span_range: 1878..1901,
                        name: Ident {
                            span_range: 1878..1882,
                            raw: ""\""Id\"""",
                            to_string: ""Id"",
                        },
                        type: ColumnType {
        " ++
 s "                    span_range: 1883..1886,
                            raw: ""int"",
                            type_name: Raw(
                                ""int"",
                            ),
                            args: [],
                            arrays: [],
                        },
                        settings: Some(
                            ColumnSettings {
                                span_range: 1887..1901,
                                attributes: [
                                    Attribute {
                                        span_range: 1888..1890,
                                        key: Ident {
                                            span_range: 1888..1890,
                                            raw: ""pk"",
                                            to_string: ""pk"",
                                        },
                                        value: None,
                                    },
                                    Attribute {
                                        span_range: 1892..1900,
                                        key: Ident {
                                            span_range: 1892..1900,
                                            raw: ""not null"",
                                            to_string: ""not null"",
                                        },
                                        value: None,
                                    },
                                ],
                                is_pk: true,
                                is_unique: false,
                                nullable: Some(
                                    NotNull,
                                ),
                                is_incremental: false,
                                note: None,
                                default: None,
                                refs: [],
                            },
                        ),
                    },
   " ++
 s "                 TableColumn {
                        span_range: 1904..1933,
                        name: Ident {
                            span_range: 1904..1910,
                            raw: ""\""Name\"""",
                            to_string: ""Name"",
                        },
                        type: ColumnType {
                            span_range: 1911..1922,
                            raw: ""varchar(32)"",
                            type_name: Raw(
                                ""varchar"",
                            ),
                            args: [
                                Integer(
                                    32,
                                ),
                            ],
                            arrays: [],
                        },
                        settings: Some(
                            ColumnSettings {
                                span_range: 1923..1933,
                                attributes: [
                                    Attribute {
                                        span_range: 1924..1932,
                                        key: Ident {
                                            span_range: 1924..1932,
                                            raw: ""not null"",
                                            to_string: ""not null"",
                                        },
                                        value: None,
                                    },
                                ],
                                is_pk: false,
                                is_unique: false,
                                nullable: Some(
                                    NotNull,
                                ),
                                is_incremental: false,
                                note: None,
                                default: None,
                                refs: [],
                            },
                        ),
             " ++
 s "       },
                ],
                ident: TableIdent {
                    span_range: 1862..1874,
                    name: Ident {
                        span_range: 1862..1873,
                        raw: ""\""Countries\"""",
                        to_string: ""Countries"",
                    },
                    schema: None,
                    alias: None,
                },
                note: None,
                indexes: None,
                settings: None,
            },
        ),
        Table(
            TableBlock {
                span_range: 1937..2116,
                cols: [
                    TableColumn {
                        span_range: 1956..1975,
                        name: Ident {
                            span_range: 1956..1960,
                            raw: ""\""Id\"""",
                            to_string: ""Id"",
                        },
                        type: ColumnType {
                            span_range: 1961..1964,
                            raw: ""int"",
                            type_name: Raw(
                                ""int"",
                            ),
                            args: [],
                            arrays: [],
                        },
                        settings: Some(
                            ColumnSettings {
                                span_range: 1965..1975,
                                attributes: [
                                    Attribute {
                                        span_range: 1966..1974,
                                        key: Ident {
                                            span_range: 1966..1974,
                                            raw: ""not null"",
                                            to_string: ""not null"",
                                        },
                                        value: None,
                                    },
                                ],
                          " ++
 s "      is_pk: false,
                                is_unique: false,
                                nullable: Some(
                                    NotNull,
                                ),
                                is_incremental: false,
                                note: None,
                                default: None,
                                refs: [],
                            },
                        ),
                    },
                    TableColumn {
                        span_range: 1978..2004,
                        name: Ident {
                            span_range: 1978..1989,
                            raw: ""\""CountryId\"""",
                            to_string: ""CountryId"",
                        },
                        type: ColumnType {
                            span_range: 1990..1993,
                            raw: ""int"",
                            type_name: Raw(
                                ""int"",
                            ),
                            args: [],
                            arrays: [],
                        },
                        settings: Some(
                            ColumnSettings {
                                span_range: 1994..2004,
                                attributes: [
                                    Attribute {
                                        span_range: 1995..2003,
                                        key: Ident {
                                            span_range: 1995..2003,
                                            raw: ""not null"",
                                            to_string: ""not null"",
                                        },
                                        value: None,
                                    },
                                ],
                                is_pk: false,
                                is_unique: false,
                                nullable: Some(
                " ++
 s "                    NotNull,
                                ),
                                is_incremental: false,
                                note: None,
                                default: None,
                                refs: [],
                            },
                        ),
                    },
                    TableColumn {
                        span_range: 2007..2036,
                        name: Ident {
                            span_range: 2007..2013,
                            raw: ""\""Name\"""",
                            to_string: ""Name"",
                        },
                        type: ColumnType {
                            span_range: 2014..2025,
                            raw: ""varchar(32)"",
                            type_name: Raw(
                                ""varchar"",
                            ),
                            args: [
                                Integer(
                                    32,
                                ),
                            ],
                            arrays: [],
                        },
                        settings: Some(
                            ColumnSettings {
                                span_range: 2026..2036,
                                attributes: [
                                    Attribute {
                                        span_range: 2027..2035,
                                        key: Ident {
                                            span_range: 2027..2035,
                                            raw: ""not null"",
                                            to_string: ""not null"",
                                        },
                                        value: None,
                                    },
                                ],
                                is_pk: false,
                                is_unique: false,
                                nullable: Some(
   " ++
 s "                                 NotNull,
                                ),
                                is_incremental: false,
                                note: None,
                                default: None,
                                refs: [],
                            },
                        ),
                    },
                ],
                ident: TableIdent {
                    span_range: 1943..1952,
                    name: Ident {
                        span_range: 1943..1951,
                        raw: ""\""States\"""",
                        to_string: ""States"",
                    },
                    schema: None,
                    alias: None,
                },
                note: None,
                indexes: Some(
                    IndexesBlock {
                        span_range: 2046..2114,
                        defs: [
                            IndexesDef {
                                span_range: 2050..2089,
                                cols: [
                                    String(
                                        Ident {
                                            span_range: 2050..2059,
                                            raw: ""CountryId"",
                                            to_string: ""CountryId"",
                                        },
                                    ),
                                ],
                                settings: Some(
                                    IndexesSettings {
                                        span_range: 2060..2089,
                                        attributes: [
                                            Attribute {
                                                span_range: 2061..2088,
                                                key: Ident {
                                                    span_range: 2061..2065,
                                                    raw: ""name"",
        " ++
 s "                                            to_string: ""name"",
                                                },
                                                value: Some(
                                                    Literal {
                                                        span_range: 2067..2088,
                                                        raw: ""\""IX_States_CountryId\"""",
                                                        value: String(
                                                            ""IX_States_CountryId"",
                                                        ),
                                                    },
                                                ),
                                            },
                                        ],
                                        type: None,
                                        is_unique: false,
                                        is_pk: false,
                                        note: None,
                                        name: Some(
                                            ""IX_States_CountryId"",
                                        ),
                                    },
                                ),
                            },
                            IndexesDef {
                                span_range: 2092..2112,
                                cols: [
                                    String(
                                        Ident {
                                            span_range: 2093..2095,
                                            raw: ""Id"",
                                            to_string: ""Id"",
                                        },
                                    ),
                                    String(
                                        Ident {
                                            span_range: 2097..2106,
                                            raw:" ++
 s " ""CountryId"",
                                            to_string: ""CountryId"",
                                        },
                                    ),
                                ],
                                settings: Some(
                                    IndexesSettings {
                                        span_range: 2108..2112,
                                        attributes: [
                                            Attribute {
                                                span_range: 2109..2111,
                                                key: Ident {
                                                    span_range: 2109..2111,
                                                    raw: ""pk"",
                                                    to_string: ""pk"",
                                                },
                                                value: None,
                                            },
                                        ],
                                        type: None,
                                        is_unique: false,
                                        is_pk: true,
                                        note: None,
                                        name: None,
                                    },
                                ),
                            },
                        ],
                    },
                ),
                settings: None,
            },
        ),
        Table(
            TableBlock {
                span_range: 2118..2394,
                cols: [
                    TableColumn {
                        span_range: 2137..2156,
                        name: Ident {
                            span_range: 2137..2141,
                            raw: ""\""Id\"""",
                            to_string: ""Id"",
                        },
                        type: ColumnType {
                            span_range: 2142..214" ++
 s "5,
                            raw: ""int"",
                            type_name: Raw(
                                ""int"",
                            ),
                            args: [],
                            arrays: [],
                        },
                        settings: Some(
                            ColumnSettings {
                                span_range: 2146..2156,
                                attributes: [
                                    Attribute {
                                        span_range: 2147..2155,
                                        key: Ident {
                                            span_range: 2147..2155,
                                            raw: ""not null"",
                                            to_string: ""not null"",
                                        },
                                        value: None,
                                    },
                                ],
                                is_pk: false,
                                is_unique: false,
                                nullable: Some(
                                    NotNull,
                                ),
                                is_incremental: false,
                                note: None,
                                default: None,
                                refs: [],
                            },
                        ),
                    },
                    TableColumn {
                        span_range: 2159..2185,
                        name: Ident {
                            span_range: 2159..2170,
                            raw: ""\""CountryId\"""",
                            to_string: ""CountryId"",
                        },
                        type: ColumnType {
                            span_range: 2171..2174,
                            raw: ""int"",
                            type_name: Raw(
                                ""int"",
        " ++
 s "                    ),
                            args: [],
                            arrays: [],
                        },
                        settings: Some(
                            ColumnSettings {
                                span_range: 2175..2185,
                                attributes: [
                                    Attribute {
                                        span_range: 2176..2184,
                                        key: Ident {
                                            span_range: 2176..2184,
                                            raw: ""not null"",
                                            to_string: ""not null"",
                                        },
                                        value: None,
                                    },
                                ],
                                is_pk: false,
                                is_unique: false,
                                nullable: Some(
                                    NotNull,
                                ),
                                is_incremental: false,
                                note: None,
                                default: None,
                                refs: [],
                            },
                        ),
                    },
                    TableColumn {
                        span_range: 2188..2212,
                        name: Ident {
                            span_range: 2188..2197,
                            raw: ""\""StateId\"""",
                            to_string: ""StateId"",
                        },
                        type: ColumnType {
                            span_range: 2198..2201,
                            raw: ""int"",
                            type_name: Raw(
                                ""int"",
                            ),
                            args: [],
                            arrays: [],
                        },
          " ++
 s "              settings: Some(
                            ColumnSettings {
                                span_range: 2202..2212,
                                attributes: [
                                    Attribute {
                                        span_range: 2203..2211,
                                        key: Ident {
                                            span_range: 2203..2211,
                                            raw: ""not null"",
                                            to_string: ""not null"",
                                        },
                                        value: None,
                                    },
                                ],
                                is_pk: false,
                                is_unique: false,
                                nullable: Some(
                                    NotNull,
                                ),
                                is_incremental: false,
                                note: None,
                                default: None,
                                refs: [],
                            },
                        ),
                    },
                    TableColumn {
                        span_range: 2215..2244,
                        name: Ident {
                            span_range: 2215..2221,
                            raw: ""\""Name\"""",
                            to_string: ""Name"",
                        },
                        type: ColumnType {
                            span_range: 2222..2233,
                            raw: ""varchar(32)"",
                            type_name: Raw(
                                ""varchar"",
                            ),
                            args: [
                                Integer(
                                    32,
                                ),
                            ],
                            arrays: [],
                        " ++
 s "},
                        settings: Some(
                            ColumnSettings {
                                span_range: 2234..2244,
                                attributes: [
                                    Attribute {
                                        span_range: 2235..2243,
                                        key: Ident {
                                            span_range: 2235..2243,
                                            raw: ""not null"",
                                            to_string: ""not null"",
                                        },
                                        value: None,
                                    },
                                ],
                                is_pk: false,
                                is_unique: false,
                                nullable: Some(
                                    NotNull,
                                ),
                                is_incremental: false,
                                note: None,
                                default: None,
                                refs: [],
                            },
                        ),
                    },
                ],
                ident: TableIdent {
                    span_range: 2124..2133,
                    name: Ident {
                        span_range: 2124..2132,
                        raw: ""\""Cities\"""",
                        to_string: ""Cities"",
                    },
                    schema: None,
                    alias: None,
                },
                note: None,
                indexes: Some(
                    IndexesBlock {
                        span_range: 2254..2392,
                        defs: [
                            IndexesDef {
                                span_range: 2258..2297,
                                cols: [
                                    String(
                                        Ident {
     " ++
 s "                                       span_range: 2258..2267,
                                            raw: ""CountryId"",
                                            to_string: ""CountryId"",
                                        },
                                    ),
                                ],
                                settings: Some(
                                    IndexesSettings {
                                        span_range: 2268..2297,
                                        attributes: [
                                            Attribute {
                                                span_range: 2269..2296,
                                                key: Ident {
                                                    span_range: 2269..2273,
                                                    raw: ""name"",
                                                    to_string: ""name"",
                                                },
                                                value: Some(
                                                    Literal {
                                                        span_range: 2275..2296,
                                                        raw: ""\""IX_Cities_CountryId\"""",
                                                        value: String(
                                                            ""IX_Cities_CountryId"",
                                                        ),
                                                    },
                                                ),
                                            },
                                        ],
                                        type: None,
                                        is_unique: false,
                                        is_pk: false,
                                        note: None,
                                        name: Some(
                                            ""IX_Ci" ++
 s "ties_CountryId"",
                                        ),
                                    },
                                ),
                            },
                            IndexesDef {
                                span_range: 2300..2358,
                                cols: [
                                    String(
                                        Ident {
                                            span_range: 2301..2308,
                                            raw: ""StateId"",
                                            to_string: ""StateId"",
                                        },
                                    ),
                                    String(
                                        Ident {
                                            span_range: 2310..2319,
                                            raw: ""CountryId"",
                                            to_string: ""CountryId"",
                                        },
                                    ),
                                ],
                                settings: Some(
                                    IndexesSettings {
                                        span_range: 2321..2358,
                                        attributes: [
                                            Attribute {
                                                span_range: 2322..2357,
                                                key: Ident {
                                                    span_range: 2322..2326,
                                                    raw: ""name"",
                                                    to_string: ""name"",
                                                },
                                                value: Some(
                                                    Literal {
                                                        span_range: 2328..2357,
                                                " ++
 s "        raw: ""\""IX_Cities_StateId_CountryId\"""",
                                                        value: String(
                                                            ""IX_Cities_StateId_CountryId"",
                                                        ),
                                                    },
                                                ),
                                            },
                                        ],
                                        type: None,
                                        is_unique: false,
                                        is_pk: false,
                                        note: None,
                                        name: Some(
                                            ""IX_Cities_StateId_CountryId"",
                                        ),
                                    },
                                ),
                            },
                            IndexesDef {
                                span_range: 2361..2390,
                                cols: [
                                    String(
                                        Ident {
                                            span_range: 2362..2364,
                                            raw: ""Id"",
                                            to_string: ""Id"",
                                        },
                                    ),
                                    String(
                                        Ident {
                                            span_range: 2366..2373,
                                            raw: ""StateId"",
                                            to_string: ""StateId"",
                                        },
                                    ),
                                    String(
                                        Ident {
                                            span_range: 2375..2384,
                     " ++
 s "                       raw: ""CountryId"",
                                            to_string: ""CountryId"",
                                        },
                                    ),
                                ],
                                settings: Some(
                                    IndexesSettings {
                                        span_range: 2386..2390,
                                        attributes: [
                                            Attribute {
                                                span_range: 2387..2389,
                                                key: Ident {
                                                    span_range: 2387..2389,
                                                    raw: ""pk"",
                                                    to_string: ""pk"",
                                                },
                                                value: None,
                                            },
                                        ],
                                        type: None,
                                        is_unique: false,
                                        is_pk: true,
                                        note: None,
                                        name: None,
                                    },
                                ),
                            },
                        ],
                    },
                ),
                settings: None,
            },
        ),
        Ref(
            RefBlock {
                span_range: 2432..2489,
                name: Some(
                    Ident {
                        span_range: 2400..2431,
                        raw: ""\""FK_States_Countries_CountryId\"""",
                        to_string: ""FK_States_Countries_CountryId"",
                    },
                ),
                rel: One2Many,
                lhs: RefIdent {
                    span_range: 2432." ++
 s ".2448,
                    schema: None,
                    table: Ident {
                        span_range: 2432..2443,
                        raw: ""\""Countries\"""",
                        to_string: ""Countries"",
                    },
                    compositions: [
                        Ident {
                            span_range: 2444..2448,
                            raw: ""\""Id\"""",
                            to_string: ""Id"",
                        },
                    ],
                },
                rhs: RefIdent {
                    span_range: 2451..2471,
                    schema: None,
                    table: Ident {
                        span_range: 2451..2459,
                        raw: ""\""States\"""",
                        to_string: ""States"",
                    },
                    compositions: [
                        Ident {
                            span_range: 2460..2471,
                            raw: ""\""CountryId\"""",
                            to_string: ""CountryId"",
                        },
                    ],
                },
                settings: Some(
                    RefSettings {
                        span_range: 2472..2489,
                        attributes: [
                            Attribute {
                                span_range: 2473..2488,
                                key: Ident {
                                    span_range: 2473..2479,
                                    raw: ""delete"",
                                    to_string: ""delete"",
                                },
                                value: Some(
                                    Literal {
                                        span_range: 2481..2488,
                                        raw: ""cascade"",
                                        value: Enum(
                                            ""cascade"",
                                        ),
                             " ++
 s "       },
                                ),
                            },
                        ],
                        on_delete: Some(
                            Cascade,
                        ),
                        on_update: None,
                    },
                ),
            },
        ),
        Ref(
            RefBlock {
                span_range: 2527..2584,
                name: Some(
                    Ident {
                        span_range: 2495..2526,
                        raw: ""\""FK_Cities_Countries_CountryId\"""",
                        to_string: ""FK_Cities_Countries_CountryId"",
                    },
                ),
                rel: One2Many,
                lhs: RefIdent {
                    span_range: 2527..2543,
                    schema: None,
                    table: Ident {
                        span_range: 2527..2538,
                        raw: ""\""Countries\"""",
                        to_string: ""Countries"",
                    },
                    compositions: [
                        Ident {
                            span_range: 2539..2543,
                            raw: ""\""Id\"""",
                            to_string: ""Id"",
                        },
                    ],
                },
                rhs: RefIdent {
                    span_range: 2546..2566,
                    schema: None,
                    table: Ident {
                        span_range: 2546..2554,
                        raw: ""\""Cities\"""",
                        to_string: ""Cities"",
                    },
                    compositions: [
                        Ident {
                            span_range: 2555..2566,
                            raw: ""\""CountryId\"""",
                            to_string: ""CountryId"",
                        },
                    ],
                },
                settings: Some(
                    RefSettings {
                        span_range: 2567..2584,
" ++
 s "                        attributes: [
                            Attribute {
                                span_range: 2568..2583,
                                key: Ident {
                                    span_range: 2568..2574,
                                    raw: ""delete"",
                                    to_string: ""delete"",
                                },
                                value: Some(
                                    Literal {
                                        span_range: 2576..2583,
                                        raw: ""cascade"",
                                        value: Enum(
                                            ""cascade"",
                                        ),
                                    },
                                ),
                            },
                        ],
                        on_delete: Some(
                            Cascade,
                        ),
                        on_update: None,
                    },
                ),
            },
        ),
        Ref(
            RefBlock {
                span_range: 2627..2709,
                name: Some(
                    Ident {
                        span_range: 2590..2626,
                        raw: ""\""FK_Cities_States_StateId_CountryId\"""",
                        to_string: ""FK_Cities_States_StateId_CountryId"",
                    },
                ),
                rel: One2Many,
                lhs: RefIdent {
                    span_range: 2627..2655,
                    schema: None,
                    table: Ident {
                        span_range: 2627..2635,
                        raw: ""\""States\"""",
                        to_string: ""States"",
                    },
                    compositions: [
                        Ident {
                            span_range: 2637..2641,
                            raw: ""\""Id\"""",
                            to_string: ""Id"",
 " ++
 s "                       },
                        Ident {
                            span_range: 2643..2654,
                            raw: ""\""CountryId\"""",
                            to_string: ""CountryId"",
                        },
                    ],
                },
                rhs: RefIdent {
                    span_range: 2658..2691,
                    schema: None,
                    table: Ident {
                        span_range: 2658..2666,
                        raw: ""\""Cities\"""",
                        to_string: ""Cities"",
                    },
                    compositions: [
                        Ident {
                            span_range: 2668..2677,
                            raw: ""\""StateId\"""",
                            to_string: ""StateId"",
                        },
                        Ident {
                            span_range: 2679..2690,
                            raw: ""\""CountryId\"""",
                            to_string: ""CountryId"",
                        },
                    ],
                },
                settings: Some(
                    RefSettings {
                        span_range: 2692..2709,
                        attributes: [
                            Attribute {
                                span_range: 2693..2708,
                                key: Ident {
                                    span_range: 2693..2699,
                                    raw: ""delete"",
                                    to_string: ""delete"",
                                },
                                value: Some(
                                    Literal {
                                        span_range: 2701..2708,
                                        raw: ""cascade"",
                                        value: Enum(
                                            ""cascade"",
                                        ),
                                    },
                  " ++
 s "              ),
                            },
                        ],
                        on_delete: Some(
                            Cascade,
                        ),
                        on_update: None,
                    },
                ),
            },
        ),
        Ref(
            RefBlock {
                span_range: 2715..2757,
                name: None,
                rel: One2Many,
                lhs: RefIdent {
                    span_range: 2715..2728,
                    schema: None,
                    table: Ident {
                        span_range: 2715..2723,
                        raw: ""\""orders\"""",
                        to_string: ""orders"",
                    },
                    compositions: [
                        Ident {
                            span_range: 2724..2728,
                            raw: ""\""id\"""",
                            to_string: ""id"",
                        },
                    ],
                },
                rhs: RefIdent {
                    span_range: 2731..2755,
                    schema: None,
                    table: Ident {
                        span_range: 2731..2744,
                        raw: ""\""order_items\"""",
                        to_string: ""order_items"",
                    },
                    compositions: [
                        Ident {
                            span_range: 2745..2755,
                            raw: ""\""order_id\"""",
                            to_string: ""order_id"",
                        },
                    ],
                },
                settings: None,
            },
        ),
        Ref(
            RefBlock {
                span_range: 2761..2807,
                name: None,
                rel: One2Many,
                lhs: RefIdent {
                    span_range: 2761..2776,
                    schema: None,
                    table: Ident {
                        span_range: 2761..2771,
      " ++
 s "                  raw: ""\""products\"""",
                        to_string: ""products"",
                    },
                    compositions: [
                        Ident {
                            span_range: 2772..2776,
                            raw: ""\""id\"""",
                            to_string: ""id"",
                        },
                    ],
                },
                rhs: RefIdent {
                    span_range: 2779..2805,
                    schema: None,
                    table: Ident {
                        span_range: 2779..2792,
                        raw: ""\""order_items\"""",
                        to_string: ""order_items"",
                    },
                    compositions: [
                        Ident {
                            span_range: 2793..2805,
                            raw: ""\""product_id\"""",
                            to_string: ""product_id"",
                        },
                    ],
                },
                settings: None,
            },
        ),
        Ref(
            RefBlock {
                span_range: 2811..2856,
                name: None,
                rel: One2Many,
                lhs: RefIdent {
                    span_range: 2811..2829,
                    schema: None,
                    table: Ident {
                        span_range: 2811..2822,
                        raw: ""\""countries\"""",
                        to_string: ""countries"",
                    },
                    compositions: [
                        Ident {
                            span_range: 2823..2829,
                            raw: ""\""code\"""",
                            to_string: ""code"",
                        },
                    ],
                },
                rhs: RefIdent {
                    span_range: 2832..2854,
                    schema: None,
                    table: Ident {
                        span_range: 2832..2839,
                        raw: """ ++
 s "\""users\"""",
                        to_string: ""users"",
                    },
                    compositions: [
                        Ident {
                            span_range: 2840..2854,
                            raw: ""\""country_code\"""",
                            to_string: ""country_code"",
                        },
                    ],
                },
                settings: None,
            },
        ),
        Ref(
            RefBlock {
                span_range: 2860..2909,
                name: None,
                rel: One2Many,
                lhs: RefIdent {
                    span_range: 2860..2878,
                    schema: None,
                    table: Ident {
                        span_range: 2860..2871,
                        raw: ""\""countries\"""",
                        to_string: ""countries"",
                    },
                    compositions: [
                        Ident {
                            span_range: 2872..2878,
                            raw: ""\""code\"""",
                            to_string: ""code"",
                        },
                    ],
                },
                rhs: RefIdent {
                    span_range: 2881..2907,
                    schema: None,
                    table: Ident {
                        span_range: 2881..2892,
                        raw: ""\""merchants\"""",
                        to_string: ""merchants"",
                    },
                    compositions: [
                        Ident {
                            span_range: 2893..2907,
                            raw: ""\""country_code\"""",
                            to_string: ""country_code"",
                        },
                    ],
                },
                settings: None,
            },
        ),
        Ref(
            RefBlock {
                span_range: 2913..2958,
                name: None,
                rel: One2Many,
                lhs: RefIdent {
        " ++
 s "            span_range: 2913..2929,
                    schema: None,
                    table: Ident {
                        span_range: 2913..2924,
                        raw: ""\""merchants\"""",
                        to_string: ""merchants"",
                    },
                    compositions: [
                        Ident {
                            span_range: 2925..2929,
                            raw: ""\""id\"""",
                            to_string: ""id"",
                        },
                    ],
                },
                rhs: RefIdent {
                    span_range: 2932..2956,
                    schema: None,
                    table: Ident {
                        span_range: 2932..2942,
                        raw: ""\""products\"""",
                        to_string: ""products"",
                    },
                    compositions: [
                        Ident {
                            span_range: 2943..2956,
                            raw: ""\""merchant_id\"""",
                            to_string: ""merchant_id"",
                        },
                    ],
                },
                settings: None,
            },
        ),
        Ref(
            RefBlock {
                span_range: 2962..2999,
                name: None,
                rel: One2Many,
                lhs: RefIdent {
                    span_range: 2962..2974,
                    schema: None,
                    table: Ident {
                        span_range: 2962..2969,
                        raw: ""\""users\"""",
                        to_string: ""users"",
                    },
                    compositions: [
                        Ident {
                            span_range: 2970..2974,
                            raw: ""\""id\"""",
                            to_string: ""id"",
                        },
                    ],
                },
                rhs: RefIdent {
                    span_range: 2977..2999,
  " ++
 s "                  schema: None,
                    table: Ident {
                        span_range: 2977..2988,
                        raw: ""\""merchants\"""",
                        to_string: ""merchants"",
                    },
                    compositions: [
                        Ident {
                            span_range: 2989..2999,
                            raw: ""\""admin_id\"""",
                            to_string: ""admin_id"",
                        },
                    ],
                },
                settings: None,
            },
        ),
    ],
}") = true.
Proof. vm_compute. reflexivity. Qed.

(** tests/dbml/mysql_importer/multiple_schema.out.dbml *)
Example golden_mysql_importer_multiple_schema : prints
(s "Enum ""users_pjs_enum"" {
  ""created2""
  ""running2""
  ""done2""
  ""failure2""
}

Enum ""users_pjs2_enum"" {
  ""created2""
  ""running2""
  ""done2""
  ""failure2""
}

Enum ""users_pg_enum"" {
  ""male""
  ""female""
}

Enum ""users_pg2_enum"" {
  ""male2""
  ""female2""
}

Enum ""ecommerce_users_ejs_enum"" {
  ""created2""
  ""running2""
  ""done2""
  ""failure2""
}

Enum ""ecommerce_users_ejs2_enum"" {
  ""created2""
  ""running2""
  ""done2""
  ""failure2""
}

Enum ""ecommerce_users_eg_enum"" {
  ""male""
  ""female""
}

Enum ""ecommerce_users_eg2_enum"" {
  ""male2""
  ""female2""
}

Table ""users"" {
  ""id"" int [pk]
  ""name"" varchar(255)
  ""pjs"" users_pjs_enum
  ""pjs2"" users_pjs2_enum
  ""pg"" users_pg_enum
  ""pg2"" users_pg2_enum
}

Table ""products"" {
  ""id"" int [pk]
  ""name"" varchar(255) [note: 'Product name']
}

Ref ""FK_1"":""schemaA"".""locations"".""id"" < ""schemaA"".""products"".""lid"" [delete: cascade]

Ref:""users"".""id"" < ""ecommerce"".""users"".""id""

Ref:""users"".""name"" < ""ecommerce"".""users"".""id""

Ref:""ecommerce"".""users"".""id"" < ""schemaA"".""products"".""name""

Ref:""users"".""id"" < ""schemaA"".""locations"".""name""

Table ""ecommerce"".""users"" {
  ""id"" int [pk]
  ""name"" varchar(255)
  ""ejs"" ecommerce_users_ejs_enum
  ""ejs2"" ecommerce_users_ejs2_enum
  ""eg"" ecommerce_users_eg_enum
  ""eg2"" ecommerce_users_eg2_enum
}

Table ""schemaA"".""products"" {
  ""id"" int [pk]
  ""name"" varchar(255) [note: 'Sample field comment on multiples schema']
  ""lid"" int
}

Table ""schemaA"".""locations"" {
  ""id"" int [pk]
  ""name"" varchar(255)
}")
(s "SchemaBlock {
    span_range: 0..1458,
    input: ""Enum \""users_pjs_enum\"" {\n  \""created2\""\n  \""running2\""\n  \""done2\""\n  \""failure2\""\n}\n\nEnum \""users_pjs2_enum\"" {\n  \""created2\""\n  \""running2\""\n  \""done2\""\n  \""failure2\""\n}\n\nEnum \""users_pg_enum\"" {\n  \""male\""\n  \""female\""\n}\n\nEnum \""users_pg2_enum\"" {\n  \""male2\""\n  \""female2\""\n}\n\nEnum \""ecommerce_users_ejs_enum\"" {\n  \""created2\""\n  \""running2\""\n  \""done2\""\n  \""failure2\""\n}\n\nEnum \""ecommerce_users_ejs2_enum\"" {\n  \""created2\""\n  \""running2\""\n  \""done2\""\n  \""failure2\""\n}\n\nEnum \""ecommerce_users_eg_enum\"" {\n  \""male\""\n  \""female\""\n}\n\nEnum \""ecommerce_users_eg2_enum\"" {\n  \""male2\""\n  \""female2\""\n}\n\nTable \""users\"" {\n  \""id\"" int [pk]\n  \""name\"" varchar(255)\n  \""pjs\"" users_pjs_enum\n  \""pjs2\"" users_pjs2_enum\n  \""pg\"" users_pg_enum\n  \""pg2\"" users_pg2_enum\n}\n\nTable \""products\"" {\n  \""id\"" int [pk]\n  \""name\"" varchar(255) [note: 'Product name']\n}\n\nRef \""FK_1\"":\""schemaA\"".\""locations\"".\""id\"" < \""schemaA\"".\""products\"".\""lid\"" [delete: cascade]\n\nRef:\""users\"".\""id\"" < \""ecommerce\"".\""users\"".\""id\""\n\nRef:\""users\"".\""name\"" < \""ecommerce\"".\""users\"".\""id\""\n\nRef:\""ecommerce\"".\""users\"".\""id\"" < \""schemaA\"".\""products\"".\""name\""\n\nRef:\""users\"".\""id\"" < \""schemaA\"".\""locations\"".\""name\""\n\nTable \""ecommerce\"".\""users\"" {\n  \""id\"" int [pk]\n  \""name\"" varchar(255)\n  \""ejs\"" ecommerce_users_ejs_enum\n  \""ejs2\"" ecommerce_users_ejs2_enum\n  \""eg\"" ecommerce_users_eg_enum\n  \""eg2\"" ecommerce_users_eg2_enum\n}\n\nTable \""schemaA\"".\""products\"" {\n  \""id\"" int [pk]\n  \""name\"" varchar(255) [note: 'Sample field comment on multiples schema']\n  \""lid\"" int\n}\n\nTable \""schemaA\"".\""locations\"" {\n  \""id\"" int [pk]\n  \""name\"" varchar(255)\n}"",
    blocks: [
        Enum(
            EnumBlock {
                span_range: 0..74,
                ident: EnumIdent {
                    span_range: 5..22,
                    schema: None,
                    name: Ide" ++
 s "nt {
                        span_range: 5..21,
                        raw: ""\""users_pjs_enum\"""",
                        to_string: ""users_pjs_enum"",
                    },
                },
                values: [
                    EnumValue {
                        span_range: 26..39,
                        value: Ident {
                            span_range: 26..36,
                            raw: ""\""created2\"""",
                            to_string: ""created2"",
                        },
                        settings: None,
                    },
                    EnumValue {
                        span_range: 39..52,
                        value: Ident {
                            span_range: 39..49,
                            raw: ""\""running2\"""",
                            to_string: ""running2"",
                        },
                        settings: None,
                    },
                    EnumValue {
                        span_range: 52..62,
                        value: Ident {
                            span_range: 52..59,
                            raw: ""\""done2\"""",
                            to_string: ""done2"",
                        },
                        settings: None,
                    },
                    EnumValue {
                        span_range: 62..73,
                        value: Ident {
                            span_range: 62..72,
                            raw: ""\""failure2\"""",
                            to_string: ""failure2"",
                        },
                        settings: None,
                    },
                ],
            },
        ),
        Enum(
            EnumBlock {
                span_range: 76..151,
                ident: EnumIdent {
                    span_range: 81..99,
                    schema: None,
                    name: Ident {
                        span_range: 81..98,
                        raw: ""\""users_pjs2_enum\"""",
               " ++
 s "         to_string: ""users_pjs2_enum"",
                    },
                },
                values: [
                    EnumValue {
                        span_range: 103..116,
                        value: Ident {
                            span_range: 103..113,
                            raw: ""\""created2\"""",
                            to_string: ""created2"",
                        },
                        settings: None,
                    },
                    EnumValue {
                        span_range: 116..129,
                        value: Ident {
                            span_range: 116..126,
                            raw: ""\""running2\"""",
                            to_string: ""running2"",
                        },
                        settings: None,
                    },
                    EnumValue {
                        span_range: 129..139,
                        value: Ident {
                            span_range: 129..136,
                            raw: ""\""done2\"""",
                            to_string: ""done2"",
                        },
                        settings: None,
                    },
                    EnumValue {
                        span_range: 139..150,
                        value: Ident {
                            span_range: 139..149,
                            raw: ""\""failure2\"""",
                            to_string: ""failure2"",
                        },
                        settings: None,
                    },
                ],
            },
        ),
        Enum(
            EnumBlock {
                span_range: 153..197,
                ident: EnumIdent {
                    span_range: 158..174,
                    schema: None,
                    name: Ident {
                        span_range: 158..173,
                        raw: ""\""users_pg_enum\"""",
                        to_string: ""users_pg_enum"",
                    },
                },
               " ++
 s " values: [
                    EnumValue {
                        span_range: 178..187,
                        value: Ident {
                            span_range: 178..184,
                            raw: ""\""male\"""",
                            to_string: ""male"",
                        },
                        settings: None,
                    },
                    EnumValue {
                        span_range: 187..196,
                        value: Ident {
                            span_range: 187..195,
                            raw: ""\""female\"""",
                            to_string: ""female"",
                        },
                        settings: None,
                    },
                ],
            },
        ),
        Enum(
            EnumBlock {
                span_range: 199..246,
                ident: EnumIdent {
                    span_range: 204..221,
                    schema: None,
                    name: Ident {
                        span_range: 204..220,
                        raw: ""\""users_pg2_enum\"""",
                        to_string: ""users_pg2_enum"",
                    },
                },
                values: [
                    EnumValue {
                        span_range: 225..235,
                        value: Ident {
                            span_range: 225..232,
                            raw: ""\""male2\"""",
                            to_string: ""male2"",
                        },
                        settings: None,
                    },
                    EnumValue {
                        span_range: 235..245,
                        value: Ident {
                            span_range: 235..244,
                            raw: ""\""female2\"""",
                            to_string: ""female2"",
                        },
                        settings: None,
                    },
                ],
            },
        ),
        Enum(
            EnumBlock {
              " ++
 s "  span_range: 248..332,
                ident: EnumIdent {
                    span_range: 253..280,
                    schema: None,
                    name: Ident {
                        span_range: 253..279,
                        raw: ""\""ecommerce_users_ejs_enum\"""",
                        to_string: ""ecommerce_users_ejs_enum"",
                    },
                },
                values: [
                    EnumValue {
                        span_range: 284..297,
                        value: Ident {
                            span_range: 284..294,
                            raw: ""\""created2\"""",
                            to_string: ""created2"",
                        },
                        settings: None,
                    },
                    EnumValue {
                        span_range: 297..310,
                        value: Ident {
                            span_range: 297..307,
                            raw: ""\""running2\"""",
                            to_string: ""running2"",
                        },
                        settings: None,
                    },
                    EnumValue {
                        span_range: 310..320,
                        value: Ident {
                            span_range: 310..317,
                            raw: ""\""done2\"""",
                            to_string: ""done2"",
                        },
                        settings: None,
                    },
                    EnumValue {
                        span_range: 320..331,
                        value: Ident {
                            span_range: 320..330,
                            raw: ""\""failure2\"""",
                            to_string: ""failure2"",
                        },
                        settings: None,
                    },
                ],
            },
        ),
        Enum(
            EnumBlock {
                span_range: 334..419,
                ident: EnumIdent {
               " ++
 s "     span_range: 339..367,
                    schema: None,
                    name: Ident {
                        span_range: 339..366,
                        raw: ""\""ecommerce_users_ejs2_enum\"""",
                        to_string: ""ecommerce_users_ejs2_enum"",
                    },
                },
                values: [
                    EnumValue {
                        span_range: 371..384,
                        value: Ident {
                            span_range: 371..381,
                            raw: ""\""created2\"""",
                            to_string: ""created2"",
                        },
                        settings: None,
                    },
                    EnumValue {
                        span_range: 384..397,
                        value: Ident {
                            span_range: 384..394,
                            raw: ""\""running2\"""",
                            to_string: ""running2"",
                        },
                        settings: None,
                    },
                    EnumValue {
                        span_range: 397..407,
                        value: Ident {
                            span_range: 397..404,
                            raw: ""\""done2\"""",
                            to_string: ""done2"",
                        },
                        settings: None,
                    },
                    EnumValue {
                        span_range: 407..418,
                        value: Ident {
                            span_range: 407..417,
                            raw: ""\""failure2\"""",
                            to_string: ""failure2"",
                        },
                        settings: None,
                    },
                ],
            },
        ),
        Enum(
            EnumBlock {
                span_range: 421..475,
                ident: EnumIdent {
                    span_range: 426..452,
                    schema: None,
           " ++
 s "         name: Ident {
                        span_range: 426..451,
                        raw: ""\""ecommerce_users_eg_enum\"""",
                        to_string: ""ecommerce_users_eg_enum"",
                    },
                },
                values: [
                    EnumValue {
                        span_range: 456..465,
                        value: Ident {
                            span_range: 456..462,
                            raw: ""\""male\"""",
                            to_string: ""male"",
                        },
                        settings: None,
                    },
                    EnumValue {
                        span_range: 465..474,
                        value: Ident {
                            span_range: 465..473,
                            raw: ""\""female\"""",
                            to_string: ""female"",
                        },
                        settings: None,
                    },
                ],
            },
        ),
        Enum(
            EnumBlock {
                span_range: 477..534,
                ident: EnumIdent {
                    span_range: 482..509,
                    schema: None,
                    name: Ident {
                        span_range: 482..508,
                        raw: ""\""ecommerce_users_eg2_enum\"""",
                        to_string: ""ecommerce_users_eg2_enum"",
                    },
                },
                values: [
                    EnumValue {
                        span_range: 513..523,
                        value: Ident {
                            span_range: 513..520,
                            raw: ""\""male2\"""",
                            to_string: ""male2"",
                        },
                        settings: None,
                    },
                    EnumValue {
                        span_range: 523..533,
                        value: Ident {
                            span_range: 523..532,
                 " ++
 s "           raw: ""\""female2\"""",
                            to_string: ""female2"",
                        },
                        settings: None,
                    },
                ],
            },
        ),
        Table(
            TableBlock {
                span_range: 536..683,
                cols: [
                    TableColumn {
                        span_range: 554..567,
                        name: Ident {
                            span_range: 554..558,
                            raw: ""\""id\"""",
                            to_string: ""id"",
                        },
                        type: ColumnType {
                            span_range: 559..562,
                            raw: ""int"",
                            type_name: Raw(
                                ""int"",
                            ),
                            args: [],
                            arrays: [],
                        },
                        settings: Some(
                            ColumnSettings {
                                span_range: 563..567,
                                attributes: [
                                    Attribute {
                                        span_range: 564..566,
                                        key: Ident {
                                            span_range: 564..566,
                                            raw: ""pk"",
                                            to_string: ""pk"",
                                        },
                                        value: None,
                                    },
                                ],
                                is_pk: true,
                                is_unique: false,
                                nullable: None,
                                is_incremental: false,
                                note: None,
                                default: None,
                                refs: [],
                " ++
 s "            },
                        ),
                    },
                    TableColumn {
                        span_range: 570..592,
                        name: Ident {
                            span_range: 570..576,
                            raw: ""\""name\"""",
                            to_string: ""name"",
                        },
                        type: ColumnType {
                            span_range: 577..589,
                            raw: ""varchar(255)"",
                            type_name: Raw(
                                ""varchar"",
                            ),
                            args: [
                                Integer(
                                    255,
                                ),
                            ],
                            arrays: [],
                        },
                        settings: None,
                    },
                    TableColumn {
                        span_range: 592..615,
                        name: Ident {
                            span_range: 592..597,
                            raw: ""\""pjs\"""",
                            to_string: ""pjs"",
                        },
                        type: ColumnType {
                            span_range: 598..612,
                            raw: ""users_pjs_enum"",
                            type_name: Raw(
                                ""users_pjs_enum"",
                            ),
                            args: [],
                            arrays: [],
                        },
                        settings: None,
                    },
                    TableColumn {
                        span_range: 615..640,
                        name: Ident {
                            span_range: 615..621,
                            raw: ""\""pjs2\"""",
                            to_string: ""pjs2"",
                        },
                        type: ColumnType {
                      " ++
 s "      span_range: 622..637,
                            raw: ""users_pjs2_enum"",
                            type_name: Raw(
                                ""users_pjs2_enum"",
                            ),
                            args: [],
                            arrays: [],
                        },
                        settings: None,
                    },
                    TableColumn {
                        span_range: 640..661,
                        name: Ident {
                            span_range: 640..644,
                            raw: ""\""pg\"""",
                            to_string: ""pg"",
                        },
                        type: ColumnType {
                            span_range: 645..658,
                            raw: ""users_pg_enum"",
                            type_name: Raw(
                                ""users_pg_enum"",
                            ),
                            args: [],
                            arrays: [],
                        },
                        settings: None,
                    },
                    TableColumn {
                        span_range: 661..682,
                        name: Ident {
                            span_range: 661..666,
                            raw: ""\""pg2\"""",
                            to_string: ""pg2"",
                        },
                        type: ColumnType {
                            span_range: 667..681,
                            raw: ""users_pg2_enum"",
                            type_name: Raw(
                                ""users_pg2_enum"",
                            ),
                            args: [],
                            arrays: [],
                        },
                        settings: None,
                    },
                ],
                ident: TableIdent {
                    span_range: 542..550,
                    name: Ident {
                        span_range: 542..549,
         " ++
 s "               raw: ""\""users\"""",
                        to_string: ""users"",
                    },
                    schema: None,
                    alias: None,
                },
                note: None,
                indexes: None,
                settings: None,
            },
        ),
        Table(
            TableBlock {
                span_range: 685..766,
                cols: [
                    TableColumn {
                        span_range: 706..719,
                        name: Ident {
                            span_range: 706..710,
                            raw: ""\""id\"""",
                            to_string: ""id"",
                        },
                        type: ColumnType {
                            span_range: 711..714,
                            raw: ""int"",
                            type_name: Raw(
                                ""int"",
                            ),
                            args: [],
                            arrays: [],
                        },
                        settings: Some(
                            ColumnSettings {
                                span_range: 715..719,
                                attributes: [
                                    Attribute {
                                        span_range: 716..718,
                                        key: Ident {
                                            span_range: 716..718,
                                            raw: ""pk"",
                                            to_string: ""pk"",
                                        },
                                        value: None,
                                    },
                                ],
                                is_pk: true,
                                is_unique: false,
                                nullable: None,
                                is_incremental: false,
                                note: None,
                  " ++
 s "              default: None,
                                refs: [],
                            },
                        ),
                    },
                    TableColumn {
                        span_range: 722..764,
                        name: Ident {
                            span_range: 722..728,
                            raw: ""\""name\"""",
                            to_string: ""name"",
                        },
                        type: ColumnType {
                            span_range: 729..741,
                            raw: ""varchar(255)"",
                            type_name: Raw(
                                ""varchar"",
                            ),
                            args: [
                                Integer(
                                    255,
                                ),
                            ],
                            arrays: [],
                        },
                        settings: Some(
                            ColumnSettings {
                                span_range: 742..764,
                                attributes: [
                                    Attribute {
                                        span_range: 743..763,
                                        key: Ident {
                                            span_range: 743..747,
                                            raw: ""note"",
                                            to_string: ""note"",
                                        },
                                        value: Some(
                                            Literal {
                                                span_range: 749..763,
                                                raw: ""'Product name'"",
                                                value: String(
                                                    ""Product name"",
                                                ),
                                           " ++
 s " },
                                        ),
                                    },
                                ],
                                is_pk: false,
                                is_unique: false,
                                nullable: None,
                                is_incremental: false,
                                note: Some(
                                    ""Product name"",
                                ),
                                default: None,
                                refs: [],
                            },
                        ),
                    },
                ],
                ident: TableIdent {
                    span_range: 691..702,
                    name: Ident {
                        span_range: 691..701,
                        raw: ""\""products\"""",
                        to_string: ""products"",
                    },
                    schema: None,
                    alias: None,
                },
                note: None,
                indexes: None,
                settings: None,
            },
        ),
        Ref(
            RefBlock {
                span_range: 779..852,
                name: Some(
                    Ident {
                        span_range: 772..778,
                        raw: ""\""FK_1\"""",
                        to_string: ""FK_1"",
                    },
                ),
                rel: One2Many,
                lhs: RefIdent {
                    span_range: 779..805,
                    schema: Some(
                        Ident {
                            span_range: 779..788,
                            raw: ""\""schemaA\"""",
                            to_string: ""schemaA"",
                        },
                    ),
                    table: Ident {
                        span_range: 789..800,
                        raw: ""\""locations\"""",
                        to_string: ""locations"",
                    },
               " ++
 s "     compositions: [
                        Ident {
                            span_range: 801..805,
                            raw: ""\""id\"""",
                            to_string: ""id"",
                        },
                    ],
                },
                rhs: RefIdent {
                    span_range: 808..834,
                    schema: Some(
                        Ident {
                            span_range: 808..817,
                            raw: ""\""schemaA\"""",
                            to_string: ""schemaA"",
                        },
                    ),
                    table: Ident {
                        span_range: 818..828,
                        raw: ""\""products\"""",
                        to_string: ""products"",
                    },
                    compositions: [
                        Ident {
                            span_range: 829..834,
                            raw: ""\""lid\"""",
                            to_string: ""lid"",
                        },
                    ],
                },
                settings: Some(
                    RefSettings {
                        span_range: 835..852,
                        attributes: [
                            Attribute {
                                span_range: 836..851,
                                key: Ident {
                                    span_range: 836..842,
                                    raw: ""delete"",
                                    to_string: ""delete"",
                                },
                                value: Some(
                                    Literal {
                                        span_range: 844..851,
                                        raw: ""cascade"",
                                        value: Enum(
                                            ""cascade"",
                                        ),
                                    },
                                ),
     " ++
 s "                       },
                        ],
                        on_delete: Some(
                            Cascade,
                        ),
                        on_update: None,
                    },
                ),
            },
        ),
        Ref(
            RefBlock {
                span_range: 858..899,
                name: None,
                rel: One2Many,
                lhs: RefIdent {
                    span_range: 858..870,
                    schema: None,
                    table: Ident {
                        span_range: 858..865,
                        raw: ""\""users\"""",
                        to_string: ""users"",
                    },
                    compositions: [
                        Ident {
                            span_range: 866..870,
                            raw: ""\""id\"""",
                            to_string: ""id"",
                        },
                    ],
                },
                rhs: RefIdent {
                    span_range: 873..897,
                    schema: Some(
                        Ident {
                            span_range: 873..884,
                            raw: ""\""ecommerce\"""",
                            to_string: ""ecommerce"",
                        },
                    ),
                    table: Ident {
                        span_range: 885..892,
                        raw: ""\""users\"""",
                        to_string: ""users"",
                    },
                    compositions: [
                        Ident {
                            span_range: 893..897,
                            raw: ""\""id\"""",
                            to_string: ""id"",
                        },
                    ],
                },
                settings: None,
            },
        ),
        Ref(
            RefBlock {
                span_range: 903..946,
                name: None,
                rel: One2Many,
                lhs: RefIdent" ++
 s " {
                    span_range: 903..917,
                    schema: None,
                    table: Ident {
                        span_range: 903..910,
                        raw: ""\""users\"""",
                        to_string: ""users"",
                    },
                    compositions: [
                        Ident {
                            span_range: 911..917,
                            raw: ""\""name\"""",
                            to_string: ""name"",
                        },
                    ],
                },
                rhs: RefIdent {
                    span_range: 920..944,
                    schema: Some(
                        Ident {
                            span_range: 920..931,
                            raw: ""\""ecommerce\"""",
                            to_string: ""ecommerce"",
                        },
                    ),
                    table: Ident {
                        span_range: 932..939,
                        raw: ""\""users\"""",
                        to_string: ""users"",
                    },
                    compositions: [
                        Ident {
                            span_range: 940..944,
                            raw: ""\""id\"""",
                            to_string: ""id"",
                        },
                    ],
                },
                settings: None,
            },
        ),
        Ref(
            RefBlock {
                span_range: 950..1006,
                name: None,
                rel: One2Many,
                lhs: RefIdent {
                    span_range: 950..974,
                    schema: Some(
                        Ident {
                            span_range: 950..961,
                            raw: ""\""ecommerce\"""",
                            to_string: ""ecommerce"",
                        },
                    ),
                    table: Ident {
                        span_range: 962..969,
                        raw: """ ++
 s "\""users\"""",
                        to_string: ""users"",
                    },
                    compositions: [
                        Ident {
                            span_range: 970..974,
                            raw: ""\""id\"""",
                            to_string: ""id"",
                        },
                    ],
                },
                rhs: RefIdent {
                    span_range: 977..1004,
                    schema: Some(
                        Ident {
                            span_range: 977..986,
                            raw: ""\""schemaA\"""",
                            to_string: ""schemaA"",
                        },
                    ),
                    table: Ident {
                        span_range: 987..997,
                        raw: ""\""products\"""",
                        to_string: ""products"",
                    },
                    compositions: [
                        Ident {
                            span_range: 998..1004,
                            raw: ""\""name\"""",
                            to_string: ""name"",
                        },
                    ],
                },
                settings: None,
            },
        ),
        Ref(
            RefBlock {
                span_range: 1010..1055,
                name: None,
                rel: One2Many,
                lhs: RefIdent {
                    span_range: 1010..1022,
                    schema: None,
                    table: Ident {
                        span_range: 1010..1017,
                        raw: ""\""users\"""",
                        to_string: ""users"",
                    },
                    compositions: [
                        Ident {
                            span_range: 1018..1022,
                            raw: ""\""id\"""",
                            to_string: ""id"",
                        },
                    ],
                },
                rhs: RefIdent {
                    span_ra" ++
 s "nge: 1025..1053,
                    schema: Some(
                        Ident {
                            span_range: 1025..1034,
                            raw: ""\""schemaA\"""",
                            to_string: ""schemaA"",
                        },
                    ),
                    table: Ident {
                        span_range: 1035..1046,
                        raw: ""\""locations\"""",
                        to_string: ""locations"",
                    },
                    compositions: [
                        Ident {
                            span_range: 1047..1053,
                            raw: ""\""name\"""",
                            to_string: ""name"",
                        },
                    ],
                },
                settings: None,
            },
        ),
        Table(
            TableBlock {
                span_range: 1055..1254,
                cols: [
                    TableColumn {
                        span_range: 1085..1098,
                        name: Ident {
                            span_range: 1085..1089,
                            raw: ""\""id\"""",
                            to_string: ""id"",
                        },
                        type: ColumnType {
                            span_range: 1090..1093,
                            raw: ""int"",
                            type_name: Raw(
                                ""int"",
                            ),
                            args: [],
                            arrays: [],
                        },
                        settings: Some(
                            ColumnSettings {
                                span_range: 1094..1098,
                                attributes: [
                                    Attribute {
                                        span_range: 1095..1097,
                                        key: Ident {
                                            span_range: 1095..1097,
             " ++
 s "                               raw: ""pk"",
                                            to_string: ""pk"",
                                        },
                                        value: None,
                                    },
                                ],
                                is_pk: true,
                                is_unique: false,
                                nullable: None,
                                is_incremental: false,
                                note: None,
                                default: None,
                                refs: [],
                            },
                        ),
                    },
                    TableColumn {
                        span_range: 1101..1123,
                        name: Ident {
                            span_range: 1101..1107,
                            raw: ""\""name\"""",
                            to_string: ""name"",
                        },
                        type: ColumnType {
                            span_range: 1108..1120,
                            raw: ""varchar(255)"",
                            type_name: Raw(
                                ""varchar"",
                            ),
                            args: [
                                Integer(
                                    255,
                                ),
                            ],
                            arrays: [],
                        },
                        settings: None,
                    },
                    TableColumn {
                        span_range: 1123..1156,
                        name: Ident {
                            span_range: 1123..1128,
                            raw: ""\""ejs\"""",
                            to_string: ""ejs"",
                        },
                        type: ColumnType {
                            span_range: 1129..1153,
                            raw: ""ecommerce_users_ejs_enum"",
   " ++
 s "                         type_name: Raw(
                                ""ecommerce_users_ejs_enum"",
                            ),
                            args: [],
                            arrays: [],
                        },
                        settings: None,
                    },
                    TableColumn {
                        span_range: 1156..1191,
                        name: Ident {
                            span_range: 1156..1162,
                            raw: ""\""ejs2\"""",
                            to_string: ""ejs2"",
                        },
                        type: ColumnType {
                            span_range: 1163..1188,
                            raw: ""ecommerce_users_ejs2_enum"",
                            type_name: Raw(
                                ""ecommerce_users_ejs2_enum"",
                            ),
                            args: [],
                            arrays: [],
                        },
                        settings: None,
                    },
                    TableColumn {
                        span_range: 1191..1222,
                        name: Ident {
                            span_range: 1191..1195,
                            raw: ""\""eg\"""",
                            to_string: ""eg"",
                        },
                        type: ColumnType {
                            span_range: 1196..1219,
                            raw: ""ecommerce_users_eg_enum"",
                            type_name: Raw(
                                ""ecommerce_users_eg_enum"",
                            ),
                            args: [],
                            arrays: [],
                        },
                        settings: None,
                    },
                    TableColumn {
                        span_range: 1222..1253,
                        name: Ident {
                            span_range: 1222..1227,
                            raw:" ++
 s " ""\""eg2\"""",
                            to_string: ""eg2"",
                        },
                        type: ColumnType {
                            span_range: 1228..1252,
                            raw: ""ecommerce_users_eg2_enum"",
                            type_name: Raw(
                                ""ecommerce_users_eg2_enum"",
                            ),
                            args: [],
                            arrays: [],
                        },
                        settings: None,
                    },
                ],
                ident: TableIdent {
                    span_range: 1061..1080,
                    name: Ident {
                        span_range: 1073..1080,
                        raw: ""\""users\"""",
                        to_string: ""users"",
                    },
                    schema: Some(
                        Ident {
                            span_range: 1061..1072,
                            raw: ""\""ecommerce\"""",
                            to_string: ""ecommerce"",
                        },
                    ),
                    alias: None,
                },
                note: None,
                indexes: None,
                settings: None,
            },
        ),
        Table(
            TableBlock {
                span_range: 1256..1387,
                cols: [
                    TableColumn {
                        span_range: 1287..1300,
                        name: Ident {
                            span_range: 1287..1291,
                            raw: ""\""id\"""",
                            to_string: ""id"",
                        },
                        type: ColumnType {
                            span_range: 1292..1295,
                            raw: ""int"",
                            type_name: Raw(
                                ""int"",
                            ),
                            args: [],
                            arrays: [],
         " ++
 s "               },
                        settings: Some(
                            ColumnSettings {
                                span_range: 1296..1300,
                                attributes: [
                                    Attribute {
                                        span_range: 1297..1299,
                                        key: Ident {
                                            span_range: 1297..1299,
                                            raw: ""pk"",
                                            to_string: ""pk"",
                                        },
                                        value: None,
                                    },
                                ],
                                is_pk: true,
                                is_unique: false,
                                nullable: None,
                                is_incremental: false,
                                note: None,
                                default: None,
                                refs: [],
                            },
                        ),
                    },
                    TableColumn {
                        span_range: 1303..1373,
                        name: Ident {
                            span_range: 1303..1309,
                            raw: ""\""name\"""",
                            to_string: ""name"",
                        },
                        type: ColumnType {
                            span_range: 1310..1322,
                            raw: ""varchar(255)"",
                            type_name: Raw(
                                ""varchar"",
                            ),
                            args: [
                                Integer(
                                    255,
                                ),
                            ],
                            arrays: [],
                        },
                        settings: Some(
                    " ++
 s "        ColumnSettings {
                                span_range: 1323..1373,
                                attributes: [
                                    Attribute {
                                        span_range: 1324..1372,
                                        key: Ident {
                                            span_range: 1324..1328,
                                            raw: ""note"",
                                            to_string: ""note"",
                                        },
                                        value: Some(
                                            Literal {
                                                span_range: 1330..1372,
                                                raw: ""'Sample field comment on multiples schema'"",
                                                value: String(
                                                    ""Sample field comment on multiples schema"",
                                                ),
                                            },
                                        ),
                                    },
                                ],
                                is_pk: false,
                                is_unique: false,
                                nullable: None,
                                is_incremental: false,
                                note: Some(
                                    ""Sample field comment on multiples schema"",
                                ),
                                default: None,
                                refs: [],
                            },
                        ),
                    },
                    TableColumn {
                        span_range: 1376..1386,
                        name: Ident {
                            span_range: 1376..1381,
                            raw: ""\""lid\"""",
                            to_string: ""lid"",
                        },
        " ++
 s "                type: ColumnType {
                            span_range: 1382..1385,
                            raw: ""int"",
                            type_name: Raw(
                                ""int"",
                            ),
                            args: [],
                            arrays: [],
                        },
                        settings: None,
                    },
                ],
                ident: TableIdent {
                    span_range: 1262..1282,
                    name: Ident {
                        span_range: 1272..1282,
                        raw: ""\""products\"""",
                        to_string: ""products"",
                    },
                    schema: Some(
                        Ident {
                            span_range: 1262..1271,
                            raw: ""\""schemaA\"""",
                            to_string: ""schemaA"",
                        },
                    ),
                    alias: None,
                },
                note: None,
                indexes: None,
                settings: None,
            },
        ),
        Table(
            TableBlock {
                span_range: 1389..1458,
                cols: [
                    TableColumn {
                        span_range: 1421..1434,
                        name: Ident {
                            span_range: 1421..1425,
                            raw: ""\""id\"""",
                            to_string: ""id"",
                        },
                        type: ColumnType {
                            span_range: 1426..1429,
                            raw: ""int"",
                            type_name: Raw(
                                ""int"",
                            ),
                            args: [],
                            arrays: [],
                        },
                        settings: Some(
                            ColumnSettings {
                              " ++
 s "  span_range: 1430..1434,
                                attributes: [
                                    Attribute {
                                        span_range: 1431..1433,
                                        key: Ident {
                                            span_range: 1431..1433,
                                            raw: ""pk"",
                                            to_string: ""pk"",
                                        },
                                        value: None,
                                    },
                                ],
                                is_pk: true,
                                is_unique: false,
                                nullable: None,
                                is_incremental: false,
                                note: None,
                                default: None,
                                refs: [],
                            },
                        ),
                    },
                    TableColumn {
                        span_range: 1437..1457,
                        name: Ident {
                            span_range: 1437..1443,
                            raw: ""\""name\"""",
                            to_string: ""name"",
                        },
                        type: ColumnType {
                            span_range: 1444..1456,
                            raw: ""varchar(255)"",
                            type_name: Raw(
                                ""varchar"",
                            ),
                            args: [
                                Integer(
                                    255,
                                ),
                            ],
                            arrays: [],
                        },
                        settings: None,
                    },
                ],
                ident: TableIdent {
                    span_range: 1395..1416,
                    name: Ident" ++
 s " {
                        span_range: 1405..1416,
                        raw: ""\""locations\"""",
                        to_string: ""locations"",
                    },
                    schema: Some(
                        Ident {
                            span_range: 1395..1404,
                            raw: ""\""schemaA\"""",
                            to_string: ""schemaA"",
                        },
                    ),
                    alias: None,
                },
                note: None,
                indexes: None,
                settings: None,
            },
        ),
    ],
}") = true.
Proof. vm_compute. reflexivity. Qed.

(** tests/dbml/mssql_importer/general_schema.out.dbml *)
Example golden_mssql_importer_general_schema : prints
(s "Enum ""orders_status_enum"" {
  ""created""
  ""running""
  ""done""
  ""failure""
}

Enum ""products_status_enum"" {
  ""Out of Stock""
  ""In Stock""
}

Table ""orders"" {
  ""id"" int [pk, increment]
  ""user_id"" int [unique, not null]
  ""status"" orders_status_enum [not null]
  ""created_at"" varchar(255) [note: 'When order created']
  Note: 'This is a note in table ""orders""'
}

Table ""order_items"" {
  ""order_id"" int
  ""product_id"" int
  ""quantity"" int [default: 1]
}

Table ""products"" {
  ""id"" int [pk]
  ""name"" varchar(255)
  ""merchant_id"" int [not null]
  ""price"" int
  ""status"" products_status_enum [not null]
  ""created_at"" datetime [default: `now()`]

Indexes {
  (merchant_id, status) [name: ""product_status""]
  id [unique, name: ""products_index_1""]
}
}

Table ""users"" {
  ""id"" int [pk]
  ""full_name"" varchar(255)
  ""email"" varchar(255) [unique]
  ""gender"" varchar(255)
  ""date_of_birth"" varchar(255)
  ""created_at"" varchar(255)
  ""country_code"" int
}

Table ""merchants"" {
  ""id"" int [pk]
  ""merchant_name"" varchar(255)
  ""country_code"" int
  ""created_at"" varchar(255)
  ""admin_id"" int
}

Table ""countries"" {
  ""code"" int [pk]
  ""name"" varchar(255)
  ""continent_name"" varchar(255)
}

Ref:""orders"".""id"" < ""order_items"".""order_id""

Ref:""products"".""id"" < ""order_items"".""product_id""

Ref:""countries"".""code"" < ""users"".""country_code""

Ref:""countries"".""code"" < ""merchants"".""country_code""

Ref:""merchants"".""id"" < ""products"".""merchant_id""

Ref:""users"".""id"" < ""merchants"".""admin_id""")
(s "SchemaBlock {
    span_range: 0..1463,
    input: ""Enum \""orders_status_enum\"" {\n  \""created\""\n  \""running\""\n  \""done\""\n  \""failure\""\n}\n\nEnum \""products_status_enum\"" {\n  \""Out of Stock\""\n  \""In Stock\""\n}\n\nTable \""orders\"" {\n  \""id\"" int [pk, increment]\n  \""user_id\"" int [unique, not null]\n  \""status\"" orders_status_enum [not null]\n  \""created_at\"" varchar(255) [note: 'When order created']\n  Note: 'This is a note in table \""orders\""'\n}\n\nTable \""order_items\"" {\n  \""order_id\"" int\n  \""product_id\"" int\n  \""quantity\"" int [default: 1]\n}\n\nTable \""products\"" {\n  \""id\"" int [pk]\n  \""name\"" varchar(255)\n  \""merchant_id\"" int [not null]\n  \""price\"" int\n  \""status\"" products_status_enum [not null]\n  \""created_at\"" datetime [default: `now()`]\n\nIndexes {\n  (merchant_id, status) [name: \""product_status\""]\n  id [unique, name: \""products_index_1\""]\n}\n}\n\nTable \""users\"" {\n  \""id\"" int [pk]\n  \""full_name\"" varchar(255)\n  \""email\"" varchar(255) [unique]\n  \""gender\"" varchar(255)\n  \""date_of_birth\"" varchar(255)\n  \""created_at\"" varchar(255)\n  \""country_code\"" int\n}\n\nTable \""merchants\"" {\n  \""id\"" int [pk]\n  \""merchant_name\"" varchar(255)\n  \""country_code\"" int\n  \""created_at\"" varchar(255)\n  \""admin_id\"" int\n}\n\nTable \""countries\"" {\n  \""code\"" int [pk]\n  \""name\"" varchar(255)\n  \""continent_name\"" varchar(255)\n}\n\nRef:\""orders\"".\""id\"" < \""order_items\"".\""order_id\""\n\nRef:\""products\"".\""id\"" < \""order_items\"".\""product_id\""\n\nRef:\""countries\"".\""code\"" < \""users\"".\""country_code\""\n\nRef:\""countries\"".\""code\"" < \""merchants\"".\""country_code\""\n\nRef:\""merchants\"".\""id\"" < \""products\"".\""merchant_id\""\n\nRef:\""users\"".\""id\"" < \""merchants\"".\""admin_id\"""",
    blocks: [
        Enum(
            EnumBlock {
                span_range: 0..74,
                ident: EnumIdent {
                    span_range: 5..26,
                    schema: None,
                    name: Ident {
                        span_range: 5..25," ++
 s "
                        raw: ""\""orders_status_enum\"""",
                        to_string: ""orders_status_enum"",
                    },
                },
                values: [
                    EnumValue {
                        span_range: 30..42,
                        value: Ident {
                            span_range: 30..39,
                            raw: ""\""created\"""",
                            to_string: ""created"",
                        },
                        settings: None,
                    },
                    EnumValue {
                        span_range: 42..54,
                        value: Ident {
                            span_range: 42..51,
                            raw: ""\""running\"""",
                            to_string: ""running"",
                        },
                        settings: None,
                    },
                    EnumValue {
                        span_range: 54..63,
                        value: Ident {
                            span_range: 54..60,
                            raw: ""\""done\"""",
                            to_string: ""done"",
                        },
                        settings: None,
                    },
                    EnumValue {
                        span_range: 63..73,
                        value: Ident {
                            span_range: 63..72,
                            raw: ""\""failure\"""",
                            to_string: ""failure"",
                        },
                        settings: None,
                    },
                ],
            },
        ),
        Enum(
            EnumBlock {
                span_range: 76..137,
                ident: EnumIdent {
                    span_range: 81..104,
                    schema: None,
                    name: Ident {
                        span_range: 81..103,
                        raw: ""\""products_status_enum\"""",
                        to_string: ""products_status_enu" ++
 s "m"",
                    },
                },
                values: [
                    EnumValue {
                        span_range: 108..125,
                        value: Ident {
                            span_range: 108..122,
                            raw: ""\""Out of Stock\"""",
                            to_string: ""Out of Stock"",
                        },
                        settings: None,
                    },
                    EnumValue {
                        span_range: 125..136,
                        value: Ident {
                            span_range: 125..135,
                            raw: ""\""In Stock\"""",
                            to_string: ""In Stock"",
                        },
                        settings: None,
                    },
                ],
            },
        ),
        Table(
            TableBlock {
                span_range: 139..360,
                cols: [
                    TableColumn {
                        span_range: 158..182,
                        name: Ident {
                            span_range: 158..162,
                            raw: ""\""id\"""",
                            to_string: ""id"",
                        },
                        type: ColumnType {
                            span_range: 163..166,
                            raw: ""int"",
                            type_name: Raw(
                                ""int"",
                            ),
                            args: [],
                            arrays: [],
                        },
                        settings: Some(
                            ColumnSettings {
                                span_range: 167..182,
                                attributes: [
                                    Attribute {
                                        span_range: 168..170,
                                        key: Ident {
                                            span_range: 168..170,
          " ++
 s "                                  raw: ""pk"",
                                            to_string: ""pk"",
                                        },
                                        value: None,
                                    },
                                    Attribute {
                                        span_range: 172..181,
                                        key: Ident {
                                            span_range: 172..181,
                                            raw: ""increment"",
                                            to_string: ""increment"",
                                        },
                                        value: None,
                                    },
                                ],
                                is_pk: true,
                                is_unique: false,
                                nullable: None,
                                is_incremental: true,
                                note: None,
                                default: None,
                                refs: [],
                            },
                        ),
                    },
                    TableColumn {
                        span_range: 185..217,
                        name: Ident {
                            span_range: 185..194,
                            raw: ""\""user_id\"""",
                            to_string: ""user_id"",
                        },
                        type: ColumnType {
                            span_range: 195..198,
                            raw: ""int"",
                            type_name: Raw(
                                ""int"",
                            ),
                            args: [],
                            arrays: [],
                        },
                        settings: Some(
                            ColumnSettings {
                                span_range: 199..217,
                                att" ++
 s "ributes: [
                                    Attribute {
                                        span_range: 200..206,
                                        key: Ident {
                                            span_range: 200..206,
                                            raw: ""unique"",
                                            to_string: ""unique"",
                                        },
                                        value: None,
                                    },
                                    Attribute {
                                        span_range: 208..216,
                                        key: Ident {
                                            span_range: 208..216,
                                            raw: ""not null"",
                                            to_string: ""not null"",
                                        },
                                        value: None,
                                    },
                                ],
                                is_pk: false,
                                is_unique: true,
                                nullable: Some(
                                    NotNull,
                                ),
                                is_incremental: false,
                                note: None,
                                default: None,
                                refs: [],
                            },
                        ),
                    },
                    TableColumn {
                        span_range: 220..258,
                        name: Ident {
                            span_range: 220..228,
                            raw: ""\""status\"""",
                            to_string: ""status"",
                        },
                        type: ColumnType {
                            span_range: 229..247,
                            raw: ""orders_status_enum"",
                            type_name: Raw(" ++
 s "
                                ""orders_status_enum"",
                            ),
                            args: [],
                            arrays: [],
                        },
                        settings: Some(
                            ColumnSettings {
                                span_range: 248..258,
                                attributes: [
                                    Attribute {
                                        span_range: 249..257,
                                        key: Ident {
                                            span_range: 249..257,
                                            raw: ""not null"",
                                            to_string: ""not null"",
                                        },
                                        value: None,
                                    },
                                ],
                                is_pk: false,
                                is_unique: false,
                                nullable: Some(
                                    NotNull,
                                ),
                                is_incremental: false,
                                note: None,
                                default: None,
                                refs: [],
                            },
                        ),
                    },
                    TableColumn {
                        span_range: 261..315,
                        name: Ident {
                            span_range: 261..273,
                            raw: ""\""created_at\"""",
                            to_string: ""created_at"",
                        },
                        type: ColumnType {
                            span_range: 274..286,
                            raw: ""varchar(255)"",
                            type_name: Raw(
                                ""varchar"",
                            ),
                            args: [
         " ++
 s "                       Integer(
                                    255,
                                ),
                            ],
                            arrays: [],
                        },
                        settings: Some(
                            ColumnSettings {
                                span_range: 287..315,
                                attributes: [
                                    Attribute {
                                        span_range: 288..314,
                                        key: Ident {
                                            span_range: 288..292,
                                            raw: ""note"",
                                            to_string: ""note"",
                                        },
                                        value: Some(
                                            Literal {
                                                span_range: 294..314,
                                                raw: ""'When order created'"",
                                                value: String(
                                                    ""When order created"",
                                                ),
                                            },
                                        ),
                                    },
                                ],
                                is_pk: false,
                                is_unique: false,
                                nullable: None,
                                is_incremental: false,
                                note: Some(
                                    ""When order created"",
                                ),
                                default: None,
                                refs: [],
                            },
                        ),
                    },
                ],
                ident: TableIdent {
                    span_range: 145..154,
        " ++
 s "            name: Ident {
                        span_range: 145..153,
                        raw: ""\""orders\"""",
                        to_string: ""orders"",
                    },
                    schema: None,
                    alias: None,
                },
                note: Some(
                    NoteBlock {
                        span_range: 318..358,
                        value: Literal {
                            span_range: 324..358,
                            raw: ""'This is a note in table \""orders\""'"",
                            value: String(
                                ""This is a note in table \""orders\"""",
                            ),
                        },
                    },
                ),
                indexes: None,
                settings: None,
            },
        ),
        Table(
            TableBlock {
                span_range: 362..451,
                cols: [
                    TableColumn {
                        span_range: 386..403,
                        name: Ident {
                            span_range: 386..396,
                            raw: ""\""order_id\"""",
                            to_string: ""order_id"",
                        },
                        type: ColumnType {
                            span_range: 397..400,
                            raw: ""int"",
                            type_name: Raw(
                                ""int"",
                            ),
                            args: [],
                            arrays: [],
                        },
                        settings: None,
                    },
                    TableColumn {
                        span_range: 403..422,
                        name: Ident {
                            span_range: 403..415,
                            raw: ""\""product_id\"""",
                            to_string: ""product_id"",
                        },
                        type: ColumnType {
     " ++
 s "                       span_range: 416..419,
                            raw: ""int"",
                            type_name: Raw(
                                ""int"",
                            ),
                            args: [],
                            arrays: [],
                        },
                        settings: None,
                    },
                    TableColumn {
                        span_range: 422..449,
                        name: Ident {
                            span_range: 422..432,
                            raw: ""\""quantity\"""",
                            to_string: ""quantity"",
                        },
                        type: ColumnType {
                            span_range: 433..436,
                            raw: ""int"",
                            type_name: Raw(
                                ""int"",
                            ),
                            args: [],
                            arrays: [],
                        },
                        settings: Some(
                            ColumnSettings {
                                span_range: 437..449,
                                attributes: [
                                    Attribute {
                                        span_range: 438..448,
                                        key: Ident {
                                            span_range: 438..445,
                                            raw: ""default"",
                                            to_string: ""default"",
                                        },
                                        value: Some(
                                            Literal {
                                                span_range: 447..448,
                                                raw: ""1"",
                                                value: Integer(
                                                    1,
                                                )" ++
 s ",
                                            },
                                        ),
                                    },
                                ],
                                is_pk: false,
                                is_unique: false,
                                nullable: None,
                                is_incremental: false,
                                note: None,
                                default: Some(
                                    Integer(
                                        1,
                                    ),
                                ),
                                refs: [],
                            },
                        ),
                    },
                ],
                ident: TableIdent {
                    span_range: 368..382,
                    name: Ident {
                        span_range: 368..381,
                        raw: ""\""order_items\"""",
                        to_string: ""order_items"",
                    },
                    schema: None,
                    alias: None,
                },
                note: None,
                indexes: None,
                settings: None,
            },
        ),
        Table(
            TableBlock {
                span_range: 453..744,
                cols: [
                    TableColumn {
                        span_range: 474..487,
                        name: Ident {
                            span_range: 474..478,
                            raw: ""\""id\"""",
                            to_string: ""id"",
                        },
                        type: ColumnType {
                            span_range: 479..482,
                            raw: ""int"",
                            type_name: Raw(
                                ""int"",
                            ),
                            args: [],
                            arrays: [],
                        },
                     " ++
 s "   settings: Some(
                            ColumnSettings {
                                span_range: 483..487,
                                attributes: [
                                    Attribute {
                                        span_range: 484..486,
                                        key: Ident {
                                            span_range: 484..486,
                                            raw: ""pk"",
                                            to_string: ""pk"",
                                        },
                                        value: None,
                                    },
                                ],
                                is_pk: true,
                                is_unique: false,
                                nullable: None,
                                is_incremental: false,
                                note: None,
                                default: None,
                                refs: [],
                            },
                        ),
                    },
                    TableColumn {
                        span_range: 490..512,
                        name: Ident {
                            span_range: 490..496,
                            raw: ""\""name\"""",
                            to_string: ""name"",
                        },
                        type: ColumnType {
                            span_range: 497..509,
                            raw: ""varchar(255)"",
                            type_name: Raw(
                                ""varchar"",
                            ),
                            args: [
                                Integer(
                                    255,
                                ),
                            ],
                            arrays: [],
                        },
                        settings: None,
                    },
                    TableColumn {
              " ++
 s "          span_range: 512..540,
                        name: Ident {
                            span_range: 512..525,
                            raw: ""\""merchant_id\"""",
                            to_string: ""merchant_id"",
                        },
                        type: ColumnType {
                            span_range: 526..529,
                            raw: ""int"",
                            type_name: Raw(
                                ""int"",
                            ),
                            args: [],
                            arrays: [],
                        },
                        settings: Some(
                            ColumnSettings {
                                span_range: 530..540,
                                attributes: [
                                    Attribute {
                                        span_range: 531..539,
                                        key: Ident {
                                            span_range: 531..539,
                                            raw: ""not null"",
                                            to_string: ""not null"",
                                        },
                                        value: None,
                                    },
                                ],
                                is_pk: false,
                                is_unique: false,
                                nullable: Some(
                                    NotNull,
                                ),
                                is_incremental: false,
                                note: None,
                                default: None,
                                refs: [],
                            },
                        ),
                    },
                    TableColumn {
                        span_range: 543..557,
                        name: Ident {
                            span_range: 543..550,
                      " ++
 s "      raw: ""\""price\"""",
                            to_string: ""price"",
                        },
                        type: ColumnType {
                            span_range: 551..554,
                            raw: ""int"",
                            type_name: Raw(
                                ""int"",
                            ),
                            args: [],
                            arrays: [],
                        },
                        settings: None,
                    },
                    TableColumn {
                        span_range: 557..597,
                        name: Ident {
                            span_range: 557..565,
                            raw: ""\""status\"""",
                            to_string: ""status"",
                        },
                        type: ColumnType {
                            span_range: 566..586,
                            raw: ""products_status_enum"",
                            type_name: Raw(
                                ""products_status_enum"",
                            ),
                            args: [],
                            arrays: [],
                        },
                        settings: Some(
                            ColumnSettings {
                                span_range: 587..597,
                                attributes: [
                                    Attribute {
                                        span_range: 588..596,
                                        key: Ident {
                                            span_range: 588..596,
                                            raw: ""not null"",
                                            to_string: ""not null"",
                                        },
                                        value: None,
                                    },
                                ],
                                is_pk: false,
                                is_unique: false,
 " ++
 s "                               nullable: Some(
                                    NotNull,
                                ),
                                is_incremental: false,
                                note: None,
                                default: None,
                                refs: [],
                            },
                        ),
                    },
                    TableColumn {
                        span_range: 600..640,
                        name: Ident {
                            span_range: 600..612,
                            raw: ""\""created_at\"""",
                            to_string: ""created_at"",
                        },
                        type: ColumnType {
                            span_range: 613..621,
                            raw: ""datetime"",
                            type_name: Raw(
                                ""datetime"",
                            ),
                            args: [],
                            arrays: [],
                        },
                        settings: Some(
                            ColumnSettings {
                                span_range: 622..640,
                                attributes: [
                                    Attribute {
                                        span_range: 623..639,
                                        key: Ident {
                                            span_range: 623..630,
                                            raw: ""default"",
                                            to_string: ""default"",
                                        },
                                        value: Some(
                                            Literal {
                                                span_range: 632..639,
                                                raw: ""`now()`"",
                                                value: Expr(
                                                    ""now()" ++
 s """,
                                                ),
                                            },
                                        ),
                                    },
                                ],
                                is_pk: false,
                                is_unique: false,
                                nullable: None,
                                is_incremental: false,
                                note: None,
                                default: Some(
                                    Expr(
                                        ""now()"",
                                    ),
                                ),
                                refs: [],
                            },
                        ),
                    },
                ],
                ident: TableIdent {
                    span_range: 459..470,
                    name: Ident {
                        span_range: 459..469,
                        raw: ""\""products\"""",
                        to_string: ""products"",
                    },
                    schema: None,
                    alias: None,
                },
                note: None,
                indexes: Some(
                    IndexesBlock {
                        span_range: 650..742,
                        defs: [
                            IndexesDef {
                                span_range: 654..700,
                                cols: [
                                    String(
                                        Ident {
                                            span_range: 655..666,
                                            raw: ""merchant_id"",
                                            to_string: ""merchant_id"",
                                        },
                                    ),
                                    String(
                                        Ident {
                                            span_rang" ++
 s "e: 668..674,
                                            raw: ""status"",
                                            to_string: ""status"",
                                        },
                                    ),
                                ],
                                settings: Some(
                                    IndexesSettings {
                                        span_range: 676..700,
                                        attributes: [
                                            Attribute {
                                                span_range: 677..699,
                                                key: Ident {
                                                    span_range: 677..681,
                                                    raw: ""name"",
                                                    to_string: ""name"",
                                                },
                                                value: Some(
                                                    Literal {
                                                        span_range: 683..699,
                                                        raw: ""\""product_status\"""",
                                                        value: String(
                                                            ""product_status"",
                                                        ),
                                                    },
                                                ),
                                            },
                                        ],
                                        type: None,
                                        is_unique: false,
                                        is_pk: false,
                                        note: None,
                                        name: Some(
                                            ""product_status"",
                                        ),
                   " ++
 s "                 },
                                ),
                            },
                            IndexesDef {
                                span_range: 703..740,
                                cols: [
                                    String(
                                        Ident {
                                            span_range: 703..705,
                                            raw: ""id"",
                                            to_string: ""id"",
                                        },
                                    ),
                                ],
                                settings: Some(
                                    IndexesSettings {
                                        span_range: 706..740,
                                        attributes: [
                                            Attribute {
                                                span_range: 707..713,
                                                key: Ident {
                                                    span_range: 707..713,
                                                    raw: ""unique"",
                                                    to_string: ""unique"",
                                                },
                                                value: None,
                                            },
                                            Attribute {
                                                span_range: 715..739,
                                                key: Ident {
                                                    span_range: 715..719,
                                                    raw: ""name"",
                                                    to_string: ""name"",
                                                },
                                                value: Some(
                                                    Literal {
                                       " ++
 s "                 span_range: 721..739,
                                                        raw: ""\""products_index_1\"""",
                                                        value: String(
                                                            ""products_index_1"",
                                                        ),
                                                    },
                                                ),
                                            },
                                        ],
                                        type: None,
                                        is_unique: true,
                                        is_pk: false,
                                        note: None,
                                        name: Some(
                                            ""products_index_1"",
                                        ),
                                    },
                                ),
                            },
                        ],
                    },
                ),
                settings: None,
            },
        ),
        Table(
            TableBlock {
                span_range: 746..942,
                cols: [
                    TableColumn {
                        span_range: 764..777,
                        name: Ident {
                            span_range: 764..768,
                            raw: ""\""id\"""",
                            to_string: ""id"",
                        },
                        type: ColumnType {
                            span_range: 769..772,
                            raw: ""int"",
                            type_name: Raw(
                                ""int"",
                            ),
                            args: [],
                            arrays: [],
                        },
                        settings: Some(
                            ColumnSettings {
                                span_range" ++
 s ": 773..777,
                                attributes: [
                                    Attribute {
                                        span_range: 774..776,
                                        key: Ident {
                                            span_range: 774..776,
                                            raw: ""pk"",
                                            to_string: ""pk"",
                                        },
                                        value: None,
                                    },
                                ],
                                is_pk: true,
                                is_unique: false,
                                nullable: None,
                                is_incremental: false,
                                note: None,
                                default: None,
                                refs: [],
                            },
                        ),
                    },
                    TableColumn {
                        span_range: 780..807,
                        name: Ident {
                            span_range: 780..791,
                            raw: ""\""full_name\"""",
                            to_string: ""full_name"",
                        },
                        type: ColumnType {
                            span_range: 792..804,
                            raw: ""varchar(255)"",
                            type_name: Raw(
                                ""varchar"",
                            ),
                            args: [
                                Integer(
                                    255,
                                ),
                            ],
                            arrays: [],
                        },
                        settings: None,
                    },
                    TableColumn {
                        span_range: 807..836,
                        name: Ident {
                          " ++
 s "  span_range: 807..814,
                            raw: ""\""email\"""",
                            to_string: ""email"",
                        },
                        type: ColumnType {
                            span_range: 815..827,
                            raw: ""varchar(255)"",
                            type_name: Raw(
                                ""varchar"",
                            ),
                            args: [
                                Integer(
                                    255,
                                ),
                            ],
                            arrays: [],
                        },
                        settings: Some(
                            ColumnSettings {
                                span_range: 828..836,
                                attributes: [
                                    Attribute {
                                        span_range: 829..835,
                                        key: Ident {
                                            span_range: 829..835,
                                            raw: ""unique"",
                                            to_string: ""unique"",
                                        },
                                        value: None,
                                    },
                                ],
                                is_pk: false,
                                is_unique: true,
                                nullable: None,
                                is_incremental: false,
                                note: None,
                                default: None,
                                refs: [],
                            },
                        ),
                    },
                    TableColumn {
                        span_range: 839..863,
                        name: Ident {
                            span_range: 839..847,
                            raw: ""\""gender\"""",
         " ++
 s "                   to_string: ""gender"",
                        },
                        type: ColumnType {
                            span_range: 848..860,
                            raw: ""varchar(255)"",
                            type_name: Raw(
                                ""varchar"",
                            ),
                            args: [
                                Integer(
                                    255,
                                ),
                            ],
                            arrays: [],
                        },
                        settings: None,
                    },
                    TableColumn {
                        span_range: 863..894,
                        name: Ident {
                            span_range: 863..878,
                            raw: ""\""date_of_birth\"""",
                            to_string: ""date_of_birth"",
                        },
                        type: ColumnType {
                            span_range: 879..891,
                            raw: ""varchar(255)"",
                            type_name: Raw(
                                ""varchar"",
                            ),
                            args: [
                                Integer(
                                    255,
                                ),
                            ],
                            arrays: [],
                        },
                        settings: None,
                    },
                    TableColumn {
                        span_range: 894..922,
                        name: Ident {
                            span_range: 894..906,
                            raw: ""\""created_at\"""",
                            to_string: ""created_at"",
                        },
                        type: ColumnType {
                            span_range: 907..919,
                            raw: ""varchar(255)"",
                            type_name: " ++
 s "Raw(
                                ""varchar"",
                            ),
                            args: [
                                Integer(
                                    255,
                                ),
                            ],
                            arrays: [],
                        },
                        settings: None,
                    },
                    TableColumn {
                        span_range: 922..941,
                        name: Ident {
                            span_range: 922..936,
                            raw: ""\""country_code\"""",
                            to_string: ""country_code"",
                        },
                        type: ColumnType {
                            span_range: 937..940,
                            raw: ""int"",
                            type_name: Raw(
                                ""int"",
                            ),
                            args: [],
                            arrays: [],
                        },
                        settings: None,
                    },
                ],
                ident: TableIdent {
                    span_range: 752..760,
                    name: Ident {
                        span_range: 752..759,
                        raw: ""\""users\"""",
                        to_string: ""users"",
                    },
                    schema: None,
                    alias: None,
                },
                note: None,
                indexes: None,
                settings: None,
            },
        ),
        Table(
            TableBlock {
                span_range: 944..1078,
                cols: [
                    TableColumn {
                        span_range: 966..979,
                        name: Ident {
                            span_range: 966..970,
                            raw: ""\""id\"""",
                            to_string: ""id"",
                        },
              " ++
 s "          type: ColumnType {
                            span_range: 971..974,
                            raw: ""int"",
                            type_name: Raw(
                                ""int"",
                            ),
                            args: [],
                            arrays: [],
                        },
                        settings: Some(
                            ColumnSettings {
                                span_range: 975..979,
                                attributes: [
                                    Attribute {
                                        span_range: 976..978,
                                        key: Ident {
                                            span_range: 976..978,
                                            raw: ""pk"",
                                            to_string: ""pk"",
                                        },
                                        value: None,
                                    },
                                ],
                                is_pk: true,
                                is_unique: false,
                                nullable: None,
                                is_incremental: false,
                                note: None,
                                default: None,
                                refs: [],
                            },
                        ),
                    },
                    TableColumn {
                        span_range: 982..1013,
                        name: Ident {
                            span_range: 982..997,
                            raw: ""\""merchant_name\"""",
                            to_string: ""merchant_name"",
                        },
                        type: ColumnType {
                            span_range: 998..1010,
                            raw: ""varchar(255)"",
                            type_name: Raw(
                                ""varchar"",
              " ++
 s "              ),
                            args: [
                                Integer(
                                    255,
                                ),
                            ],
                            arrays: [],
                        },
                        settings: None,
                    },
                    TableColumn {
                        span_range: 1013..1034,
                        name: Ident {
                            span_range: 1013..1027,
                            raw: ""\""country_code\"""",
                            to_string: ""country_code"",
                        },
                        type: ColumnType {
                            span_range: 1028..1031,
                            raw: ""int"",
                            type_name: Raw(
                                ""int"",
                            ),
                            args: [],
                            arrays: [],
                        },
                        settings: None,
                    },
                    TableColumn {
                        span_range: 1034..1062,
                        name: Ident {
                            span_range: 1034..1046,
                            raw: ""\""created_at\"""",
                            to_string: ""created_at"",
                        },
                        type: ColumnType {
                            span_range: 1047..1059,
                            raw: ""varchar(255)"",
                            type_name: Raw(
                                ""varchar"",
                            ),
                            args: [
                                Integer(
                                    255,
                                ),
                            ],
                            arrays: [],
                        },
                        settings: None,
                    },
                    TableColumn {
                        span_ran" ++
 s "ge: 1062..1077,
                        name: Ident {
                            span_range: 1062..1072,
                            raw: ""\""admin_id\"""",
                            to_string: ""admin_id"",
                        },
                        type: ColumnType {
                            span_range: 1073..1076,
                            raw: ""int"",
                            type_name: Raw(
                                ""int"",
                            ),
                            args: [],
                            arrays: [],
                        },
                        settings: None,
                    },
                ],
                ident: TableIdent {
                    span_range: 950..962,
                    name: Ident {
                        span_range: 950..961,
                        raw: ""\""merchants\"""",
                        to_string: ""merchants"",
                    },
                    schema: None,
                    alias: None,
                },
                note: None,
                indexes: None,
                settings: None,
            },
        ),
        Table(
            TableBlock {
                span_range: 1080..1173,
                cols: [
                    TableColumn {
                        span_range: 1102..1117,
                        name: Ident {
                            span_range: 1102..1108,
                            raw: ""\""code\"""",
                            to_string: ""code"",
                        },
                        type: ColumnType {
                            span_range: 1109..1112,
                            raw: ""int"",
                            type_name: Raw(
                                ""int"",
                            ),
                            args: [],
                            arrays: [],
                        },
                        settings: Some(
                            ColumnSettings {
                   " ++
 s "             span_range: 1113..1117,
                                attributes: [
                                    Attribute {
                                        span_range: 1114..1116,
                                        key: Ident {
                                            span_range: 1114..1116,
                                            raw: ""pk"",
                                            to_string: ""pk"",
                                        },
                                        value: None,
                                    },
                                ],
                                is_pk: true,
                                is_unique: false,
                                nullable: None,
                                is_incremental: false,
                                note: None,
                                default: None,
                                refs: [],
                            },
                        ),
                    },
                    TableColumn {
                        span_range: 1120..1142,
                        name: Ident {
                            span_range: 1120..1126,
                            raw: ""\""name\"""",
                            to_string: ""name"",
                        },
                        type: ColumnType {
                            span_range: 1127..1139,
                            raw: ""varchar(255)"",
                            type_name: Raw(
                                ""varchar"",
                            ),
                            args: [
                                Integer(
                                    255,
                                ),
                            ],
                            arrays: [],
                        },
                        settings: None,
                    },
                    TableColumn {
                        span_range: 1142..1172,
                        name: Ident {" ++
 s "
                            span_range: 1142..1158,
                            raw: ""\""continent_name\"""",
                            to_string: ""continent_name"",
                        },
                        type: ColumnType {
                            span_range: 1159..1171,
                            raw: ""varchar(255)"",
                            type_name: Raw(
                                ""varchar"",
                            ),
                            args: [
                                Integer(
                                    255,
                                ),
                            ],
                            arrays: [],
                        },
                        settings: None,
                    },
                ],
                ident: TableIdent {
                    span_range: 1086..1098,
                    name: Ident {
                        span_range: 1086..1097,
                        raw: ""\""countries\"""",
                        to_string: ""countries"",
                    },
                    schema: None,
                    alias: None,
                },
                note: None,
                indexes: None,
                settings: None,
            },
        ),
        Ref(
            RefBlock {
                span_range: 1179..1221,
                name: None,
                rel: One2Many,
                lhs: RefIdent {
                    span_range: 1179..1192,
                    schema: None,
                    table: Ident {
                        span_range: 1179..1187,
                        raw: ""\""orders\"""",
                        to_string: ""orders"",
                    },
                    compositions: [
                        Ident {
                            span_range: 1188..1192,
                            raw: ""\""id\"""",
                            to_string: ""id"",
                        },
                    ],
                },
               " ++
 s " rhs: RefIdent {
                    span_range: 1195..1219,
                    schema: None,
                    table: Ident {
                        span_range: 1195..1208,
                        raw: ""\""order_items\"""",
                        to_string: ""order_items"",
                    },
                    compositions: [
                        Ident {
                            span_range: 1209..1219,
                            raw: ""\""order_id\"""",
                            to_string: ""order_id"",
                        },
                    ],
                },
                settings: None,
            },
        ),
        Ref(
            RefBlock {
                span_range: 1225..1271,
                name: None,
                rel: One2Many,
                lhs: RefIdent {
                    span_range: 1225..1240,
                    schema: None,
                    table: Ident {
                        span_range: 1225..1235,
                        raw: ""\""products\"""",
                        to_string: ""products"",
                    },
                    compositions: [
                        Ident {
                            span_range: 1236..1240,
                            raw: ""\""id\"""",
                            to_string: ""id"",
                        },
                    ],
                },
                rhs: RefIdent {
                    span_range: 1243..1269,
                    schema: None,
                    table: Ident {
                        span_range: 1243..1256,
                        raw: ""\""order_items\"""",
                        to_string: ""order_items"",
                    },
                    compositions: [
                        Ident {
                            span_range: 1257..1269,
                            raw: ""\""product_id\"""",
                            to_string: ""product_id"",
                        },
                    ],
                },
                settings: N" ++
 s "one,
            },
        ),
        Ref(
            RefBlock {
                span_range: 1275..1320,
                name: None,
                rel: One2Many,
                lhs: RefIdent {
                    span_range: 1275..1293,
                    schema: None,
                    table: Ident {
                        span_range: 1275..1286,
                        raw: ""\""countries\"""",
                        to_string: ""countries"",
                    },
                    compositions: [
                        Ident {
                            span_range: 1287..1293,
                            raw: ""\""code\"""",
                            to_string: ""code"",
                        },
                    ],
                },
                rhs: RefIdent {
                    span_range: 1296..1318,
                    schema: None,
                    table: Ident {
                        span_range: 1296..1303,
                        raw: ""\""users\"""",
                        to_string: ""users"",
                    },
                    compositions: [
                        Ident {
                            span_range: 1304..1318,
                            raw: ""\""country_code\"""",
                            to_string: ""country_code"",
                        },
                    ],
                },
                settings: None,
            },
        ),
        Ref(
            RefBlock {
                span_range: 1324..1373,
                name: None,
                rel: One2Many,
                lhs: RefIdent {
                    span_range: 1324..1342,
                    schema: None,
                    table: Ident {
                        span_range: 1324..1335,
                        raw: ""\""countries\"""",
                        to_string: ""countries"",
                    },
                    compositions: [
                        Ident {
                            span_range: 1336..1342,
                     " ++
 s "       raw: ""\""code\"""",
                            to_string: ""code"",
                        },
                    ],
                },
                rhs: RefIdent {
                    span_range: 1345..1371,
                    schema: None,
                    table: Ident {
                        span_range: 1345..1356,
                        raw: ""\""merchants\"""",
                        to_string: ""merchants"",
                    },
                    compositions: [
                        Ident {
                            span_range: 1357..1371,
                            raw: ""\""country_code\"""",
                            to_string: ""country_code"",
                        },
                    ],
                },
                settings: None,
            },
        ),
        Ref(
            RefBlock {
                span_range: 1377..1422,
                name: None,
                rel: One2Many,
                lhs: RefIdent {
                    span_range: 1377..1393,
                    schema: None,
                    table: Ident {
                        span_range: 1377..1388,
                        raw: ""\""merchants\"""",
                        to_string: ""merchants"",
                    },
                    compositions: [
                        Ident {
                            span_range: 1389..1393,
                            raw: ""\""id\"""",
                            to_string: ""id"",
                        },
                    ],
                },
                rhs: RefIdent {
                    span_range: 1396..1420,
                    schema: None,
                    table: Ident {
                        span_range: 1396..1406,
                        raw: ""\""products\"""",
                        to_string: ""products"",
                    },
                    compositions: [
                        Ident {
                            span_range: 1407..1420,
                            raw: ""\""merchant_" ++
 s "id\"""",
                            to_string: ""merchant_id"",
                        },
                    ],
                },
                settings: None,
            },
        ),
        Ref(
            RefBlock {
                span_range: 1426..1463,
                name: None,
                rel: One2Many,
                lhs: RefIdent {
                    span_range: 1426..1438,
                    schema: None,
                    table: Ident {
                        span_range: 1426..1433,
                        raw: ""\""users\"""",
                        to_string: ""users"",
                    },
                    compositions: [
                        Ident {
                            span_range: 1434..1438,
                            raw: ""\""id\"""",
                            to_string: ""id"",
                        },
                    ],
                },
                rhs: RefIdent {
                    span_range: 1441..1463,
                    schema: None,
                    table: Ident {
                        span_range: 1441..1452,
                        raw: ""\""merchants\"""",
                        to_string: ""merchants"",
                    },
                    compositions: [
                        Ident {
                            span_range: 1453..1463,
                            raw: ""\""admin_id\"""",
                            to_string: ""admin_id"",
                        },
                    ],
                },
                settings: None,
            },
        ),
    ],
}") = true.
Proof. vm_compute. reflexivity. Qed.

(** tests/dbml/mssql_importer/multiple_schema.out.dbml *)
Example golden_mssql_importer_multiple_schema : prints
(s "Enum ""users_pjs_enum"" {
  ""created2""
  ""running2""
  ""done2""
  ""failure2""
}

Enum ""users_pjs2_enum"" {
  ""created2""
  ""running2""
  ""done2""
  ""failure2""
}

Enum ""users_pg_enum"" {
  ""male""
  ""female""
}

Enum ""users_pg2_enum"" {
  ""male2""
  ""female2""
}

Enum ""ecommerce_users_ejs_enum"" {
  ""created2""
  ""running2""
  ""done2""
  ""failure2""
}

Enum ""ecommerce_users_ejs2_enum"" {
  ""created2""
  ""running2""
  ""done2""
  ""failure2""
}

Enum ""ecommerce_users_eg_enum"" {
  ""male""
  ""female""
}

Enum ""ecommerce_users_eg2_enum"" {
  ""male2""
  ""female2""
}

Table ""users"" {
  ""id"" int [pk]
  ""name"" nvarchar(255)
  ""pjs"" users_pjs_enum [not null]
  ""pjs2"" users_pjs2_enum [not null]
  ""pg"" users_pg_enum [not null]
  ""pg2"" users_pg2_enum [not null]
}

Table ""products"" {
  ""id"" int [pk]
  ""name"" nvarchar(255) [note: 'Product name']
}

Ref:""schemaA"".""locations"".""id"" < ""schemaA"".""products"".""lid""

Ref ""FK_1"":""schemaA"".""locations"".""id"" < ""schemaA"".""products"".""lid2""

Ref:""users"".""id"" < ""ecommerce"".""users"".""id""

Ref ""name_optional"":""users"".""name"" < ""ecommerce"".""users"".""id""

Ref:""ecommerce"".""users"".""id"" < ""schemaA"".""products"".""name""

Ref:""users"".""id"" < ""schemaA"".""locations"".""name""

Table ""ecommerce"".""users"" {
  ""id"" int [pk]
  ""name"" nvarchar(255)
  ""ejs"" ecommerce_users_ejs_enum [not null]
  ""ejs2"" ecommerce_users_ejs2_enum [not null]
  ""eg"" ecommerce_users_eg_enum [not null]
  ""eg2"" ecommerce_users_eg2_enum [not null]

Indexes {
  (name, ejs) [name: ""idx_1""]
}
  Note: 'Note on table users of schema ecommerce'
}

Table ""schemaA"".""products"" {
  ""id"" int [pk]
  ""name"" nvarchar(255)
  ""created_at"" varchar(255) [default: `now()`]
  ""lid"" int
  ""lid2"" int

Indexes {
  (lid, lid2) [unique, name: ""unique_lid_lid2""]
}
}

Table ""schemaA"".""locations"" {
  ""id"" int [pk]
  ""name"" nvarchar(255)
  Note: 'This is a note in table ""schemaA"".""locations""'
}")
(s "SchemaBlock {
    span_range: 0..1830,
    input: ""Enum \""users_pjs_enum\"" {\n  \""created2\""\n  \""running2\""\n  \""done2\""\n  \""failure2\""\n}\n\nEnum \""users_pjs2_enum\"" {\n  \""created2\""\n  \""running2\""\n  \""done2\""\n  \""failure2\""\n}\n\nEnum \""users_pg_enum\"" {\n  \""male\""\n  \""female\""\n}\n\nEnum \""users_pg2_enum\"" {\n  \""male2\""\n  \""female2\""\n}\n\nEnum \""ecommerce_users_ejs_enum\"" {\n  \""created2\""\n  \""running2\""\n  \""done2\""\n  \""failure2\""\n}\n\nEnum \""ecommerce_users_ejs2_enum\"" {\n  \""created2\""\n  \""running2\""\n  \""done2\""\n  \""failure2\""\n}\n\nEnum \""ecommerce_users_eg_enum\"" {\n  \""male\""\n  \""female\""\n}\n\nEnum \""ecommerce_users_eg2_enum\"" {\n  \""male2\""\n  \""female2\""\n}\n\nTable \""users\"" {\n  \""id\"" int [pk]\n  \""name\"" nvarchar(255)\n  \""pjs\"" users_pjs_enum [not null]\n  \""pjs2\"" users_pjs2_enum [not null]\n  \""pg\"" users_pg_enum [not null]\n  \""pg2\"" users_pg2_enum [not null]\n}\n\nTable \""products\"" {\n  \""id\"" int [pk]\n  \""name\"" nvarchar(255) [note: 'Product name']\n}\n\nRef:\""schemaA\"".\""locations\"".\""id\"" < \""schemaA\"".\""products\"".\""lid\""\n\nRef \""FK_1\"":\""schemaA\"".\""locations\"".\""id\"" < \""schemaA\"".\""products\"".\""lid2\""\n\nRef:\""users\"".\""id\"" < \""ecommerce\"".\""users\"".\""id\""\n\nRef \""name_optional\"":\""users\"".\""name\"" < \""ecommerce\"".\""users\"".\""id\""\n\nRef:\""ecommerce\"".\""users\"".\""id\"" < \""schemaA\"".\""products\"".\""name\""\n\nRef:\""users\"".\""id\"" < \""schemaA\"".\""locations\"".\""name\""\n\nTable \""ecommerce\"".\""users\"" {\n  \""id\"" int [pk]\n  \""name\"" nvarchar(255)\n  \""ejs\"" ecommerce_users_ejs_enum [not null]\n  \""ejs2\"" ecommerce_users_ejs2_enum [not null]\n  \""eg\"" ecommerce_users_eg_enum [not null]\n  \""eg2\"" ecommerce_users_eg2_enum [not null]\n\nIndexes {\n  (name, ejs) [name: \""idx_1\""]\n}\n  Note: 'Note on table users of schema ecommerce'\n}\n\nTable \""schemaA\"".\""products\"" {\n  \""id\"" int [pk]\n  \""name\"" nvarchar(255)\n  \""created_at\"" varchar(255) [default: `now()`]\n  \""lid\"" int\n  \""lid2\"" int\n\nIndexes {\n  (lid, lid2) [u" ++
 s "nique, name: \""unique_lid_lid2\""]\n}\n}\n\nTable \""schemaA\"".\""locations\"" {\n  \""id\"" int [pk]\n  \""name\"" nvarchar(255)\n  Note: 'This is a note in table \""schemaA\"".\""locations\""'\n}"",
    blocks: [
        Enum(
            EnumBlock {
                span_range: 0..74,
                ident: EnumIdent {
                    span_range: 5..22,
                    schema: None,
                    name: Ident {
                        span_range: 5..21,
                        raw: ""\""users_pjs_enum\"""",
                        to_string: ""users_pjs_enum"",
                    },
                },
                values: [
                    EnumValue {
                        span_range: 26..39,
                        value: Ident {
                            span_range: 26..36,
                            raw: ""\""created2\"""",
                            to_string: ""created2"",
                        },
                        settings: None,
                    },
                    EnumValue {
                        span_range: 39..52,
                        value: Ident {
                            span_range: 39..49,
                            raw: ""\""running2\"""",
                            to_string: ""running2"",
                        },
                        settings: None,
                    },
                    EnumValue {
                        span_range: 52..62,
                        value: Ident {
                            span_range: 52..59,
                            raw: ""\""done2\"""",
                            to_string: ""done2"",
                        },
                        settings: None,
                    },
                    EnumValue {
                        span_range: 62..73,
                        value: Ident {
                            span_range: 62..72,
                            raw: ""\""failure2\"""",
                            to_string: ""failure2"",
                        },
                        s" ++
 s "ettings: None,
                    },
                ],
            },
        ),
        Enum(
            EnumBlock {
                span_range: 76..151,
                ident: EnumIdent {
                    span_range: 81..99,
                    schema: None,
                    name: Ident {
                        span_range: 81..98,
                        raw: ""\""users_pjs2_enum\"""",
                        to_string: ""users_pjs2_enum"",
                    },
                },
                values: [
                    EnumValue {
                        span_range: 103..116,
                        value: Ident {
                            span_range: 103..113,
                            raw: ""\""created2\"""",
                            to_string: ""created2"",
                        },
                        settings: None,
                    },
                    EnumValue {
                        span_range: 116..129,
                        value: Ident {
                            span_range: 116..126,
                            raw: ""\""running2\"""",
                            to_string: ""running2"",
                        },
                        settings: None,
                    },
                    EnumValue {
                        span_range: 129..139,
                        value: Ident {
                            span_range: 129..136,
                            raw: ""\""done2\"""",
                            to_string: ""done2"",
                        },
                        settings: None,
                    },
                    EnumValue {
                        span_range: 139..150,
                        value: Ident {
                            span_range: 139..149,
                            raw: ""\""failure2\"""",
                            to_string: ""failure2"",
                        },
                        settings: None,
                    },
                ],
            },
        ),
        Enum(
" ++
 s "            EnumBlock {
                span_range: 153..197,
                ident: EnumIdent {
                    span_range: 158..174,
                    schema: None,
                    name: Ident {
                        span_range: 158..173,
                        raw: ""\""users_pg_enum\"""",
                        to_string: ""users_pg_enum"",
                    },
                },
                values: [
                    EnumValue {
                        span_range: 178..187,
                        value: Ident {
                            span_range: 178..184,
                            raw: ""\""male\"""",
                            to_string: ""male"",
                        },
                        settings: None,
                    },
                    EnumValue {
                        span_range: 187..196,
                        value: Ident {
                            span_range: 187..195,
                            raw: ""\""female\"""",
                            to_string: ""female"",
                        },
                        settings: None,
                    },
                ],
            },
        ),
        Enum(
            EnumBlock {
                span_range: 199..246,
                ident: EnumIdent {
                    span_range: 204..221,
                    schema: None,
                    name: Ident {
                        span_range: 204..220,
                        raw: ""\""users_pg2_enum\"""",
                        to_string: ""users_pg2_enum"",
                    },
                },
                values: [
                    EnumValue {
                        span_range: 225..235,
                        value: Ident {
                            span_range: 225..232,
                            raw: ""\""male2\"""",
                            to_string: ""male2"",
                        },
                        settings: None,
                    },
                    EnumValue {
        " ++
 s "                span_range: 235..245,
                        value: Ident {
                            span_range: 235..244,
                            raw: ""\""female2\"""",
                            to_string: ""female2"",
                        },
                        settings: None,
                    },
                ],
            },
        ),
        Enum(
            EnumBlock {
                span_range: 248..332,
                ident: EnumIdent {
                    span_range: 253..280,
                    schema: None,
                    name: Ident {
                        span_range: 253..279,
                        raw: ""\""ecommerce_users_ejs_enum\"""",
                        to_string: ""ecommerce_users_ejs_enum"",
                    },
                },
                values: [
                    EnumValue {
                        span_range: 284..297,
                        value: Ident {
                            span_range: 284..294,
                            raw: ""\""created2\"""",
                            to_string: ""created2"",
                        },
                        settings: None,
                    },
                    EnumValue {
                        span_range: 297..310,
                        value: Ident {
                            span_range: 297..307,
                            raw: ""\""running2\"""",
                            to_string: ""running2"",
                        },
                        settings: None,
                    },
                    EnumValue {
                        span_range: 310..320,
                        value: Ident {
                            span_range: 310..317,
                            raw: ""\""done2\"""",
                            to_string: ""done2"",
                        },
                        settings: None,
                    },
                    EnumValue {
                        span_range: 320..331,
                        value: Ident {" ++
 s "
                            span_range: 320..330,
                            raw: ""\""failure2\"""",
                            to_string: ""failure2"",
                        },
                        settings: None,
                    },
                ],
            },
        ),
        Enum(
            EnumBlock {
                span_range: 334..419,
                ident: EnumIdent {
                    span_range: 339..367,
                    schema: None,
                    name: Ident {
                        span_range: 339..366,
                        raw: ""\""ecommerce_users_ejs2_enum\"""",
                        to_string: ""ecommerce_users_ejs2_enum"",
                    },
                },
                values: [
                    EnumValue {
                        span_range: 371..384,
                        value: Ident {
                            span_range: 371..381,
                            raw: ""\""created2\"""",
                            to_string: ""created2"",
                        },
                        settings: None,
                    },
                    EnumValue {
                        span_range: 384..397,
                        value: Ident {
                            span_range: 384..394,
                            raw: ""\""running2\"""",
                            to_string: ""running2"",
                        },
                        settings: None,
                    },
                    EnumValue {
                        span_range: 397..407,
                        value: Ident {
                            span_range: 397..404,
                            raw: ""\""done2\"""",
                            to_string: ""done2"",
                        },
                        settings: None,
                    },
                    EnumValue {
                        span_range: 407..418,
                        value: Ident {
                            span_range: 407..417,
                     " ++
 s "       raw: ""\""failure2\"""",
                            to_string: ""failure2"",
                        },
                        settings: None,
                    },
                ],
            },
        ),
        Enum(
            EnumBlock {
                span_range: 421..475,
                ident: EnumIdent {
                    span_range: 426..452,
                    schema: None,
                    name: Ident {
                        span_range: 426..451,
                        raw: ""\""ecommerce_users_eg_enum\"""",
                        to_string: ""ecommerce_users_eg_enum"",
                    },
                },
                values: [
                    EnumValue {
                        span_range: 456..465,
                        value: Ident {
                            span_range: 456..462,
                            raw: ""\""male\"""",
                            to_string: ""male"",
                        },
                        settings: None,
                    },
                    EnumValue {
                        span_range: 465..474,
                        value: Ident {
                            span_range: 465..473,
                            raw: ""\""female\"""",
                            to_string: ""female"",
                        },
                        settings: None,
                    },
                ],
            },
        ),
        Enum(
            EnumBlock {
                span_range: 477..534,
                ident: EnumIdent {
                    span_range: 482..509,
                    schema: None,
                    name: Ident {
                        span_range: 482..508,
                        raw: ""\""ecommerce_users_eg2_enum\"""",
                        to_string: ""ecommerce_users_eg2_enum"",
                    },
                },
                values: [
                    EnumValue {
                        span_range: 513..523,
                        value: Ident {
      " ++
 s "                      span_range: 513..520,
                            raw: ""\""male2\"""",
                            to_string: ""male2"",
                        },
                        settings: None,
                    },
                    EnumValue {
                        span_range: 523..533,
                        value: Ident {
                            span_range: 523..532,
                            raw: ""\""female2\"""",
                            to_string: ""female2"",
                        },
                        settings: None,
                    },
                ],
            },
        ),
        Table(
            TableBlock {
                span_range: 536..728,
                cols: [
                    TableColumn {
                        span_range: 554..567,
                        name: Ident {
                            span_range: 554..558,
                            raw: ""\""id\"""",
                            to_string: ""id"",
                        },
                        type: ColumnType {
                            span_range: 559..562,
                            raw: ""int"",
                            type_name: Raw(
                                ""int"",
                            ),
                            args: [],
                            arrays: [],
                        },
                        settings: Some(
                            ColumnSettings {
                                span_range: 563..567,
                                attributes: [
                                    Attribute {
                                        span_range: 564..566,
                                        key: Ident {
                                            span_range: 564..566,
                                            raw: ""pk"",
                                            to_string: ""pk"",
                                        },
                                        value: None,
         " ++
 s "                           },
                                ],
                                is_pk: true,
                                is_unique: false,
                                nullable: None,
                                is_incremental: false,
                                note: None,
                                default: None,
                                refs: [],
                            },
                        ),
                    },
                    TableColumn {
                        span_range: 570..593,
                        name: Ident {
                            span_range: 570..576,
                            raw: ""\""name\"""",
                            to_string: ""name"",
                        },
                        type: ColumnType {
                            span_range: 577..590,
                            raw: ""nvarchar(255)"",
                            type_name: Raw(
                                ""nvarchar"",
                            ),
                            args: [
                                Integer(
                                    255,
                                ),
                            ],
                            arrays: [],
                        },
                        settings: None,
                    },
                    TableColumn {
                        span_range: 593..624,
                        name: Ident {
                            span_range: 593..598,
                            raw: ""\""pjs\"""",
                            to_string: ""pjs"",
                        },
                        type: ColumnType {
                            span_range: 599..613,
                            raw: ""users_pjs_enum"",
                            type_name: Raw(
                                ""users_pjs_enum"",
                            ),
                            args: [],
                            arrays: [],
                        },
 " ++
 s "                       settings: Some(
                            ColumnSettings {
                                span_range: 614..624,
                                attributes: [
                                    Attribute {
                                        span_range: 615..623,
                                        key: Ident {
                                            span_range: 615..623,
                                            raw: ""not null"",
                                            to_string: ""not null"",
                                        },
                                        value: None,
                                    },
                                ],
                                is_pk: false,
                                is_unique: false,
                                nullable: Some(
                                    NotNull,
                                ),
                                is_incremental: false,
                                note: None,
                                default: None,
                                refs: [],
                            },
                        ),
                    },
                    TableColumn {
                        span_range: 627..660,
                        name: Ident {
                            span_range: 627..633,
                            raw: ""\""pjs2\"""",
                            to_string: ""pjs2"",
                        },
                        type: ColumnType {
                            span_range: 634..649,
                            raw: ""users_pjs2_enum"",
                            type_name: Raw(
                                ""users_pjs2_enum"",
                            ),
                            args: [],
                            arrays: [],
                        },
                        settings: Some(
                            ColumnSettings {
                                span_range: 650." ++
 s ".660,
                                attributes: [
                                    Attribute {
                                        span_range: 651..659,
                                        key: Ident {
                                            span_range: 651..659,
                                            raw: ""not null"",
                                            to_string: ""not null"",
                                        },
                                        value: None,
                                    },
                                ],
                                is_pk: false,
                                is_unique: false,
                                nullable: Some(
                                    NotNull,
                                ),
                                is_incremental: false,
                                note: None,
                                default: None,
                                refs: [],
                            },
                        ),
                    },
                    TableColumn {
                        span_range: 663..692,
                        name: Ident {
                            span_range: 663..667,
                            raw: ""\""pg\"""",
                            to_string: ""pg"",
                        },
                        type: ColumnType {
                            span_range: 668..681,
                            raw: ""users_pg_enum"",
                            type_name: Raw(
                                ""users_pg_enum"",
                            ),
                            args: [],
                            arrays: [],
                        },
                        settings: Some(
                            ColumnSettings {
                                span_range: 682..692,
                                attributes: [
                                    Attribute {
                                        " ++
 s "span_range: 683..691,
                                        key: Ident {
                                            span_range: 683..691,
                                            raw: ""not null"",
                                            to_string: ""not null"",
                                        },
                                        value: None,
                                    },
                                ],
                                is_pk: false,
                                is_unique: false,
                                nullable: Some(
                                    NotNull,
                                ),
                                is_incremental: false,
                                note: None,
                                default: None,
                                refs: [],
                            },
                        ),
                    },
                    TableColumn {
                        span_range: 695..726,
                        name: Ident {
                            span_range: 695..700,
                            raw: ""\""pg2\"""",
                            to_string: ""pg2"",
                        },
                        type: ColumnType {
                            span_range: 701..715,
                            raw: ""users_pg2_enum"",
                            type_name: Raw(
                                ""users_pg2_enum"",
                            ),
                            args: [],
                            arrays: [],
                        },
                        settings: Some(
                            ColumnSettings {
                                span_range: 716..726,
                                attributes: [
                                    Attribute {
                                        span_range: 717..725,
                                        key: Ident {
                                            span_range: 717.." ++
 s "725,
                                            raw: ""not null"",
                                            to_string: ""not null"",
                                        },
                                        value: None,
                                    },
                                ],
                                is_pk: false,
                                is_unique: false,
                                nullable: Some(
                                    NotNull,
                                ),
                                is_incremental: false,
                                note: None,
                                default: None,
                                refs: [],
                            },
                        ),
                    },
                ],
                ident: TableIdent {
                    span_range: 542..550,
                    name: Ident {
                        span_range: 542..549,
                        raw: ""\""users\"""",
                        to_string: ""users"",
                    },
                    schema: None,
                    alias: None,
                },
                note: None,
                indexes: None,
                settings: None,
            },
        ),
        Table(
            TableBlock {
                span_range: 730..812,
                cols: [
                    TableColumn {
                        span_range: 751..764,
                        name: Ident {
                            span_range: 751..755,
                            raw: ""\""id\"""",
                            to_string: ""id"",
                        },
                        type: ColumnType {
                            span_range: 756..759,
                            raw: ""int"",
                            type_name: Raw(
                                ""int"",
                            ),
                            args: [],
                            arrays: [],
     " ++
 s "                   },
                        settings: Some(
                            ColumnSettings {
                                span_range: 760..764,
                                attributes: [
                                    Attribute {
                                        span_range: 761..763,
                                        key: Ident {
                                            span_range: 761..763,
                                            raw: ""pk"",
                                            to_string: ""pk"",
                                        },
                                        value: None,
                                    },
                                ],
                                is_pk: true,
                                is_unique: false,
                                nullable: None,
                                is_incremental: false,
                                note: None,
                                default: None,
                                refs: [],
                            },
                        ),
                    },
                    TableColumn {
                        span_range: 767..810,
                        name: Ident {
                            span_range: 767..773,
                            raw: ""\""name\"""",
                            to_string: ""name"",
                        },
                        type: ColumnType {
                            span_range: 774..787,
                            raw: ""nvarchar(255)"",
                            type_name: Raw(
                                ""nvarchar"",
                            ),
                            args: [
                                Integer(
                                    255,
                                ),
                            ],
                            arrays: [],
                        },
                        settings: Some(
                          " ++
 s "  ColumnSettings {
                                span_range: 788..810,
                                attributes: [
                                    Attribute {
                                        span_range: 789..809,
                                        key: Ident {
                                            span_range: 789..793,
                                            raw: ""note"",
                                            to_string: ""note"",
                                        },
                                        value: Some(
                                            Literal {
                                                span_range: 795..809,
                                                raw: ""'Product name'"",
                                                value: String(
                                                    ""Product name"",
                                                ),
                                            },
                                        ),
                                    },
                                ],
                                is_pk: false,
                                is_unique: false,
                                nullable: None,
                                is_incremental: false,
                                note: Some(
                                    ""Product name"",
                                ),
                                default: None,
                                refs: [],
                            },
                        ),
                    },
                ],
                ident: TableIdent {
                    span_range: 736..747,
                    name: Ident {
                        span_range: 736..746,
                        raw: ""\""products\"""",
                        to_string: ""products"",
                    },
                    schema: None,
                    alias: None,
                },
                n" ++
 s "ote: None,
                indexes: None,
                settings: None,
            },
        ),
        Ref(
            RefBlock {
                span_range: 818..875,
                name: None,
                rel: One2Many,
                lhs: RefIdent {
                    span_range: 818..844,
                    schema: Some(
                        Ident {
                            span_range: 818..827,
                            raw: ""\""schemaA\"""",
                            to_string: ""schemaA"",
                        },
                    ),
                    table: Ident {
                        span_range: 828..839,
                        raw: ""\""locations\"""",
                        to_string: ""locations"",
                    },
                    compositions: [
                        Ident {
                            span_range: 840..844,
                            raw: ""\""id\"""",
                            to_string: ""id"",
                        },
                    ],
                },
                rhs: RefIdent {
                    span_range: 847..873,
                    schema: Some(
                        Ident {
                            span_range: 847..856,
                            raw: ""\""schemaA\"""",
                            to_string: ""schemaA"",
                        },
                    ),
                    table: Ident {
                        span_range: 857..867,
                        raw: ""\""products\"""",
                        to_string: ""products"",
                    },
                    compositions: [
                        Ident {
                            span_range: 868..873,
                            raw: ""\""lid\"""",
                            to_string: ""lid"",
                        },
                    ],
                },
                settings: None,
            },
        ),
        Ref(
            RefBlock {
                span_range: 886..944,
             " ++
 s "   name: Some(
                    Ident {
                        span_range: 879..885,
                        raw: ""\""FK_1\"""",
                        to_string: ""FK_1"",
                    },
                ),
                rel: One2Many,
                lhs: RefIdent {
                    span_range: 886..912,
                    schema: Some(
                        Ident {
                            span_range: 886..895,
                            raw: ""\""schemaA\"""",
                            to_string: ""schemaA"",
                        },
                    ),
                    table: Ident {
                        span_range: 896..907,
                        raw: ""\""locations\"""",
                        to_string: ""locations"",
                    },
                    compositions: [
                        Ident {
                            span_range: 908..912,
                            raw: ""\""id\"""",
                            to_string: ""id"",
                        },
                    ],
                },
                rhs: RefIdent {
                    span_range: 915..942,
                    schema: Some(
                        Ident {
                            span_range: 915..924,
                            raw: ""\""schemaA\"""",
                            to_string: ""schemaA"",
                        },
                    ),
                    table: Ident {
                        span_range: 925..935,
                        raw: ""\""products\"""",
                        to_string: ""products"",
                    },
                    compositions: [
                        Ident {
                            span_range: 936..942,
                            raw: ""\""lid2\"""",
                            to_string: ""lid2"",
                        },
                    ],
                },
                settings: None,
            },
        ),
        Ref(
            RefBlock {
                span_range: 948..989" ++
 s ",
                name: None,
                rel: One2Many,
                lhs: RefIdent {
                    span_range: 948..960,
                    schema: None,
                    table: Ident {
                        span_range: 948..955,
                        raw: ""\""users\"""",
                        to_string: ""users"",
                    },
                    compositions: [
                        Ident {
                            span_range: 956..960,
                            raw: ""\""id\"""",
                            to_string: ""id"",
                        },
                    ],
                },
                rhs: RefIdent {
                    span_range: 963..987,
                    schema: Some(
                        Ident {
                            span_range: 963..974,
                            raw: ""\""ecommerce\"""",
                            to_string: ""ecommerce"",
                        },
                    ),
                    table: Ident {
                        span_range: 975..982,
                        raw: ""\""users\"""",
                        to_string: ""users"",
                    },
                    compositions: [
                        Ident {
                            span_range: 983..987,
                            raw: ""\""id\"""",
                            to_string: ""id"",
                        },
                    ],
                },
                settings: None,
            },
        ),
        Ref(
            RefBlock {
                span_range: 1009..1052,
                name: Some(
                    Ident {
                        span_range: 993..1008,
                        raw: ""\""name_optional\"""",
                        to_string: ""name_optional"",
                    },
                ),
                rel: One2Many,
                lhs: RefIdent {
                    span_range: 1009..1023,
                    schema: None,
                    table: Ident {
  " ++
 s "                      span_range: 1009..1016,
                        raw: ""\""users\"""",
                        to_string: ""users"",
                    },
                    compositions: [
                        Ident {
                            span_range: 1017..1023,
                            raw: ""\""name\"""",
                            to_string: ""name"",
                        },
                    ],
                },
                rhs: RefIdent {
                    span_range: 1026..1050,
                    schema: Some(
                        Ident {
                            span_range: 1026..1037,
                            raw: ""\""ecommerce\"""",
                            to_string: ""ecommerce"",
                        },
                    ),
                    table: Ident {
                        span_range: 1038..1045,
                        raw: ""\""users\"""",
                        to_string: ""users"",
                    },
                    compositions: [
                        Ident {
                            span_range: 1046..1050,
                            raw: ""\""id\"""",
                            to_string: ""id"",
                        },
                    ],
                },
                settings: None,
            },
        ),
        Ref(
            RefBlock {
                span_range: 1056..1112,
                name: None,
                rel: One2Many,
                lhs: RefIdent {
                    span_range: 1056..1080,
                    schema: Some(
                        Ident {
                            span_range: 1056..1067,
                            raw: ""\""ecommerce\"""",
                            to_string: ""ecommerce"",
                        },
                    ),
                    table: Ident {
                        span_range: 1068..1075,
                        raw: ""\""users\"""",
                        to_string: ""users"",
                    },
                  " ++
 s "  compositions: [
                        Ident {
                            span_range: 1076..1080,
                            raw: ""\""id\"""",
                            to_string: ""id"",
                        },
                    ],
                },
                rhs: RefIdent {
                    span_range: 1083..1110,
                    schema: Some(
                        Ident {
                            span_range: 1083..1092,
                            raw: ""\""schemaA\"""",
                            to_string: ""schemaA"",
                        },
                    ),
                    table: Ident {
                        span_range: 1093..1103,
                        raw: ""\""products\"""",
                        to_string: ""products"",
                    },
                    compositions: [
                        Ident {
                            span_range: 1104..1110,
                            raw: ""\""name\"""",
                            to_string: ""name"",
                        },
                    ],
                },
                settings: None,
            },
        ),
        Ref(
            RefBlock {
                span_range: 1116..1161,
                name: None,
                rel: One2Many,
                lhs: RefIdent {
                    span_range: 1116..1128,
                    schema: None,
                    table: Ident {
                        span_range: 1116..1123,
                        raw: ""\""users\"""",
                        to_string: ""users"",
                    },
                    compositions: [
                        Ident {
                            span_range: 1124..1128,
                            raw: ""\""id\"""",
                            to_string: ""id"",
                        },
                    ],
                },
                rhs: RefIdent {
                    span_range: 1131..1159,
                    schema: Some(
                        Ident {
      " ++
 s "                      span_range: 1131..1140,
                            raw: ""\""schemaA\"""",
                            to_string: ""schemaA"",
                        },
                    ),
                    table: Ident {
                        span_range: 1141..1152,
                        raw: ""\""locations\"""",
                        to_string: ""locations"",
                    },
                    compositions: [
                        Ident {
                            span_range: 1153..1159,
                            raw: ""\""name\"""",
                            to_string: ""name"",
                        },
                    ],
                },
                settings: None,
            },
        ),
        Table(
            TableBlock {
                span_range: 1161..1498,
                cols: [
                    TableColumn {
                        span_range: 1191..1204,
                        name: Ident {
                            span_range: 1191..1195,
                            raw: ""\""id\"""",
                            to_string: ""id"",
                        },
                        type: ColumnType {
                            span_range: 1196..1199,
                            raw: ""int"",
                            type_name: Raw(
                                ""int"",
                            ),
                            args: [],
                            arrays: [],
                        },
                        settings: Some(
                            ColumnSettings {
                                span_range: 1200..1204,
                                attributes: [
                                    Attribute {
                                        span_range: 1201..1203,
                                        key: Ident {
                                            span_range: 1201..1203,
                                            raw: ""pk"",
                                            to_" ++
 s "string: ""pk"",
                                        },
                                        value: None,
                                    },
                                ],
                                is_pk: true,
                                is_unique: false,
                                nullable: None,
                                is_incremental: false,
                                note: None,
                                default: None,
                                refs: [],
                            },
                        ),
                    },
                    TableColumn {
                        span_range: 1207..1230,
                        name: Ident {
                            span_range: 1207..1213,
                            raw: ""\""name\"""",
                            to_string: ""name"",
                        },
                        type: ColumnType {
                            span_range: 1214..1227,
                            raw: ""nvarchar(255)"",
                            type_name: Raw(
                                ""nvarchar"",
                            ),
                            args: [
                                Integer(
                                    255,
                                ),
                            ],
                            arrays: [],
                        },
                        settings: None,
                    },
                    TableColumn {
                        span_range: 1230..1271,
                        name: Ident {
                            span_range: 1230..1235,
                            raw: ""\""ejs\"""",
                            to_string: ""ejs"",
                        },
                        type: ColumnType {
                            span_range: 1236..1260,
                            raw: ""ecommerce_users_ejs_enum"",
                            type_name: Raw(
                                ""ecommerce_use" ++
 s "rs_ejs_enum"",
                            ),
                            args: [],
                            arrays: [],
                        },
                        settings: Some(
                            ColumnSettings {
                                span_range: 1261..1271,
                                attributes: [
                                    Attribute {
                                        span_range: 1262..1270,
                                        key: Ident {
                                            span_range: 1262..1270,
                                            raw: ""not null"",
                                            to_string: ""not null"",
                                        },
                                        value: None,
                                    },
                                ],
                                is_pk: false,
                                is_unique: false,
                                nullable: Some(
                                    NotNull,
                                ),
                                is_incremental: false,
                                note: None,
                                default: None,
                                refs: [],
                            },
                        ),
                    },
                    TableColumn {
                        span_range: 1274..1317,
                        name: Ident {
                            span_range: 1274..1280,
                            raw: ""\""ejs2\"""",
                            to_string: ""ejs2"",
                        },
                        type: ColumnType {
                            span_range: 1281..1306,
                            raw: ""ecommerce_users_ejs2_enum"",
                            type_name: Raw(
                                ""ecommerce_users_ejs2_enum"",
                            ),
                            args: [],
                 " ++
 s "           arrays: [],
                        },
                        settings: Some(
                            ColumnSettings {
                                span_range: 1307..1317,
                                attributes: [
                                    Attribute {
                                        span_range: 1308..1316,
                                        key: Ident {
                                            span_range: 1308..1316,
                                            raw: ""not null"",
                                            to_string: ""not null"",
                                        },
                                        value: None,
                                    },
                                ],
                                is_pk: false,
                                is_unique: false,
                                nullable: Some(
                                    NotNull,
                                ),
                                is_incremental: false,
                                note: None,
                                default: None,
                                refs: [],
                            },
                        ),
                    },
                    TableColumn {
                        span_range: 1320..1359,
                        name: Ident {
                            span_range: 1320..1324,
                            raw: ""\""eg\"""",
                            to_string: ""eg"",
                        },
                        type: ColumnType {
                            span_range: 1325..1348,
                            raw: ""ecommerce_users_eg_enum"",
                            type_name: Raw(
                                ""ecommerce_users_eg_enum"",
                            ),
                            args: [],
                            arrays: [],
                        },
                        settings: Some(
                  " ++
 s "          ColumnSettings {
                                span_range: 1349..1359,
                                attributes: [
                                    Attribute {
                                        span_range: 1350..1358,
                                        key: Ident {
                                            span_range: 1350..1358,
                                            raw: ""not null"",
                                            to_string: ""not null"",
                                        },
                                        value: None,
                                    },
                                ],
                                is_pk: false,
                                is_unique: false,
                                nullable: Some(
                                    NotNull,
                                ),
                                is_incremental: false,
                                note: None,
                                default: None,
                                refs: [],
                            },
                        ),
                    },
                    TableColumn {
                        span_range: 1362..1403,
                        name: Ident {
                            span_range: 1362..1367,
                            raw: ""\""eg2\"""",
                            to_string: ""eg2"",
                        },
                        type: ColumnType {
                            span_range: 1368..1392,
                            raw: ""ecommerce_users_eg2_enum"",
                            type_name: Raw(
                                ""ecommerce_users_eg2_enum"",
                            ),
                            args: [],
                            arrays: [],
                        },
                        settings: Some(
                            ColumnSettings {
                                span_range: 1393..1403,
                     " ++
 s "           attributes: [
                                    Attribute {
                                        span_range: 1394..1402,
                                        key: Ident {
                                            span_range: 1394..1402,
                                            raw: ""not null"",
                                            to_string: ""not null"",
                                        },
                                        value: None,
                                    },
                                ],
                                is_pk: false,
                                is_unique: false,
                                nullable: Some(
                                    NotNull,
                                ),
                                is_incremental: false,
                                note: None,
                                default: None,
                                refs: [],
                            },
                        ),
                    },
                ],
                ident: TableIdent {
                    span_range: 1167..1186,
                    name: Ident {
                        span_range: 1179..1186,
                        raw: ""\""users\"""",
                        to_string: ""users"",
                    },
                    schema: Some(
                        Ident {
                            span_range: 1167..1178,
                            raw: ""\""ecommerce\"""",
                            to_string: ""ecommerce"",
                        },
                    ),
                    alias: None,
                },
                note: Some(
                    NoteBlock {
                        span_range: 1449..1496,
                        value: Literal {
                            span_range: 1455..1496,
                            raw: ""'Note on table users of schema ecommerce'"",
                            value: String(
                 " ++
 s "               ""Note on table users of schema ecommerce"",
                            ),
                        },
                    },
                ),
                indexes: Some(
                    IndexesBlock {
                        span_range: 1413..1446,
                        defs: [
                            IndexesDef {
                                span_range: 1417..1444,
                                cols: [
                                    String(
                                        Ident {
                                            span_range: 1418..1422,
                                            raw: ""name"",
                                            to_string: ""name"",
                                        },
                                    ),
                                    String(
                                        Ident {
                                            span_range: 1424..1427,
                                            raw: ""ejs"",
                                            to_string: ""ejs"",
                                        },
                                    ),
                                ],
                                settings: Some(
                                    IndexesSettings {
                                        span_range: 1429..1444,
                                        attributes: [
                                            Attribute {
                                                span_range: 1430..1443,
                                                key: Ident {
                                                    span_range: 1430..1434,
                                                    raw: ""name"",
                                                    to_string: ""name"",
                                                },
                                                value: Some(
                                                    Literal {
       " ++
 s "                                                 span_range: 1436..1443,
                                                        raw: ""\""idx_1\"""",
                                                        value: String(
                                                            ""idx_1"",
                                                        ),
                                                    },
                                                ),
                                            },
                                        ],
                                        type: None,
                                        is_unique: false,
                                        is_pk: false,
                                        note: None,
                                        name: Some(
                                            ""idx_1"",
                                        ),
                                    },
                                ),
                            },
                        ],
                    },
                ),
                settings: None,
            },
        ),
        Table(
            TableBlock {
                span_range: 1500..1702,
                cols: [
                    TableColumn {
                        span_range: 1531..1544,
                        name: Ident {
                            span_range: 1531..1535,
                            raw: ""\""id\"""",
                            to_string: ""id"",
                        },
                        type: ColumnType {
                            span_range: 1536..1539,
                            raw: ""int"",
                            type_name: Raw(
                                ""int"",
                            ),
                            args: [],
                            arrays: [],
                        },
                        settings: Some(
                            ColumnSettings {
                                " ++
 s "span_range: 1540..1544,
                                attributes: [
                                    Attribute {
                                        span_range: 1541..1543,
                                        key: Ident {
                                            span_range: 1541..1543,
                                            raw: ""pk"",
                                            to_string: ""pk"",
                                        },
                                        value: None,
                                    },
                                ],
                                is_pk: true,
                                is_unique: false,
                                nullable: None,
                                is_incremental: false,
                                note: None,
                                default: None,
                                refs: [],
                            },
                        ),
                    },
                    TableColumn {
                        span_range: 1547..1570,
                        name: Ident {
                            span_range: 1547..1553,
                            raw: ""\""name\"""",
                            to_string: ""name"",
                        },
                        type: ColumnType {
                            span_range: 1554..1567,
                            raw: ""nvarchar(255)"",
                            type_name: Raw(
                                ""nvarchar"",
                            ),
                            args: [
                                Integer(
                                    255,
                                ),
                            ],
                            arrays: [],
                        },
                        settings: None,
                    },
                    TableColumn {
                        span_range: 1570..1614,
                        name: Ident {
          " ++
 s "                  span_range: 1570..1582,
                            raw: ""\""created_at\"""",
                            to_string: ""created_at"",
                        },
                        type: ColumnType {
                            span_range: 1583..1595,
                            raw: ""varchar(255)"",
                            type_name: Raw(
                                ""varchar"",
                            ),
                            args: [
                                Integer(
                                    255,
                                ),
                            ],
                            arrays: [],
                        },
                        settings: Some(
                            ColumnSettings {
                                span_range: 1596..1614,
                                attributes: [
                                    Attribute {
                                        span_range: 1597..1613,
                                        key: Ident {
                                            span_range: 1597..1604,
                                            raw: ""default"",
                                            to_string: ""default"",
                                        },
                                        value: Some(
                                            Literal {
                                                span_range: 1606..1613,
                                                raw: ""`now()`"",
                                                value: Expr(
                                                    ""now()"",
                                                ),
                                            },
                                        ),
                                    },
                                ],
                                is_pk: false,
                                is_unique: false,
                                nullable: None,
 " ++
 s "                               is_incremental: false,
                                note: None,
                                default: Some(
                                    Expr(
                                        ""now()"",
                                    ),
                                ),
                                refs: [],
                            },
                        ),
                    },
                    TableColumn {
                        span_range: 1617..1629,
                        name: Ident {
                            span_range: 1617..1622,
                            raw: ""\""lid\"""",
                            to_string: ""lid"",
                        },
                        type: ColumnType {
                            span_range: 1623..1626,
                            raw: ""int"",
                            type_name: Raw(
                                ""int"",
                            ),
                            args: [],
                            arrays: [],
                        },
                        settings: None,
                    },
                    TableColumn {
                        span_range: 1629..1641,
                        name: Ident {
                            span_range: 1629..1635,
                            raw: ""\""lid2\"""",
                            to_string: ""lid2"",
                        },
                        type: ColumnType {
                            span_range: 1636..1639,
                            raw: ""int"",
                            type_name: Raw(
                                ""int"",
                            ),
                            args: [],
                            arrays: [],
                        },
                        settings: None,
                    },
                ],
                ident: TableIdent {
                    span_range: 1506..1526,
                    name: Ident {
                    " ++
 s "    span_range: 1516..1526,
                        raw: ""\""products\"""",
                        to_string: ""products"",
                    },
                    schema: Some(
                        Ident {
                            span_range: 1506..1515,
                            raw: ""\""schemaA\"""",
                            to_string: ""schemaA"",
                        },
                    ),
                    alias: None,
                },
                note: None,
                indexes: Some(
                    IndexesBlock {
                        span_range: 1649..1700,
                        defs: [
                            IndexesDef {
                                span_range: 1653..1698,
                                cols: [
                                    String(
                                        Ident {
                                            span_range: 1654..1657,
                                            raw: ""lid"",
                                            to_string: ""lid"",
                                        },
                                    ),
                                    String(
                                        Ident {
                                            span_range: 1659..1663,
                                            raw: ""lid2"",
                                            to_string: ""lid2"",
                                        },
                                    ),
                                ],
                                settings: Some(
                                    IndexesSettings {
                                        span_range: 1665..1698,
                                        attributes: [
                                            Attribute {
                                                span_range: 1666..1672,
                                                key: Ident {
                                                    span_range" ++
 s ": 1666..1672,
                                                    raw: ""unique"",
                                                    to_string: ""unique"",
                                                },
                                                value: None,
                                            },
                                            Attribute {
                                                span_range: 1674..1697,
                                                key: Ident {
                                                    span_range: 1674..1678,
                                                    raw: ""name"",
                                                    to_string: ""name"",
                                                },
                                                value: Some(
                                                    Literal {
                                                        span_range: 1680..1697,
                                                        raw: ""\""unique_lid_lid2\"""",
                                                        value: String(
                                                            ""unique_lid_lid2"",
                                                        ),
                                                    },
                                                ),
                                            },
                                        ],
                                        type: None,
                                        is_unique: true,
                                        is_pk: false,
                                        note: None,
                                        name: Some(
                                            ""unique_lid_lid2"",
                                        ),
                                    },
                                ),
                            },
                        ],
                    },
               " ++
 s " ),
                settings: None,
            },
        ),
        Table(
            TableBlock {
                span_range: 1704..1830,
                cols: [
                    TableColumn {
                        span_range: 1736..1749,
                        name: Ident {
                            span_range: 1736..1740,
                            raw: ""\""id\"""",
                            to_string: ""id"",
                        },
                        type: ColumnType {
                            span_range: 1741..1744,
                            raw: ""int"",
                            type_name: Raw(
                                ""int"",
                            ),
                            args: [],
                            arrays: [],
                        },
                        settings: Some(
                            ColumnSettings {
                                span_range: 1745..1749,
                                attributes: [
                                    Attribute {
                                        span_range: 1746..1748,
                                        key: Ident {
                                            span_range: 1746..1748,
                                            raw: ""pk"",
                                            to_string: ""pk"",
                                        },
                                        value: None,
                                    },
                                ],
                                is_pk: true,
                                is_unique: false,
                                nullable: None,
                                is_incremental: false,
                                note: None,
                                default: None,
                                refs: [],
                            },
                        ),
                    },
                    TableColumn {
                        span_range: 1752." ++
 s ".1775,
                        name: Ident {
                            span_range: 1752..1758,
                            raw: ""\""name\"""",
                            to_string: ""name"",
                        },
                        type: ColumnType {
                            span_range: 1759..1772,
                            raw: ""nvarchar(255)"",
                            type_name: Raw(
                                ""nvarchar"",
                            ),
                            args: [
                                Integer(
                                    255,
                                ),
                            ],
                            arrays: [],
                        },
                        settings: None,
                    },
                ],
                ident: TableIdent {
                    span_range: 1710..1731,
                    name: Ident {
                        span_range: 1720..1731,
                        raw: ""\""locations\"""",
                        to_string: ""locations"",
                    },
                    schema: Some(
                        Ident {
                            span_range: 1710..1719,
                            raw: ""\""schemaA\"""",
                            to_string: ""schemaA"",
                        },
                    ),
                    alias: None,
                },
                note: Some(
                    NoteBlock {
                        span_range: 1775..1828,
                        value: Literal {
                            span_range: 1781..1828,
                            raw: ""'This is a note in table \""schemaA\"".\""locations\""'"",
                            value: String(
                                ""This is a note in table \""schemaA\"".\""locations\"""",
                            ),
                        },
                    },
                ),
                indexes: None,
                settings: None,
          " ++
 s "  },
        ),
    ],
}") = true.
Proof. vm_compute. reflexivity. Qed.

(** tests/dbml/postgres_importer/general_schema.out.dbml *)
Example golden_postgres_importer_general_schema : prints
(s "Enum ""orders_status"" {
  ""created""
  ""running""
  ""done""
  ""failure""
}

Enum ""product status"" {
  ""Out of Stock""
  ""In Stock""
}

Table ""orders"" {
  ""id"" int [pk, increment]
  ""user_id"" int [unique, not null]
  ""status"" orders_status
  ""created_at"" varchar
  ""modified_at"" timestamp(2)
}

Table ""order_items"" {
  ""order_id"" int
  ""product_id"" int
  ""quantity"" int [default: 1]
  ""created_at"" timestamp
  ""modified_at"" time
}

Table ""products"" {
  ""id"" int
  ""name"" varchar
  ""merchant_id"" int [not null]
  ""price"" int
  ""status"" ""product status""
  ""created_at"" datetime [default: `now()`]
  ""modified_at"" timestamp

Indexes {
  (id, name) [pk]
  (merchant_id, status) [name: ""product_status""]
  id [type: hash, unique]
}
  Note: 'Products table comment'
}

Table ""users"" {
  ""id"" int [pk]
  ""full_name"" varchar
  ""email"" varchar [unique]
  ""gender"" varchar
  ""date_of_birth"" varchar
  ""created_at"" varchar
  ""modified_at"" time(2)
  ""country_code"" int
  Note: 'Store user data'
}

Table ""merchants"" {
  ""id"" int [pk]
  ""merchant_name"" varchar
  ""country_code"" int
  ""created_at"" varchar
  ""modified_at"" time
  ""admin_id"" int
}

Table ""countries"" {
  ""code"" int [pk]
  ""name"" varchar
  ""continent_name"" varchar
}

Table ""foo"" {
  ""bar"" ""text[]""
  ""bar2"" ""int[1]""
  ""bar3"" ""int[2][3]""
  ""bar4"" ""int[]""
  ""bar5"" ""int[2]""
  ""bar6"" ""text[8]""
  ""bar7"" ""text[100]""
  ""bar8"" ""time(2)[]""
  ""bar9"" ""time(1)[1]""
  ""bar10"" ""time(1)[]""
  ""bar11"" ""time[5]""
  ""bar12"" ""timestamp(2)[10][2][5]""
  ""bar13"" ""character varying[]""
  ""bar14"" ""character varying(25)[][2][]""
  ""bar15"" ""character varying[76]""
}

Ref:""orders"".""id"" < ""order_items"".""order_id""

Ref:""products"".""id"" < ""order_items"".""product_id""

Ref:""countries"".""code"" < ""users"".""country_code""

Ref:""countries"".""code"" < ""merchants"".""country_code""

Ref:""merchants"".""id"" < ""products"".""merchant_id""

Ref:""users"".""id"" < ""merchants"".""admin_id""")
(s "SchemaBlock {
    span_range: 0..1873,
    input: ""Enum \""orders_status\"" {\n  \""created\""\n  \""running\""\n  \""done\""\n  \""failure\""\n}\n\nEnum \""product status\"" {\n  \""Out of Stock\""\n  \""In Stock\""\n}\n\nTable \""orders\"" {\n  \""id\"" int [pk, increment]\n  \""user_id\"" int [unique, not null]\n  \""status\"" orders_status\n  \""created_at\"" varchar\n  \""modified_at\"" timestamp(2)\n}\n\nTable \""order_items\"" {\n  \""order_id\"" int\n  \""product_id\"" int\n  \""quantity\"" int [default: 1]\n  \""created_at\"" timestamp\n  \""modified_at\"" time\n}\n\nTable \""products\"" {\n  \""id\"" int\n  \""name\"" varchar\n  \""merchant_id\"" int [not null]\n  \""price\"" int\n  \""status\"" \""product status\""\n  \""created_at\"" datetime [default: `now()`]\n  \""modified_at\"" timestamp\n\nIndexes {\n  (id, name) [pk]\n  (merchant_id, status) [name: \""product_status\""]\n  id [type: hash, unique]\n}\n  Note: 'Products table comment'\n}\n\nTable \""users\"" {\n  \""id\"" int [pk]\n  \""full_name\"" varchar\n  \""email\"" varchar [unique]\n  \""gender\"" varchar\n  \""date_of_birth\"" varchar\n  \""created_at\"" varchar\n  \""modified_at\"" time(2)\n  \""country_code\"" int\n  Note: 'Store user data'\n}\n\nTable \""merchants\"" {\n  \""id\"" int [pk]\n  \""merchant_name\"" varchar\n  \""country_code\"" int\n  \""created_at\"" varchar\n  \""modified_at\"" time\n  \""admin_id\"" int\n}\n\nTable \""countries\"" {\n  \""code\"" int [pk]\n  \""name\"" varchar\n  \""continent_name\"" varchar\n}\n\nTable \""foo\"" {\n  \""bar\"" \""text[]\""\n  \""bar2\"" \""int[1]\""\n  \""bar3\"" \""int[2][3]\""\n  \""bar4\"" \""int[]\""\n  \""bar5\"" \""int[2]\""\n  \""bar6\"" \""text[8]\""\n  \""bar7\"" \""text[100]\""\n  \""bar8\"" \""time(2)[]\""\n  \""bar9\"" \""time(1)[1]\""\n  \""bar10\"" \""time(1)[]\""\n  \""bar11\"" \""time[5]\""\n  \""bar12\"" \""timestamp(2)[10][2][5]\""\n  \""bar13\"" \""character varying[]\""\n  \""bar14\"" \""character varying(25)[][2][]\""\n  \""bar15\"" \""character varying[76]\""\n}\n\nRef:\""orders\"".\""id\"" < \""order_items\"".\""order_id\""\n\nRef:\""products\"".\""id\"" < \""order_items\"".\""product_id\""" ++
 s "\n\nRef:\""countries\"".\""code\"" < \""users\"".\""country_code\""\n\nRef:\""countries\"".\""code\"" < \""merchants\"".\""country_code\""\n\nRef:\""merchants\"".\""id\"" < \""products\"".\""merchant_id\""\n\nRef:\""users\"".\""id\"" < \""merchants\"".\""admin_id\"""",
    blocks: [
        Enum(
            EnumBlock {
                span_range: 0..69,
                ident: EnumIdent {
                    span_range: 5..21,
                    schema: None,
                    name: Ident {
                        span_range: 5..20,
                        raw: ""\""orders_status\"""",
                        to_string: ""orders_status"",
                    },
                },
                values: [
                    EnumValue {
                        span_range: 25..37,
                        value: Ident {
                            span_range: 25..34,
                            raw: ""\""created\"""",
                            to_string: ""created"",
                        },
                        settings: None,
                    },
                    EnumValue {
                        span_range: 37..49,
                        value: Ident {
                            span_range: 37..46,
                            raw: ""\""running\"""",
                            to_string: ""running"",
                        },
                        settings: None,
                    },
                    EnumValue {
                        span_range: 49..58,
                        value: Ident {
                            span_range: 49..55,
                            raw: ""\""done\"""",
                            to_string: ""done"",
                        },
                        settings: None,
                    },
                    EnumValue {
                        span_range: 58..68,
                        value: Ident {
                            span_range: 58..67,
                            raw: ""\""failure\"""",
                            to_string: ""failure"",
             " ++
 s "           },
                        settings: None,
                    },
                ],
            },
        ),
        Enum(
            EnumBlock {
                span_range: 71..126,
                ident: EnumIdent {
                    span_range: 76..93,
                    schema: None,
                    name: Ident {
                        span_range: 76..92,
                        raw: ""\""product status\"""",
                        to_string: ""product status"",
                    },
                },
                values: [
                    EnumValue {
                        span_range: 97..114,
                        value: Ident {
                            span_range: 97..111,
                            raw: ""\""Out of Stock\"""",
                            to_string: ""Out of Stock"",
                        },
                        settings: None,
                    },
                    EnumValue {
                        span_range: 114..125,
                        value: Ident {
                            span_range: 114..124,
                            raw: ""\""In Stock\"""",
                            to_string: ""In Stock"",
                        },
                        settings: None,
                    },
                ],
            },
        ),
        Table(
            TableBlock {
                span_range: 128..285,
                cols: [
                    TableColumn {
                        span_range: 147..171,
                        name: Ident {
                            span_range: 147..151,
                            raw: ""\""id\"""",
                            to_string: ""id"",
                        },
                        type: ColumnType {
                            span_range: 152..155,
                            raw: ""int"",
                            type_name: Raw(
                                ""int"",
                            ),
                            args: [],
         " ++
 s "                   arrays: [],
                        },
                        settings: Some(
                            ColumnSettings {
                                span_range: 156..171,
                                attributes: [
                                    Attribute {
                                        span_range: 157..159,
                                        key: Ident {
                                            span_range: 157..159,
                                            raw: ""pk"",
                                            to_string: ""pk"",
                                        },
                                        value: None,
                                    },
                                    Attribute {
                                        span_range: 161..170,
                                        key: Ident {
                                            span_range: 161..170,
                                            raw: ""increment"",
                                            to_string: ""increment"",
                                        },
                                        value: None,
                                    },
                                ],
                                is_pk: true,
                                is_unique: false,
                                nullable: None,
                                is_incremental: true,
                                note: None,
                                default: None,
                                refs: [],
                            },
                        ),
                    },
                    TableColumn {
                        span_range: 174..206,
                        name: Ident {
                            span_range: 174..183,
                            raw: ""\""user_id\"""",
                            to_string: ""user_id"",
                        },
                        type: ColumnType {
 " ++
 s "                           span_range: 184..187,
                            raw: ""int"",
                            type_name: Raw(
                                ""int"",
                            ),
                            args: [],
                            arrays: [],
                        },
                        settings: Some(
                            ColumnSettings {
                                span_range: 188..206,
                                attributes: [
                                    Attribute {
                                        span_range: 189..195,
                                        key: Ident {
                                            span_range: 189..195,
                                            raw: ""unique"",
                                            to_string: ""unique"",
                                        },
                                        value: None,
                                    },
                                    Attribute {
                                        span_range: 197..205,
                                        key: Ident {
                                            span_range: 197..205,
                                            raw: ""not null"",
                                            to_string: ""not null"",
                                        },
                                        value: None,
                                    },
                                ],
                                is_pk: false,
                                is_unique: true,
                                nullable: Some(
                                    NotNull,
                                ),
                                is_incremental: false,
                                note: None,
                                default: None,
                                refs: [],
                            },
                        ),
                    },
" ++
 s "                    TableColumn {
                        span_range: 209..234,
                        name: Ident {
                            span_range: 209..217,
                            raw: ""\""status\"""",
                            to_string: ""status"",
                        },
                        type: ColumnType {
                            span_range: 218..231,
                            raw: ""orders_status"",
                            type_name: Raw(
                                ""orders_status"",
                            ),
                            args: [],
                            arrays: [],
                        },
                        settings: None,
                    },
                    TableColumn {
                        span_range: 234..257,
                        name: Ident {
                            span_range: 234..246,
                            raw: ""\""created_at\"""",
                            to_string: ""created_at"",
                        },
                        type: ColumnType {
                            span_range: 247..254,
                            raw: ""varchar"",
                            type_name: Raw(
                                ""varchar"",
                            ),
                            args: [],
                            arrays: [],
                        },
                        settings: None,
                    },
                    TableColumn {
                        span_range: 257..284,
                        name: Ident {
                            span_range: 257..270,
                            raw: ""\""modified_at\"""",
                            to_string: ""modified_at"",
                        },
                        type: ColumnType {
                            span_range: 271..283,
                            raw: ""timestamp(2)"",
                            type_name: Raw(
                                ""timestamp"",
                    " ++
 s "        ),
                            args: [
                                Integer(
                                    2,
                                ),
                            ],
                            arrays: [],
                        },
                        settings: None,
                    },
                ],
                ident: TableIdent {
                    span_range: 134..143,
                    name: Ident {
                        span_range: 134..142,
                        raw: ""\""orders\"""",
                        to_string: ""orders"",
                    },
                    schema: None,
                    alias: None,
                },
                note: None,
                indexes: None,
                settings: None,
            },
        ),
        Table(
            TableBlock {
                span_range: 287..422,
                cols: [
                    TableColumn {
                        span_range: 311..328,
                        name: Ident {
                            span_range: 311..321,
                            raw: ""\""order_id\"""",
                            to_string: ""order_id"",
                        },
                        type: ColumnType {
                            span_range: 322..325,
                            raw: ""int"",
                            type_name: Raw(
                                ""int"",
                            ),
                            args: [],
                            arrays: [],
                        },
                        settings: None,
                    },
                    TableColumn {
                        span_range: 328..347,
                        name: Ident {
                            span_range: 328..340,
                            raw: ""\""product_id\"""",
                            to_string: ""product_id"",
                        },
                        type: ColumnType {
                            span" ++
 s "_range: 341..344,
                            raw: ""int"",
                            type_name: Raw(
                                ""int"",
                            ),
                            args: [],
                            arrays: [],
                        },
                        settings: None,
                    },
                    TableColumn {
                        span_range: 347..374,
                        name: Ident {
                            span_range: 347..357,
                            raw: ""\""quantity\"""",
                            to_string: ""quantity"",
                        },
                        type: ColumnType {
                            span_range: 358..361,
                            raw: ""int"",
                            type_name: Raw(
                                ""int"",
                            ),
                            args: [],
                            arrays: [],
                        },
                        settings: Some(
                            ColumnSettings {
                                span_range: 362..374,
                                attributes: [
                                    Attribute {
                                        span_range: 363..373,
                                        key: Ident {
                                            span_range: 363..370,
                                            raw: ""default"",
                                            to_string: ""default"",
                                        },
                                        value: Some(
                                            Literal {
                                                span_range: 372..373,
                                                raw: ""1"",
                                                value: Integer(
                                                    1,
                                                ),
                         " ++
 s "                   },
                                        ),
                                    },
                                ],
                                is_pk: false,
                                is_unique: false,
                                nullable: None,
                                is_incremental: false,
                                note: None,
                                default: Some(
                                    Integer(
                                        1,
                                    ),
                                ),
                                refs: [],
                            },
                        ),
                    },
                    TableColumn {
                        span_range: 377..402,
                        name: Ident {
                            span_range: 377..389,
                            raw: ""\""created_at\"""",
                            to_string: ""created_at"",
                        },
                        type: ColumnType {
                            span_range: 390..399,
                            raw: ""timestamp"",
                            type_name: Raw(
                                ""timestamp"",
                            ),
                            args: [],
                            arrays: [],
                        },
                        settings: None,
                    },
                    TableColumn {
                        span_range: 402..421,
                        name: Ident {
                            span_range: 402..415,
                            raw: ""\""modified_at\"""",
                            to_string: ""modified_at"",
                        },
                        type: ColumnType {
                            span_range: 416..420,
                            raw: ""time"",
                            type_name: Raw(
                                ""time"",
                            ),
          " ++
 s "                  args: [],
                            arrays: [],
                        },
                        settings: None,
                    },
                ],
                ident: TableIdent {
                    span_range: 293..307,
                    name: Ident {
                        span_range: 293..306,
                        raw: ""\""order_items\"""",
                        to_string: ""order_items"",
                    },
                    schema: None,
                    alias: None,
                },
                note: None,
                indexes: None,
                settings: None,
            },
        ),
        Table(
            TableBlock {
                span_range: 424..753,
                cols: [
                    TableColumn {
                        span_range: 445..456,
                        name: Ident {
                            span_range: 445..449,
                            raw: ""\""id\"""",
                            to_string: ""id"",
                        },
                        type: ColumnType {
                            span_range: 450..453,
                            raw: ""int"",
                            type_name: Raw(
                                ""int"",
                            ),
                            args: [],
                            arrays: [],
                        },
                        settings: None,
                    },
                    TableColumn {
                        span_range: 456..473,
                        name: Ident {
                            span_range: 456..462,
                            raw: ""\""name\"""",
                            to_string: ""name"",
                        },
                        type: ColumnType {
                            span_range: 463..470,
                            raw: ""varchar"",
                            type_name: Raw(
                                ""varchar"",
                            )," ++
 s "
                            args: [],
                            arrays: [],
                        },
                        settings: None,
                    },
                    TableColumn {
                        span_range: 473..501,
                        name: Ident {
                            span_range: 473..486,
                            raw: ""\""merchant_id\"""",
                            to_string: ""merchant_id"",
                        },
                        type: ColumnType {
                            span_range: 487..490,
                            raw: ""int"",
                            type_name: Raw(
                                ""int"",
                            ),
                            args: [],
                            arrays: [],
                        },
                        settings: Some(
                            ColumnSettings {
                                span_range: 491..501,
                                attributes: [
                                    Attribute {
                                        span_range: 492..500,
                                        key: Ident {
                                            span_range: 492..500,
                                            raw: ""not null"",
                                            to_string: ""not null"",
                                        },
                                        value: None,
                                    },
                                ],
                                is_pk: false,
                                is_unique: false,
                                nullable: Some(
                                    NotNull,
                                ),
                                is_incremental: false,
                                note: None,
                                default: None,
                                refs: [],
                            },
                       " ++
 s " ),
                    },
                    TableColumn {
                        span_range: 504..518,
                        name: Ident {
                            span_range: 504..511,
                            raw: ""\""price\"""",
                            to_string: ""price"",
                        },
                        type: ColumnType {
                            span_range: 512..515,
                            raw: ""int"",
                            type_name: Raw(
                                ""int"",
                            ),
                            args: [],
                            arrays: [],
                        },
                        settings: None,
                    },
                    TableColumn {
                        span_range: 518..546,
                        name: Ident {
                            span_range: 518..526,
                            raw: ""\""status\"""",
                            to_string: ""status"",
                        },
                        type: ColumnType {
                            span_range: 527..543,
                            raw: ""\""product status\"""",
                            type_name: Raw(
                                ""product status"",
                            ),
                            args: [],
                            arrays: [],
                        },
                        settings: None,
                    },
                    TableColumn {
                        span_range: 546..586,
                        name: Ident {
                            span_range: 546..558,
                            raw: ""\""created_at\"""",
                            to_string: ""created_at"",
                        },
                        type: ColumnType {
                            span_range: 559..567,
                            raw: ""datetime"",
                            type_name: Raw(
                                ""datetime"",
            " ++
 s "                ),
                            args: [],
                            arrays: [],
                        },
                        settings: Some(
                            ColumnSettings {
                                span_range: 568..586,
                                attributes: [
                                    Attribute {
                                        span_range: 569..585,
                                        key: Ident {
                                            span_range: 569..576,
                                            raw: ""default"",
                                            to_string: ""default"",
                                        },
                                        value: Some(
                                            Literal {
                                                span_range: 578..585,
                                                raw: ""`now()`"",
                                                value: Expr(
                                                    ""now()"",
                                                ),
                                            },
                                        ),
                                    },
                                ],
                                is_pk: false,
                                is_unique: false,
                                nullable: None,
                                is_incremental: false,
                                note: None,
                                default: Some(
                                    Expr(
                                        ""now()"",
                                    ),
                                ),
                                refs: [],
                            },
                        ),
                    },
                    TableColumn {
                        span_range: 589..614,
                        name: Ident {
                   " ++
 s "         span_range: 589..602,
                            raw: ""\""modified_at\"""",
                            to_string: ""modified_at"",
                        },
                        type: ColumnType {
                            span_range: 603..612,
                            raw: ""timestamp"",
                            type_name: Raw(
                                ""timestamp"",
                            ),
                            args: [],
                            arrays: [],
                        },
                        settings: None,
                    },
                ],
                ident: TableIdent {
                    span_range: 430..441,
                    name: Ident {
                        span_range: 430..440,
                        raw: ""\""products\"""",
                        to_string: ""products"",
                    },
                    schema: None,
                    alias: None,
                },
                note: Some(
                    NoteBlock {
                        span_range: 721..751,
                        value: Literal {
                            span_range: 727..751,
                            raw: ""'Products table comment'"",
                            value: String(
                                ""Products table comment"",
                            ),
                        },
                    },
                ),
                indexes: Some(
                    IndexesBlock {
                        span_range: 622..718,
                        defs: [
                            IndexesDef {
                                span_range: 626..641,
                                cols: [
                                    String(
                                        Ident {
                                            span_range: 627..629,
                                            raw: ""id"",
                                            to_string: ""id"",
                   " ++
 s "                     },
                                    ),
                                    String(
                                        Ident {
                                            span_range: 631..635,
                                            raw: ""name"",
                                            to_string: ""name"",
                                        },
                                    ),
                                ],
                                settings: Some(
                                    IndexesSettings {
                                        span_range: 637..641,
                                        attributes: [
                                            Attribute {
                                                span_range: 638..640,
                                                key: Ident {
                                                    span_range: 638..640,
                                                    raw: ""pk"",
                                                    to_string: ""pk"",
                                                },
                                                value: None,
                                            },
                                        ],
                                        type: None,
                                        is_unique: false,
                                        is_pk: true,
                                        note: None,
                                        name: None,
                                    },
                                ),
                            },
                            IndexesDef {
                                span_range: 644..690,
                                cols: [
                                    String(
                                        Ident {
                                            span_range: 645..656,
                                            raw: ""merchant_id"",
" ++
 s "                                            to_string: ""merchant_id"",
                                        },
                                    ),
                                    String(
                                        Ident {
                                            span_range: 658..664,
                                            raw: ""status"",
                                            to_string: ""status"",
                                        },
                                    ),
                                ],
                                settings: Some(
                                    IndexesSettings {
                                        span_range: 666..690,
                                        attributes: [
                                            Attribute {
                                                span_range: 667..689,
                                                key: Ident {
                                                    span_range: 667..671,
                                                    raw: ""name"",
                                                    to_string: ""name"",
                                                },
                                                value: Some(
                                                    Literal {
                                                        span_range: 673..689,
                                                        raw: ""\""product_status\"""",
                                                        value: String(
                                                            ""product_status"",
                                                        ),
                                                    },
                                                ),
                                            },
                                        ],
                                        type: None,
                                        is_" ++
 s "unique: false,
                                        is_pk: false,
                                        note: None,
                                        name: Some(
                                            ""product_status"",
                                        ),
                                    },
                                ),
                            },
                            IndexesDef {
                                span_range: 693..716,
                                cols: [
                                    String(
                                        Ident {
                                            span_range: 693..695,
                                            raw: ""id"",
                                            to_string: ""id"",
                                        },
                                    ),
                                ],
                                settings: Some(
                                    IndexesSettings {
                                        span_range: 696..716,
                                        attributes: [
                                            Attribute {
                                                span_range: 697..707,
                                                key: Ident {
                                                    span_range: 697..701,
                                                    raw: ""type"",
                                                    to_string: ""type"",
                                                },
                                                value: Some(
                                                    Literal {
                                                        span_range: 703..707,
                                                        raw: ""hash"",
                                                        value: Enum(
                                                            ""hash"",
                  " ++
 s "                                      ),
                                                    },
                                                ),
                                            },
                                            Attribute {
                                                span_range: 709..715,
                                                key: Ident {
                                                    span_range: 709..715,
                                                    raw: ""unique"",
                                                    to_string: ""unique"",
                                                },
                                                value: None,
                                            },
                                        ],
                                        type: Some(
                                            Hash,
                                        ),
                                        is_unique: true,
                                        is_pk: false,
                                        note: None,
                                        name: None,
                                    },
                                ),
                            },
                        ],
                    },
                ),
                settings: None,
            },
        ),
        Table(
            TableBlock {
                span_range: 755..976,
                cols: [
                    TableColumn {
                        span_range: 773..786,
                        name: Ident {
                            span_range: 773..777,
                            raw: ""\""id\"""",
                            to_string: ""id"",
                        },
                        type: ColumnType {
                            span_range: 778..781,
                            raw: ""int"",
                            type_name: Raw(
                                ""int"",
          " ++
 s "                  ),
                            args: [],
                            arrays: [],
                        },
                        settings: Some(
                            ColumnSettings {
                                span_range: 782..786,
                                attributes: [
                                    Attribute {
                                        span_range: 783..785,
                                        key: Ident {
                                            span_range: 783..785,
                                            raw: ""pk"",
                                            to_string: ""pk"",
                                        },
                                        value: None,
                                    },
                                ],
                                is_pk: true,
                                is_unique: false,
                                nullable: None,
                                is_incremental: false,
                                note: None,
                                default: None,
                                refs: [],
                            },
                        ),
                    },
                    TableColumn {
                        span_range: 789..811,
                        name: Ident {
                            span_range: 789..800,
                            raw: ""\""full_name\"""",
                            to_string: ""full_name"",
                        },
                        type: ColumnType {
                            span_range: 801..808,
                            raw: ""varchar"",
                            type_name: Raw(
                                ""varchar"",
                            ),
                            args: [],
                            arrays: [],
                        },
                        settings: None,
                    },
                    TableColumn {
        " ++
 s "                span_range: 811..835,
                        name: Ident {
                            span_range: 811..818,
                            raw: ""\""email\"""",
                            to_string: ""email"",
                        },
                        type: ColumnType {
                            span_range: 819..826,
                            raw: ""varchar"",
                            type_name: Raw(
                                ""varchar"",
                            ),
                            args: [],
                            arrays: [],
                        },
                        settings: Some(
                            ColumnSettings {
                                span_range: 827..835,
                                attributes: [
                                    Attribute {
                                        span_range: 828..834,
                                        key: Ident {
                                            span_range: 828..834,
                                            raw: ""unique"",
                                            to_string: ""unique"",
                                        },
                                        value: None,
                                    },
                                ],
                                is_pk: false,
                                is_unique: true,
                                nullable: None,
                                is_incremental: false,
                                note: None,
                                default: None,
                                refs: [],
                            },
                        ),
                    },
                    TableColumn {
                        span_range: 838..857,
                        name: Ident {
                            span_range: 838..846,
                            raw: ""\""gender\"""",
                            to_string: ""gender"",
         " ++
 s "               },
                        type: ColumnType {
                            span_range: 847..854,
                            raw: ""varchar"",
                            type_name: Raw(
                                ""varchar"",
                            ),
                            args: [],
                            arrays: [],
                        },
                        settings: None,
                    },
                    TableColumn {
                        span_range: 857..883,
                        name: Ident {
                            span_range: 857..872,
                            raw: ""\""date_of_birth\"""",
                            to_string: ""date_of_birth"",
                        },
                        type: ColumnType {
                            span_range: 873..880,
                            raw: ""varchar"",
                            type_name: Raw(
                                ""varchar"",
                            ),
                            args: [],
                            arrays: [],
                        },
                        settings: None,
                    },
                    TableColumn {
                        span_range: 883..906,
                        name: Ident {
                            span_range: 883..895,
                            raw: ""\""created_at\"""",
                            to_string: ""created_at"",
                        },
                        type: ColumnType {
                            span_range: 896..903,
                            raw: ""varchar"",
                            type_name: Raw(
                                ""varchar"",
                            ),
                            args: [],
                            arrays: [],
                        },
                        settings: None,
                    },
                    TableColumn {
                        span_range: 906..930,
                        name:" ++
 s " Ident {
                            span_range: 906..919,
                            raw: ""\""modified_at\"""",
                            to_string: ""modified_at"",
                        },
                        type: ColumnType {
                            span_range: 920..927,
                            raw: ""time(2)"",
                            type_name: Raw(
                                ""time"",
                            ),
                            args: [
                                Integer(
                                    2,
                                ),
                            ],
                            arrays: [],
                        },
                        settings: None,
                    },
                    TableColumn {
                        span_range: 930..951,
                        name: Ident {
                            span_range: 930..944,
                            raw: ""\""country_code\"""",
                            to_string: ""country_code"",
                        },
                        type: ColumnType {
                            span_range: 945..948,
                            raw: ""int"",
                            type_name: Raw(
                                ""int"",
                            ),
                            args: [],
                            arrays: [],
                        },
                        settings: None,
                    },
                ],
                ident: TableIdent {
                    span_range: 761..769,
                    name: Ident {
                        span_range: 761..768,
                        raw: ""\""users\"""",
                        to_string: ""users"",
                    },
                    schema: None,
                    alias: None,
                },
                note: Some(
                    NoteBlock {
                        span_range: 951..974,
                        value: Literal {
       " ++
 s "                     span_range: 957..974,
                            raw: ""'Store user data'"",
                            value: String(
                                ""Store user data"",
                            ),
                        },
                    },
                ),
                indexes: None,
                settings: None,
            },
        ),
        Table(
            TableBlock {
                span_range: 978..1123,
                cols: [
                    TableColumn {
                        span_range: 1000..1013,
                        name: Ident {
                            span_range: 1000..1004,
                            raw: ""\""id\"""",
                            to_string: ""id"",
                        },
                        type: ColumnType {
                            span_range: 1005..1008,
                            raw: ""int"",
                            type_name: Raw(
                                ""int"",
                            ),
                            args: [],
                            arrays: [],
                        },
                        settings: Some(
                            ColumnSettings {
                                span_range: 1009..1013,
                                attributes: [
                                    Attribute {
                                        span_range: 1010..1012,
                                        key: Ident {
                                            span_range: 1010..1012,
                                            raw: ""pk"",
                                            to_string: ""pk"",
                                        },
                                        value: None,
                                    },
                                ],
                                is_pk: true,
                                is_unique: false,
                                nullable: None,
                           " ++
 s "     is_incremental: false,
                                note: None,
                                default: None,
                                refs: [],
                            },
                        ),
                    },
                    TableColumn {
                        span_range: 1016..1042,
                        name: Ident {
                            span_range: 1016..1031,
                            raw: ""\""merchant_name\"""",
                            to_string: ""merchant_name"",
                        },
                        type: ColumnType {
                            span_range: 1032..1039,
                            raw: ""varchar"",
                            type_name: Raw(
                                ""varchar"",
                            ),
                            args: [],
                            arrays: [],
                        },
                        settings: None,
                    },
                    TableColumn {
                        span_range: 1042..1063,
                        name: Ident {
                            span_range: 1042..1056,
                            raw: ""\""country_code\"""",
                            to_string: ""country_code"",
                        },
                        type: ColumnType {
                            span_range: 1057..1060,
                            raw: ""int"",
                            type_name: Raw(
                                ""int"",
                            ),
                            args: [],
                            arrays: [],
                        },
                        settings: None,
                    },
                    TableColumn {
                        span_range: 1063..1086,
                        name: Ident {
                            span_range: 1063..1075,
                            raw: ""\""created_at\"""",
                            to_string: ""created_at"",
                        " ++
 s "},
                        type: ColumnType {
                            span_range: 1076..1083,
                            raw: ""varchar"",
                            type_name: Raw(
                                ""varchar"",
                            ),
                            args: [],
                            arrays: [],
                        },
                        settings: None,
                    },
                    TableColumn {
                        span_range: 1086..1107,
                        name: Ident {
                            span_range: 1086..1099,
                            raw: ""\""modified_at\"""",
                            to_string: ""modified_at"",
                        },
                        type: ColumnType {
                            span_range: 1100..1104,
                            raw: ""time"",
                            type_name: Raw(
                                ""time"",
                            ),
                            args: [],
                            arrays: [],
                        },
                        settings: None,
                    },
                    TableColumn {
                        span_range: 1107..1122,
                        name: Ident {
                            span_range: 1107..1117,
                            raw: ""\""admin_id\"""",
                            to_string: ""admin_id"",
                        },
                        type: ColumnType {
                            span_range: 1118..1121,
                            raw: ""int"",
                            type_name: Raw(
                                ""int"",
                            ),
                            args: [],
                            arrays: [],
                        },
                        settings: None,
                    },
                ],
                ident: TableIdent {
                    span_range: 984..996,
                    name: Ident {
 " ++
 s "                       span_range: 984..995,
                        raw: ""\""merchants\"""",
                        to_string: ""merchants"",
                    },
                    schema: None,
                    alias: None,
                },
                note: None,
                indexes: None,
                settings: None,
            },
        ),
        Table(
            TableBlock {
                span_range: 1125..1208,
                cols: [
                    TableColumn {
                        span_range: 1147..1162,
                        name: Ident {
                            span_range: 1147..1153,
                            raw: ""\""code\"""",
                            to_string: ""code"",
                        },
                        type: ColumnType {
                            span_range: 1154..1157,
                            raw: ""int"",
                            type_name: Raw(
                                ""int"",
                            ),
                            args: [],
                            arrays: [],
                        },
                        settings: Some(
                            ColumnSettings {
                                span_range: 1158..1162,
                                attributes: [
                                    Attribute {
                                        span_range: 1159..1161,
                                        key: Ident {
                                            span_range: 1159..1161,
                                            raw: ""pk"",
                                            to_string: ""pk"",
                                        },
                                        value: None,
                                    },
                                ],
                                is_pk: true,
                                is_unique: false,
                                nullable: None,
                                is_in" ++
 s "cremental: false,
                                note: None,
                                default: None,
                                refs: [],
                            },
                        ),
                    },
                    TableColumn {
                        span_range: 1165..1182,
                        name: Ident {
                            span_range: 1165..1171,
                            raw: ""\""name\"""",
                            to_string: ""name"",
                        },
                        type: ColumnType {
                            span_range: 1172..1179,
                            raw: ""varchar"",
                            type_name: Raw(
                                ""varchar"",
                            ),
                            args: [],
                            arrays: [],
                        },
                        settings: None,
                    },
                    TableColumn {
                        span_range: 1182..1207,
                        name: Ident {
                            span_range: 1182..1198,
                            raw: ""\""continent_name\"""",
                            to_string: ""continent_name"",
                        },
                        type: ColumnType {
                            span_range: 1199..1206,
                            raw: ""varchar"",
                            type_name: Raw(
                                ""varchar"",
                            ),
                            args: [],
                            arrays: [],
                        },
                        settings: None,
                    },
                ],
                ident: TableIdent {
                    span_range: 1131..1143,
                    name: Ident {
                        span_range: 1131..1142,
                        raw: ""\""countries\"""",
                        to_string: ""countries"",
                    },
                  " ++
 s "  schema: None,
                    alias: None,
                },
                note: None,
                indexes: None,
                settings: None,
            },
        ),
        Table(
            TableBlock {
                span_range: 1210..1583,
                cols: [
                    TableColumn {
                        span_range: 1226..1243,
                        name: Ident {
                            span_range: 1226..1231,
                            raw: ""\""bar\"""",
                            to_string: ""bar"",
                        },
                        type: ColumnType {
                            span_range: 1232..1240,
                            raw: ""\""text[]\"""",
                            type_name: Raw(
                                ""text"",
                            ),
                            args: [],
                            arrays: [
                                None,
                            ],
                        },
                        settings: None,
                    },
                    TableColumn {
                        span_range: 1243..1261,
                        name: Ident {
                            span_range: 1243..1249,
                            raw: ""\""bar2\"""",
                            to_string: ""bar2"",
                        },
                        type: ColumnType {
                            span_range: 1250..1258,
                            raw: ""\""int[1]\"""",
                            type_name: Raw(
                                ""int"",
                            ),
                            args: [],
                            arrays: [
                                Some(
                                    1,
                                ),
                            ],
                        },
                        settings: None,
                    },
                    TableColumn {
                        span_range: 1261" ++
 s "..1282,
                        name: Ident {
                            span_range: 1261..1267,
                            raw: ""\""bar3\"""",
                            to_string: ""bar3"",
                        },
                        type: ColumnType {
                            span_range: 1268..1279,
                            raw: ""\""int[2][3]\"""",
                            type_name: Raw(
                                ""int"",
                            ),
                            args: [],
                            arrays: [
                                Some(
                                    2,
                                ),
                                Some(
                                    3,
                                ),
                            ],
                        },
                        settings: None,
                    },
                    TableColumn {
                        span_range: 1282..1299,
                        name: Ident {
                            span_range: 1282..1288,
                            raw: ""\""bar4\"""",
                            to_string: ""bar4"",
                        },
                        type: ColumnType {
                            span_range: 1289..1296,
                            raw: ""\""int[]\"""",
                            type_name: Raw(
                                ""int"",
                            ),
                            args: [],
                            arrays: [
                                None,
                            ],
                        },
                        settings: None,
                    },
                    TableColumn {
                        span_range: 1299..1317,
                        name: Ident {
                            span_range: 1299..1305,
                            raw: ""\""bar5\"""",
                            to_string: ""bar5"",
                        },
                        type: C" ++
 s "olumnType {
                            span_range: 1306..1314,
                            raw: ""\""int[2]\"""",
                            type_name: Raw(
                                ""int"",
                            ),
                            args: [],
                            arrays: [
                                Some(
                                    2,
                                ),
                            ],
                        },
                        settings: None,
                    },
                    TableColumn {
                        span_range: 1317..1336,
                        name: Ident {
                            span_range: 1317..1323,
                            raw: ""\""bar6\"""",
                            to_string: ""bar6"",
                        },
                        type: ColumnType {
                            span_range: 1324..1333,
                            raw: ""\""text[8]\"""",
                            type_name: Raw(
                                ""text"",
                            ),
                            args: [],
                            arrays: [
                                Some(
                                    8,
                                ),
                            ],
                        },
                        settings: None,
                    },
                    TableColumn {
                        span_range: 1336..1357,
                        name: Ident {
                            span_range: 1336..1342,
                            raw: ""\""bar7\"""",
                            to_string: ""bar7"",
                        },
                        type: ColumnType {
                            span_range: 1343..1354,
                            raw: ""\""text[100]\"""",
                            type_name: Raw(
                                ""text"",
                            ),
                            args: [],
                   " ++
 s "         arrays: [
                                Some(
                                    100,
                                ),
                            ],
                        },
                        settings: None,
                    },
                    TableColumn {
                        span_range: 1357..1378,
                        name: Ident {
                            span_range: 1357..1363,
                            raw: ""\""bar8\"""",
                            to_string: ""bar8"",
                        },
                        type: ColumnType {
                            span_range: 1364..1375,
                            raw: ""\""time(2)[]\"""",
                            type_name: Raw(
                                ""time"",
                            ),
                            args: [
                                Integer(
                                    2,
                                ),
                            ],
                            arrays: [
                                None,
                            ],
                        },
                        settings: None,
                    },
                    TableColumn {
                        span_range: 1378..1400,
                        name: Ident {
                            span_range: 1378..1384,
                            raw: ""\""bar9\"""",
                            to_string: ""bar9"",
                        },
                        type: ColumnType {
                            span_range: 1385..1397,
                            raw: ""\""time(1)[1]\"""",
                            type_name: Raw(
                                ""time"",
                            ),
                            args: [
                                Integer(
                                    1,
                                ),
                            ],
                            arrays: [
                                Some(
      " ++
 s "                              1,
                                ),
                            ],
                        },
                        settings: None,
                    },
                    TableColumn {
                        span_range: 1400..1422,
                        name: Ident {
                            span_range: 1400..1407,
                            raw: ""\""bar10\"""",
                            to_string: ""bar10"",
                        },
                        type: ColumnType {
                            span_range: 1408..1419,
                            raw: ""\""time(1)[]\"""",
                            type_name: Raw(
                                ""time"",
                            ),
                            args: [
                                Integer(
                                    1,
                                ),
                            ],
                            arrays: [
                                None,
                            ],
                        },
                        settings: None,
                    },
                    TableColumn {
                        span_range: 1422..1442,
                        name: Ident {
                            span_range: 1422..1429,
                            raw: ""\""bar11\"""",
                            to_string: ""bar11"",
                        },
                        type: ColumnType {
                            span_range: 1430..1439,
                            raw: ""\""time[5]\"""",
                            type_name: Raw(
                                ""time"",
                            ),
                            args: [],
                            arrays: [
                                Some(
                                    5,
                                ),
                            ],
                        },
                        settings: None,
                    },
                   " ++
 s " TableColumn {
                        span_range: 1442..1477,
                        name: Ident {
                            span_range: 1442..1449,
                            raw: ""\""bar12\"""",
                            to_string: ""bar12"",
                        },
                        type: ColumnType {
                            span_range: 1450..1474,
                            raw: ""\""timestamp(2)[10][2][5]\"""",
                            type_name: Raw(
                                ""timestamp"",
                            ),
                            args: [
                                Integer(
                                    2,
                                ),
                            ],
                            arrays: [
                                Some(
                                    10,
                                ),
                                Some(
                                    2,
                                ),
                                Some(
                                    5,
                                ),
                            ],
                        },
                        settings: None,
                    },
                    TableColumn {
                        span_range: 1477..1509,
                        name: Ident {
                            span_range: 1477..1484,
                            raw: ""\""bar13\"""",
                            to_string: ""bar13"",
                        },
                        type: ColumnType {
                            span_range: 1485..1506,
                            raw: ""\""character varying[]\"""",
                            type_name: Raw(
                                ""character varying"",
                            ),
                            args: [],
                            arrays: [
                                None,
                            ],
                        },
                      " ++
 s "  settings: None,
                    },
                    TableColumn {
                        span_range: 1509..1550,
                        name: Ident {
                            span_range: 1509..1516,
                            raw: ""\""bar14\"""",
                            to_string: ""bar14"",
                        },
                        type: ColumnType {
                            span_range: 1517..1547,
                            raw: ""\""character varying(25)[][2][]\"""",
                            type_name: Raw(
                                ""character varying"",
                            ),
                            args: [
                                Integer(
                                    25,
                                ),
                            ],
                            arrays: [
                                None,
                                Some(
                                    2,
                                ),
                                None,
                            ],
                        },
                        settings: None,
                    },
                    TableColumn {
                        span_range: 1550..1582,
                        name: Ident {
                            span_range: 1550..1557,
                            raw: ""\""bar15\"""",
                            to_string: ""bar15"",
                        },
                        type: ColumnType {
                            span_range: 1558..1581,
                            raw: ""\""character varying[76]\"""",
                            type_name: Raw(
                                ""character varying"",
                            ),
                            args: [],
                            arrays: [
                                Some(
                                    76,
                                ),
                            ],
                        },
                   " ++
 s "     settings: None,
                    },
                ],
                ident: TableIdent {
                    span_range: 1216..1222,
                    name: Ident {
                        span_range: 1216..1221,
                        raw: ""\""foo\"""",
                        to_string: ""foo"",
                    },
                    schema: None,
                    alias: None,
                },
                note: None,
                indexes: None,
                settings: None,
            },
        ),
        Ref(
            RefBlock {
                span_range: 1589..1631,
                name: None,
                rel: One2Many,
                lhs: RefIdent {
                    span_range: 1589..1602,
                    schema: None,
                    table: Ident {
                        span_range: 1589..1597,
                        raw: ""\""orders\"""",
                        to_string: ""orders"",
                    },
                    compositions: [
                        Ident {
                            span_range: 1598..1602,
                            raw: ""\""id\"""",
                            to_string: ""id"",
                        },
                    ],
                },
                rhs: RefIdent {
                    span_range: 1605..1629,
                    schema: None,
                    table: Ident {
                        span_range: 1605..1618,
                        raw: ""\""order_items\"""",
                        to_string: ""order_items"",
                    },
                    compositions: [
                        Ident {
                            span_range: 1619..1629,
                            raw: ""\""order_id\"""",
                            to_string: ""order_id"",
                        },
                    ],
                },
                settings: None,
            },
        ),
        Ref(
            RefBlock {
                span_range: 1635..1681,
              " ++
 s "  name: None,
                rel: One2Many,
                lhs: RefIdent {
                    span_range: 1635..1650,
                    schema: None,
                    table: Ident {
                        span_range: 1635..1645,
                        raw: ""\""products\"""",
                        to_string: ""products"",
                    },
                    compositions: [
                        Ident {
                            span_range: 1646..1650,
                            raw: ""\""id\"""",
                            to_string: ""id"",
                        },
                    ],
                },
                rhs: RefIdent {
                    span_range: 1653..1679,
                    schema: None,
                    table: Ident {
                        span_range: 1653..1666,
                        raw: ""\""order_items\"""",
                        to_string: ""order_items"",
                    },
                    compositions: [
                        Ident {
                            span_range: 1667..1679,
                            raw: ""\""product_id\"""",
                            to_string: ""product_id"",
                        },
                    ],
                },
                settings: None,
            },
        ),
        Ref(
            RefBlock {
                span_range: 1685..1730,
                name: None,
                rel: One2Many,
                lhs: RefIdent {
                    span_range: 1685..1703,
                    schema: None,
                    table: Ident {
                        span_range: 1685..1696,
                        raw: ""\""countries\"""",
                        to_string: ""countries"",
                    },
                    compositions: [
                        Ident {
                            span_range: 1697..1703,
                            raw: ""\""code\"""",
                            to_string: ""code"",
                        },
                    ]" ++
 s ",
                },
                rhs: RefIdent {
                    span_range: 1706..1728,
                    schema: None,
                    table: Ident {
                        span_range: 1706..1713,
                        raw: ""\""users\"""",
                        to_string: ""users"",
                    },
                    compositions: [
                        Ident {
                            span_range: 1714..1728,
                            raw: ""\""country_code\"""",
                            to_string: ""country_code"",
                        },
                    ],
                },
                settings: None,
            },
        ),
        Ref(
            RefBlock {
                span_range: 1734..1783,
                name: None,
                rel: One2Many,
                lhs: RefIdent {
                    span_range: 1734..1752,
                    schema: None,
                    table: Ident {
                        span_range: 1734..1745,
                        raw: ""\""countries\"""",
                        to_string: ""countries"",
                    },
                    compositions: [
                        Ident {
                            span_range: 1746..1752,
                            raw: ""\""code\"""",
                            to_string: ""code"",
                        },
                    ],
                },
                rhs: RefIdent {
                    span_range: 1755..1781,
                    schema: None,
                    table: Ident {
                        span_range: 1755..1766,
                        raw: ""\""merchants\"""",
                        to_string: ""merchants"",
                    },
                    compositions: [
                        Ident {
                            span_range: 1767..1781,
                            raw: ""\""country_code\"""",
                            to_string: ""country_code"",
                        },
                    ],
        " ++
 s "        },
                settings: None,
            },
        ),
        Ref(
            RefBlock {
                span_range: 1787..1832,
                name: None,
                rel: One2Many,
                lhs: RefIdent {
                    span_range: 1787..1803,
                    schema: None,
                    table: Ident {
                        span_range: 1787..1798,
                        raw: ""\""merchants\"""",
                        to_string: ""merchants"",
                    },
                    compositions: [
                        Ident {
                            span_range: 1799..1803,
                            raw: ""\""id\"""",
                            to_string: ""id"",
                        },
                    ],
                },
                rhs: RefIdent {
                    span_range: 1806..1830,
                    schema: None,
                    table: Ident {
                        span_range: 1806..1816,
                        raw: ""\""products\"""",
                        to_string: ""products"",
                    },
                    compositions: [
                        Ident {
                            span_range: 1817..1830,
                            raw: ""\""merchant_id\"""",
                            to_string: ""merchant_id"",
                        },
                    ],
                },
                settings: None,
            },
        ),
        Ref(
            RefBlock {
                span_range: 1836..1873,
                name: None,
                rel: One2Many,
                lhs: RefIdent {
                    span_range: 1836..1848,
                    schema: None,
                    table: Ident {
                        span_range: 1836..1843,
                        raw: ""\""users\"""",
                        to_string: ""users"",
                    },
                    compositions: [
                        Ident {
                            span_range: 184" ++
 s "4..1848,
                            raw: ""\""id\"""",
                            to_string: ""id"",
                        },
                    ],
                },
                rhs: RefIdent {
                    span_range: 1851..1873,
                    schema: None,
                    table: Ident {
                        span_range: 1851..1862,
                        raw: ""\""merchants\"""",
                        to_string: ""merchants"",
                    },
                    compositions: [
                        Ident {
                            span_range: 1863..1873,
                            raw: ""\""admin_id\"""",
                            to_string: ""admin_id"",
                        },
                    ],
                },
                settings: None,
            },
        ),
    ],
}") = true.
Proof. vm_compute. reflexivity. Qed.

(** tests/dbml/postgres_importer/multiple_schema.out.dbml *)
Example golden_postgres_importer_multiple_schema : prints
(s "Enum ""job_status"" {
  ""created2""
  ""running2""
  ""done2""
  ""failure2""
}

Enum ""gender"" {
  ""male2""
  ""female2""
}

Table ""users"" {
  ""id"" int [pk]
  ""name"" varchar
  ""pjs"" job_status
  ""pjs2"" job_status
  ""pg"" schemaB.gender
  ""pg2"" gender
  ""pg3"" schemaB.""gender""
  ""pg4"" ""schemaB"".""gender""
}

Table ""products"" {
  ""id"" int [pk]
  ""name"" varchar [note: 'Product name of public schema']

Indexes {
  id [type: hash, unique]
}
}

Ref:""schemaA"".""locations"".""id"" < ""schemaA"".""products"".""lid""

Ref:""users"".""id"" < ""ecommerce"".""users"".""id""

Ref:""users"".""name"" < ""ecommerce"".""users"".""id""

Ref:""ecommerce"".""users"".""id"" < ""schemaA"".""products"".""name""

Ref:""users"".""id"" < ""schemaA"".""locations"".""name""

Enum ""schemaB"".""gender"" {
  ""male""
  ""female""
}

Table ""ecommerce"".""users"" {
  ""id"" int [pk]
  ""name"" varchar
  ""ejs"" job_status
  ""ejs2"" job_status
  ""eg"" schemaB.gender
  ""eg2"" gender
}

Table ""schemaA"".""products"" {
  ""id"" int [pk]
  ""name"" varchar [note: 'Product name of schemaA']
  ""lid"" int

Indexes {
  (id, name) [name: ""product_status""]
}
}

Table ""schemaA"".""locations"" {
  ""id"" int [pk]
  ""name"" varchar
  Note: 'This is a note in table ""locations""'
}
")
(s "SchemaBlock {
    span_range: 0..1151,
    input: ""Enum \""job_status\"" {\n  \""created2\""\n  \""running2\""\n  \""done2\""\n  \""failure2\""\n}\n\nEnum \""gender\"" {\n  \""male2\""\n  \""female2\""\n}\n\nTable \""users\"" {\n  \""id\"" int [pk]\n  \""name\"" varchar\n  \""pjs\"" job_status\n  \""pjs2\"" job_status\n  \""pg\"" schemaB.gender\n  \""pg2\"" gender\n  \""pg3\"" schemaB.\""gender\""\n  \""pg4\"" \""schemaB\"".\""gender\""\n}\n\nTable \""products\"" {\n  \""id\"" int [pk]\n  \""name\"" varchar [note: 'Product name of public schema']\n\nIndexes {\n  id [type: hash, unique]\n}\n}\n\nRef:\""schemaA\"".\""locations\"".\""id\"" < \""schemaA\"".\""products\"".\""lid\""\n\nRef:\""users\"".\""id\"" < \""ecommerce\"".\""users\"".\""id\""\n\nRef:\""users\"".\""name\"" < \""ecommerce\"".\""users\"".\""id\""\n\nRef:\""ecommerce\"".\""users\"".\""id\"" < \""schemaA\"".\""products\"".\""name\""\n\nRef:\""users\"".\""id\"" < \""schemaA\"".\""locations\"".\""name\""\n\nEnum \""schemaB\"".\""gender\"" {\n  \""male\""\n  \""female\""\n}\n\nTable \""ecommerce\"".\""users\"" {\n  \""id\"" int [pk]\n  \""name\"" varchar\n  \""ejs\"" job_status\n  \""ejs2\"" job_status\n  \""eg\"" schemaB.gender\n  \""eg2\"" gender\n}\n\nTable \""schemaA\"".\""products\"" {\n  \""id\"" int [pk]\n  \""name\"" varchar [note: 'Product name of schemaA']\n  \""lid\"" int\n\nIndexes {\n  (id, name) [name: \""product_status\""]\n}\n}\n\nTable \""schemaA\"".\""locations\"" {\n  \""id\"" int [pk]\n  \""name\"" varchar\n  Note: 'This is a note in table \""locations\""'\n}\n"",
    blocks: [
        Enum(
            EnumBlock {
                span_range: 0..70,
                ident: EnumIdent {
                    span_range: 5..18,
                    schema: None,
                    name: Ident {
                        span_range: 5..17,
                        raw: ""\""job_status\"""",
                        to_string: ""job_status"",
                    },
                },
                values: [
                    EnumValue {
                        span_range: 22..35,
                        value: Ident {
                           " ++
 s " span_range: 22..32,
                            raw: ""\""created2\"""",
                            to_string: ""created2"",
                        },
                        settings: None,
                    },
                    EnumValue {
                        span_range: 35..48,
                        value: Ident {
                            span_range: 35..45,
                            raw: ""\""running2\"""",
                            to_string: ""running2"",
                        },
                        settings: None,
                    },
                    EnumValue {
                        span_range: 48..58,
                        value: Ident {
                            span_range: 48..55,
                            raw: ""\""done2\"""",
                            to_string: ""done2"",
                        },
                        settings: None,
                    },
                    EnumValue {
                        span_range: 58..69,
                        value: Ident {
                            span_range: 58..68,
                            raw: ""\""failure2\"""",
                            to_string: ""failure2"",
                        },
                        settings: None,
                    },
                ],
            },
        ),
        Enum(
            EnumBlock {
                span_range: 72..111,
                ident: EnumIdent {
                    span_range: 77..86,
                    schema: None,
                    name: Ident {
                        span_range: 77..85,
                        raw: ""\""gender\"""",
                        to_string: ""gender"",
                    },
                },
                values: [
                    EnumValue {
                        span_range: 90..100,
                        value: Ident {
                            span_range: 90..97,
                            raw: ""\""male2\"""",
                            to_string: ""male2"",
               " ++
 s "         },
                        settings: None,
                    },
                    EnumValue {
                        span_range: 100..110,
                        value: Ident {
                            span_range: 100..109,
                            raw: ""\""female2\"""",
                            to_string: ""female2"",
                        },
                        settings: None,
                    },
                ],
            },
        ),
        Table(
            TableBlock {
                span_range: 113..291,
                cols: [
                    TableColumn {
                        span_range: 131..144,
                        name: Ident {
                            span_range: 131..135,
                            raw: ""\""id\"""",
                            to_string: ""id"",
                        },
                        type: ColumnType {
                            span_range: 136..139,
                            raw: ""int"",
                            type_name: Raw(
                                ""int"",
                            ),
                            args: [],
                            arrays: [],
                        },
                        settings: Some(
                            ColumnSettings {
                                span_range: 140..144,
                                attributes: [
                                    Attribute {
                                        span_range: 141..143,
                                        key: Ident {
                                            span_range: 141..143,
                                            raw: ""pk"",
                                            to_string: ""pk"",
                                        },
                                        value: None,
                                    },
                                ],
                                is_pk: true,
                                is_unique: " ++
 s "false,
                                nullable: None,
                                is_incremental: false,
                                note: None,
                                default: None,
                                refs: [],
                            },
                        ),
                    },
                    TableColumn {
                        span_range: 147..164,
                        name: Ident {
                            span_range: 147..153,
                            raw: ""\""name\"""",
                            to_string: ""name"",
                        },
                        type: ColumnType {
                            span_range: 154..161,
                            raw: ""varchar"",
                            type_name: Raw(
                                ""varchar"",
                            ),
                            args: [],
                            arrays: [],
                        },
                        settings: None,
                    },
                    TableColumn {
                        span_range: 164..183,
                        name: Ident {
                            span_range: 164..169,
                            raw: ""\""pjs\"""",
                            to_string: ""pjs"",
                        },
                        type: ColumnType {
                            span_range: 170..180,
                            raw: ""job_status"",
                            type_name: Raw(
                                ""job_status"",
                            ),
                            args: [],
                            arrays: [],
                        },
                        settings: None,
                    },
                    TableColumn {
                        span_range: 183..203,
                        name: Ident {
                            span_range: 183..189,
                            raw: ""\""pjs2\"""",
                            to_string: " ++
 s """pjs2"",
                        },
                        type: ColumnType {
                            span_range: 190..200,
                            raw: ""job_status"",
                            type_name: Raw(
                                ""job_status"",
                            ),
                            args: [],
                            arrays: [],
                        },
                        settings: None,
                    },
                    TableColumn {
                        span_range: 203..225,
                        name: Ident {
                            span_range: 203..207,
                            raw: ""\""pg\"""",
                            to_string: ""pg"",
                        },
                        type: ColumnType {
                            span_range: 208..222,
                            raw: ""schemaB.gender"",
                            type_name: Raw(
                                ""schemaB.gender"",
                            ),
                            args: [],
                            arrays: [],
                        },
                        settings: None,
                    },
                    TableColumn {
                        span_range: 225..240,
                        name: Ident {
                            span_range: 225..230,
                            raw: ""\""pg2\"""",
                            to_string: ""pg2"",
                        },
                        type: ColumnType {
                            span_range: 231..237,
                            raw: ""gender"",
                            type_name: Raw(
                                ""gender"",
                            ),
                            args: [],
                            arrays: [],
                        },
                        settings: None,
                    },
                    TableColumn {
                        span_range: 240..265,
                        name: " ++
 s "Ident {
                            span_range: 240..245,
                            raw: ""\""pg3\"""",
                            to_string: ""pg3"",
                        },
                        type: ColumnType {
                            span_range: 246..262,
                            raw: ""schemaB.\""gender\"""",
                            type_name: Raw(
                                ""schemaB.gender"",
                            ),
                            args: [],
                            arrays: [],
                        },
                        settings: None,
                    },
                    TableColumn {
                        span_range: 265..290,
                        name: Ident {
                            span_range: 265..270,
                            raw: ""\""pg4\"""",
                            to_string: ""pg4"",
                        },
                        type: ColumnType {
                            span_range: 271..289,
                            raw: ""\""schemaB\"".\""gender\"""",
                            type_name: Raw(
                                ""schemaB.gender"",
                            ),
                            args: [],
                            arrays: [],
                        },
                        settings: None,
                    },
                ],
                ident: TableIdent {
                    span_range: 119..127,
                    name: Ident {
                        span_range: 119..126,
                        raw: ""\""users\"""",
                        to_string: ""users"",
                    },
                    schema: None,
                    alias: None,
                },
                note: None,
                indexes: None,
                settings: None,
            },
        ),
        Table(
            TableBlock {
                span_range: 293..425,
                cols: [
                    TableColumn {
                        span_" ++
 s "range: 314..327,
                        name: Ident {
                            span_range: 314..318,
                            raw: ""\""id\"""",
                            to_string: ""id"",
                        },
                        type: ColumnType {
                            span_range: 319..322,
                            raw: ""int"",
                            type_name: Raw(
                                ""int"",
                            ),
                            args: [],
                            arrays: [],
                        },
                        settings: Some(
                            ColumnSettings {
                                span_range: 323..327,
                                attributes: [
                                    Attribute {
                                        span_range: 324..326,
                                        key: Ident {
                                            span_range: 324..326,
                                            raw: ""pk"",
                                            to_string: ""pk"",
                                        },
                                        value: None,
                                    },
                                ],
                                is_pk: true,
                                is_unique: false,
                                nullable: None,
                                is_incremental: false,
                                note: None,
                                default: None,
                                refs: [],
                            },
                        ),
                    },
                    TableColumn {
                        span_range: 330..384,
                        name: Ident {
                            span_range: 330..336,
                            raw: ""\""name\"""",
                            to_string: ""name"",
                        },
                        type:" ++
 s " ColumnType {
                            span_range: 337..344,
                            raw: ""varchar"",
                            type_name: Raw(
                                ""varchar"",
                            ),
                            args: [],
                            arrays: [],
                        },
                        settings: Some(
                            ColumnSettings {
                                span_range: 345..384,
                                attributes: [
                                    Attribute {
                                        span_range: 346..383,
                                        key: Ident {
                                            span_range: 346..350,
                                            raw: ""note"",
                                            to_string: ""note"",
                                        },
                                        value: Some(
                                            Literal {
                                                span_range: 352..383,
                                                raw: ""'Product name of public schema'"",
                                                value: String(
                                                    ""Product name of public schema"",
                                                ),
                                            },
                                        ),
                                    },
                                ],
                                is_pk: false,
                                is_unique: false,
                                nullable: None,
                                is_incremental: false,
                                note: Some(
                                    ""Product name of public schema"",
                                ),
                                default: None,
                                refs: [],
                            " ++
 s "},
                        ),
                    },
                ],
                ident: TableIdent {
                    span_range: 299..310,
                    name: Ident {
                        span_range: 299..309,
                        raw: ""\""products\"""",
                        to_string: ""products"",
                    },
                    schema: None,
                    alias: None,
                },
                note: None,
                indexes: Some(
                    IndexesBlock {
                        span_range: 394..423,
                        defs: [
                            IndexesDef {
                                span_range: 398..421,
                                cols: [
                                    String(
                                        Ident {
                                            span_range: 398..400,
                                            raw: ""id"",
                                            to_string: ""id"",
                                        },
                                    ),
                                ],
                                settings: Some(
                                    IndexesSettings {
                                        span_range: 401..421,
                                        attributes: [
                                            Attribute {
                                                span_range: 402..412,
                                                key: Ident {
                                                    span_range: 402..406,
                                                    raw: ""type"",
                                                    to_string: ""type"",
                                                },
                                                value: Some(
                                                    Literal {
                                                        span_range: 408..412,
    " ++
 s "                                                    raw: ""hash"",
                                                        value: Enum(
                                                            ""hash"",
                                                        ),
                                                    },
                                                ),
                                            },
                                            Attribute {
                                                span_range: 414..420,
                                                key: Ident {
                                                    span_range: 414..420,
                                                    raw: ""unique"",
                                                    to_string: ""unique"",
                                                },
                                                value: None,
                                            },
                                        ],
                                        type: Some(
                                            Hash,
                                        ),
                                        is_unique: true,
                                        is_pk: false,
                                        note: None,
                                        name: None,
                                    },
                                ),
                            },
                        ],
                    },
                ),
                settings: None,
            },
        ),
        Ref(
            RefBlock {
                span_range: 431..488,
                name: None,
                rel: One2Many,
                lhs: RefIdent {
                    span_range: 431..457,
                    schema: Some(
                        Ident {
                            span_range: 431..440,
                            raw: ""\""schemaA\"""",
                    " ++
 s "        to_string: ""schemaA"",
                        },
                    ),
                    table: Ident {
                        span_range: 441..452,
                        raw: ""\""locations\"""",
                        to_string: ""locations"",
                    },
                    compositions: [
                        Ident {
                            span_range: 453..457,
                            raw: ""\""id\"""",
                            to_string: ""id"",
                        },
                    ],
                },
                rhs: RefIdent {
                    span_range: 460..486,
                    schema: Some(
                        Ident {
                            span_range: 460..469,
                            raw: ""\""schemaA\"""",
                            to_string: ""schemaA"",
                        },
                    ),
                    table: Ident {
                        span_range: 470..480,
                        raw: ""\""products\"""",
                        to_string: ""products"",
                    },
                    compositions: [
                        Ident {
                            span_range: 481..486,
                            raw: ""\""lid\"""",
                            to_string: ""lid"",
                        },
                    ],
                },
                settings: None,
            },
        ),
        Ref(
            RefBlock {
                span_range: 492..533,
                name: None,
                rel: One2Many,
                lhs: RefIdent {
                    span_range: 492..504,
                    schema: None,
                    table: Ident {
                        span_range: 492..499,
                        raw: ""\""users\"""",
                        to_string: ""users"",
                    },
                    compositions: [
                        Ident {
                            span_range: 500..504,
                            r" ++
 s "aw: ""\""id\"""",
                            to_string: ""id"",
                        },
                    ],
                },
                rhs: RefIdent {
                    span_range: 507..531,
                    schema: Some(
                        Ident {
                            span_range: 507..518,
                            raw: ""\""ecommerce\"""",
                            to_string: ""ecommerce"",
                        },
                    ),
                    table: Ident {
                        span_range: 519..526,
                        raw: ""\""users\"""",
                        to_string: ""users"",
                    },
                    compositions: [
                        Ident {
                            span_range: 527..531,
                            raw: ""\""id\"""",
                            to_string: ""id"",
                        },
                    ],
                },
                settings: None,
            },
        ),
        Ref(
            RefBlock {
                span_range: 537..580,
                name: None,
                rel: One2Many,
                lhs: RefIdent {
                    span_range: 537..551,
                    schema: None,
                    table: Ident {
                        span_range: 537..544,
                        raw: ""\""users\"""",
                        to_string: ""users"",
                    },
                    compositions: [
                        Ident {
                            span_range: 545..551,
                            raw: ""\""name\"""",
                            to_string: ""name"",
                        },
                    ],
                },
                rhs: RefIdent {
                    span_range: 554..578,
                    schema: Some(
                        Ident {
                            span_range: 554..565,
                            raw: ""\""ecommerce\"""",
                            to_string: ""ecommerce"",
     " ++
 s "                   },
                    ),
                    table: Ident {
                        span_range: 566..573,
                        raw: ""\""users\"""",
                        to_string: ""users"",
                    },
                    compositions: [
                        Ident {
                            span_range: 574..578,
                            raw: ""\""id\"""",
                            to_string: ""id"",
                        },
                    ],
                },
                settings: None,
            },
        ),
        Ref(
            RefBlock {
                span_range: 584..640,
                name: None,
                rel: One2Many,
                lhs: RefIdent {
                    span_range: 584..608,
                    schema: Some(
                        Ident {
                            span_range: 584..595,
                            raw: ""\""ecommerce\"""",
                            to_string: ""ecommerce"",
                        },
                    ),
                    table: Ident {
                        span_range: 596..603,
                        raw: ""\""users\"""",
                        to_string: ""users"",
                    },
                    compositions: [
                        Ident {
                            span_range: 604..608,
                            raw: ""\""id\"""",
                            to_string: ""id"",
                        },
                    ],
                },
                rhs: RefIdent {
                    span_range: 611..638,
                    schema: Some(
                        Ident {
                            span_range: 611..620,
                            raw: ""\""schemaA\"""",
                            to_string: ""schemaA"",
                        },
                    ),
                    table: Ident {
                        span_range: 621..631,
                        raw: ""\""products\"""",
                        to_s" ++
 s "tring: ""products"",
                    },
                    compositions: [
                        Ident {
                            span_range: 632..638,
                            raw: ""\""name\"""",
                            to_string: ""name"",
                        },
                    ],
                },
                settings: None,
            },
        ),
        Ref(
            RefBlock {
                span_range: 644..689,
                name: None,
                rel: One2Many,
                lhs: RefIdent {
                    span_range: 644..656,
                    schema: None,
                    table: Ident {
                        span_range: 644..651,
                        raw: ""\""users\"""",
                        to_string: ""users"",
                    },
                    compositions: [
                        Ident {
                            span_range: 652..656,
                            raw: ""\""id\"""",
                            to_string: ""id"",
                        },
                    ],
                },
                rhs: RefIdent {
                    span_range: 659..687,
                    schema: Some(
                        Ident {
                            span_range: 659..668,
                            raw: ""\""schemaA\"""",
                            to_string: ""schemaA"",
                        },
                    ),
                    table: Ident {
                        span_range: 669..680,
                        raw: ""\""locations\"""",
                        to_string: ""locations"",
                    },
                    compositions: [
                        Ident {
                            span_range: 681..687,
                            raw: ""\""name\"""",
                            to_string: ""name"",
                        },
                    ],
                },
                settings: None,
            },
        ),
        Enum(
            EnumBlock {
    " ++
 s "            span_range: 689..736,
                ident: EnumIdent {
                    span_range: 694..712,
                    schema: Some(
                        Ident {
                            span_range: 694..703,
                            raw: ""\""schemaB\"""",
                            to_string: ""schemaB"",
                        },
                    ),
                    name: Ident {
                        span_range: 704..712,
                        raw: ""\""gender\"""",
                        to_string: ""gender"",
                    },
                },
                values: [
                    EnumValue {
                        span_range: 717..726,
                        value: Ident {
                            span_range: 717..723,
                            raw: ""\""male\"""",
                            to_string: ""male"",
                        },
                        settings: None,
                    },
                    EnumValue {
                        span_range: 726..735,
                        value: Ident {
                            span_range: 726..734,
                            raw: ""\""female\"""",
                            to_string: ""female"",
                        },
                        settings: None,
                    },
                ],
            },
        ),
        Table(
            TableBlock {
                span_range: 738..876,
                cols: [
                    TableColumn {
                        span_range: 768..781,
                        name: Ident {
                            span_range: 768..772,
                            raw: ""\""id\"""",
                            to_string: ""id"",
                        },
                        type: ColumnType {
                            span_range: 773..776,
                            raw: ""int"",
                            type_name: Raw(
                                ""int"",
                            ),
          " ++
 s "                  args: [],
                            arrays: [],
                        },
                        settings: Some(
                            ColumnSettings {
                                span_range: 777..781,
                                attributes: [
                                    Attribute {
                                        span_range: 778..780,
                                        key: Ident {
                                            span_range: 778..780,
                                            raw: ""pk"",
                                            to_string: ""pk"",
                                        },
                                        value: None,
                                    },
                                ],
                                is_pk: true,
                                is_unique: false,
                                nullable: None,
                                is_incremental: false,
                                note: None,
                                default: None,
                                refs: [],
                            },
                        ),
                    },
                    TableColumn {
                        span_range: 784..801,
                        name: Ident {
                            span_range: 784..790,
                            raw: ""\""name\"""",
                            to_string: ""name"",
                        },
                        type: ColumnType {
                            span_range: 791..798,
                            raw: ""varchar"",
                            type_name: Raw(
                                ""varchar"",
                            ),
                            args: [],
                            arrays: [],
                        },
                        settings: None,
                    },
                    TableColumn {
                        span_range: 801..820,
   " ++
 s "                     name: Ident {
                            span_range: 801..806,
                            raw: ""\""ejs\"""",
                            to_string: ""ejs"",
                        },
                        type: ColumnType {
                            span_range: 807..817,
                            raw: ""job_status"",
                            type_name: Raw(
                                ""job_status"",
                            ),
                            args: [],
                            arrays: [],
                        },
                        settings: None,
                    },
                    TableColumn {
                        span_range: 820..840,
                        name: Ident {
                            span_range: 820..826,
                            raw: ""\""ejs2\"""",
                            to_string: ""ejs2"",
                        },
                        type: ColumnType {
                            span_range: 827..837,
                            raw: ""job_status"",
                            type_name: Raw(
                                ""job_status"",
                            ),
                            args: [],
                            arrays: [],
                        },
                        settings: None,
                    },
                    TableColumn {
                        span_range: 840..862,
                        name: Ident {
                            span_range: 840..844,
                            raw: ""\""eg\"""",
                            to_string: ""eg"",
                        },
                        type: ColumnType {
                            span_range: 845..859,
                            raw: ""schemaB.gender"",
                            type_name: Raw(
                                ""schemaB.gender"",
                            ),
                            args: [],
                            arrays: [],
                       " ++
 s " },
                        settings: None,
                    },
                    TableColumn {
                        span_range: 862..875,
                        name: Ident {
                            span_range: 862..867,
                            raw: ""\""eg2\"""",
                            to_string: ""eg2"",
                        },
                        type: ColumnType {
                            span_range: 868..874,
                            raw: ""gender"",
                            type_name: Raw(
                                ""gender"",
                            ),
                            args: [],
                            arrays: [],
                        },
                        settings: None,
                    },
                ],
                ident: TableIdent {
                    span_range: 744..763,
                    name: Ident {
                        span_range: 756..763,
                        raw: ""\""users\"""",
                        to_string: ""users"",
                    },
                    schema: Some(
                        Ident {
                            span_range: 744..755,
                            raw: ""\""ecommerce\"""",
                            to_string: ""ecommerce"",
                        },
                    ),
                    alias: None,
                },
                note: None,
                indexes: None,
                settings: None,
            },
        ),
        Table(
            TableBlock {
                span_range: 878..1038,
                cols: [
                    TableColumn {
                        span_range: 909..922,
                        name: Ident {
                            span_range: 909..913,
                            raw: ""\""id\"""",
                            to_string: ""id"",
                        },
                        type: ColumnType {
                            span_range: 914..917,
                         " ++
 s "   raw: ""int"",
                            type_name: Raw(
                                ""int"",
                            ),
                            args: [],
                            arrays: [],
                        },
                        settings: Some(
                            ColumnSettings {
                                span_range: 918..922,
                                attributes: [
                                    Attribute {
                                        span_range: 919..921,
                                        key: Ident {
                                            span_range: 919..921,
                                            raw: ""pk"",
                                            to_string: ""pk"",
                                        },
                                        value: None,
                                    },
                                ],
                                is_pk: true,
                                is_unique: false,
                                nullable: None,
                                is_incremental: false,
                                note: None,
                                default: None,
                                refs: [],
                            },
                        ),
                    },
                    TableColumn {
                        span_range: 925..973,
                        name: Ident {
                            span_range: 925..931,
                            raw: ""\""name\"""",
                            to_string: ""name"",
                        },
                        type: ColumnType {
                            span_range: 932..939,
                            raw: ""varchar"",
                            type_name: Raw(
                                ""varchar"",
                            ),
                            args: [],
                            arrays: [],
                        },
       " ++
 s "                 settings: Some(
                            ColumnSettings {
                                span_range: 940..973,
                                attributes: [
                                    Attribute {
                                        span_range: 941..972,
                                        key: Ident {
                                            span_range: 941..945,
                                            raw: ""note"",
                                            to_string: ""note"",
                                        },
                                        value: Some(
                                            Literal {
                                                span_range: 947..972,
                                                raw: ""'Product name of schemaA'"",
                                                value: String(
                                                    ""Product name of schemaA"",
                                                ),
                                            },
                                        ),
                                    },
                                ],
                                is_pk: false,
                                is_unique: false,
                                nullable: None,
                                is_incremental: false,
                                note: Some(
                                    ""Product name of schemaA"",
                                ),
                                default: None,
                                refs: [],
                            },
                        ),
                    },
                    TableColumn {
                        span_range: 976..987,
                        name: Ident {
                            span_range: 976..981,
                            raw: ""\""lid\"""",
                            to_string: ""lid"",
                        },
                  " ++
 s "      type: ColumnType {
                            span_range: 982..985,
                            raw: ""int"",
                            type_name: Raw(
                                ""int"",
                            ),
                            args: [],
                            arrays: [],
                        },
                        settings: None,
                    },
                ],
                ident: TableIdent {
                    span_range: 884..904,
                    name: Ident {
                        span_range: 894..904,
                        raw: ""\""products\"""",
                        to_string: ""products"",
                    },
                    schema: Some(
                        Ident {
                            span_range: 884..893,
                            raw: ""\""schemaA\"""",
                            to_string: ""schemaA"",
                        },
                    ),
                    alias: None,
                },
                note: None,
                indexes: Some(
                    IndexesBlock {
                        span_range: 995..1036,
                        defs: [
                            IndexesDef {
                                span_range: 999..1034,
                                cols: [
                                    String(
                                        Ident {
                                            span_range: 1000..1002,
                                            raw: ""id"",
                                            to_string: ""id"",
                                        },
                                    ),
                                    String(
                                        Ident {
                                            span_range: 1004..1008,
                                            raw: ""name"",
                                            to_string: ""name"",
                                        },
     " ++
 s "                               ),
                                ],
                                settings: Some(
                                    IndexesSettings {
                                        span_range: 1010..1034,
                                        attributes: [
                                            Attribute {
                                                span_range: 1011..1033,
                                                key: Ident {
                                                    span_range: 1011..1015,
                                                    raw: ""name"",
                                                    to_string: ""name"",
                                                },
                                                value: Some(
                                                    Literal {
                                                        span_range: 1017..1033,
                                                        raw: ""\""product_status\"""",
                                                        value: String(
                                                            ""product_status"",
                                                        ),
                                                    },
                                                ),
                                            },
                                        ],
                                        type: None,
                                        is_unique: false,
                                        is_pk: false,
                                        note: None,
                                        name: Some(
                                            ""product_status"",
                                        ),
                                    },
                                ),
                            },
                        ],
                    },
                ),
                settin" ++
 s "gs: None,
            },
        ),
        Table(
            TableBlock {
                span_range: 1040..1150,
                cols: [
                    TableColumn {
                        span_range: 1072..1085,
                        name: Ident {
                            span_range: 1072..1076,
                            raw: ""\""id\"""",
                            to_string: ""id"",
                        },
                        type: ColumnType {
                            span_range: 1077..1080,
                            raw: ""int"",
                            type_name: Raw(
                                ""int"",
                            ),
                            args: [],
                            arrays: [],
                        },
                        settings: Some(
                            ColumnSettings {
                                span_range: 1081..1085,
                                attributes: [
                                    Attribute {
                                        span_range: 1082..1084,
                                        key: Ident {
                                            span_range: 1082..1084,
                                            raw: ""pk"",
                                            to_string: ""pk"",
                                        },
                                        value: None,
                                    },
                                ],
                                is_pk: true,
                                is_unique: false,
                                nullable: None,
                                is_incremental: false,
                                note: None,
                                default: None,
                                refs: [],
                            },
                        ),
                    },
                    TableColumn {
                        span_range: 1088..1105,
                   " ++
 s "     name: Ident {
                            span_range: 1088..1094,
                            raw: ""\""name\"""",
                            to_string: ""name"",
                        },
                        type: ColumnType {
                            span_range: 1095..1102,
                            raw: ""varchar"",
                            type_name: Raw(
                                ""varchar"",
                            ),
                            args: [],
                            arrays: [],
                        },
                        settings: None,
                    },
                ],
                ident: TableIdent {
                    span_range: 1046..1067,
                    name: Ident {
                        span_range: 1056..1067,
                        raw: ""\""locations\"""",
                        to_string: ""locations"",
                    },
                    schema: Some(
                        Ident {
                            span_range: 1046..1055,
                            raw: ""\""schemaA\"""",
                            to_string: ""schemaA"",
                        },
                    ),
                    alias: None,
                },
                note: Some(
                    NoteBlock {
                        span_range: 1105..1148,
                        value: Literal {
                            span_range: 1111..1148,
                            raw: ""'This is a note in table \""locations\""'"",
                            value: String(
                                ""This is a note in table \""locations\"""",
                            ),
                        },
                    },
                ),
                indexes: None,
                settings: None,
            },
        ),
    ],
}") = true.
Proof. vm_compute. reflexivity. Qed.

(** tests/dbml/validator/alias_of_duplicated_names.in.dbml *)
Example golden_validator_alias_of_duplicated_names : checked_tag (s "Table Users as U1 {

}

Table Users as U2 {

}

Table Products as U1 {
    
}") = 1.
Proof. vm_compute. reflexivity. Qed.

(** tests/dbml/validator/column_caller_type.in.dbml *)
Example golden_validator_column_caller_type : checked_tag (s "Table User {
    id int
    secret nvarbinary(MAX)
    name varchar(""MAX"")
    code varbinary('MAX')
    ssid int(10)
}") = 1.
Proof. vm_compute. reflexivity. Qed.

(** tests/dbml/validator/complex_indexes.in.dbml *)
Example golden_validator_complex_indexes : checked_tag (s "Table bookings {
  id integer
  country varchar
  booking_date date
  created_at timestamp

  indexes {
      (id, country) [pk] // composite primary key
      created_at [name: 'created_at_index', note: 'Date']
      booking_date
      (country, booking_date) [unique]
      booking_date [type: hash]
      (`id*2`)
      (`id*3`,`getdate()`)
      (`id*3`,id)
  }
}
// End of program") = 1.
Proof. vm_compute. reflexivity. Qed.

(** tests/dbml/validator/complex_names.in.dbml *)
Example golden_validator_complex_names : checked_tag (s "Project {
    Table v1.Users {
        id integer
        status v2.Status [default: v2.Status.new]
    }

    Enum v2.Status {
        new
        churn
        active
        tenant
    }
}") = 1.
Proof. vm_compute. reflexivity. Qed.

(** tests/dbml/validator/duplicate_alias_name.in.dbml *)
Example golden_validator_duplicate_alias_name : checked_tag (s "Table A as A {
    id int [primary key]
}

Table ""B"" as B {
    id int [primary key]
}

Table C as ""C"" {
    id int [primary key]
}

Table ""D"" as ""D"" {
    id int [primary key]
}") = 1.
Proof. vm_compute. reflexivity. Qed.

(** tests/dbml/validator/duplicate_columns.in.dbml *)
Example golden_validator_duplicate_columns : checked_tag (s "Table Users {
    id integer
    id integer
    id integer
}") = 1.
Proof. vm_compute. reflexivity. Qed.

(** tests/dbml/validator/duplicate_enum_field.in.dbml *)
Example golden_validator_duplicate_enum_field : checked_tag (s "Enum status {
    churn
    churn
    churn
}") = 1.
Proof. vm_compute. reflexivity. Qed.

(** tests/dbml/validator/duplicate_names.in.dbml *)
Example golden_validator_duplicate_names : checked_tag (s "Table Users {
    id integer
}

Table Users {
    name char(255)
}

TableGroup Users {

}

TableGroup Users {
    
}

Enum Users {

}

Enum Users {
    
}") = 1.
Proof. vm_compute. reflexivity. Qed.

(** tests/dbml/validator/enum.in.dbml *)
Example golden_validator_enum : checked_tag (s "enum v.""A"" {

}

enum {
    ""1""
    ""1""
    1
    a
    ""ab""
}") = 1.
Proof. vm_compute. reflexivity. Qed.

(** tests/dbml/validator/erroneous.in.dbml *)
Example golden_validator_erroneous : checked_tag (s "Table users as U {
  id int [pk, increment]
}

Table user_role_in_diagram {
  user_id int
  diagram_id int
  role int [note: 'Role = sum(user's available permissions bit value)']
  Indexes {
    (user_id, diagram_id) [pk]
  }
}

Table permissions {
  bit int [pk] 
  name varchar
}

Table diagrams {
  id int [pk, increment] // auto-increment
}

Ref: ""users"".""id"" - ""user_role_in_diagram"".""user_id""

Ref: ""diagrams"".""id"" - ""user_role_in_diagram"".""diagram_id""") = 1.
Proof. vm_compute. reflexivity. Qed.

(** tests/dbml/validator/invalid_args.in.dbml *)
Example golden_validator_invalid_args : checked_tag (s "Table A {
    id int
    ssid
}

Enum E {
    a1 e [note: 'abc']
    a2 [note: 'abc'] e
    a3 e f
    a4 e
}

TableGroup G {
    A a
    A a a
}

Ref {
    A.id > A.id [delete: cascade] a
}

Ref {
    A.id > A.id a [delete: cascade]
}

Ref {
    A.id > A.id a
}

Ref {
    A.id > A.id a a
}") = 1.
Proof. vm_compute. reflexivity. Qed.

(** tests/dbml/validator/nested_duplicate_names.in.dbml *)
Example golden_validator_nested_duplicate_names : checked_tag (s "Project B {
    Table A {

    }

    Table A {

    }

    Table B {
        
    }
}") = 1.
Proof. vm_compute. reflexivity. Qed.

(** tests/dbml/validator/old_undocumented_syntax.in.dbml *)
Example golden_validator_old_undocumented_syntax : checked_tag (s "Table ""customer"" {
  ""customer_id"" SMALLINT [pk, not null, increment]
  ""store_id"" TINYINT [not null]
  ""first_name"" VARCHAR(45) [not null]
  ""last_name"" VARCHAR(45) [not null, default: faLse]
  ""email"" VARCHAR(50) [default: NULL]
  ""address_id"" SMALLINT [not NULL]
  ""active"" BOOLEAN [not null, default: TRUE]
  ""create_date"" DATETIME [not null]
  ""last_update"" TIMESTAMP [default: `CURRENT_TIMESTAMP`]
}

Table cities {
  id integer [primary key]
  name e [default: ""hello""]
  country_id integer
  note: ""sasasa""
}

Table country {
	id integer
	cities string[]
}

Table citites {
	id integer
	name string
	indexes {
		id name
	}
}") = 1.
Proof. vm_compute. reflexivity. Qed.

(** tests/dbml/validator/public_schema.in.dbml *)
Example golden_validator_public_schema : checked_tag (s "Enum status {

}

Enum public.status {
    
}") = 1.
Proof. vm_compute. reflexivity. Qed.

(** tests/dbml/validator/redefined_note.in.dbml *)
Example golden_validator_redefined_note : checked_tag (s "Table A {
    Note: ''' This is a local note '''
    Note {
        'This is another local note'
    }
}

Note {
    'This is a global note'
}

Note: '''
    This is another global note
'''") = 1.
Proof. vm_compute. reflexivity. Qed.

(** tests/dbml/validator/ref.in.dbml *)
Example golden_validator_ref : checked_tag (s "Ref a: Users.id < Products.uid [update: no action]") = 1.
Proof. vm_compute. reflexivity. Qed.

(** tests/dbml/validator/ref_in_table.in.dbml *)
Example golden_validator_ref_in_table : checked_tag (s "Table A {
    id integer
    code number
}

Table B {
    id integer
    code number
}

Table C {
    id integer
    code number
    Ref: id > A.id
    Ref: code > B.code
}") = 1.
Proof. vm_compute. reflexivity. Qed.

(** tests/dbml/validator/sticky_notes.in.dbml *)
Example golden_validator_sticky_notes : checked_tag (s "Table users [headercolor: #3498DB] {
  id integer [primary key]
  username varchar(255) [not null, unique]
}

Note note2 {
  'One line note'
}

Note note2 {
  'One line note'
}

Note note3 {
  'One line note'
}

Note ""note3"" {
  'One line note'
}

Note schema.note3[] {
  '''
    # Title
    body
  '''
}
Note ""schema.note4"" {
  '''
    # Title
    body
  '''
}

Note ""schema"".""note5"" [headercolor: #3457DB] {
  '''
    # Title
    body
  '''
}
") = 1.
Proof. vm_compute. reflexivity. Qed.

(** tests/dbml/validator/table_settings.in.dbml *)
Example golden_validator_table_settings : checked_tag (s "Table Users [
    headercolor: #123, 
    note: 'This is a note',
    note: 'This is a duplicate note'
] {
    id integer [primary key]    // pk
    name string [not null]      /* not null */
    age integer [default: 18, note: 'This is a note', note: 'This is another note']
    /* -----
       ----- */
    status v2.status [default: v2.status.new]
    dob char(255) [null]
}

Enum v2.status {
    churn
    new
    active
    tenant
}") = 1.
Proof. vm_compute. reflexivity. Qed.

(** tests/dbml/checked/sample_tmp.dbml *)
Example golden_checked_sample_tmp : checked_tag (s "Project project_name {
  database_type: 'PostgreSQL'
  Note: 'Description of the project'
}

TableGroup order {
  users
  P
  orders
}

Table users {
  id integer [pk]
  age integer [default: 10]
  username ""character varying[]""
  role varchar
  created_at timestamp
  referral_id integer [ref: > users.id, null]

  indexes {
    (username, role) [type: btree]
  }
}

// Ref: users.(role, age) <> orders.(status, number)
Ref: users.role > orders.status
// Ref: orders.tmp < users.role

Table posts as P {
  id integer [pk]
  title varchar
  body text [note: 'Content of the post']
  user_id integer [ref: > users.id]
  status post_status [default: draft, unique]
  tmp post_status [unique]
  created_at timestamp
}

Table orders {
  id integer [pk]
  number integer
  status varchar [
  note: '
  " ++
 [128184] ++
 s " 1 = processing, 
  " ++
 [10004] ++
 [65039] ++
 s " 2 = shipped, 
  " ++
 [10060] ++
 s " 3 = cancelled,
  " ++
 [128532] ++
 s " 4 = refunded
  ', unique]

  indexes {
    (status, number) [unique]
  }

  // indexes {
  //   (id, country) [pk] // composite primary key
  //   created_at [name: ""created_at_index"", note: 'Date']
  //   booking_date
  //   (country, booking_date) [type: btree, unique]
  //   booking_date [type: hash]
  //   (`id*2`)
  //   (`id*3`,`getdate()`)
  //   (`id*3`, id)
  // }
}

enum post_status {
  draft
  published
  private [note: 'visible via URL only']
}

// Ref: posts.user_id > users.id [update: restrict] // many-to-one") = 0.
Proof. vm_compute. reflexivity. Qed.
