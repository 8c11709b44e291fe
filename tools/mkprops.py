#!/usr/bin/env python3
# Writes /verif/properties.jsonl.
import json, os
P=[]
def p(id,title,statement,quantifier,why,anchors):
    P.append(dict(id=id,title=title,statement=statement,quantifier=quantifier,why_tests_cant=why,anchors=anchors))
p("C01","Parsing always returns","parse_dbml_unchecked returns (it neither loops nor panics) and gives Ok or Err.","every input string, of any length and content, including arbitrary Unicode","the golden tests run 22 files; non-termination or an unreachable!() may hide behind any other text",["src/parser/mod.rs:parse","src/dbml.pest:schema"])
p("C02","Semantic checking never panics","parse_dbml returns Ok or Err and does not panic. (False for the code: a string default on char/bit/varchar/varbit without a length argument indexes args[0] of an empty vector. Proved: that this is the only way to panic.)","every input string","needs the set of all inputs that reach a panic site",["src/lib.rs:parse_dbml","src/analyzer/mod.rs:342,347","src/analyzer/err.rs:throw_err"])
p("C03","Checked parsing only filters","If parse_dbml succeeds it returns exactly what parse_dbml_unchecked returns; if parse_dbml_unchecked fails, parse_dbml fails with the same error; otherwise its error is a semantic one.","every input string","an equation between two entry points over all inputs",["src/lib.rs:parse_dbml"])
p("C04","Every span is a valid slice","Every span_range in a returned AST is start <= end <= input length with both ends on UTF-8 character boundaries, so input[span] never panics.","every input the parser accepts, every node of the AST","multi-byte characters can sit next to any token",["src/parser/helper.rs:s2r","src/ast/*.rs:span_range"])
p("C05","raw is the source text","For every identifier, literal and column type of a returned AST, the field raw equals the slice of the input at the node's span.","every accepted input, every node","offset arithmetic must agree with slicing for every layout",["src/ast/unit.rs:Ident,Literal","src/ast/table.rs:ColumnType"])
p("C06","Spans nest and are ordered","In a returned AST the spans of children lie inside the parent's span, top-level blocks occur in source order without overlap, and so do the columns of a table, values of an enum, items of a group, definitions of an indexes block and attributes of a settings list.","every accepted input","relational property over all siblings of all trees",["src/parser/mod.rs:parse_schema","src/parser/mod.rs:parse_table_decl"])
p("C07","The schema block is the whole input","The returned SchemaBlock has span 0..input.len() and its input field is the input.","every accepted input","for all lengths and contents",["src/parser/mod.rs:parse_schema","src/ast/schema.rs:SchemaBlock"])
p("C08","Identifier decoding","An identifier's to_string is its raw text when unquoted (then ASCII letter followed by letters, digits, underscores), and otherwise raw is a double-quoted string and to_string the quoted text after leading whitespace/comments, containing no double quote.","every identifier of every accepted input","ranges over all identifiers",["src/parser/mod.rs:parse_ident","src/dbml.pest:ident"])
p("C09","String literals are verbatim","A quoted string literal denotes exactly the characters between its quotes. (False for the code: pest's implicit skipping drops leading whitespace and comments inside quotes. Proved: the literal is the quoted text with exactly the leading whitespace/comments removed; verbatim when there are none.)","every string literal of every accepted input","needs all string contents, in particular ones that look like comments",["src/dbml.pest:double_quoted_string,single_quoted_string,triple_quoted_string,backquoted_quoted_string","src/parser/mod.rs:parse_string_value"])
p("C10","Integers are exact or rejected","An integer literal is accepted with its exact mathematical value if it is at most i64::MAX (u32::MAX for array sizes), and otherwise the parse is an error; it never wraps.","every digit string","2^63 values and arbitrarily long digit strings",["src/parser/mod.rs:parse_value","src/parser/mod.rs:parse_col_type"])
p("C11","Column types are left raw","Every column of a returned AST has type_name Raw(name) with name non-empty and equal to the written type name prefixed by its schema, never Undef, Enum or a resolved type — also after parse_dbml.","every accepted input, every column","all inputs; the doc comment of analyze claims the opposite",["src/parser/mod.rs:parse_col_type","src/analyzer/mod.rs:analyze","src/ast/table.rs:ColumnTypeName"])
p("C12","Column settings reflect the attributes","In every column settings, is_pk holds iff an attribute key is 'pk' or 'primary key', is_unique iff 'unique' occurs, is_incremental iff 'increment' occurs, nullable is the last of 'null'/'not null', default and note are the value of the last 'default'/'note' attribute.","every column of every accepted input, any number and order of attributes","attribute lists are unbounded and order matters",["src/parser/mod.rs:parse_col_settings"])
p("C13","Index, enum and ref settings reflect the attributes","Index settings' is_pk/is_unique/type/name/note, enum value note, and ref on_update/on_delete equal what the last attribute with that key says; unknown index types and unknown referential actions make the parse fail.","every settings block of every input","unbounded attribute lists",["src/parser/mod.rs:parse_indexes_settings","src/parser/mod.rs:parse_enum_value","src/parser/mod.rs:parse_rel_settings"])
p("C14","References keep their direction","In every returned ref, the relation is never Undef and is the one its symbol denotes ('<' One2Many, '>' Many2One, '-' One2One, '<>' Many2Many), lhs is the endpoint written before the symbol and rhs the one after it.","every ref of every accepted input","all refs of all inputs",["src/parser/mod.rs:parse_ref_stmt","src/ast/refs.rs:Relation"])
p("C15","Writing then parsing gives the schema back","For every abstract schema (tables, columns, types, settings, enums, refs, groups, project, notes) written out in DBML, parse_dbml_unchecked succeeds and yields exactly that schema, block for block and field for field (of several notes or index blocks in one table, group or project the last counts); and what it yields for any text is what that text says. Exactly those schemas can be written whose names, keys and values have a notation (in quotes: free of the quote, starting neither with white space nor with a comment mark).","every abstract schema of any size","unbounded structures; golden files sample 22 of them",["src/dbml.pest","src/parser/mod.rs"])
p("C16","Layout and keyword case do not matter","Inserting any whitespace and comments between tokens, choosing short or block notation for notes and refs, and changing the letter case of block keywords does not change the parsed schema (apart from spans).","every schema, every choice of whitespace/comments at every gap, every letter-case variant","exponentially many layouts",["src/dbml.pest:WHITESPACE,COMMENT"])
p("C17","Accessors partition the blocks","projects, tables, table_groups, refs, enums return exactly the blocks of their kind, in order; together with the notes they account for every block once.","every AST","every block list",["src/ast/schema.rs:SchemaBlock"])
p("C18","Exactly one project with distinct property keys","A schema accepted by parse_dbml has exactly one project block and its property keys are pairwise distinct; conversely a schema violating this is rejected.","every input","all block lists",["src/analyzer/mod.rs:79-87","src/analyzer/helper.rs:check_prop_duplicate_keys"])
p("C19","Table names are unique","In an accepted schema no two tables have the same (schema, name), an omitted schema meaning 'public'.","every accepted input, every pair of tables","all pairs in all schemas",["src/analyzer/indexer.rs:index_table"])
p("C20","Column names are unique","In an accepted schema the column names of each table are pairwise distinct.","every accepted input, table and pair of columns","unbounded",["src/analyzer/indexer.rs:index_table"])
p("C21","Aliases are unique","In an accepted schema no two tables have the same alias.","every accepted input","unbounded",["src/analyzer/indexer.rs:index_table"])
p("C22","Enums and their values are unique","In an accepted schema no two enums have the same (schema, name) and the values of each enum are pairwise distinct.","every accepted input","unbounded",["src/analyzer/indexer.rs:index_enums"])
p("C23","Table groups denote distinct existing tables","In an accepted schema group names are distinct, items of a group denote distinct tables, and every item denotes a declared table. (Existence is false for schema-qualified items: they are never looked up; refuted, and proved for unqualified items.)","every accepted input, group and item","unbounded",["src/analyzer/indexer.rs:index_table_groups"])
p("C24","Attribute keys are unique","In an accepted schema the attribute keys are pairwise distinct in every settings list of tables, columns, enum values, index definitions and refs. (Refuted for table groups, whose settings are never checked.)","every accepted input, every settings list","unbounded",["src/analyzer/helper.rs:check_attr_duplicate_keys"])
p("C25","Primary keys","In an accepted schema each table has at most one column marked pk, none if an index definition over named columns is pk, and a pk column is neither explicitly nullable nor an array; no column is both 'null' and 'not null'.","every accepted input, table and column","unbounded",["src/analyzer/mod.rs:103-134","src/analyzer/mod.rs:187-192"])
p("C26","Index definitions","In an accepted schema every index definition is non-empty, names existing columns, has at most one of pk/unique/type, and repeats no earlier unique key or index.","every accepted input and index definition","unbounded, order dependent",["src/analyzer/mod.rs:147-234"])
p("C27","Type arguments","In an accepted schema a built-in column type has either no arguments, or exactly the integer arguments it takes (1 for char-like, bit-like and time-like, 2 for decimal, none for the others).","every accepted input and column","all types and argument lists",["src/analyzer/mod.rs:254-282"])
p("C28","Enum defaults are enum values","In an accepted schema, a column whose type is not built in and that has a default has a type naming a declared enum, and the default is one of its values.","every accepted input and column","unbounded",["src/analyzer/mod.rs:286-315","src/analyzer/indexer.rs:lookup_enum_values"])
p("C29","Integer defaults fit their type","In an accepted schema an integer default of a smallint/integer/bigint column is within the type's range, and conversely an in-range default is not rejected. (The converse is false for bigint: i64::MAX is rejected; refuted.)","every accepted input and column, every integer","2^64 values and three boundaries",["src/analyzer/mod.rs:353-373"])
p("C30","String defaults fit their type","In an accepted schema a string default of a char(n)/bit(n) column has exactly n bytes, of a varchar(n)/varbit(n) at most n bytes.","every accepted input and column, every string","all strings and lengths",["src/analyzer/mod.rs:333-352"])
p("C31","Boolean and null defaults","In an accepted schema a boolean default occurs only on bool columns and a null default only on columns explicitly marked null.","every accepted input and column","unbounded",["src/analyzer/mod.rs:375-386"])
p("C32","References have existing endpoints","In an accepted schema both endpoints of every reference (block or inline) denote declared tables, and all their columns exist there.","every accepted input and reference","unbounded",["src/analyzer/indexer.rs:validate_ref_type","src/analyzer/indexer.rs:lookup_table_fields"])
p("C33","Referenced columns have equal types","In an accepted schema both endpoints of a reference list the same number of columns, and columns at the same position have the same resolved type, arguments and array dimensions.","every accepted input, reference and position","unbounded",["src/analyzer/indexer.rs:388-405"])
p("C34","Referenced columns are keys","In an accepted schema the 'one' side of every reference is a key: the column is pk/unique (single) or the column set is a pk/unique index (composite); one-to-one needs one side, composite many-to-many both. (Single-column many-to-many only checks one side, against its own error text; refuted.)","every accepted input and reference","unbounded",["src/analyzer/indexer.rs:407-462"])
p("C35","No conflicting relations","In an accepted schema no two references occupy the same column set: two foreign keys (Many2One/One2Many) never start at the same columns, and no one-to-one or many-to-many pair is declared twice.","every accepted input, every pair of references","all pairs",["src/analyzer/mod.rs:404-420","src/analyzer/indexer.rs:occupy_same_column"])
p("C36","Acceptance is exactly the declared rules","analyze accepts an AST if and only if it satisfies the declarative well-formedness rules (nothing more is rejected, nothing less accepted).","every AST","an equivalence over all ASTs",["src/analyzer/mod.rs:analyze"])
p("C37","Every semantic error is truthful","When analysis fails with an error, the AST contains a violation of exactly that kind at the reported span.","every AST and every error variant","all error paths on all ASTs",["src/analyzer/err.rs:Err","src/analyzer/mod.rs","src/analyzer/indexer.rs"])
p("C38","Semantic errors point into the source","Every semantic error reported by parse_dbml carries a span that is a valid slice of the input, so building the error never panics.","every input","all error paths on all inputs",["src/analyzer/err.rs:throw_err"])
p("C39","Declaration order does not matter","Permuting the top-level blocks of a DBML text does not change whether parse_dbml accepts it.","every text and every permutation of its blocks","factorially many orders",["src/analyzer/mod.rs:analyze"])
p("C40","get_table_refs partitions the references","get_table_refs returns, in declaration order, exactly the references whose both, left, or right endpoint denotes the table, as ref_self, ref_to, ref_by, each reference in at most one list.","every table identifier and analysed schema","unbounded",["src/utils/mod.rs:get_table_refs"])
p("C41","Aliases and 'public' are transparent in references","A reference through an alias, or one that spells out or omits the default schema, is treated like one through the table's name. (False for the code: such references are always rejected with TableNotFound; refuted, and proved for aliases of tables with an explicit schema.)","every accepted schema and reference","needs all name forms",["src/analyzer/indexer.rs:resolve_ref_alias","src/analyzer/indexer.rs:346-355"])
p("C42","Keyword tables are consistent","Referential actions print and parse back to themselves; the type, relation, action, index-type and boolean keyword tables accept exactly the documented words, each denoting one meaning.","every string","all strings",["src/ast/refs.rs","src/ast/table.rs:from_str","src/ast/indexes.rs:from_str","src/ast/unit.rs:from_str"])
p("C43","Removing declarations nothing depends on keeps a schema valid","Removing any notes, references and table groups from an accepted text leaves an accepted text. So does removing tables, columns, aliases, index definitions, enums, enum values, inline references, group items, project properties, and settings that declare no key or nullability, as long as nothing left depends on what is gone: the references left still lead to the tables they led to, with the columns and key indexes they use, index columns, enum defaults and unqualified group items are still declared.","every accepted text and every sub-selection of its declarations","exponentially many selections",["src/analyzer/mod.rs:analyze"])
p("C44","Indexes are order sensitive in a known way","The index definitions of an accepted text can be reordered at will without being rejected exactly when typed and untyped indexes over the same columns are not mixed, no unique key is a proper part of another one, and no primary key of expressions only stands beside a primary key that names a column. (Order does matter otherwise: untyped-then-typed is accepted, typed-then-untyped is rejected.)","every accepted schema and every order of its index definitions","factorially many orders",["src/analyzer/mod.rs:207-231"])
p("C45","Parse errors are truthful","An error of parse_dbml_unchecked is either the grammar's, or one of: a number out of range (then the reported span shows digits whose value exceeds i64::MAX, or u32::MAX between brackets), an unknown index type, an unknown referential action (then the reported span is that attribute); no other error occurs.","every rejected input","all inputs and all error paths",["src/parser/mod.rs","src/parser/err.rs"])
p("C46","Project database type and notes","A project's database_type is what its last string-valued database_type property says (None without one), and every note of the AST holds a string.","every accepted input","unbounded property lists",["src/parser/mod.rs:parse_project","src/parser/mod.rs:parse_note","src/ast/project.rs:DatabaseType"])
p("C47","Accepts exactly the DBML language","parse_dbml_unchecked reports a grammar error exactly on the texts that are not DBML (as a grammar over texts defines it), a message error exactly on DBML texts with an integer, an array size, an index type or a referential action the AST cannot hold, and otherwise succeeds; a text has at most one meaning.","every input","needs a decision on every text",["src/dbml.pest","src/parser/mod.rs"])
p("C48","The answer depends only on what the text says","Two texts that say the same schema (whatever their layout, comments, letter case and notation) get the same answer from parse_dbml: both Ok with the same schema, both the same kind of error, or both the same panic; only positions and quoted raw spellings differ.","every two texts with the same meaning","infinitely many ways of writing each of infinitely many schemas",["src/lib.rs:parse_dbml","src/analyzer/mod.rs:analyze","src/dbml.pest"])
p("C49","Every span is the source of its node","For every node of the AST (blocks, names, keys, values, settings lists, attributes, properties, columns, types, indexes, enum values, references and their endpoints, notes), the bytes at its span, read on their own by the syntax of that kind of node, say exactly what the node says; nothing of the node lies outside its span and nothing but layout is in it besides.","every accepted input and every node of its AST","unbounded ASTs; a span that is off by one node still slices fine",["src/parser/mod.rs","src/ast/mod.rs","src/utils/mod.rs"])
p("C50","Decimals are correctly rounded","A decimal literal (as a value or as a type argument) is accepted with the IEEE binary64 number nearest to its exact decimal value, ties to even, infinity from the halfway point past the largest finite number on; that number is unique and exists for every decimal.","every decimal literal, of any length","infinitely many digit strings, among them ties and subnormals of any length",["src/parser/mod.rs:parse_value","src/ast/unit.rs:Value"])
p("C51","The first fault is the one reported","When a text breaks several rules at once, parse_dbml reports exactly one fault, and which one is fixed: project settings, then tables in order (settings, name, columns, alias), then enums, table groups, keys and indexes table by table, column types and defaults, and at last references; inside each of them a fixed order of the rules. It accepts exactly when no rule finds a fault, and panics exactly when the first fault is a string default on a char, bit, varchar or varbit column without length.","every text that parses","combinations of broken rules are unbounded, and a test sees one combination",["src/analyzer/mod.rs:analyze","src/analyzer/indexer.rs:Indexer","src/lib.rs:parse_dbml"])
p("C52","Acceptance, in terms of what the text says","parse_dbml accepts a text exactly when the text is DBML, the numbers and keywords in it fit, and the schema it says obeys the listed rules (names, keys, types, defaults, indexes, references, groups); positions, spellings and derived fields play no part.","every text and every schema it says","texts and schemas are unbounded",["src/lib.rs:parse_dbml","src/analyzer/mod.rs:analyze","src/dbml.pest"])
p("C53","References read the same from both ends","Writing Ref a > b as Ref b < a, or exchanging the ends of - or <>, in any number of Ref blocks, changes no verdict of parse_dbml.","every text and every set of its Ref blocks","schemas with references are unbounded",["src/analyzer/indexer.rs:IndexedRef","src/analyzer/mod.rs:analyze"])
p("C54","Inline references and Ref blocks are the same","Moving a reference from a column's settings into a Ref block of its own changes no verdict of parse_dbml.","every text and every inline reference in it","schemas with references are unbounded",["src/analyzer/indexer.rs:IndexedRef::from_inline","src/analyzer/mod.rs:analyze"])
p("C55","Order inside blocks does not matter","Permuting columns, enum values, table group items, project properties, settings and blocks (everything but index definitions and the columns of an index or reference) changes no verdict of parse_dbml.","every text and every such permutation","factorially many orders",["src/analyzer/mod.rs:analyze"])
p("C56","Annotations do not matter","Adding, changing or removing notes, reference names, colours, update and delete actions, project properties and every setting that declares no key, nullability, default or index type does not turn an accepted text into a rejected one, as long as no key is given twice in one list and the values fit.","every accepted text and every such change","annotations are unbounded",["src/analyzer/mod.rs:analyze"])
p("C57","Names are only compared","Renaming schemas, tables (with aliases), columns, enums (with the column types that name them), enum values (with the defaults that name them) and table groups consistently, keeping different names different, public as it is and enums off the names of built-in types, changes no verdict of parse_dbml.","every text and every such renaming","names and renamings are unbounded",["src/analyzer/indexer.rs:Indexer","src/analyzer/mod.rs:analyze"])
p("C58","Separate schemas can be put together","If two texts are accepted and no name of one can be mistaken for a name of the other, a text saying both (with one of the projects, in any order of blocks) is accepted.","every two accepted texts","pairs of schemas are unbounded",["src/analyzer/mod.rs:analyze","src/analyzer/indexer.rs:Indexer"])
p("C59","Texts can be joined","A DBML text followed by a line end and another DBML text is DBML and says both, provided no comment opened in the first (inside quotes) ends in the second; joined below an accepted text, declarations with separate names that are fine on their own stay fine.","every two texts","texts are unbounded",["src/dbml.pest","src/parser/mod.rs:parse"])
p("C60","Error messages tell the broken rule apart","Two errors of parse_dbml with the same message text are the same kind of error (the same rule, or the same complaint of the parser); what broke the rule stands quoted in the message, and unless it contains quotes itself the message determines the error completely; numbers are printed in decimal.","every two inputs and every error","parameters are arbitrary texts and numbers",["src/analyzer/err.rs:Err","src/analyzer/err.rs:throw_err","src/parser/err.rs:throw_msg"])
p("C61","Values print as texts that read back","Value::to_string of every literal of a parsed schema is a text that denotes the same value (integers in decimal, decimals to the digits that round back to the same double, booleans, null, colors, enum names); strings and expressions print their contents; a decimal with no fraction prints without its dot.","every text and every literal in it","there are 2^63 doubles and unboundedly many literals",["src/ast/unit.rs:Value::to_string","src/ast/unit.rs:Value::from_str"])
p("C62","Grammar errors are reported at the furthest failure, truthfully","When parse_dbml rejects a text for its grammar, the error points between two characters of the text and lists grammar rules: at least one, each once, in the grammar's order; every listed rule was tried at that place and failed; no rule failed further on; every rule that failed there is listed, part of a listed one or has a listed one as a part; below a text that is DBML the error is never before what was added; equal messages mean equal lists.","every input, and every rule call of every parse","the set of rule calls of a parse is unbounded and the bookkeeping depends on their order",["src/parser/mod.rs:parse","src/dbml.pest"])
p("C63","Errors carry the right line and column","Every error of parse_dbml carries the line and column of the place it starts at (lines end at a line feed, columns count characters, both from 1), and for errors marking a part of the text, of its end (a part that ends with a line end is shown to end on that line), which is not before the start; line and column determine the place.","every input and every error","line and column depend on every character before the place",["src/parser/err.rs:throw_msg","src/analyzer/err.rs:throw_err"])
p("C64","The parser run is the grammar file's","The text of dbml.pest, read as the parser generator reads a grammar, is the grammar all other properties are about; and what the generator's optimizer makes of it (x ~ (y ~ x)* becomes (x ~ y)* ~ x, a loop up to a string becomes one search) has the same outcome on every text: same acceptance, same tree.","every input, offset and atomicity","an equivalence of two parsers over all texts; it is false for grammars in general",["src/dbml.pest","src/parser/mod.rs:DBMLParser"])
p("C65","Parsing takes bounded resources","On a text of n characters the grammar stage of parsing does at most 24000000*(n+1)^5 elementary steps, whatever the text (no exponential backtracking), and a successful parse yields at most 84n+2 tokens nested at most 12 deep (so neither memory nor recursion blows up).","every input","worst cases are adversarial texts of unbounded length",["src/dbml.pest","src/parser/mod.rs:parse"])
p("C66","The AST is determined by the text, spans and all","parse_dbml_unchecked returns exactly the AST the text stands for by a definition over the text alone: every block, node, byte span, raw spelling, decoded name, value, and every field derived from settings, notes and properties; a text stands for at most one AST, and parse_dbml returns that same one.","every text and every AST","texts and ASTs are unbounded, and every field of every node must be right",["src/parser/mod.rs","src/dbml.pest","src/ast/mod.rs"])
p("C67","The semantic index answers lookups exactly","The index that the semantic check returns (and get_table_refs consumes) is exactly the schema's: its references are the Ref blocks in order and then the inline references in order; a lookup of a table, an enum, an alias or a table group finds exactly the declared ones; enum value and column lookups answer exactly which values and columns exist, and report the first missing schema, table or column; resolving an endpoint yields the table it names and keeps its columns and place.","every accepted schema and every name looked up","schemas and queries are unbounded",["src/analyzer/indexer.rs:Indexer","src/analyzer/indexer.rs:IndexedRef","src/analyzer/mod.rs:analyze","src/utils/mod.rs:get_table_refs"])
p("C68","The first misfit of a text is the error reported","Some things can be written that the AST cannot hold: an integer above i64::MAX (in a value or a type argument), an array size above u32::MAX, an index type or a referential action that does not exist. parse_dbml_unchecked and parse_dbml fail with a message of their own exactly when a grammatical text writes such a thing, the error is the first of them in the order of the text, and its message and byte range are that misfit's. Each grammatical text has exactly one list of misfits, ordered by where they end; it is empty exactly when the text is accepted.","every grammatical text, with any number of misfits anywhere in it","texts and the places and numbers of misfits in them are unbounded",["src/parser/mod.rs:parse_dbml_unchecked","src/parser/mod.rs:parse_value","src/parser/mod.rs:parse_col_type","src/parser/mod.rs:parse_rel_settings","src/parser/mod.rs:parse_indexes_settings","src/lib.rs:parse_dbml"])
p("C69","The whole answer to a text is determined by the text","For every text, exactly one answer is right, and parse_dbml gives it: a grammar error if the text is not DBML; else, if something written does not fit, the error of the first such thing; else the AST the text stands for decides: the first broken rule in the documented order is the error, at its place, or the text is one of those that make it panic (C02), or no rule is broken and that AST is returned. parse_dbml_unchecked likewise, without the rules.","every text and every possible answer","texts are unbounded, and tests sample single answers without saying that no other is right",["src/lib.rs:parse_dbml","src/parser/mod.rs:parse","src/analyzer/mod.rs:analyze"])
p("C70","Positions move with the text","Layout (white space and comments) put before a text changes nothing in the answer of parse_dbml and parse_dbml_unchecked but positions: every byte span of the AST, and the range of the error, is moved by the number of bytes put before; names, values, raw spellings and the kind of the error stay. Two errors are about the whole text and keep its range (no project, several projects), and the one without a place (an unknown schema of an unqualified reference) keeps none.","every text and every layout put before it","texts and layouts are unbounded, and each of the AST's spans must move",["src/lib.rs:parse_dbml","src/parser/mod.rs","src/analyzer/mod.rs:analyze","src/dbml.pest:WHITESPACE,COMMENT"])
p("C71","Texts join with their ASTs","The answer of parse_dbml_unchecked to a DBML text, a line end and another DBML text (no comment opened in the first, inside quotes, being ended in the second) is made of the two answers: all nodes of the first, unchanged, then all nodes of the second with every span moved by the bytes before; if the first has something that does not fit, its error, else the second's, moved. The one exception: a short Ref without settings at the very end of the first text has its span extended over the layout that follows. Text starting with a letter that is not DBML alone does not become DBML behind a DBML text.","every two texts","pairs of texts are unbounded, and every span of both ASTs must be right",["src/parser/mod.rs","src/dbml.pest"])
p("C72","Blocks can be cut out of a text","What lies between two edges of a DBML text (its start or end, or the start or end of the span of a top-level block that is not a Ref) is a DBML text on its own, and parse_dbml_unchecked answers it with exactly the blocks between the edges, every span moved back by the bytes cut off before, every raw spelling, name and value kept. In particular the bytes at the span of any project, table, table group, enum or note block are a text that parses to that block alone.","every accepted text and every two edges of it","texts and their blocks are unbounded; a block's span could be right by itself yet not cut cleanly",["src/parser/mod.rs:parse","src/dbml.pest","src/ast/mod.rs"])
p("C73","Edits are local","What lies between two edges of a DBML text can be exchanged for another DBML text (that starts with a letter, and whose last block is not a Ref and ends where it ends), or left out: parse_dbml_unchecked then answers the blocks before the edit exactly as before, the blocks after it as before with every span moved by the difference in bytes, and the blocks of the new part between them at their new place. The only condition on comments is that none opened before the new part, or in it, is ended in it or behind it.","every accepted text, every two edges of it and every accepted new part","texts, edits and blocks are unbounded; a change in one block could be felt in another through greedy rules or lookaheads",["src/parser/mod.rs:parse","src/dbml.pest","src/ast/mod.rs"])
p("C74","A part of a good schema only lacks things","A text that says a part of what an accepted text says (some of its blocks, in any order) is accepted, or the error of parse_dbml says that something is not there: the project, a schema, a table or an enum. So no declaration added beside a fault of another kind (something given twice, a wrong default, mismatched columns, a panic) makes it accepted, unless its alias takes over a table name in use.","every accepted text and every part of it","parts and additions are unbounded",["src/analyzer/mod.rs:analyze","src/analyzer/indexer.rs:Indexer"])
p("C75","Line ends, blank lines and indentation do not matter","Rewriting the line ends of a text (line feeds, carriage returns or both, with any blank lines and any indentation after them) changes nothing: the text is DBML exactly if it was, parse_dbml_unchecked gives the same schema, in which only names and values that span lines have other line ends or indentation, and if none does parse_dbml gives the same answer; a text with a number out of range stays one.","every text, every way to rewrite its line ends, blank lines and indentation","texts are unbounded; files checked out with other line ends are not in the test suite",["src/dbml.pest","src/parser/mod.rs","src/lib.rs"])
p("C76","A schema is no larger than its text","The schema that parse_dbml_unchecked returns holds no more than the text: the characters of all its names and values, counting at least 1 for every name, value, array dimension, settings list, index block, note, reference and block, are together at most as many as the characters of the text. So no text makes the AST blow up.","every text","texts are unbounded, and a blow-up needs one that no test has",["src/parser/mod.rs","src/dbml.pest"])
p("C77","Checking takes bounded work","Whatever the text, the semantic checks of parse_dbml take at most cubically many steps in its length (200 times its cube, counting every comparison of names and values, every round of a loop and every character looked at, with every library call at its worst): no arrangement of tables, references, indexes, aliases and settings makes them blow up.","every text that parses","a test times a few texts; the worst text is not known",["src/analyzer/mod.rs:analyze","src/analyzer/indexer.rs"])
p("C78","parse_dbml as a whole takes bounded work","Building the AST from pest's tokens takes at most 8000 times as many steps as the text has characters (counting every round of a loop, every comparison and every character copied), and all of parse_dbml, from the text to the answer, at most 25000000 times the fifth power of its length, whatever the text and whatever the answer.","every text","a test times a few texts; the worst text is not known",["src/lib.rs:parse_dbml","src/parser/mod.rs"])
p("C79","Characters DBML gives no meaning to are interchangeable","White space, ASCII letters, digits, the underscore and the marks of the syntax are the only characters with a meaning. Replacing other characters of a text by other ones, position by position, changes neither whether it is DBML, nor whether the answer is a schema, a grammar error or a located message, and the schema is the same but for those very characters; a consistent replacement yields the schema with its names and values so replaced. If the replacement is also one-to-one and keeps every character's UTF-8 length, the checked answer is a schema in both cases or in neither, and with equal UTF-8 lengths the AST returned is the same node for node and span for span, with its texts so replaced. Under the same conditions every error is the same error at the same bytes, line and column, with what it quotes so replaced (a grammar error is reported identically), and the analysed schema and get_table_refs follow the replacement.","all texts and all replacements of characters without a meaning","there are over a million characters and every position can hold any of them",["src/dbml.pest","src/parser/mod.rs:parse","src/lib.rs:parse_dbml","src/analyzer/mod.rs:analyze","src/utils/mod.rs:get_table_refs"])
p("C80","get_table_refs accounts for every reference once at each end","In an analysed schema every reference has exactly one table at each end. get_table_refs, asked for each declared table, lists a reference of a table to itself in that table's ref_self and nowhere else, and every other reference in ref_to of the table it is written from, in ref_by of the other, and nowhere else; added up over all tables ref_self and ref_to (and likewise ref_self and ref_by) have as many entries as there are references. For a name by which no table is declared all three lists are empty.","every analysed schema, every reference and every table name","depends on all tables, aliases and references at once",["src/utils/mod.rs:get_table_refs","src/analyzer/mod.rs:TableRef"])
p("C81","ref_to holds a table's foreign keys","As TableRef documents: the references in a table's ref_to are those whose foreign key is in that table. (False for the code: they are those written from the table, so Ref: t.a < u.c is in ref_to of t although u.c is the foreign key; refuted. Proved: the foreign keys of a table are the > among ref_to and the < among ref_by, the foreign keys to it the other way round, and turning every reference round exchanges ref_to and ref_by.)","every analysed schema, table and reference","depends on how every reference is written",["src/utils/mod.rs:get_table_refs","src/analyzer/mod.rs:TableRef"])
p("C82","A printed error shows the place","Every error can be printed. The print gives line and column of its start, beside the number of that line the line itself (without its line end, or with the line end made visible if the error is at one), and the message. An error that names a part of the text names at least one character, except when the text is empty or a schema that is not written is missing. Below the line of a grammar error a caret stands exactly under the column, tabs kept. Where the part an error marks lies in one line, that line alone is printed, with marks under the part, all of it and nothing else; where it goes over several and ends inside its last one, that one follows with its number, after dots if others come between. (Carriage returns without line feed before the place in its line are excepted.)","every text parse_dbml rejects, and every part an error can mark","depends on all line ends, tabs and multi-byte characters before the place",["src/parser/err.rs","src/analyzer/err.rs:throw_err","src/parser/mod.rs:parse"])
p("C83","Lines added at the top move reported errors down","Putting whole lines of layout (blank lines, comments) above a text parse_dbml rejects gives the same error, with the same message, shown as many lines further down as line ends were added, in the same columns, and as many bytes further on; printed, it shows the same source lines and marks beside the new numbers. The same holds for a misplaced or unreadable value in a text with declarations put above it, and with declarations put below it it is shown as before. Exceptions: an error about the text as a whole still starts where the text starts (its end moves), an error without a place (a missing schema of a reference, shown at the start) is shown as before, and a grammar error at the very first byte names the one rule for the whole text where with layout before it the rules tried there are named.","every text parse_dbml rejects, every error and every run of whole lines of layout","texts, layout and errors are unbounded, and the parser's bookkeeping of failed rules depends on absolute positions",["src/parser/mod.rs:parse","src/parser/err.rs","src/analyzer/err.rs:throw_err","src/lib.rs:parse_dbml"])
p("C84","Other line ends do not change a grammar error","If two texts differ only in line ends (of any kind), blank lines and the indentation of lines, one is DBML exactly if the other is, and if they are not the grammar error is at the same place of both, for the same missing and unexpected rules, and shown with the same message. With Windows line ends (a carriage return before every line feed), in a text without carriage returns it is shown with the same message, line and column; printed, it is the same to the letter, unless the error is at a line end, where the print has one more sign for the carriage return.","every two texts that differ only there (line, column and print: every text without carriage returns of its own)","texts are unbounded, with any number of lines before and after the error, and pest's bookkeeping of failed rules works on absolute byte positions, which all change",["src/parser/mod.rs:parse","src/parser/dbml.pest:NEWLINE","src/parser/dbml.pest:WHITESPACE","src/parser/err.rs"])
open(os.path.join(os.path.dirname(__file__),"..","properties.jsonl"),"w").write("".join(json.dumps(x,ensure_ascii=False)+"\n" for x in P))
print(len(P))
