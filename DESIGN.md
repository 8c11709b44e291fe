# DESIGN — a Rocq (Coq 8.16.1) model of dbml-rs and proofs about it

## 1. What is modelled

| /repo | model (rocq/theories) | how |
|---|---|---|
| Rust `char`/`str`/`String`, byte slicing, `split`, integer formatting | `Str.v` | strings are lists of code points, byte offsets computed by UTF-8 length |
| pest 2.7 runtime (`ParserState`, generated code for `~ | ? * ! @ $`, implicit skipping, token tree) | `Peg.v` | evaluator `eval`, structural in the expression, fuel only in `*` (running out = the outcome `RLoop`, proved impossible) |
| `src/dbml.pest` (whole grammar) | `Grammar.v` | rule by rule (the grammar is non-recursive, so rule references are the rule's definition) |
| `f64` parsing/equality/printing of decimal literals | `F64.v` | exact rational rounding to binary64 |
| `src/ast/*.rs` (structs, `FromStr`, `ToString`, accessors) | `Ast.v` | records/inductives, same fields |
| `src/parser/err.rs`, `src/analyzer/err.rs` | `Err.v`, `Message.v` | error values and their `Display` texts |
| `src/parser/mod.rs`, `src/parser/helper.rs` | `Parser.v` | every function |
| `src/analyzer/{mod,indexer,helper}.rs`, `src/utils/mod.rs` | `Analyzer.v` | every function used by the public API |
| `src/dbml.pest` as a text; pest_meta's reader of grammar files and the optimizer passes `rotate`, `unroll`, `concatenate`, `factor`, `list`, `skip` | `PestText.v` (generated by tools/mkpest.py), `PestMeta.v`, `Optim.v` | the file's text is read and rewritten in Coq, and proved to have the outcomes of `Grammar.v` everywhere (C64) |
| pest's failure tracking (`track`, `attempts_at`, `pest::state`) | `Track.v` | `eval` with the tracking state threaded through |
| `pest::error::Error` (message, location, line and column) | `Shown.v` | as built by src/parser/err.rs and src/analyzer/err.rs |
| `Display` of `pest::error::Error` (excerpt, underline) | `Draw.v` | `usize` subtractions are checked |
| the number of steps of pest's generated parser | `Work.v` | `eval` with a clock; grammar stage only |
| `src/lib.rs` | `Api.v` | `parse_dbml` |
| derived `Debug` (`{:#?}`) | `DebugFmt.v` | only for conformance: prints the model's AST so that it can be compared with tests/out/*.ron |

Not modelled: `Clone`/`Debug` derives (except
in DebugFmt), memory use, `usize` overflow (inputs below 2^63 bytes), of pest_meta the syntax dbml.pest does not
use (stack operators, `&`, ranges), `src/` code behind no public path
(there is none beyond `note_inline`, a grammar rule nothing refers to).

Panics are explicit: `outcome` is `Ok | Err | Panic`; `unreachable!`, `unwrap`
on `None`, and `args[0]` out of bounds are `Panic`. Divergence is explicit:
`parse_dbml_unchecked` returns `option`, `None` meaning that a `*` loops.

## 2. Trusted base

* Coq 8.16.1's kernel (and `vm_compute`, which is part of it).
* `Print Assumptions` under each property theorem; expected answer for all of
  them: "Closed under the global context" (no axioms). No axiom, no
  `Admitted`, no plugin, no functor, no module type is used.
* That the model is the code: by construction function by function with file
  and line citations, and checked by **conformance**: `Golden.v` (generated by
  tools/mkgolden.py from /repo/tests) has the kernel compute that the model
  reproduces all 22 golden files tests/out/*.ron byte for byte, rejects every
  tests/dbml/validator input and accepts the checked sample. These are tests
  of the model, no part of any proof.
* That pest behaves as `Peg.v`, `Track.v`, `Shown.v` and `Draw.v` say (written from pest 2.7's generator,
  `ParserState` and `Error`; the conformance run above exercises the first, nothing in /repo shows a
  printed error to compare `Draw.v` with).

* vcheck's list of library axioms names seven `Coq.ssr.ssrunder.Under_rel.*` entries: these are the fields of a sealed
  module of Coq's own standard library, loaded but used by no theorem here (`Print Assumptions` shows none).

### Specification files

What a theorem's statement means is fixed by: `Layout` (white space and comments), `TextSpec` (words, quotes,
numbers), `AstSpec` (what AST parts must look like against the source), `Nodes` (enumerations of AST parts), `Rules`
(well-formedness of schemas), `Syntax` (what a text says), `Writable` (which meanings have a text), `Spans` (what a span must show), `Report` (the order of the rules), `Validity` (valid meanings), `Variants` (other ways to write a schema), `Respelled` (the same table named through its alias or its schema and name), `Renaming` (other names of enums, values and groups), `F64Spec` (nearest binary64), `Located` (which AST a text stands for), `Faults` (what a text writes that does not fit), `Complete` (the whole answer), `Respan` (an AST at other places), `Pieces` (where a text can be cut), `Edits` (which parts can be exchanged), `Unused` (what depends on what), `Growth` (a schema as part of a larger one), `Limits` (the numbers and words a schema writes), `Lines` (other line ends and indentation), `Size` (how much a schema holds), `Answer` (when two answers agree), `TrackSpec` (which rules are tried where), `ShownSpec` (lines and columns), `DrawSpec` (printed errors), `IndexSpec` (what index lookups answer), `Chars` (characters without a meaning), `PestText` and `PestMeta` (the grammar file and how pest reads it), plus the record types of `Ast` and `Err`. None of them uses
the parser's or analyzer's functions.

## 3. Layers of proof

1. **PEG facts** (`PegFacts.v`…): for every expression and input — consumed text
   plus rest is the input; every pair is well placed (text, offsets, nesting,
   order); no `RLoop` when the bodies of `*` cannot match the empty string (checked on the
   grammar by computation).
2. **Shape** of the pair tree of each rule, hence no `Panic`, no `ErRules`.
3. **Span/raw facts** of the AST by following the parser functions over
   well-placed pairs.
4. **Declarative rules** (`Rules.v`): well-formedness of a schema, written with `In`, `NoDup`,
   `exists`, not with the model's helpers; `analyze` accepts iff they hold; every
   reported error is a real violation.
5. **Printer/CST** with arbitrary layout; parsing a printed schema gives it back.
6. **Properties** files contain only theorem statements closed by `exact`, a `Print
   Assumptions`, and non-vacuity examples.

Naming: `_partial` = part of the property; `_refuted` = the property is false of
the code (a concrete witness input is proved to break it), accompanied by the theorem
that is true instead.

## 4. Per property

C01 grammar run terminates: static non-nullability check + fuel lemma; no Panic: shape lemmas.
C02 refuted by a witness; true part: panic only on that path (induction over analyze).
C03 unfolding of Api + analyze's errors are all ErSem (case analysis of every throw).
C04–C07 well-placed pairs, then induction over each parser function.
C08–C10 inversion of the lexical rules (evaluation of `*` over char classes). `C10_too_large` and `C13_unknown` (PropsLimits.v) say from C47 that what does not fit fails.
C11–C14 invariants of the folds that build settings; spec by "last attribute with key".
C15, C16, C47 `Syntax.v` is a grammar over texts (readers), independent of PEG; `Writable.v` says which meanings have a text: `SynPrint.v` prints every one of them, `WritableOk.v` shows that what a text says is one (values that start with `/*` are writable only where no `*/` follows in the text, so the converse assumes `comments_closed`). `SynEval/SynLex/SynGram/SynType/SynGram2`
 prove for every rule that the PEG evaluator succeeds on a text iff the reader reads it, with pairs denoting the same meaning;
 `SynBuild/SynBuild2` prove that building the AST from such pairs gives that meaning, or `ErMsg` iff it does not fit;
 `SynPrint` writes out every writable meaning.
C17 list reasoning.
C18–C35 corollaries of the acceptance theorem, each stated directly.
C36 analyze accepts ⇔ well-formed (both directions), for all ASTs as the parser produces them.
C37 one soundness lemma per throw site.
C38 spans of errors come from the AST (C04) hence `throw_err` never panics.
C39, C43 from C36 (well-formedness is invariant under permutation / removal). `C43_unused` removes declarations of every kind at the level of the text: `Unused.v` says what is left and what it may depend on, `UnusedOk.v` shows that the validity of C52 is kept.
C40 fold ↔ filter. C41 refuted + the true part, up to whole texts: `Respelled.v`/`RespelledOk.v` show that exchanging alias and qualified name (for tables declared with a schema) in references and group items leaves validity, hence the verdict, unchanged. C42 finite tables, proved for all strings.
C44 `Reindex.v`: sufficient by following each pair through the permutation, necessary by putting the offending pair in front. `C44_exactly_in_text` (PropsReindex.v) writes the offending order down with C15.
C45 one lemma per `throw_msg` site, with the reported span's text. C46 fold invariants.
C48 `Zap`: the analyzer gives the same verdict on an AST stripped of spans and raw texts; `SynVerdict`: ASTs with the same
 meaning strip to the same AST. C39, C43, C44 are also stated in terms of texts this way.
C49 `SynCut`: a reader that reads a text with something after it reads the text alone; `SynSpan*`: every pair the parser
 looks at was produced by running a rule of the grammar at its offset, so its text is read (SynGram) by the reader of that
 rule; the node built from it says what the reader read. pest's span of a rule may end with the layout before the next
 symbol, and stops before trailing layout otherwise, hence `written` allows layout after the span.
C50 `F64Spec` defines nearest binary64 over the rationals (no floats, no reals); `F64Ok` proves that the rounding of a ratio
 of naturals meets it and that it determines the number; `DecOk` applies it to decimal literals. The meaning of a decimal
 in the syntax (C03, C47) is stated with it too.
C51 `Report.v` lists the rules in the order they are tried, with `;;` for "then" and `each` for "one item after the other";
 `ReportOk*.v` prove for each stage of the analyzer that it returns Ok iff its rule is clean and throws the rule's only
 fault otherwise. The invariants a stage needs for the items before the current one come from running the stage on those
 items alone.
C52 `Validity.v` states the rules over meanings (`a_schema` of `Syntax.v`); `ValidityOk.v` proves it equivalent to `wf` of the
 AST, so C36 and C47 give acceptance from the text alone.
C53–C57 `Variants.v` defines the ways of writing a schema differently; `Like.v` proves one congruence (renaming by injections,
 permuted declarations, mirrored references, other annotations) under which validity is preserved; `VariantsOk.v` shows that each variant is an
 instance. `Renaming.v` says what renaming enums, enum values (with types and defaults that name them) and groups means, `RenamingOk.v` proves it keeps the verdict (`C57_all_names`).
C58 `Union.v`: what an endpoint leads to does not change when separate tables are added, and references into separate tables do not clash.
C59 `SynGrow.v`: a reader that has read a text reads it too when a line end and more text follow.
C60 `MessageOk.v`: a decision list on the prefix of a message recovers the kind of error; parameters are cut at the quotes.
C61 `ShowOk.v`: a decimal within a quarter of a unit of a double rounds to it; the search for digits reaches such a decimal for every exponent (checked by computation over all 2046+53 of them).
C62 `TrackOk.v`: invariant relating the tracking state to the set of rule calls made (`TrackSpec.calls`), by induction over the expression; `TrackFacts.v` instantiates it on the grammar and adds the text-level bound via `SynGrow`.
C63 `ShownOk.v`: `line_col` is a fold over characters; located texts are unique.
C64 `PestOk.v` reads the text of dbml.pest and computes that it is `Grammar.v` up to the nesting of `|`, which is proved not to matter; `OptimOk.v`: each of the eleven rewritten lists is followed by its closing bracket, which no element can start with; both forms read the same chains.
C65 `WorkOk.v`: a static analysis (`bound`, `pairs_b`, `depth_b`) computes cost bounds for every expression, proved sound by induction (a `*` body consumes something each round); the kernel computes it on dbml.pest.
C66 `Located.v` defines, over the text alone, which AST (with spans) a text stands for; `LocSound.v` follows every parser function on the pairs of its rule, with the position each was produced at; `LocUniq.v` proves that a text stands for at most one AST; `LocErase.v` that a text that stands for an AST has a meaning, hence is accepted; `LocMain.v` joins the three into an equivalence.
C67 `IndexOk.v`, over every accepted schema, from the invariant that the index describes the tables and enums declared so far; `IndexSpec.v` says what a lookup of columns must answer. (The index type is only reachable by users through `utils::get_table_refs`.)
C68 `Faults.v` repeats the grammar of `Located` once more and lists the misfits written; `FaultsOk.v`: each parser function fails with the first of its node's list, or the list is empty; `FaultsErase.v`/`FaultsUniq.v`: every text has such a list, and only one (each level is a function of the text it reads); `FaultsMain.v`: the order.
C69 `Complete.v` puts `Syntax`, `Faults`, `Located` and `Report` together; `CompleteOk.v` from C47, C51, C66 and C68. `OneMeaning.v` (C47): pairs denote at most one meaning, rule by rule.
C70 `Respan.v` applies a function to every span of an AST; `RespanBase.v`/`RespanLoc.v`/`RespanFaults.v`: the definitions of C66 and C68 move with a prefix,
 so by their uniqueness the answer does; `RespanAn.v`: the analyzer commutes with any map of spans that keeps them valid.
C71 `RespanGrow.v`/`RespanGrowF.v`: every reader of C66 and C68 reads the same node when text is added behind a line end (a short reference at the very end: with a longer span); the second half moves by C70's lemmas, and the uniqueness of C66/C68 makes the join the answer. The converse uses that blocks are read deterministically.
C72 `LocCut.v`: every reader of C66 can be stopped at the end of the node (what follows is not looked at beyond what ends it), so a prefix of the blocks is a text up to an edge; `RespanBase.v` moves the rest back; uniqueness (C66) makes the piece the answer. `Pieces.v` says which offsets are edges.
C73 `LocSwap.v`: every reader of C66 keeps its node when what follows is exchanged, provided the lookaheads (layout, words, phrases, digits, a dot, hex digits, array brackets) answer the same; `EditsOk.v` shows they do at the two seams (blocks end in `}` or a quote, or are followed by a keyword; comments apart); `EditsMain.v` puts the three parts together with C66, moving the last by `RespanBase.v`. `Edits.v` is the specification.
C74 `GrowthOk.v`: from C37 (the error is a broken rule, and says exactly what is there and what is not) and C36: every rule other than the four about missing things, broken in a part, is broken in the whole (lookups in the part find the same thing in the whole unless an alias takes the name over), and an unsized string default too. `Growth.v` is the specification.
C75 `Lines.v` relates texts, and meanings, that differ in line ends, blank lines and indentation; `LinesOk.v` carries the relation through every reader of `Syntax.v` (no token but a quoted one contains a line end, and layout may end or begin anywhere in the white space after one); `LinesMain.v` adds C15, C47 and C48.
C76 `Size.v` weighs a meaning; `SizeOk.v` shows for every reader of `Syntax.v` that what it consumes weighs at least what it yields; C15 and C47 give the parser.
C77 `CheckWork.v` is `Analyzer.v` with a clock (library calls charged at their worst; what one comparison costs, cloning and formatting are not counted; for building the AST see C78);
 `CheckWorkSame.v` shows that the clock changes no outcome, `CheckWorkBound*.v` bound each check by its share of the schema's weight times the size of the index, `CheckWorkMain.v` adds up and uses C76.
C78 `BuildWork.v` is `Parser.v` with a clock, and `parse_dbml` as the sum of the three clocks (`Work.v`, `BuildWork.v`, `CheckWork.v`); `BuildWorkSame.v` shows that the clock changes no answer, `BuildWorkBound*.v` bound each function by the weight of its pair tree, `BuildWorkMain.v` bounds the weight of the grammar's trees by count and depth (C65) and adds up. Not counted: `Vec` growth (amortised) and what pest spends per pair.
C79 `Chars.v` says which characters have a meaning and what it is for two meanings to differ only in the others; `CharsOk.v` shows by induction over `Syntax` that the relation `dbml_text` is closed under such changes, `CharsMain.v` carries this to the parser through C59/C73 (every verdict is decided by the text), `CharsValid.v` shows that the rules of `Validity` only compare names and count bytes. `CharsAst.v` says what the respelled AST is, `CharsLoc.v` shows that the located relation (C61) is closed under respelling, so the whole answer is determined. `CharsFaults.v` shows the same of the located faults (C68), `CharsAn.v` and `CharsTrack.v` of the analyzer and of get_table_refs, function by function, and `CharsAnswer.v` puts them together for the answers, errors and rendered places included.
C80 C40, C32 and the uniqueness of targets, by double counting (`TableRefs.v`). C81 refuted by a witness; the exact reading follows from C40 by cases on the relation, turning from the uniqueness of selections (`key_end`, `far_end`, `turn_ref` are in `IndexSpec.v`).
C82 `Draw.v` models `Display` of pest's `Error` (excerpts, line numbers, underline); `DrawSpec.v` says what a printed error should look like; `DrawOk.v` shows that the lines cut out are whole lines of the text (induction over the text), that no subtraction goes below zero and that the marks are as wide as what they mark. `FirmOk.v` shows that the part an error names is not empty (every reader of `Syntax.v` starts with something that is no layout, so a written node has a first character). Where pest misleads (a part that ends with a line end) is an example, `C82_odd`.
C83 `TrackShift.v` proves that pest's bookkeeping of failed rules is a function of positions up to translation: two runs of the same expression from states that are translations of each other (or both untouched) end in such states (induction over expressions, with the rule bookkeeping, repetition and lookahead cases); a run that fails at the end of the text leaves the untouched state. Layout before the text is skipped without tracking, so the report of `g ++ t` is that of `t` moved. `AboveOk.v` adds lines and columns (`advance` commutes with moving down) and, for the other errors, what C70 says about spans; the excerpts of the print are cut out of the same lines. Declarations above: C71. Statements in `PropsAbove.v`, their vocabulary in `AboveSpec.v`.

C84 `EndsTrack.v`: no expression of the grammar below the start of the text looks at a line end except layout and the values in quotes (`plain_exp`, computed), and those two are shown to consume corresponding pieces of the two texts. Induction over expressions then shows that two runs from corresponding places (a cut of the text, and the same cut of the other) end in corresponding places with corresponding bookkeeping: positions correspond in an order-preserving way, which is all `track` looks at. `SameTrack.v`, for any two texts that differ in line ends, blank lines and indentation: the same induction over a *script* (a text, and how each of its characters is written in the other), and two such texts are compared through a common third one. `CrlfTrack.v`, for Windows line ends: `line_col` counts `\r\n` as one line end, and the excerpt is cut out of one line. Statements in `PropsCrlf.v`; the way line ends are rewritten is in `LineEnds.v`.
