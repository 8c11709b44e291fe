(** * PropsMessage: what the texts of errors tell, and what values print as.

    Nothing but statements, examples and assumption audits.  The texts are in
    [Message], kinds and parameters of errors in [MessageSpec]. *)

From Verif Require Import Samples TextSamples VariantSamples Message MessageSpec MessageOk ParseFacts2 ShowOk Nodes.
From Verif Require Import Err Analyzer Api AstSpec.
From Verif Require Import Syntax.

(** ** C60 *)
(** Whoever catches two errors of [parse_dbml] with the same message has caught the same kind
    of error: the same broken rule, or the same complaint of the parser.  Only errors of the
    grammar have no message of their own. *)
Theorem C60_message_tells_the_rule : forall inp inp' e e',
  parse_dbml inp = Some (Err e) -> parse_dbml inp' = Some (Err e') -> custom_message e = custom_message e' ->
  match e, e' with
  | ErSem a _, ErSem b _ => same_kind a b
  | ErMsg a _, ErMsg b _ => a = b
  | ErGrammar, ErGrammar => True
  | _, _ => False
  end.
Proof. exact which_error. Qed.
Print Assumptions C60_message_tells_the_rule.
(** What the rule was broken with stands in the message, in quotes. *)
Theorem C60_message_shows_the_offender : forall e x, In x (params e) -> shown_in x (message e).
Proof. exact message_shows. Qed.
Print Assumptions C60_message_shows_the_offender.
(** Unless the offenders contain quotes themselves, the message says everything. *)
Theorem C60_message_says_everything : forall a b, message a = message b -> Forall unquoted (params a) -> Forall unquoted (params b) -> a = b.
Proof. exact message_params. Qed.
Print Assumptions C60_message_says_everything.
(** Numbers in messages are decimal. *)
Theorem C60_numbers : forall n, digits (dec_of_N n) /\ digits_value 0 (dec_of_N n) = n.
Proof. exact dec_of_N_ok. Qed.
Print Assumptions C60_numbers.

Example C60_default : match parse_dbml (s "Project p {} Table t { a int [default: true] }") with
  | Some (Err e) => custom_message e = Some (s "Invalid default value: the defualt value 'true' is not associated with 'int'")
  | _ => False end.
Proof. vm_compute. reflexivity. Qed.
Example C60_args : match parse_dbml (s "Project p {} Table t { a varchar(1,2) }") with
  | Some (Err e) => custom_message e = Some (s "Invalid data type arguments: 'varchar' requires only 1 argument(s)")
  | _ => False end.
Proof. vm_compute. reflexivity. Qed.
(** With quotes in the offenders two errors of one kind can have the same text. *)
Example C60_quotes : message (InvalidDefaultValue (s "x") (s "y' is not associated with 'z")) = message (InvalidDefaultValue (s "x' is not associated with 'y") (s "z")).
Proof. vm_compute. reflexivity. Qed.

(** ** C61 *)
(** Printing the value of a literal gives a text that denotes the same value; quoted texts
    print their contents, decimals without a fraction print without the dot. *)
Theorem C61_values_read_back : forall inp x, parse_dbml_unchecked inp = Some (Ok x) ->
  forall l, In l (all_literals x) ->
  match lit_value l with
  | VString t | VExpr t => value_to_string (lit_value l) = t
  | VDecimal FInf => value_to_string (lit_value l) = s "inf"
  | VDecimal _ => spells (value_to_string (lit_value l)) (lit_value l) \/ spells (value_to_string (lit_value l) ++ s ".") (lit_value l)
  | _ => spells (value_to_string (lit_value l)) (lit_value l)
  end.
Proof. exact p_printed. Qed.
Print Assumptions C61_values_read_back.
Example C61_meets : match parse_dbml_unchecked (s "Table t { a int [default: 007] b decimal [default: 0.10] c decimal [default: 1.0] d text [default: 'x y'] e e [default: 123456789012345678901.5] }") with
  | Some (Ok x) => map (fun l => value_to_string (lit_value l)) (all_literals x) = map s ["7"; "0.1"; "1"; "x y"; "123456789012345680000"]%string
  | _ => False end.
Proof. vm_compute. reflexivity. Qed.
