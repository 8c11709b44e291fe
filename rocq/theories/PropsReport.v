(** * PropsReport: which error is reported when several rules are broken.

    Nothing but statements, examples and assumption audits.  The order of the rules
    is [reports] in [Report]; what the rules mean is in [Rules]. *)

From Verif Require Import Report Err Analyzer Api Samples ReportOk4.

(** ** C51 *)
(** [parse_dbml] reports the first fault in the order of [Report], accepts when there
    is none, and panics when the first fault is a crash. *)
Theorem C51_first_fault : forall inp x, parse_dbml_unchecked inp = Some (Ok x) ->
  (forall e sp, parse_dbml inp = Some (Err (ErSem e sp)) <-> reports x (Fault e sp)) /\
  (parse_dbml inp = Some Panic <-> reports x Crash) /\
  (parse_dbml inp = Some (Ok x) <-> forall f, ~ reports x f).
Proof. exact reported_first. Qed.
Print Assumptions C51_first_fault.
(** There is at most one first fault. *)
Theorem C51_one_fault : forall inp x f g, parse_dbml_unchecked inp = Some (Ok x) -> reports x f -> reports x g -> f = g.
Proof. exact reports_one. Qed.
Print Assumptions C51_one_fault.
(** A reported fault is real: the rule of its error is broken at its place. *)
Theorem C51_real_fault : forall x f, reports x f ->
  match f with Fault e sp => violates x e sp | Crash => unsized_default x end.
Proof. exact reports_means. Qed.
Print Assumptions C51_real_fault.
(** Three faults: a table twice, a reference to nothing, an enum twice.  The tables
    come first; without that fault, the enums; without that one, the references. *)
Example C51_tables : parse_dbml (prj "Enum e { a } Enum e { b } Ref: u.a > t.a Table t { a int } Table t { a int }")
  = Some (Err (ErSem DuplicateTableName (79, 81))).
Proof. vm_compute. reflexivity. Qed.
Example C51_enums : parse_dbml (prj "Enum e { a } Enum e { b } Ref: u.a > t.a Table t { a int } Table v { a int }")
  = Some (Err (ErSem DuplicateEnumName (32, 34))).
Proof. vm_compute. reflexivity. Qed.
Example C51_refs : parse_dbml (prj "Enum e { a } Enum f { b } Ref: u.a > t.a Table t { a int } Table v { a int }")
  = Some (Err (ErSem TableNotFound (45, 46))).
Proof. vm_compute. reflexivity. Qed.
(** A duplicate attribute is found before the panic of C02, a wrong reference after. *)
Example C51_before_crash : exists sp, parse_dbml (prj "Table t { a varchar [default: 'x'] b int [note: 'a', note: 'b'] }")
  = Some (Err (ErSem DuplicateAttributeKey sp)).
Proof. eexists. vm_compute. reflexivity. Qed.
Example C51_after_crash : parse_dbml (prj "Table t { a varchar [default: 'x', ref: > u.b] }") = Some Panic.
Proof. vm_compute. reflexivity. Qed.

(** ** C02: when it panics *)
Theorem C02_panics_exactly_partial : forall inp,
  parse_dbml inp = Some Panic <-> exists x, parse_dbml_unchecked inp = Some (Ok x) /\ reports x Crash.
Proof. exact panics_exactly. Qed.
Print Assumptions C02_panics_exactly_partial.
