(** * PropsComplete: the whole behaviour of the two parsing functions. *)

From Verif Require Import Samples CompleteOk.
From Verif Require Import Api Parser Complete Syntax.

(** Each text has one answer, and it is the one returned. *)
Theorem C69_checked : forall t r, parse_dbml t = Some r <-> answers t r.
Proof. exact answers_exact. Qed.
Print Assumptions C69_checked.
Theorem C69_unchecked : forall t r, parse_dbml_unchecked t = Some r <-> reads t r.
Proof. exact reads_exact. Qed.
Print Assumptions C69_unchecked.
Theorem C69_one_answer : forall t, (exists r, answers t r) /\ forall r r', answers t r -> answers t r' -> r = r'.
Proof. exact (fun t => conj (answers_some t) (answers_one t)). Qed.
Print Assumptions C69_one_answer.
Theorem C69_one_reading : forall t, (exists r, reads t r) /\ forall r r', reads t r -> reads t r' -> r = r'.
Proof. exact (fun t => conj (reads_some t) (reads_one t)). Qed.
Print Assumptions C69_one_reading.

(** Each kind of answer is given. *)
Example C69_meets_fine : exists x, answers (s "Project p{}Table t{a int[pk]}") (Ok x).
Proof. eexists. apply answers_exact. vm_compute. reflexivity. Qed.
Example C69_meets_broken : answers (s "Project p{}Table t{a int[pk] a int}") (Err (ErSem DuplicateColumnName (29, 34))).
Proof. apply answers_exact. vm_compute. reflexivity. Qed.
Example C69_meets_crashing : answers (s "Project p{}Table t{a varchar[default:'']}") Panic.
Proof. apply answers_exact. vm_compute. reflexivity. Qed.
Example C69_meets_misfit : answers (s "Project p{}Table t{a int[99999999999]}") (Err (ErMsg (s "number too large to fit in target type") (25, 36))).
Proof. apply answers_exact. vm_compute. reflexivity. Qed.
Example C69_meets_ungrammatical : answers (s "Project p{}Table t{a int[99999999999]") (Err ErGrammar).
Proof. apply answers_exact. vm_compute. reflexivity. Qed.
