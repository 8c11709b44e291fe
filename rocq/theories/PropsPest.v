(** * PropsPest: the grammar of the model is what pest makes of src/dbml.pest. *)

From Verif Require Import PestText PestMeta PestOk Optim.

(** ** C64 *)
(** [Grammar] is src/dbml.pest: its text, read as pest reads a grammar, desugared. *)
Theorem C64_grammar_is_the_file : from_file dbml_pest desugar (s "schema") schema.
Proof. exact schema_from_file. Qed.
Print Assumptions C64_grammar_is_the_file.
Theorem C64_layout_is_the_file :
  from_file dbml_pest desugar (s "WHITESPACE") WHITESPACE /\ from_file dbml_pest desugar (s "COMMENT") COMMENT.
Proof. exact (conj whitespace_from_file comment_from_file). Qed.
Print Assumptions C64_layout_is_the_file.
(** What all the passes but [skip] make of the file is the rewritten grammar of C64_optimizer. *)
Theorem C64_optimized_file : from_file dbml_pest optimize (s "schema") oschema.
Proof. exact oschema_from_file. Qed.
Print Assumptions C64_optimized_file.
(** The pass [skip] replaces, in [@] rules, a loop up to a string by one search for it. *)
Theorem C64_skip_pass : forall sk x off inp,
  eval sk (ERep (ESeq (ENot (EStr x)) EAny)) Atomic off inp = ROk (fst (skip_until x inp)) (snd (skip_until x inp)) [].
Proof. exact skip_pass. Qed.
Print Assumptions C64_skip_pass.
Example C64_file_has_rules : option_map (@List.length _) (read_pest dbml_pest) = Some 65%nat.
Proof. vm_compute. reflexivity. Qed.
Example C64_skips : skip_until (s "'''") (s "it's''' here") = (s "it's", s "''' here").
Proof. vm_compute. reflexivity. Qed.
(** A changed file is noticed: with the [+] of [integer] dropped the outcome differs. *)
Example C64_changed_file : forall e, compile (desugar [mkSrule (s "integer") MAtomic (SId (s "ASCII_DIGIT"))]) 20 (s "integer") = Some e ->
  eval skip e NonAtomic 0 (s "12") <> eval skip integer NonAtomic 0 (s "12").
Proof. intros e H. vm_compute in H. injection H as <-. vm_compute. discriminate. Qed.
