(** * PropsText: the semantic check, in terms of texts.

    [dbml_text t a] (Syntax): the text [t] says [a].  [is_accepted t] and [same_answer]
    (Answer): [parse_dbml] accepts [t]; two answers that agree up to positions. *)

From Coq Require Import Permutation.
From Verif Require Import Samples SynVerdict TextSamples Rules.
From Verif Require Import Answer.

(** ** C48 *)
Theorem C48_answer_depends_on_what_is_said : forall t1 t2 a, dbml_text t1 a -> dbml_text t2 a ->
  same_answer (parse_dbml t1) (parse_dbml t2).
Proof. exact same_text. Qed.
Print Assumptions C48_answer_depends_on_what_is_said.
Theorem C48_up_to_overridden_blocks : forall t1 t2 a b, dbml_text t1 a -> dbml_text t2 b -> settle a = settle b -> (fits a <-> fits b) ->
  same_answer (parse_dbml t1) (parse_dbml t2).
Proof. exact same_say. Qed.
Print Assumptions C48_up_to_overridden_blocks.
Example C48_meets : bad <> bad' /\ dbml_text bad (says bad) /\ dbml_text bad' (says bad) /\
  exists e sp sp', parse_dbml bad = Some (Err (ErSem e sp)) /\ parse_dbml bad' = Some (Err (ErSem e sp')) /\ sp <> sp'.
Proof.
  split; [discriminate|]. split; [apply says_text; [vm_compute; discriminate|repeat constructor]|]. split.
  - replace (says bad) with (says bad') by (vm_compute; reflexivity). apply says_text; [vm_compute; discriminate|repeat constructor].
  - eexists _, _, _. split; [vm_compute; reflexivity|]. split; [vm_compute; reflexivity|discriminate].
Qed.

(** ** C39 *)
Theorem C39_order_of_blocks_in_text : forall t1 t2 a b, dbml_text t1 a -> dbml_text t2 b -> Permutation a b ->
  is_accepted t1 -> is_accepted t2.
Proof. exact perm_text. Qed.
Print Assumptions C39_order_of_blocks_in_text.
Example C39_text_meets : dbml_text two (says two) /\ dbml_text two' (rev (says two)) /\ is_accepted two.
Proof.
  split; [apply says_text; [vm_compute; discriminate|repeat constructor]|]. split.
  - replace (rev (says two)) with (says two') by (vm_compute; reflexivity). apply says_text; [vm_compute; discriminate|repeat constructor].
  - apply accepts. vm_compute. discriminate.
Qed.

(** ** C43 *)
Theorem C43_removal_in_text : forall t1 t2 a b, dbml_text t1 a -> dbml_text t2 b -> trimmed_text b a -> is_accepted t1 -> is_accepted t2.
Proof. exact trim_text. Qed.
Print Assumptions C43_removal_in_text.
Example C43_text_meets : dbml_text two (says two) /\ dbml_text two_less (says two_less) /\ trimmed_text (says two_less) (says two) /\ is_accepted two.
Proof.
  split; [apply says_text; [vm_compute; discriminate|repeat constructor]|]. split; [apply says_text; [vm_compute; discriminate|repeat constructor]|].
  split; [vm_compute; repeat first [apply tt_keep|apply tt_drop; [exact Logic.I|]|apply tt_nil]|]. apply accepts. vm_compute. discriminate.
Qed.

(** ** C44 *)
Theorem C44_index_order_in_text : forall t1 t2 a b x, dbml_text t1 a -> dbml_text t2 b -> reindexed_text a b ->
  parse_dbml t1 = Some (Ok x) ->
  (forall t ib, In t (tables x) -> tb_indexes t = Some ib -> order_free (ib_defs ib)) -> is_accepted t2.
Proof. exact reindex_text. Qed.
Print Assumptions C44_index_order_in_text.
Example C44_text_meets : reindexed_text (ix_of [ix1; ix2]) (ix_of [ix2; ix1]) /\
  exists t1 t2, dbml_text t1 (ix_of [ix1; ix2]) /\ dbml_text t2 (ix_of [ix2; ix1]) /\ is_accepted t1.
Proof. split; [exact ix_reindexed|exact ix_texts]. Qed.
