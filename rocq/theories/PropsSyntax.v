(** * PropsSyntax: the language.

    [Syntax] says what a DBML text says: [dbml_text t a] — the text [t], with any
    white space and comments between its tokens, any letter case of the block
    keywords and either notation for notes, references and names, says [a].  [fits a]:
    the numbers and words of [a] fit the AST.  [meaning x] is what an AST says;
    [settle a] is [a] with only the last of several notes or index blocks of a table,
    group or project.  [writable a] ([Writable]): names, keys and values of [a] that
    have a notation; those in quotes do not start with layout or with a comment mark. *)

From Verif Require Import Layout Api SynPrint WritableOk.
From Verif Require Import Syntax Writable.

(** ** C15 *)
Theorem C15_written_is_read : forall t a, dbml_text t a -> fits a ->
  exists x, parse_dbml_unchecked t = Some (Ok x) /\ meaning x = settle a.
Proof. exact written_is_read. Qed.
Print Assumptions C15_written_is_read.
Theorem C15_every_schema_can_be_written : forall a, writable a -> fits a ->
  exists t x, dbml_text t a /\ parse_dbml_unchecked t = Some (Ok x) /\ meaning x = settle a.
Proof. exact round_trip. Qed.
Print Assumptions C15_every_schema_can_be_written.
Theorem C15_nothing_else_is_read : forall t x, parse_dbml_unchecked t = Some (Ok x) ->
  exists a, dbml_text t a /\ fits a /\ meaning x = settle a.
Proof. exact accepts_iff. Qed.
Print Assumptions C15_nothing_else_is_read.
Example C15_meets : writable both /\ fits both /\ dbml_text tight both /\ settle both = both.
Proof. split; [exact both_writable|]. split; [exact (proj2 tight_text)|]. split; [exact (proj1 tight_text)|reflexivity]. Qed.
(** Nothing else can: what a text says is writable, save that a value may start with
    a comment mark that nothing in the rest of the text ends. *)
Theorem C15_nothing_else_can_be_written : forall t a, dbml_text t a -> comments_closed t -> writable a.
Proof. exact closed_text_writable. Qed.
Print Assumptions C15_nothing_else_can_be_written.
Theorem C15_only_values_without_layout : forall t a, dbml_text t a -> writable_with no_layout_start a.
Proof. exact text_writable. Qed.
Print Assumptions C15_only_values_without_layout.
Definition note_of (v : string) : a_schema := [ANote (VString (s v))].
Lemma says_note t v : parse_dbml_unchecked t <> None -> (forall x, parse_dbml_unchecked t = Some (Ok x) -> meaning x = note_of v) ->
  (forall e, parse_dbml_unchecked t <> Some (Err e)) -> parse_dbml_unchecked t <> Some Panic -> dbml_text t (note_of v).
Proof.
  intros H0 H1 H2 H3. destruct (parse_dbml_unchecked t) as [[x|err|]|] eqn:E; try congruence.
  apply (parsed_text _ x); [exact E|apply H1; reflexivity|repeat constructor].
Qed.
Ltac note_text := apply says_note; [vm_compute; discriminate|intros x E; vm_compute in E; injection E as <-; vm_compute; reflexivity|intros e; vm_compute; discriminate|vm_compute; discriminate].
(** A value that starts with one slash, in a text with a comment. *)
Example C15_slash : dbml_text (s "/* a */ Note: '/api'") (note_of "/api") /\ comments_closed (s "/* a */ Note: '/api'").
Proof.
  split; [note_text|]. intros a b E. destruct a as [|c a]; [cbn in E; injection E as <-; exists (s " a "), (s " Note: '/api'"); reflexivity|].
  exfalso. vm_compute in E. injection E as _ E. repeat (destruct a as [|? a]; [discriminate E|injection E as _ E]). destruct a; discriminate E.
Qed.
(** A value that starts with an open comment mark: there is a text, but it is not [writable]. *)
Example C15_open_mark : dbml_text (s "Note: '/* a'") (note_of "/* a") /\ ~ writable (note_of "/* a").
Proof.
  split; [note_text|]. intros H. inversion H as [|? ? H1 _]. subst. destruct H1 as (w & [= <-] & (_ & _ & H1) & _). apply (H1 (s " a")). reflexivity.
Qed.

(** ** C16 *)
Theorem C16_same_schema : forall t1 t2 a x, dbml_text t1 a -> dbml_text t2 a -> parse_dbml_unchecked t1 = Some (Ok x) ->
  exists y, parse_dbml_unchecked t2 = Some (Ok y) /\ meaning y = meaning x.
Proof. exact same_meaning. Qed.
Print Assumptions C16_same_schema.
Theorem C16_leading_layout : forall g t a, gap g -> dbml_text t a -> dbml_text (g ++ t) a.
Proof. exact leading_layout. Qed.
Print Assumptions C16_leading_layout.
Example C16_meets : dbml_text tight both /\ dbml_text loose both /\ tight <> loose.
Proof. split; [exact (proj1 tight_text)|]. split; [exact loose_text|discriminate]. Qed.

(** ** C47 *)
Theorem C47_rejects_exactly_the_rest : forall t, parse_dbml_unchecked t = Some (Err ErGrammar) <-> forall a, ~ dbml_text t a.
Proof. exact not_dbml. Qed.
Print Assumptions C47_rejects_exactly_the_rest.
Theorem C47_too_big : forall t m sp, parse_dbml_unchecked t = Some (Err (ErMsg m sp)) -> exists a, dbml_text t a /\ ~ fits a.
Proof. exact too_big. Qed.
Print Assumptions C47_too_big.
Theorem C47_too_big_only : forall t a, dbml_text t a -> ~ fits a -> exists m sp, parse_dbml_unchecked t = Some (Err (ErMsg m sp)).
Proof. exact too_big_only. Qed.
Print Assumptions C47_too_big_only.
Theorem C47_one_meaning : forall t a b, dbml_text t a -> dbml_text t b -> fits a -> fits b /\ settle a = settle b.
Proof. exact one_meaning. Qed.
Print Assumptions C47_one_meaning.
Example C47_rejects : parse_dbml_unchecked (s "Table t { id int [pk, ] }") = Some (Err ErGrammar).
Proof. vm_compute. reflexivity. Qed.
Example C47_does_not_fit : exists m sp, parse_dbml_unchecked (s "Table t { id int [default: 99999999999999999999] }") = Some (Err (ErMsg m sp)).
Proof. eexists _, _. vm_compute. reflexivity. Qed.
