(** * PropsVariants: which texts are accepted, and other ways of writing a schema.

    Nothing but statements, examples and assumption audits.  What a text says is in
    [Syntax], when a schema is valid in [Validity], the ways of writing a schema
    differently in [Variants]. *)

From Verif Require Import Samples TextSamples VariantSamples ValidityOk VariantsOk Union SynGrow.
From Verif Require Import Err Analyzer Api Answer.
From Verif Require Import Validity Variants.
From Verif Require Import Syntax.

Ltac sayt := apply says_text; [vm_compute; discriminate|];
  match goal with |- Forall _ ?x => let v := eval vm_compute in x in replace x with v by (vm_compute; reflexivity) end; repeat constructor.
Ltac acc := apply accepts; vm_compute; discriminate.

(** ** C52 *)
(** [parse_dbml] accepts exactly the texts that say a valid schema within the limits. *)
Theorem C52_accepts_exactly : forall t, is_accepted t <-> exists a, dbml_text t a /\ fits a /\ valid a.
Proof. exact accepted_valid. Qed.
Print Assumptions C52_accepts_exactly.
(** Whatever a text says decides it. *)
Theorem C52_any_reading : forall t a, dbml_text t a -> (is_accepted t <-> fits a /\ valid a).
Proof. exact accepted_says. Qed.
Print Assumptions C52_any_reading.
(** The returned schema has the meaning judged. *)
Theorem C52_what_is_returned : forall t x, parse_dbml t = Some (Ok x) -> valid (meaning x).
Proof. exact accepted_meaning. Qed.
Print Assumptions C52_what_is_returned.
Example C52_meets : dbml_text v_block (says v_block) /\ fits (says v_block) /\ valid (says v_block).
Proof.
  assert (H : dbml_text v_block (says v_block)) by sayt. split; [exact H|]. apply (accepted_says _ _ H). acc.
Qed.
Example C52_not_valid : dbml_text bad (says bad) /\ fits (says bad) /\ ~ valid (says bad).
Proof.
  assert (H : dbml_text bad (says bad)) by sayt. split; [exact H|].
  assert (F : fits (says bad)).
  { constructor; [constructor|]. constructor; [|constructor]. split; [intros l [= ]|]. split; [|constructor]. constructor; [|constructor].
    split; [split; [constructor|intros n []]|]. intros st [= <-]. constructor; [|constructor]. intros v [= <-]. exact Logic.I. }
  split; [exact F|]. intros V. destruct (proj2 (accepted_says _ _ H) (conj F V)) as [x Hx]. vm_compute in Hx. discriminate.
Qed.

(** ** C53 *)
(** Reading references from their other end ([a > b] as [b < a], [a - b] as [b - a],
    [a <> b] as [b <> a]) changes no verdict. *)
Theorem C53_other_end : forall t1 t2 a b, dbml_text t1 a -> dbml_text t2 b -> turned_text a b -> (is_accepted t1 <-> is_accepted t2).
Proof. exact turned_accepted. Qed.
Print Assumptions C53_other_end.
Example C53_meets : dbml_text v_block (says v_block) /\ dbml_text v_turned (says v_turned) /\ turned_text (says v_block) (says v_turned) /\
  v_block <> v_turned /\ is_accepted v_block.
Proof.
  split; [sayt|]. split; [sayt|]. split; [|split; [discriminate|acc]].
  vm_compute. do 3 apply tn_same. refine (tn_ref (mkARef (Some (s "r")) Many2One (mkEnd None (s "u") [s "b"]) (mkEnd None (s "t") [s "a"]) None) [] [] tn_nil).
Qed.

(** ** C54 *)
(** A reference written in a column's settings or as a [Ref] block of its own. *)
Theorem C54_inline_or_block : forall t1 t2 a b, dbml_text t1 a -> dbml_text t2 b -> moved_out a b -> (is_accepted t1 <-> is_accepted t2).
Proof. exact moved_accepted. Qed.
Print Assumptions C54_inline_or_block.
Example C54_meets : dbml_text v_inline (says v_inline) /\ dbml_text v_block (says v_block) /\ moved_out (says v_inline) (says v_block) /\ is_accepted v_inline.
Proof.
  split; [sayt|]. split; [sayt|]. split; [|acc].
  exact (mo_intro [AProject (mkAProject (s "p") [] []); ATable (mkATable None (s "t") None None [mkCol (s "a") (mkType (CT_Raw (s "int")) [] []) (Some (mkColSet [(s "pk", None)] []))] [] [])] []
    (mkATable None (s "u") None None [mkCol (s "b") (mkType (CT_Raw (s "int")) [] []) (Some (mkColSet [(s "note", Some (VString (s "x")))] [(Many2One, mkEnd None (s "t") [s "a"])]))] [] [])
    [] (mkCol (s "b") (mkType (CT_Raw (s "int")) [] []) (Some (mkColSet [(s "note", Some (VString (s "x")))] [(Many2One, mkEnd None (s "t") [s "a"])]))) []
    [(s "note", Some (VString (s "x")))] [] (Many2One, mkEnd None (s "t") [s "a"]) [] (Some (mkColSet [(s "note", Some (VString (s "x")))] [])) (Some (s "r")) eq_refl eq_refl (or_introl eq_refl)).
Qed.

(** ** C55 *)
(** The order of columns, enum values, group items, project properties, settings and
    blocks does not matter to the verdict (for index definitions see C44). *)
Theorem C55_order : forall t1 t2 a b, dbml_text t1 a -> dbml_text t2 b -> reordered a b -> (is_accepted t1 <-> is_accepted t2).
Proof. exact reordered_accepted_iff. Qed.
Print Assumptions C55_order.
Example C55_meets : dbml_text v_order (says v_order) /\ dbml_text v_order' (says v_order') /\ reordered (says v_order) (says v_order') /\ is_accepted v_order.
Proof.
  split; [sayt|]. split; [sayt|]. split; [|acc]. exists (rev (says v_order)). split; [apply Permutation_rev|]. vm_compute.
  constructor; [apply sh_project; constructor|]. constructor; [eapply sh_enum; [apply perm_swap|]; repeat constructor|].
  constructor; [eapply sh_table; [exact Logic.I|apply perm_swap| |constructor]|].
  - constructor; [|constructor; [|constructor]]; unfold shuffled_col; cbn; repeat split; try apply perm_swap; reflexivity.
  - constructor; [|constructor; [|constructor]]; apply shuffled_refl.
Qed.

(** ** C56 *)
(** Notes, names of references, colours, update and delete actions, project properties
    and all other settings that declare no key, null, default or index type do not
    matter, as long as no key is given twice. *)
Theorem C56_annotations : forall t1 t2 a b, dbml_text t1 a -> dbml_text t2 b -> reannotated a b -> fits b -> is_accepted t1 -> is_accepted t2.
Proof. exact reannotated_accepted. Qed.
Print Assumptions C56_annotations.
Example C56_meets : dbml_text v_block (says v_block) /\ dbml_text v_notes (says v_notes) /\ reannotated (says v_block) (says v_notes) /\ fits (says v_notes) /\ is_accepted v_block.
Proof.
  split; [sayt|]. assert (H : dbml_text v_notes (says v_notes)) by sayt. split; [exact H|]. split; [|split; [|acc]].
  - exact v_reannotated.
  - apply (accepted_says _ _ H). acc.
Qed.

(** ** C57 *)
(** Renaming schemas, tables, aliases and columns consistently changes no verdict:
    different names stay different, and [public] stays. *)
Theorem C57_renaming : forall rs rt rc rs' rt' rc' t1 t2 a, undoes rs rs' -> undoes rt rt' -> undoes rc rc' -> rs (s "public") = s "public" ->
  dbml_text t1 a -> dbml_text t2 (rename rs rt rc a) -> (is_accepted t1 <-> is_accepted t2).
Proof. exact renamed_accepted_iff. Qed.
Print Assumptions C57_renaming.
(** To new names altogether. *)
Theorem C57_new_names : forall rs rt rc t1 t2 a, proper_renaming rs rt rc ->
  dbml_text t1 a -> dbml_text t2 (rename rs rt rc a) -> is_accepted t1 -> is_accepted t2.
Proof. exact renamed_accepted. Qed.
Print Assumptions C57_new_names.
Example C57_meets : let rt := swap (s "t") (s "my t") in let rc := swap (s "b") (s "my b") in
  undoes rt rt /\ undoes rc rc /\ dbml_text v_block (says v_block) /\ dbml_text v_renamed (rename (fun w => w) rt rc (says v_block)) /\ is_accepted v_block.
Proof.
  cbv zeta. split; [apply swap_undoes|]. split; [apply swap_undoes|]. split; [sayt|]. split; [|acc].
  replace (rename _ _ _ _) with (says v_renamed) by (vm_compute; reflexivity). sayt.
Qed.

(** ** C58 *)
(** Two accepted schemas without common names are accepted as one (with one of the
    projects). *)
Theorem C58_together : forall t1 t2 t3 a b c, dbml_text t1 a -> dbml_text t2 b -> dbml_text t3 c ->
  separate a b -> Permutation (a ++ no_project b) c -> is_accepted t1 -> is_accepted t2 -> is_accepted t3.
Proof. exact union_accepted. Qed.
Print Assumptions C58_together.
Example C58_meets : dbml_text v_block (says v_block) /\ dbml_text v_other (says v_other) /\ dbml_text v_union (says v_union) /\
  separate (says v_block) (says v_other) /\ says v_union = says v_block ++ no_project (says v_other) /\ is_accepted v_block /\ is_accepted v_other.
Proof.
  do 3 (split; [sayt|]). split; [|split; [vm_compute; reflexivity|split; acc]].
  constructor; vm_compute; intros; repeat match goal with H : _ \/ _ |- _ => destruct H end; subst; try contradiction; try discriminate; cbn in *; try discriminate.
Qed.

(** ** C59 *)
(** Texts can be joined: one below the other they say what they say, unless a comment
    opened in the first text (within quotes) would end in the second. *)
Theorem C59_join : forall t1 t2 a b, dbml_text t1 a -> dbml_text t2 b ->
  comments_closed t1 \/ (forall x y, t2 <> x ++ s "*/" ++ y) ->
  dbml_text (t1 ++ 10 :: t2) (a ++ b).
Proof. exact join_texts. Qed.
Print Assumptions C59_join.
(** A text without a project, fine below a project line, is fine below an accepted text. *)
Theorem C59_join_accepted : forall t1 t2 a b, dbml_text t1 a -> dbml_text t2 b -> projects_of b = [] ->
  comments_closed t1 \/ (forall x y, t2 <> x ++ s "*/" ++ y) -> separate a b ->
  is_accepted t1 -> is_accepted (s "Project p {}" ++ 10 :: t2) -> is_accepted (t1 ++ 10 :: t2).
Proof. exact join_accepted. Qed.
Print Assumptions C59_join_accepted.
Example C59_meets : dbml_text v_block (says v_block) /\ dbml_text v_more (says v_more) /\ projects_of (says v_more) = [] /\
  comments_closed v_block /\ separate (says v_block) (says v_more) /\ is_accepted v_block /\ is_accepted (s "Project p {}" ++ 10 :: v_more).
Proof.
  do 2 (split; [sayt|]). split; [vm_compute; reflexivity|]. split; [|split; [|split; acc]].
  - apply SynGrow.closed_ok; vm_compute; reflexivity.
  - constructor; vm_compute; intros; repeat match goal with H : _ \/ _ |- _ => destruct H end; subst; try contradiction; try discriminate; cbn in *; try discriminate.
Qed.
(** The condition is needed: below this text, a comment swallows the closing quote. *)
Example C59_needed : parsed (prj "Note: '/* a'") <> None /\ parsed (s "// */") <> None /\ parsed (prj "Note: '/* a'" ++ 10 :: s "// */") = None.
Proof. repeat split; vm_compute; discriminate || reflexivity. Qed.
