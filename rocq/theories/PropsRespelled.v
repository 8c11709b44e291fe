(** * PropsRespelled: aliases and qualified names in whole texts (C41).

    What a text says is in [Syntax]; the spellings compared are in [Respelled]. *)

From Verif Require Import Samples TextSamples VariantSamples ValidityOk VariantsOk RespelledOk.
From Verif Require Import Err Analyzer Api Answer.
From Verif Require Import Validity Variants.
From Verif Require Import Syntax Respelled.

Ltac sayt := apply says_text; [vm_compute; discriminate|];
  match goal with |- Forall _ ?x => let v := eval vm_compute in x in replace x with v by (vm_compute; reflexivity) end; repeat constructor.
Ltac acc := apply accepts; vm_compute; discriminate.

(** ** C41 *)
(** Writing a table's alias for its schema and name, or the other way round, in any of
    the [Ref] blocks, inline references and group items of a text, changes no verdict,
    where the table is declared with a schema.  (Without one it does:
    [C41_alias_always_rejected].) *)
Theorem C41_spellings_in_text_partial : forall t1 t2 a b, dbml_text t1 a -> dbml_text t2 b -> respelled_text a b ->
  (is_accepted t1 <-> is_accepted t2).
Proof. exact respelled_accepted. Qed.
Print Assumptions C41_spellings_in_text_partial.

Definition r_alias : str := prj "Table c.t as T { a int [pk] } Table u { b int [ref: > T.a] d int } Ref: u.d > c.t.a TableGroup g { T u }".
Definition r_name : str := prj "Table c.t as T { a int [pk] } Table u { b int [ref: > c.t.a] d int } Ref: u.d > T.a TableGroup g { c.t u }".
Example C41_spellings_meet : dbml_text r_alias (says r_alias) /\ dbml_text r_name (says r_name) /\
  respelled_text (says r_alias) (says r_name) /\ says r_alias <> says r_name /\ is_accepted r_alias.
Proof.
  split; [sayt|]. split; [sayt|]. split; [|split; [vm_compute; discriminate|acc]].
  pose (T := mkATable (Some (s "c")) (s "t") (Some (s "T")) None [mkCol (s "a") (mkType (CT_Raw (s "int")) [] []) (Some (mkColSet [(s "pk", None)] []))] [] []).
  assert (E : forall cs, alias_and_name (tables_of (says r_alias)) (mkEnd None (s "T") cs) (mkEnd (Some (s "c")) (s "t") cs)).
  { intros cs. split; [reflexivity|]. exists T, (s "c"). repeat split; try reflexivity; [vm_compute; left; reflexivity|]. vm_compute. intros [X|[]]; discriminate. }
  assert (I1 : item_is (tables_of (says r_alias)) (None, s "T") (s "c", s "t")).
  { apply (ii_alias _ T (s "T")); [vm_compute; left; reflexivity|reflexivity]. }
  assert (I2 : item_is (tables_of (says r_alias)) (Some (s "c"), s "t") (s "c", s "t")) by constructor.
  unfold respelled_text. generalize dependent (tables_of (says r_alias)). intros ts E I1 I2. let v := eval vm_compute in (says r_alias) in replace (says r_alias) with v by (vm_compute; reflexivity).
  let v := eval vm_compute in (says r_name) in replace (says r_name) with v by (vm_compute; reflexivity).
  constructor; [apply br_same|]. constructor; [apply br_same|]. constructor.
  { match goal with |- block_respelled _ (ATable ?x) (ATable ?y) => change y with (with_cols x (t_cols y)) end. apply br_table.
    constructor; [|constructor; [|constructor]]; (split; [reflexivity|split; [reflexivity|]]); cbn; [|exact Logic.I]. split; [reflexivity|].
    constructor; [|constructor]. split; [reflexivity|]. right. left. apply E. }
  constructor; [apply br_ref; [left; reflexivity|right; right; apply E]|]. constructor; [|constructor].
  apply br_group. constructor; [right; eauto|]. constructor; [left; reflexivity|constructor].
Qed.
