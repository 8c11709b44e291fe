(** * PropsRenaming: all names of a schema are only compared. *)

From Verif Require Import Samples TextSamples VariantSamples RulesOk VariantsOk RenamingOk.
From Verif Require Import Api Answer Rules.
From Verif Require Import Renaming.
From Verif Require Import Syntax.

(** Renaming schemas, tables, aliases, columns, enums, enum values (with the column types and
    defaults that name them) and table groups consistently changes no verdict. *)
Theorem C57_all_names : forall rs rt rc re rv rg rs' rt' rc' re' rv' rg' t1 t2 a b,
  undoes rs rs' -> undoes rt rt' -> undoes rc rc' -> undoes re re' -> undoes rv rv' -> undoes rg rg' -> enum_names rs re ->
  dbml_text t1 a -> dbml_text t2 b -> names_renamed rs re rv rg (rename rs rt rc a) b -> (is_accepted t1 <-> is_accepted t2).
Proof. exact all_renamed_iff. Qed.
Print Assumptions C57_all_names.
(** To new names altogether. *)
Theorem C57_all_new_names : forall rs rt rc re rv rg t1 t2 a b, proper_renaming rs rt rc -> injective re -> injective rv -> injective rg -> enum_names rs re ->
  dbml_text t1 a -> dbml_text t2 b -> names_renamed rs re rv rg (rename rs rt rc a) b -> is_accepted t1 -> is_accepted t2.
Proof. exact all_renamed. Qed.
Print Assumptions C57_all_new_names.

Definition n_old : str := s "Project p{} Table s.t as T{a int [pk] c e [default: x, not null] d s.f [default: 'q'] g h} Table u {k int [ref: > T.a]} Enum e {x y} Enum s.f {q} TableGroup g{T u}".
Definition n_new : str := s "Project p{} Table z.t as T{b int [pk] c ""my e"" [default: 'my x', not null] d z.f [default: q] g h} Table u {k int [ref: > T.b]} Enum ""my e"" {""my x"" y} Enum z.f {q} TableGroup g2{T u}".
Ltac sayt := apply says_text; [vm_compute; discriminate|];
  match goal with |- Forall _ ?x => let v := eval vm_compute in x in replace x with v by (vm_compute; reflexivity) end; repeat constructor.
Lemma swap_keeps (P : str -> Prop) a b : (P a <-> P b) -> keeps P (swap a b).
Proof.
  intros H w. unfold swap. destruct (str_eqb w a) eqn:E1; [apply str_eqb_eq in E1; subst; exact H|].
  destruct (str_eqb w b) eqn:E2; [apply str_eqb_eq in E2; subst; symmetry; exact H|reflexivity].
Qed.
Example C57_all_names_meets : exists rs rc re rv rg, undoes rs rs /\ undoes rc rc /\ undoes re re /\ undoes rv rv /\ undoes rg rg /\ enum_names rs re /\
  dbml_text n_old (says n_old) /\ dbml_text n_new (says n_new) /\ names_renamed rs re rv rg (rename rs (fun w => w) rc (says n_old)) (says n_new) /\
  is_accepted n_old /\ says n_old <> says n_new.
Proof.
  exists (swap (s "s") (s "z")), (swap (s "a") (s "b")), (swap (s "e") (s "my e")), (swap (s "x") (s "my x")), (swap (s "g") (s "g2")).
  do 5 (split; [apply swap_undoes|]). split; [|split; [sayt|split; [sayt|split; [|split; [apply accepts; vm_compute; discriminate|vm_compute; discriminate]]]]].
  - split; [reflexivity|]. split; [apply swap_keeps; vm_compute; intuition discriminate|]. split; [apply swap_keeps; vm_compute; intuition discriminate|].
    apply swap_keeps. split; intros _; apply from_str_none; reflexivity.
  - unfold names_renamed. match goal with |- Forall2 _ ?x ?y => let v := eval vm_compute in x in let w := eval vm_compute in y in change x with v; change y with w end.
    assert (Bi : builtin (s "int") CT_Integer) by (exists "int"%string; split; [cbn; tauto|reflexivity]).
    assert (Nb : forall w, col_type_name_from_str w = None -> not_builtin w) by (intros w; apply from_str_none).
    assert (Ar : forall k v rv, str_eqb k (s "default") = false -> attr_renamed rv (k, v) (k, v)).
    { intros k v rv Hk. apply ar_other. intros v0 E. injection E as E _. rewrite E in Hk. vm_compute in Hk. discriminate. }
    repeat apply Forall2_cons; [apply br_project|apply br_table|apply br_table|exact (br_enum _ _ _ _ None (s "e") [(s "x", None); (s "y", None)])|exact (br_enum _ _ _ _ (Some (s "s")) (s "f") [(s "q", None)])|exact (br_group _ _ _ _ (s "g") None [] [(None, s "T"); (None, s "u")])|constructor].
    + repeat apply Forall2_cons; [exact (cr_builtin _ _ _ (s "b") (s "int") _ _ _ _ Bi)| | | |constructor].
      * refine (cr_enum _ _ _ (s "c") (s "e") (s "my e") _ _ _ _ (Nb (s "e") eq_refl) (ty_plain (swap (s "s") (s "z")) (swap (s "e") (s "my e")) (s "e") (Nb (s "e") eq_refl) _) _); [vm_compute; intuition discriminate|].
        apply se_some. repeat apply Forall2_cons; [apply ar_default|apply Ar; reflexivity|constructor]. apply (vr_name _ _ _ (s "x")); [left|right]; reflexivity.
      * refine (cr_enum _ _ _ (s "d") (s "s.f") (s "z.f") _ _ _ _ (Nb (s "s.f") eq_refl) (ty_qualified (swap (s "s") (s "z")) (swap (s "e") (s "my e")) (s "s.f") (s "s") (s "f") eq_refl _ _) _); [vm_compute; intuition discriminate..|].
        apply se_some. repeat apply Forall2_cons; [apply ar_default|constructor]. apply (vr_name _ _ _ (s "q")); [right|left]; reflexivity.
      * refine (cr_enum _ _ _ (s "g") (s "h") (s "h") _ _ _ _ (Nb (s "h") eq_refl) (ty_plain (swap (s "s") (s "z")) (swap (s "e") (s "my e")) (s "h") (Nb (s "h") eq_refl) _) _); [vm_compute; intuition discriminate|constructor].
    + repeat apply Forall2_cons; [exact (cr_builtin _ _ _ (s "k") (s "int") _ _ _ _ Bi)|constructor].
Qed.
(** An enum renamed without its uses is another schema. *)
Example C57_half : is_accepted (s "Project p{} Table t{c e [default: x]} Enum e {x}") /\ ~ is_accepted (s "Project p{} Table t{c e [default: x]} Enum f {x}") /\
  ~ is_accepted (s "Project p{} Table t{c e [default: x]} Enum e {y}").
Proof. repeat split; try (apply accepts; vm_compute; discriminate); intros [x H]; vm_compute in H; discriminate. Qed.
