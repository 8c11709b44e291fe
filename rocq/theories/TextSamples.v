(** * TextSamples: texts used by the examples of PropsText. *)

From Coq Require Import Permutation.
From Verif Require Import Samples ParseFacts SynPrint.
From Verif Require Import Answer.

(** What a text says, read off its AST. *)
Definition says (t : str) : a_schema := match parse_dbml_unchecked t with Some (Ok x) => meaning x | _ => [] end.
Lemma says_text t : parsed t <> None -> Forall plain_block (says t) -> dbml_text t (says t).
Proof.
  unfold parsed, says. destruct (parse_dbml_unchecked t) as [[x|e|]|] eqn:E; try congruence. intros _ Hp.
  exact (proj1 (parsed_text _ _ _ E eq_refl Hp)).
Qed.
Lemma accepts t : accepted t <> None -> is_accepted t.
Proof. unfold accepted, is_accepted. destruct (parse_dbml t) as [[x| |]|]; try congruence. intros _. exists x. reflexivity. Qed.
Definition two : str := prj "Table t { a int [pk] } Note: 'n' Ref: u.b > t.a Table u { b int }".
Definition two' : str := s "Table u{b int} REF{u.b>t.a} note{'''n'''} Table t{""a"" int[pk]} project p{}".
Definition two_less : str := s "project p{} Table t{""a"" int[pk]} Table u{b int}".
Definition bad : str := prj "Table t { a int [default: null] }".
Definition bad' : str := s "PROJECT ""p""{} /* x */ table t{a int[default:null]}".
Definition ix : str := prj "Table t { a int b int Indexes { a (a, b) [unique] } }".
From Verif Require Import SynMain SynVerdict.
From Verif Require Import Answer.
Definition ix_of (l : list a_index) : a_schema :=
  [AProject (mkAProject (s "p") [] []);
   ATable (mkATable None (s "t") None None
     [mkCol (s "a") (mkType (CT_Raw (s "int")) [] []) None; mkCol (s "b") (mkType (CT_Raw (s "int")) [] []) None] [] ([] ++ [l]))].
Definition ix1 : a_index := mkIndex [IName (s "a")] None.
Definition ix2 : a_index := mkIndex [IName (s "a"); IName (s "b")] (Some [(s "unique", None)]).
Lemma ix_writable l : Forall (w_index firm) l -> writable (ix_of l).
Proof.
  intros H. constructor; [|constructor; [|constructor]].
  - split; [nm|split; constructor].
  - split; [split; [intros sc [= ]|nm]|]. split; [intros w [= ]|]. split; [intros l' [= ]|]. split; [|split; [constructor|]].
    + constructor; [|constructor; [|constructor]].
      * split; [nm|]. split; [|intros st [= ]]. exists [], (s "int"). split; [reflexivity|]. split; [left; reflexivity|]. split; [left; wd|constructor].
      * split; [nm|]. split; [|intros st [= ]]. exists [], (s "int"). split; [reflexivity|]. split; [left; reflexivity|]. split; [left; wd|constructor].
    + constructor; [exact H|constructor].
Qed.
Lemma ix1_writable : w_index firm ix1.
Proof. split; [constructor; [nm|constructor]|intros l [= ]]. Qed.
Lemma ix2_writable : w_index firm ix2.
Proof.
  split; [constructor; [nm|constructor; [nm|constructor]]|]. intros l [= <-]. constructor; [|constructor]. split; [wd|intros v [= ]].
Qed.
Lemma ix1_fits : fits_index ix1.
Proof. split; [intros l [= ]|intros l v [= ]]. Qed.
Lemma ix2_fits : fits_index ix2.
Proof. split; [intros l [= <-]; constructor; [intros v [= ]|constructor]|intros l v [= <-] [E|[]]; discriminate]. Qed.
Lemma ix_fits l : Forall fits_index l -> fits (ix_of l).
Proof.
  intros H. constructor; [constructor|]. constructor; [|constructor]. split; [intros l' [= ]|]. split; [|constructor; [exact H|constructor]].
  constructor; [|constructor; [|constructor]]; (split; [split; [constructor|intros n []]|intros st [= ]]).
Qed.
Lemma ix_reindexed : reindexed_text (ix_of [ix1; ix2]) (ix_of [ix2; ix1]).
Proof. apply rt_same. apply (rt_table _ _ _ _ _ _ [] _ _ [] []); [apply perm_swap|apply rt_nil]. Qed.
(** Both orders can be written, and both texts are accepted. *)
Lemma ix_texts : exists t1 t2, dbml_text t1 (ix_of [ix1; ix2]) /\ dbml_text t2 (ix_of [ix2; ix1]) /\ is_accepted t1.
Proof.
  assert (F1 : fits (ix_of [ix1; ix2])) by (apply ix_fits; repeat (constructor; [first [exact ix1_fits|exact ix2_fits]|]); constructor).
  assert (F2 : fits (ix_of [ix2; ix1])) by (apply ix_fits; repeat (constructor; [first [exact ix1_fits|exact ix2_fits]|]); constructor).
  destruct (round_trip (ix_of [ix1; ix2])) as (t1 & x1 & H1 & E1 & _); [apply ix_writable; repeat (constructor; [first [exact ix1_writable|exact ix2_writable]|]); constructor|exact F1|].
  destruct (round_trip (ix_of [ix2; ix1])) as (t2 & x2 & H2 & E2 & _); [apply ix_writable; repeat (constructor; [first [exact ix1_writable|exact ix2_writable]|]); constructor|exact F2|].
  exists t1, t2. split; [exact H1|]. split; [exact H2|].
  destruct (parse_dbml_unchecked ix) as [[x|e|]|] eqn:E; try (exfalso; vm_compute in E; discriminate).
  destruct (accepts_iff _ _ E) as (a & Ha & Fa & Ma). assert (Ma' : meaning x = settle (ix_of [ix1; ix2])) by (vm_compute in E; injection E as <-; vm_compute; reflexivity).
  assert (S : same_answer (parse_dbml ix) (parse_dbml t1)) by (apply (same_say _ _ a (ix_of [ix1; ix2])); [exact Ha|exact H1|congruence|tauto]).
  destruct (parse_dbml ix) as [[y|e|]|] eqn:E'; try (exfalso; vm_compute in E'; discriminate).
  destruct (parse_dbml t1) as [[z|e|]|] eqn:E''; try contradiction. exists z. exact E''.
Qed.
