(** * PropsGrowth: a part of an accepted schema only lacks things. *)

From Verif Require Import Samples TextSamples GrowthOk VariantsOk.
From Verif Require Import Api Answer Rules.
From Verif Require Import Growth.
From Verif Require Import Syntax.

(** A text that says a part of what an accepted text says is accepted too, or the error says
    that something is not there (a project, a schema, a table or an enum): it breaks no other
    rule, and makes nothing panic. *)
Theorem C74_part : forall t1 t2 a b, dbml_text t1 a -> dbml_text t2 b -> says_more a b -> is_accepted t2 ->
  is_accepted t1 \/ exists e sp, parse_dbml t1 = Some (Err (ErSem e sp)) /\ missing e.
Proof. exact says_more_ok. Qed.
Print Assumptions C74_part.

(** So a fault that is not a missing thing stays a fault, whatever is declared beside it. *)
Theorem C74_faults_stay : forall t1 t2 a b, dbml_text t1 a -> dbml_text t2 b -> says_more a b ->
  (forall x, parse_dbml t1 <> Some (Ok x)) -> (forall e sp, parse_dbml t1 = Some (Err (ErSem e sp)) -> ~ missing e) -> ~ is_accepted t2.
Proof. exact faults_stay. Qed.
Print Assumptions C74_faults_stay.

Ltac sayt := apply says_text; [vm_compute; discriminate|];
  match goal with |- Forall _ ?x => let v := eval vm_compute in x in replace x with v by (vm_compute; reflexivity) end; repeat constructor.
Ltac cmp x := let v := eval vm_compute in x in change x with v.

Definition g_part : str := s "Table t{a int [pk] c e [default: x]} Ref: u.b > t.a".
Definition g_all : str := s "Project p{} Enum e{x} Table t{a int [pk] c e [default: x]} Table u as U{b int} Ref: u.b > t.a".
Example C74_part_meets : dbml_text g_part (says g_part) /\ dbml_text g_all (says g_all) /\ says_more (says g_part) (says g_all) /\ is_accepted g_all /\
  exists e sp, parse_dbml g_part = Some (Err (ErSem e sp)) /\ missing e.
Proof.
  split; [sayt|]. split; [sayt|]. split; [|split; [apply accepts; vm_compute; discriminate|]].
  - pose (a := says g_part). pose (b := says g_all). fold a b.
    exists (firstn 2 b ++ firstn 1 (skipn 3 b)). split.
    + assert (E : b = firstn 2 b ++ (firstn 1 a ++ firstn 1 (skipn 3 b) ++ skipn 1 a)) by (vm_compute; reflexivity).
      assert (Ea : a = firstn 1 a ++ skipn 1 a) by (vm_compute; reflexivity).
      rewrite E at 1. rewrite Ea at 3. generalize (firstn 2 b) (firstn 1 a) (firstn 1 (skipn 3 b)) (skipn 1 a). clear. intros p q r u.
      rewrite Permutation_app_comm, <- !app_assoc. apply Permutation_app_head. rewrite (Permutation_app_comm r), <- !app_assoc. reflexivity.
    + intros (x & w & Hx & Hw & H). vm_compute in Hx. destruct Hx as [<-|[]]. vm_compute in Hw. injection Hw as <-. destruct H as [(k & Hk & He)|(g & Hg & _)].
      * vm_compute in Hk. destruct Hk as [<-|[]]. vm_compute in He. destruct He as [E|E]; discriminate.
      * vm_compute in Hg. exact Hg.
  - do 2 eexists. split; [vm_compute; reflexivity|]. unfold missing. auto.
Qed.

(** The four things that can be missing. *)
Definition lacks (t : str) (e : sem_err) : Prop := exists sp, parse_dbml t = Some (Err (ErSem e sp)).
Example C74_all_four : lacks (s "Table t{a int}") ProjectSettingNotFound /\ lacks (s "Project p{} Table t{a int} Ref: t.a > u.b") TableNotFound /\
  lacks (s "Project p{} Table t{a int} Ref: t.a > v.u.b") SchemaNotFound /\ lacks (s "Project p{} Table t{a e [default: x]}") EnumNotFound.
Proof. repeat split; eexists; vm_compute; reflexivity. Qed.

(** A column given twice stays a fault: no declaration beside it helps. *)
Definition g_bad : str := s "Project p{} Table t{a int a int}".
Definition g_more : str := s "Project p{} Table t{a int a int} Table u{b int}".
Example C74_faults_stay_meets : dbml_text g_bad (says g_bad) /\ dbml_text g_more (says g_more) /\ says_more (says g_bad) (says g_more) /\
  (forall x, parse_dbml g_bad <> Some (Ok x)) /\ (forall e sp, parse_dbml g_bad = Some (Err (ErSem e sp)) -> ~ missing e).
Proof.
  split; [sayt|]. split; [sayt|]. split; [|split].
  - exists (skipn 2 (says g_more)). split; [vm_compute; reflexivity|].
    intros (x & w & Hx & Hw & _). vm_compute in Hx. destruct Hx as [<-|[]]. vm_compute in Hw. discriminate.
  - intros x H. vm_compute in H. discriminate.
  - intros e sp H. vm_compute in H. injection H as <- _. unfold missing. intros [E|[E|[E|E]]]; discriminate.
Qed.

(** The condition on aliases is needed: a new table whose alias is the name of a table takes
    its references over, here mending one that names no column of the old table. *)
Example C74_taken_over : lacks (s "Project p{} Table t{a int [pk]} Table s.v{b int [ref: > t.z]}") ColumnNotFound /\
  is_accepted (s "Project p{} Table t{a int [pk]} Table s.v{b int [ref: > t.z]} Table s.w as t{z int [pk]}").
Proof. split; [eexists; vm_compute; reflexivity|apply accepts; vm_compute; discriminate]. Qed.
