(** * PropsUnused: declarations nothing depends on can be left out. *)

From Verif Require Import Samples TextSamples UnusedOk VariantsOk.
From Verif Require Import Api Answer Rules.
From Verif Require Import Unused.
From Verif Require Import Syntax.

(** Tables, columns, aliases, index definitions, enums, enum values, references (blocks and
    inline ones), table groups and their items, notes, project properties and settings that
    declare no key or nullability can be left out of an accepted text, as long as what is left depends
    on nothing that is gone. *)
Theorem C43_unused : forall t1 t2 a b, dbml_text t1 a -> dbml_text t2 b -> left_of a b -> depends_on_nothing_gone a b -> is_accepted t1 -> is_accepted t2.
Proof. exact unused. Qed.
Print Assumptions C43_unused.

Definition all_t : str := s "Project p{a:'x'} Table s.t as T{a int [pk] b int [unique, default: 5] c e [default: x, not null] d int } Table u {k int [ref: > T.a] m int} Table v as V { z int [ref: - u.m, unique]} Enum e {x y} Enum f {q} TableGroup g{T V u} Note: 'n'".
Definition few_t : str := s "Project p{} Table s.t as T{a int [pk] c e [default: x] d int } Table u {k int [ref: > T.a] } Enum e {x} TableGroup g{T}".
Ltac sayt := apply says_text; [vm_compute; discriminate|];
  match goal with |- Forall _ ?x => let v := eval vm_compute in x in replace x with v by (vm_compute; reflexivity) end; repeat constructor.
Ltac fits_ := repeat first [reflexivity | apply fw_nil | apply fw_keep; [reflexivity|] | apply fw_drop].
Definition a_tables : list a_table := Eval vm_compute in tables_of (says all_t).
Definition b_tables : list a_table := Eval vm_compute in tables_of (says few_t).
Lemma found_inv ts e t : found ts e t ->
  (exists t0, In t0 ts /\ t_alias t0 = Some (e_table e) /\ t_schema t = Some (fst (tname t0)) /\ t_name t = snd (tname t0)) \/
  (t_schema t = e_schema e /\ t_name t = e_table e).
Proof. intros [_ H]. inversion H as [t0 H0 E0 E1 E2|H0 E1 E2]; [left; exists t0|right]; auto. Qed.
Lemma item_inv ts n x : item_is ts (None, n) x -> (exists t0, In t0 ts /\ t_alias t0 = Some n /\ x = tname t0) \/ (~ In n (taliases ts) /\ True).
Proof. intros H. inversion H as [|t0 n0 H0 E0 E1 E2|t0 n0 Hn H0 E0]; [left; exists t0|right]; auto. Qed.
Example C43_unused_meets : dbml_text all_t (says all_t) /\ dbml_text few_t (says few_t) /\ left_of (says all_t) (says few_t) /\ depends_on_nothing_gone (says all_t) (says few_t) /\
  is_accepted all_t /\ (List.length (tables_of (says all_t)) = 3)%nat /\ (List.length (tables_of (says few_t)) = 2)%nat.
Proof.
  split; [sayt|]. split; [sayt|].
  split; [|split; [|split; [apply accepts; vm_compute; discriminate|split; vm_compute; reflexivity]]].
  - split; [|vm_compute; discriminate]. vm_compute.
    apply fw_keep; [apply less_p; apply some_none|]. apply fw_keep; [apply less_t|].
    { do 2 (split; [reflexivity|]). split; [left; reflexivity|]. split; [intros l [=]|]. split; [|split].
      - cbn [t_cols]. apply fw_keep; [split; [reflexivity|split; [reflexivity|split; [apply some_refl|split; [auto|apply some_refl]]]]|]. apply fw_drop.
        apply fw_keep; [|apply fw_keep; [split; [reflexivity|split; [reflexivity|split; [apply some_refl|split; [auto|apply some_refl]]]]|apply fw_nil]].
        split; [reflexivity|]. split; [reflexivity|]. split; [fits_|]. split; [|fits_]. intros k Hk Hh. cbn in Hk, Hh. unfold has in Hh. cbn in Hh.
        repeat (destruct Hk as [<-|Hk]; [repeat (destruct Hh as [Hh|Hh]; try discriminate); destruct Hh|]). destruct Hk.
      - fits_.
      - vm_compute. fits_. }
    apply fw_keep; [apply less_t|].
    { do 2 (split; [reflexivity|]). split; [left; reflexivity|]. split; [intros l [=]|]. split; [|split; vm_compute; fits_].
      apply fw_keep; [split; [reflexivity|split; [reflexivity|split; [apply some_refl|split; [auto|apply some_refl]]]]|]. apply fw_drop. apply fw_nil. }
    apply fw_drop. apply fw_keep; [apply less_e|].
    { do 2 (split; [reflexivity|]). apply fw_keep; [split; [reflexivity|intros l [=]]|]. apply fw_drop. apply fw_nil. }
    apply fw_drop. apply fw_keep; [apply less_g|].
    { split; [reflexivity|]. split; [intros l [=]|]. fits_. }
    apply fw_drop. apply fw_nil.
  - assert (Ea : tables_of (says all_t) = a_tables) by (vm_compute; reflexivity). assert (Eb : tables_of (says few_t) = b_tables) by (vm_compute; reflexivity). constructor; rewrite ?Ea, ?Eb; clear Ea Eb.
    + intros e t (k & Hk & Hend) Hl. vm_compute in Hk. destruct Hk as [<-|[]]. cbn [k_lhs k_rhs] in Hend. pose proof (proj1 Hl) as Hin. apply found_inv in Hl. vm_compute in Hin.
      destruct Hend as [-> | ->]; destruct Hin as [<-|[<-|[<-|[]]]]; destruct Hl as [(t0 & H0 & E0 & E1 & E2)|[E1 E2]];
        try (exfalso; vm_compute in E1; discriminate); try (exfalso; vm_compute in E2; discriminate);
        try (vm_compute in H0; destruct H0 as [H0|[H0|[H0|[]]]]; rewrite <- H0 in E0, E1, E2; vm_compute in E0, E1, E2; discriminate);
        try (vm_compute in H0; destruct H0 as [H0|[H0|[H0|[]]]]; rewrite <- H0 in E0, E1, E2; vm_compute in E0, E1, E2; try discriminate; []).
      * eexists. split; [vm_compute; right; left; reflexivity|]. split; [reflexivity|]. split; [discriminate|]. split; [intros w [<-|[]]; left; reflexivity|]. intros d [].
      * eexists. split; [vm_compute; left; reflexivity|]. split; [reflexivity|]. split; [reflexivity|]. split; [intros w [<-|[]]; left; reflexivity|]. intros d [].
    + intros t d Ht Hd. vm_compute in Ht. destruct Ht as [<-|[<-|[]]]; destruct Hd.
    + intros t c v raw so n Ht Hc Hv Hraw _ He. vm_compute in Ht. destruct Ht as [<-|[<-|[]]]; vm_compute in Hc; repeat (destruct Hc as [<-|Hc]; [|]); try destruct Hc; vm_compute in Hv; try (destruct Hv as [Hv|Hv]; [discriminate|destruct Hv]; fail); try (destruct Hv; fail).
      destruct Hv as [Hv|[]]. injection Hv as <-. injection Hraw as <-. inversion He as [E|x y E _ _]; subst; [|destruct x as [|? [|? ?]]; discriminate].
      eexists. split; [vm_compute; left; reflexivity|]. split; [reflexivity|]. left. reflexivity.
    + intros g n t Hg Hn Ht Hi. vm_compute in Hg. destruct Hg as [<-|[]]. vm_compute in Hn. destruct Hn as [Hn|[]]. injection Hn as <-. vm_compute in Ht, Hi.
      apply item_inv in Hi. destruct Hi as [(t0 & H0 & E0 & E1)|[Hn _]]; [|exfalso; apply Hn; vm_compute; auto].
      vm_compute in H0; destruct H0 as [H0|[H0|[H0|[]]]]; rewrite <- H0 in E0, E1; vm_compute in E0; try discriminate. clear H0 E0.
      destruct Ht as [<-|[<-|[<-|[]]]]; vm_compute in E1; try discriminate.
      eexists. split; [vm_compute; left; reflexivity|]. split; reflexivity.
Qed.
(** What something left depends on cannot go: the table, the value. *)
Example C43_used : is_accepted (s "Project p{} Table t{a int [pk]} Table u{b int [ref: > t.a]}") /\ ~ is_accepted (s "Project p{} Table u{b int [ref: > t.a]}") /\
  is_accepted (s "Project p{} Table t{a e [default: x]} Enum e{x y}") /\ ~ is_accepted (s "Project p{} Table t{a e [default: x]} Enum e{y}").
Proof. repeat split; try (apply accepts; vm_compute; discriminate); intros [x H]; vm_compute in H; discriminate. Qed.
