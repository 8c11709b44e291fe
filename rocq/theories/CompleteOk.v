(** * CompleteOk: [parse_dbml] answers as [Complete] says. *)

From Verif Require Import FaultsMain LocMain SynMain ReportOk4 ParseFacts2 CheckFacts2 ParseFacts.
From Verif Require Import Samples Api Parser Complete Syntax.

Lemma reads_exact t r : parse_dbml_unchecked t = Some r <-> reads t r.
Proof.
  split.
  - intros H. destruct r as [x|e|].
    + apply reads_ast, located_exact, H.
    + destruct e as [|rs sp|m sp|e sp].
      * apply reads_not, not_dbml, H.
      * exfalso. destruct (p_error _ _ H) as [E|(m & sp' & E & _)]; discriminate.
      * apply first_fault in H as (l & H). eapply reads_misfit, H.
      * exfalso. destruct (p_error _ _ H) as [E|(m & sp' & E & _)]; discriminate.
    + exfalso. destruct (unchecked_total t) as (o & H1 & H2). congruence.
  - intros [H|m sp l H|x H].
    + apply not_dbml, H.
    + apply first_fault. exists l. exact H.
    + apply located_exact, H.
Qed.
Lemma reads_one t r r' : reads t r -> reads t r' -> r = r'.
Proof. intros H K. apply reads_exact in H, K. congruence. Qed.
Lemma answers_exact t r : parse_dbml t = Some r <-> answers t r.
Proof.
  split.
  - intros H. destruct (unchecked_total t) as (o & Ho & Hn). destruct o as [x|e|]; [|clear Hn|congruence].
    + destruct (reported_first _ _ Ho) as (R1 & R2 & R3). apply located_exact in Ho as L.
      destruct r as [y|e|].
      * assert (y = x) as ->. { apply located_checked in H. exact (located_unique _ _ _ H L). }
        apply fine; [exact L|]. apply R3, H.
      * destruct (checked_sem_err t x e Ho H) as (e' & sp & ->). eapply broken; [exact L|]. apply R1, H.
      * eapply crashing; [exact L|]. apply R2, H.
    + assert (r = Err e) as -> by (unfold parse_dbml in H; rewrite Ho in H; injection H as <-; reflexivity).
      apply reads_exact in Ho. inversion Ho; subst; [apply ungrammatical; assumption|eapply misfit; eassumption].
  - intros [H|m sp l H|x e sp H R|x H R|x H R].
    + apply not_dbml in H. unfold parse_dbml. rewrite H. reflexivity.
    + apply first_fault_checked. exists l. exact H.
    + apply located_exact in H. apply (reported_first _ _ H), R.
    + apply located_exact in H. apply (reported_first _ _ H), R.
    + apply located_exact in H. apply (reported_first _ _ H), R.
Qed.
Lemma answers_one t r r' : answers t r -> answers t r' -> r = r'.
Proof. intros H K. apply answers_exact in H, K. congruence. Qed.
Lemma answers_some t : exists r, answers t r.
Proof. destruct (checked_total t) as (o & H). exists o. apply answers_exact, H. Qed.
Lemma reads_some t : exists r, reads t r.
Proof. destruct (unchecked_total t) as (o & H & _). exists o. apply reads_exact, H. Qed.
