(** * SynMain: parsing is reading. *)

From Verif Require Export SynBuild2.
From Verif Require Import Api ParseFacts.
From Verif Require Import Syntax.

Theorem unchecked_reads inp a : dbml_text inp a ->
  (fits a /\ exists x, parse_dbml_unchecked inp = Some (Ok x) /\ meaning x = settle a) \/
  (~ fits a /\ exists m sp, parse_dbml_unchecked inp = Some (Err (ErMsg m sp))).
Proof.
  intros H. destruct (schema_reads _ _ H) as (t & p & Hr & Hd). unfold parse_dbml_unchecked. rewrite Hr, (proj1 Hd).
  destruct (build_schema p inp a Hd) as [[Hf (x & -> & Hx)]|[Hf (m & sp & ->)]]; [left|right]; eauto.
Qed.
Theorem unchecked_read inp o : parse_dbml_unchecked inp = Some o -> o <> Err ErGrammar -> exists a, dbml_text inp a.
Proof.
  unfold parse_dbml_unchecked. intros H Hne. destruct (run schema NonAtomic 0 inp) as [t r ps| |] eqn:E0; [|congruence|discriminate].
  apply schema_read in E0 as (p & a & _ & _ & Ha). exists a. exact Ha.
Qed.

Theorem accepts_iff inp x : parse_dbml_unchecked inp = Some (Ok x) ->
  exists a, dbml_text inp a /\ fits a /\ meaning x = settle a.
Proof.
  intros H. destruct (unchecked_read _ _ H) as (a & Ha); [discriminate|]. exists a. split; [exact Ha|].
  destruct (unchecked_reads _ _ Ha) as [[Hf (y & Hy & Hm)]|[Hf (m & sp & Hy)]]; rewrite H in Hy; [injection Hy as <-; auto|discriminate].
Qed.
Theorem written_is_read inp a : dbml_text inp a -> fits a ->
  exists x, parse_dbml_unchecked inp = Some (Ok x) /\ meaning x = settle a.
Proof. intros H Hf. destruct (unchecked_reads _ _ H) as [[_ Hx]|[Hn _]]; [exact Hx|tauto]. Qed.
Theorem not_dbml inp : parse_dbml_unchecked inp = Some (Err ErGrammar) <-> forall a, ~ dbml_text inp a.
Proof.
  split.
  - intros H a Ha. destruct (unchecked_reads _ _ Ha) as [[_ (x & Hx & _)]|[_ (m & sp & Hx)]]; rewrite H in Hx; discriminate.
  - intros H. destruct (unchecked_total inp) as (o & Ho & _). rewrite Ho. f_equal.
    destruct o as [x|[]|]; try reflexivity; exfalso; destruct (unchecked_read _ _ Ho) as (a & Ha); try discriminate; exact (H a Ha).
Qed.
Theorem too_big inp m sp : parse_dbml_unchecked inp = Some (Err (ErMsg m sp)) -> exists a, dbml_text inp a /\ ~ fits a.
Proof.
  intros H. destruct (unchecked_read _ _ H) as (a & Ha); [discriminate|]. exists a. split; [exact Ha|].
  destruct (unchecked_reads _ _ Ha) as [[Hf (y & Hy & _)]|[Hf _]]; [rewrite H in Hy; discriminate|exact Hf].
Qed.
Theorem too_big_only inp a : dbml_text inp a -> ~ fits a -> exists m sp, parse_dbml_unchecked inp = Some (Err (ErMsg m sp)).
Proof. intros H Hf. destruct (unchecked_reads _ _ H) as [[Hn _]|[_ Hx]]; [tauto|exact Hx]. Qed.
Theorem one_meaning inp a b : dbml_text inp a -> dbml_text inp b -> fits a -> fits b /\ settle a = settle b.
Proof.
  intros Ha Hb Hf. destruct (written_is_read _ _ Ha Hf) as (x & Hx & Hm).
  destruct (unchecked_reads _ _ Hb) as [[Hfb (y & Hy & Hmb)]|[Hn (m & sp & Hy)]]; rewrite Hx in Hy; [|discriminate].
  injection Hy as <-. split; [exact Hfb|congruence].
Qed.
Theorem same_meaning t1 t2 a x : dbml_text t1 a -> dbml_text t2 a -> parse_dbml_unchecked t1 = Some (Ok x) ->
  exists y, parse_dbml_unchecked t2 = Some (Ok y) /\ meaning y = meaning x.
Proof.
  intros H1 H2 Hx. destruct (unchecked_reads _ _ H1) as [[Hf (x' & Hx' & Hm)]|[_ (m & sp & Hy)]]; [|congruence].
  rewrite Hx in Hx'. injection Hx' as <-. destruct (written_is_read _ _ H2 Hf) as (y & Hy & Hmy). exists y. split; [exact Hy|congruence].
Qed.
