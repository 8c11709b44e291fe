(** * RespanJoinOk: the answer to two texts joined. *)

From Verif Require Import FaultsMain LocMain SynMain CompleteOk SynEval LocUniq SynGram2 RespanFaults RespanGrowF RespanJoin SynGrow SynPrint.
From Verif Require Import Api Parser Complete Syntax.
From Verif Require Export Respan.

Lemma blocks_rest i r a b : many block_r i [] a -> many block_r i r b -> top_follow r -> exists c, many block_r r [] c.
Proof.
  intros Ha Hb Hr. revert a Ha. induction Hb as [i|i m r x b Hx Hb IH]; intros a Ha; [eauto|].
  inversion Ha as [|? m' ? y a' Hy Ha']; subst.
  - exfalso. apply block_first in Hx as (c & u & E & _). discriminate.
  - assert (G1 : top_follow m) by (inversion Hb; subst; [assumption|right; eapply block_first; eassumption]).
    assert (G2 : top_follow m') by (inversion Ha'; subst; [left; reflexivity|right; eapply block_first; eassumption]).
    destruct (F_fun _ _ _ _ _ _ (F_block _ _ _ Hx G1) (F_block _ _ _ Hy G2)) as [<- _]. eauto.
Qed.
Lemma join_text t1 t2 a b r : safe t2 t1 -> dbml_text t1 a -> dbml_text (t1 ++ 10 :: t2) b -> lay t2 r -> top_follow r -> exists c, dbml_text t2 c.
Proof.
  intros Hs (m1 & L1 & M1) (m2 & L2 & M2) Hl Hr. pose proof L1 as (g & E & _). pose proof Hs as Hs2. rewrite E in Hs2. apply safe_suffix in Hs2.
  rewrite (lay_fun _ _ _ L2 (lay_grow t2 _ _ Hs L1)) in M2. apply (proj2 (many_grow t2 block_r (block_grow t2)) _ _ _ Hs2) in M1. cbn [ext] in M1.
  apply lay_fin in Hl as E2. rewrite E2 in M1. destruct (blocks_rest _ _ _ _ M2 M1 Hr) as (c & Hc). exists c, r. auto.
Qed.
Lemma unchecked_join t1 t2 r r1 r2 : safe t2 t1 -> lay t2 r ->
  parse_dbml_unchecked t1 = Some r1 -> r1 <> Err ErGrammar -> parse_dbml_unchecked t2 = Some r2 -> r2 <> Err ErGrammar ->
  parse_dbml_unchecked (t1 ++ 10 :: t2) = Some (join (blen t1 + 1 + (blen t2 - blen r)) t1 t2 r1 r2).
Proof.
  intros Hs Hl H1 G1 H2 G2. apply lay_fin in Hl as <-. apply reads_exact in H1 as R1, H2 as R2. apply reads_exact.
  destruct (faults_of_parse _ _ H1 G1) as (l1 & F1 & _). destruct (faults_of_parse _ _ H2 G2) as (l2 & F2 & _).
  pose proof (faults_join _ _ _ _ Hs F1 F2) as F.
  destruct R1 as [R1|m sp l R1|x R1]; [congruence| |]; destruct R2 as [R2|m2 sp2 l' R2|y R2]; try congruence; cbn [join error_after].
  - rewrite (faults_unique _ _ _ F1 R1) in F. eapply reads_misfit. exact F.
  - rewrite (faults_unique _ _ _ F1 R1) in F. eapply reads_misfit. exact F.
  - assert (N1 : faults t1 []) by (apply FaultsMain.no_fault; eauto). rewrite (faults_unique _ _ _ F1 N1), (faults_unique _ _ _ F2 R2) in F. eapply reads_misfit. exact F.
  - apply reads_ast, located_join; assumption.
Qed.
Lemma unchecked_join_not t1 t2 r : safe t2 t1 -> lay t2 r -> hd_in letter r ->
  parse_dbml_unchecked t1 <> Some (Err ErGrammar) -> parse_dbml_unchecked t2 = Some (Err ErGrammar) ->
  parse_dbml_unchecked (t1 ++ 10 :: t2) = Some (Err ErGrammar).
Proof.
  intros Hs Hl Hr G1 H2. apply not_dbml. intros b Hb. destruct (proj1 (not_dbml t2) H2) with (a := @nil a_block). exfalso.
  assert (Ha : exists a, dbml_text t1 a). { destruct (reads_some t1) as (r1 & R1). apply reads_exact in R1 as E1. assert (G : r1 <> Err ErGrammar) by congruence.
    destruct (faults_of_parse _ _ E1 G) as (l1 & F1 & _). apply faults_defined. eauto. }
  destruct Ha as (a & Ha). destruct (join_text _ _ _ _ _ Hs Ha Hb Hl (or_intror Hr)) as (c & Hc). exact (proj1 (not_dbml t2) H2 c Hc).
Qed.
