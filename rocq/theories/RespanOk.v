(** * RespanOk: the answer to a text with layout before it. *)

From Verif Require Import FaultsMain LocMain SynMain ParseFacts2 CheckFacts2 ParseFacts CompleteOk SynEval LocUniq SpansOk.
From Verif Require Import Samples Api Parser Complete Syntax.
From Verif Require Import RespanAn RespanFaults.
From Verif Require Export Respan.

Lemma drop_after g t n : drop_bytes (g ++ t) (n + blen g) = drop_bytes t n.
Proof.
  induction g as [|c g IH]; [cbn [app blen]; rewrite N.add_0_r; reflexivity|].
  assert (0 < ulen c) by (unfold ulen; repeat destruct (_ <? _); lia).
  cbn [app blen drop_bytes]. destruct (N.eqb_spec (n + (ulen c + blen g)) 0); [lia|]. destruct (N.ltb_spec (n + (ulen c + blen g)) (ulen c)); [lia|].
  replace (n + (ulen c + blen g) - ulen c) with (n + blen g) by lia. exact IH.
Qed.
Lemma drop_0 t : drop_bytes t 0 = Some t.
Proof. destruct t; reflexivity. Qed.
Lemma take_0 t : take_bytes t 0 = Some [].
Proof. destruct t; reflexivity. Qed.
Lemma ok_after g t sp : span_ok (g ++ t) (further (blen g) sp) = span_ok t sp.
Proof.
  destruct sp as [a b]. unfold span_ok, further, slice. cbn [fst snd]. destruct (N.eqb_spec b 0) as [->|Hb]; cbn [fst snd].
  - destruct a; [|reflexivity]. cbn [N.leb N.compare N.sub]. rewrite !drop_0, !take_0. reflexivity.
  - rewrite drop_after. replace (a + blen g <=? b + blen g) with (a <=? b).
    + replace (b + blen g - (a + blen g)) with (b - a) by lia. reflexivity.
    + destruct (N.leb_spec a b), (N.leb_spec (a + blen g) (b + blen g)); try reflexivity; lia.
Qed.
Lemma take_all t : take_bytes t (blen t) = Some t.
Proof.
  induction t as [|c t IH]; [reflexivity|]. assert (0 < ulen c) by (unfold ulen; repeat destruct (_ <? _); lia). cbn [blen take_bytes].
  destruct (N.eqb_spec (ulen c + blen t) 0); [lia|]. destruct (N.ltb_spec (ulen c + blen t) (ulen c)); [lia|].
  replace (ulen c + blen t - ulen c) with (blen t) by lia. rewrite IH. reflexivity.
Qed.
Lemma whole_ok t : span_ok t (0, blen t) = true.
Proof. unfold span_ok, slice. cbn [fst snd]. destruct (N.leb_spec 0 (blen t)); [|lia]. rewrite drop_0, N.sub_0_r, take_all. reflexivity. Qed.

Lemma not_after g t : gap g -> (forall a, ~ dbml_text t a) -> forall a, ~ dbml_text (g ++ t) a.
Proof.
  intros Hg H a (m & Hl & Hm). apply (H a). exists m. split; [|exact Hm]. pose proof (lay_of t) as Ht.
  rewrite (lay_fun _ _ _ Hl (gap_lay _ _ _ Hg Ht)). exact Ht.
Qed.
Lemma unchecked_after g t : gap g -> parse_dbml_unchecked (g ++ t) = option_map (after g t) (parse_dbml_unchecked t).
Proof.
  intros Hg. destruct (reads_some t) as (r & Hr). pose proof Hr as E. apply reads_exact in E. rewrite E. apply reads_exact.
  destruct Hr as [H|m sp l H|x H]; cbn [after error_after].
  - apply reads_not, not_after; assumption.
  - eapply reads_misfit, (faults_after g t _ Hg H).
  - apply reads_ast, located_after; assumption.
Qed.

Lemma analyze_split x : analyze x = let? _ := check_projects x in an_rest (sb_input x) (projects x) x.
Proof. reflexivity. Qed.
Lemma rest_project t x e sp : parse_dbml_unchecked t = Some (Ok x) -> analyze x = Err (ErSem e sp) ->
  e = DuplicateProjectSetting \/ e = ProjectSettingNotFound -> (2 <= List.length (projects x))%nat \/ projects x = [].
Proof.
  intros H HA He. assert (HP : parse_dbml t = Some (Err (ErSem e sp))) by (unfold parse_dbml; rewrite H; cbn [bind]; rewrite HA; reflexivity).
  destruct (sem_truth _ _ _ HP) as (x' & Hx & HV & _). rewrite H in Hx. injection Hx as <-.
  destruct He as [-> | ->]; inversion HV; subst; [left|right; assumption]. match goal with H : projects x = _ |- _ => rewrite H end. cbn. lia.
Qed.
Lemma bd_omap {A B} (h : B -> B) f (x x' : outcome A) (F F' : A -> outcome B) : x' = moved f x -> (forall a, F' a = omap h (moved f (F a))) -> bind x' F' = omap h (moved f (bind x F)).
Proof. intros -> H. destruct x as [a|[]|]; cbn; auto. Qed.
Lemma one_project g t x p : sb_input x = t -> projects x = [p] ->
  analyze (schema_after g x) = omap (at_analyzed (further (blen g))) (moved (further (blen g)) (analyze x)).
Proof.
  intros E1 Ep. set (x' := schema_after g x). assert (E1' : sb_input x' = g ++ t) by (unfold x', schema_after; cbn; rewrite E1; reflexivity).
  assert (Eb : sb_blocks x' = map (at_block (further (blen g))) (sb_blocks x)) by reflexivity.
  pose proof (projects_at _ _ _ Eb) as Ep'. rewrite (analyze_split x'), (analyze_split x), E1, E1'. apply bd_omap.
  - unfold check_projects. rewrite Ep', Ep, E1, E1'. cbn [map List.length Nat.ltb Nat.leb bind]. apply an_props. apply ok_after.
  - intros _. apply an_all; [reflexivity|apply ok_after|exact Eb].
Qed.
Lemma checked_after g t : gap g -> parse_dbml (g ++ t) = option_map (after g t) (parse_dbml t).
Proof.
  intros Hg. unfold parse_dbml. rewrite (unchecked_after g t Hg). destruct (reads_some t) as (r & Hr). pose proof Hr as E. apply reads_exact in E. rewrite E. cbn [option_map].
  f_equal. destruct Hr as [H|m sp l H|x H]; cbn [after error_after bind]; [reflexivity|reflexivity|].
  assert (E1 : sb_input x = t) by apply H. assert (E2 : sb_span x = (0, blen t)) by apply H.
  assert (E1' : sb_input (schema_after g x) = g ++ t) by (unfold schema_after; cbn; rewrite E1; reflexivity).
  assert (E2' : sb_span (schema_after g x) = (0, blen (g ++ t))) by (unfold schema_after; cbn; rewrite E1; reflexivity).
  pose proof (projects_at _ x (schema_after g x) eq_refl) as Ep.
  destruct (projects x) as [|p [|q l]] eqn:Epx.
  - rewrite !analyze_split. unfold check_projects. rewrite Ep, Epx, E1', E2', E1, E2. cbn [map List.length Nat.ltb Nat.leb bind]. unfold throw_err. rewrite !whole_ok. reflexivity.
  - rewrite (one_project g t x p E1 Epx). destruct (analyze x) as [a|e|] eqn:EA; [reflexivity| |reflexivity].
    destruct (checked_sem_err t x e E) as (k & sp & ->); [unfold parse_dbml; rewrite E; cbn [bind]; rewrite EA; reflexivity|].
    assert (Hk : k <> DuplicateProjectSetting /\ k <> ProjectSettingNotFound).
    { split; intros ->; (edestruct (rest_project t x _ sp E EA) as [Hc|Hc]; [auto| |]; rewrite Epx in Hc; [cbn in Hc; lia|discriminate]). }
    cbn [moved omap after error_after]. destruct k; try reflexivity; destruct Hk; congruence.
  - rewrite !analyze_split. unfold check_projects. rewrite Ep, Epx, E1', E2', E1, E2. cbn [map List.length Nat.ltb Nat.leb bind]. unfold throw_err. rewrite !whole_ok. reflexivity.
Qed.
