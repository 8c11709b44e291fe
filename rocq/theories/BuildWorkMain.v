(** * BuildWorkMain: building the AST of a text is linear, and [parse_dbml] as a whole polynomial. *)

From Verif Require Import PegFacts LexRules WorkOk CheckWorkSame CheckWorkMain BuildWork BuildWorkSame BuildWorkBound BuildWorkBound2 BuildWorkBound3.
Local Open Scope nat_scope.

(** ** The trees of the grammar *)
Section Trees.
  Variable sk : str -> pres.
  Lemma der_weights :
    (forall e a off t r ps, der sk e a off t r ps -> N.of_nat (weights ps) <= pairs_count ps + pairs_depth ps * len t)%N
    /\ (forall e a off t r ps, dtail sk e a off t r ps -> N.of_nat (weights ps) <= pairs_count ps + pairs_depth ps * len t)%N.
  Proof.
    assert (M : forall a b ta g tb, (N.of_nat (weights a) <= pairs_count a + pairs_depth a * len ta -> N.of_nat (weights b) <= pairs_count b + pairs_depth b * len tb ->
      N.of_nat (weights (a ++ b)) <= pairs_count (a ++ b) + pairs_depth (a ++ b) * (len ta + g + len tb))%N).
    { intros a b ta g tb Ha Hb. rewrite weights_app, pairs_count_app, pairs_depth_app. set (D := N.max _ _).
      pose proof (lin_le (pairs_depth a) D (len ta) (len ta) ltac:(lia) ltac:(lia)). pose proof (lin_le (pairs_depth b) D (len tb) (len tb) ltac:(lia) ltac:(lia)). lia. }
    apply der_dtail_ind; intros; try (cbn [weights pairs_count pairs_depth fold_right]; lia); try assumption.
    - rewrite !len_app. rewrite N.add_assoc. apply M; assumption.
    - rewrite len_app. replace (len t1 + len t2)%N with (len t1 + 0 + len t2)%N by lia. apply M; assumption.
    - destruct (emits t a); cbn [weights pairs_count pairs_depth fold_right weight pair_count pair_depth]; [|lia].
      fold (weights ps) (pairs_count ps) (pairs_depth ps). unfold len in *. lia.
    - rewrite !len_app. replace (len g + (len t1 + len t2))%N with (len t1 + len g + len t2)%N by lia. apply M; assumption.
  Qed.

  (** How many pairs with a rule in [f] an expression yields at most ([None]: no limit). *)
  Fixpoint tops (f : rule -> bool) (e : pexp) (a : atomicity) : option nat :=
    match e with
    | ESeq e1 e2 => match tops f e1 a, tops f e2 a with Some m, Some n => Some (m + n) | _, _ => None end
    | EAlt e1 e2 => match tops f e1 a, tops f e2 a with Some m, Some n => Some (Nat.max m n) | _, _ => None end
    | EOpt e1 => tops f e1 a
    | ERep e1 => match tops f e1 a with Some 0 => Some 0 | _ => None end
    | ERule r t b => if emits t a then Some (if f r then 1 else 0) else Some 0
    | _ => Some 0
    end.
  Fixpoint singles (e : pexp) (a : atomicity) : bool :=
    match e with
    | ESeq e1 e2 | EAlt e1 e2 => singles e1 a && singles e2 a
    | EOpt e1 | ERep e1 => singles e1 a
    | ERule r t b => singles b (body_atom t a) && match tops (single r) b (body_atom t a) with Some n => n <=? 1 | None => false end
    | _ => true
    end.
  Lemma count_app f a b : count f (a ++ b) = count f a + count f b.
  Proof. unfold count. now rewrite filter_app, app_length. Qed.
  Lemma der_tops f :
    (forall e a off t r ps, der sk e a off t r ps -> forall n, tops f e a = Some n -> count f ps <= n)
    /\ (forall e a off t r ps, dtail sk e a off t r ps -> tops f e a = Some 0 -> count f ps <= 0).
  Proof.
    apply der_dtail_ind; intros; cbn [tops] in *;
      repeat match goal with H : match ?x with _ => _ end = Some _ |- _ => destruct x eqn:?; try discriminate H end;
      repeat match goal with H : Some _ = Some _ |- _ => injection H as <- end;
      try (cbn [count filter List.length]; lia); rewrite ?count_app;
      repeat match goal with H : forall n, Some ?m = Some n -> _ |- _ => specialize (H _ eq_refl) end;
      repeat match goal with H : Some 0 = Some 0 -> _ |- _ => specialize (H eq_refl) end; try lia.
    - auto.
    - unfold count. cbn [filter p_rule]. destruct (f r); cbn; lia.
    - match goal with Z : tops f e1 a = Some 0 |- _ => specialize (H _ Z); specialize (H0 Z) end. lia.
  Qed.
  Lemma der_once :
    (forall e a off t r ps, der sk e a off t r ps -> singles e a = true -> forallb once ps = true)
    /\ (forall e a off t r ps, dtail sk e a off t r ps -> singles e a = true -> forallb once ps = true).
  Proof.
    apply der_dtail_ind; intros; cbn [singles] in *; repeat match goal with H : _ && _ = true |- _ => apply andb_true_iff in H as [? ?] end;
      try reflexivity; rewrite ?forallb_app; repeat match goal with H : ?x = true -> _, H' : ?x = true |- _ => specialize (H H') end;
      try (apply andb_true_iff; split; assumption); try assumption.
    destruct (emits t a); [|reflexivity]. cbn [forallb once]. rewrite H, !andb_true_r.
    match goal with Z : match ?x with _ => _ end = true |- _ => destruct x as [n|] eqn:E; [|discriminate Z] end.
    apply Nat.leb_le. pose proof (proj1 (der_tops _) _ _ _ _ _ _ d n E). apply Nat.leb_le in H1. lia.
  Qed.
End Trees.

Theorem build_cost inp : (N.of_nat (build_work inp) <= 8000 * (N.of_nat (List.length inp) + 1))%N.
Proof.
  unfold build_work. destruct (run schema NonAtomic 0 inp) as [t r ps| |] eqn:E; try lia. pose proof (run_pairs _ _ _ _ E) as [HC HD].
  apply (eval_der _ skip_app) in E as [E H]. pose proof (proj1 (der_weights skip) _ _ _ _ _ _ H) as HW.
  pose proof (proj1 (der_once skip) _ _ _ _ _ _ H ltac:(vm_compute; reflexivity)) as HO. apply (build_v inp) in HO.
  assert (HT : (pairs_depth ps * len t <= 12 * len inp)%N). { rewrite E, len_app. apply lin_le; lia. }
  unfold len in *. lia.
Qed.
Lemma parse_cost_N inp : (snd (parse_dbml_c inp) <= 24000000 * (N.of_nat (List.length inp) + 1) ^ 5 + 8000 * (N.of_nat (List.length inp) + 1) + 200 * (N.of_nat (List.length inp) + 1) ^ 3)%N.
Proof.
  unfold parse_dbml_c. pose proof (schema_work inp) as HP. unfold parse_work, len in HP. pose proof (run_w_same schema inp) as HS. pose proof (build_cost inp) as HB. unfold build_work in HB.
  assert (HU : parse_dbml_unchecked inp = match run schema NonAtomic 0 inp with RLoop => None | RFail => Some (Err ErGrammar) | ROk _ _ ps => Some (fst (build_c inp ps)) end).
  { unfold parse_dbml_unchecked. destruct (run schema NonAtomic 0 inp) as [t r ps| |]; try reflexivity. rewrite build_same. destruct ps; reflexivity. }
  rewrite <- HS in *. destruct (run_w schema inp) as [r n]. cbn [fst snd] in *. destruct r as [t x ps| |]; cbn [snd]; try lia.
  rewrite snd_bind. destruct (fst (build_c inp ps)) as [ast|e|]; try lia. rewrite snd_omap. apply text_check_cost in HU. unfold check_work in HU.
  assert (HU' : (N.of_nat (snd (analyze_c ast)) <= N.of_nat (200 * (List.length inp + 1) ^ 3))%N) by (clear - HU; lia).
  rewrite Nat2N.inj_mul, Nat2N.inj_pow, Nat2N.inj_add in HU'. cbn [N.of_nat Pos.of_succ_nat Pos.succ] in HU'. change (N.of_nat 200) with 200%N in HU'. rewrite Nat2N.inj_add. clear HU. lia.
Qed.
Theorem parse_cost inp : (snd (parse_dbml_c inp) <= 25000000 * (N.of_nat (List.length inp) + 1) ^ 5)%N.
Proof.
  pose proof (parse_cost_N inp) as H. set (m := (N.of_nat (List.length inp) + 1)%N) in *. assert (Hm : (1 <= m)%N) by (subst m; lia).
  pose proof (N.pow_le_mono_r m 1 5 ltac:(lia) ltac:(lia)). pose proof (N.pow_le_mono_r m 3 5 ltac:(lia) ltac:(lia)). rewrite N.pow_1_r in *. clearbody m. 
  generalize dependent (m ^ 5)%N. generalize dependent (m ^ 3)%N. intros. lia.
Qed.
