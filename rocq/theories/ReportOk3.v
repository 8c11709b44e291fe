(** * ReportOk3: types and references report their first fault. *)

From Verif Require Import Report RulesOk RulesOk2 RulesOk3 ReportOk ReportOk2.
From Verif Require Import Err Analyzer.

Lemma ck_last {A} inp (P : Prop) (Q : A -> Prop) (b : bool) e sp a :
  (b = true <-> P) -> (~ P -> Q a) -> checks inp (fault_if P e sp) Q (if b then throw_err e sp inp else Ok a).
Proof.
  intros H H'. destruct b.
  - apply ck_throw. apply if_only. apply H. reflexivity.
  - assert (Hn : ~ P) by (intros HP; apply H in HP; discriminate). split; [auto|apply if_clean; exact Hn].
Qed.
Lemma ck_end {A B} inp F (Q : A -> Prop) (Q' : B -> Prop) o k :
  checks inp F Q o -> (forall a, o = Ok a -> Q a -> checks inp no_fault Q' (k a)) -> checks inp F Q' (bind o k).
Proof.
  intros H H'. eapply ck_same; [|eapply ck_bind with (G := no_fault); [exact H|exact H']].
  intros f. split; [intros [Hg|[_ []]]; exact Hg|]. intros Hg. left. exact Hg.
Qed.
Lemma ck_ok {A} inp (a : A) : checks inp no_fault (fun _ => True) (Ok a).
Proof. apply ck_pure; [apply no_clean|exact Logic.I]. Qed.
Lemma no_r F : same_rule (F ;; no_fault) F.
Proof. intros f. split; [intros [Hg|[_ []]]; exact Hg|]. intros Hg. left. exact Hg. Qed.

(** ** Types *)
Lemma forallb_false {A} (f : A -> bool) l : forallb f l = false -> exists a, In a l /\ f a = false.
Proof.
  induction l as [|a l IH]; cbn [forallb]; [discriminate|]. intros H. apply andb_false_iff in H as [H|H]; [exists a; cbn; auto|].
  apply IH in H as (b & H1 & H2). exists b. cbn. auto.
Qed.
Lemma ck_args inp tn raw ct : checks inp
  (fault_if (ct_args ct <> [] /\ List.length (ct_args ct) <> arity tn) (InvalidDataTypeArguments raw (N.of_nat (arity tn))) (ct_span ct) ;;
   fault_if (exists v, In v (ct_args ct) /\ ~ int_value v) InvalidArgumentValue (ct_span ct))
  (fun _ => args_fit tn (ct_args ct)) (check_type_args tn raw ct inp).
Proof.
  unfold check_type_args. cbv zeta. destruct (is_nil (ct_args ct)) eqn:En.
  { apply is_nil_true in En. rewrite En. apply ck_pure; [|left; reflexivity]. intros f [[[H _] _]|[_ [(v & [] & _) _]]]. apply H. reflexivity. }
  assert (Hne : ct_args ct <> []) by (apply is_nil_false; rewrite En; reflexivity).
  assert (H1 : forall n, checks inp (fault_if (ct_args ct <> [] /\ List.length (ct_args ct) <> n) (InvalidDataTypeArguments raw (N.of_nat n)) (ct_span ct))
     (fun _ => List.length (ct_args ct) = n)
     (if negb (Nat.eqb (List.length (ct_args ct)) n) then throw_err (InvalidDataTypeArguments raw (N.of_nat n)) (ct_span ct) inp else Ok tt)).
  { intros n. apply ck_last.
    - rewrite negb_true_iff, Nat.eqb_neq. tauto.
    - intros H. destruct (Nat.eq_dec (List.length (ct_args ct)) n) as [E|E]; [exact E|]. exfalso. auto. }
  eapply ck_bind with (Q := fun _ => List.length (ct_args ct) = arity tn).
  - assert (H0 : checks (A := unit) inp (fault_if (ct_args ct <> [] /\ List.length (ct_args ct) <> 0%nat) (InvalidDataTypeArguments raw 0) (ct_span ct))
       (fun _ => List.length (ct_args ct) = 0%nat) (throw_err (InvalidDataTypeArguments raw 0) (ct_span ct) inp)).
    { apply ck_throw, if_only. split; [exact Hne|]. destruct (ct_args ct); [congruence|discriminate]. }
    destruct tn; try exact H0; try exact (H1 1%nat). exact (H1 2%nat).
  - intros u _ Hl. apply ck_last.
    + rewrite negb_true_iff. split.
      * intros H. apply forallb_false in H as (v & Hv & Hf). exists v. split; [exact Hv|]. intros Hz. apply is_integer_true in Hz. congruence.
      * intros (v & Hv & Hn). apply not_true_iff_false. rewrite forallb_forall. intros H. apply Hn, is_integer_true, H, Hv.
    + intros H. right. split; [exact Hl|]. apply Forall_forall. intros v Hv. destruct (is_integer v) eqn:Ei; [apply is_integer_true; exact Ei|].
      exfalso. apply H. exists v. split; [exact Hv|]. intros Hz. apply is_integer_true in Hz. congruence.
Qed.

Lemma default_at_fun st sp sp' : default_at st sp -> default_at st sp' -> sp = sp'.
Proof. intros H1 H2. apply default_span_at in H1, H2. congruence. Qed.
Lemma with_default_none c R : (forall st v, ~ has_default c st v) -> clean (with_default c R).
Proof. intros H. apply such_clean. intros [[st v] sp] [Hd _]. exfalso. exact (H st v Hd). Qed.
Lemma ck_with_default {A} inp c R (Q : A -> Prop) o st v sp : has_default c st v -> default_at st sp ->
  checks inp (R st v sp) Q o -> checks inp (with_default c R) Q o.
Proof.
  intros Hd Ha H. unfold with_default. apply ck_such with (a := (st, v, sp)); cbn [fst snd]; [auto| |exact H].
  intros [[st' v'] sp']. cbn [fst snd]. intros [[H1 H2] H3]. destruct Hd as [H4 H5]. assert (st' = st) by congruence. subst st'.
  assert (v' = v) by congruence. subst v'. rewrite (default_at_fun _ _ _ H3 Ha). reflexivity.
Qed.
Lemma no_default c : (exists st v, has_default c st v) \/ forall st v, ~ has_default c st v.
Proof.
  unfold has_default. destruct (tc_settings c) as [st|]; [|right; intros st v [H _]; discriminate].
  destruct (cs_default st) as [v|] eqn:E; [left; eauto|]. right. intros st' v [H H']. congruence.
Qed.

Section Types.
  Variables (x : schema_t) (ix : indexer).
  Let inp := sb_input x.
  Hypothesis D : describes (tables x) (enums x) ix.
  Hypothesis Hne : NoDup (map enum_name (enums x)).
  Variable c : table_col_t.
  Hypothesis Hsp : forall st v, has_default c st v -> exists sp, default_at st sp.
  Let ct := tc_type c.

  Lemma ck_enum_lookup (so : option str) (n : str) st v sp : has_default c st v -> default_at st sp ->
    checks inp
      (fault_if (schema_missing x (default_schema so)) SchemaNotFound (ct_span ct) ;;
       fault_if (~ In (default_schema so, n) (map enum_name (enums x))) EnumNotFound (ct_span ct) ;;
       fault_if (~ enum_value (enums x) so n (value_to_string v)) EnumValueNotFound sp)
      (fun _ => True)
      match lookup_enum_values ix so n [value_to_string v] with
      | (false, _) => throw_err SchemaNotFound (ct_span ct) inp
      | (true, (false, _)) => throw_err EnumNotFound (ct_span ct) inp
      | (true, (true, f)) => if existsb negb f then throw_err EnumValueNotFound sp inp else Ok (CT_Enum n)
      end.
  Proof.
    intros Hd Ha. unfold lookup_enum_values. change (match so with Some x0 => x0 | None => DEFAULT_SCHEMA end) with (default_schema so).
    set (a := default_schema so). destruct (map_get (schema_map ix) a) as [b|] eqn:Em.
    2:{ apply ck_throw, followed_only, if_only. apply (d_sch _ _ _ D). exact Em. }
    apply ck_none.
    { apply if_clean. intros H. apply (d_sch _ _ _ D) in H. congruence. }
    destruct (map_get (enum_map b) n) as [set|] eqn:Ee.
    2:{ apply ck_throw, followed_only, if_only. intros Hin. apply in_map_iff in Hin as (e & He1 & He2).
        apply (d_enm2 _ _ _ D) in He2. rewrite He1 in He2. unfold enm in He2. cbn [fst snd] in He2. rewrite Em in He2. congruence. }
    assert (Hen : enm ix (a, n) = Some set) by (unfold enm; cbn [fst snd]; rewrite Em; exact Ee).
    apply (d_enm1 _ _ _ D) in Hen as (e & Hin & Hname & Hset). apply ck_none.
    { apply if_clean. intros H. apply H. apply in_map_iff. eauto. }
    cbn [map existsb]. rewrite orb_false_r. apply ck_last; [|auto]. rewrite negb_true_iff, mem_str_false. 
    assert (Hv : enum_value (enums x) so n (value_to_string v) <-> In (value_to_string v) set).
    { split.
      - intros (e' & Hin' & Hname' & Hv). apply Hset. replace e with e'; [exact Hv|].
        eapply NoDup_map_inj; [exact Hne|exact Hin'|exact Hin|]. fold (default_schema so) in Hname'. fold a in Hname'. congruence.
      - intros Hv. apply Hset in Hv. exists e. split; [exact Hin|]. split; [exact Hname|exact Hv]. }
    rewrite Hv. reflexivity.
  Qed.

  Definition enum_rule (raw : str) : frule :=
    fault_if (not_builtin raw /\ forall so n, ~ enum_type raw so n) InvalidEnum (ct_span ct) ;;
    such (fun p => not_builtin raw /\ enum_type raw (fst p) (snd p)) (fun p => with_default c (fun st v sp =>
      fault_if (schema_missing x (default_schema (fst p))) SchemaNotFound (ct_span ct) ;;
      fault_if (~ In (default_schema (fst p), snd p) (map enum_name (enums x))) EnumNotFound (ct_span ct) ;;
      fault_if (~ enum_value (enums x) (fst p) (snd p) (value_to_string v)) EnumValueNotFound sp)).
  Lemma ck_enum_type raw : not_builtin raw ->
    checks inp (enum_rule raw) (fun tn => exists so n, enum_type raw so n /\ tn = CT_Enum n) (check_enum_type ix c raw inp).
  Proof.
    intros Hn. unfold check_enum_type, enum_rule. fold ct. cbv zeta.
    destruct (split_on_spec raw) as [(so & n & He & Es)|(He & Es)].
    2:{ eapply ck_bind with (Q := fun _ => False); [|intros ? ? []].
        assert (Hthrow : forall A (Q : A -> Prop), checks inp (fault_if (not_builtin raw /\ forall so n, ~ enum_type raw so n) InvalidEnum (ct_span ct)) Q
           (throw_err InvalidEnum (ct_span ct) inp)).
        { intros A Q. apply ck_throw, if_only. auto. }
        destruct (split_on 46 raw) as [|a [|b [|]]]; [apply Hthrow|exfalso; apply (proj1 (Es a a)); reflexivity|exfalso; apply (proj2 (Es a b)); reflexivity|apply Hthrow]. }
    rewrite Es. clear Es.
    assert (Eq : match (match so with None => [n] | Some a => [a; n] end) with
       | [_] => Ok (None, raw) | [a; b] => Ok (Some a, b) | _ => throw_err InvalidEnum (ct_span ct) inp end = Ok (so, n)).
    { destruct so; [reflexivity|]. inversion He; subst. reflexivity. }
    rewrite Eq. cbn [bind]. clear Eq. apply ck_none.
    { apply if_clean. intros [_ H]. exact (H _ _ He). }
    apply ck_such with (a := (so, n)); cbn [fst snd]; [auto| |].
    { intros [so' n'] [_ H]. cbn [fst snd] in H. destruct (enum_type_fun _ _ _ _ _ He H) as [<- <-]. reflexivity. }
    destruct (tc_settings c) as [st|] eqn:Est.
    2:{ apply ck_pure; [|eauto]. apply with_default_none. intros st v [H _]. congruence. }
    destruct (cs_default st) as [dv|] eqn:Ed.
    2:{ apply ck_pure; [|eauto]. apply with_default_none. intros st' v [H H']. congruence. }
    assert (Hd : has_default c st dv) by (split; assumption). destruct (Hsp st dv Hd) as (sp & Ha).
    rewrite (proj2 (default_span_at st sp) Ha). eapply ck_with_default; [exact Hd|exact Ha|].
    eapply ck_impl; [eapply ck_enum_lookup; eassumption|]. intros tn Eo _. exists so, n. split; [exact He|].
    destruct (lookup_enum_values ix so n [value_to_string dv]) as [[] [[] l]]; try (exfalso; exact (throw_not_ok _ _ _ _ Eo)).
    apply if_throw_ok in Eo as [_ Eo]. congruence.
  Qed.

  Lemma ck_string tn w sp :
    (fixed_len tn \/ max_len tn -> ct_args ct = [] \/ exists n, ct_args ct = [VInteger n]) ->
    forall st, checks inp (default_faults tn ct (cs_nullable st) (VString w) sp) (fun _ => True) (check_default tn c st (VString w) sp inp).
  Proof.
    intros Ha st. cbn [default_faults check_default]. cbv zeta. fold ct.
    assert (Hoth : ~ fixed_len tn -> ~ max_len tn -> checks inp
      (crash_if ((fixed_len tn \/ max_len tn) /\ ct_args ct = []) ;; fault_if (~ string_fits tn (ct_args ct) w) (InvalidDefaultValue w (ct_raw ct)) sp)
      (fun _ => True) (Ok tt)).
    { intros H1 H2. apply ck_pure; [|exact Logic.I]. intros f [[[H _] _]|[_ [H _]]]; [tauto|]. apply H. apply string_fits_other; assumption. }
    assert (Hpan : ct_args ct = [] -> fixed_len tn \/ max_len tn -> checks (A := unit) inp
      (crash_if ((fixed_len tn \/ max_len tn) /\ ct_args ct = []) ;; fault_if (~ string_fits tn (ct_args ct) w) (InvalidDefaultValue w (ct_raw ct)) sp)
      (fun _ => True) Panic).
    { intros H1 H2. apply ck_panic, followed_only. intros g. unfold crash_if. tauto. }
    assert (Hfx : fixed_len tn -> checks inp
      (crash_if ((fixed_len tn \/ max_len tn) /\ ct_args ct = []) ;; fault_if (~ string_fits tn (ct_args ct) w) (InvalidDefaultValue w (ct_raw ct)) sp)
      (fun _ => True) match ct_args ct with
        | [] => Panic
        | VInteger len :: _ => if negb (Z.eqb (Z.of_N (blen w)) len) then throw_err (InvalidDefaultValue w (ct_raw ct)) sp inp else Ok tt
        | _ => Ok tt end).
    { intros Hf. destruct (Ha (or_introl Hf)) as [E|(n & E)].
      - specialize (Hpan E (or_introl Hf)). rewrite E in *. exact Hpan.
      - rewrite E. apply ck_none; [intros f [[_ H] _]; discriminate|]. apply ck_last; [|auto].
        rewrite negb_true_iff, Z.eqb_neq. unfold string_fits. split.
        + intros H [H' _]. specialize (H' Hf). congruence.
        + intros H E'. apply H. subst n. split; [auto|]. intros [->| ->]; destruct Hf as [Hf|Hf]; discriminate. }
    assert (Hmx : max_len tn -> checks inp
      (crash_if ((fixed_len tn \/ max_len tn) /\ ct_args ct = []) ;; fault_if (~ string_fits tn (ct_args ct) w) (InvalidDefaultValue w (ct_raw ct)) sp)
      (fun _ => True) match ct_args ct with
        | [] => Panic
        | VInteger cap :: _ => if (cap <? Z.of_N (blen w))%Z then throw_err (InvalidDefaultValue w (ct_raw ct)) sp inp else Ok tt
        | _ => Ok tt end).
    { intros Hf. destruct (Ha (or_intror Hf)) as [E|(n & E)].
      - specialize (Hpan E (or_intror Hf)). rewrite E in *. exact Hpan.
      - rewrite E. apply ck_none; [intros f [[_ H] _]; discriminate|]. apply ck_last; [|auto].
        rewrite Z.ltb_lt. unfold string_fits. split.
        + intros H [_ H']. destruct (H' Hf) as (m & Em & Hm). assert (n = m) by congruence. subst. lia.
        + intros H. apply Z.nle_gt. intros Hle. apply H. split; [intros [->| ->]; destruct Hf as [Hf|Hf]; discriminate|]. eauto. }
    destruct tn; try (apply Hoth; intros [H|H]; discriminate); try (apply Hfx; unfold fixed_len; auto; fail); try (apply Hmx; unfold max_len; auto; fail).
  Qed.
  Lemma ck_default tn st dv sp : 
    (fixed_len tn \/ max_len tn -> ct_args ct = [] \/ exists n, ct_args ct = [VInteger n]) ->
    checks inp (default_faults tn ct (cs_nullable st) dv sp) (fun _ => True) (check_default tn c st dv sp inp).
  Proof.
    intros Ha. destruct dv as [w|w|z|d|b|w|w| ]; try (apply ck_ok).
    - apply ck_string. exact Ha.
    - cbn [default_faults check_default]. cbv zeta. fold ct.
      assert (Hi : forall P : bool, (P = true <-> ~ int_fits tn z) ->
         checks inp (fault_if (~ int_fits tn z) (DataTypeExceeded (ct_raw ct)) sp) (fun _ => True)
           (if P then throw_err (DataTypeExceeded (ct_raw ct)) sp inp else Ok tt)).
      { intros P H1. apply ck_last; auto. }
      assert (Hoth : tn <> CT_SmallInt -> tn <> CT_Integer -> tn <> CT_BigInt ->
         checks inp (fault_if (~ int_fits tn z) (DataTypeExceeded (ct_raw ct)) sp) (fun _ => True) (Ok tt)).
      { intros H1 H2 H3. apply ck_pure; [|exact Logic.I]. apply if_clean. intros H. apply H. split; [|split]; congruence. }
      destruct tn; try (apply Hoth; discriminate); apply Hi.
      + rewrite orb_true_iff, !Z.ltb_lt. unfold int_fits. split.
        * intros H (H' & _ & _). specialize (H' eq_refl). lia.
        * intros H. destruct (Z_lt_le_dec 32767 z); [auto|]. destruct (Z_lt_le_dec z (-32768)); [auto|]. exfalso. apply H. split; [|split]; try discriminate. lia.
      + rewrite orb_true_iff, !Z.ltb_lt. unfold int_fits. split.
        * intros H (_ & H' & _). specialize (H' eq_refl). lia.
        * intros H. destruct (Z_lt_le_dec 2147483647 z); [auto|]. destruct (Z_lt_le_dec z (-2147483648)); [auto|]. exfalso. apply H. split; [|split]; try discriminate. lia.
      + rewrite orb_true_iff, !Z.eqb_eq. unfold int_fits, i64_max, i64_min. split.
        * intros H (_ & _ & H'). specialize (H' eq_refl). lia.
        * intros H. destruct (Z.eq_dec z 9223372036854775807); [auto|]. destruct (Z.eq_dec z (-9223372036854775808)); [auto|]. exfalso. apply H. split; [|split]; try discriminate. auto.
    - cbn [default_faults check_default]. cbv zeta. fold ct. destruct tn;
        try (apply ck_throw; change (s (if b then "true" else "false")) with (value_to_string (VBool b)) || (destruct b); apply if_only; discriminate).
      apply ck_pure; [|exact Logic.I]. apply if_clean. intros H. apply H. reflexivity.
    - cbn [default_faults check_default]. cbv zeta. fold ct. pose proof (nullable_is_null_true (cs_nullable st)) as Hn.
      destruct (nullable_is_null (cs_nullable st)).
      + apply ck_pure; [|exact Logic.I]. apply if_clean. intros H. apply H, Hn. reflexivity.
      + apply ck_throw, if_only. intros H. apply Hn in H. discriminate.
  Qed.

  Hypothesis Hraw : exists raw, ct_type_name ct = CT_Raw raw.
  Lemma ck_resolve raw : ct_type_name ct = CT_Raw raw ->
    checks inp
      (such (builtin raw) (fun tn =>
        fault_if (ct_args ct <> [] /\ List.length (ct_args ct) <> arity tn)
          (InvalidDataTypeArguments raw (N.of_nat (arity tn))) (ct_span ct) ;;
        fault_if (exists v, In v (ct_args ct) /\ ~ int_value v) InvalidArgumentValue (ct_span ct)) ;; enum_rule raw)
      (fun tn => type_means raw tn /\ (fixed_len tn \/ max_len tn -> ct_args ct = [] \/ exists n, ct_args ct = [VInteger n]))
      (resolve_col_type ix c inp).
  Proof.
    intros Hr. unfold resolve_col_type. fold ct. rewrite Hr. destruct (col_type_name_from_str raw) as [tn|] eqn:E.
    - apply from_str_builtin in E. eapply ck_same with (F := such (builtin raw) (fun tn =>
        fault_if (ct_args ct <> [] /\ List.length (ct_args ct) <> arity tn)
          (InvalidDataTypeArguments raw (N.of_nat (arity tn))) (ct_span ct) ;;
        fault_if (exists v, In v (ct_args ct) /\ ~ int_value v) InvalidArgumentValue (ct_span ct)) ;; no_fault).
      2:{ eapply ck_bind; [eapply ck_such with (a := tn); [exact E|intros tn' H; eapply builtin_fun; eassumption|apply ck_args]|].
          intros u _ Ha. apply ck_pure; [apply no_clean|]. split; [apply tm_builtin; exact E|]. intros Hf.
          apply (fixed_builtin c tn raw); [apply tm_builtin; exact E|exact Hf|]. intros _. exact Ha. }
      apply followed_same; [intros f; reflexivity|]. intros _ f. split; [intros []|]. unfold enum_rule.
      intros [[[H _] _]|[_ (p & [H _] & _)]]; exact (H tn E).
    - apply from_str_none in E. apply ck_none; [apply such_clean; intros tn H; exfalso; exact (E tn H)|].
      eapply ck_impl; [apply ck_enum_type; exact E|]. intros tn _ (so & n & He & ->). split; [eapply tm_enum; eassumption|].
      intros [[H|H]|[H|H]]; discriminate.
  Qed.
  Lemma ck_col_type : checks inp (type_faults x c) (fun _ => True) (check_col_type ix inp c).
  Proof.
    destruct Hraw as (raw & Hr). unfold type_faults, check_col_type. cbv zeta. fold ct.
    apply ck_such with (a := raw); [exact Hr|intros raw' H; congruence|].
    eapply ck_same with (F := (such (builtin raw) (fun tn =>
        fault_if (ct_args ct <> [] /\ List.length (ct_args ct) <> arity tn)
          (InvalidDataTypeArguments raw (N.of_nat (arity tn))) (ct_span ct) ;;
        fault_if (exists v, In v (ct_args ct) /\ ~ int_value v) InvalidArgumentValue (ct_span ct)) ;; enum_rule raw) ;;
        such (type_means raw) (fun tn => with_default c (fun st v sp => default_faults tn ct (cs_nullable st) v sp)));
      [|eapply ck_bind; [apply (ck_resolve raw Hr)|]].
    - intros f. rewrite (followed_assoc _ _ _ f). apply followed_same; [intros g; reflexivity|]. intros _. unfold enum_rule. apply followed_assoc.
    - intros tn _ [Hm Ha]. apply ck_such with (a := tn); [exact Hm|intros tn' H; eapply type_means_fun; eassumption|].
      apply ck_end with (Q := fun _ => True); [|intros u _ _; apply ck_ok].
      destruct (tc_settings c) as [st|] eqn:Est.
      2:{ apply ck_pure; [|exact Logic.I]. apply with_default_none. intros st v [H _]. congruence. }
      destruct (cs_default st) as [dv|] eqn:Ed.
      2:{ apply ck_pure; [|exact Logic.I]. apply with_default_none. intros st' v [H H']. congruence. }
      assert (Hd : has_default c st dv) by (split; assumption). destruct (Hsp st dv Hd) as (sp & Hat).
      rewrite (proj2 (default_span_at st sp) Hat). eapply ck_with_default; [exact Hd|exact Hat|]. apply ck_default. exact Ha.
  Qed.
End Types.

Lemma ck_types x ix : describes (tables x) (enums x) ix -> NoDup (map enum_name (enums x)) ->
  (forall t c, column_of x t c -> (exists raw, ct_type_name (tc_type c) = CT_Raw raw) /\
     forall st v, has_default c st v -> exists sp, default_at st sp) ->
  checks (sb_input x) (each (tables x) (fun _ t _ => each (tb_cols t) (fun _ c _ => type_faults x c))) (fun _ => True)
    (try_map (check_table_types ix (sb_input x)) (tables x)).
Proof.
  intros D Hne H. apply ck_map. intros t Ht. unfold check_table_types. eapply ck_end; [apply ck_map|intros u _ _; apply ck_ok].
  intros c Hc. destruct (H t c) as [Hr Hd]; [split; assumption|]. apply ck_col_type; assumption.
Qed.

(** ** References *)
Section Refs.
  Variables (x : schema_t) (ix : indexer) (ts' : list table_t).
  Let ts := tables x.
  Let input := sb_input x.
  Hypothesis D : describes ts (enums x) ix.
  Hypothesis Na : NoDup (aliases ts).
  Hypothesis Nt : NoDup (map table_name ts).
  Hypothesis Nc : Forall (fun t => NoDup (map col_name (tb_cols t))) ts.
  Hypothesis R : Forall2 resolved_table ts ts'.
  Let res := resolve_ref_alias ix.

  Lemma find_each (P : ident_t -> bool) (P' : ident_t -> Prop) e l : (forall i, P i = true <-> P' i) ->
    checks input (each l (fun _ i _ => fault_if (P' i) e (id_span i))) (fun _ => forall i, In i l -> ~ P' i)
      match find P l with Some f => throw_err e (id_span f) input | None => Ok tt end.
  Proof.
    intros HP. unfold each. generalize (@nil ident_t) as before. induction l as [|i l IH]; intros before; cbn [find each_from].
    - apply ck_pure; [apply no_clean|]. intros i [].
    - destruct (P i) eqn:E.
      + apply ck_throw, followed_only, if_only. apply HP. exact E.
      + assert (Hn : ~ P' i) by (intros H; apply HP in H; congruence). apply ck_none; [apply if_clean; exact Hn|].
        eapply ck_impl; [apply IH|]. intros [] _ H j [<-|Hj]; [exact Hn|exact (H j Hj)].
  Qed.
  Lemma table_span_fun r sp sp' : table_span ts r sp -> table_span ts r sp' -> sp' = sp.
  Proof. intros [[H1 ->]|[H1 ->]] [[H2 ->]|[H2 ->]]; [reflexivity|contradiction|contradiction|reflexivity]. Qed.
  Lemma ck_endpoint r : checks input (endpoint_faults x r)
    (fun _ => exists t, In t ts /\ table_name t = (in_schema (ri_schema (res r)), id_str (ri_table (res r))) /\
        incl (endpoint_cols r) (map col_name (tb_cols t)))
    (lookup_table_fields ix (ri_schema (res r)) (ri_table (res r)) (ri_compositions (res r)) input).
  Proof.
    pose proof (res_points x ix D r) as Hp. fold res in Hp. unfold endpoint_faults.
    apply ck_such with (a := (option_map id_str (ri_schema (res r)), id_str (ri_table (res r)))); cbn [fst snd]; [exact Hp| |].
    { intros [so n] H. cbn [fst snd] in H. destruct (points_to_fun _ _ _ _ _ _ Na Hp H) as [<- <-]. reflexivity. }
    assert (Es : default_schema (option_map id_str (ri_schema (res r))) = in_schema (ri_schema (res r))).
    { rewrite in_schema_or. reflexivity. }
    rewrite Es. unfold lookup_table_fields. cbv zeta. change (schema_or_default (ri_schema (res r))) with (in_schema (ri_schema (res r))).
    destruct (map_get (schema_map ix) (in_schema (ri_schema (res r)))) as [b|] eqn:Eb.
    2:{ apply (d_sch _ _ _ D) in Eb. 
        assert (Er : res r = r).
        { revert Eb. unfold res, resolve_ref_alias, resolve_alias.
          destruct (map_get (table_alias_map ix) (id_str (ri_table r))) as [[a b]|] eqn:E; [|reflexivity].
          intros [Hb _]. exfalso. apply (d_als1 _ _ _ D) in E as (t & Ht & _ & Hn). apply (Hb t Ht). rewrite Hn. reflexivity. }
        rewrite Er in *. apply ck_throw, followed_only, if_only. exact Eb. }
    apply ck_none.
    { apply if_clean. intros H. apply (d_sch _ _ _ D) in H. congruence. }
    destruct (map_get (table_map b) (id_str (ri_table (res r)))) as [cols|] eqn:Ec.
    2:{ apply ck_throw, followed_only. 
        eapply same_only; [apply such_same with (a := id_span (ri_table (res r))); [apply (res_table_span x ix D)|]|].
        - intros sp Hsp. eapply table_span_fun; [apply (res_table_span x ix D)|exact Hsp].
        - apply if_only. intros H. apply in_map_iff in H as (t & Hn & Hin). apply (d_tab2 _ _ _ D) in Hin. rewrite Hn in Hin. unfold tab in Hin.
          cbn [fst snd] in Hin. rewrite Eb in Hin. congruence. }
    assert (Ht : tab ix (in_schema (ri_schema (res r)), id_str (ri_table (res r))) = Some cols).
    { unfold tab. cbn [fst snd]. rewrite Eb. exact Ec. }
    apply (d_tab1 _ _ _ D) in Ht as (t & Hin & Hn & Hs). apply ck_none.
    { apply such_clean. intros sp _. apply if_clean. intros H. apply H. apply in_map_iff. eauto. }
    apply ck_such with (a := t); [auto| |].
    { intros t' [H1 H2]. eapply NoDup_map_inj; [exact Nt|exact H1|exact Hin|congruence]. }
    unfold res at 1. rewrite (res_comps ix). eapply ck_impl; [apply find_each with (P' := fun i => ~ In (id_str i) (map col_name (tb_cols t)))|].
    - intros i. rewrite negb_true_iff, mem_str_false. rewrite (Hs (id_str i)). reflexivity.
    - intros [] _ H. exists t. split; [exact Hin|]. split; [exact Hn|]. intros k Hk. apply in_map_iff in Hk as (i & <- & Hi).
      destruct (in_dec str_eq_dec (id_str i) (map col_name (tb_cols t))) as [Hd|Hd]; [exact Hd|]. exfalso. exact (H i Hi Hd).
  Qed.
  Lemma target_fun r t t' : target ts r t -> target ts r t' -> t' = t.
  Proof.
    intros [H1 H2] [H3 H4]. destruct (points_to_fun _ _ _ _ _ _ Na H2 H4) as [Ea Eb]. eapply NoDup_map_inj; [exact Nt|exact H3|exact H1|].
    unfold table_name. rewrite !in_schema_or. congruence.
  Qed.
  Lemma ck_find_table r : checks input (fault_if (forall t, ~ target ts r t) TableNotFound (ri_span r))
    (fun t' => exists t, target ts r t /\ resolved_table t t') (find_ref_table ts' (res r) input).
  Proof.
    pose proof (res_points x ix D r) as Hp. fold res in Hp. unfold find_ref_table.
    pose proof (find_split (fun t => same_table (ti_schema (tb_ident t)) (ti_name (tb_ident t)) (ri_schema (res r)) (ri_table (res r))) ts') as Hf.
    destruct (find _ ts') as [t'|].
    - destruct Hf as (l1 & l2 & E & Hf & _).
      destruct (f2_in_r _ _ _ t' R) as (t & Hin & Hr); [rewrite E; apply in_mid|].
      assert (Ht : target ts r t).
      { split; [exact Hin|]. apply same_table_true in Hf as [H1 H2]. destruct Hr as (cols & _ & ->). cbn [tb_ident] in *. rewrite H1, H2. exact Hp. }
      apply ck_pure; [|eauto]. apply if_clean. intros H. exact (H t Ht).
    - unfold res. rewrite (res_span ix). fold res. apply ck_throw, if_only. intros t [Hin Ht].
      destruct (f2_in_l _ _ _ t R Hin) as (t' & Hin' & Hr). rewrite Forall_forall in Hf. apply Hf in Hin'.
      destruct (points_to_fun _ _ _ _ _ _ Na Hp Ht) as [H1 H2]. destruct Hr as (cols & _ & ->). cbn [tb_ident] in Hin'.
      assert (same_table (ti_schema (tb_ident t)) (ti_name (tb_ident t)) (ri_schema (res r)) (ri_table (res r)) = true); [|congruence].
      apply same_table_true. auto.
  Qed.
  Lemma find_col t t' i : resolved_table t t' -> In (id_str i) (map col_name (tb_cols t)) ->
    exists c c', find_ref_col i t' input = Ok c' /\ names_col t i c /\ resolved c c'.
  Proof.
    intros Hr Hi. unfold find_ref_col. pose proof (find_split (fun col => str_eqb (id_str (tc_name col)) (id_str i)) (tb_cols t')) as Hf.
    destruct Hr as (cols & Hc & ->). cbn [tb_cols] in *. destruct (find _ cols) as [c'|].
    - destruct Hf as (l1 & l2 & E & Hf & _).
      destruct (f2_in_r _ _ _ c' Hc) as (c & Hin & Hr); [rewrite E; apply in_mid|]. exists c, c'. split; [reflexivity|]. split; [|exact Hr].
      split; [exact Hin|]. apply str_eqb_eq in Hf. destruct Hr as (tn & _ & ->). exact Hf.
    - exfalso. apply in_map_iff in Hi as (c & Hn & Hin). destruct (f2_in_l _ _ _ c Hc Hin) as (c' & Hin' & Hr).
      rewrite Forall_forall in Hf. apply Hf in Hin'. destruct Hr as (tn & _ & ->). cbn [tc_name] in Hin'. apply str_eqb_neq in Hin'. contradiction.
  Qed.
  Lemma names_col_fun t i c c' : In t ts -> names_col t i c -> names_col t i c' -> c' = c.
  Proof.
    intros Ht [H1 H2] [H3 H4]. rewrite Forall_forall in Nc. eapply NoDup_map_inj; [apply (Nc t Ht)|exact H3|exact H1|congruence].
  Qed.
  Lemma ck_pair i lt rt lt' rt' l r : In lt ts -> In rt ts -> resolved_table lt lt' -> resolved_table rt rt' ->
    In (id_str l) (map col_name (tb_cols lt)) -> In (id_str r) (map col_name (tb_cols rt)) ->
    checks input (pair_faults i lt rt (l, r)) (fun _ => True)
      (validate_field_pair i lt' rt' (List.length (ri_compositions (ir_lhs i))) input tt (l, r)).
  Proof.
    intros Hlt Hrt Hl Hr Hil Hir. unfold validate_field_pair, pair_faults. cbn [fst snd].
    destruct (find_col lt lt' l Hl Hil) as (lc & lc' & El & Hlc & Rl). destruct (find_col rt rt' r Hr Hir) as (rc & rc' & Er & Hrc & Rr).
    rewrite El. cbn [bind]. rewrite Er. cbn [bind]. cbv zeta.
    apply ck_such with (a := (lc, rc)); cbn [fst snd]; [auto| |].
    { intros [c d] [H1 H2]. cbn [fst snd] in *. rewrite (names_col_fun lt l lc c Hlt Hlc H1), (names_col_fun rt r rc d Hrt Hrc H2). reflexivity. }
    assert (Ew : ct_raw (tc_type rc') = ct_raw (tc_type rc)) by (destruct Rr as (tn & _ & ->); reflexivity). rewrite Ew.
    pose proof (resolved_same _ _ _ _ Rl Rr) as Hst. pose proof (resolved_key _ _ Rl) as Kl. pose proof (resolved_key _ _ Rr) as Kr.
    eapply ck_bind; [apply ck_test|].
    { rewrite <- Hst. destruct (col_types_differ (tc_type lc') (tc_type rc')); split; intros H; try reflexivity; try discriminate; try congruence. }
    intros u _ _. destruct (Nat.eqb (List.length (ri_compositions (ir_lhs i))) 1) eqn:E1.
    2:{ apply Nat.eqb_neq in E1. apply ck_pure; [|exact Logic.I]. apply if_clean. tauto. }
    apply Nat.eqb_eq in E1. unfold throw_fk, single_fk_err, single_fault.
    assert (Hok : single_keys (ir_rel i) (key_col lc) (key_col rc) -> forall e sp, checks input
      (fault_if (List.length (ri_compositions (ir_lhs i)) = 1%nat /\ ~ single_keys (ir_rel i) (key_col lc) (key_col rc)) e sp) (fun _ => True) (Ok tt)).
    { intros H e sp. apply ck_pure; [|exact Logic.I]. apply if_clean. tauto. }
    assert (Hno : ~ single_keys (ir_rel i) (key_col lc) (key_col rc) -> forall e sp, checks (A := unit) input
      (fault_if (List.length (ri_compositions (ir_lhs i)) = 1%nat /\ ~ single_keys (ir_rel i) (key_col lc) (key_col rc)) e sp) (fun _ => True) (throw_err e sp input)).
    { intros H e sp. apply ck_throw, if_only. auto. }
    destruct (ir_rel i); cbn [single_keys] in *; destruct (col_key lc'), (col_key rc'); cbn [fst snd];
      first [apply Hok; first [exact Logic.I|left; apply Kl; reflexivity|right; apply Kr; reflexivity|apply Kl; reflexivity|apply Kr; reflexivity]
            |apply Hno; intros H; first [destruct H as [H|H]; [apply Kl in H|apply Kr in H]; discriminate|apply Kl in H; discriminate|apply Kr in H; discriminate]].
  Qed.
  Lemma incl_in (r : ref_ident_t) (l : list str) i : incl (endpoint_cols r) l -> In i (ri_compositions r) -> In (id_str i) l.
  Proof. intros H Hi. apply H. apply in_map. exact Hi. Qed.
  Lemma ck_validate i : checks input
    (fault_if (List.length (ri_compositions (ir_lhs i)) <> List.length (ri_compositions (ir_rhs i))) MismatchedCompositeForeignKey (ir_span i) ;;
     endpoint_faults x (ir_lhs i) ;; endpoint_faults x (ir_rhs i) ;;
     fault_if (forall t, ~ target ts (ir_lhs i) t) TableNotFound (ri_span (ir_lhs i)) ;;
     fault_if (forall t, ~ target ts (ir_rhs i) t) TableNotFound (ri_span (ir_rhs i)) ;;
     such (fun p => target ts (ir_lhs i) (fst p) /\ target ts (ir_rhs i) (snd p)) (fun p =>
       each (combine (ri_compositions (ir_lhs i)) (ri_compositions (ir_rhs i))) (fun _ q _ => pair_faults i (fst p) (snd p) q) ;;
       fault_if ((2 <= List.length (ri_compositions (ir_lhs i)))%nat /\
              ~ composite_keys (ir_rel i) (key_cols (fst p) (endpoint_cols (ir_lhs i))) (key_cols (snd p) (endpoint_cols (ir_rhs i))))
         (fst (composite_fault i)) (snd (composite_fault i))))
    (fun _ => True) (validate_ref_type i ts' ix input).
  Proof.
    unfold validate_ref_type. cbv zeta. fold res.
    assert (Ec : forall r, ri_compositions (res r) = ri_compositions r) by (intros r; apply (res_comps ix)). 
    eapply ck_bind; [rewrite !Ec; apply ck_test; rewrite negb_true_iff, Nat.eqb_neq; reflexivity|]. intros u _ Hlen; cbv beta in Hlen.
    assert (Hl : List.length (ri_compositions (ir_lhs i)) = List.length (ri_compositions (ir_rhs i))) by lia.
    eapply ck_bind; [apply ck_endpoint|]. intros u1 _ (tl & Hl1 & Hl2 & Hl3).
    eapply ck_bind; [apply ck_endpoint|]. intros u2 _ (tr & Hr1 & Hr2 & Hr3).
    eapply ck_bind; [apply ck_find_table|]. intros lt' _ (lt & Hlt & Rl).
    eapply ck_bind; [apply ck_find_table|]. intros rt' _ (rt & Hrt & Rr).
    assert (El : tl = lt).
    { eapply NoDup_map_inj; [exact Nt|exact Hl1|apply Hlt|]. rewrite Hl2. symmetry. rewrite in_schema_or.
      eapply target_name; [exact Na|exact Hlt|apply (res_points x ix D)]. }
    assert (Er : tr = rt).
    { eapply NoDup_map_inj; [exact Nt|exact Hr1|apply Hrt|]. rewrite Hr2. symmetry. rewrite in_schema_or.
      eapply target_name; [exact Na|exact Hrt|apply (res_points x ix D)]. }
    subst tl tr. rewrite !Ec, <- Hl, Nat.max_id.
    apply ck_such with (a := (lt, rt)); cbn [fst snd]; [auto| |].
    { intros [a b] [H1 H2]. cbn [fst snd] in *. rewrite (target_fun _ _ _ Hlt H1), (target_fun _ _ _ Hrt H2). reflexivity. }
    eapply ck_bind with (Q := fun _ => True).
    - apply ck_fold. intros l1 [l r] l2 [] E _. apply ck_pair; try assumption.
      + eapply incl_in; [exact Hl3|]. eapply in_combine_l. rewrite E. apply in_mid.
      + eapply incl_in; [exact Hr3|]. eapply in_combine_r. rewrite E. apply in_mid.
    - intros u3 _ _. pose proof (is_valid_composite_true (ri_compositions (ir_lhs i)) lt) as Vl.
      pose proof (is_valid_composite_true (ri_compositions (ir_rhs i)) rt) as Vr.
      rewrite (resolved_indexes _ _ Rl), (resolved_indexes _ _ Rr). fold (endpoint_cols (ir_lhs i)) in Vl. fold (endpoint_cols (ir_rhs i)) in Vr.
      destruct (Nat.leb 2 (List.length (ri_compositions (ir_lhs i)))) eqn:E2.
      2:{ apply Nat.leb_gt in E2. apply ck_pure; [|exact Logic.I]. apply if_clean. lia. }
      apply Nat.leb_le in E2. unfold throw_fk, composite_fk_err, composite_fault.
      set (K := composite_keys _ _ _).
      assert (Hok : K -> forall e sp, checks input (fault_if ((2 <= List.length (ri_compositions (ir_lhs i)))%nat /\ ~ K) e sp) (fun _ => True) (Ok tt)).
      { intros H e sp. apply ck_pure; [|exact Logic.I]. apply if_clean. tauto. }
      assert (Hno : ~ K -> forall e sp, checks (A := unit) input (fault_if ((2 <= List.length (ri_compositions (ir_lhs i)))%nat /\ ~ K) e sp) (fun _ => True) (throw_err e sp input)).
      { intros H e sp. apply ck_throw, if_only. auto. }
      subst K.
      destruct (ir_rel i); cbn [composite_keys] in *;
        destruct (is_valid_composite (ri_compositions (ir_lhs i)) (tb_indexes lt)), (is_valid_composite (ri_compositions (ir_rhs i)) (tb_indexes rt)); cbn [fst snd negb andb orb];
        first [apply Hok; first [exact Logic.I|split; [apply Vl|apply Vr]; reflexivity|left; apply Vl; reflexivity|right; apply Vr; reflexivity|apply Vl; reflexivity|apply Vr; reflexivity]
              |apply Hno; intros H; first [destruct H as [H|H]; [apply Vl in H|apply Vr in H]; discriminate
                |destruct H as [H H']; first [apply Vl in H; discriminate|apply Vr in H'; discriminate]|apply Vl in H; discriminate|apply Vr in H; discriminate]].
  Qed.
  Lemma ck_ref l1 i l2 : checks input (ref_faults x l1 i l2) (fun _ => True) (check_ref (l1 ++ i :: l2) ts' ix input tt i).
  Proof.
    unfold check_ref, ref_faults. eapply ck_bind; [apply ck_opt_attrs|]. intros u _ _.
    eapply ck_same with (F := _ ;; fault_if (ir_rel i = Undef \/ exists o, In o (l1 ++ l2) /\ clashes (tables x) i o) ConflictRelation (ir_span i)).
    2: eapply ck_bind; [apply ck_validate|].
    - intros f. repeat (rewrite (followed_assoc _ _ _ f); revert f; apply followed_same; [intros g; reflexivity|intros _ f]). reflexivity.
    - intros u' _ _. apply ck_last; [|auto]. rewrite negb_true_iff, Nat.eqb_neq. rewrite (count_alone x ix D Na l1 i l2). unfold alone.
      assert (Hc : forall o, clashes ts i o \/ ~ clashes ts i o).
      { intros o. pose proof (occupy_true x ix D Na i o) as Ho. destruct (occupy_same_column i o ix); [left; apply Ho; reflexivity|].
        right. intros H. apply Ho in H. discriminate. }
      assert (Hex : forall l, (exists o, In o l /\ clashes ts i o) \/ forall o, In o l -> ~ clashes ts i o).
      { induction l as [|o l IH]; [right; intros o []|]. destruct (Hc o) as [H|H]; [left; exists o; cbn; auto|].
        destruct IH as [(o' & H1 & H2)|IH]; [left; exists o'; cbn; auto|]. right. intros o' [<-|Ho']; auto. }
      fold ts. split.
      + intros H. destruct (ir_rel i) eqn:Er; try (left; reflexivity); right;
          (destruct (Hex (l1 ++ l2)) as [H'|H']; [exact H'|]; exfalso; apply H; split; [discriminate|exact H']).
      + intros [H|(o & H1 & H2)] [H3 H4]; [contradiction|]. exact (H4 o H1 H2).
  Qed.
  Lemma ck_refs : checks input (each (all_refs x) (ref_faults x)) (fun _ => True) (try_fold (check_ref (all_refs x) ts' ix input) (all_refs x) tt).
  Proof. apply ck_fold. intros l1 i l2 [] E _. rewrite E. apply ck_ref. Qed.
End Refs.

(** ** The analyzer *)
Lemma ck_analyze x :
  (forall t c, column_of x t c -> (exists raw, ct_type_name (tc_type c) = CT_Raw raw) /\
     forall st v, has_default c st v -> distinct_keys (cs_attributes st) -> exists sp, default_at st sp) ->
  checks (sb_input x) (reports x) (fun _ => True) (analyze x).
Proof.
  intros Hx. unfold analyze, reports. cbv zeta.
  eapply ck_bind; [apply ck_projects|]. intros u _ _.
  eapply ck_bind; [apply ck_tables|]. intros ix0 E0 _. apply prefix_describes in E0 as (Ht & D0 & G0).
  eapply ck_bind; [apply (ck_enums _ (tables x)); assumption|]. intros ix1 E1 _. apply (prefix_enums _ (tables x)) in E1 as (He & D1 & G1); [|assumption|assumption].
  pose proof Ht as Ht0. destruct Ht as (Nt & Na & Nc).
  eapply ck_bind; [apply (ck_groups _ (tables x) (enums x)); assumption|]. intros ix E2 _.
  assert (D : describes (tables x) (enums x) ix).
  { destruct (groups_seen _ _ _ _ G1 E2) as (_ & H2 & H3). eapply describes_maps; eassumption. }
  eapply ck_bind; [apply ck_all_keys|]. intros inl E3 _.
  assert (Hi : List.concat inl = flat_map inline_refs (tables x)).
  { pose proof (ok_map x (check_table (sb_input x)) (fun t r => r = inline_refs t /\ table_keys_wf t) (tables x)) as Hm.
    rewrite E3 in Hm. apply inlined_refs. apply Hm. intros t Ht. apply check_table_ok. exact Ht. }
  rewrite Hi.
  eapply ck_bind; [apply ck_types; [exact D|apply He|]|].
  { intros t c Hc. destruct (Hx t c Hc) as [H1 H2]. split; [exact H1|]. intros st v Hd. apply (H2 st v Hd). eapply col_keys_distinct; [exact Ht0|exact Hc|apply Hd]. }
  intros ts' E4 _. change (map indexed_ref_from_block (refs x) ++ flat_map inline_refs (tables x)) with (all_refs x).
  assert (R : Forall2 resolved_table (tables x) ts').
  { pose proof (check_types_ok x ix (proj1 He) Ht0 D) as Hc. rewrite E4 in Hc. apply Hc. }
  apply ck_end with (Q := fun _ => True); [|intros u2 _ _; apply ck_ok]. apply ck_refs; try assumption.
  apply Forall_forall. intros t Ht. rewrite Forall_forall in Nc. apply (Nc t Ht).
Qed.
