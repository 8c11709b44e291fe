(** * BuildWorkBound3: types, tables and the whole schema. *)

From Verif Require Import PegFacts WorkOk CheckWorkSame BuildWork BuildWorkSame BuildWorkBound BuildWorkBound2.
Local Open Scope nat_scope.

(** Types: the schema is copied with the name, once. *)
Lemma names_b sch a out W : once a = true -> is_named (p_rule a) = true -> match sch with Some i => List.length (id_str i) <= W | None => True end ->
  snd (fold_c (fun out p2 =>
          match p_rule p2 with
          | R_var | R_spaced_var =>
              let* n := build_type_name_with_schema_c sch p2 in
              now (Ok (mkColType (ct_span out) (ct_raw out) (CT_Raw n) (ct_args out) (ct_arrays out)))
          | R_col_type_arg =>
              let?* a := parse_col_type_arg_c p2 in
              now (Ok (mkColType (ct_span out) (ct_raw out) (ct_type_name out) a (ct_arrays out)))
          | R_col_type_array =>
              let?* v := parse_col_type_array_c p2 in
              now (Ok (mkColType (ct_span out) (ct_raw out) (ct_type_name out) (ct_args out) (ct_arrays out ++ [v])))
          | _ => now (throw_rules [R_var; R_spaced_var; R_col_type_arg; R_col_type_array] p2)
          end) (into_inner a) out) <= 71 * weights (into_inner a) + (1 + W).
Proof.
  intros HO HR Hs.
  match goal with |- snd (fold_c ?f ?l ?c) <= _ => assert (H : snd (fold_c f l c) <= 71 * weights l + count is_name l * (1 + W)) end.
  { apply (fold_charge (fun _ => True)); auto. intros o q _ Hq. pose proof (weight_eq q). pose proof (arg_u q). pose proof (array_u q).
    unfold build_type_name_with_schema_c, copying. destruct (p_rule q); cbn [is_name]; clock; try lia.
    all: first [destruct sch; clear H0 H1; lia | destruct (fst (parse_col_type_arg_c q)); clock; lia | destruct (fst (parse_col_type_array_c q)); clock; lia]. }
  assert (C : count is_name (into_inner a) <= 1) by (pose proof (once_count a HO) as C; destruct (p_rule a); try discriminate HR; exact C).
  apply (Nat.mul_le_mono_r _ _ (1 + W)) in C. lia.
Qed.
Lemma type_u p : once p = true -> p_rule p = R_col_type -> snd (parse_col_type_c p) + 50 <= 75 * weight p.
Proof.
  intros HO HR. rewrite (weight_eq p). unfold parse_col_type_c. clock. set (W := weights (into_inner p)).
  match goal with |- context [fold_c ?f ?l ?c] => assert (H : snd (fold_c f l c) <= 72 * W + count is_named l * (1 + W)) end.
  { apply (fold_charge (fun st => match fst st with Some i => List.length (id_str i) <= W | None => True end)); [..|exact Logic.I].
    - intros [sch out] a Hs Ha. cbn [fst] in Hs. pose proof (once_in p a HO Ha) as Oa. pose proof (weight_eq a). pose proof (ident_u a).
      pose proof (fun R => names_b sch a out W Oa R Hs) as HN. destruct (p_rule a); cbn [is_named] in *; clock; try lia;
        [destruct (fst (parse_ident_c a)); clock; lia|specialize (HN eq_refl); lia..].
    - intros [sch out] a [sch' out'] Hs Ha. cbn [fst] in *. pose proof (weight_in a _ Ha) as Wa. fold W in Wa. pose proof (ident_size a) as HI.
      destruct (p_rule a); try discriminate.
      all: match goal with
        | |- context [parse_col_type_arg_c] => rewrite fst_omap; match goal with |- omap _ ?x = _ -> _ => destruct x; cbn [omap]; try discriminate end; intros [= <- <-]; exact Hs
        | |- context [parse_ident_c] =>
            rewrite fst_bind, ident_same; destruct (parse_ident a) as [i|e|]; cbn [bind fst now]; try discriminate; intros [= <- <-]; specialize (HI _ eq_refl); lia
        end. }
  pose proof (once_count p HO) as C. rewrite HR in C. cbn [single] in C. apply (Nat.mul_le_mono_r _ _ (1 + W)) in C. unfold copying. subst W. lia.
Qed.

Lemma raise p n : n + 50 <= 70 * weight p -> n + 50 <= 80 * weight p. Proof. lia. Qed.
Lemma fold_v {B} (f : B -> pair -> clocked (outcome B)) p b :
  (forall b a, In a (into_inner p) -> snd (f b a) + 1 <= 80 * weight a) -> snd (fold_c f (into_inner p) b) + 50 <= 80 * weight p.
Proof. intros H. rewrite (weight_eq p). pose proof (fold_bound f 80 _ H b). lia. Qed.
Lemma col_v p : once p = true -> snd (parse_table_col_c p) + 50 <= 80 * weight p.
Proof.
  intros HO. unfold parse_table_col_c. apply fold_v. intros b a Ha. pose proof (once_in p a HO Ha) as Oa. pose proof (type_u a Oa) as HT.
  pose proof (ident_u a). pose proof (col_settings_u a). pose proof (weight_eq a).
  destruct (p_rule a); clock; try lia; [| |specialize (HT eq_refl)]; match goal with |- context [fst ?x] => destruct (fst x) end; clock; lia.
Qed.
Lemma table_v p : once p = true -> snd (parse_table_decl_c p) + 50 <= 80 * weight p.
Proof.
  intros HO. unfold parse_table_decl_c. apply fold_v. intros [sp cols id nt ix st] a Ha. pose proof (once_in p a HO Ha) as Oa. pose proof (weight_eq a).
  pose proof (decl_ident_u a). pose proof (tset_u a).
  destruct (p_rule a); clock; try lia; try (match goal with |- context [fst ?x] => destruct (fst x) end; clock; lia);
    (match goal with |- context [fold_c ?f ?l ?c] => assert (snd (fold_c f l c) + 50 <= 80 * weight a) as ?; [|lia] end).
  all: apply fold_v; intros b q Hq; pose proof (once_in a q Oa Hq) as Oq; pose proof (weight_eq q).
  all: match goal with
    | |- context [parse_table_col_c] =>
        destruct b; pose proof (col_v q Oq); pose proof (note_u q); pose proof (idecl_u q);
        destruct (p_rule q); clock; try lia; (match goal with |- context [fst ?x] => destruct (fst x) end; clock; lia)
    | _ => pose proof (ident_u q); destruct (p_rule q); clock; try lia; destruct (fst (parse_ident_c q)); try lia; destruct b; clock; lia
    end.
Qed.
Lemma block_v p : once p = true -> snd (parse_block_c p) + 50 <= 80 * weight p.
Proof.
  intros HO. pose proof (table_v p HO). pose proof (project_u p). pose proof (enum_u p). pose proof (ref_u p). pose proof (note_u p). pose proof (group_u p).
  pose proof (weight_eq p). unfold parse_block_c. destruct (p_rule p); clock; lia.
Qed.
Lemma schema_v p i : once p = true -> snd (parse_schema_c p i) + 50 <= 80 * weight p.
Proof.
  intros HO. unfold parse_schema_c. apply fold_v. intros b a Ha. pose proof (block_v a (once_in p a HO Ha)). clock.
  destruct (fst (parse_block_c a)) as [[x|]|e|]; clock; lia.
Qed.
Lemma build_v i ps : forallb once ps = true -> snd (build_c i ps) <= 80 * weights ps + List.length i + 2.
Proof.
  intros H. unfold build_c. destruct ps as [|p ps]; [cbn; lia|]. clock. rewrite weights_cons. cbn [forallb] in H. apply andb_true_iff in H as [H _].
  pose proof (schema_v p i H). destruct (p_rule p); clock; lia.
Qed.
