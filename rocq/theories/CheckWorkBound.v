(** * CheckWorkBound: the semantic checks take cubic work. *)

From Verif Require Import Size CheckWorkSame.
From Verif Require Import CheckWork.
Local Open Scope nat_scope.

(** ** Weights *)
Definition attrs_w {S} (f : S -> list attribute_t) (o : option S) : nat := given (fun st => List.length (f st)) o.
Definition end_w (r : ref_ident_t) : nat := List.length (ri_compositions r).
Definition inline_w (r : ref_inline_t) : nat := 2 + end_w (rin_rhs r).
Definition type_w (t : col_type_t) : nat :=
  match ct_type_name t with CT_Raw x => List.length x | _ => 0 end + List.length (ct_args t) + List.length (ct_arrays t).
Definition col_w (c : table_col_t) : nat :=
  1 + attrs_w cs_attributes (tc_settings c) + given (fun st => total inline_w (cs_refs st)) (tc_settings c) + type_w (tc_type c).
Definition def_w (d : indexes_def) : nat := Nat.max 1 (List.length (idf_cols d)) + attrs_w is_attributes (idf_settings d).
Definition defs_w (o : option indexes_block_t) : nat := given (fun b => total def_w (ib_defs b)) o.
Definition table_w (t : table_t) : nat := 1 + attrs_w ts_attributes (tb_settings t) + total col_w (tb_cols t) + defs_w (tb_indexes t).
Definition evalue_w (v : enum_value_t) : nat := 1 + attrs_w evs_attributes (ev_settings v).
Definition enum_w (e : enum_t) : nat := 1 + total evalue_w (en_values e).
Definition group_w (g : group_t) : nat := 1 + List.length (tg_items g).
Definition rblock_w (r : ref_block_t) : nat := 1 + attrs_w rs_attributes (rb_settings r) + end_w (rb_lhs r) + end_w (rb_rhs r).
Definition project_w (p : project_t) : nat := 1 + List.length (pj_properties p).
Definition block_w (b : block) : nat :=
  match b with BProject p => project_w p | BTable t => table_w t | BTableGroup g => group_w g | BNote _ => 1 | BRef r => rblock_w r | BEnum e => enum_w e end.
Definition weight (x : schema_t) : nat := total block_w (sb_blocks x).
Definition iref_w (r : indexed_ref) : nat := 1 + attrs_w rs_attributes (ir_settings r) + end_w (ir_lhs r) + end_w (ir_rhs r).

(** ** Sums *)
Lemma total_app {A} (f : A -> nat) l m : total f (l ++ m) = total f l + total f m.
Proof. induction l as [|a l IH]; [reflexivity|]. cbn [total app]. lia. Qed.
Lemma total_le {A} (f g : A -> nat) l : (forall a, In a l -> f a <= g a) -> total f l <= total g l.
Proof. induction l as [|a l IH]; intros H; [reflexivity|]. cbn [total]. pose proof (H a (or_introl eq_refl)). assert (total f l <= total g l) by (apply IH; intros b Hb; apply H; right; exact Hb). lia. Qed.
Lemma total_map {A B} (f : B -> nat) (g : A -> B) l : total f (map g l) = total (fun a => f (g a)) l.
Proof. induction l as [|a l IH]; [reflexivity|]. cbn [total map]. lia. Qed.
Lemma total_one {A} (l : list A) : total (fun _ => 1) l = List.length l.
Proof. induction l as [|a l IH]; [reflexivity|]. cbn [total List.length]. lia. Qed.
Lemma total_length {A} (f : A -> nat) l : (forall a, In a l -> 1 <= f a) -> List.length l <= total f l.
Proof. intros H. rewrite <- total_one. apply total_le. exact H. Qed.
Lemma total_in {A} (f : A -> nat) l a : In a l -> f a <= total f l.
Proof. induction l as [|b l IH]; intros []; cbn [total]; [subst; lia|]. pose proof (IH H). lia. Qed.
Lemma total_scale {A} (f : A -> nat) k l : total (fun a => k * f a) l = k * total f l.
Proof. induction l as [|a l IH]; [cbn; lia|]. cbn [total]. lia. Qed.
Lemma total_plus {A} (f g : A -> nat) l : total (fun a => f a + g a) l = total f l + total g l.
Proof. induction l as [|a l IH]; [reflexivity|]. cbn [total]. lia. Qed.
Lemma total_const {A} k (l : list A) : total (fun _ => k) l = k * List.length l.
Proof. rewrite <- total_one, <- total_scale. apply Nat.le_antisymm; apply total_le; intros; lia. Qed.
Lemma total_flat {A B} (f : B -> nat) (g : A -> list B) l : total f (flat_map g l) = total (fun a => total f (g a)) l.
Proof. induction l as [|a l IH]; [reflexivity|]. cbn [total flat_map]. rewrite total_app. lia. Qed.
Lemma total_pick {A B} (f : A -> option B) (v : B -> nat) (w : A -> nat) l : (forall a b, f a = Some b -> v b <= w a) -> total v (filter_map f l) <= total w l.
Proof. intros H. induction l as [|a l IH]; [reflexivity|]. unfold filter_map in *. cbn [flat_map total]. rewrite total_app. destruct (f a) eqn:E; cbn [total]; [pose proof (H _ _ E)|]; lia. Qed.

(** ** Clocks *)
Lemma cost_after {A B} (x : clocked A) (f : A -> clocked B) m k : snd x <= m -> snd (f (fst x)) <= k -> snd (after x f) <= m + k.
Proof. unfold after. cbn [snd]. lia. Qed.
Lemma cost_bind {A B} (x : clocked (outcome A)) (f : A -> clocked (outcome B)) m k :
  snd x <= m -> (forall a, fst x = Ok a -> snd (f a) <= k) -> snd (bind_c x f) <= m + k.
Proof. intros H K. unfold bind_c. apply cost_after; [exact H|]. destruct (fst x); [apply K; reflexivity|cbn; lia|cbn; lia]. Qed.
Lemma cost_fold {A B} (f : B -> A -> clocked (outcome B)) (v w : A -> nat) (I : nat -> B -> Prop) n P :
  (forall m b a, I m b -> m + v a <= n -> 1 + snd (f b a) <= w a * P) ->
  (forall m b a b', I m b -> m + v a <= n -> fst (f b a) = Ok b' -> I (m + v a) b') ->
  forall l m b, I m b -> m + total v l <= n -> snd (fold_c f l b) <= total w l * P.
Proof.
  intros H1 H2. induction l as [|a l IH]; intros m b Hb Hm; [cbn; lia|]. cbn [fold_c total] in *.
  eapply Nat.le_trans; [apply cost_after; [apply le_n|]; apply (cost_bind _ _ (snd (f b a)) (total w l * P)); [apply le_n|]|].
  - intros b' E. apply (IH (m + v a)); [|lia]. eapply H2; [exact Hb|lia|exact E].
  - cbn [snd spend]. assert (1 + snd (f b a) <= w a * P) by (apply (H1 m); [exact Hb|lia]). lia.
Qed.
Lemma fold_ok {A B} (f : B -> A -> clocked (outcome B)) (v : A -> nat) (I : nat -> B -> Prop) n :
  (forall m b a b', I m b -> m + v a <= n -> fst (f b a) = Ok b' -> I (m + v a) b') ->
  forall l m b b', I m b -> m + total v l <= n -> fst (fold_c f l b) = Ok b' -> I (m + total v l) b'.
Proof.
  intros H2. induction l as [|a l IH]; intros m b b' Hb Hm E; cbn [fold_c total] in *; [injection E as <-; rewrite Nat.add_0_r; exact Hb|].
  rewrite fst_after, fst_bind in E. destruct (fst (f b a)) as [b1| |] eqn:E1; cbn [bind] in E; try discriminate.
  rewrite Nat.add_assoc. eapply IH; [eapply H2; [exact Hb|lia|exact E1]|lia|exact E].
Qed.
Lemma cost_fold_in {A B} (f : B -> A -> clocked (outcome B)) (w : A -> nat) P l : (forall b a, In a l -> 1 + snd (f b a) <= w a * P) -> forall b, snd (fold_c f l b) <= total w l * P.
Proof.
  induction l as [|a l IH]; intros H b; [cbn; lia|]. cbn [fold_c total].
  eapply Nat.le_trans; [apply cost_after; [apply le_n|]; apply (cost_bind _ _ (snd (f b a)) (total w l * P)); [apply le_n|]|].
  - intros b' E. apply IH. intros c x Hx. apply H. right. exact Hx.
  - cbn [snd spend]. pose proof (H b a (or_introl eq_refl)). lia.
Qed.
Lemma cost_map {A B} (f : A -> clocked (outcome B)) (w : A -> nat) P l : (forall a, In a l -> 1 + snd (f a) <= w a * P) -> snd (map_c f l) <= total w l * P.
Proof.
  induction l as [|a l IH]; intros H; [cbn; lia|]. cbn [map_c total].
  assert (IH' : snd (map_c f l) <= total w l * P) by (apply IH; intros x Hx; apply H; right; exact Hx).
  eapply Nat.le_trans; [apply cost_after; [apply le_n|]; apply (cost_bind _ _ (snd (f a)) (total w l * P)); [apply le_n|]|].
  - intros b E. rewrite <- (Nat.add_0_r (total w l * P)). apply cost_bind; [exact IH'|]. intros bs _. cbn. lia.
  - cbn [snd spend]. pose proof (H a (or_introl eq_refl)). lia.
Qed.
Lemma cost_exists {A} (f : A -> clocked bool) (w : A -> nat) l : (forall a, In a l -> 1 + snd (f a) <= w a) -> snd (exists_c f l) <= total w l.
Proof.
  induction l as [|a l IH]; intros H; [cbn; lia|]. cbn [exists_c total]. assert (IH' : snd (exists_c f l) <= total w l) by (apply IH; intros x Hx; apply H; right; exact Hx).
  pose proof (H a (or_introl eq_refl)). eapply Nat.le_trans; [apply cost_after; [apply le_n|]; apply (cost_after _ _ (snd (f a)) (total w l)); [apply le_n|]|cbn [snd spend]; lia].
  destruct (fst (f a)); [cbn; lia|exact IH'].
Qed.
Lemma cost_forall {A} (f : A -> clocked bool) (w : A -> nat) l : (forall a, In a l -> 1 + snd (f a) <= w a) -> snd (forall_c f l) <= total w l.
Proof.
  induction l as [|a l IH]; intros H; [cbn; lia|]. cbn [forall_c total]. assert (IH' : snd (forall_c f l) <= total w l) by (apply IH; intros x Hx; apply H; right; exact Hx).
  pose proof (H a (or_introl eq_refl)). eapply Nat.le_trans; [apply cost_after; [apply le_n|]; apply (cost_after _ _ (snd (f a)) (total w l)); [apply le_n|]|cbn [snd spend]; lia].
  destruct (fst (f a)); [exact IH'|cbn; lia].
Qed.
Lemma cost_filter {A} (f : A -> clocked bool) (w : A -> nat) l : (forall a, In a l -> 1 + snd (f a) <= w a) -> snd (filter_c f l) <= total w l.
Proof.
  induction l as [|a l IH]; intros H; [cbn; lia|]. cbn [filter_c total]. assert (IH' : snd (filter_c f l) <= total w l) by (apply IH; intros x Hx; apply H; right; exact Hx).
  pose proof (H a (or_introl eq_refl)). unfold after. cbn [snd spend now]. lia.
Qed.
Lemma map_ok {A B} (f : A -> clocked (outcome B)) (R : A -> B -> Prop) l bs : (forall a b, In a l -> fst (f a) = Ok b -> R a b) -> fst (map_c f l) = Ok bs -> Forall2 R l bs.
Proof.
  revert bs. induction l as [|a l IH]; intros bs H E; cbn [map_c] in E; [injection E as <-; constructor|].
  rewrite fst_after, fst_bind in E. destruct (fst (f a)) as [b| |] eqn:Eb; cbn [bind] in E; try discriminate. rewrite fst_bind in E.
  destruct (fst (map_c f l)) as [bs'| |]; cbn [bind] in E; try discriminate. injection E as <-. constructor; [apply H; [left; reflexivity|exact Eb]|].
  apply IH; [|reflexivity]. intros x b' Hx. apply H. right. exact Hx.
Qed.
Lemma mul_r a b q : a <= b -> a * q <= b * q.
Proof. apply Nat.mul_le_mono_r. Qed.
Lemma get_in {V} (m : list (str * V)) k v : map_get m k = Some v -> In v (map snd m).
Proof. induction m as [|[k' v'] m IH]; cbn [map_get map]; [discriminate|]. destruct (str_eqb k k'); [intros [= <-]; left; reflexivity|right; auto]. Qed.
Lemma insert_len {V} (m : list (str * V)) k v : List.length (map_insert m k v) <= S (List.length m).
Proof. induction m as [|[k' v'] m IH]; cbn [map_insert List.length]; [lia|]. destruct (str_eqb k k'); cbn [List.length]; lia. Qed.
Lemma insert_in {V} (m : list (str * V)) k v x : In x (map snd (map_insert m k v)) -> x = v \/ In x (map snd m).
Proof. induction m as [|[k' v'] m IH]; cbn [map_insert map]; [intros [<-|[]]; auto|]. destruct (str_eqb k k'); cbn [map]; intros [<-|H]; auto; [right; right; exact H|right; left; reflexivity|]. destruct (IH H); auto. right. right. assumption. Qed.
Lemma pick_length {A B} (f : A -> option B) l : List.length (filter_map f l) <= List.length l.
Proof. induction l as [|a l IH]; [reflexivity|]. unfold filter_map in *. cbn [flat_map List.length]. rewrite app_length. destruct (f a); cbn [List.length]; lia. Qed.

Section Bound.
  Variables (Q : nat) (input : str).
  Hypothesis HI : 1 + List.length input <= Q.

  Lemma throw_cost {A} e sp : snd (@throw_c A e sp input) <= Q.
  Proof. cbn. lia. Qed.
  Lemma now_cost {A} (a : A) k : snd (now a) <= k.
  Proof. apply Nat.le_0_l. Qed.
  Lemma if_cost {A} (b : bool) (x y : clocked A) k : snd x <= k -> snd y <= k -> snd (if b then x else y) <= k.
  Proof. destruct b; auto. Qed.
  Lemma spend_cost {A} n (a : A) k : n <= k -> snd (spend n a) <= k.
  Proof. auto. Qed.
  Lemma mem_cost x l : 1 + List.length l <= Q -> snd (mem_c x l) <= Q.
  Proof. auto. Qed.

  Lemma attrs_cost l : 1 + List.length l <= Q -> snd (check_attr_duplicate_keys_c l input) <= (2 + List.length l) * Q.
  Proof.
    intros H. eapply Nat.le_trans; [apply (cost_after _ _ ((1 + List.length l) * Q) Q)|lia].
    - cbn [dup_c spend snd]. assert (List.length l * (1 + List.length l) <= List.length l * Q) by (apply Nat.mul_le_mono_l; lia). lia.
    - destruct (fst _); [apply throw_cost|apply now_cost].
  Qed.
  Lemma props_cost l : 1 + List.length l <= Q -> snd (check_prop_duplicate_keys_c l input) <= (2 + List.length l) * Q.
  Proof.
    intros H. eapply Nat.le_trans; [apply (cost_after _ _ ((1 + List.length l) * Q) Q)|lia].
    - cbn [dup_c spend snd]. assert (List.length l * (1 + List.length l) <= List.length l * Q) by (apply Nat.mul_le_mono_l; lia). lia.
    - destruct (fst _); [apply throw_cost|apply now_cost].
  Qed.
  Lemma opt_attrs_cost {T} (f : T -> _) o : 1 + attrs_w f o <= Q -> snd (check_opt_attrs_c f o input) <= (2 + attrs_w f o) * Q.
  Proof. destruct o as [st|]; cbn [attrs_w given check_opt_attrs_c]; intros H; [apply attrs_cost; exact H|apply now_cost]. Qed.

  (** *** The index *)
  Record small (m : nat) (ix : indexer) : Prop := {
    sm_schemas : List.length (schema_map ix) <= m;
    sm_aliases : List.length (table_alias_map ix) <= m;
    sm_groups : List.length (table_group_map ix) <= m;
    sm_tables : forall b, In b (map snd (schema_map ix)) -> List.length (table_map b) <= m /\ List.length (enum_map b) <= m /\
      (forall l, In l (map snd (table_map b)) -> 1 + List.length l <= Q) /\ (forall l, In l (map snd (enum_map b)) -> 1 + List.length l <= Q) }.
  Lemma small0 m : small m indexer0.
  Proof. clear HI. constructor; cbn; try lia; intros b []. Qed.
  Lemma small_le m n ix : m <= n -> small m ix -> small n ix.
  Proof. clear HI. intros H [A B C D]. constructor; try lia. intros b Hb. destruct (D b Hb) as (D1 & D2 & D3 & D4). repeat split; auto; lia. Qed.
  Lemma small_entry m ix k : small m ix -> List.length (table_map (schema_entry ix k)) <= m /\ List.length (enum_map (schema_entry ix k)) <= m /\
      (forall l, In l (map snd (table_map (schema_entry ix k))) -> 1 + List.length l <= Q) /\ (forall l, In l (map snd (enum_map (schema_entry ix k))) -> 1 + List.length l <= Q).
  Proof.
    intros H. unfold schema_entry. destruct (map_get _ _) as [b|] eqn:E; [apply (sm_tables _ _ H), (get_in _ _ _ E)|]. cbn. repeat split; try lia; intros l [].
  Qed.
  Lemma contains_table_cost ix a b m : small m ix -> m < Q -> snd (contains_table_c ix a b) <= 2 * Q.
  Proof.
    intros H Hm. eapply Nat.le_trans; [apply (cost_after _ _ Q Q)|lia]; [pose proof (sm_schemas _ _ H); cbn; lia|]. cbn [get_c spend fst].
    destruct (map_get _ _) as [x|] eqn:E; [|apply now_cost]. destruct (sm_tables _ _ H _ (get_in _ _ _ E)) as (D1 & _). cbn. lia.
  Qed.
  Lemma contains_enum_cost ix a b m : small m ix -> m < Q -> snd (contains_enum_c ix a b) <= 2 * Q.
  Proof.
    intros H Hm. eapply Nat.le_trans; [apply (cost_after _ _ Q Q)|lia]; [pose proof (sm_schemas _ _ H); cbn; lia|]. cbn [get_c spend fst].
    destruct (map_get _ _) as [x|] eqn:E; [|apply now_cost]. destruct (sm_tables _ _ H _ (get_in _ _ _ E)) as (_ & D1 & _). cbn. lia.
  Qed.
  Lemma names_grow {A} (f : A -> str) (body : list str -> A -> clocked (outcome (list str))) (Hb : forall seen a seen', fst (body seen a) = Ok seen' -> seen' = f a :: seen) l m seen seen' :
    List.length seen <= m -> fst (fold_c body l seen) = Ok seen' -> List.length seen' <= m + List.length l.
  Proof.
    intros H E. rewrite <- (total_one l). apply (fold_ok body (fun _ => 1) (fun k s => List.length s <= k) (m + total (fun _ => 1) l)) with (b := seen); auto.
    intros k b a b' Hk _ E1. rewrite (Hb _ _ _ E1). cbn [List.length]. lia.
  Qed.
  Lemma col1_grow seen c seen' : fst (index_col1_c input seen c) = Ok seen' -> seen' = id_str (tc_name c) :: seen.
  Proof.
    unfold index_col1_c. rewrite fst_bind. destruct (fst (check_opt_attrs_c _ _ _)) as [?| |]; cbn [bind]; try discriminate. rewrite fst_after.
    destruct (fst (mem_c _ _)); cbn; [unfold throw_err; destruct (span_ok _ _); discriminate|intros [= <-]; reflexivity].
  Qed.
  Lemma value1_grow seen c seen' : fst (index_enum_value1_c input seen c) = Ok seen' -> seen' = id_str (ev_value c) :: seen.
  Proof.
    unfold index_enum_value1_c. rewrite fst_bind. destruct (fst (check_opt_attrs_c _ _ _)) as [?| |]; cbn [bind]; try discriminate. rewrite fst_after.
    destruct (fst (mem_c _ _)); cbn; [unfold throw_err; destruct (span_ok _ _); discriminate|intros [= <-]; reflexivity].
  Qed.
  Lemma index_cols_cost l : 1 + total col_w l <= Q -> snd (index_cols_c l input) <= total (fun c => 5 * col_w c) l * Q.
  Proof.
    intros H. apply (cost_fold (index_col1_c input) col_w (fun c => 5 * col_w c) (fun k s => List.length s <= k) (total col_w l)) with (m := 0); try (cbn; lia).
    - intros m b a Hb Hm. assert (Hw : 1 + attrs_w cs_attributes (tc_settings a) <= col_w a) by (unfold col_w; lia). assert (Ha : 1 + attrs_w cs_attributes (tc_settings a) <= Q) by lia.
      eapply Nat.le_trans; [apply (Nat.add_le_mono_l _ ((2 + attrs_w cs_attributes (tc_settings a)) * Q + (Q + Q)))|].
      + unfold index_col1_c. apply cost_bind; [apply opt_attrs_cost; exact Ha|]. intros _ _. cbv zeta. apply cost_after; [apply mem_cost; lia|]. apply if_cost; [apply throw_cost|apply now_cost].
      + eapply Nat.le_trans; [|apply (mul_r (5 + attrs_w cs_attributes (tc_settings a))); unfold col_w; lia]. lia.
    - intros m b a b' Hb Hm E. rewrite (col1_grow _ _ _ E). cbn [List.length]. unfold col_w. lia.
  Qed.
  Lemma values_cost l : 1 + total evalue_w l <= Q -> snd (fold_c (index_enum_value1_c input) l []) <= total (fun c => 5 * evalue_w c) l * Q.
  Proof.
    intros H. apply (cost_fold (index_enum_value1_c input) evalue_w (fun c => 5 * evalue_w c) (fun k s => List.length s <= k) (total evalue_w l)) with (m := 0); try (cbn; lia).
    - intros m b a Hb Hm. assert (Hw : 1 + attrs_w evs_attributes (ev_settings a) <= evalue_w a) by (unfold evalue_w; lia). assert (Ha : 1 + attrs_w evs_attributes (ev_settings a) <= Q) by lia.
      eapply Nat.le_trans; [apply (Nat.add_le_mono_l _ ((2 + attrs_w evs_attributes (ev_settings a)) * Q + (Q + Q)))|].
      + unfold index_enum_value1_c. apply cost_bind; [apply opt_attrs_cost; exact Ha|]. intros _ _. cbv zeta. apply cost_after; [apply mem_cost; lia|]. apply if_cost; [apply throw_cost|apply now_cost].
      + eapply Nat.le_trans; [|apply (mul_r (5 + attrs_w evs_attributes (ev_settings a))); unfold evalue_w; lia]. lia.
    - intros m b a b' Hb Hm E. rewrite (value1_grow _ _ _ E). cbn [List.length]. unfold evalue_w. lia.
  Qed.
  Lemma index_table1_cost m ix t : small m ix -> m + table_w t < Q -> 1 + snd (index_table1_c input ix t) <= 12 * table_w t * Q.
  Proof.
    intros Sm Hm. pose proof (sm_schemas _ _ Sm) as S1. pose proof (sm_aliases _ _ Sm) as S2. unfold table_w in Hm.
    eapply Nat.le_trans; [apply (Nat.add_le_mono_l _ ((2 + attrs_w ts_attributes (tb_settings t)) * Q + (2 * Q + (Q + (total (fun c => 5 * col_w c) (tb_cols t) * Q + (Q + (Q + (Q + (Q + (Q + Q))))))))))|].
    - unfold index_table1_c. apply cost_bind; [apply opt_attrs_cost; lia|]. intros _ _. cbv zeta. apply cost_after; [eapply contains_table_cost; [exact Sm|lia]|].
      apply cost_bind; [apply if_cost; [apply throw_cost|apply now_cost]|]. intros _ _. apply cost_bind; [apply index_cols_cost; lia|]. intros cols _.
      apply cost_after; [unfold schema_entry_c; cbn; lia|]. rewrite schema_entry_same. destruct (small_entry _ _ (schema_or_default (ti_schema (tb_ident t))) Sm) as (E1 & E2 & _).
      apply cost_after; [cbn; lia|]. apply cost_after; [cbn; lia|]. destruct (ti_alias _); [|apply now_cost].
      apply cost_after; [cbn; lia|]. apply cost_after; [cbn; lia|]. apply if_cost; [apply throw_cost|apply now_cost].
    - rewrite total_scale. eapply Nat.le_trans; [|apply (mul_r (12 + attrs_w ts_attributes (tb_settings t) + 5 * total col_w (tb_cols t))); unfold table_w; lia]. lia.
  Qed.
  Lemma throw_not {A} e sp (a : A) : throw_err e sp input <> Ok a.
  Proof. unfold throw_err. destruct (span_ok _ _); discriminate. Qed.
  Lemma bind_ok {A B} (x : outcome A) (f : A -> outcome B) b : bind x f = Ok b -> exists a, x = Ok a /\ f a = Ok b.
  Proof. destruct x; cbn; try discriminate. eauto. Qed.
  Lemma index_table1_small m ix t ix' : small m ix -> m + table_w t < Q -> fst (index_table1_c input ix t) = Ok ix' -> small (m + table_w t) ix'.
  Proof.
    intros Sm Hm E. unfold index_table1_c in E. rewrite fst_bind in E. apply bind_ok in E as (_ & _ & E). cbv zeta in E. rewrite fst_after, fst_bind in E. apply bind_ok in E as (_ & _ & E).
    rewrite fst_bind in E. apply bind_ok in E as (cols & Ec & E). rewrite !fst_after in E. cbn [insert_c spend fst] in E. rewrite schema_entry_same in E.
    assert (Hc : 1 + List.length cols <= Q).
    { pose proof (names_grow _ _ col1_grow _ 0 [] _ (le_n 0) Ec). assert (List.length (tb_cols t) <= total col_w (tb_cols t)) by (apply total_length; intros; unfold col_w; lia). unfold table_w in Hm. lia. }
    destruct (small_entry _ _ (schema_or_default (ti_schema (tb_ident t))) Sm) as (E1 & E2 & E3 & E4).
    assert (R : forall am, List.length am <= S (List.length (table_alias_map ix)) -> small (m + table_w t)
      (mkIndexer (table_group_map ix) (map_insert (schema_map ix) (schema_or_default (ti_schema (tb_ident t)))
         (mkIndexedSchema (map_insert (table_map (schema_entry ix (schema_or_default (ti_schema (tb_ident t))))) (id_str (ti_name (tb_ident t))) cols) (enum_map (schema_entry ix (schema_or_default (ti_schema (tb_ident t))))))) am)).
    { intros am Ham. destruct Sm as [A B C D]. assert (1 <= table_w t) by (unfold table_w; lia). constructor; cbn [schema_map table_alias_map table_group_map].
      - pose proof (insert_len (schema_map ix) (schema_or_default (ti_schema (tb_ident t))) (mkIndexedSchema (map_insert (table_map (schema_entry ix (schema_or_default (ti_schema (tb_ident t))))) (id_str (ti_name (tb_ident t))) cols) (enum_map (schema_entry ix (schema_or_default (ti_schema (tb_ident t))))))). lia.
      - lia.
      - lia.
      - intros b Hb. apply insert_in in Hb as [->|Hb].
        + cbn [table_map enum_map]. pose proof (insert_len (table_map (schema_entry ix (schema_or_default (ti_schema (tb_ident t))))) (id_str (ti_name (tb_ident t))) cols). repeat split; try lia; auto.
          intros l Hl. apply insert_in in Hl as [->|Hl]; auto.
        + destruct (D b Hb) as (D1 & D2 & D3 & D4). repeat split; auto; lia. }
    destruct (ti_alias _) as [a|].
    - rewrite !fst_after in E. cbn [insert_c spend fst] in E. destruct (fst (contains_c _ _)); cbn in E; [exfalso; eapply throw_not; exact E|]. injection E as <-. apply R. apply insert_len.
    - injection E as <-. apply R. lia.
  Qed.
  Lemma index_enum1_cost m ix e : small m ix -> m + enum_w e < Q -> 1 + snd (index_enum1_c input ix e) <= 12 * enum_w e * Q.
  Proof.
    intros Sm Hm. pose proof (sm_schemas _ _ Sm) as S1. unfold enum_w in Hm.
    eapply Nat.le_trans; [apply (Nat.add_le_mono_l _ (2 * Q + (Q + (total (fun c => 5 * evalue_w c) (en_values e) * Q + (Q + (Q + (Q + 0)))))))|].
    - unfold index_enum1_c. cbv zeta. apply cost_after; [eapply contains_enum_cost; [exact Sm|lia]|].
      apply cost_bind; [apply if_cost; [apply throw_cost|apply now_cost]|]. intros _ _. apply cost_bind; [apply values_cost; lia|]. intros vals _.
      apply cost_after; [unfold schema_entry_c; cbn; lia|]. rewrite schema_entry_same. destruct (small_entry _ _ (schema_or_default (ei_schema (en_ident e))) Sm) as (E1 & E2 & _).
      apply cost_after; [cbn; lia|]. apply cost_after; [cbn; lia|]. apply now_cost.
    - rewrite total_scale. eapply Nat.le_trans; [|apply (mul_r (12 + 5 * total evalue_w (en_values e))); unfold enum_w; lia]. lia.
  Qed.
  Lemma index_enum1_small m ix e ix' : small m ix -> m + enum_w e < Q -> fst (index_enum1_c input ix e) = Ok ix' -> small (m + enum_w e) ix'.
  Proof.
    intros Sm Hm E. unfold index_enum1_c in E. cbv zeta in E. rewrite fst_after, fst_bind in E. apply bind_ok in E as (_ & _ & E).
    rewrite fst_bind in E. apply bind_ok in E as (vals & Ec & E). rewrite !fst_after in E. cbn [insert_c spend fst now] in E. rewrite schema_entry_same in E.
    assert (Hc : 1 + List.length vals <= Q).
    { pose proof (names_grow _ _ value1_grow _ 0 [] _ (le_n 0) Ec). assert (List.length (en_values e) <= total evalue_w (en_values e)) by (apply total_length; intros; unfold evalue_w; lia). unfold enum_w in Hm. lia. }
    destruct (small_entry _ _ (schema_or_default (ei_schema (en_ident e))) Sm) as (E1 & E2 & E3 & E4). injection E as <-. 
    destruct Sm as [A B C D]. assert (1 <= enum_w e) by (unfold enum_w; lia). constructor; cbn [schema_map table_alias_map table_group_map]; try lia.
    - eapply Nat.le_trans; [apply insert_len|]. lia.
    - intros b Hb. apply insert_in in Hb as [->|Hb].
      + cbn [table_map enum_map]. repeat split; try lia; auto; [eapply Nat.le_trans; [apply insert_len|]; lia|].
        intros l Hl. apply insert_in in Hl as [->|Hl]; auto.
      + destruct (D b Hb) as (D1 & D2 & D3 & D4). repeat split; auto; lia.
  Qed.
  Lemma item_cost m ix it : small m ix -> m < Q -> snd (resolve_group_item_c ix it input) <= 4 * Q.
  Proof.
    intros Sm Hm. pose proof (sm_aliases _ _ Sm). unfold resolve_group_item_c. cbv zeta. destruct (gi_schema it); [apply now_cost|].
    eapply Nat.le_trans; [apply (cost_after _ _ Q (2 * Q + Q))|lia]; [cbn; lia|]. destruct (fst _); [apply now_cost|]. apply cost_after; [eapply contains_table_cost; eassumption|].
    apply if_cost; [apply now_cost|apply throw_cost].
  Qed.
  Lemma index_group1_cost m ix g : small m ix -> m + group_w g < Q -> 1 + snd (index_table_group1_c input ix g) <= 7 * group_w g * Q.
  Proof.
    intros Sm Hm. pose proof (sm_groups _ _ Sm) as S1. unfold group_w in *.
    eapply Nat.le_trans; [apply (Nat.add_le_mono_l _ (Q + (Q + (total (fun _ => 7) (tg_items g) * Q + (Q + 0)))))|].
    - unfold index_table_group1_c. cbv zeta. apply cost_after; [cbn; lia|]. apply cost_bind; [apply if_cost; [apply throw_cost|apply now_cost]|]. intros _ _.
      apply cost_bind; [|intros items _; apply cost_after; [cbn; lia|apply now_cost]].
      apply (cost_fold (index_group_item1_c ix input) (fun _ => 1) (fun _ => 7) (fun k s => List.length s <= k) (List.length (tg_items g))) with (m := 0); try (rewrite ?total_one; cbn; lia).
      + intros k b a Hk Hn. eapply Nat.le_trans; [apply (Nat.add_le_mono_l _ (4 * Q + (Q + Q)))|lia]. unfold index_group_item1_c. apply cost_bind; [eapply item_cost; [exact Sm|lia]|].
        intros id _. apply cost_after; [cbn; lia|]. apply if_cost; [apply throw_cost|apply now_cost].
      + intros k b a b' Hk Hn E. unfold index_group_item1_c in E. rewrite fst_bind in E. apply bind_ok in E as (id & _ & E). rewrite fst_after in E.
        destruct (fst (pair_mem_c _ _)); cbn in E; [exfalso; eapply throw_not; exact E|]. injection E as <-. cbn [List.length]. lia.
    - rewrite total_const. lia.
  Qed.
  Lemma index_group1_small m ix g ix' : small m ix -> m + group_w g < Q -> fst (index_table_group1_c input ix g) = Ok ix' -> small (m + group_w g) ix'.
  Proof.
    intros Sm Hm E. unfold index_table_group1_c in E. cbv zeta in E. rewrite fst_after, fst_bind in E. apply bind_ok in E as (_ & _ & E).
    rewrite fst_bind in E. apply bind_ok in E as (items & _ & E). rewrite fst_after in E. cbn [insert_c spend fst now] in E. injection E as <-.
    destruct Sm as [A B C D]. assert (1 <= group_w g) by (unfold group_w; lia). constructor; cbn [schema_map table_alias_map table_group_map]; try lia.
    - eapply Nat.le_trans; [apply insert_len|]. lia.
    - intros b Hb. destruct (D b Hb) as (D1 & D2 & D3 & D4). repeat split; auto; lia.
  Qed.
End Bound.
