(** * BuildWorkBound: building the AST is linear in the tree of pairs, and so in the text. *)

From Verif Require Import PegFacts WorkOk CheckWorkSame BuildWork BuildWorkSame.
Local Open Scope nat_scope.

(** ** The weight of a tree: a unit and its characters for every pair *)
Fixpoint weight (p : pair) : nat :=
  let '(Pair _ _ _ t inner) := p in 1 + List.length t + fold_right (fun q n => weight q + n) 0 inner.
Definition weights (l : list pair) : nat := fold_right (fun q n => weight q + n) 0 l.
Lemma weight_eq p : weight p = 1 + List.length (as_str p) + weights (into_inner p).
Proof. destruct p; reflexivity. Qed.
Lemma weights_cons p l : weights (p :: l) = weight p + weights l. Proof. reflexivity. Qed.
Lemma weights_app l m : weights (l ++ m) = weights l + weights m.
Proof. induction l as [|p l IH]; cbn [app]; [reflexivity|]. rewrite !weights_cons, IH. lia. Qed.
Lemma weight_in p l : In p l -> weight p <= weights l.
Proof. induction l as [|q l IH]; [easy|]. rewrite weights_cons. intros [->|I]; [|specialize (IH I)]; lia. Qed.
Lemma pairs_str_le l : List.length (pairs_as_str l) <= weights l.
Proof. induction l as [|p l IH]; [reflexivity|]. unfold pairs_as_str in *. cbn [map List.concat]. rewrite app_length, weights_cons, (weight_eq p). lia. Qed.

(** In the trees of the grammar, a type has one name, and a column one type. *)
Definition is_name (r : rule) : bool := match r with R_var | R_spaced_var => true | _ => false end.
Definition is_named (r : rule) : bool := match r with R_col_type_quoted | R_col_type_unquoted => true | _ => false end.
Definition single (r : rule) : rule -> bool :=
  match r with R_col_type => is_named | R_col_type_quoted | R_col_type_unquoted => is_name | _ => fun _ => false end.
Definition count (f : rule -> bool) (l : list pair) : nat := List.length (filter (fun p => f (p_rule p)) l).
Fixpoint once (p : pair) : bool :=
  let '(Pair r _ _ _ inner) := p in (count (single r) inner <=? 1) && forallb once inner.
Lemma once_eq p : once p = (count (single (p_rule p)) (into_inner p) <=? 1) && forallb once (into_inner p).
Proof. destruct p; reflexivity. Qed.
Lemma once_in p q : once p = true -> In q (into_inner p) -> once q = true.
Proof. rewrite once_eq. intros H I. apply andb_true_iff in H as [_ H]. rewrite forallb_forall in H. auto. Qed.
Lemma once_count p : once p = true -> count (single (p_rule p)) (into_inner p) <= 1.
Proof. rewrite once_eq. intros H. apply andb_true_iff in H as [H _]. now apply Nat.leb_le. Qed.

(** ** The clock *)
Lemma snd_bind {A B} (x : clocked (outcome A)) (f : A -> clocked (outcome B)) :
  snd (bind_c x f) = snd x + match fst x with Ok a => snd (f a) | _ => 0 end.
Proof. unfold bind_c, CheckWork.after. cbn [snd]. destruct (fst x); reflexivity. Qed.
Lemma snd_after {A B} (x : clocked A) (f : A -> clocked B) : snd (CheckWork.after x f) = snd x + snd (f (fst x)).
Proof. reflexivity. Qed.
Lemma snd_omap {A B} (f : A -> B) x : snd (omap_c f x) = snd x. Proof. reflexivity. Qed.
Lemma snd_spend {A} n (a : A) : snd (spend n a) = n. Proof. reflexivity. Qed.
Lemma snd_now {A} (a : A) : snd (now a) = 0. Proof. reflexivity. Qed.

Lemma fold_bound {B} (f : B -> pair -> clocked (outcome B)) K l :
  (forall b a, In a l -> snd (f b a) + 1 <= K * weight a) -> forall b, snd (fold_c f l b) <= K * weights l.
Proof.
  induction l as [|a l IH]; intros H b; [cbn; lia|]. cbn [fold_c]. rewrite snd_after, snd_bind, snd_spend, weights_cons.
  pose proof (H b a (or_introl eq_refl)). destruct (fst (f b a)) as [b'|e|]; try lia.
  specialize (IH (fun b a I => H b a (or_intror I)) b'). lia.
Qed.
Lemma map_bound {B} (f : pair -> clocked (outcome B)) K l :
  (forall a, In a l -> snd (f a) + 1 <= K * weight a) -> snd (map_c f l) <= K * weights l.
Proof.
  induction l as [|a l IH]; intros H; [cbn; lia|]. cbn [map_c]. rewrite snd_after, snd_bind, snd_spend, weights_cons.
  pose proof (H a (or_introl eq_refl)). destruct (fst (f a)) as [b'|e|]; try lia.
  specialize (IH (fun a I => H a (or_intror I))). rewrite snd_bind. destruct (fst (map_c f l)); cbn [snd now]; lia.
Qed.
(** With a state, and a charge for some of the elements. *)
Lemma fold_charge {B} (P : B -> Prop) (g : rule -> bool) X (f : B -> pair -> clocked (outcome B)) K l :
  (forall b a, P b -> In a l -> snd (f b a) + 1 <= K * weight a + (if g (p_rule a) then X else 0)) ->
  (forall b a b', P b -> In a l -> fst (f b a) = Ok b' -> P b') ->
  forall b, P b -> snd (fold_c f l b) <= K * weights l + count g l * X.
Proof.
  induction l as [|a l IH]; intros H HP b Hb; [cbn; lia|]. cbn [fold_c]. rewrite snd_after, snd_bind, snd_spend, weights_cons.
  pose proof (H b a Hb (or_introl eq_refl)) as H1. unfold count in *. cbn [filter]. destruct (g (p_rule a)); cbn [List.length] in *.
  all: destruct (fst (f b a)) as [b'|e|] eqn:E; try lia.
  all: pose proof (IH (fun b a Hb I => H b a Hb (or_intror I)) (fun b a b' Hb I => HP b a b' Hb (or_intror I)) b' (HP _ _ _ Hb (or_introl eq_refl) E)); lia.
Qed.
Lemma fold_state {A B} (P : B -> Prop) (f : B -> A -> outcome B) l :
  (forall b a b', P b -> In a l -> f b a = Ok b' -> P b') -> forall b b', P b -> try_fold f l b = Ok b' -> P b'.
Proof.
  induction l as [|a l IH]; intros H b b' Hb; cbn [try_fold]; [now intros [= <-]|]. destruct (f b a) as [b1|e|] eqn:E; cbn [bind]; try discriminate.
  apply IH; eauto using in_eq, in_cons.
Qed.

(** ** The sizes of what is built *)
Lemma ident_size p i : parse_ident p = Ok i -> List.length (id_str i) <= weight p.
Proof.
  unfold parse_ident. rewrite (weight_eq p). destruct (into_inner p) as [|p1 l]; [discriminate|]. rewrite weights_cons, (weight_eq p1).
  pose proof (pairs_str_le (into_inner p1)). destruct (p_rule p1); try discriminate; intros [= <-]; cbn [id_str]; lia.
Qed.
Lemma string_size p v : parse_string_value p = Ok v -> List.length v <= weight p.
Proof.
  intros H. enough (List.length v <= weights (into_inner p)) by (rewrite weight_eq; lia). revert H. unfold parse_string_value.
  apply (fold_state (fun v => List.length v <= weights (into_inner p))); [|cbn; lia]. clear v. intros b a b' Hb Ha.
  assert (W : forall q, In q (into_inner a) -> List.length (as_str q) <= weights (into_inner p)).
  { intros q Hq. apply weight_in in Hq, Ha. rewrite (weight_eq a) in Ha. rewrite (weight_eq q) in Hq. lia. }
  destruct (p_rule a); try discriminate; (apply (fold_state (fun v => List.length v <= weights (into_inner p))); [|exact Hb];
    intros c q c' Hc Hq; destruct (p_rule q); try discriminate; intros [= <-]; auto).
Qed.
Lemma value_size p v : parse_value p = Ok v -> cloning v <= 1 + weight p /\ printing v <= 6 + weight p.
Proof.
  unfold parse_value. rewrite (weight_eq p). destruct (into_inner p) as [|p1 l]; [discriminate|]. rewrite weights_cons.
  pose proof (string_size p1) as HS. pose proof (pairs_str_le (into_inner p1)) as HP. rewrite (weight_eq p1) in *.
  destruct (p_rule p1); try discriminate.
  all: match goal with
    | |- context [value_from_str] =>
        destruct (value_from_str (as_str p1)) as [v0|] eqn:E; [|discriminate]; intros [= <-]; revert E; unfold value_from_str;
        destruct (str_eqb (as_str p1) (s "true")); [intros [= <-]; cbn; lia|]; destruct (str_eqb (as_str p1) (s "false")); [intros [= <-]; cbn; lia|];
        destruct (str_eqb (as_str p1) (s "null")); [intros [= <-]; cbn; lia|discriminate]
    | |- context [f64_of_lit] =>
        destruct (into_inner p1) as [|p2 l2]; [discriminate|]; destruct (p_rule p2); try discriminate;
        try (destruct (parse_i64 (as_str p2)); [|discriminate]); intros [= <-]; cbn; lia
    | |- context [parse_string_value] =>
        destruct (parse_string_value p1) as [x|e|]; cbn [omap]; try discriminate; intros [= <-]; specialize (HS _ eq_refl); cbn; unfold copying; lia
    | _ => intros [= <-]; cbn; unfold copying; lia
    end.
Qed.
Definition attr_sized (W : nat) (a : attribute_t) : Prop :=
  match at_value a with
  | Some l => List.length (lit_raw l) <= W /\ cloning (lit_value l) <= 1 + W /\ printing (lit_value l) <= 6 + W
  | None => True
  end.
Lemma attribute_size p a : parse_attribute p = Ok a -> attr_sized (weight p) a.
Proof.
  unfold parse_attribute. apply (fold_state (attr_sized (weight p))); [|exact Logic.I]. intros b q b' Hb Hq. apply weight_in in Hq.
  assert (Hw : weight q + 1 <= weight p) by (rewrite (weight_eq p); lia). clear Hq. pose proof (value_size q) as HV. pose proof (weight_eq q) as Wq.
  pose proof (pairs_str_le (into_inner q)) as HP. destruct (p_rule q); try discriminate.
  all: match goal with
    | |- context [id_raw] => destruct (id_raw (at_key b)); intros [= <-]; [exact Hb|]; unfold attr_sized; cbn; unfold copying; lia
    | |- context [parse_value] =>
        destruct (parse_value q) as [v|e|] eqn:E; cbn [bind]; try discriminate; intros [= <-]; specialize (HV _ eq_refl); unfold attr_sized; cbn; lia
    | _ => intros [= <-]; unfold attr_sized; cbn; unfold copying; lia
    end.
Qed.
Lemma attr_printing_le W a : attr_sized W a -> attr_printing a <= 8 + 3 * W.
Proof. unfold attr_sized, attr_printing. destruct (at_value a) as [l|]; unfold copying; lia. Qed.
Lemma attribute_printing p a : fst (parse_attribute_c p) = Ok a -> attr_printing a <= 8 + 3 * weight p.
Proof. rewrite attribute_same. intros H. now apply attr_printing_le, attribute_size. Qed.
