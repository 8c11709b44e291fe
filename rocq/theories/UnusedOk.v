(** * UnusedOk: what depends on nothing that is gone stays valid. *)

From Verif Require Import Rules SynVerdict ValidityOk VariantsOk Union.
From Verif Require Import Api Answer.
From Verif Require Export Unused.

(** ** Fewer *)
Lemma fewer_in {A} (R : A -> A -> Prop) l l' y : fewer R l l' -> In y l' -> exists x, In x l /\ R x y.
Proof.
  intros H. induction H as [|x z l l' Hx H IH|x l l' H IH]; intros Hy; [destruct Hy| |].
  - destruct Hy as [<-|Hy]; [exists x; split; [left; reflexivity|exact Hx]|]. destruct (IH Hy) as (u & H1 & H2). exists u. split; [right; exact H1|exact H2].
  - destruct (IH Hy) as (u & H1 & H2). exists u. split; [right; exact H1|exact H2].
Qed.
Lemma some_in {A} (l l' : list A) y : some_of l l' -> In y l' -> In y l.
Proof. intros H Hy. destruct (fewer_in _ _ _ _ H Hy) as (x & H1 & ->). exact H1. Qed.
Lemma fewer_split {A} (R : A -> A -> Prop) l l' l1' y l2' : fewer R l l' -> l' = l1' ++ y :: l2' ->
  exists l1 x l2, l = l1 ++ x :: l2 /\ R x y /\ fewer R l1 l1' /\ fewer R l2 l2'.
Proof.
  intros H. revert l1'. induction H as [|x z l l' Hx H IH|x l l' H IH]; intros l1' E; [destruct l1'; discriminate| |].
  - destruct l1' as [|w l1']; cbn in E; injection E as -> E.
    + subst l'. exists [], x, l. split; [reflexivity|]. split; [exact Hx|]. split; [constructor|exact H].
    + destruct (IH _ E) as (l1 & x0 & l2 & -> & H1 & H2 & H3). exists (x :: l1), x0, l2. split; [reflexivity|]. split; [exact H1|]. split; [constructor; assumption|exact H3].
  - destruct (IH _ E) as (l1 & x0 & l2 & -> & H1 & H2 & H3). exists (x :: l1), x0, l2. split; [reflexivity|]. split; [exact H1|]. split; [apply fw_drop; assumption|exact H3].
Qed.
Lemma fewer_map {A B} (R : A -> A -> Prop) (f : A -> B) l l' : (forall x y, R x y -> f y = f x) -> fewer R l l' -> some_of (map f l) (map f l').
Proof. intros Hf H. induction H as [|x y l l' Hx H IH|x l l' H IH]; cbn [map]; [constructor|constructor; [symmetry; auto|exact IH]|apply fw_drop; exact IH]. Qed.
Lemma some_nodup {A} (l l' : list A) : some_of l l' -> NoDup l -> NoDup l'.
Proof.
  intros H. induction H as [|x y l l' Hx H IH|x l l' H IH]; intros N; [constructor| |].
  - subst y. inversion N as [|? ? N1 N2]; subst. constructor; [|auto]. intros K. apply N1. eapply some_in; eassumption.
  - inversion N; subst. auto.
Qed.
Lemma fewer_nodup {A B} (R : A -> A -> Prop) (f : A -> B) l l' : (forall x y, R x y -> f y = f x) -> fewer R l l' -> NoDup (map f l) -> NoDup (map f l').
Proof. intros Hf H. apply some_nodup. eapply fewer_map; eassumption. Qed.
Lemma fewer_app {A} (R : A -> A -> Prop) a a' b b' : fewer R a a' -> fewer R b b' -> fewer R (a ++ b) (a' ++ b').
Proof. intros H H'. induction H as [|x y l l' Hx H IH|x l l' H IH]; cbn [app]; [exact H'|constructor; assumption|apply fw_drop; exact IH]. Qed.
Lemma some_none {A} (l : list A) : some_of l [].
Proof. induction l as [|x l IH]; [constructor|apply fw_drop; exact IH]. Qed.
Lemma some_refl {A} (l : list A) : some_of l l.
Proof. induction l as [|x l IH]; [constructor|constructor; [reflexivity|exact IH]]. Qed.
Lemma fewer_flat {A B} (R : A -> A -> Prop) (f : A -> list B) l l' : (forall x y, R x y -> some_of (f x) (f y)) -> fewer R l l' -> some_of (flat_map f l) (flat_map f l').
Proof.
  intros Hf H. induction H as [|x y l l' Hx H IH|x l l' H IH]; cbn [flat_map]; [constructor|apply fewer_app; [apply Hf; exact Hx|exact IH]|].
  change (flat_map f l') with ([] ++ flat_map f l'). apply fewer_app; [apply some_none|exact IH].
Qed.
Lemma fewer_pick {A B} (R : A -> A -> Prop) (S : B -> B -> Prop) (f : A -> option B) l l' :
  (forall x y v, R x y -> f y = Some v -> exists u, f x = Some u /\ S u v) -> fewer R l l' -> fewer S (pick f l) (pick f l').
Proof.
  intros Hf H. induction H as [|x y l l' Hx H IH|x l l' H IH]; [constructor| |]; rewrite !VariantsOk.pick_cons.
  - apply fewer_app; [|exact IH]. destruct (f y) as [v|] eqn:E.
    + destruct (Hf _ _ _ Hx E) as (u & -> & Hu). constructor; [exact Hu|constructor].
    + destruct (f x); [apply fw_drop|]; constructor.
  - change (pick f l') with ([] ++ pick f l'). apply fewer_app; [|exact IH]. destruct (f x); [apply fw_drop|]; constructor.
Qed.
Lemma some_forall {A} (P : A -> Prop) l l' : some_of l l' -> Forall P l -> Forall P l'.
Proof. intros H. rewrite !Forall_forall. intros F x Hx. apply F. eapply some_in; eassumption. Qed.
Lemma fewer_forall {A} (R : A -> A -> Prop) (P Q : A -> Prop) l l' : (forall x y, R x y -> P x -> Q y) -> fewer R l l' -> Forall P l -> Forall Q l'.
Proof. intros HR H. rewrite !Forall_forall. intros F y Hy. destruct (fewer_in _ _ _ _ H Hy) as (x & H1 & H2). eauto. Qed.
Lemma nodup_inj {A B} (f : A -> B) l x y : NoDup (map f l) -> In x l -> In y l -> f x = f y -> x = y.
Proof.
  induction l as [|z l IH]; intros N Hx Hy E; [destruct Hx|]. cbn in N. inversion N as [|? ? N1 N2]; subst.
  destruct Hx as [->|Hx], Hy as [->|Hy]; [reflexivity| | |apply IH; assumption]; exfalso; apply N1.
  - rewrite E. apply in_map. exact Hy.
  - rewrite <- E. apply in_map. exact Hx.
Qed.

(** ** Parts *)
Lemma less_parts a b : fewer less_block a b ->
  fewer (fun p p' => some_of (p_props p) (p_props p')) (projects_of a) (projects_of b) /\ fewer less_table (tables_of a) (tables_of b) /\
  fewer less_enum (enums_of a) (enums_of b) /\ fewer less_group (groups_of a) (groups_of b) /\ fewer less_ref (refs_of a) (refs_of b).
Proof.
  intros H. repeat split; (eapply fewer_pick; [|exact H]); intros x y v [| | | | |] E; try discriminate; injection E as <-; eauto.
Qed.
Lemma less_links a b : fewer less_block a b -> some_of (links a) (links b).
Proof.
  intros H. destruct (less_parts a b H) as (_ & Ht & _ & _ & Hr). unfold links. apply fewer_app.
  - unfold block_links. eapply fewer_map; [|exact Hr]. intros x y (-> & -> & -> & _). reflexivity.
  - eapply fewer_flat; [|exact Ht]. intros t t' (E1 & E2 & _ & _ & Hc & _). unfold table_links. rewrite E1, E2. eapply fewer_flat; [|exact Hc].
    intros c c' (-> & _ & _ & _ & Hl). eapply fewer_map; [|exact Hl]. intros x y ->. reflexivity.
Qed.
Lemma some_once l l' : some_of l l' -> once l -> once l'.
Proof. intros H. unfold once. eapply fewer_nodup; [|exact H]. intros x y ->. reflexivity. Qed.
Lemma some_once_opt o o' : some_attrs o o' -> once_opt o -> once_opt o'.
Proof. intros H Ho l E. destruct (H l E) as (m & -> & Hs). eapply some_once; [exact Hs|]. apply Ho. reflexivity. Qed.
Lemma some_has k l l' : some_of l l' -> has k l' -> has k l.
Proof. unfold has. intros H Hk. apply in_map_iff in Hk as (x & <- & Hx). apply in_map. eapply some_in; eassumption. Qed.
Lemma less_pk c c' : less_col c c' -> (is_pk c' <-> is_pk c).
Proof.
  intros (_ & _ & Hs & Hk & _). unfold is_pk. split; (intros [H|H]; [left|right]).
  - eapply some_has; eassumption.
  - eapply some_has; eassumption.
  - apply Hk; [cbn; tauto|exact H].
  - apply Hk; [cbn; tauto|exact H].
Qed.
Lemma less_unique c c' : less_col c c' -> (is_unique c' <-> is_unique c).
Proof. intros (_ & _ & Hs & Hk & _). unfold is_unique. split; [eapply some_has; eassumption|apply Hk; cbn; tauto]. Qed.
Lemma taliases_in ts w : In w (taliases ts) <-> exists t, In t ts /\ t_alias t = Some w.
Proof. unfold taliases. apply in_pick. Qed.
Lemma less_alias ts ts' : fewer less_table ts ts' -> incl (taliases ts') (taliases ts).
Proof.
  intros H w Hw. apply taliases_in in Hw as (t' & Ht & E). destruct (fewer_in _ _ _ _ H Ht) as (t & Hi & (_ & _ & [Ea|Ea] & _)); [|congruence]. apply taliases_in. exists t. split; [exact Hi|congruence].
Qed.

(** ** Still valid *)
Section Left.
Variables a b : a_schema.
Hypothesis Hab : fewer less_block a b.
Hypothesis Hp : projects_of b <> [].
Hypothesis V : valid a.
Hypothesis D : depends_on_nothing_gone a b.
Let ts := tables_of a.
Let ts' := tables_of b.
Let Ht : fewer less_table ts ts' := proj1 (proj2 (less_parts a b Hab)).
Let He : fewer less_enum (enums_of a) (enums_of b) := proj1 (proj2 (proj2 (less_parts a b Hab))).
Let Hg : fewer less_group (groups_of a) (groups_of b) := proj1 (proj2 (proj2 (proj2 (less_parts a b Hab)))).
Let Hr : fewer less_ref (refs_of a) (refs_of b) := proj2 (proj2 (proj2 (proj2 (less_parts a b Hab)))).
Let Hk : some_of (links a) (links b) := less_links a b Hab.
Lemma less_tname t t' : less_table t t' -> tname t' = tname t.
Proof. intros (E1 & E2 & _). unfold tname. rewrite E1, E2. reflexivity. Qed.
Lemma left_nodup : NoDup (map tname ts').
Proof. eapply fewer_nodup; [|exact Ht|exact (ok_tables _ V)]. exact less_tname. Qed.
Lemma left_taliases : NoDup (taliases ts').
Proof.
  eapply some_nodup; [|exact (ok_aliases _ V)]. unfold taliases. eapply fewer_pick; [|exact Ht]. intros t t' v (_ & _ & [E|E] & _) Ev; [|congruence]. exists v. split; [congruence|reflexivity].
Qed.
(** Where a table comes from. *)
Lemma origin t' : In t' ts' -> exists t, In t ts /\ less_table t t' /\ forall u, In u ts -> tname u = tname t' -> u = t.
Proof.
  intros H. destruct (fewer_in _ _ _ _ Ht H) as (t & Hi & Hl). exists t. split; [exact Hi|]. split; [exact Hl|]. intros u Hu E. eapply nodup_inj; [exact (ok_tables _ V)|exact Hu|exact Hi|].
  rewrite E. apply less_tname. exact Hl.
Qed.
Lemma left_found e t : an_end b e -> found ts e t -> exists t', found ts' e t' /\ less_table t t' /\ incl (e_cols e) (map c_name (t_cols t')) /\
  (forall d, In d (defs_of t) -> idx_pk d \/ idx_unique d -> same_set (idx_names d) (e_cols e) -> In d (defs_of t')).
Proof.
  intros Hend Hf. destruct (dn_ends _ _ D e t Hend Hf) as (t' & Hi & En & Ea & Hc & Hd). destruct Hf as [Hin Hlead]. destruct (origin t' Hi) as (t0 & Hi0 & Hl & Hu).
  assert (t0 = t) as -> by (symmetry; apply Hu; [exact Hin|symmetry; exact En]). exists t'. split; [|auto]. split; [exact Hi|].
  destruct Hl as (E1 & E2 & _). rewrite E1, E2. remember (t_schema t) as so eqn:Eso. remember (t_name t) as n eqn:Enn. destruct Hlead as [t0 H0 Ea0|Hn].
  - assert (t0 = t) as ->. { eapply nodup_inj; [exact (ok_tables _ V)|exact H0|exact Hin|]. unfold tname in *. cbn [fst snd] in *. rewrite <- Eso, Enn. reflexivity. }
    rewrite <- En. apply lt_alias; [exact Hi|]. apply Ea. exact Ea0.
  - apply lt_name. intros K. apply Hn. eapply less_alias; eassumption.
Qed.
Lemma end_found k e : In k (links b) -> (e = k_lhs k \/ e = k_rhs k) -> an_end b e /\ exists t, found ts e t.
Proof.
  intros H Hend. split; [exists k; auto|]. pose proof (ok_links _ V) as L. rewrite Forall_forall in L. destruct (L k (some_in _ _ _ Hk H)) as (lt & rt & _ & _ & F1 & F2 & _).
  destruct Hend as [->| ->]; eauto.
Qed.
Lemma left_leads k e so n : In k (links b) -> (e = k_lhs k \/ e = k_rhs k) -> leads_to ts' e so n -> leads_to ts e so n.
Proof.
  intros H Hend Hl. destruct (end_found k e H Hend) as (He' & t & Hf). destruct (left_found e t He' Hf) as (t' & [_ Hf'] & (E1 & E2 & _) & _). destruct Hf as [_ Hf].
  destruct (leads_fun _ _ _ _ _ _ left_taliases Hl Hf') as [-> ->]. rewrite E1, E2. exact Hf.
Qed.
Lemma left_columns k o x y : In k (links b) -> In o (links b) -> (x = k_lhs k \/ x = k_rhs k) -> (y = k_lhs o \/ y = k_rhs o) -> same_columns ts' x y -> same_columns ts x y.
Proof. intros H1 H2 Hx Hy ((so & n & L1 & L2) & S). split; [|exact S]. exists so, n. split; [exact (left_leads k x so n H1 Hx L1)|exact (left_leads o y so n H2 Hy L2)]. Qed.
Lemma many_end k x : many_side k = Some x -> x = k_lhs k \/ x = k_rhs k.
Proof. unfold many_side. destruct (k_rel k); intros E; try discriminate; injection E as <-; auto. Qed.
Lemma left_clash k o : In k (links b) -> In o (links b) -> clash ts' k o -> clash ts k o.
Proof.
  intros H1 H2 [(R & R' & A & B)|(x & y & E1 & E2 & S)].
  - left. split; [exact R|]. split; [exact R'|]. split; [destruct A as [A|A]; [left|right]; apply (left_columns k o); auto|destruct B as [B|B]; [left|right]; apply (left_columns k o); auto].
  - right. exists x, y. split; [exact E1|]. split; [exact E2|]. apply (left_columns k o); auto using many_end.
Qed.
Lemma left_named t t' ws cs : In t ts -> less_table t t' -> incl ws (map c_name (t_cols t')) -> Forall2 (col_named t) ws cs ->
  exists cs', Forall2 (col_named t') ws cs' /\ Forall2 less_col cs cs'.
Proof.
  intros Hin Hl Hi F. pose proof (ok_table _ V) as T. rewrite Forall_forall in T. destruct (T t Hin) as (_ & N & _).
  induction F as [|w c ws cs (Hc & Ec) F IH]; [exists []; split; constructor|]. destruct IH as (cs' & F1 & F2); [intros x Hx; apply Hi; right; exact Hx|].
  assert (Hw : In w (map c_name (t_cols t'))) by (apply Hi; left; reflexivity). apply in_map_iff in Hw as (c' & Ew & Hc'). destruct Hl as (_ & _ & _ & _ & Hcols & _).
  destruct (fewer_in _ _ _ _ Hcols Hc') as (c0 & Hc0 & Hl). assert (c0 = c) as ->. { eapply nodup_inj; [exact N|exact Hc0|exact Hc|]. destruct Hl as (E & _). congruence. }
  exists (c' :: cs'). split; constructor; try assumption. split; assumption.
Qed.
Lemma left_are_key t t' cols : (forall d, In d (defs_of t) -> idx_pk d \/ idx_unique d -> same_set (idx_names d) cols -> In d (defs_of t')) -> are_key t cols -> are_key t' cols.
Proof. intros H (d & H1 & H2 & H3 & H4). exists d. auto. Qed.
Lemma left_link k : In k (links b) -> valid_link ts' k.
Proof.
  intros H. pose proof (ok_links _ V) as L. rewrite Forall_forall in L. destruct (L k (some_in _ _ _ Hk H)) as (lt & rt & lcs & rcs & F1 & F2 & C1 & C2 & T & K1 & K2).
  assert (E1 : an_end b (k_lhs k)) by (exists k; auto). assert (E2 : an_end b (k_rhs k)) by (exists k; auto).
  destruct (left_found _ _ E1 F1) as (lt' & G1 & L1 & I1 & D1). destruct (left_found _ _ E2 F2) as (rt' & G2 & L2 & I2 & D2).
  destruct (left_named _ _ _ _ (proj1 F1) L1 I1 C1) as (lcs' & N1 & M1). destruct (left_named _ _ _ _ (proj1 F2) L2 I2 C2) as (rcs' & N2 & M2).
  exists lt', rt', lcs', rcs'. split; [exact G1|]. split; [exact G2|]. split; [exact N1|]. split; [exact N2|]. split; [|split].
  - clear -T M1 M2. revert lcs' rcs' M1 M2. induction T as [|c c' l l' Hc T IH]; intros lcs' rcs' M1 M2; inversion M1 as [|? x ? ? X1 X2]; subst; inversion M2 as [|? y ? ? Y1 Y2]; subst; constructor; [|auto].
    destruct X1 as (_ & Ex & _), Y1 as (_ & Ey & _). unfold types_agree, type_is in *. rewrite Ex, Ey. exact Hc.
  - intros lc' rc' -> ->. inversion M1 as [|lc ? l1 ? X1 X2]; subst. inversion X2; subst. inversion M2 as [|rc ? l2 ? Y1 Y2]; subst. inversion Y2; subst.
    specialize (K1 lc rc eq_refl eq_refl). eapply single_iff; [| |exact K1]; unfold is_key.
    + rewrite (less_pk _ _ X1), (less_unique _ _ X1). reflexivity.
    + rewrite (less_pk _ _ Y1), (less_unique _ _ Y1). reflexivity.
  - intros Hlen. assert (El : List.length lcs' = List.length lcs) by (clear -M1; induction M1; cbn [List.length]; congruence). rewrite El in Hlen. specialize (K2 Hlen).
    pose proof (left_are_key _ _ _ D1) as Q1. pose proof (left_are_key _ _ _ D2) as Q2. unfold composite_keys in *. destruct (k_rel k); tauto.
Qed.
Lemma left_index t t' d' l1' l2' : valid_keys t -> less_table t t' -> In t' ts' -> defs_of t' = l1' ++ d' :: l2' -> valid_index (t_cols t') l1' d'.
Proof.
  intros (_ & _ & K) Hl Hin E. pose proof Hl as (_ & _ & _ & _ & Hc & _ & Hd). destruct (fewer_split _ _ _ _ _ _ Hd E) as (l1 & d & l2 & E' & -> & H1 & _).
  destruct (K l1 d' l2 E') as (X1 & X2 & X3 & X4 & X5 & X6 & X7 & X8 & X9). split; [exact X1|].
  split; [apply (dn_indexes _ _ D t' d' Hin); rewrite E; apply in_or_app; right; left; reflexivity|].
  split; [exact X3|]. split; [exact X4|]. split; [exact X5|]. split; [exact X6|]. split; [|split].
  - intros P. destruct (X7 P) as [Y1 Y2]. split.
    + intros c' Hc' Pc. destruct (fewer_in _ _ _ _ Hc Hc') as (c & Hi & Hlc). apply (Y1 c Hi). apply (less_pk _ _ Hlc). exact Pc.
    + intros d0 H0. apply Y2. eapply some_in; eassumption.
  - intros P. destruct (X8 P) as [Y1 Y2]. split.
    + intros c' Hc' Pc Hi'. destruct (fewer_in _ _ _ _ Hc Hc') as (c & Hi & Hlc). apply (Y1 c Hi); [apply (less_unique _ _ Hlc); exact Pc|]. destruct Hlc as (En & _). rewrite <- En. exact Hi'.
    + intros d0 H0. apply Y2. eapply some_in; eassumption.
  - intros d0 k k' H0. apply X9. eapply some_in; eassumption.
Qed.
Lemma left_col_keys c c' : less_col c c' -> valid_col_keys c -> valid_col_keys c'.
Proof.
  intros Hl [K1 K2]. pose proof Hl as (_ & Et & Hs & _). split.
  - intros P. apply (less_pk _ _ Hl) in P. destruct (K1 P) as [Q1 Q2]. rewrite Et. split; [|exact Q2]. intros H. apply Q1. eapply some_has; eassumption.
  - intros [H1 H2]. apply K2. split; eapply some_has; eassumption.
Qed.
Lemma left_keys t t' : valid_keys t -> less_table t t' -> In t' ts' -> valid_keys t'.
Proof.
  intros Hv Hl Hin. pose proof Hl as (_ & _ & _ & _ & Hc & _ & _). pose proof Hv as (K1 & K2 & _). split; [|split].
  - eapply fewer_forall; [|exact Hc|exact K1]. exact left_col_keys.
  - intros l1' c' l2' c'' E P Hi P'. destruct (fewer_split _ _ _ _ _ _ Hc E) as (l1 & c & l2 & E' & Hlc & H1 & _). destruct (fewer_in _ _ _ _ H1 Hi) as (c0 & Hi0 & Hl0).
    apply (K2 l1 c l2 c0 E'); [apply (less_pk _ _ Hlc); exact P|exact Hi0|apply (less_pk _ _ Hl0); exact P'].
  - intros l1' d' l2' E. eapply left_index; eassumption.
Qed.
Lemma left_type t' c c' : In t' ts' -> In c' (t_cols t') -> less_col c c' -> valid_col_type (enums_of a) c -> valid_col_type (enums_of b) c'.
Proof.
  intros Hin Hc' (_ & Et & Hs & Hk' & _) (raw & tn & H1 & H2 & H3 & H4). exists raw, tn. rewrite Et. split; [exact H1|]. split; [exact H2|]. split; [exact H3|].
  intros v Hv. destruct (H4 v (some_in _ _ _ Hs Hv)) as [G1 _]. split.
  - destruct v; try exact G1. cbn [valid_default] in *. apply Hk'; [cbn; tauto|exact G1].
  - intros Hb so n Hen. eapply (dn_defaults _ _ D t' c'); try eassumption. rewrite Et. exact H1.
Qed.
Lemma left_item g it i : In g (groups_of b) -> In it (g_items g) -> item_is ts it i -> item_is ts' it i.
Proof.
  intros Hgr Hit H. destruct H as [sc n|t n Hi Ea|t n Hn Hi En]; [constructor| |].
  - destruct (dn_items _ _ D g n t Hgr Hit Hi (ii_alias _ _ _ Hi Ea)) as (t' & Hi' & <- & Hal). apply ii_alias; auto.
  - destruct (dn_items _ _ D g n t Hgr Hit Hi (ii_table _ _ _ Hn Hi En)) as (t' & Hi' & E & _). rewrite <- E. apply ii_table; [|exact Hi'|congruence]. intros K. apply Hn. eapply less_alias; eassumption.
Qed.
Lemma fewer_f2 {A B} (R : A -> B -> Prop) l l' ids : some_of l l' -> Forall2 R l ids -> exists ids', some_of ids ids' /\ Forall2 R l' ids'.
Proof.
  intros H. revert ids. induction H as [|x y l l' Hx H IH|x l l' H IH]; intros ids F; inversion F as [|? i ? ids0 F1 F2]; subst.
  - exists []. split; constructor.
  - destruct (IH _ F2) as (k & K1 & K2). exists (i :: k). split; constructor; auto.
  - destruct (IH _ F2) as (k & K1 & K2). exists k. split; [apply fw_drop; exact K1|exact K2].
Qed.
Theorem left_valid : valid b.
Proof.
  constructor.
  - destruct (ok_project _ V) as (p & E & N). pose proof (proj1 (less_parts a b Hab)) as P. rewrite E in P. inversion P as [|x y l l' Hx P' E1 E2|x l l' P' E1 E2]; subst.
    + inversion P'; subst. exists y. split; [congruence|]. eapply fewer_nodup; [|exact Hx|exact N]. intros u v ->. reflexivity.
    + inversion P' as [E3 E4| |]. congruence.
  - exact left_nodup.
  - exact left_taliases.
  - apply (fewer_forall less_table _ _ _ _) with (2 := Ht) (3 := ok_table _ V). intros t t' (_ & _ & _ & Hs & Hc & _) (O & N & F). split; [eapply some_once_opt; eassumption|]. split.
    + eapply fewer_nodup; [|exact Hc|exact N]. intros x y (E & _). exact E.
    + eapply fewer_forall; [|exact Hc|exact F]. intros x y (_ & _ & Ha & _) Hx. eapply some_once; eassumption.
  - eapply fewer_nodup; [|exact He|exact (ok_enums _ V)]. intros x y (E1 & E2 & _). unfold ename. rewrite E1, E2. reflexivity.
  - apply (fewer_forall less_enum _ _ _ _) with (2 := He) (3 := ok_values _ V). intros e e' (_ & _ & Hv) (N & F). split.
    + eapply fewer_nodup; [|exact Hv|exact N]. intros x y (E & _). exact E.
    + eapply fewer_forall; [|exact Hv|exact F]. intros x y (_ & E) Hx. eapply some_once_opt; eassumption.
  - eapply fewer_nodup; [|exact Hg|exact (ok_groups _ V)]. intros x y (E & _). exact E.
  - apply Forall_forall. intros g' Hg'. destruct (fewer_in _ _ _ _ Hg Hg') as (g & Hgi & (_ & _ & Hit)). pose proof (ok_items _ V) as O. rewrite Forall_forall in O. destruct (O g Hgi) as (ids & F & N).
    destruct (fewer_f2 _ _ _ _ Hit F) as (ids' & S & F'). exists ids'. split; [|eapply some_nodup; eassumption]. eapply f2_in; [|exact F']. intros it i H1 _ H. eapply left_item; eassumption.
  - apply Forall_forall. intros t' Ht'. destruct (origin t' Ht') as (t & Hi & Hl & _). pose proof (ok_keys _ V) as K. rewrite Forall_forall in K. eapply left_keys; eauto.
  - apply Forall_forall. intros t' Ht'. destruct (origin t' Ht') as (t & Hi & (_ & _ & _ & _ & Hc & _) & _). pose proof (ok_types _ V) as K. rewrite Forall_forall in K. specialize (K t Hi). rewrite Forall_forall in K.
    apply Forall_forall. intros c' Hc'. destruct (fewer_in _ _ _ _ Hc Hc') as (c & Hic & Hlc). eapply left_type; eauto.
  - apply (fewer_forall less_ref _ _ _ _) with (2 := Hr) (3 := ok_ref_settings _ V). intros r r' (_ & _ & _ & Hs). apply some_once_opt. exact Hs.
  - apply Forall_forall. exact left_link.
  - intros l1' k l2' E. destruct (fewer_split _ _ _ _ _ _ Hk E) as (l1 & k0 & l2 & E' & -> & H1 & H2). destruct (ok_clashes _ V _ _ _ E') as [U C]. split; [exact U|].
    intros o Ho Hcl. assert (Hkb : In k (links b)) by (rewrite E; apply in_or_app; right; left; reflexivity).
    assert (Hob : In o (links b)). { rewrite E. apply in_app_iff in Ho as [Ho|Ho]; apply in_or_app; [left|right; right]; exact Ho. }
    apply (C o); [|apply left_clash; assumption]. apply in_app_iff in Ho as [Ho|Ho]; apply in_or_app; [left|right]; eapply some_in; eassumption.
Qed.
End Left.

(** ** Still within the limits *)
Lemma some_fits o o' : some_attrs o o' -> fits_attrs o -> fits_attrs o'.
Proof. intros H F l E. destruct (H l E) as (m & Em & Hs). eapply some_forall; [exact Hs|]. apply F. exact Em. Qed.
Lemma less_fits a b : fewer less_block a b -> fits a -> fits b.
Proof.
  unfold fits. apply fewer_forall. intros x y H. destruct H as [p p' H|t t' (_ & _ & _ & Hs & Hc & Hi & _)|g g' (_ & H & _)|v v'|r r' (_ & _ & _ & H)|e e' (_ & _ & H)]; cbn [fits_block].
  - apply some_forall. exact H.
  - intros (F1 & F2 & F3). split; [eapply some_fits; eassumption|]. split.
    + eapply fewer_forall; [|exact Hc|exact F2]. intros c c' (_ & Et & Ha & _) [G1 G2]. split; [rewrite Et; exact G1|]. intros st Est.
      unfold col_attrs in Ha. rewrite Est in Ha. destruct (c_settings c) as [st0|] eqn:E0; [eapply some_forall; [exact Ha|apply G2; reflexivity]|]. inversion Ha. constructor.
    + eapply fewer_forall; [|exact Hi|exact F3]. intros l l' Hl. apply some_forall. exact Hl.
  - apply some_fits. exact H.
  - auto.
  - intros [F1 F2]. split; [eapply some_fits; eassumption|]. intros l k w E Hk Hin. destruct (H l E) as (m & Em & Hs). eapply F2; [exact Em|exact Hk|]. eapply some_in; eassumption.
  - eapply fewer_forall; [|exact H]. intros v v' (_ & Hv). apply some_fits. exact Hv.
Qed.
Theorem unused t1 t2 a b : dbml_text t1 a -> dbml_text t2 b -> left_of a b -> depends_on_nothing_gone a b -> is_accepted t1 -> is_accepted t2.
Proof.
  intros H1 H2 [Hf Hp] Hd. eapply by_valid; [exact H1|exact H2|apply less_fits; exact Hf|]. intros V. eapply left_valid; eassumption.
Qed.
