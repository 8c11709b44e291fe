(** * Union: two separate accepted schemas are accepted together. *)

From Verif Require Import Samples TextSamples SynGrow.
From Verif Require Import Rules RulesOk SynMain SynVerdict ValidityOk Like VariantsOk CheckFacts RulesOk3 ParseFacts CheckFacts2.
From Verif Require Import Err Analyzer Api Answer.
From Verif Require Import Validity Variants.
From Verif Require Import Syntax.

Section Part.
  (** [ts] is a part of [all] whose names and aliases the rest does not use as aliases. *)
  Variables ts all : list a_table.
  Hypothesis Hi : forall t, In t ts -> In t all.
  Hypothesis Ha : forall t u w, In t ts -> In u all -> t_alias u = Some w -> ~ In u ts -> t_alias t <> Some w /\ t_name t <> w.
  Hypothesis Hd : forall u, In u all -> In u ts \/ ~ In u ts.

  Lemma part_alias w : In w (taliases ts) -> In w (taliases all).
  Proof. rewrite !in_taliases. intros (t & H & E). exists t. auto. Qed.
  Lemma part_name t : In t ts -> ~ In (t_name t) (taliases ts) -> ~ In (t_name t) (taliases all).
  Proof.
    intros Ht H. rewrite in_taliases in *. intros (u & Hu & E). destruct (Hd u Hu) as [K|K]; [apply H; exists u; auto|].
    destruct (Ha t u _ Ht Hu E K) as [_ F]. apply F. reflexivity.
  Qed.
  Definition known (e : a_end) : Prop := exists t, found ts e t.
  Lemma part_leads e so n : known e -> (leads_to ts e so n <-> leads_to all e so n).
  Proof.
    intros (t & Ht & L). split.
    - intros [t' Ht' E|H]; [apply lt_alias; auto|]. apply lt_name.
      inversion L as [t0 Ht0 E0 E1 E2|H0 E1 E2].
      + exfalso. apply H. rewrite in_taliases. exists t0. auto.
      + rewrite E2 in *. apply part_name; assumption.
    - intros [u Hu E|H].
      + destruct (Hd u Hu) as [K|K]; [apply lt_alias; assumption|]. exfalso.
        inversion L as [t0 Ht0 E0 E1 E2|H0 E1 E2].
        * destruct (Ha t0 u _ Ht0 Hu E K) as [F _]. apply F. exact E0.
        * destruct (Ha t u _ Ht Hu E K) as [_ F]. apply F. symmetry. exact E2.
      + apply lt_name. intros K. apply H. apply part_alias. exact K.
  Qed.
  Lemma part_found e t : found ts e t -> found all e t.
  Proof. intros H. destruct H as [Ht L] eqn:EH. split; [auto|]. apply part_leads; [exists t; exact H|exact L]. Qed.
  Lemma part_link k : valid_link ts k -> valid_link all k.
  Proof. intros (lt & rt & lcs & rcs & H1 & H2 & H). exists lt, rt, lcs, rcs. split; [apply part_found; exact H1|]. split; [apply part_found; exact H2|exact H]. Qed.
  Lemma link_known k : valid_link ts k -> known (k_lhs k) /\ known (k_rhs k).
  Proof. intros (lt & rt & lcs & rcs & H1 & H2 & _). split; eexists; eassumption. Qed.
  Lemma part_columns a b : known a -> known b -> same_columns all a b -> same_columns ts a b.
  Proof. intros Ka Kb [(so & n & H1 & H2) H]. split; [|exact H]. exists so, n. split; apply part_leads; assumption. Qed.
  Lemma many_known k e : valid_link ts k -> many_side k = Some e -> known e.
  Proof.
    intros V. apply link_known in V as [V1 V2]. unfold many_side. destruct (k_rel k); intros E; try discriminate; injection E as <-; assumption.
  Qed.
  Lemma part_clash k o : valid_link ts k -> valid_link ts o -> clash all k o -> clash ts k o.
  Proof.
    intros Vk Vo [(H1 & H2 & H3 & H4)|(a & b & E1 & E2 & H)].
    - left. pose proof (link_known _ Vk) as [K1 K2]. pose proof (link_known _ Vo) as [K3 K4].
      split; [exact H1|]. split; [exact H2|]. split; [destruct H3|destruct H4]; auto using part_columns.
    - right. exists a, b. split; [exact E1|]. split; [exact E2|]. apply part_columns; eauto using many_known.
  Qed.
  Lemma part_item d i : item_is ts d i -> item_is all d i.
  Proof.
    intros [sc n|t n Ht E|t n Hn Ht E]; [constructor|apply ii_alias; auto|]. apply ii_table; [|auto|exact E].
    assert (En : n = t_name t) by (unfold tname in E; congruence). rewrite En in *. apply part_name; assumption.
  Qed.
End Part.

Lemma leads_fun ts e so n so' n' : NoDup (taliases ts) -> leads_to ts e so n -> leads_to ts e so' n' -> so = so' /\ n = n'.
Proof.
  intros Hn [t Ht E|H] [t' Ht' E'|H'].
  - assert (t = t'); [|subst; auto]. clear -Hn Ht E Ht' E'. revert Hn. unfold taliases. induction ts as [|x ts IH]; [destruct Ht|]. rewrite pick_cons. intros Hn.
    assert (Q : forall y w, In y ts -> t_alias y = Some w -> t_alias x = Some w -> False).
    { intros y w Hy Ey Ex. rewrite Ex in Hn. cbn [app] in Hn. inversion Hn as [|? ? K _]. apply K. apply in_pick. exists y. auto. }
    destruct Ht as [->|Ht], Ht' as [->|Ht']; [reflexivity| | |].
    + exfalso. eapply Q; eassumption.
    + exfalso. eapply Q; eassumption.
    + apply IH; auto. destruct (t_alias x); [inversion Hn; assumption|exact Hn].
  - exfalso. apply H'. apply in_taliases. exists t. auto.
  - exfalso. apply H. apply in_taliases. exists t'. auto.
  - auto.
Qed.
Lemma pick_app {A B} (f : A -> option B) l l' : pick f (l ++ l') = pick f l ++ pick f l'.
Proof. unfold pick. apply flat_map_app. Qed.
Lemma no_project_parts b : projects_of (no_project b) = [] /\ tables_of (no_project b) = tables_of b /\ enums_of (no_project b) = enums_of b /\
  groups_of (no_project b) = groups_of b /\ refs_of (no_project b) = refs_of b.
Proof.
  unfold projects_of, tables_of, enums_of, groups_of, refs_of, no_project.
  induction b as [|x b (H1 & H2 & H3 & H4 & H5)]; [repeat split|]. cbn [filter]. destruct x; rewrite ?pick_cons; cbn [app]; rewrite ?H1, ?H2, ?H3, ?H4, ?H5; repeat split; reflexivity.
Qed.
Lemma nodup_app {A} (l l' : list A) : NoDup l -> NoDup l' -> (forall x, In x l -> ~ In x l') -> NoDup (l ++ l').
Proof.
  intros H H' K. induction H as [|a l Ha H IH]; [exact H'|]. cbn [app]. constructor.
  - rewrite in_app_iff. intros [|]; [auto|]. apply (K a); [left; reflexivity|assumption].
  - apply IH. intros x Hx. apply K. right. exact Hx.
Qed.
Lemma nodup_map_app {A B} (f : A -> B) l l' : NoDup (map f l) -> NoDup (map f l') -> (forall x y, In x l -> In y l' -> f x <> f y) -> NoDup (map f (l ++ l')).
Proof.
  intros H H' K. rewrite map_app. apply nodup_app; [exact H|exact H'|]. intros z. rewrite !in_map_iff. intros (x & E & Hx) (y & E' & Hy). apply (K x y Hx Hy). congruence.
Qed.
Lemma cross_columns ts us e f : NoDup (taliases ts) -> NoDup (taliases us) -> (forall t u, In t ts -> In u us -> tname t <> tname u) ->
  known ts e -> known us f -> forall so n, leads_to ts e so n -> leads_to us f so n -> False.
Proof.
  intros Nt Nu S (t & Ht & L) (u & Hu & M) so n H1 H2. destruct (leads_fun _ _ _ _ _ _ Nt H1 L) as [-> ->]. destruct (leads_fun _ _ _ _ _ _ Nu H2 M) as [E1 E2].
  apply (S t u Ht Hu). unfold tname. rewrite E1, E2. reflexivity.
Qed.
Lemma no_cross_clash ts us all : NoDup (taliases ts) -> NoDup (taliases us) -> (forall t u, In t ts -> In u us -> tname t <> tname u) ->
  (forall e so n, known ts e -> leads_to all e so n -> leads_to ts e so n) -> (forall e so n, known us e -> leads_to all e so n -> leads_to us e so n) ->
  forall k o, valid_link ts k -> valid_link us o -> clash all k o -> False.
Proof.
  intros Nt Nu S L1 L2 k o Vk Vo.
  assert (C : forall e f, known ts e -> known us f -> same_columns all e f -> False).
  { intros e f K1 K2 [(so & n & H1 & H2) _]. eapply (cross_columns ts us e f); eauto. }
  pose proof (link_known _ _ Vk) as [K1 K2]. pose proof (link_known _ _ Vo) as [K3 K4].
  intros [(_ & _ & [H|H] & _)|(a & b & E1 & E2 & H)]; [eapply C; [| |exact H]; assumption..|]. eapply C; [| |exact H]; eapply many_known; eassumption.
Qed.
Lemma app_mid {A} (x y l1 l2 : list A) k : x ++ y = l1 ++ k :: l2 ->
  (exists m, x = l1 ++ k :: m /\ l2 = m ++ y) \/ (exists m, y = m ++ k :: l2 /\ l1 = x ++ m).
Proof.
  revert l1. induction x as [|a x IH]; intros l1 E; [right; exists l1; auto|]. destruct l1 as [|b l1]; cbn [app] in E.
  - injection E as -> E. left. exists x. auto.
  - injection E as -> E. destruct (IH l1 E) as [(m & -> & ->)|(m & -> & ->)]; [left|right]; exists m; auto.
Qed.
Theorem union_valid a b : valid a -> valid b -> separate a b -> valid (a ++ no_project b).
Proof.
  intros A B [S1 S2 S3 S4 S5]. destruct (no_project_parts b) as (Ep & Et & Ee & Eg & Er).
  set (ts := tables_of a) in *. set (us := tables_of b) in *.
  assert (ET : tables_of (a ++ no_project b) = ts ++ us) by (unfold tables_of at 1; rewrite pick_app; fold (tables_of (no_project b)); rewrite Et; reflexivity).
  assert (EE : enums_of (a ++ no_project b) = enums_of a ++ enums_of b) by (unfold enums_of at 1; rewrite pick_app; fold (enums_of (no_project b)); rewrite Ee; reflexivity).
  assert (EG : groups_of (a ++ no_project b) = groups_of a ++ groups_of b) by (unfold groups_of at 1; rewrite pick_app; fold (groups_of (no_project b)); rewrite Eg; reflexivity).
  assert (ER : refs_of (a ++ no_project b) = refs_of a ++ refs_of b) by (unfold refs_of at 1; rewrite pick_app; fold (refs_of (no_project b)); rewrite Er; reflexivity).
  assert (EP : projects_of (a ++ no_project b) = projects_of a) by (unfold projects_of at 1; rewrite pick_app; fold (projects_of (no_project b)); rewrite Ep, app_nil_r; reflexivity).
  assert (D : forall u, In u (ts ++ us) -> (In u ts \/ ~ In u ts) /\ (In u us \/ ~ In u us)).
  { intros u Hu. apply in_app_or in Hu as [H|H]; split; auto; right; intros K; eapply S1; eauto. }
  assert (P1 : forall t u w, In t ts -> In u (ts ++ us) -> t_alias u = Some w -> ~ In u ts -> t_alias t <> Some w /\ t_name t <> w).
  { intros t u w Ht Hu E Hn. apply in_app_or in Hu as [Hu|Hu]; [contradiction|]. split; [|eapply S5; eassumption]. intros E'. destruct (S4 t u w Ht Hu E') as [F _]. contradiction. }
  assert (P2 : forall t u w, In t us -> In u (ts ++ us) -> t_alias u = Some w -> ~ In u us -> t_alias t <> Some w /\ t_name t <> w).
  { intros t u w Ht Hu E Hn. apply in_app_or in Hu as [Hu|Hu]; [|contradiction]. exact (S4 u t w Hu Ht E). }
  assert (I1 : forall t, In t ts -> In t (ts ++ us)) by (intros; apply in_or_app; auto).
  assert (I2 : forall t, In t us -> In t (ts ++ us)) by (intros; apply in_or_app; auto).
  assert (D1 : forall u, In u (ts ++ us) -> In u ts \/ ~ In u ts) by (intros u Hu; apply D; exact Hu).
  assert (D2 : forall u, In u (ts ++ us) -> In u us \/ ~ In u us) by (intros u Hu; apply D; exact Hu).
  assert (Lp : Permutation (links (a ++ no_project b)) (links a ++ links b)).
  { unfold links. rewrite ET. unfold block_links. rewrite ER, map_app, flat_map_app. fold ts us.
    rewrite <- !app_assoc. apply Permutation_app_head. rewrite !app_assoc. apply Permutation_app_tail. apply Permutation_app_comm. }
  constructor.
  - rewrite EP. apply A.
  - rewrite ET. apply nodup_map_app; [apply A|apply B|exact S1].
  - rewrite ET. unfold taliases. rewrite pick_app. apply nodup_app; [apply A|apply B|]. intros w H1 H2. apply in_pick in H1 as (t & Ht & E). apply in_pick in H2 as (u & Hu & E').
    destruct (S4 t u w Ht Hu E) as [F _]. contradiction.
  - rewrite ET. apply Forall_app. split; [apply A|apply B].
  - rewrite EE. apply nodup_map_app; [apply A|apply B|exact S2].
  - rewrite EE. apply Forall_app. split; [apply A|apply B].
  - rewrite EG. apply nodup_map_app; [apply A|apply B|exact S3].
  - rewrite EG, ET. apply Forall_app. split.
    + eapply Forall_impl; [|apply (ok_items _ A)]. intros g (ids & F & N). exists ids. split; [|exact N]. eapply f2_impl; [|exact F]. apply part_item; assumption.
    + eapply Forall_impl; [|apply (ok_items _ B)]. intros g (ids & F & N). exists ids. split; [|exact N]. eapply f2_impl; [|exact F]. apply part_item; assumption.
  - rewrite ET. apply Forall_app. split; [apply A|apply B].
  - rewrite EE, ET. assert (M : forall es es', (forall e, In e es -> In e es') -> forall c, valid_col_type es c -> valid_col_type es' c).
    { intros es es' Hin c (raw & tn & H1 & H2 & H3 & H4). exists raw, tn. split; [exact H1|]. split; [exact H2|]. split; [exact H3|]. intros v Hv. destruct (H4 v Hv) as [K1 K2].
      split; [exact K1|]. intros Hb so n Hn. destruct (K2 Hb so n Hn) as (e & He & K). exists e. auto. }
    apply Forall_app. split; [eapply Forall_impl; [|apply (ok_types _ A)]|eapply Forall_impl; [|apply (ok_types _ B)]]; intros t Ht; (eapply Forall_impl; [|exact Ht]); apply M; intros e He; apply in_or_app; auto.
  - rewrite ER. apply Forall_app. split; [apply A|apply B].
  - rewrite ET. eapply Permutation_Forall; [symmetry; exact Lp|]. apply Forall_app.
    split; [eapply Forall_impl; [|apply (ok_links _ A)]|eapply Forall_impl; [|apply (ok_links _ B)]]; apply part_link; assumption.
  - rewrite ET. intros l1 k l2 E.
    assert (Vl : Forall (valid_link ts) (links a)) by apply (ok_links _ A). assert (Vm : Forall (valid_link us) (links b)) by apply (ok_links _ B).
    rewrite Forall_forall in Vl, Vm.
    assert (Q1 : forall k o, valid_link ts k -> valid_link us o -> clash (ts ++ us) k o -> False).
    { apply no_cross_clash; [apply A|apply B|exact S1| |]; intros e so n K; apply part_leads; assumption. }
    assert (Q2 : forall k o, valid_link us k -> valid_link ts o -> clash (ts ++ us) k o -> False).
    { apply no_cross_clash; [apply B|apply A| | |].
      - intros t u Ht Hu F. apply (S1 u t Hu Ht). symmetry. exact F.
      - intros e so n K; apply part_leads; assumption.
      - intros e so n K; apply part_leads; assumption. }
    assert (Pk : Permutation (k :: l1 ++ l2) (links a ++ links b)) by (rewrite <- Lp, E; apply Permutation_middle).
    assert (Hk : In k (links a ++ links b)) by (eapply Permutation_in; [exact Pk|left; reflexivity]).
    apply in_split in Hk as (m1 & m2 & Em). assert (Po : Permutation (l1 ++ l2) (m1 ++ m2)).
    { apply Permutation_cons_inv with (a := k). rewrite Pk, Em. symmetry. apply Permutation_middle. }
    destruct (app_mid _ _ _ _ _ Em) as [(m & El & ->)|(m & El & ->)].
    + destruct (ok_clashes _ A _ _ _ El) as [U C]. split; [exact U|]. intros o Ho Hc. apply (Permutation_in _ Po) in Ho.
      assert (Vk : valid_link ts k) by (apply Vl; rewrite El; apply in_elt).
      rewrite app_assoc in Ho. apply in_app_or in Ho as [Ho|Ho].
      * assert (Vo : valid_link ts o) by (apply Vl; rewrite El; apply in_app_or in Ho; apply in_or_app; cbn; tauto).
        apply (C o Ho). apply part_clash with (all := ts ++ us); auto.
      * eapply Q1; eauto.
    + destruct (ok_clashes _ B _ _ _ El) as [U C]. split; [exact U|]. intros o Ho Hc. apply (Permutation_in _ Po) in Ho.
      assert (Vk : valid_link us k) by (apply Vm; rewrite El; apply in_elt).
      rewrite <- app_assoc in Ho. apply in_app_or in Ho as [Ho|Ho].
      * eapply Q2; eauto.
      * assert (Vo : valid_link us o) by (apply Vm; rewrite El; apply in_app_or in Ho; apply in_or_app; cbn; tauto).
        apply (C o Ho). apply part_clash with (all := ts ++ us); auto.
Qed.
Lemma no_project_incl b x : In x (no_project b) -> In x b.
Proof. unfold no_project. rewrite filter_In. tauto. Qed.
Lemma union_fits a b : fits a -> fits b -> fits (a ++ no_project b).
Proof.
  unfold fits. intros H1 H2. apply Forall_app. split; [exact H1|]. rewrite Forall_forall in *. intros x Hx. apply H2. apply no_project_incl. exact Hx.
Qed.
Lemma shuffled_refl x : shuffled x x.
Proof.
  assert (S : forall o, same_attrs o o) by (intros [l|]; cbn; [reflexivity|exact Logic.I]).
  destruct x as [[n ps ns]|[sc n al st cols ns ixs]|[n st ns l]|v|[n rl e e' st]|[sc n l]].
  - apply sh_project. reflexivity.
  - eapply sh_table; [apply S|reflexivity| |].
    + apply f2_refl. intros c. unfold shuffled_col. destruct (c_settings c); repeat split; reflexivity.
    + apply f2_refl. intros l. apply f2_refl. intros d. split; [reflexivity|apply S].
  - apply sh_group; [apply S|reflexivity].
  - apply sh_note.
  - apply sh_ref. apply S.
  - eapply sh_enum; [reflexivity|]. apply f2_refl. intros v. split; [reflexivity|apply S].
Qed.
Lemma permuted_reordered a b : Permutation a b -> reordered a b.
Proof. intros P. exists b. split; [exact P|]. apply f2_refl, shuffled_refl. Qed.
Theorem union_accepted t1 t2 t3 a b c : dbml_text t1 a -> dbml_text t2 b -> dbml_text t3 c -> separate a b -> Permutation (a ++ no_project b) c ->
  is_accepted t1 -> is_accepted t2 -> is_accepted t3.
Proof.
  intros H1 H2 H3 Hs P A1 A2. apply (accepted_says _ _ H1) in A1 as [F1 V1]. apply (accepted_says _ _ H2) in A2 as [F2 V2].
  apply (accepted_says _ _ H3). pose proof (permuted_reordered _ _ P) as R. split.
  - apply (reordered_fits _ _ R). apply union_fits; assumption.
  - apply (like_i_valid (a ++ no_project b)); [apply reordered_like; exact R|]. apply union_valid; assumption.
Qed.

(** ** Reordering goes both ways *)
Lemma f2_sym {A B} (R : A -> B -> Prop) (S : B -> A -> Prop) l l' : (forall a b, R a b -> S b a) -> Forall2 R l l' -> Forall2 S l' l.
Proof. intros H. induction 1; constructor; auto. Qed.
Lemma perm_swap_f2 {A B} (R : A -> B -> Prop) (S : B -> A -> Prop) l m l' : (forall a b, R a b -> S b a) -> Permutation l m -> Forall2 R m l' ->
  exists m', Permutation l' m' /\ Forall2 S m' l.
Proof.
  intros H P F. symmetry in P. destruct (Permutation_Forall2 P F) as (m' & P' & F'). exists m'. split; [exact P'|]. eapply f2_sym; eassumption.
Qed.
Lemma same_attrs_sym o o' : same_attrs o o' -> same_attrs o' o.
Proof. destruct o, o'; cbn; auto. apply Permutation_sym. Qed.
Lemma shuffled_col_sym c c' : shuffled_col c c' -> shuffled_col c' c.
Proof.
  intros (E1 & E2 & E3). unfold shuffled_col. rewrite E1, E2. split; [reflexivity|]. split; [reflexivity|].
  destruct (c_settings c), (c_settings c'); try tauto. destruct E3. split; symmetry; assumption.
Qed.
Lemma shuffled_sym x y : shuffled x y -> shuffled y x.
Proof.
  intros [n ps ps' ns H|sc n al st st' cols cols1 cols' ns ixs ixs' H1 H2 H3 H4|n st st' ns l l' H1 H2|v|n rl e e' st st' H|sc n l l1 l' H1 H2].
  - constructor. symmetry. exact H.
  - destruct (perm_swap_f2 _ shuffled_col _ _ _ shuffled_col_sym H2 H3) as (m & P & F).
    eapply sh_table; [apply same_attrs_sym; exact H1|exact P|exact F|]. eapply f2_sym; [|exact H4]. intros l l' K. eapply f2_sym; [|exact K].
      intros d d' [E1 E2]. split; [symmetry; exact E1|apply same_attrs_sym; exact E2].
  - constructor; [apply same_attrs_sym; exact H1|symmetry; exact H2].
  - constructor.
  - constructor. apply same_attrs_sym. exact H.
  - destruct (perm_swap_f2 _ (fun v v' => fst v = fst v' /\ same_attrs (snd v) (snd v')) _ _ _
      (fun a b (H : fst a = fst b /\ same_attrs (snd a) (snd b)) => conj (eq_sym (proj1 H)) (same_attrs_sym _ _ (proj2 H))) H1 H2) as (m & P & F).
    eapply sh_enum; eassumption.
Qed.
Lemma reordered_sym a b : reordered a b -> reordered b a.
Proof. intros (m & P & F). destruct (perm_swap_f2 _ _ _ _ _ shuffled_sym P F) as (m' & P' & F'). exists m'. auto. Qed.
Theorem reordered_accepted_iff t1 t2 a b : dbml_text t1 a -> dbml_text t2 b -> reordered a b -> (is_accepted t1 <-> is_accepted t2).
Proof. intros H1 H2 T. split; [apply (reordered_accepted _ _ _ _ H1 H2 T)|apply (reordered_accepted _ _ _ _ H2 H1 (reordered_sym _ _ T))]. Qed.

(** ** Joining texts *)
Theorem join_texts t1 t2 a b : dbml_text t1 a -> dbml_text t2 b ->
  comments_closed t1 \/ (forall x y, t2 <> x ++ s "*/" ++ y) -> dbml_text (t1 ++ 10 :: t2) (a ++ b).
Proof. intros H1 H2 Hs. apply text_app; assumption. Qed.
Definition a_project_line : str := s "Project p {}".
Lemma project_line : dbml_text a_project_line [AProject (mkAProject (s "p") [] [])].
Proof. replace [AProject _] with (says a_project_line) by (vm_compute; reflexivity). apply says_text; [vm_compute; discriminate|repeat constructor]. Qed.
Theorem join_accepted t1 t2 a b : dbml_text t1 a -> dbml_text t2 b -> projects_of b = [] ->
  comments_closed t1 \/ (forall x y, t2 <> x ++ s "*/" ++ y) -> separate a b ->
  is_accepted t1 -> is_accepted (s "Project p {}" ++ 10 :: t2) -> is_accepted (t1 ++ 10 :: t2).
Proof.
  intros H1 H2 Hp Hs Sp A1 A2. pose proof (join_texts _ _ _ _ H1 H2 Hs) as H3.
  assert (H4 : dbml_text (s "Project p {}" ++ 10 :: t2) ([AProject (mkAProject (s "p") [] [])] ++ b)).
  { apply join_texts; [exact project_line|exact H2|]. left. apply closed_ok; vm_compute; reflexivity. }
  apply (union_accepted _ _ _ _ _ _ H1 H4 H3); [| |exact A1|exact A2].
  - destruct Sp as [S1 S2 S3 S4 S5]. constructor; assumption.
  - cbn [app no_project filter]. fold (no_project b). replace (no_project b) with b; [reflexivity|].
    clear -Hp. unfold projects_of, no_project in *. induction b as [|x b IH]; [reflexivity|]. rewrite pick_cons in Hp. cbn [filter].
    destruct x; cbn [app] in Hp; [discriminate|..]; f_equal; apply IH; exact Hp.
Qed.
Theorem accepted_meaning t x : parse_dbml t = Some (Ok x) -> valid (meaning x).
Proof.
  intros H. pose proof (checked_same _ _ H) as Hx. apply (wf_valid _ _ (unchecked_ok _ _ Hx)). apply (accept_iff _ _ Hx). exists x. exact H.
Qed.
