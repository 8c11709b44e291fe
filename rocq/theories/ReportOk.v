(** * ReportOk: the analyzer reports the first fault. *)

From Verif Require Import Report RulesOk RulesOk2 RulesOk3.
From Verif Require Import Err Analyzer.

(** [o] reports the fault [F] finds, if any. *)
Definition only (F : frule) (f : fault) : Prop := forall g, F g <-> g = f.
Definition checks {A} (inp : str) (F : frule) (Q : A -> Prop) (o : outcome A) : Prop :=
  match o with
  | Ok a => Q a /\ clean F
  | Err (ErSem e sp) => only F (Fault e sp)
  | Err _ => False
  | Panic => only F Crash \/ exists e sp, only F (Fault e sp) /\ span_ok inp sp = false
  end.

Lemma followed_only F G f : only F f -> only (F ;; G) f.
Proof.
  intros H g. split.
  - intros [Hg|[Hc _]]; [apply H; exact Hg|]. exfalso. apply (Hc f). apply H. reflexivity.
  - intros ->. left. apply H. reflexivity.
Qed.
Lemma followed_clean F G g : clean F -> ((F ;; G) g <-> G g).
Proof. intros H. split; [intros [Hg|[_ Hg]]; [exfalso; exact (H _ Hg)|exact Hg]|]. intros Hg. right. auto. Qed.
Definition same_rule (F G : frule) : Prop := forall f, F f <-> G f.
Lemma same_clean F G : same_rule F G -> clean F -> clean G.
Proof. intros H Hc f Hf. apply (Hc f). apply H. exact Hf. Qed.
Lemma same_only F G f : same_rule F G -> only F f -> only G f.
Proof. intros H Ho g. rewrite <- (H g). apply Ho. Qed.
Lemma same_sym F G : same_rule F G -> same_rule G F.
Proof. intros H f. symmetry. apply H. Qed.
Lemma ck_same {A} inp F G (Q : A -> Prop) o : same_rule F G -> checks inp F Q o -> checks inp G Q o.
Proof.
  intros H. destruct o as [a|[| | |e sp]|]; cbn [checks]; auto.
  - intros [H1 H2]. split; [exact H1|eapply same_clean; eassumption].
  - apply same_only. exact H.
  - intros [H1|(e & sp & H1 & H2)]; [left|right; exists e, sp; split; [|exact H2]]; eapply same_only; eassumption.
Qed.
Lemma ck_impl {A} inp F (Q Q' : A -> Prop) o : checks inp F Q o -> (forall a, o = Ok a -> Q a -> Q' a) -> checks inp F Q' o.
Proof. destruct o as [a|[| | |e sp]|]; cbn [checks]; auto. intros [H1 H2] H. split; [apply H; auto|exact H2]. Qed.
Lemma ck_bind {A B} inp F G (Q : A -> Prop) (Q' : B -> Prop) o k :
  checks inp F Q o -> (forall a, o = Ok a -> Q a -> checks inp G Q' (k a)) -> checks inp (F ;; G) Q' (bind o k).
Proof.
  destruct o as [a|[| | |e sp]|]; cbn [checks bind]; auto.
  - intros [H1 H2] H. eapply ck_same; [|apply H; auto]. intros f. symmetry. apply followed_clean. exact H2.
  - intros H _. apply followed_only. exact H.
  - intros [H|(e & sp & H & Hs)] _; [left|right; exists e, sp; split; [|exact Hs]]; apply followed_only; exact H.
Qed.
Lemma ck_pure {A} inp F (Q : A -> Prop) a : clean F -> Q a -> checks inp F Q (Ok a).
Proof. intros H1 H2. split; assumption. Qed.
Lemma no_clean : clean no_fault.
Proof. intros f []. Qed.
Lemma if_clean P e sp : ~ P -> clean (fault_if P e sp).
Proof. intros H f [HP _]. exact (H HP). Qed.
Lemma if_only (P : Prop) e sp : P -> only (fault_if P e sp) (Fault e sp).
Proof. intros H g. split; [intros [_ Hg]; exact Hg|]. intros ->. split; [exact H|reflexivity]. Qed.
Lemma ck_throw {A} inp F (Q : A -> Prop) e sp : only F (Fault e sp) -> checks inp F Q (throw_err e sp inp).
Proof. intros H. unfold throw_err. destruct (span_ok inp sp) eqn:E; cbn [checks]; [exact H|]. right. eauto. Qed.
Lemma ck_panic {A} inp F (Q : A -> Prop) : only F Crash -> checks inp F Q Panic.
Proof. intros H. left. exact H. Qed.
(** A test that throws, then the rest. *)
Lemma ck_if {A} inp (P : Prop) G (Q : A -> Prop) (b : bool) e sp o :
  (b = true <-> P) -> (~ P -> checks inp G Q o) -> checks inp (fault_if P e sp ;; G) Q (if b then throw_err e sp inp else o).
Proof.
  intros H H'. destruct b.
  - apply ck_throw. apply followed_only, if_only. apply H. reflexivity.
  - assert (Hn : ~ P) by (intros HP; apply H in HP; discriminate).
    eapply ck_same; [|exact (H' Hn)]. intros f. symmetry. apply followed_clean. apply if_clean. exact Hn.
Qed.
Lemma ck_test inp (P : Prop) (b : bool) e sp :
  (b = true <-> P) -> checks inp (fault_if P e sp) (fun _ => ~ P) (if b then throw_err e sp inp else Ok tt).
Proof.
  intros H. destruct b.
  - apply ck_throw. apply if_only. apply H. reflexivity.
  - assert (Hn : ~ P) by (intros HP; apply H in HP; discriminate). split; [exact Hn|apply if_clean; exact Hn].
Qed.
Lemma ck_none {A} inp F G (Q : A -> Prop) o : clean F -> checks inp G Q o -> checks inp (F ;; G) Q o.
Proof. intros H. apply ck_same. intros f. symmetry. apply followed_clean. exact H. Qed.
Lemma such_same {A} (P : A -> Prop) (R : A -> frule) a : P a -> (forall b, P b -> b = a) -> same_rule (R a) (such P R).
Proof. intros H1 H2 f. split; [intros H; exists a; auto|]. intros (b & Hb & H). rewrite (H2 b Hb) in H. exact H. Qed.
Lemma such_clean {A} (P : A -> Prop) (R : A -> frule) : (forall a, P a -> clean (R a)) -> clean (such P R).
Proof. intros H f (a & H1 & H2). exact (H a H1 f H2). Qed.
Lemma ck_such {A B} inp (P : A -> Prop) (R : A -> frule) (Q : B -> Prop) o a :
  P a -> (forall b, P b -> b = a) -> checks inp (R a) Q o -> checks inp (such P R) Q o.
Proof. intros H1 H2. apply ck_same. apply such_same; assumption. Qed.
Lemma followed_same F F' G G' : same_rule F F' -> (clean F -> same_rule G G') -> same_rule (F ;; G) (F' ;; G').
Proof.
  intros H1 H2 f. unfold followed. rewrite (H1 f). split; (intros [H|[Hc H]]; [left; exact H|right]).
  - split; [eapply same_clean; eassumption|]. apply (H2 Hc). exact H.
  - assert (Hc' : clean F) by (eapply same_clean; [apply same_sym; exact H1|exact Hc]). split; [exact Hc'|]. apply (H2 Hc'). exact H.
Qed.
Lemma followed_assoc F G H : same_rule ((F ;; G) ;; H) (F ;; G ;; H).
Proof.
  intros f. unfold followed at 1 3. split.
  - intros [[HF|[HC HG]]|[HC Hh]]; [left; exact HF|right; split; [exact HC|left; exact HG]|].
    assert (Hc : clean F) by (intros g Hg; apply (HC g); left; exact Hg).
    right. split; [exact Hc|]. right. split; [|exact Hh]. intros g Hg. apply (HC g). right. auto.
  - intros [HF|[HC [HG|[HC2 Hh]]]]; [left; left; exact HF|left; right; auto|right]. split; [|exact Hh].
    intros g [Hg|[_ Hg]]; [exact (HC g Hg)|exact (HC2 g Hg)].
Qed.
Lemma ck_assoc {A} inp F G H (Q : A -> Prop) o : checks inp ((F ;; G) ;; H) Q o -> checks inp (F ;; G ;; H) Q o.
Proof. apply ck_same, followed_assoc. Qed.

(** ** Lists *)
Lemma try_fold_app {A B} (f : B -> A -> outcome B) l1 l2 acc : try_fold f (l1 ++ l2) acc = bind (try_fold f l1 acc) (try_fold f l2).
Proof.
  revert acc. induction l1 as [|a l1 IH]; intros acc; cbn [app try_fold bind]; [reflexivity|].
  destruct (f acc a) as [b|e|]; cbn [bind]; auto.
Qed.
Lemma ck_fold {A B} inp (f : B -> A -> outcome B) (R : list A -> A -> list A -> frule) l acc0 :
  (forall l1 a l2 acc, l = l1 ++ a :: l2 -> try_fold f l1 acc0 = Ok acc -> checks inp (R l1 a l2) (fun _ => True) (f acc a)) ->
  checks inp (each l R) (fun _ => True) (try_fold f l acc0).
Proof.
  intros H. unfold each.
  cut (forall l2 l1 acc, l = l1 ++ l2 -> try_fold f l1 acc0 = Ok acc -> checks inp (each_from R l1 l2) (fun _ => True) (try_fold f l2 acc)).
  { intros G. apply (G l []); reflexivity. }
  induction l2 as [|a l2 IH]; intros l1 acc E Ef; cbn [try_fold each_from].
  - apply ck_pure; [apply no_clean|exact Logic.I].
  - eapply ck_bind; [apply (H l1 a l2 acc E Ef)|]. intros b Eb _. apply IH.
    + rewrite <- app_assoc. exact E.
    + rewrite try_fold_app, Ef. cbn [bind try_fold]. rewrite Eb. reflexivity.
Qed.
Lemma ck_map {A B} inp (f : A -> outcome B) (R : A -> frule) l :
  (forall a, In a l -> checks inp (R a) (fun _ => True) (f a)) ->
  checks inp (each l (fun _ a _ => R a)) (fun _ => True) (try_map f l).
Proof.
  intros H. unfold each. generalize (@nil A) as before. induction l as [|a l IH]; intros before; cbn [try_map each_from].
  - apply ck_pure; [apply no_clean|exact Logic.I].
  - eapply ck_bind; [apply H; left; reflexivity|]. intros b _ _.
    eapply ck_same; [|eapply ck_bind with (G := no_fault); [apply IH; intros a' Ha'; apply H; right; exact Ha'|]].
    + intros g. split; [intros [Hg|[_ []]]; exact Hg|]. intros Hg. left. exact Hg.
    + intros bs _ _. apply ck_pure; [apply no_clean|exact Logic.I].
Qed.
Lemma each_from_same {A} (R R' : list A -> A -> list A -> frule) l : forall before,
  (forall l1 a l2, before ++ l = l1 ++ a :: l2 -> same_rule (R l1 a l2) (R' l1 a l2)) ->
  same_rule (each_from R before l) (each_from R' before l).
Proof.
  induction l as [|a l IH]; intros before H; cbn [each_from]; [intros g; reflexivity|].
  apply followed_same; [apply H; reflexivity|]. intros _. apply IH. intros l1 b l2 E. apply H. rewrite <- app_assoc in E. exact E.
Qed.
Lemma each_in {A} (R : list A -> A -> list A -> frule) l f : each l R f -> exists l1 a l2, l = l1 ++ a :: l2 /\ R l1 a l2 f.
Proof.
  unfold each. cut (forall before, each_from R before l f -> exists l1 a l2, before ++ l = l1 ++ a :: l2 /\ R l1 a l2 f).
  { intros H. apply (H []). }
  induction l as [|a l IH]; intros before; cbn [each_from]; [intros []|]. intros [H|[_ H]].
  - exists before, a, l. auto.
  - apply IH in H as (l1 & b & l2 & E & H). rewrite <- app_assoc in E. eauto.
Qed.
Lemma each_clean {A} (R : list A -> A -> list A -> frule) l : (forall l1 a l2, l = l1 ++ a :: l2 -> clean (R l1 a l2)) -> clean (each l R).
Proof. intros H f Hf. apply each_in in Hf as (l1 & a & l2 & E & Hf). exact (H l1 a l2 E f Hf). Qed.

(** ** Duplicate keys *)
Lemma dup_only {A B} (key : A -> B) (mk : A -> fault) l : forall before seen,
  (forall k, In k (map key before) <-> In k seen) ->
  forall l1 a l2, l = l1 ++ a :: l2 -> NoDup (map key l1) -> (forall b, In b l1 -> ~ In (key b) seen) ->
    (In (key a) seen \/ In (key a) (map key l1)) ->
    only (each_from (fun bf b _ f => repeated key bf b /\ f = mk b) before l) (mk a).
Proof.
  induction l as [|b l IH]; intros before seen Hs l1 a l2 E Hn Hl Ha; [destruct l1; discriminate|]. cbn [each_from].
  destruct l1 as [|b' l1]; cbn [app] in E; injection E as -> E.
  - subst l2. apply followed_only. intros g. unfold repeated. rewrite (Hs (key a)). cbn [map In] in Ha. tauto.
  - eapply same_only; [apply same_sym; intros g; apply followed_clean|].
    + intros h [Hg _]. apply (Hl b'); [left; reflexivity|]. apply Hs. exact Hg.
    + cbn [map] in Hn. apply NoDup_cons_iff in Hn as [Hn1 Hn2].
      eapply (IH _ (key b' :: seen)); [|exact E|exact Hn2| |].
      * intros k. rewrite map_app, in_app_iff. cbn [map In]. rewrite (Hs k). tauto.
      * intros c Hc [Hk|Hk]; [apply Hn1; rewrite Hk; apply in_map; exact Hc|]. apply (Hl c); [right; exact Hc|exact Hk].
      * cbn [map In] in *. tauto.
Qed.
Lemma first_dup_exact {A} (key : A -> str) l : forall seen,
  match first_dup key seen l with
  | Some a => exists l1 l2, l = l1 ++ a :: l2 /\ NoDup (map key l1) /\ (forall b, In b l1 -> ~ In (key b) seen) /\ (In (key a) seen \/ In (key a) (map key l1))
  | None => NoDup (map key l) /\ forall a, In a l -> ~ In (key a) seen
  end.
Proof.
  intros seen. pose proof (first_dup_spec key l seen) as Hs. revert seen Hs. induction l as [|a l IH]; intros seen Hs; cbn [first_dup] in *.
  - exact Hs.
  - destruct (mem_str (key a) seen) eqn:E.
    + apply mem_str_In in E. exists [], l. split; [reflexivity|]. split; [constructor|]. split; [intros b []|]. auto.
    + apply mem_str_false in E. specialize (IH (key a :: seen) (first_dup_spec key l _)). destruct (first_dup key (key a :: seen) l) as [b|]; [|exact Hs].
      destruct IH as (l1 & l2 & -> & H1 & H2 & H3). exists (a :: l1), l2. split; [reflexivity|]. split; [|split].
      * cbn [map]. constructor; [|exact H1]. intros Hin. apply in_map_iff in Hin as (c & Hc & Hin). apply (H2 c Hin). left. auto.
      * intros c [<-|Hc]; [exact E|]. intros Hk. apply (H2 c Hc). right. exact Hk.
      * cbn [In map] in *. tauto.
Qed.
Lemma each_dup_clean {A B} (key : A -> B) (mk : A -> fault) l : NoDup (map key l) ->
  clean (each l (fun bf b _ f => repeated key bf b /\ f = mk b)).
Proof.
  intros Hn. apply each_clean. intros l1 a l2 -> f [H _]. unfold repeated in H. rewrite map_app in Hn. cbn [map] in Hn.
  apply NoDup_split in Hn as [Hn _]. contradiction.
Qed.
Lemma ck_attrs inp l : checks inp (attr_faults l) (fun _ => True) (check_attr_duplicate_keys l inp).
Proof.
  unfold check_attr_duplicate_keys, attr_faults. pose proof (first_dup_exact attr_key l []) as H. destruct (first_dup attr_key [] l) as [a|].
  - destruct H as (l1 & l2 & E & H1 & H2 & H3). apply ck_throw.
    apply (dup_only key_of (fun a => Fault DuplicateAttributeKey (at_span a)) l [] [] (fun k => iff_refl _) l1 a l2 E H1 H2 H3).
  - destruct H as [H _]. apply ck_pure; [|exact Logic.I]. apply (each_dup_clean key_of (fun a => Fault DuplicateAttributeKey (at_span a))). exact H.
Qed.
Lemma ck_opt_attrs {S} inp (attrs : S -> list attribute_t) st :
  checks inp (on st (fun y => attr_faults (attrs y))) (fun _ => True) (check_opt_attrs attrs st inp).
Proof. destruct st as [y|]; cbn [on check_opt_attrs]; [apply ck_attrs|]. apply ck_pure; [apply no_clean|exact Logic.I]. Qed.
Lemma ck_projects x : checks (sb_input x) (project_faults x) (fun _ => True) (check_projects x).
Proof.
  unfold check_projects, project_faults. cbv zeta.
  eapply ck_bind; [apply ck_test; rewrite Nat.ltb_lt; reflexivity|]. intros [] _ Hl; cbv beta in Hl.
  destruct (projects x) as [|p l] eqn:E.
  - apply ck_throw. apply followed_only, if_only. reflexivity.
  - apply ck_none; [apply if_clean; discriminate|]. destruct l as [|p' l]; [|cbn [List.length] in Hl; lia]. unfold each at 1. cbn [each_from].
    eapply ck_same with (F := each (pj_properties p) (fun before pr _ => fault_if (repeated prop_name before pr) DuplicatePropertyKey (pr_span pr))).
    { intros f. split; [intros Hg; left; exact Hg|]. intros [Hg|[_ []]]; exact Hg. }
    unfold check_prop_duplicate_keys. pose proof (first_dup_exact prop_key (pj_properties p) []) as H.
    destruct (first_dup prop_key [] (pj_properties p)) as [a|].
    + destruct H as (l1 & l2 & E2 & H1 & H2 & H3). apply ck_throw.
      apply (dup_only prop_name (fun a => Fault DuplicatePropertyKey (pr_span a)) _ [] [] (fun k => iff_refl _) l1 a l2 E2 H1 H2 H3).
    + destruct H as [H _]. apply ck_pure; [|exact Logic.I]. apply (each_dup_clean prop_name (fun a => Fault DuplicatePropertyKey (pr_span a))). exact H.
Qed.
