(** * TableRefs: what [get_table_refs] says of all tables together. *)

From Verif Require Import Rules IndexSpec Samples RulesOk2 RulesOk3 CheckFacts CheckFacts2.
From Verif Require Import Err Analyzer Api.

Lemma selected_in {A} (P : A -> Prop) l k a : selected P l k -> (In a k <-> In a l /\ P a).
Proof.
  induction 1 as [|b l k Hb H IH|b l k Hb H IH]; cbn [In]; [tauto| |].
  - rewrite IH. split; [intros [->|[H1 H2]]; auto|intros [[->|H1] H2]; auto].
  - rewrite IH. split; [intros [H1 H2]; auto|intros [[->|H1] H2]; [contradiction|auto]].
Qed.
Lemma selected_split {A} (P Q : A -> Prop) l : forall k1 k2, selected (fun a => P a /\ Q a) l k1 -> selected (fun a => P a /\ ~ Q a) l k2 ->
  exists k, selected P l k /\ List.length k = (List.length k1 + List.length k2)%nat.
Proof.
  induction l as [|a l IH]; intros k1 k2 H1 H2.
  - inversion H1; inversion H2; subst. exists []. split; [constructor|reflexivity].
  - inversion H1 as [|? ? k1' B1 S1|? ? ? B1 S1]; inversion H2 as [|? ? k2' B2 S2|? ? ? B2 S2]; subst; destruct (IH _ _ S1 S2) as (k & S & L).
    + tauto.
    + exists (a :: k). split; [constructor; tauto|cbn [List.length]; lia].
    + exists (a :: k). split; [constructor; tauto|cbn [List.length]; lia].
    + exists k. split; [constructor; tauto|exact L].
Qed.
Lemma selected_ext {A} (P Q : A -> Prop) l k : (forall a, P a <-> Q a) -> selected P l k -> selected Q l k.
Proof. intros H. induction 1; constructor; try assumption; rewrite <- H; assumption. Qed.

Definition total {A} (ls : list (list A)) : nat := list_sum (map (@List.length A) ls).
Section Count.
  Context {T A : Type} (P : T -> A -> Prop).
  Let Sel l ts ks := Forall2 (fun t k => selected (P t) l k) ts ks.
  Lemma no_hit a l ts ks : (forall t, In t ts -> ~ P t a) -> Sel (a :: l) ts ks -> Sel l ts ks.
  Proof.
    intros H F. induction F as [|t k ts ks S F IH]; constructor.
    - inversion S as [|? ? ? B S'|? ? ? B S']; subst; [exfalso; apply (H t); [left; reflexivity|exact B]|exact S'].
    - apply IH. intros u Hu. apply H. right. exact Hu.
  Qed.
  Lemma one_hit a l ts ks t0 : NoDup ts -> In t0 ts -> (forall t, In t ts -> (P t a <-> t = t0)) -> Sel (a :: l) ts ks ->
    exists ks', Sel l ts ks' /\ total ks = S (total ks').
  Proof.
    intros N I H F. revert N I H. induction F as [|t k ts ks Sk F IH]; intros N I H; [destruct I|].
    apply NoDup_cons_iff in N as [N1 N2]. inversion Sk as [|? ? k' B S'|? ? ? B S']; subst.
    - assert (E : t = t0) by (apply H; [left; reflexivity|exact B]). subst t0. exists (k' :: ks). split; [|reflexivity].
      constructor; [exact S'|]. apply (no_hit a); [|exact F]. intros u Hu K. apply H in K; [|right; exact Hu]. subst u. contradiction.
    - destruct I as [->|I]; [exfalso; apply B, H; [left; reflexivity|reflexivity]|].
      destruct (IH N2 I) as (ks' & F' & E). { intros u Hu. apply H. right. exact Hu. }
      exists (k :: ks'). split; [constructor; assumption|]. unfold total in *. cbn [map list_sum fold_right]. fold (list_sum (map (@List.length A) ks)). fold (list_sum (map (@List.length A) ks')). lia.
  Qed.
  Lemma count_all l : forall ts ks, NoDup ts -> (forall a, In a l -> exists t0, In t0 ts /\ forall t, In t ts -> (P t a <-> t = t0)) ->
    Sel l ts ks -> total ks = List.length l.
  Proof.
    induction l as [|a l IH]; intros ts ks N H F.
    - clear H N. induction F as [|t k ts ks Sk F IH]; [reflexivity|]. inversion Sk; subst. exact IH.
    - destruct (H a (or_introl eq_refl)) as (t0 & I & K). destruct (one_hit a l ts ks t0 N I K F) as (ks' & F' & E). rewrite E. cbn [List.length]. f_equal.
      apply (IH ts ks' N); [intros b Hb; apply H; right; exact Hb|exact F'].
  Qed.
End Count.

Section Refs.
  Variables (x : schema_t) (an : analyzed_indexer).
  Hypothesis Ok_ : analyze x = Ok an.
  Let W : wf x := proj1 (analyze_accepts x) (ex_intro _ an Ok_).
  Let of (t : table_t) := get_table_refs (tb_ident t) an.

  Lemma den_target t r : In t (tables x) -> (denotes_table x (tb_ident t) r <-> target (tables x) r t).
  Proof. intros H. unfold denotes_table, target. tauto. Qed.
  Lemma tables_nodup : NoDup (tables x).
  Proof. exact (NoDup_map_inv _ _ (w_tab _ W)). Qed.
  Lemma end_table r e : In r (all_refs x) -> e = ir_lhs r \/ e = ir_rhs r ->
    exists t0, In t0 (tables x) /\ target (tables x) e t0 /\ forall t, In t (tables x) -> (denotes_table x (tb_ident t) e <-> t = t0).
  Proof.
    intros Hr He. destruct (w_target _ W e) as (t0 & T & _); [exists r; auto|]. exists t0. split; [exact (proj1 T)|]. split; [exact T|].
    intros t Ht. rewrite (den_target _ _ Ht). split; [intros K; exact (target_unique _ W _ _ _ K T)|intros ->; exact T].
  Qed.

  Lemma each_once r : In r (all_refs x) ->
    exists tl tr, target (tables x) (ir_lhs r) tl /\ target (tables x) (ir_rhs r) tr /\
    forall t, In t (tables x) ->
      (In r (tr_ref_self (of t)) <-> t = tl /\ t = tr) /\
      (In r (tr_ref_to (of t)) <-> t = tl /\ t <> tr) /\
      (In r (tr_ref_by (of t)) <-> t <> tl /\ t = tr).
  Proof.
    intros Hr. destruct (end_table r _ Hr (or_introl eq_refl)) as (tl & Il & Tl & Dl). destruct (end_table r _ Hr (or_intror eq_refl)) as (tr & Ir & Tr & Dr).
    exists tl, tr. split; [exact Tl|]. split; [exact Tr|]. intros t Ht. destruct (get_table_refs_ok x an (tb_ident t) Ok_) as (S1 & S2 & S3).
    fold (of t) in S1, S2, S3. rewrite (selected_in _ _ _ r S1), (selected_in _ _ _ r S2), (selected_in _ _ _ r S3), (Dl t Ht), (Dr t Ht). tauto.
  Qed.
  Lemma count_lhs : total (map (fun t => tr_ref_self (of t) ++ tr_ref_to (of t)) (tables x)) = List.length (all_refs x).
  Proof.
    assert (F : exists ks, Forall2 (fun t k => selected (fun r => denotes_table x (tb_ident t) (ir_lhs r)) (all_refs x) k) (tables x) ks /\
      total ks = total (map (fun t => tr_ref_self (of t) ++ tr_ref_to (of t)) (tables x))).
    { generalize (tables x). intros ts. induction ts as [|t ts (ks & F & E)]; [exists []; split; [constructor|reflexivity]|].
      destruct (get_table_refs_ok x an (tb_ident t) Ok_) as (S1 & S2 & _). fold (of t) in S1, S2.
      destruct (selected_split (fun r => denotes_table x (tb_ident t) (ir_lhs r)) _ _ _ _ S1 S2) as (k & S & L). exists (k :: ks). split; [constructor; assumption|].
      unfold total in *. cbn [map list_sum fold_right]. rewrite app_length, L. f_equal. exact E. }
    destruct F as (ks & F & <-). apply (count_all (fun t r => denotes_table x (tb_ident t) (ir_lhs r)) _ (tables x)); [exact tables_nodup| |exact F].
    intros r Hr. destruct (end_table r _ Hr (or_introl eq_refl)) as (t0 & I & _ & D). exists t0. split; assumption.
  Qed.
  Lemma count_rhs : total (map (fun t => tr_ref_self (of t) ++ tr_ref_by (of t)) (tables x)) = List.length (all_refs x).
  Proof.
    assert (F : exists ks, Forall2 (fun t k => selected (fun r => denotes_table x (tb_ident t) (ir_rhs r)) (all_refs x) k) (tables x) ks /\
      total ks = total (map (fun t => tr_ref_self (of t) ++ tr_ref_by (of t)) (tables x))).
    { generalize (tables x). intros ts. induction ts as [|t ts (ks & F & E)]; [exists []; split; [constructor|reflexivity]|].
      destruct (get_table_refs_ok x an (tb_ident t) Ok_) as (S1 & _ & S2). fold (of t) in S1, S2.
      apply (selected_ext _ (fun r => denotes_table x (tb_ident t) (ir_rhs r) /\ denotes_table x (tb_ident t) (ir_lhs r))) in S1; [|intros a; tauto].
      apply (selected_ext _ (fun r => denotes_table x (tb_ident t) (ir_rhs r) /\ ~ denotes_table x (tb_ident t) (ir_lhs r))) in S2; [|intros a; tauto].
      destruct (selected_split (fun r => denotes_table x (tb_ident t) (ir_rhs r)) _ _ _ _ S1 S2) as (k & S & L). exists (k :: ks). split; [constructor; assumption|].
      unfold total in *. cbn [map list_sum fold_right]. rewrite app_length, L. f_equal. exact E. }
    destruct F as (ks & F & <-). apply (count_all (fun t r => denotes_table x (tb_ident t) (ir_rhs r)) _ (tables x)); [exact tables_nodup| |exact F].
    intros r Hr. destruct (end_table r _ Hr (or_intror eq_refl)) as (t0 & I & _ & D). exists t0. split; assumption.
  Qed.
  Lemma undeclared tid : (forall t, In t (tables x) -> (option_map id_str (ti_schema (tb_ident t)), id_str (ti_name (tb_ident t))) <>
      (option_map id_str (ti_schema tid), id_str (ti_name tid))) ->
    get_table_refs tid an = mkTableRef [] [] [].
  Proof.
    intros H. destruct (get_table_refs_ok x an tid Ok_) as (S1 & S2 & S3).
    assert (K : forall r e, In r (all_refs x) -> e = ir_lhs r \/ e = ir_rhs r -> ~ denotes_table x tid e).
    { intros r e Hr He D. destruct (end_table r e Hr He) as (t0 & I & T & _). destruct T as [_ T].
      destruct (points_to_fun _ _ _ _ _ _ (w_als _ W) D T) as [E1 E2]. apply (H t0 I). congruence. }
    assert (N : forall (P : indexed_ref -> Prop) k, (forall r, In r (all_refs x) -> ~ P r) -> selected P (all_refs x) k -> k = []).
    { intros P k HP S. destruct k as [|r k]; [reflexivity|]. destruct (proj1 (selected_in P _ _ r S) (or_introl eq_refl)) as [I p]. destruct (HP r I p). }
    destruct (get_table_refs tid an) as [a b c]. cbn [tr_ref_to tr_ref_by tr_ref_self] in *. f_equal.
    - apply (N _ a) in S2; [exact S2|]. intros r Hr [D _]. exact (K r _ Hr (or_introl eq_refl) D).
    - apply (N _ b) in S3; [exact S3|]. intros r Hr [_ D]. exact (K r _ Hr (or_intror eq_refl) D).
    - apply (N _ c) in S1; [exact S1|]. intros r Hr [D _]. exact (K r _ Hr (or_introl eq_refl) D).
  Qed.
End Refs.

(** Turning references round. *)
Lemma selected_fun {A} (P : A -> Prop) l k k' : selected P l k -> selected P l k' -> k = k'.
Proof.
  intros H. revert k'. induction H as [|a l k Ha H IH|a l k Ha H IH]; intros k' H'; inversion H'; subst; try contradiction; [reflexivity|f_equal; apply IH; assumption|apply IH; assumption].
Qed.
Lemma selected_map {A B} (f : A -> B) (P : A -> Prop) (Q : B -> Prop) l k : (forall a, P a <-> Q (f a)) -> selected P l k -> selected Q (map f l) (map f k).
Proof. intros E. induction 1; cbn [map]; constructor; try assumption; rewrite <- E; assumption. Qed.
Lemma turned_refs x y an an' tid : analyze x = Ok an -> analyze y = Ok an' -> tables y = tables x -> all_refs y = map turn_ref (all_refs x) ->
  tr_ref_self (get_table_refs tid an') = map turn_ref (tr_ref_self (get_table_refs tid an)) /\
  tr_ref_to (get_table_refs tid an') = map turn_ref (tr_ref_by (get_table_refs tid an)) /\
  tr_ref_by (get_table_refs tid an') = map turn_ref (tr_ref_to (get_table_refs tid an)).
Proof.
  intros A B Et Er. destruct (get_table_refs_ok x an tid A) as (S1 & S2 & S3). destruct (get_table_refs_ok y an' tid B) as (T1 & T2 & T3).
  assert (D : forall e, denotes_table y tid e <-> denotes_table x tid e) by (intros e; unfold denotes_table; rewrite Et; reflexivity).
  rewrite Er in T1, T2, T3.
  split; [|split]; eapply selected_fun; try eassumption; (eapply selected_map; [|eassumption]); intros r; cbn [turn_ref ir_lhs ir_rhs]; rewrite !D; tauto.
Qed.
Lemma foreign_keys : forall x an t r, analyze x = Ok an -> In t (tables x) -> In r (all_refs x) ->
  ir_rel r = Many2One \/ ir_rel r = One2Many ->
  (target (tables x) (key_end r) t /\ ~ target (tables x) (far_end r) t <->
   In r (tr_ref_to (get_table_refs (tb_ident t) an)) /\ ir_rel r = Many2One \/
   In r (tr_ref_by (get_table_refs (tb_ident t) an)) /\ ir_rel r = One2Many) /\
  (target (tables x) (far_end r) t /\ ~ target (tables x) (key_end r) t <->
   In r (tr_ref_by (get_table_refs (tb_ident t) an)) /\ ir_rel r = Many2One \/
   In r (tr_ref_to (get_table_refs (tb_ident t) an)) /\ ir_rel r = One2Many).
Proof.
  intros x an t r A Ht Hr R. destruct (get_table_refs_ok x an (tb_ident t) A) as (_ & S2 & S3).
  rewrite (selected_in _ _ _ r S2), (selected_in _ _ _ r S3). unfold denotes_table, target, key_end, far_end.
  destruct R as [E|E]; rewrite E; split; split; intros; intuition (try discriminate; auto).
Qed.
Definition ast_of (t : str) : schema_t := match accepted t with Some x => x | None => mkSchema (0, 0) [] [] end.
Definition family : str := prj "Table t { a int [pk] b int [unique, ref: > t.a] } Table u { c int [ref: > t.a] d int } Ref: t.b < u.d".
Lemma ref_to_refuted :
  ~ (forall x an t r, analyze x = Ok an -> In t (tables x) -> In r (tr_ref_to (get_table_refs (tb_ident t) an)) -> target (tables x) (key_end r) t).
Proof.
  intros H. pose (x := ast_of family).
  assert (E : exists an t u r, analyze x = Ok an /\ In t (tables x) /\ In r (tr_ref_to (get_table_refs (tb_ident t) an)) /\ In r (all_refs x) /\
    ir_rel r = One2Many /\ In u (tables x) /\ In r (tr_ref_by (get_table_refs (tb_ident u) an)) /\ id_str (ti_name (tb_ident t)) <> id_str (ti_name (tb_ident u))).
  { do 4 eexists. split; [vm_compute; reflexivity|]. split; [vm_compute; left; reflexivity|]. split; [vm_compute; left; reflexivity|]. split; [vm_compute; left; reflexivity|].
    split; [vm_compute; reflexivity|]. split; [vm_compute; right; left; reflexivity|]. split; [vm_compute; left; reflexivity|]. vm_compute. discriminate. }
  clearbody x.
  destruct E as (an & t & u & r & A & Ht & Hr & Ha & R & Hu & Hb & N).
  pose proof (H x an t r A Ht Hr) as T. unfold key_end in T. rewrite R in T.
  destruct (each_once x an A r Ha) as (tl & tr & _ & _ & K). destruct (K t Ht) as (_ & K1 & _). destruct (K u Hu) as (_ & _ & K2).
  apply K1 in Hr as [-> Hn]. destruct (proj1 K2 Hb) as [_ ->].
  destruct (get_table_refs_ok x an (tb_ident tl) A) as (S1 & _ & _). destruct (get_table_refs_ok x an (tb_ident tr) A) as (_ & _ & S3).
  apply (selected_in _ _ _ r S3) in Hb as (_ & _ & D).
  assert (W : wf x) by (apply RulesOk3.analyze_accepts; eauto).
  apply Hn. apply (RulesOk3.target_unique _ W _ _ _ T). split; assumption.
Qed.
