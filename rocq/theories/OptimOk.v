(** * OptimOk: pest's list rewriting does not change what dbml.pest parses. *)

From Verif Require Export Optim LexRules.
Local Open Scope N_scope.

Definition eqv (e e' : pexp) : Prop := forall a off inp, eval skip e a off inp = eval skip e' a off inp.
Lemma eqv_refl e : eqv e e.
Proof. intros a off inp. reflexivity. Qed.
Lemma eqv_trans e1 e2 e3 : eqv e1 e2 -> eqv e2 e3 -> eqv e1 e3.
Proof. intros H1 H2 a off inp. rewrite H1. apply H2. Qed.
Lemma eqv_seq a b a' b' : eqv a a' -> eqv b b' -> eqv (ESeq a b) (ESeq a' b').
Proof. intros H1 H2 at_ off inp. rewrite !eval_seq, H1. destruct (eval skip a' at_ off inp) as [t i ps| |]; try reflexivity. destruct (skipf at_ i) as [g i2]. rewrite H2. reflexivity. Qed.
Lemma eqv_alt a b a' b' : eqv a a' -> eqv b b' -> eqv (EAlt a b) (EAlt a' b').
Proof. intros H1 H2 at_ off inp. rewrite !eval_alt, H1. destruct (eval skip a' at_ off inp); try reflexivity. apply H2. Qed.
Lemma eqv_opt a a' : eqv a a' -> eqv (EOpt a) (EOpt a').
Proof. intros H at_ off inp. rewrite !eval_opt, H. reflexivity. Qed.
Lemma bind_ext r off f g : (forall o i, f o i = g o i) -> bind_res r off f = bind_res r off g.
Proof. intros H. destruct r; cbn [bind_res]; try reflexivity. rewrite H. reflexivity. Qed.
Lemma repeat_ext f g : (forall o i, f o i = g o i) -> forall n off inp, repeat f n off inp = repeat g n off inp.
Proof.
  intros H n. induction n as [|n IH]; intros off inp; [reflexivity|]. cbn [repeat]. rewrite H. destruct (g off inp) as [t i ps| |]; try reflexivity.
  rewrite IH. reflexivity.
Qed.
Lemma eqv_rep a a' : eqv a a' -> eqv (ERep a) (ERep a').
Proof.
  intros H at_ off inp. destruct at_; cbn [eval].
  - rewrite H. destruct (eval skip a' NonAtomic off inp) as [t i ps| |]; try reflexivity. apply bind_ext. intros o j. apply repeat_ext. intros o' j'. apply bind_ext. apply H.
  - apply repeat_ext. apply H.
  - apply repeat_ext. apply H.
Qed.
Lemma eqv_rule r t a a' : eqv a a' -> eqv (ERule r t a) (ERule r t a').
Proof. intros H at_ off inp. destruct t; cbn [eval]; rewrite H; reflexivity. Qed.

(** ** Repetition *)
Inductive tail (e : pexp) (a : atomicity) : N -> str -> str -> str -> list pair -> Prop :=
| tl_nil o m g i : skipf a m = (g, i) -> eval skip e a (o + blen g) i = RFail -> tail e a o m [] m []
| tl_cons o m g i t1 m1 ps1 t2 m2 ps2 : skipf a m = (g, i) -> eval skip e a (o + blen g) i = ROk t1 m1 ps1 ->
    tail e a (o + blen g + blen t1) m1 t2 m2 ps2 -> tail e a o m (g ++ t1 ++ t2) m2 (ps1 ++ ps2).
Lemma eval_app e a off inp t r ps : eval skip e a off inp = ROk t r ps -> inp = t ++ r.
Proof. intros H. apply eval_der in H as [H _]; [exact H|exact skip_app]. Qed.
Lemma eval_nonnull e a off inp t r ps : nonnull e = true -> eval skip e a off inp = ROk t r ps -> t <> [].
Proof. intros Hn H. apply eval_der in H as [_ H]; [|exact skip_app]. eapply nonnull_der; eassumption. Qed.
Lemma skipf_app a m g i : skipf a m = (g, i) -> m = g ++ i.
Proof.
  destruct a; [|intros [= <- <-]; reflexivity|intros [= <- <-]; reflexivity]. intros H. apply skipf_spec in H. apply H.
Qed.
Definition step (e : pexp) (a : atomicity) : N -> str -> pres := fun o i => bind_res (do_skip skip a i) o (eval skip e a).
Lemma step_eq e a o m g i : skipf a m = (g, i) ->
  step e a o m = match eval skip e a (o + blen g) i with ROk t r ps => ROk (g ++ t) r ps | x => x end.
Proof.
  intros H. unfold step. rewrite do_skip_skipf, H. cbn [fst snd bind_res]. destruct (eval skip e a (o + blen g) i); reflexivity.
Qed.
Lemma rep_loop e a off inp : a <> NonAtomic -> eval skip (ERep e) a off inp = repeat (step e a) (fuel_for inp) off inp.
Proof.
  intros Ha. assert (E : forall o i, eval skip e a o i = step e a o i).
  { intros o i. assert (S : skipf a i = ([], i)) by (destruct a; congruence || reflexivity). rewrite (step_eq _ _ _ _ _ _ S). cbn [blen app]. rewrite N.add_0_r.
    destruct (eval skip e a o i); reflexivity. }
  destruct a; [congruence| |]; cbn [eval]; apply repeat_ext; exact E.
Qed.
Lemma tail_repeat e a : nonnull e = true -> forall o m t r ps, tail e a o m t r ps -> forall fuel, (List.length m < fuel)%nat -> repeat (step e a) fuel o m = ROk t r ps.
Proof.
  intros Hn o m t r ps H. induction H as [o m g i Hs He|o m g i t1 m1 ps1 t2 m2 ps2 Hs He Ht IH]; intros [|f] Hf; try lia; cbn [repeat]; rewrite (step_eq _ _ _ _ _ _ Hs), He.
  - reflexivity.
  - pose proof (eval_app _ _ _ _ _ _ _ He) as Hi. pose proof (eval_nonnull _ _ _ _ _ _ _ Hn He) as H1. pose proof (skipf_app _ _ _ _ Hs) as Hm.
    rewrite blen_app, N.add_assoc, IH; [rewrite app_assoc; reflexivity|]. subst m i. rewrite !app_length in Hf. destruct t1; [congruence|]. cbn [List.length] in Hf. lia.
Qed.
Lemma repeat_tail e a fuel : forall o m t r ps, repeat (step e a) fuel o m = ROk t r ps -> tail e a o m t r ps.
Proof.
  induction fuel as [|f IH]; intros o m t r ps; cbn [repeat]; [discriminate|]. destruct (skipf a m) as [g i] eqn:Hs. rewrite (step_eq _ _ _ _ _ _ Hs).
  destruct (eval skip e a (o + blen g) i) as [t1 m1 ps1| |] eqn:He; try discriminate.
  - rewrite blen_app, N.add_assoc. destruct (repeat (step e a) f (o + blen g + blen t1) m1) as [t2 m2 ps2| |] eqn:E; try discriminate. intros [= <- <- <-].
    rewrite <- app_assoc. econstructor; [exact Hs|exact He|]. apply IH. exact E.
  - intros [= <- <- <-]. econstructor; eassumption.
Qed.
Lemma atom_dec (a : atomicity) : {a = NonAtomic} + {a <> NonAtomic}.
Proof. destruct a; [left; reflexivity|right; discriminate|right; discriminate]. Qed.
(** Success of [e*] as a chain. *)
Lemma rep_ok e a off inp t r ps : nonnull e = true ->
  (eval skip (ERep e) a off inp = ROk t r ps <->
   (eval skip e a off inp = RFail /\ t = [] /\ r = inp /\ ps = []) \/
   (exists t1 m1 ps1 t2 ps2, eval skip e a off inp = ROk t1 m1 ps1 /\ tail e a (off + blen t1) m1 t2 r ps2 /\ t = t1 ++ t2 /\ ps = ps1 ++ ps2)).
Proof.
  intros Hn. destruct (atom_dec a) as [->|Ha].
  - cbn [eval]. fold (step e NonAtomic). destruct (eval skip e NonAtomic off inp) as [t1 m1 ps1| |] eqn:E.
    + split.
      * intros H. right. apply bind_res_ROk in H as (t1' & i1 & ps1' & t2 & ps2 & [= <- <- <-] & H & -> & ->). apply repeat_tail in H. eauto 10.
      * intros [[[=] _]|(t1' & m1' & ps1' & t2 & ps2 & [= <- <- <-] & H & -> & ->)]. cbn [bind_res]. rewrite (tail_repeat _ _ Hn _ _ _ _ _ H); [reflexivity|unfold fuel_for; lia].
    + split; [intros [= <- <- <-]; auto|]. intros [(_ & -> & -> & ->)|(t1' & m1' & ps1' & t2 & ps2 & [=] & _)]. reflexivity.
    + split; [discriminate|]. intros [[[=] _]|(t1' & m1' & ps1' & t2 & ps2 & [=] & _)].
  - rewrite (rep_loop e a off inp Ha). assert (S : skipf a inp = ([], inp)) by (destruct a; congruence || reflexivity). split.
    + intros H. apply repeat_tail in H. inversion H as [o m g i Hs He|o m g i t1 m1 ps1 t2 m2 ps2 Hs He Ht]; subst; rewrite S in Hs; injection Hs as <- <-; cbn [blen] in *; rewrite N.add_0_r in *.
      * left. auto.
      * right. exists t1, m1, ps1, t2, ps2. auto.
    + intros H. apply (tail_repeat e a Hn); [|unfold fuel_for; lia]. destruct H as [(H & -> & -> & ->)|(t1 & m1 & ps1 & t2 & ps2 & H1 & H2 & -> & ->)].
      * econstructor; [exact S|]. cbn [blen]. rewrite N.add_0_r. exact H.
      * change (t1 ++ t2) with ([] ++ t1 ++ t2). econstructor; [exact S| |]; cbn [blen]; rewrite N.add_0_r; eassumption.
Qed.
Lemma seq_ok e1 e2 a off inp t r ps :
  eval skip (ESeq e1 e2) a off inp = ROk t r ps <->
  exists t1 m1 ps1 g i t2 ps2, eval skip e1 a off inp = ROk t1 m1 ps1 /\ skipf a m1 = (g, i) /\
    eval skip e2 a (off + blen t1 + blen g) i = ROk t2 r ps2 /\ t = t1 ++ g ++ t2 /\ ps = ps1 ++ ps2.
Proof.
  rewrite eval_seq. split.
  - destruct (eval skip e1 a off inp) as [t1 m1 ps1| |] eqn:E1; try discriminate. destruct (skipf a m1) as [g i] eqn:Es.
    destruct (eval skip e2 a (off + blen t1 + blen g) i) as [t2 r2 ps2| |] eqn:E2; try discriminate. intros [= <- <- <-]. eauto 12.
  - intros (t1 & m1 & ps1 & g & i & t2 & ps2 & -> & -> & -> & -> & ->). reflexivity.
Qed.
Lemma comma_ok a off inp t r ps : eval skip (EStr [44]) a off inp = ROk t r ps <-> inp = 44 :: r /\ t = [44] /\ ps = [].
Proof.
  rewrite eval_str. split.
  - destruct (strip_prefix [44] inp) as [r'|] eqn:E; [|discriminate]. intros [= <- <- <-]. apply strip_prefix_spec in E. auto.
  - intros (-> & -> & ->). reflexivity.
Qed.
Lemma eval_loopless e a off inp : loop_free e = true -> eval skip e a off inp <> RLoop.
Proof. intros H. apply eval_noloop; [exact skip_app|exact skip_noloop|exact H]. Qed.
Lemma eqv_ok e e' : loop_free e = true -> loop_free e' = true ->
  (forall a off inp t r ps, eval skip e a off inp = ROk t r ps <-> eval skip e' a off inp = ROk t r ps) -> eqv e e'.
Proof.
  intros L L' H a off inp. pose proof (eval_loopless e a off inp L) as N1. pose proof (eval_loopless e' a off inp L') as N2.
  destruct (eval skip e a off inp) as [t r ps| |] eqn:E1.
  - apply H in E1. congruence.
  - destruct (eval skip e' a off inp) as [t r ps| |] eqn:E2; try congruence. apply H in E2. congruence.
  - congruence.
Qed.
Lemma skipf_idem a m g i : skipf a m = (g, i) -> skipf a i = ([], i).
Proof.
  destruct a; [|reflexivity|reflexivity]. intros H. apply skipf_spec in H as (-> & _ & Hn). apply skipf_spec. split; [reflexivity|]. split; [constructor|exact Hn].
Qed.

(** ** A list between an opening and a closing character *)
Section Site.
  Variables (x k : pexp) (o c : char).
  Hypothesis Lx : loop_free x = true.
  Hypothesis Lk : loop_free k = true.
  Hypothesis Nx : nonnull x = true.
  (** The items do not begin with the closing character, layout or a comment. *)
  Hypothesis Sx : forall a off inp t r ps, eval skip x a off inp = ROk t r ps -> skipf a inp = ([], inp) /\ forall r', inp <> c :: r'.
  Hypothesis Kc : forall a off inp t r ps, eval skip k a off inp = ROk t r ps -> exists r', inp = c :: r'.
  Hypothesis Hc : c <> 44.

  Inductive chain (a : atomicity) : N -> str -> str -> str -> list pair -> Prop :=
  | c_one p i t m ps : eval skip x a p i = ROk t m ps -> chain a p i t m ps
  | c_more p i t1 m1 ps1 g i3 g' i4 t2 m ps2 : eval skip x a p i = ROk t1 m1 ps1 -> skipf a m1 = (g, 44 :: i3) -> skipf a i3 = (g', i4) ->
      chain a (p + blen t1 + blen g + 1 + blen g') i4 t2 m ps2 -> chain a p i (t1 ++ g ++ [44] ++ g' ++ t2) m (ps1 ++ ps2).
  Let sep : pexp := EStr [44].
  Let before : pexp := ESeq x (ERep (ESeq sep x)).
  Let after : pexp := ESeq (ERep (ESeq x sep)) x.

  Lemma Nsx : nonnull (ESeq sep x) = true.
  Proof. reflexivity. Qed.
  Lemma Nxs : nonnull (ESeq x sep) = true.
  Proof. cbn [nonnull]. rewrite Nx. reflexivity. Qed.
  Lemma bl44 : blen [44] = 1.
  Proof. reflexivity. Qed.

  (** *** The given form *)
  Lemma tail_chain a p m t r ps : tail (ESeq sep x) a p m t r ps -> forall q i t1 ps1, eval skip x a q i = ROk t1 m ps1 -> p = q + blen t1 ->
    chain a q i (t1 ++ t) r (ps1 ++ ps).
  Proof.
    intros H. induction H as [p m g i' Hs He|p m g i' t1 m1 ps1 t2 m2 ps2 Hs He Ht IH]; intros q i t0 ps0 Hx ->.
    - rewrite !app_nil_r. constructor. exact Hx.
    - apply seq_ok in He as (u & m' & pu & g' & i4 & t3 & ps3 & Hu & Hs' & H3 & -> & ->). apply comma_ok in Hu as (-> & -> & ->). rewrite bl44 in *.
      pose proof (IH _ _ _ _ H3) as C. rewrite !blen_app, bl44 in C. specialize (C ltac:(lia)). cbn [app].
      pose proof (c_more a q i t0 m ps0 g m' g' i4 _ _ _ Hx Hs Hs' C) as R. rewrite <- ?app_assoc in *. cbn [app] in *. exact R.
  Qed.
  Lemma before_chain a p i t r ps : eval skip before a p i = ROk t r ps ->
    exists t' m g i2, chain a p i t' m ps /\ skipf a m = (g, i2) /\ (r = m /\ t = t' \/ r = i2 /\ t = t' ++ g).
  Proof.
    intros H. apply seq_ok in H as (t1 & m1 & ps1 & g & i2 & t2 & ps2 & H1 & Hs & H2 & -> & ->).
    apply (rep_ok _ _ _ _ _ _ _ Nsx) in H2 as [(H2 & -> & -> & ->)|(u & m2 & pu & t3 & ps3 & H2 & H3 & -> & ->)].
    - exists t1, m1, g, i2. rewrite !app_nil_r. split; [constructor; exact H1|]. auto.
    - apply seq_ok in H2 as (v & m' & pv & g' & i4 & t4 & ps4 & Hv & Hs' & H4 & -> & ->). apply comma_ok in Hv as (-> & -> & ->). rewrite bl44 in *.
      pose proof (tail_chain _ _ _ _ _ _ H3 _ _ _ _ H4) as C. rewrite !blen_app, bl44 in C. specialize (C ltac:(lia)).
      destruct (skipf a r) as [gr ir] eqn:Er. exists (t1 ++ g ++ [44] ++ g' ++ t4 ++ t3), r, gr, ir. split; [|split; [exact Er|left; split; [reflexivity|rewrite <- !app_assoc; reflexivity]]].
      cbn [app]. exact (c_more a p i t1 m1 ps1 g m' g' i4 _ _ _ H1 Hs Hs' C).
  Qed.
  Definition stops (a : atomicity) (m : str) : Prop := forall g i2, skipf a m = (g, i2) -> exists i3, i2 = c :: i3.
  Lemma stop_tail a p m : stops a m -> tail (ESeq sep x) a p m [] m [].
  Proof.
    intros S. destruct (skipf a m) as [g i2] eqn:Es. destruct (S _ _ Es) as [i3 ->]. econstructor; [exact Es|]. rewrite eval_seq. unfold sep. rewrite eval_str. cbn [strip_prefix].
    destruct (N.eqb_spec 44 c); [congruence|]. reflexivity.
  Qed.
  Lemma chain_tail a q i t m ps : chain a q i t m ps -> stops a m ->
    exists t1 m1 ps1 t2 ps2, eval skip x a q i = ROk t1 m1 ps1 /\ tail (ESeq sep x) a (q + blen t1) m1 t2 m ps2 /\ t = t1 ++ t2 /\ ps = ps1 ++ ps2.
  Proof.
    intros H S. induction H as [p i t m ps Hx|p i t1 m1 ps1 g i3 g' i4 t2 m ps2 Hx Hs Hs' C IH].
    - exists t, m, ps, [], []. rewrite !app_nil_r. split; [exact Hx|]. split; [apply stop_tail; exact S|]. auto.
    - destruct (IH S) as (u & mu & pu & v & pv & Hu & Ht & -> & ->). exists t1, m1, ps1, (g ++ ([44] ++ g' ++ u) ++ v), (pu ++ pv).
      split; [exact Hx|]. split; [|split; [rewrite <- !app_assoc; reflexivity|reflexivity]].
      econstructor; [exact Hs| |].
      + apply seq_ok. exists [44], i3, [], g', i4, u, pu. split; [reflexivity|]. split; [exact Hs'|]. rewrite bl44. split; [|auto].
        replace (p + blen t1 + blen g + 1 + blen g') with (p + blen t1 + blen g + 1 + blen g') by lia. exact Hu.
      + rewrite !blen_app, bl44. replace (p + blen t1 + blen g + (1 + (blen g' + blen u))) with (p + blen t1 + blen g + 1 + blen g' + blen u) by lia. exact Ht.
  Qed.
  Lemma chain_before a q i t m ps g i2 : chain a q i t m ps -> stops a m -> skipf a m = (g, i2) ->
    eval skip before a q i = ROk t m ps \/ eval skip before a q i = ROk (t ++ g) i2 ps.
  Proof.
    intros H S Es. destruct (chain_tail _ _ _ _ _ _ H S) as (t1 & m1 & ps1 & t2 & ps2 & Hx & Ht & -> & ->).
    inversion Ht as [p0 m0 g0 i0 Hs He|p0 m0 g0 i0 u mu pu v mv pv Hs He Ht']; subst.
    - right. rewrite Es in Hs. injection Hs as <- <-. rewrite !app_nil_r. apply seq_ok. exists t1, m, ps1, g, i2, [], []. split; [exact Hx|]. split; [exact Es|].
      split; [|rewrite !app_nil_r; auto]. apply (rep_ok _ _ _ _ _ _ _ Nsx). left. auto.
    - left. apply seq_ok. exists t1, m1, ps1, g0, i0, (u ++ v), (pu ++ pv). split; [exact Hx|]. split; [exact Hs|]. split; [|auto].
      apply (rep_ok _ _ _ _ _ _ _ Nsx). right. exists u, mu, pu, v, pv. auto.
  Qed.

  (** *** The rewritten form *)
  (** [(x ~ sep)*] has run up to [m]; then an item follows. *)
  Lemma tail_after a p m t r ps : tail (ESeq x sep) a p m t r ps -> forall g i u m' pu,
    skipf a r = (g, i) -> eval skip x a (p + blen t + blen g) i = ROk u m' pu ->
    exists g0 i0 v, skipf a m = (g0, i0) /\ chain a (p + blen g0) i0 v m' (ps ++ pu) /\ g0 ++ v = t ++ g ++ u.
  Proof.
    intros H. induction H as [p m g0 i0 Hs He|p m g0 i0 t1 m1 ps1 t2 m2 ps2 Hs He Ht IH]; intros g i u m' pu Eg Hx.
    - exists g, i, u. split; [exact Eg|]. split; [|reflexivity]. cbn [blen app] in *. constructor. rewrite N.add_0_r in Hx. exact Hx.
    - destruct (IH g i u m' pu Eg) as (g1 & i1 & v & E1 & C & Ev).
      { rewrite !blen_app in Hx. replace (p + blen g0 + blen t1 + blen t2 + blen g) with (p + (blen g0 + (blen t1 + blen t2)) + blen g) by lia. exact Hx. }
      apply seq_ok in He as (w & mw & pw & gw & iw & t3 & ps3 & Hw & Hs' & H3 & -> & ->). apply comma_ok in H3 as (-> & -> & ->).
      exists g0, i0, (w ++ gw ++ [44] ++ g1 ++ v). split; [exact Hs|]. rewrite app_nil_r. split.
      + rewrite <- app_assoc. eapply c_more; [exact Hw|exact Hs'|exact E1|]. rewrite !blen_app, bl44 in C.
        replace (p + blen g0 + blen w + blen gw + 1 + blen g1) with (p + blen g0 + (blen w + (blen gw + 1)) + blen g1) by lia. exact C.
      + rewrite Ev, <- !app_assoc. reflexivity.
  Qed.
  Lemma after_chain a p i t r ps : skipf a i = ([], i) -> eval skip after a p i = ROk t r ps -> chain a p i t r ps.
  Proof.
    intros Hi H. apply seq_ok in H as (t1 & m1 & ps1 & g & i2 & t2 & ps2 & H1 & Hs & H2 & -> & ->).
    apply (rep_ok _ _ _ _ _ _ _ Nxs) in H1 as [(H1 & -> & -> & ->)|(u & mu & pu & v & pv & H1 & Ht & -> & ->)].
    - rewrite Hi in Hs. injection Hs as <- <-. cbn [app blen] in *. rewrite !N.add_0_r in H2. constructor. exact H2.
    - apply seq_ok in H1 as (w & mw & pw & gw & iw & t3 & ps3 & Hw & Hs' & H3 & -> & ->). apply comma_ok in H3 as (-> & -> & ->).
      destruct (tail_after _ _ _ _ _ _ Ht g i2 t2 r ps2 Hs) as (g0 & i0 & v' & E0 & C & Ev).
      { rewrite !blen_app in *. rewrite bl44 in *. replace (p + (blen w + (blen gw + 1)) + blen v + blen g) with (p + (blen w + (blen gw + 1) + blen v) + blen g) by lia. exact H2. }
      rewrite app_nil_r. rewrite <- !app_assoc. rewrite <- Ev. rewrite !blen_app, bl44 in C.
      eapply c_more; [exact Hw|exact Hs'|exact E0|].
      replace (p + blen w + blen gw + 1 + blen g0) with (p + (blen w + (blen gw + 1)) + blen g0) by lia. exact C.
  Qed.
  Lemma stop_no_sep a p i t m ps : stops a m -> eval skip x a p i = ROk t m ps -> eval skip (ESeq x sep) a p i = RFail.
  Proof.
    intros S Hx. rewrite eval_seq, Hx. destruct (skipf a m) as [g i2] eqn:Es. destruct (S _ _ Es) as [i3 ->]. unfold sep. rewrite eval_str. cbn [strip_prefix].
    destruct (N.eqb_spec 44 c); [congruence|]. reflexivity.
  Qed.
  Lemma chain_split a p i t m ps : chain a p i t m ps -> stops a m ->
    (eval skip (ESeq x sep) a p i = RFail /\ eval skip x a p i = ROk t m ps) \/
    (exists u mu pu v mv pv g i2 w pw, eval skip (ESeq x sep) a p i = ROk u mu pu /\ tail (ESeq x sep) a (p + blen u) mu v mv pv /\
       skipf a mv = (g, i2) /\ eval skip x a (p + blen u + blen v + blen g) i2 = ROk w m pw /\ t = u ++ v ++ g ++ w /\ ps = pu ++ pv ++ pw).
  Proof.
    intros H S. induction H as [p i t m ps Hx|p i t1 m1 ps1 g i3 g' i4 t2 m ps2 Hx Hs Hs' C IH].
    - left. split; [|exact Hx]. eapply stop_no_sep; eassumption.
    - right. assert (H1 : eval skip (ESeq x sep) a p i = ROk (t1 ++ g ++ [44]) i3 ps1).
      { apply seq_ok. exists t1, m1, ps1, g, (44 :: i3), [44], []. rewrite app_nil_r. split; [exact Hx|]. split; [exact Hs|]. auto. }
      assert (B : p + blen (t1 ++ g ++ [44]) + blen g' = p + blen t1 + blen g + 1 + blen g') by (rewrite !blen_app, bl44; lia).
      destruct (IH S) as [[F2 X2]|(u & mu & pu & v & mv & pv & gv & iv & w & pw & E2 & T2 & Sv & X2 & -> & ->)].
      + exists (t1 ++ g ++ [44]), i3, ps1, [], i3, [], g', i4, t2, ps2. split; [exact H1|]. split; [econstructor; [exact Hs'|rewrite B; exact F2]|].
        split; [exact Hs'|]. cbn [blen]. rewrite N.add_0_r, B. split; [exact X2|]. split; [rewrite <- !app_assoc; reflexivity|reflexivity].
      + exists (t1 ++ g ++ [44]), i3, ps1, (g' ++ u ++ v), mv, (pu ++ pv), gv, iv, w, pw. split; [exact H1|]. split.
        * econstructor; [exact Hs'|rewrite B; exact E2|rewrite B; exact T2].
        * split; [exact Sv|]. split; [|split; [rewrite <- !app_assoc; reflexivity|rewrite <- !app_assoc; reflexivity]].
          rewrite (blen_app g'), (blen_app u). replace (p + blen (t1 ++ g ++ [44]) + (blen g' + (blen u + blen v)) + blen gv) with (p + blen t1 + blen g + 1 + blen g' + blen u + blen v + blen gv) by lia. exact X2.
  Qed.
  Lemma chain_after a p i t m ps : skipf a i = ([], i) -> chain a p i t m ps -> stops a m -> eval skip after a p i = ROk t m ps.
  Proof.
    intros Hi H S. apply seq_ok. destruct (chain_split _ _ _ _ _ _ H S) as [[F1 X1]|(u & mu & pu & v & mv & pv & g & i2 & w & pw & E1 & T1 & S1 & X1 & -> & ->)].
    - exists [], i, [], [], i, t, ps. cbn [blen app]. rewrite !N.add_0_r. split; [|auto]. apply (rep_ok _ _ _ _ _ _ _ Nxs). left. auto.
    - exists (u ++ v), mv, (pu ++ pv), g, i2, w, pw. split; [|split; [exact S1|]].
      + apply (rep_ok _ _ _ _ _ _ _ Nxs). right. exists u, mu, pu, v, pv. auto.
      + rewrite blen_app, N.add_assoc. split; [exact X1|]. rewrite <- !app_assoc. auto.
  Qed.

  Lemma Lbefore : loop_free before = true.
  Proof. unfold before, sep. cbn [loop_free nonnull]. rewrite Lx. reflexivity. Qed.
  Lemma Lafter : loop_free after = true.
  Proof. unfold after, sep. cbn [loop_free nonnull]. rewrite Lx, Nx. reflexivity. Qed.
  Lemma before_x a p i : eval skip before a p i = RFail -> (exists t m ps, chain a p i t m ps /\ stops a m) -> False.
  Proof.
    intros H (t & m & ps & C & S). destruct (skipf a m) as [g i2] eqn:Es. destruct (chain_before _ _ _ _ _ _ _ _ C S Es); congruence.
  Qed.
  Lemma k_stops a p m t r ps g i2 : skipf a m = (g, i2) -> eval skip k a p i2 = ROk t r ps -> stops a m.
  Proof. intros Es H g' i' E. rewrite Es in E. injection E as <- <-. eapply Kc. exact H. Qed.
  Lemma not_chain_k a p i q t r ps tk rk pk : chain a p i t r ps -> skipf a i = ([], i) -> eval skip k a q i = ROk tk rk pk -> False.
  Proof.
    intros C Hi Hk. apply Kc in Hk as [r' ->]. assert (E : exists t1 m1 ps1, eval skip x a p (c :: r') = ROk t1 m1 ps1) by (inversion C; subst; eauto).
    destruct E as (t1 & m1 & ps1 & E). apply Sx in E as [_ E]. exact (E r' eq_refl).
  Qed.
  Theorem list_site : eqv (ESeq (EStr [o]) (ESeq (EOpt before) k)) (ESeq (EStr [o]) (ESeq (EOpt after) k)).
  Proof.
    apply eqv_ok; [cbn [loop_free]; rewrite Lbefore, Lk; reflexivity|cbn [loop_free]; rewrite Lafter, Lk; reflexivity|].
    intros a off inp t r ps. rewrite !seq_ok.
    assert (Q : forall p i t r ps, skipf a i = ([], i) -> (eval skip (ESeq (EOpt before) k) a p i = ROk t r ps <-> eval skip (ESeq (EOpt after) k) a p i = ROk t r ps)).
    { clear off inp t r ps. intros p i t r ps Hi. rewrite !seq_ok, !eval_opt. split.
      - intros (t1 & m1 & ps1 & g & i2 & t2 & ps2 & H1 & Hs & H2 & -> & ->). pose proof (k_stops _ _ _ _ _ _ _ _ Hs H2) as S.
        destruct (eval skip before a p i) as [tb rb pb| |] eqn:B; [| |discriminate].
        + injection H1 as <- <- <-. apply before_chain in B as (t' & m & g' & i' & C & Es & [[-> ->]|[-> ->]]).
          * exists t', m, pb, g, i2, t2, ps2. rewrite (chain_after _ _ _ _ _ _ Hi C S). auto.
          * pose proof (skipf_idem _ _ _ _ Es) as Hid. rewrite Hid in Hs. injection Hs as <- <-.
            assert (S' : stops a m) by (eapply k_stops; [exact Es|exact H2]).
            exists t', m, pb, g', i', t2, ps2. rewrite (chain_after _ _ _ _ _ _ Hi C S'). split; [reflexivity|]. split; [exact Es|]. cbn [blen app] in *.
            rewrite blen_app, N.add_0_r, N.add_assoc in H2. split; [exact H2|]. rewrite <- app_assoc. auto.
        + injection H1 as <- <- <-. rewrite Hi in Hs. injection Hs as <- <-. cbn [app blen] in *. rewrite !N.add_0_r in H2.
          exists [], i, [], [], i, t2, ps2. cbn [app blen]. rewrite !N.add_0_r. destruct (eval skip after a p i) as [ta ra pa| |] eqn:A.
          * apply (after_chain _ _ _ _ _ _ Hi) in A. destruct (not_chain_k _ _ _ _ _ _ _ _ _ _ A Hi H2).
          * auto.
          * destruct (eval_loopless _ _ _ _ Lafter A).
      - intros (t1 & m1 & ps1 & g & i2 & t2 & ps2 & H1 & Hs & H2 & -> & ->). pose proof (k_stops _ _ _ _ _ _ _ _ Hs H2) as S.
        destruct (eval skip after a p i) as [ta ra pa| |] eqn:A; [| |discriminate].
        + injection H1 as <- <- <-. apply (after_chain _ _ _ _ _ _ Hi) in A. destruct (chain_before _ _ _ _ _ _ _ _ A S Hs) as [B|B].
          * exists ta, ra, pa, g, i2, t2, ps2. rewrite B. auto.
          * exists (ta ++ g), i2, pa, [], i2, t2, ps2. rewrite B. split; [reflexivity|]. split; [eapply skipf_idem; exact Hs|]. rewrite blen_app. cbn [blen app].
            rewrite N.add_0_r, N.add_assoc. split; [exact H2|]. rewrite <- app_assoc. auto.
        + injection H1 as <- <- <-. rewrite Hi in Hs. injection Hs as <- <-. cbn [app blen] in *. rewrite !N.add_0_r in H2.
          exists [], i, [], [], i, t2, ps2. cbn [app blen]. rewrite !N.add_0_r. destruct (eval skip before a p i) as [tb rb pb| |] eqn:B.
          * apply before_chain in B as (t' & m & g' & i' & C & _). destruct (not_chain_k _ _ _ _ _ _ _ _ _ _ C Hi H2).
          * auto.
          * destruct (eval_loopless _ _ _ _ Lbefore B). }
    split; intros (t1 & m1 & ps1 & g & i & t2 & ps2 & H1 & Hs & H2 & -> & ->); exists t1, m1, ps1, g, i, t2, ps2;
      (split; [exact H1|]); (split; [exact Hs|]); (split; [|auto]); apply (Q _ _ _ _ _ (skipf_idem _ _ _ _ Hs)); exact H2.
  Qed.
End Site.

(** ** First characters *)
(** [begins bad e]: [e] matches only texts beginning with a character outside [bad]. *)
Fixpoint begins (bad : char -> bool) (e : pexp) : bool :=
  match e with
  | EStr (d :: _) => negb (bad d)
  | ERange lo hi => forallb (fun c => negb (bad c)) (map (fun n => lo + N.of_nat n) (seq 0 (S (N.to_nat (hi - lo)))))
  | ESeq a _ => begins bad a
  | EAlt a b => begins bad a && begins bad b
  | ERule _ _ b => begins bad b
  | _ => false
  end.
Lemma begins_ok bad e : begins bad e = true -> forall a off inp t r ps, eval skip e a off inp = ROk t r ps -> exists d r', inp = d :: r' /\ bad d = false.
Proof.
  induction e as [w|w|lo hi| | | |e1 IH1 e2 IH2|e1 IH1 e2 IH2|e1 IH1|e1 IH1|e1 IH1|rl ty body IH]; intros Hb a off inp t r ps H; cbn [begins] in Hb; try discriminate.
  - rewrite eval_str in H. destruct w as [|d w]; [discriminate|]. destruct (strip_prefix (d :: w) inp) as [r'|] eqn:E; [|discriminate]. apply strip_prefix_spec in E as ->.
    cbn [app]. eexists _, _. split; [reflexivity|]. apply negb_true_iff. exact Hb.
  - cbn [eval] in H. destruct inp as [|d r']; [discriminate|]. destruct ((lo <=? d) && (d <=? hi)) eqn:E; [|discriminate]. apply andb_true_iff in E as [E1 E2].
    apply N.leb_le in E1, E2. exists d, r'. split; [reflexivity|]. rewrite forallb_forall in Hb. apply negb_true_iff. apply Hb. apply in_map_iff. exists (N.to_nat (d - lo)).
    split; [lia|]. apply in_seq. lia.
  - apply seq_ok in H as (t1 & m1 & ps1 & g & i & t2 & ps2 & H1 & _). eapply IH1; eassumption.
  - apply andb_true_iff in Hb as [B1 B2]. rewrite eval_alt in H. destruct (eval skip e1 a off inp) as [t1 r1 ps1| |] eqn:E1; try discriminate.
    + eapply IH1; [exact B1|exact E1].
    + eapply IH2; eassumption.
  - cbn [eval] in H. assert (G : exists b t' r' ps', eval skip body b off inp = ROk t' r' ps').
    { destruct ty; destruct (eval skip body _ off inp) as [t' r' ps'| |] eqn:E; try discriminate; eauto. }
    destruct G as (b & t' & r' & ps' & E). eapply IH; [exact Hb|exact E].
Qed.
Definition layout_or (c d : char) : bool := (d =? c) || (d =? 32) || (d =? 9) || (d =? 10) || (d =? 13) || (d =? 47).
Lemma site_start x c : begins (layout_or c) x = true -> forall a off inp t r ps, eval skip x a off inp = ROk t r ps -> skipf a inp = ([], inp) /\ forall r', inp <> c :: r'.
Proof.
  intros B a off inp t r ps H. destruct (begins_ok _ _ B _ _ _ _ _ _ H) as (d & r' & -> & D). unfold layout_or in D.
  repeat (apply orb_false_iff in D as [D ?]). repeat match goal with G : (_ =? _) = false |- _ => apply N.eqb_neq in G end.
  split; [|congruence]. apply skipf_solid. apply solid_char; [unfold is_ws; intuition congruence|assumption].
Qed.
Lemma close_ok c k : (k = EStr [c] \/ exists k', k = ESeq (EStr [c]) k') -> forall a off inp t r ps, eval skip k a off inp = ROk t r ps -> exists r', inp = c :: r'.
Proof.
  assert (H0 : forall a off inp t r ps, eval skip (EStr [c]) a off inp = ROk t r ps -> exists r', inp = c :: r').
  { intros a off inp t r ps H. rewrite eval_str in H. destruct (strip_prefix [c] inp) as [r'|] eqn:E; [|discriminate]. apply strip_prefix_spec in E. eauto. }
  intros [->|[k' ->]] a off inp t r ps H; [eapply H0; exact H|]. apply seq_ok in H as (t1 & m1 & ps1 & g & i & t2 & ps2 & H1 & _). eapply H0. exact H1.
Qed.
Lemma site x k o c : begins (layout_or c) x = true -> loop_free x = true -> nonnull x = true -> loop_free k = true -> (k = EStr [c] \/ exists k', k = ESeq (EStr [c]) k') -> c <> 44 ->
  eqv (ESeq (EStr [o]) (ESeq (EOpt (ESeq x (ERep (ESeq (EStr [44]) x)))) k)) (ESeq (EStr [o]) (ESeq (EOpt (ESeq (ERep (ESeq x (EStr [44]))) x)) k)).
Proof.
  intros B Lx Nx Lk K Hc. apply (list_site x k o c Lx Lk Nx); [apply site_start; exact B|apply close_ok; exact K|exact Hc].
Qed.

(** ** The grammar *)
Definition obracketed (x : pexp) : pexp := ESeq (L "[") (ESeq (EOpt (ESeq (ERep (ESeq x (L ","))) x)) (L "]")).
Lemma bracketed_eqv x : begins (layout_or 93) x = true -> loop_free x = true -> nonnull x = true -> eqv (bracketed x) (obracketed x).
Proof. intros B Lx Nx. apply (site x (L "]") 91 93); auto. discriminate. Qed.

Ltac cong := repeat first [assumption | apply eqv_refl | apply eqv_rule | apply eqv_seq | apply eqv_opt | apply eqv_rep | apply eqv_alt].
Ltac fold_listed := vm_compute; reflexivity.

Lemma l_block_settings : eqv block_settings (listed block_settings).
Proof. replace (listed block_settings) with (N_ R_block_settings (obracketed attribute)) by fold_listed. apply eqv_rule, bracketed_eqv; vm_compute; reflexivity. Qed.
Lemma l_rel_settings : eqv rel_settings (listed rel_settings).
Proof. replace (listed rel_settings) with (N_ R_rel_settings (obracketed attribute)) by fold_listed. apply eqv_rule, bracketed_eqv; vm_compute; reflexivity. Qed.
Lemma l_indexes_settings : eqv indexes_settings (listed indexes_settings).
Proof. replace (listed indexes_settings) with (N_ R_indexes_settings (obracketed attribute)) by fold_listed. apply eqv_rule, bracketed_eqv; vm_compute; reflexivity. Qed.
Lemma l_enum_settings : eqv enum_settings (listed enum_settings).
Proof. replace (listed enum_settings) with (N_ R_enum_settings (obracketed attribute)) by fold_listed. apply eqv_rule, bracketed_eqv; vm_compute; reflexivity. Qed.
Lemma l_col_settings : eqv col_settings (listed col_settings).
Proof. replace (listed col_settings) with (N_ R_col_settings (obracketed col_attribute)) by fold_listed. apply eqv_rule, bracketed_eqv; vm_compute; reflexivity. Qed.
Lemma l_col_type_arg : eqv col_type_arg (listed col_type_arg).
Proof.
  replace (listed col_type_arg) with (N_ R_col_type_arg (ESeq (L "(") (ESeq (EOpt (ESeq (ERep (ESeq value (L ","))) value)) (L ")")))) by fold_listed.
  apply eqv_rule. apply (site value (L ")") 40 41); try (vm_compute; reflexivity); [left; reflexivity|discriminate].
Qed.
Lemma l_indexes_multi : eqv indexes_multi (listed indexes_multi).
Proof.
  replace (listed indexes_multi) with (N_ R_indexes_multi (ESeq (L "(") (ESeq (EOpt (ESeq (ERep (ESeq indexes_ident (L ","))) indexes_ident)) (ESeq (L ")") (EOpt (listed indexes_settings)))))) by fold_listed.
  apply eqv_rule. eapply eqv_trans; [apply (site indexes_ident (ESeq (L ")") (EOpt indexes_settings)) 40 41); try (vm_compute; reflexivity); [right; eexists; reflexivity|discriminate]|].
  pose proof l_indexes_settings. cong.
Qed.
Lemma l_ref_stmt : eqv ref_stmt (listed ref_stmt).
Proof.
  replace (listed ref_stmt) with (N_ R_ref_stmt (ESeq ref_ident (ESeq relation (ESeq ref_ident (EOpt (listed rel_settings)))))) by fold_listed. pose proof l_rel_settings. unfold ref_stmt, N_. cong.
Qed.
Lemma l_ref_decl : eqv ref_decl (listed ref_decl).
Proof.
  replace (listed ref_decl) with (N_ R_ref_decl (EAlt (N_ R_ref_block (ESeq (CI "Ref") (ESeq (EOpt ident) (ESeq (L "{") (ESeq (listed ref_stmt) (L "}"))))))
    (N_ R_ref_short (ESeq (CI "Ref") (ESeq (EOpt ident) (ESeq (L ":") (listed ref_stmt))))))) by fold_listed.
  pose proof l_ref_stmt. unfold ref_decl, ref_block, ref_short, N_. cong.
Qed.
Lemma l_indexes_decl : eqv indexes_decl (listed indexes_decl).
Proof.
  replace (listed indexes_decl) with (N_ R_indexes_decl (ESeq (CI "Indexes") (N_ R_indexes_block (ESeq (L "{") (ESeq (ERep (EAlt (N_ R_indexes_single (ESeq indexes_ident (EOpt (listed indexes_settings)))) (listed indexes_multi))) (L "}")))))) by fold_listed.
  pose proof l_indexes_multi. pose proof l_indexes_settings. unfold indexes_decl, indexes_block, indexes_single, N_. cong.
Qed.
Lemma l_enum_decl : eqv enum_decl (listed enum_decl).
Proof.
  replace (listed enum_decl) with (N_ R_enum_decl (ESeq (CI "Enum ") (ESeq decl_ident (N_ R_enum_block (ESeq (L "{") (ESeq (ERep (N_ R_enum_value (ESeq ident (EOpt (listed enum_settings))))) (L "}"))))))) by fold_listed.
  pose proof l_enum_settings. unfold enum_decl, enum_block, enum_value, N_. cong.
Qed.
Lemma l_col_type : eqv col_type (listed col_type).
Proof.
  replace (listed col_type) with (C_ R_col_type (ESeq (EOpt (ESeq ident (L "."))) (EAlt
    (C_ R_col_type_quoted (ESeq DQ (ESeq spaced_var (ESeq (EOpt (listed col_type_arg)) (ESeq (ERep col_type_array) (ESeq DQ (ERep col_type_array)))))))
    (C_ R_col_type_unquoted (ESeq var (ESeq (EOpt (listed col_type_arg)) (ERep col_type_array))))))) by fold_listed.
  pose proof l_col_type_arg. unfold col_type, col_type_quoted, col_type_unquoted, C_. cong.
Qed.
Lemma l_table_decl : eqv table_decl (listed table_decl).
Proof.
  replace (listed table_decl) with (N_ R_table_decl (ESeq (CI "Table ") (ESeq decl_ident (ESeq (EOpt table_alias) (ESeq (EOpt (listed block_settings))
    (N_ R_table_block (ESeq (L "{") (ESeq (ERep (EAlt (EAlt (N_ R_table_col (ESeq ident (ESeq (listed col_type) (EOpt (listed col_settings))))) note_decl) (listed indexes_decl))) (L "}"))))))))) by fold_listed.
  pose proof l_col_type. pose proof l_col_settings. pose proof l_indexes_decl. pose proof l_block_settings. unfold table_decl, table_block, table_col, N_. cong.
Qed.
Lemma l_table_group_decl : eqv table_group_decl (listed table_group_decl).
Proof.
  replace (listed table_group_decl) with (N_ R_table_group_decl (ESeq (CI "TableGroup ") (ESeq ident (ESeq (EOpt (listed block_settings)) table_group_block)))) by fold_listed.
  pose proof l_block_settings. unfold table_group_decl, N_. cong.
Qed.
Theorem optimizer_harmless : eqv schema oschema.
Proof.
  unfold oschema. replace (listed schema) with (N_ R_schema (ESeq ESoi (ESeq (ERep (EAlt (EAlt (EAlt (EAlt (EAlt project_decl (listed table_decl)) (listed enum_decl)) (listed ref_decl)) (listed table_group_decl)) note_decl)) EOI))) by fold_listed.
  pose proof l_table_decl. pose proof l_enum_decl. pose proof l_ref_decl. pose proof l_table_group_decl. unfold schema, N_. cong.
Qed.
