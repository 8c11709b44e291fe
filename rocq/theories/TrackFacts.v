(** * TrackFacts: grammar errors of [parse_dbml], from [TrackOk]. *)

From Verif Require Import TrackSpec TrackOk OptimOk SynEval SynGram SynGram2 SynGrow SynMain ParseFacts.
From Verif Require Import Err Api.
From Verif Require Import Syntax.
From Coq Require Import Lia Sorted.

(** ** When there is one *)
Lemma oschema_run inp : fst (eval_t skip oschema NonAtomic LkNone 0 inp (mkTracked 0 [] [])) = run schema NonAtomic 0 inp.
Proof. rewrite eval_t_fst. symmetry. apply optimizer_harmless. Qed.
Lemma unchecked_grammar inp : parse_dbml_unchecked inp = Some (Err ErGrammar) <-> run schema NonAtomic 0 inp = RFail.
Proof.
  split.
  - intros H. pose proof (proj1 (not_dbml inp) H) as N. destruct (run schema NonAtomic 0 inp) as [t r ps| |] eqn:E; [|reflexivity|].
    + exfalso. apply schema_read in E as (p & a & Hp & Hd & Ht). exact (N a Ht).
    + unfold parse_dbml_unchecked in H. rewrite E in H. discriminate.
  - intros E. unfold parse_dbml_unchecked. rewrite E. reflexivity.
Qed.
Lemma checked_grammar inp : parse_dbml inp = Some (Err ErGrammar) <-> parse_dbml_unchecked inp = Some (Err ErGrammar).
Proof.
  split; [|apply checked_err]. intros H. destruct (unchecked_cases inp) as [K|[(m & sp & K & _)|(x & K & _)]]; [exact K| |].
  - apply checked_err in K. congruence.
  - pose proof (checked_sem _ _ K) as S. rewrite H in S. contradiction.
Qed.
Lemma report_iff_run inp : run schema NonAtomic 0 inp = RFail <-> exists rep, grammar_error inp = Some rep.
Proof.
  unfold grammar_error. pose proof (oschema_run inp) as E.
  destruct (eval_t skip oschema NonAtomic LkNone 0 inp (mkTracked 0 [] [])) as [res w]. cbn [fst] in E. rewrite <- E.
  destruct res; split; try discriminate; try (intros (? & H); discriminate); eauto.
Qed.
Theorem reported inp : parse_dbml inp = Some (Err ErGrammar) <-> exists rep, grammar_error inp = Some rep.
Proof. rewrite checked_grammar, unchecked_grammar. apply report_iff_run. Qed.

(** ** Where calls happen *)
Lemma do_skip_app a m g i ps : do_skip skip a m = ROk g i ps -> m = g ++ i.
Proof. rewrite do_skip_skipf. intros [= <- <- <-]. apply (skipf_app a). now destruct (skipf a m). Qed.
Lemma rounds_at e a off inp off' inp' : rounds e a off inp off' inp' -> exists p, inp = p ++ inp' /\ off' = off + blen p.
Proof.
  induction 1 as [off inp|off inp t i1 ps g i2 pg off' inp' H1 H2 _ (p & Ep & Eo)].
  - exists []. split; [reflexivity|cbn; lia].
  - apply eval_app in H1. apply do_skip_app in H2. exists (t ++ g ++ p). split; [subst; rewrite <- !app_assoc; reflexivity|]. rewrite !blen_app. lia.
Qed.
Lemma calls_at e a lk off inp c : calls e a lk off inp c -> exists p, inp = p ++ c_rest c /\ c_pos c = off + blen p.
Proof.
  induction 1 as [e1 e2 a lk off inp c _ IH|e1 e2 a lk off inp t i1 ps g i2 pg c H1 H2 _ (p & Ep & Eo)|e1 e2 a lk off inp c _ IH|e1 e2 a lk off inp c _ _ IH|e a lk off inp c _ IH
    |e a lk off inp off' inp' c Hr _ (p & Ep & Eo)|e a lk off inp c _ IH|r t b a lk off inp|r t b a lk off inp c _ IH]; try exact IH.
  - apply eval_app in H1. apply do_skip_app in H2. exists (t ++ g ++ p). split; [subst; rewrite <- !app_assoc; reflexivity|]. rewrite !blen_app. lia.
  - apply rounds_at in Hr as (q & Eq & Eqo). exists (q ++ p). split; [subst; rewrite <- app_assoc; reflexivity|]. rewrite blen_app. lia.
  - exists []. split; [reflexivity|cbn; lia].
Qed.

(** ** No rule of dbml.pest stands under a [!] *)
Fixpoint ruleless (e : pexp) : bool :=
  match e with
  | ESeq a b | EAlt a b => ruleless a && ruleless b
  | EOpt a | ERep a | ENot a => ruleless a
  | ERule _ _ _ => false
  | _ => true
  end.
Fixpoint plain (e : pexp) : bool :=
  match e with
  | ESeq a b | EAlt a b => plain a && plain b
  | EOpt a | ERep a => plain a
  | ENot a => ruleless a
  | ERule _ _ b => plain b
  | _ => true
  end.
Lemma ruleless_calls e a lk off inp c : calls e a lk off inp c -> ruleless e = true -> False.
Proof. induction 1; cbn [ruleless]; intros H'; try apply andb_prop in H' as [? ?]; auto; discriminate. Qed.
Lemma plain_calls e a lk off inp c : calls e a lk off inp c -> plain e = true -> lk = LkNone -> c_look c = LkNone.
Proof.
  induction 1; cbn [plain]; intros H' ->; try apply andb_prop in H' as [? ?]; auto.
  exfalso. eapply ruleless_calls; eassumption.
Qed.

(** ** The report *)
Lemma in_insert r x l : In r (insert x l) <-> r = x \/ In r l.
Proof.
  induction l as [|y l IH]; cbn [insert]; [cbn; intuition|]. destruct (rule_index x <? rule_index y); [cbn; intuition|].
  destruct (N.eqb_spec (rule_index x) (rule_index y)) as [E|E].
  - assert (x = y) as -> by (destruct x, y; cbn in E; (reflexivity || discriminate)). cbn. intuition.
  - cbn [In]. rewrite IH. intuition.
Qed.
Lemma in_sort r l : In r (sort_dedup l) <-> In r l.
Proof. induction l as [|x l IH]; cbn [sort_dedup]; [reflexivity|]. rewrite in_insert, IH. cbn. intuition. Qed.
Definition before (a b : rule) : Prop := rule_index a < rule_index b.
Lemma insert_sorted x l : StronglySorted before l -> StronglySorted before (insert x l).
Proof.
  induction 1 as [|y l Hs IH Hf]; cbn [insert]; [constructor; constructor|].
  destruct (N.ltb_spec (rule_index x) (rule_index y)) as [E|E].
  - constructor; [constructor; assumption|]. constructor; [exact E|]. eapply Forall_impl; [|exact Hf]. unfold before. intros; lia.
  - destruct (N.eqb_spec (rule_index x) (rule_index y)) as [E2|E2]; [constructor; assumption|]. constructor; [exact IH|].
    apply Forall_forall. intros z Hz. apply in_insert in Hz as [->|Hz]; [unfold before; lia|]. rewrite Forall_forall in Hf. auto.
Qed.
Lemma sort_sorted l : StronglySorted before (sort_dedup l).
Proof. induction l; cbn [sort_dedup]; [constructor|]. now apply insert_sorted. Qed.

Definition makes (inp : str) : call -> Prop := calls oschema NonAtomic LkNone 0 inp.
Lemma oschema_loop_free : loop_free oschema = true.
Proof. vm_compute. reflexivity. Qed.
Lemma oschema_plain : plain oschema = true.
Proof. vm_compute. reflexivity. Qed.

Definition odecls : pexp := Optim.listed decls.
Lemma oschema_shape : oschema = N_ R_schema (ESeq ESoi (ESeq (ERep odecls) EOI)).
Proof. vm_compute. reflexivity. Qed.

Record report_true (inp : str) (rep : grammar_report) : Prop := {
  rt_sorted : StronglySorted before (rep_positives rep);
  rt_neg : rep_negatives rep = [];
  rt_some : rep_positives rep <> [];
  rt_listed : forall r, In r (rep_positives rep) -> exists c, makes inp c /\ missed c /\ c_rule c = r /\ c_pos c = rep_pos rep;
  rt_far : forall c, makes inp c -> missed c -> c_pos c <= rep_pos rep;
  rt_all : forall c, makes inp c -> missed c -> c_pos c = rep_pos rep ->
     exists d, makes inp d /\ missed d /\ c_pos d = rep_pos rep /\ In (c_rule d) (rep_positives rep) /\ (during c d \/ during d c)
}.
Theorem report_ok inp rep : grammar_error inp = Some rep -> report_true inp rep.
Proof.
  unfold grammar_error. pose proof (eval_known oschema oschema_loop_free NonAtomic LkNone 0 inp (mkTracked 0 [] [])) as (lp & ln & K).
  pose proof (eval_t_fst oschema NonAtomic LkNone 0 inp (mkTracked 0 [] [])) as Ef.
  destruct (eval_t skip oschema NonAtomic LkNone 0 inp (mkTracked 0 [] [])) as [res w]. cbn [snd fst] in *.
  destruct res as [| |]; try discriminate. intros [= <-].
  destruct K as [K1 K2 K3 K4 K5 K6 K7 K8].
  assert (Hlook : forall c, makes inp c -> c_look c = LkNone) by (intros c Hc; eapply plain_calls; [exact Hc|apply oschema_plain|reflexivity]).
  assert (Hun : forall c, makes inp c -> ~ unwanted c) by (intros c Hc (_ & Hl & _); rewrite (Hlook c Hc) in Hl; discriminate).
  assert (Ep : pos_attempts w = lp) by (rewrite K2; unfold base_pos; cbn [pos_attempts]; destruct (attempt_pos _ =? _); reflexivity).
  assert (En : neg_attempts w = ln) by (rewrite K3; unfold base_neg; cbn [neg_attempts]; destruct (attempt_pos _ =? _); reflexivity).
  assert (Hln : ln = []).
  { destruct ln as [|r ln]; [reflexivity|]. destruct (K5 r (or_introl eq_refl)) as (c & Hc & Hu & _). destruct (Hun c Hc Hu). }
  split; cbn [rep_pos rep_positives rep_negatives].
  - apply sort_sorted.
  - rewrite En, Hln. reflexivity.
  - (* the schema rule itself is missed at 0 *)
    assert (Hlp : lp <> []).
    { destruct (N.eq_dec (attempt_pos w) 0) as [E0|E0].
      - destruct (K7 (mkCall R_schema TNormal (ESeq ESoi (ESeq (ERep odecls) EOI)) NonAtomic LkNone 0 inp)) as (d & Hd & _ & _ & [[_ Hin]|[_ Hin]]).
        + rewrite oschema_shape. apply calls_rule.
        + left. split; [left; discriminate|]. split; [discriminate|]. unfold c_result, c_exp; cbn [c_rule c_type c_body c_ctx c_pos c_rest]. rewrite oschema_shape in Ef. symmetry. exact Ef.
        + cbn. symmetry. exact E0.
        + intros ->. destruct Hin.
        + rewrite Hln in Hin. destruct Hin.
      - destruct K8 as [H|H]; [cbn; lia|exact H|rewrite Hln in H; congruence]. }
    intros H. destruct lp as [|r lp]; [congruence|]. assert (Hin : In r (sort_dedup (pos_attempts w))) by (apply in_sort; rewrite Ep; left; reflexivity). rewrite H in Hin. destruct Hin.
  - intros r Hr. apply (proj1 (in_sort _ _)) in Hr. rewrite Ep in Hr. destruct (K4 r Hr) as (c & H). exists c. exact H.
  - intros c Hc Hm. apply K6; auto.
  - intros c Hc Hm Hp. destruct (K7 c Hc (or_introl Hm) Hp) as (d & Hd & Hpd & Hl & [[Hm' Hin]|[Hu _]]); [|destruct (Hun d Hd Hu)].
    exists d. repeat split; auto; try apply Hm'. apply in_sort. rewrite Ep. exact Hin.
Qed.
Theorem report_located inp rep : grammar_error inp = Some rep -> exists a b, inp = a ++ b /\ rep_pos rep = blen a.
Proof.
  intros H. apply report_ok in H. destruct (rep_positives rep) as [|r l] eqn:E; [destruct (rt_some _ _ H E)|].
  destruct (rt_listed _ _ H r) as (c & Hc & _ & _ & Hp); [rewrite E; left; reflexivity|].
  apply calls_at in Hc as (p & Ep & Eo). exists p, (c_rest c). split; [exact Ep|]. rewrite <- Hp, Eo. lia.
Qed.

(** ** Never before the end of what can be read *)
Lemma decls_eqv : eqv decls odecls.
Proof.
  unfold odecls, decls. cbn [Optim.listed].
  repeat apply eqv_alt; [|apply l_table_decl|apply l_enum_decl|apply l_ref_decl|apply l_table_group_decl|].
  - assert (E : Optim.listed project_decl = project_decl) by (vm_compute; reflexivity). rewrite E. apply eqv_refl.
  - assert (E : Optim.listed note_decl = note_decl) by (vm_compute; reflexivity). rewrite E. apply eqv_refl.
Qed.
(** [i] does not continue a declaration before it. *)
Definition starts_afresh (i : str) : Prop := nh 39 i /\ nh 46 i /\ nh 91 i.
Lemma afresh_block i r b : block_r i r b -> starts_afresh r -> F decls i r (SynEval.one d_block b).
Proof.
  intros Hb (Hq & Hd & Ho). unfold decls. destruct b as [x|x|x|x|x|x]; cbn [block_r] in Hb.
  - apply F_alt1, F_alt1, F_alt1, F_alt1, F_alt1, F_project. exact Hb.
  - apply F_alt1, F_alt1, F_alt1, F_alt1, F_alt2; [|apply F_table; exact Hb]. inversion Hb as [i' m1 m2 m3 m4 r' d al st l Hk _ _ _ _]; subst.
    no_kw Hk.
  - apply F_alt1, F_alt2; [|apply F_group; exact Hb]. inversion Hb as [i' m1 m2 m3 r' n st l Hk _ _ _]; subst.
    no_kw Hk.
  - apply F_alt2; [|apply F_note; [exact Hb|exact Hq]].
    assert (exists z, kw "Note" i z) as (z & Hk) by (inversion Hb; subst; eauto). no_kw Hk.
  - apply F_alt1, F_alt1, F_alt2; [|apply F_ref; [exact Hb|split; assumption]].
    assert (exists z, kw "Ref" i z) as (z & Hk) by (inversion Hb; subst; eauto). no_kw Hk.
  - apply F_alt1, F_alt1, F_alt1, F_alt2; [|apply F_enum; exact Hb]. inversion Hb as [i' m1 m2 r' d l Hk _ _]; subst.
    no_kw Hk.
Qed.
Lemma block_afresh i r b : block_r i r b -> starts_afresh i.
Proof. intros H. apply block_first in H. repeat split; (eapply hd_nh; [exact H|unfold letter; lia]). Qed.

Lemma fin_suffix m : exists g, m = g ++ fin m.
Proof. destruct (lay_of m) as (g & E & _). exists g. exact E. Qed.
Definition next_decl (o : N) (i : str) : pres := bind_res (do_skip skip NonAtomic i) o (eval skip decls NonAtomic).
Lemma blocks_read i r l : many block_r i r l -> starts_afresh r -> forall fuel off i0 t m ps, fin i0 = i ->
  Peg.repeat next_decl fuel off i0 = ROk t m ps -> exists y, r = y ++ fin m.
Proof.
  induction 1 as [i|i m1 r a l Ha Hm IH]; intros Hr fuel off i0 t m ps Hi E.
  - destruct fuel as [|fuel]; [discriminate|]. cbn [Peg.repeat] in E.
    assert (Ef : next_decl off i0 = bind_res (do_skip skip NonAtomic i0) off (eval skip decls NonAtomic)) by reflexivity. rewrite bind_skip, Hi in Ef.
    destruct (eval skip decls NonAtomic (off + blen (fst (skipf NonAtomic i0))) i) as [t1 m1 ps1| |] eqn:Ed; rewrite Ef in E; [| |discriminate].
    + apply eval_app in Ed.
      match type of E with context [Peg.repeat next_decl fuel ?o m1] => destruct (Peg.repeat next_decl fuel o m1) as [t2 m2 ps2| |] eqn:Er; try discriminate end. injection E as _ <- _.
      assert (Em : exists z, m1 = z ++ m2).
      { clear -Er. match type of Er with Peg.repeat next_decl fuel ?o m1 = _ => generalize dependent o end. revert m1 t2 m2 ps2.
        induction fuel as [|fuel IH]; intros m1 t2 m2 ps2 o Er; [discriminate|]. cbn [Peg.repeat] in Er.
        destruct (next_decl o m1) as [t3 m3 ps3| |] eqn:E1; [| |discriminate].
        - unfold next_decl in E1. rewrite bind_skip in E1. destruct (eval skip decls NonAtomic _ (fin m1)) as [t4 m4 ps4| |] eqn:E2; try discriminate. injection E1 as _ <- _.
          apply eval_app in E2. match type of Er with context [Peg.repeat next_decl fuel ?o' m4] => destruct (Peg.repeat next_decl fuel o' m4) as [t5 m5 ps5| |] eqn:E5; try discriminate end.
          injection Er as _ <- _. apply IH in E5 as (z & ->). destruct (fin_suffix m1) as (g & Eg). exists (g ++ t4 ++ z). rewrite <- !app_assoc. rewrite <- E2. exact Eg.
        - injection Er as _ <- _. exists []. reflexivity. }
      destruct Em as (z & ->). destruct (fin_suffix m2) as (g & Eg). exists (t1 ++ z ++ g). rewrite <- !app_assoc, <- Eg. exact Ed.
    + injection E as _ <- _. exists []. cbn. symmetry. exact Hi.
  - destruct fuel as [|fuel]; [discriminate|]. cbn [Peg.repeat] in E.
    assert (Ef : next_decl off i0 = bind_res (do_skip skip NonAtomic i0) off (eval skip decls NonAtomic)) by reflexivity. rewrite bind_skip, Hi in Ef.
    assert (Gm : starts_afresh m1) by (destruct Hm as [|? ? ? ? ? K _]; [exact Hr|eapply block_afresh; exact K]).
    destruct (afresh_block _ _ _ Ha Gm (off + blen (fst (skipf NonAtomic i0)))) as (t1 & m2 & ps1 & E1 & L1 & _). rewrite E1 in Ef. rewrite Ef in E. apply lay_fin in L1.
    match type of E with context [Peg.repeat next_decl fuel ?o m2] => destruct (Peg.repeat next_decl fuel o m2) as [t2 m3 ps2| |] eqn:Er; try discriminate end. injection E as _ <- _.
    eapply IH; eassumption.
Qed.

Lemma rep_repeat i off t m ps : fin i = i -> eval skip (ERep decls) NonAtomic off i = ROk t m ps -> exists fuel, Peg.repeat next_decl fuel off i = ROk t m ps.
Proof.
  intros Hi E. assert (En : next_decl off i = eval skip decls NonAtomic off i).
  { unfold next_decl. rewrite bind_skip, Hi. destruct (skipf NonAtomic i) as [g y] eqn:Es. pose proof (skipf_app _ _ _ _ Es) as Eg. apply skipf_fin in Es. rewrite Hi in Es. subst y.
    assert (g = []) as -> by (apply (f_equal (@List.length _)) in Eg; rewrite app_length in Eg; destruct g; [reflexivity|cbn in Eg; lia]).
    cbn [fst blen]. rewrite N.add_0_r. destruct (eval skip decls NonAtomic off i); reflexivity. }
  cbn [eval] in E. destruct (eval skip decls NonAtomic off i) as [t1 m1 ps1| |] eqn:Ed.
  - exists (S (fuel_for m1)). cbn [Peg.repeat]. rewrite En. exact E.
  - exists 1%nat. cbn [Peg.repeat]. rewrite En. exact E.
  - discriminate.
Qed.
Lemma repeat_never_fails f : forall n a b, Peg.repeat f n a b <> RFail.
Proof.
  induction n as [|n IH]; intros a b; cbn [Peg.repeat]; [discriminate|]. destruct (f a b) as [t2 m2 ps2| |]; try discriminate.
  specialize (IH (a + blen t2) m2). destruct (Peg.repeat f n (a + blen t2) m2); congruence.
Qed.
(** The error is not before [r], if complete declarations reach up to there. *)
Lemma error_beyond q i r l inp rep : inp = q ++ r -> lay inp i -> many block_r i r l -> starts_afresh r -> grammar_error inp = Some rep -> blen q <= rep_pos rep.
Proof.
  intros Eq Hl Hm Hr Hrep.
  assert (Hf : eval skip oschema NonAtomic 0 inp = RFail).
  { rewrite <- optimizer_harmless. apply report_iff_run. eauto. }
  pose proof (report_ok _ _ Hrep) as Ok.
  pose proof (lay_idem _ _ Hl) as Hi. apply lay_fin in Hl.
  set (c := fun o m => mkCall R_EOI TNormal EEnd NonAtomic LkNone o m).
  assert (Hc : exists o m, makes inp (c o m) /\ missed (c o m) /\ exists y, r = y ++ m).
  { destruct (do_skip skip NonAtomic inp) as [g i' pg| |] eqn:Es; [|rewrite do_skip_skipf in Es; discriminate..].
    assert (i' = i) as -> by (rewrite do_skip_skipf in Es; injection Es as _ <- _; exact Hl).
    set (o := 0 + blen [] + blen g).
    destruct (eval skip (ERep decls) NonAtomic o i) as [t m ps| |] eqn:Er.
    2: { exfalso. cbn [eval] in Er. destruct (eval skip decls NonAtomic o i) as [t1 m1 ps1| |]; try discriminate. cbn [bind_res] in Er.
         match type of Er with context [Peg.repeat ?f ?n ?a ?b] => pose proof (repeat_never_fails f n a b) as Hn; destruct (Peg.repeat f n a b); congruence end. }
    2: { exfalso. refine (eval_noloop skip skip_app skip_noloop (ERep decls) _ NonAtomic o i Er). vm_compute. reflexivity. }
    destruct (do_skip skip NonAtomic m) as [g2 i2 pg2| |] eqn:Es2; [|rewrite do_skip_skipf in Es2; discriminate..].
    assert (Ei2 : i2 = fin m) by (rewrite do_skip_skipf in Es2; injection Es2 as _ <- _; reflexivity).
    assert (Er' : eval skip (ERep odecls) NonAtomic o i = ROk t m ps) by (rewrite <- (eqv_rep _ _ decls_eqv NonAtomic o i); exact Er).
    exists (o + blen t + blen g2), i2. split; [|split].
    - unfold makes. rewrite oschema_shape. apply calls_body. cbn [inner].
      eapply calls_second; [apply eval_soi|exact Es|]. eapply calls_second; [exact Er'|exact Es2|]. apply calls_rule.
    - split; [left; discriminate|]. split; [discriminate|]. unfold c_result, c, c_exp. cbn [c_rule c_type c_body c_ctx c_pos c_rest eval].
      destruct i2 as [|d i2]; [exfalso|reflexivity].
      rewrite oschema_shape in Hf. cbn [eval N_] in Hf. unfold N_ in Hf. cbn [eval] in Hf. cbn [N.eqb bind_res] in Hf. rewrite Es in Hf. cbn [bind_res] in Hf.
      change (0 + blen ([] ++ g)) with o in Hf.
      change (emit NonAtomic R_schema 0 (bind_res (ROk ([] ++ g) i ([] ++ pg)) 0 (eval skip (ESeq (ERep odecls) EOI) NonAtomic)) = RFail) in Hf.
      cbn [bind_res] in Hf. change (0 + blen ([] ++ g)) with o in Hf.
      assert (E0 : eval skip (ESeq (ERep odecls) EOI) NonAtomic o i <> RFail).
      { change (bind_res (bind_res (eval skip (ERep odecls) NonAtomic o i) o (fun _ i => do_skip skip NonAtomic i)) o (eval skip EOI NonAtomic) <> RFail).
        rewrite Er'. cbn [bind_res]. rewrite Es2. cbn [bind_res]. cbn. discriminate. }
      destruct (eval skip (ESeq (ERep odecls) EOI) NonAtomic o i); cbn in Hf; congruence.
    - rewrite Ei2. destruct (rep_repeat _ _ _ _ _ Hi Er) as (fuel & Ef). eapply blocks_read; eassumption. }
  destruct Hc as (o & m & Hc & Hm' & y & Ey). pose proof (rt_far _ _ Ok _ Hc Hm') as Hfar.
  apply calls_at in Hc as (p & Ep & Eo). cbn [c_rest c_pos c] in *. rewrite Eo in Hfar.
  assert (Epq : p = q ++ y).
  { apply (app_inv_tail m). rewrite <- Ep, Eq, Ey. rewrite <- app_assoc. reflexivity. }
  subst p. rewrite blen_app in Hfar. lia.
Qed.
(** Below a text that can be read, errors are in what was added. *)
Theorem error_in_the_rest t1 t2 a rep : dbml_text t1 a -> comments_closed t1 \/ (forall x y, t2 <> x ++ s "*/" ++ y) ->
  (forall c x, lay t2 (c :: x) -> c <> 39 /\ c <> 46 /\ c <> 91) ->
  grammar_error (t1 ++ 10 :: t2) = Some rep -> exists g r, t2 = g ++ r /\ lay t2 r /\ blen (t1 ++ 10 :: g) <= rep_pos rep.
Proof.
  intros (m1 & L1 & M1) Hs Hst Hrep. destruct (fin_suffix t2) as (g & Eg). exists g, (fin t2). split; [exact Eg|]. split; [apply lay_of|].
  pose proof (lay_grow t2 _ _ Hs L1) as L. pose proof L1 as (g1 & E1 & _). assert (Hs1 : safe t2 m1) by (eapply safe_suffix with (x := g1); rewrite <- E1; exact Hs).
  apply (proj2 (many_grow t2 block_r (block_grow t2)) _ _ _ Hs1) in M1. cbn [ext] in M1.
  eapply error_beyond; [|exact L|exact M1| |exact Hrep].
  - rewrite Eg at 1. rewrite <- app_assoc. reflexivity.
  - repeat split; intros x Ex; pose proof (lay_of t2) as Lt; rewrite Ex in Lt; apply Hst in Lt; lia.
Qed.
