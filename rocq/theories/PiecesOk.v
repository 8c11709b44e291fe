(** * PiecesOk: what is cut out of a text at its edges is read as before. *)

From Verif Require Import SynLex SynEval SynCut LocMain SynMain LocErase RespanBase LocCut LocUniq CompleteOk.
From Verif Require Import Api Parser Syntax.
From Verif Require Export Pieces.

Lemma ulen_1 c : 0 < ulen c.
Proof. unfold ulen. repeat destruct (_ <? _); lia. Qed.
Lemma blen_0 a : blen a = 0 -> a = [].
Proof. destruct a as [|c a]; [reflexivity|]. cbn [blen]. pose proof (ulen_1 c). lia. Qed.
Lemma blen_split (a x b y : str) : a ++ x = b ++ y -> blen a = blen b -> a = b /\ x = y.
Proof.
  intros E H. apply app_eq_app in E as (l & [[-> ->]|[-> ->]]); rewrite blen_app in H; (assert (Hl : l = []) by (apply blen_0; lia)); subst l; rewrite app_nil_r; auto.
Qed.


Lemma top_px t i m b : top_at t i m b -> px i m.
Proof.
  intros H. destruct (mv_top i t t (fun sp => sp) (fun j k _ _ => eq_refl) i m b (sx_refl i) H) as [P _]. exact P.
Qed.
Lemma top_span t i m b : top_at t i m b -> (forall r, b <> BRef r) -> block_span b = span t i m.
Proof.
  intros H Hr. destruct b as [x|x|x|x|x|x]; cbn [top_at block_span] in *; [| | | |destruct (Hr x eq_refl)|]; destruct H; reflexivity.
Qed.

Section Trace.
Variable t : str.
(** The blocks with what is left before and after each. *)
Definition nxt (tr : list (str * str * block)) : str := match tr with [] => [] | e :: _ => fst (fst e) end.
Inductive trace : list (str * str * block) -> Prop :=
| tr_nil : trace []
| tr_cons i m b l : top_at t i m b -> lay m (nxt l) -> trace l -> trace ((i, m, b) :: l).
Lemma trace_of i l : many (next (top_at t)) i [] l -> exists tr, trace tr /\ nxt tr = i /\ map snd tr = l.
Proof.
  intros H. remember [] as e eqn:Ee. induction H as [i|i m r b l (m' & Hb & Hl) _ IH]; subst.
  - exists []. split; [constructor|split; reflexivity].
  - destruct (IH eq_refl) as (tr & H1 & <- & <-). exists ((i, m', b) :: tr). split; [econstructor; eassumption|split; reflexivity].
Qed.
Lemma trace_at tr k i m b : trace tr -> nth_error tr k = Some (i, m, b) ->
  top_at t i m b /\ lay m (nxt (skipn (S k) tr)) /\ i = nxt (skipn k tr) /\ sx (nxt tr) i.
Proof.
  revert tr. induction k as [|k IH]; intros tr H E; destruct H as [|i0 m0 b0 l Hb Hl H]; try discriminate; cbn in E.
  - injection E as -> -> ->. split; [exact Hb|]. split; [exact Hl|]. split; [reflexivity|apply sx_refl].
  - destruct (IH _ H E) as (H1 & H2 & H3 & H4). split; [exact H1|]. split; [exact H2|]. split; [exact H3|]. cbn [nxt fst].
    eapply sx_trans; [apply px_sx; eapply top_px; exact Hb|]. eapply sx_trans; [apply lay_sx; exact Hl|exact H4].
Qed.
Lemma trace_solid tr k : trace tr -> lay (nxt tr) (nxt tr) -> lay (nxt (skipn k tr)) (nxt (skipn k tr)).
Proof.
  revert tr. induction k as [|k IH]; intros tr H Hs; [exact Hs|]. destruct H as [|i m b l Hb Hl H]; [exact Hs|]. cbn [skipn]. apply IH; [exact H|].
  apply lay_self. eapply lay_idem. exact Hl.
Qed.
Lemma trace_skip tr k : trace tr -> trace (skipn k tr).
Proof. revert tr. induction k as [|k IH]; intros tr H; [exact H|]. destruct H; [constructor|cbn; auto]. Qed.
End Trace.

Lemma front_before inp z tr k : trace (inp ++ z) tr -> z = nxt (skipn k tr) ->
  exists r0, nxt tr = r0 ++ z /\ many (next (top_at inp)) r0 [] (map snd (firstn k tr)).
Proof.
  intros H Ez. revert tr H Ez. induction k as [|k IH]; intros tr H Ez; [exists []; split; [rewrite Ez; reflexivity|constructor]|].
  destruct H as [|i m b l Hb Hl H]; [exists []; cbn in *; subst z; split; [reflexivity|constructor]|].
  destruct (IH l H Ez) as (r0 & E & Hm). cbn [nxt fst]. rewrite E in Hl. apply lay_split in Hl as (m1 & -> & Hl).
  destruct (c_top inp z _ _ _ Hb) as (i0 & -> & Hb'). exists i0. split; [reflexivity|]. cbn [firstn map snd]. econstructor; [|exact Hm]. exists m1. auto.
Qed.
Lemma front_after inp z tr k i b : trace (inp ++ z) tr -> nth_error tr k = Some (i, z, b) ->
  exists r0, nxt tr = r0 ++ z /\ many (next (top_at inp)) r0 [] (map snd (firstn (S k) tr)).
Proof.
  intros H Ez. revert tr H Ez. induction k as [|k IH]; intros tr H Ez; destruct H as [|i' m b' l Hb Hl H]; try discriminate; cbn [nth_error] in Ez.
  - injection Ez as -> -> ->. destruct (c_top inp z i [] b Hb) as (i0 & -> & Hb'). exists i0. split; [reflexivity|]. cbn [firstn map snd].
    econstructor; [|constructor]. exists []. split; [exact Hb'|]. apply lay_self, fin_solid. exact Logic.I.
  - destruct (IH l H Ez) as (r0 & E & Hm). cbn [nxt fst]. rewrite E in Hl. apply lay_split in Hl as (m1 & -> & Hl).
    destruct (c_top inp z _ _ _ Hb) as (i0 & -> & Hb'). exists i0. split; [reflexivity|]. change (firstn (S (S k)) ((i0 ++ z, m1 ++ z, b') :: l)) with ((i0 ++ z, m1 ++ z, b') :: firstn (S k) l). cbn [map snd].
    econstructor; [|exact Hm]. exists m1. auto.
Qed.

Lemma nil_lay : lay [] [].
Proof. apply lay_self, fin_solid. exact Logic.I. Qed.
Lemma pos_at t a i : t = a ++ i -> pos t i = blen a.
Proof. intros ->. unfold pos. rewrite blen_app. lia. Qed.
Lemma edge_at t x tr k a i : sb_input x = t -> lay t (nxt tr) -> trace t tr -> map snd tr = sb_blocks x -> t = a ++ i -> edge x k (blen a) ->
  lay i (nxt (skipn k tr)) /\
  (i = nxt (skipn k tr) \/ (k = 0%nat /\ i = t) \/ exists k' i' b, k = S k' /\ nth_error tr k' = Some (i', i, b)).
Proof.
  intros E1 Hl Htr Em Et He.
  assert (Hn : forall k b, nth_error (sb_blocks x) k = Some b -> exists i m, nth_error tr k = Some (i, m, b)).
  { intros k0 b E. rewrite <- Em, nth_error_map in E. destruct (nth_error tr k0) as [[[j m] b']|]; [|discriminate]. cbn in E. injection E as ->. eauto. }
  assert (Hu : forall j, sx t j -> pos t j = blen a -> j = i).
  { intros j (a' & Ej) Hp. rewrite (pos_at t a' j Ej) in Hp. rewrite Et in Ej. apply blen_split in Ej; [|congruence]. symmetry. tauto. }
  pose proof (lay_sx _ _ Hl) as Hsx. assert (Hsol : lay (nxt tr) (nxt tr)) by (apply lay_self; eapply lay_idem; exact Hl).
  remember (blen a) as p eqn:Ep. destruct He as [| |k b Hk Hr|k b Hk Hr].
  - assert (i = t) as ->. { symmetry. apply Hu; [apply sx_refl|]. unfold pos. lia. } split; [exact Hl|]. auto.
  - assert (i = []) as ->. { symmetry. apply Hu; [exists t; symmetry; apply app_nil_r|]. unfold pos. cbn [blen]. rewrite E1. lia. }
    rewrite <- Em, map_length, skipn_all. split; [apply nil_lay|]. left. reflexivity.
  - apply Hn in Hk as (j & m & Hk). destruct (trace_at _ _ _ _ _ _ Htr Hk) as (H1 & H2 & H3 & H4). pose proof (top_span _ _ _ _ H1 Hr) as Hs.
    assert (i = j) as ->. { symmetry. apply Hu; [eapply sx_trans; eassumption|]. rewrite Hs in *. reflexivity. }
    rewrite H3. split; [|auto]. apply (trace_solid t); assumption.
  - apply Hn in Hk as (j & m & Hk). destruct (trace_at _ _ _ _ _ _ Htr Hk) as (H1 & H2 & H3 & H4). pose proof (top_span _ _ _ _ H1 Hr) as Hs.
    assert (i = m) as ->. { symmetry. apply Hu; [eapply sx_trans; [exact Hsx|]; eapply sx_trans; [exact H4|]; apply px_sx; eapply top_px; exact H1|]. rewrite Hs in *. reflexivity. }
    split; [exact H2|]. right. right. eauto.
Qed.

Lemma skipn_add {A} (l : list A) j k : skipn k (skipn j l) = skipn (k + j) l.
Proof. revert l. induction j as [|j IH]; intros l; [rewrite Nat.add_0_r; reflexivity|]. rewrite Nat.add_succ_r. destruct l as [|x l]; [rewrite !skipn_nil; reflexivity|]. apply IH. Qed.
Lemma back_span a w i m : ends w i -> px i m -> span w i m = back (blen a) (span (a ++ w) i m).
Proof.
  intros H1 H2. apply blen_sx in H1. apply blen_px in H2. unfold span, pos, back. cbn [fst snd]. rewrite blen_app. f_equal; lia.
Qed.
Lemma piece_front t x a w c j k : located t x -> t = a ++ w ++ c -> (j <= k)%nat -> edge x j (blen a) -> edge x k (blen (a ++ w)) ->
  exists r0, lay w r0 /\ many (next (top_at (a ++ w))) r0 [] (between j k x).
Proof.
  intros (E1 & E2 & m0 & Hl & Hm) Et Hjk Ej Ek. apply trace_of in Hm as (tr & Htr & <- & Em).
  pose proof (edge_at t x tr j a (w ++ c) E1 Hl Htr Em Et Ej) as [Lj Tj].
  assert (Et2 : t = (a ++ w) ++ c) by (rewrite <- app_assoc; exact Et).
  pose proof (edge_at t x tr k (a ++ w) c E1 Hl Htr Em Et2 Ek) as [Lk Tk].
  assert (Eb : between j k x = map snd (firstn (k - j) (skipn j tr))) by (unfold between; rewrite <- Em, skipn_map, firstn_map; reflexivity). rewrite Eb.
  pose proof (trace_skip t tr j Htr) as Htj. rewrite Et2 in Htj.
  destruct Tk as [Tk|[[-> Tk]|(k' & i' & b & -> & Hk)]].
  - destruct (front_before (a ++ w) c (skipn j tr) (k - j) Htj) as (r0 & E & H).
    { rewrite skipn_add. replace (k - j + j)%nat with k by lia. exact Tk. }
    rewrite E in Lj. apply lay_cut in Lj. eauto.
  - assert (j = 0%nat) as -> by lia. assert (w = []) as ->.
    { rewrite <- Tk in Et2. change c with ([] ++ c) in Et2 at 1. apply app_inv_tail in Et2. symmetry in Et2. apply app_eq_nil in Et2. tauto. }
    exists []. split; [apply nil_lay|constructor].
  - destruct (Nat.eq_dec j (S k')) as [->|Hne].
    + assert (w = []) as ->.
      { assert (Hs : sx c (w ++ c)).
        { destruct Tj as [Tj|[[Tj _]|(k2 & i2 & b2 & Ek2 & Hk2)]]; [rewrite Tj; apply lay_sx; exact Lk|discriminate|]. injection Ek2 as <-. rewrite Hk in Hk2. injection Hk2 as _ E _. rewrite <- E. apply sx_refl. }
        apply blen_sx in Hs. rewrite blen_app in Hs. apply blen_0. lia. }
      exists []. split; [apply nil_lay|]. rewrite Nat.sub_diag. constructor.
    + destruct (front_after (a ++ w) c (skipn j tr) (k' - j) i' b Htj) as (r0 & E & H).
      { rewrite <- Hk. clear -Hne Hjk. assert (Hle : (j <= k')%nat) by lia. clear Hne Hjk. revert j Hle. revert k'. induction tr as [|e tr IH]; intros k' j Hle.
        - rewrite skipn_nil. destruct (k' - j)%nat, k'; reflexivity.
        - destruct j as [|j]; [rewrite Nat.sub_0_r; reflexivity|]. destruct k' as [|k']; [lia|]. cbn [skipn nth_error Nat.sub]. apply IH. lia. }
      replace (S (k' - j)) with (S k' - j)%nat in H by lia. rewrite E in Lj. apply lay_cut in Lj. eauto.
Qed.
Lemma piece_located t x a w c j k : located t x -> t = a ++ w ++ c -> (j <= k)%nat -> edge x j (blen a) -> edge x k (blen (a ++ w)) ->
  located w (mkSchema (0, blen w) w (map (at_block (back (blen a))) (between j k x))).
Proof.
  intros H Et Hjk Ej Ek. destruct (piece_front _ _ _ _ _ _ _ H Et Hjk Ej Ek) as (r0 & Hl & Hm). split; [reflexivity|]. split; [reflexivity|]. exists r0. split; [exact Hl|]. cbn [sb_blocks].
  destruct (mv_many w _ _ _ _ _ _ (mv_next w _ _ _ (mv_top w (a ++ w) w (back (blen a)) (back_span a w))) (lay_sx _ _ Hl) Hm) as [_ Q]. exact Q.
Qed.
Lemma piece t x a w c j k : parse_dbml_unchecked t = Some (Ok x) -> t = a ++ w ++ c -> (j <= k)%nat -> edge x j (blen a) -> edge x k (blen (a ++ w)) ->
  parse_dbml_unchecked w = Some (Ok (mkSchema (0, blen w) w (map (at_block (back (blen a))) (between j k x)))).
Proof. intros H Et Hjk Ej Ek. apply located_exact. apply located_exact in H. eapply piece_located; eassumption. Qed.

(** A single block. *)
Lemma alone t x k b : parse_dbml_unchecked t = Some (Ok x) -> nth_error (sb_blocks x) k = Some b -> (forall r, b <> BRef r) ->
  exists a w c, t = a ++ w ++ c /\ block_span b = (blen a, blen (a ++ w)) /\
    parse_dbml_unchecked w = Some (Ok (mkSchema (0, blen w) w [at_block (back (blen a)) b])).
Proof.
  intros H Hk Hr. pose proof H as L. apply located_exact in L as (E1 & E2 & m0 & Hl & Hm). apply trace_of in Hm as (tr & Htr & <- & Em).
  assert (Hn : exists i m, nth_error tr k = Some (i, m, b)).
  { pose proof Hk as E. rewrite <- Em, nth_error_map in E. destruct (nth_error tr k) as [[[j m] b']|]; [|discriminate]. cbn in E. injection E as ->. eauto. }
  destruct Hn as (i & m & Hn). destruct (trace_at _ _ _ _ _ _ Htr Hn) as (H1 & H2 & H3 & H4). pose proof (top_span _ _ _ _ H1 Hr) as Hs.
  destruct (sx_trans _ _ _ (lay_sx _ _ Hl) H4) as (a & Ea). destruct (px_sx _ _ (top_px _ _ _ _ H1)) as (w & Ew). clear H3. subst i.
  assert (Hb : block_span b = (blen a, blen (a ++ w))).
  { rewrite Hs. unfold span. rewrite (pos_at t a _ Ea). rewrite (pos_at t (a ++ w) m); [reflexivity|]. rewrite <- app_assoc. exact Ea. }
  exists a, w, m. split; [exact Ea|]. split; [exact Hb|]. rewrite (piece t x a w m k (S k) H Ea); [| lia| |].
  - unfold between. replace (S k - k)%nat with 1%nat by lia. assert (Ef : firstn 1 (skipn k (sb_blocks x)) = [b]); [|rewrite Ef; reflexivity].
    clear -Hk. revert Hk. generalize (sb_blocks x). induction k as [|k IH]; intros [|c l] E; try discriminate; cbn in E; [injection E as ->; reflexivity|]. cbn [skipn]. apply IH. exact E.
  - pose proof (edge_before x k b Hk Hr) as He. rewrite Hb in He. exact He.
  - pose proof (edge_after x k b Hk Hr) as He. rewrite Hb in He. exact He.
Qed.
