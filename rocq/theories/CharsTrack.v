(** * CharsTrack: a grammar error does not depend on characters without a meaning. *)

From Verif Require Import Track TrackOk CharsOk Shown.
From Verif Require Import Syntax Chars.

(** All the characters an expression mentions. *)
Definition char_range (lo hi : char) : list char := map (fun n => lo + N.of_nat n) (seq 0 (S (N.to_nat (hi - lo)))).
Lemma in_range lo hi c : lo <= c -> c <= hi -> In c (char_range lo hi).
Proof. intros H1 H2. apply in_map_iff. exists (N.to_nat (c - lo)). split; [lia|]. apply in_seq. lia. Qed.
Fixpoint mentions (e : pexp) : list char :=
  match e with
  | EStr x => x
  | EInsens x => map lower x
  | ERange lo hi => char_range lo hi
  | EAny | ESoi | EEnd => []
  | ESeq a b | EAlt a b => mentions a ++ mentions b
  | EOpt a | ERep a | ENot a => mentions a
  | ERule _ _ b => mentions b
  end.
Definition special_b (c : char) : bool :=
  existsb (N.eqb c) ([32; 9; 10; 13; 95] ++ marks) || ((97 <=? c) && (c <=? 122)) || ((65 <=? c) && (c <=? 90)) || ((48 <=? c) && (c <=? 57)).
Lemma special_b_ok c : special_b c = true -> special c.
Proof.
  unfold special_b, special, is_ws, word_char, letter, digit. rewrite !orb_true_iff, !andb_true_iff, !N.leb_le.
  intros [[[H|H]|H]|H]; [|lia..]. apply existsb_exists in H as (x & Hx & Ex). apply N.eqb_eq in Ex. subst x.
  apply in_app_or in Hx as [Hx|Hx]; [|tauto]. destruct Hx as [<-|[<-|[<-|[<-|[<-|[]]]]]]; tauto.
Qed.
Lemma all_special l : forallb special_b l = true -> Forall special l.
Proof. intros E. apply Forall_forall. intros c Hc. rewrite forallb_forall in E. apply special_b_ok, E, Hc. Qed.
Lemma oschema_special : Forall special (mentions oschema).
Proof. apply all_special. vm_compute. reflexivity. Qed.
Lemma skip_special : Forall special (mentions skip_exp).
Proof. apply all_special. vm_compute. reflexivity. Qed.

Section Map.
  Variable f : char -> char.
  Hypothesis Hf : respells f.
  Hypothesis Hu : forall c, ulen (f c) = ulen c.

  Fixpoint map_pair (p : pair) : pair := match p with Pair r a b t i => Pair r a b (map f t) (map map_pair i) end.
  Definition map_res (r : pres) : pres := match r with ROk t i ps => ROk (map f t) (map f i) (map map_pair ps) | RFail => RFail | RLoop => RLoop end.

  Lemma f_special c : special c -> f c = c.
  Proof. intros H. destruct (Hf c) as [E|[K _]]; [symmetry; exact E|tauto]. Qed.
  Lemma f_same c d : special c -> (c =? f d) = (c =? d).
  Proof.
    intros H. destruct (N.eqb_spec c d) as [<-|E]; [rewrite f_special by exact H; apply N.eqb_refl|]. apply N.eqb_neq. intros ->.
    destruct (Hf d) as [K|[_ K]]; [congruence|tauto].
  Qed.
  Lemma map_blen t : blen (map f t) = blen t.
  Proof. induction t as [|c t IH]; cbn; [reflexivity|]. now rewrite Hu, IH. Qed.
  Lemma map_special x : Forall special x -> map f x = x.
  Proof. induction 1 as [|c x H _ IH]; cbn; [reflexivity|]. now rewrite f_special, IH. Qed.
  Lemma map_strip x i : Forall special x -> strip_prefix x (map f i) = option_map (map f) (strip_prefix x i).
  Proof.
    intros H. revert i. induction H as [|c x Hc Hx IH]; intros i; [reflexivity|]. destruct i as [|d i]; cbn; [reflexivity|].
    rewrite f_same by exact Hc. destruct (c =? d); [apply IH|reflexivity].
  Qed.
  Lemma lower_upper d : ~ special d -> lower d = d.
  Proof. intros H. unfold lower. destruct (N.leb_spec 65 d), (N.leb_spec d 90); cbn; try reflexivity. destruct H. right. left. left. unfold letter. lia. Qed.
  Lemma lower_same c d : special (lower c) -> (lower c =? lower (f d)) = (lower c =? lower d).
  Proof.
    intros H. destruct (Hf d) as [<-|[K1 K2]]; [reflexivity|]. rewrite (lower_upper _ K1), (lower_upper _ K2). apply f_same. exact H.
  Qed.
  Lemma map_strip_ci x i : Forall special (map lower x) ->
    strip_prefix_ci x (map f i) = match strip_prefix_ci x i with Some (t, r) => Some (map f t, map f r) | None => None end.
  Proof.
    revert i. induction x as [|c x IH]; intros i H; [reflexivity|]. inversion H as [|? ? Hc Hx]; subst. destruct i as [|d i]; [reflexivity|]. cbn [map strip_prefix_ci].
    rewrite lower_same by exact Hc. destruct (lower c =? lower d); [|reflexivity]. rewrite IH by exact Hx. destruct (strip_prefix_ci x i) as [[t r]|]; reflexivity.
  Qed.
  Lemma map_bind r off g g' : (forall o i, g' o (map f i) = map_res (g o i)) -> bind_res (map_res r) off g' = map_res (bind_res r off g).
  Proof.
    intros H. destruct r as [t i ps| |]; cbn; try reflexivity. rewrite map_blen, H. destruct (g (off + blen t) i); cbn; [rewrite !map_app|..]; reflexivity.
  Qed.
  Lemma map_repeat g g' n : (forall o i, g' o (map f i) = map_res (g o i)) -> forall off i, Peg.repeat g' n off (map f i) = map_res (Peg.repeat g n off i).
  Proof.
    intros H. induction n as [|n IH]; intros off i; cbn; [reflexivity|]. rewrite H. destruct (g off i) as [t i' ps| |]; cbn; try reflexivity.
    rewrite map_blen, IH. destruct (Peg.repeat g n (off + blen t) i'); cbn; [rewrite !map_app|..]; reflexivity.
  Qed.
  Lemma map_emit a r off x : emit a r off (map_res x) = map_res (emit a r off x).
  Proof. destruct x as [t i ps| |]; cbn; [|destruct a; reflexivity..]. destruct a; cbn; rewrite ?map_blen; reflexivity. Qed.
  Lemma map_fuel i : fuel_for (map f i) = fuel_for i.
  Proof. unfold fuel_for. now rewrite map_length. Qed.

  Lemma map_eval sk (Hs : forall i, sk (map f i) = map_res (sk i)) e : Forall special (mentions e) ->
    forall a off i, eval sk e a off (map f i) = map_res (eval sk e a off i).
  Proof.
    assert (Hd : forall a i, do_skip sk a (map f i) = map_res (do_skip sk a i)) by (intros [] i; cbn; auto).
    induction e as [x|x|lo hi| | | |e1 IH1 e2 IH2|e1 IH1 e2 IH2|e IH|e IH|e IH|r t b IH]; intros H a off i; cbn [mentions] in H; cbn [eval].
    - rewrite map_strip by exact H. destruct (strip_prefix x i); cbn; [|reflexivity]. rewrite (map_special x H). reflexivity.
    - rewrite map_strip_ci by exact H. destruct (strip_prefix_ci x i) as [[t r]|]; reflexivity.
    - destruct i as [|c i]; [reflexivity|]. cbn [map]. destruct (special_dec c) as [Hc|Hc].
      + rewrite f_special by exact Hc. destruct ((lo <=? c) && (c <=? hi)); cbn; [rewrite f_special by exact Hc|]; reflexivity.
      + assert (K : forall d, ~ special d -> ((lo <=? d) && (d <=? hi)) = false).
        { intros d K. destruct (N.leb_spec lo d), (N.leb_spec d hi); cbn; try reflexivity. destruct K. rewrite Forall_forall in H. apply H, in_range; assumption. }
        rewrite !K; [reflexivity|exact Hc|]. destruct (Hf c) as [<-|[_ K2]]; assumption.
    - destruct i; reflexivity.
    - destruct (off =? 0); reflexivity.
    - destruct i; reflexivity.
    - apply Forall_app in H as [H1 H2]. rewrite (IH1 H1).
      rewrite (map_bind _ off (fun _ i => do_skip sk a i) (fun _ i => do_skip sk a i)) by (intros; apply Hd). apply map_bind. intros. apply (IH2 H2).
    - apply Forall_app in H as [H1 H2]. rewrite (IH1 H1). destruct (eval sk e1 a off i); cbn; [reflexivity| |reflexivity]. apply (IH2 H2).
    - rewrite (IH H). destruct (eval sk e a off i); reflexivity.
    - destruct a.
      + rewrite (IH H). assert (K : forall r, bind_res (map_res r) off (fun off1 inp1 => Peg.repeat (fun o i0 => bind_res (do_skip sk NonAtomic i0) o (eval sk e NonAtomic)) (fuel_for inp1) off1 inp1)
          = map_res (bind_res r off (fun off1 inp1 => Peg.repeat (fun o i0 => bind_res (do_skip sk NonAtomic i0) o (eval sk e NonAtomic)) (fuel_for inp1) off1 inp1))).
        { intros r. apply map_bind. intros o j. rewrite map_fuel. apply map_repeat. intros o' j'. rewrite Hd. apply map_bind. intros. apply (IH H). }
        destruct (eval sk e NonAtomic off i) as [t i' ps| |] eqn:E; [|reflexivity..]. exact (K (ROk t i' ps)).
      + rewrite map_fuel. apply map_repeat. intros. apply (IH H).
      + rewrite map_fuel. apply map_repeat. intros. apply (IH H).
    - rewrite (IH H). destruct (eval sk e a off i); reflexivity.
    - destruct t; rewrite (IH H); apply map_emit.
  Qed.
  Lemma map_skip i : skip (map f i) = map_res (skip i).
  Proof. apply map_eval; [reflexivity|exact skip_special]. Qed.

  Definition both (x : pres * tracked) : pres * tracked := (map_res (fst x), snd x).
  Lemma both_bind x off g g' : (forall o i w, g' o (map f i) w = both (g o i w)) -> bind_t (both x) off g' = both (bind_t x off g).
  Proof.
    intros H. destruct x as [[t i ps| |] w]; unfold both; cbn; try reflexivity. rewrite map_blen, H. destruct (g (off + blen t) i w) as [[t2 i2 ps2| |] w2]; unfold both; cbn; [rewrite !map_app|..]; reflexivity.
  Qed.
  Lemma both_repeat g g' n : (forall o i w, g' o (map f i) w = both (g o i w)) -> forall off i w, repeat_t g' n off (map f i) w = both (repeat_t g n off i w).
  Proof.
    intros H. induction n as [|n IH]; intros off i w; cbn; [reflexivity|]. rewrite H. destruct (g off i w) as [[t i' ps| |] w1]; unfold both; cbn; try reflexivity.
    rewrite map_blen, IH. destruct (repeat_t g n (off + blen t) i' w1) as [[t2 i2 ps2| |] w2]; unfold both; cbn; [rewrite !map_app|..]; reflexivity.
  Qed.
  Lemma both_rule a lk r pos w run run' : (forall w, run' w = both (run w)) -> rule_tracked a lk r pos w run' = both (rule_tracked a lk r pos w run).
  Proof. intros H. unfold rule_tracked. rewrite H. destruct (run w) as [[t i ps| |] w']; destruct lk; reflexivity. Qed.
  Lemma both_emit a r off x : emit_t a r off (both x) = both (emit_t a r off x).
  Proof. unfold emit_t, both. cbn. now rewrite map_emit. Qed.
  Lemma both_eval e : Forall special (mentions e) -> forall a lk off i w, eval_t skip e a lk off (map f i) w = both (eval_t skip e a lk off i w).
  Proof.
    assert (Hd : forall a i, do_skip skip a (map f i) = map_res (do_skip skip a i)) by (intros [] i; cbn [do_skip]; [apply map_skip|reflexivity..]).
    induction e as [x|x|lo hi| | | |e1 IH1 e2 IH2|e1 IH1 e2 IH2|e IH|e IH|e IH|r t b IH]; intros H a lk off i w;
      try (cbn [eval_t]; unfold both; cbn [fst snd]; rewrite (map_eval skip map_skip _ H); reflexivity); cbn [mentions] in H; cbn [eval_t].
    - apply Forall_app in H as [H1 H2]. rewrite (IH1 H1).
      rewrite (both_bind _ off (fun _ i w => (do_skip skip a i, w)) (fun _ i w => (do_skip skip a i, w))) by (intros; unfold both; cbn; rewrite Hd; reflexivity).
      apply both_bind. intros. apply (IH2 H2).
    - apply Forall_app in H as [H1 H2]. rewrite (IH1 H1). destruct (eval_t skip e1 a lk off i w) as [[] w1]; cbn; [reflexivity| |reflexivity]. apply (IH2 H2).
    - rewrite (IH H). destruct (eval_t skip e a lk off i w) as [[] w1]; reflexivity.
    - destruct a.
      + rewrite (IH H). assert (K : forall r, bind_t (both r) off (fun off1 inp1 => repeat_t (fun o i0 w => bind_t (do_skip skip NonAtomic i0, w) o (eval_t skip e NonAtomic lk)) (fuel_for inp1) off1 inp1)
          = both (bind_t r off (fun off1 inp1 => repeat_t (fun o i0 w => bind_t (do_skip skip NonAtomic i0, w) o (eval_t skip e NonAtomic lk)) (fuel_for inp1) off1 inp1))).
        { intros r. apply both_bind. intros o j w'. rewrite map_fuel. apply both_repeat. intros o' j' w''. rewrite Hd.
          apply (both_bind (do_skip skip NonAtomic j', w'')). intros. apply (IH H). }
        destruct (eval_t skip e NonAtomic lk off i w) as [[t i' ps| |] w1] eqn:E; unfold both; cbn [fst snd map_res]; [|reflexivity..]. exact (K (ROk t i' ps, w1)).
      + rewrite map_fuel. apply both_repeat. intros. apply (IH H).
      + rewrite map_fuel. apply both_repeat. intros. apply (IH H).
    - rewrite (IH H). destruct (eval_t skip e a (flip lk) off i w) as [[] w1]; reflexivity.
    - destruct t; rewrite <- both_emit; f_equal; apply both_rule; intros; apply (IH H).
  Qed.
  Lemma same_report t : grammar_error (map f t) = grammar_error t.
  Proof. unfold grammar_error. rewrite (both_eval oschema oschema_special). destruct (eval_t skip oschema NonAtomic LkNone 0 t (mkTracked 0 [] [])) as [[] w]; reflexivity. Qed.
End Map.
Section Lines.
  Variable f : char -> char.
  Hypothesis Hf : respells f.
  Hypothesis Hu : forall c, ulen (f c) = ulen c.
  Lemma map_upto i : forall pos, upto pos (map f i) = map f (upto pos i).
  Proof. induction i as [|c i IH]; intros pos; cbn; destruct (pos =? 0); try reflexivity. cbn. now rewrite Hu, IH. Qed.
  Lemma f_is c d : special d -> (f c =? d) = (c =? d).
  Proof. intros H. rewrite !(N.eqb_sym _ d). now apply f_same. Qed.
  Lemma map_line_col i : forall l c, line_col_from (map f i) l c = line_col_from i l c.
  Proof.
    assert (S13 : special 13) by spc. assert (S10 : special 10) by spc.
    enough (K : forall n i, (List.length i <= n)%nat -> forall l c, line_col_from (map f i) l c = line_col_from i l c) by eauto.
    clear i. induction n as [|n IH]; intros [|a i] Hn l c; cbn [List.length] in Hn; try lia; [reflexivity..|]. cbn [map line_col_from]. rewrite !f_is by assumption.
    destruct (a =? 13).
    - destruct i as [|b i]; [reflexivity|]. cbn [map]. rewrite f_is by assumption. destruct (b =? 10); [apply IH; cbn in Hn; lia|]. exact (IH (b :: i) ltac:(lia) l (c + 1)).
    - destruct (a =? 10); apply IH; lia.
  Qed.
  Lemma map_line i pos : line_col (map f i) pos = line_col i pos.
  Proof. unfold line_col. rewrite map_upto. apply map_line_col. Qed.
  Lemma map_back i pos : Shown.back (map f i) pos = Shown.back i pos.
  Proof.
    unfold Shown.back. rewrite map_upto. assert (K : forall x : str, removelast (map f x) = map f (removelast x)).
    { induction x as [|c [|d x] IH]; cbn in *; congruence. }
    rewrite K. now apply map_blen.
  Qed.
  Lemma map_end_line i pos : end_line_col (map f i) pos = end_line_col i pos.
  Proof. unfold end_line_col. rewrite map_line, map_back, map_line. reflexivity. Qed.
End Lines.
