(** * DrawOk: the drawing of an error meets [DrawSpec]. *)

From Verif Require Import ShownOk MessageOk TrackFacts PegFacts FirmOk.
From Coq Require Import Lia.
From Verif Require Import Err Api AstSpec.
From Verif Require Import Draw DrawSpec.

Lemma after_lf_ok (a : str) : forall y : str, ~ In 10 y -> exists before : str, y ++ a = before ++ after_lf y a /\ (before = [] \/ exists x, before = x ++ [10]) /\ ~ In 10 (after_lf y a).
Proof.
  induction a as [|c a IH]; intros y Hy; cbn [after_lf].
  - exists []. rewrite app_nil_r. auto.
  - destruct (c =? 10) eqn:E.
    + apply N.eqb_eq in E as ->. destruct (IH [] (fun H => H)) as (b & E1 & E2 & E3). exists (y ++ 10 :: b). split.
      * rewrite <- app_assoc. apply f_equal. cbn. apply f_equal. exact E1.
      * split; [|exact E3]. right. destruct E2 as [->|(x & ->)]; [exists y; reflexivity|]. exists (y ++ 10 :: x). rewrite <- app_assoc. reflexivity.
    + apply N.eqb_neq in E. destruct (IH (y ++ [c])) as (b & E1 & E2 & E3).
      { rewrite in_app_iff. cbn. intuition congruence. }
      exists b. rewrite <- app_assoc in E1. auto.
Qed.
Lemma line_before_ok (a : str) : exists before : str, a = before ++ line_before a /\ (before = [] \/ exists x, before = x ++ [10]) /\ ~ In 10 (line_before a).
Proof. apply (after_lf_ok a []). intros []. Qed.

Lemma lines_of_cons (t : str) : t <> [] -> exists q r : str, t = q ++ r /\ lines_of t = q :: lines_of r /\ q <> [] /\ whole_line q r.
Proof.
  induction t as [|c t IH]; [congruence|]. intros _. cbn [lines_of]. destruct (c =? 10) eqn:E.
  - apply N.eqb_eq in E as ->. exists [10], t. repeat split; [discriminate|]. left. exists []. split; [reflexivity|intros []].
  - apply N.eqb_neq in E. destruct t as [|d t].
    + exists [c], []. repeat split; [discriminate|]. right. split; [|reflexivity]. cbn. intuition congruence.
    + destruct IH as (q & r & E1 & E2 & E3 & E4); [discriminate|]. rewrite E2. exists (c :: q), r. rewrite E1. repeat split; [discriminate|].
      destruct E4 as [(q' & -> & Hq)|(Hq & ->)].
      * left. exists (c :: q'). split; [reflexivity|]. cbn. intuition congruence.
      * right. split; [|reflexivity]. cbn. intuition congruence.
Qed.
Lemma rest_from_app (a b : str) : rest_from (blen a) (a ++ b) = b.
Proof. unfold rest_from. rewrite upto_app. induction a; [reflexivity|exact IHa]. Qed.
Lemma skipn_len {A} (a b : list A) : skipn (List.length a) (a ++ b) = b.
Proof. induction a; [reflexivity|exact IHa]. Qed.
Lemma firstn_len {A} (a b : list A) : firstn (List.length a) (a ++ b) = a.
Proof. induction a; [reflexivity|]. cbn. rewrite IHa. reflexivity. Qed.

Lemma plain_ok t : plain t (no_line_ends t).
Proof.
  induction t as [|c t IH]; [constructor|]. cbn [no_line_ends filter]. fold (no_line_ends t). destruct (c =? 13) eqn:E; [|destruct (c =? 10) eqn:E2]; cbn [negb orb].
  - apply N.eqb_eq in E as ->. apply plain_end; auto.
  - apply N.eqb_eq in E2 as ->. apply plain_end; auto.
  - apply N.eqb_neq in E. apply N.eqb_neq in E2. apply plain_char; auto.
Qed.
Lemma visible_ok t : visible t (visualize t).
Proof.
  induction t as [|c t IH]; [constructor|]. cbn [visualize map]. constructor; [|exact IH]. destruct (c =? 13) eqn:E; [|destruct (c =? 10) eqn:E2].
  - apply N.eqb_eq in E. auto.
  - apply N.eqb_eq in E2. auto.
  - apply N.eqb_neq in E. apply N.eqb_neq in E2. auto.
Qed.
Lemma excerpt_ok (v : bool) (t : str) : printed_line t (if v then visualize t else no_line_ends t).
Proof. destruct v; [right; apply visible_ok|left; apply plain_ok]. Qed.
Lemma excerpt_if (v : bool) (P : Prop) (t : str) : (v = true <-> P) -> printed_if P t (if v then visualize t else no_line_ends t).
Proof. intros H. destruct v; [left|right]; (split; [|apply visible_ok || apply plain_ok]); [apply H; reflexivity|]. intros K. apply H in K. discriminate. Qed.
Lemma printed_if_line P t x : printed_if P t x -> printed_line t x.
Proof. intros [[_ H]|[_ H]]; [right|left]; exact H. Qed.
Lemma line_end_char_iff c : line_end_char c = true <-> c = 10 \/ c = 13.
Proof. unfold line_end_char. rewrite Bool.orb_true_iff, !N.eqb_eq. reflexivity. Qed.
Lemma visible_at_iff t : visible_at t = true <-> starts_with_line_end t.
Proof.
  destruct t as [|c r]; cbn [visible_at].
  - split; [discriminate|intros (c & r & E & _); discriminate].
  - rewrite line_end_char_iff. split; [intros H; exists c, r; auto|intros (c' & r' & E & H); injection E as -> ->; exact H].
Qed.
Lemma visible_in_iff m : visible_in m = true <-> starts_with_line_end m \/ ends_with_line_end m.
Proof.
  destruct m as [|c r]; cbn [visible_in].
  - split; [discriminate|]. intros [(c & r & E & _)|(c & r & E & _)]; [discriminate|]. destruct r; discriminate.
  - rewrite Bool.orb_true_iff, line_end_char_iff. split.
    + intros [H|H]; [left; exists c, r; auto|]. destruct r as [|d r]; [discriminate|]. apply line_end_char_iff in H. right.
      exists (last (d :: r) 0), (c :: removelast (d :: r)). split; [|exact H]. rewrite (app_removelast_last 0) at 1 by discriminate. reflexivity.
    + intros [(c' & r' & E & H)|(c' & r' & E & H)]; [injection E as -> ->; auto|]. destruct r' as [|d r']; [injection E as -> ->; auto|].
      injection E as -> ->. right. destruct (r' ++ [c']) as [|y z] eqn:F; [destruct r'; discriminate|]. rewrite <- F, last_last. apply line_end_char_iff. exact H.
Qed.
Lemma excerpt_prefix (v : bool) (p q : str) : ~ In 10 p -> ~ In 13 p -> exists x, (if v then visualize (p ++ q) else no_line_ends (p ++ q)) = p ++ x.
Proof.
  intros H1 H2. exists (if v then visualize q else no_line_ends q). induction p as [|c p IH]; [destruct v; reflexivity|].
  assert (c <> 10) as A by (intros ->; apply H1; left; reflexivity). assert (c <> 13) as B by (intros ->; apply H2; left; reflexivity).
  apply N.eqb_neq in A. apply N.eqb_neq in B. specialize (IH (fun H => H1 (or_intror H)) (fun H => H2 (or_intror H))). destruct v; cbn.
  - rewrite A, B. f_equal. exact IH.
  - rewrite A, B. cbn. f_equal. exact IH.
Qed.
Lemma below_ok (p : str) : below p (blanks p).
Proof.
  induction p as [|c p IH]; [constructor|]. constructor; [|exact IH]. destruct (c =? 9) eqn:E; [apply N.eqb_eq in E|apply N.eqb_neq in E]; auto.
Qed.
Lemma blank_spaces n : blank (spaces n).
Proof. induction n; constructor; auto. Qed.
Lemma spaces_len n : List.length (spaces n) = n.
Proof. apply repeat_length. Qed.

(** A number is no longer than a greater one. *)
Lemma aux_len f : forall n acc, (List.length acc <= List.length (dec_digits_aux f n acc))%nat.
Proof.
  induction f as [|f IH]; intros n acc; cbn [dec_digits_aux]; [lia|]. destruct (n <? 10); [cbn; lia|]. specialize (IH (n / 10) ((48 + n mod 10) :: acc)). cbn [List.length] in IH. lia.
Qed.
Lemma aux_mono g : forall f m n acc acc', m <= n -> n < 10 ^ N.of_nat (Datatypes.S g) ->
  (List.length (dec_digits_aux f m acc) + List.length acc' <= List.length (dec_digits_aux (Datatypes.S g) n acc') + List.length acc)%nat.
Proof.
  induction g as [|g IH]; intros f m n acc acc' Hm Hn.
  - change (10 ^ N.of_nat 1) with 10 in Hn. cbn [dec_digits_aux]. destruct (N.ltb_spec n 10); [|lia].
    destruct f as [|f]; cbn [dec_digits_aux]; [cbn [List.length]; lia|]. destruct (N.ltb_spec m 10); [|lia]. cbn [List.length]. lia.
  - remember (Datatypes.S g) as h eqn:Eh. cbn [dec_digits_aux]. destruct (N.ltb_spec n 10) as [L|L].
    + destruct f as [|f]; cbn [dec_digits_aux]; [cbn [List.length]; lia|]. destruct (N.ltb_spec m 10); [|lia]. cbn [List.length]. lia.
    + pose proof (aux_len h (n / 10) ((48 + n mod 10) :: acc')) as A. cbn [List.length] in A.
      destruct f as [|f]; cbn [dec_digits_aux]; [cbn [List.length]; lia|]. destruct (N.ltb_spec m 10); [cbn [List.length]; lia|].
      rewrite Eh in *. specialize (IH f (m / 10) (n / 10) ((48 + m mod 10) :: acc) ((48 + n mod 10) :: acc')). cbn [List.length] in IH.
      enough (H0 : m / 10 <= n / 10 /\ n / 10 < 10 ^ N.of_nat (Datatypes.S g)) by (specialize (IH (proj1 H0) (proj2 H0)); lia).
      split; [apply N.div_le_mono; [discriminate|exact Hm]|]. apply N.div_lt_upper_bound; [discriminate|]. rewrite (Nat2N.inj_succ (Datatypes.S g)), N.pow_succ_r' in Hn. exact Hn.
Qed.
Lemma dec_len m n : m <= n -> (List.length (dec_of_N m) <= List.length (dec_of_N n))%nat.
Proof.
  intros H. unfold dec_of_N. pose proof (aux_mono (N.to_nat (N.log2 n)) (Datatypes.S (N.to_nat (N.log2 m))) m n [] [] H) as A. cbn [List.length] in A.
  enough (n < 10 ^ N.of_nat (Datatypes.S (N.to_nat (N.log2 n)))) by (specialize (A H0); lia).
  rewrite Nat2N.inj_succ, N2Nat.id. destruct n as [|p]; [reflexivity|].
  pose proof (N.log2_spec (N.pos p)) as [_ L]; [lia|]. eapply N.lt_le_trans; [exact L|]. apply N.pow_le_mono_l. lia.
Qed.
Lemma numbered_ok m n : m <= n -> numbered (spaces (List.length (dec_of_N n))) m (padded (List.length (dec_of_N n)) (dec_of_N m)).
Proof.
  intros H. apply dec_len in H. eexists. split; [apply blank_spaces|]. split; [reflexivity|]. unfold padded. rewrite app_length, !spaces_len. lia.
Qed.

(** ** Columns *)
Lemma fold_line (p : str) : forall l c, ~ In 10 p -> fold_left advance p (l, c) = (l, c + N.of_nat (List.length p)).
Proof.
  induction p as [|x p IH]; intros l c H; cbn [fold_left List.length]; [rewrite N.add_0_r; reflexivity|].
  unfold advance at 2. destruct (x =? 10) eqn:E; [apply N.eqb_eq in E as ->; destruct H; left; reflexivity|]. cbn [fst snd]. rewrite IH; [f_equal; lia|intros K; apply H; right; exact K].
Qed.
Lemma fold_start (before : str) : (before = [] \/ exists x, before = x ++ [10]) -> snd (fold_left advance before (1, 1)) = 1.
Proof. intros [->|(x & ->)]; [reflexivity|]. rewrite fold_left_app. reflexivity. Qed.
Lemma line_col_fold' (a b : str) : line_col (a ++ b) (blen a) = fold_left advance a (1, 1).
Proof. unfold line_col. rewrite upto_app. apply line_col_fold. Qed.
Lemma column (before p b : str) : (before = [] \/ exists x, before = x ++ [10]) -> ~ In 10 p ->
  exists l, line_col ((before ++ p) ++ b) (blen (before ++ p)) = (l, 1 + N.of_nat (List.length p)).
Proof.
  intros H1 H2. rewrite line_col_fold', fold_left_app. pose proof (fold_start _ H1) as E. remember (fold_left advance before (1, 1)) as lc eqn:El. destruct lc as [l c].
  cbn in E. subst c. exists l. apply fold_line. exact H2.
Qed.

(** ** The lines of a marked part *)
(** [l] is the first, and [c] the last if there is another. *)
Lemma lines_until_nil ls pos stop : stop < pos -> lines_until ls pos stop = [].
Proof. intros H. destruct ls; [reflexivity|]. cbn. destruct (N.ltb_spec stop pos); [reflexivity|lia]. Qed.
Lemma whole_first (m b q r : str) : m ++ b = q ++ r -> whole_line q r -> ~ In 10 m -> exists x : str, q = m ++ x.
Proof.
  intros E W H. destruct (prefix_cases _ _ _ _ E) as [(x & ->)|(x & ->)]; [eauto|]. destruct W as [(q' & -> & _)|(_ & ->)].
  - destruct H. rewrite !in_app_iff. cbn. auto.
  - rewrite app_nil_r in E. rewrite <- app_assoc in E. rewrite <- (app_nil_r q) in E at 2. apply app_inv_head in E. apply app_eq_nil in E as [-> _]. exists []. rewrite !app_nil_r. reflexivity.
Qed.
Lemma until_one (m b : str) pos : ~ In 10 m -> m ++ b <> [] -> exists q r : str, m ++ b = (m ++ q) ++ r /\ whole_line (m ++ q) r /\
  lines_until (lines_of (m ++ b)) pos (pos + blen m) = [m ++ q].
Proof.
  intros H Hn. destruct (lines_of_cons (m ++ b) Hn) as (q & r & E & L & N0 & W). destruct (whole_first _ _ _ _ E W H) as (x & ->). exists x, r.
  split; [exact E|]. split; [exact W|]. rewrite L. cbn [lines_until]. destruct (N.ltb_spec (pos + blen m) pos); [lia|]. apply f_equal. destruct x as [|c x].
  - destruct W as [(q' & E' & _)|(_ & ->)]; [destruct H; rewrite app_nil_r in E'; rewrite E', in_app_iff; cbn; auto|]. reflexivity.
  - apply lines_until_nil. rewrite blen_app. cbn. pose proof (ulen_pos c). lia.
Qed.
(** More lines. *)
Lemma lines_of_app x y : lines_of (x ++ 10 :: y) = lines_of (x ++ [10]) ++ lines_of y.
Proof.
  induction x as [|c x IH]; [reflexivity|]. cbn [app lines_of]. rewrite IH. destruct (c =? 10); [reflexivity|].
  destruct (lines_of_cons (x ++ [10])) as (q & r & _ & L & _); [destruct x; discriminate|]. rewrite L. reflexivity.
Qed.
Lemma lines_of_concat t : List.concat (lines_of t) = t.
Proof.
  induction t as [|c t IH]; [reflexivity|]. cbn [lines_of]. destruct (c =? 10) eqn:E.
  - apply N.eqb_eq in E as ->. cbn. f_equal. exact IH.
  - destruct (lines_of t); cbn in *; [rewrite <- IH; reflexivity|]. rewrite IH. reflexivity.
Qed.
Lemma until_app l1 l2 : forall pos stop, pos + blen (List.concat l1) <= stop -> lines_until (l1 ++ l2) pos stop = l1 ++ lines_until l2 (pos + blen (List.concat l1)) stop.
Proof.
  induction l1 as [|l l1 IH]; intros pos stop H; cbn [app lines_until List.concat] in *; [cbn; rewrite N.add_0_r; reflexivity|].
  rewrite blen_app in H. destruct (N.ltb_spec stop pos); [lia|]. rewrite IH by lia. rewrite blen_app, N.add_assoc. reflexivity.
Qed.
Lemma until_more (m1 m2 b : str) pos : ~ In 10 m2 -> m2 <> [] -> exists q r : str, m2 ++ b = (m2 ++ q) ++ r /\ whole_line (m2 ++ q) r /\
  lines_until (lines_of (m1 ++ 10 :: m2 ++ b)) pos (pos + blen (m1 ++ 10 :: m2)) = lines_of (m1 ++ [10]) ++ [m2 ++ q].
Proof.
  intros H Hn. destruct (until_one m2 b (pos + blen (m1 ++ [10])) H) as (q & r & E & W & L); [destruct m2; [congruence|discriminate]|].
  exists q, r. split; [exact E|]. split; [exact W|]. rewrite lines_of_app.
  assert (Eb : blen (m1 ++ 10 :: m2) = blen (m1 ++ [10]) + blen m2) by (change (10 :: m2) with ([10] ++ m2); rewrite app_assoc; apply blen_app).
  rewrite Eb, N.add_assoc. rewrite until_app by (rewrite lines_of_concat; apply N.le_add_r). rewrite lines_of_concat. f_equal. exact L.
Qed.

(** ** The drawing *)
Lemma located_snd a p : located_at a p -> 1 <= snd p.
Proof. intros (ls & y & _ & _ & _ & ->). cbn [snd]. lia. Qed.
Lemma ends_snd a p : ends_at a p -> 2 <= snd p.
Proof.
  intros [[H H']|[(a' & l & c & _ & H & ->)|[_ ->]]]; [|apply located_snd in H; cbn [snd] in *; lia|cbn [snd]; lia]. apply located_snd in H. lia.
Qed.
Lemma minus_ok a b : b <= a -> minus a b = Some (a - b).
Proof. intros H. unfold minus. destruct (N.ltb_spec a b); [lia|reflexivity]. Qed.
Lemma underline_some line c e : 1 <= c -> 2 <= e -> exists u, underline line c (Some e) = Some u.
Proof.
  intros Hc He. unfold underline. destruct (N.ltb_spec e c).
  - rewrite minus_ok by lia. rewrite !minus_ok by lia. eauto.
  - rewrite !minus_ok by lia. eauto.
Qed.
Lemma firstn_col (p x : str) : firstn (N.to_nat (1 + N.of_nat (List.length p) - 1)) (p ++ x) = p.
Proof. replace (N.to_nat (1 + N.of_nat (List.length p) - 1)) with (List.length p) by lia. apply firstn_len. Qed.
Lemma underline_mark (p x : str) n c e : c = 1 + N.of_nat (List.length p) -> (1 <= n)%nat -> e = c + N.of_nat n ->
  exists mk, underline (p ++ x) c (Some e) = Some (blanks p ++ mk) /\ mark n mk.
Proof.
  intros -> Hn He. unfold underline. destruct (N.ltb_spec e (1 + N.of_nat (List.length p))); [lia|]. rewrite !minus_ok by lia. rewrite firstn_col.
  replace (e - (1 + N.of_nat (List.length p))) with (N.of_nat n) by lia. eexists. split; [reflexivity|]. destruct (N.ltb_spec 1 (N.of_nat n)) as [L|L].
  - right. exists (n - 2)%nat. rewrite Nat2N.id. split; [reflexivity|lia].
  - left. split; [reflexivity|lia].
Qed.
Lemma underline_caret (p x : str) c : c = 1 + N.of_nat (List.length p) -> underline (p ++ x) c None = Some (blanks p ++ s "^---").
Proof. intros ->. unfold underline. rewrite minus_ok by lia. cbn [option_map]. rewrite firstn_col. reflexivity. Qed.

Theorem draw_pos (msg a b : str) : exists before q after bar num x u : str, let p := line_before a in let at_ := line_col (a ++ b) (blen a) in
  place (a ++ b) before p q after (blen a) at_ /\ printed_if (starts_with_line_end q) (p ++ q) x /\ blank bar /\ numbered bar (fst at_) num /\
  draw (a ++ b) (from_pos msg (a ++ b) (blen a)) = Some (frame bar at_ num x [] u msg) /\
  (~ In 13 p -> (exists x', x = p ++ x') /\ exists ind, u = ind ++ s "^---" /\ below p ind).
Proof.
  destruct (line_before_ok a) as (before & Ea & Hb & Hp). pose (p := line_before a). fold p in Ea, Hp.
  assert (exists q after : str, b = q ++ after /\ hd [] (lines_of b) = q /\ whole_line q after) as (q & after & Eb & Eq & W).
  { destruct b as [|d t]; [exists [], []; repeat split; right; split; [intros []|reflexivity]|].
    destruct (lines_of_cons (d :: t)) as (q & r & E & L & _ & W); [discriminate|]. exists q, r. rewrite L. auto. }
  destruct (column before p b Hb Hp) as (l & Ec). rewrite <- Ea in Ec.
  pose (v := visible_at b). pose (x := if v then visualize (p ++ q) else no_line_ends (p ++ q)).
  pose (w := List.length (dec_of_N l)).
  assert (exists u : str, underline x (1 + N.of_nat (List.length p)) None = Some u /\ (~ In 13 p -> exists ind, u = ind ++ s "^---" /\ below p ind)) as (u & Eu & Hu).
  { destruct (underline x (1 + N.of_nat (List.length p)) None) as [u|] eqn:Eu; [|unfold underline in Eu; rewrite minus_ok in Eu by lia; discriminate].
    exists u. split; [reflexivity|]. intros H. destruct (excerpt_prefix v p q Hp H) as (x' & Ex). fold x in Ex.
    pose proof (underline_caret p x' (1 + N.of_nat (List.length p)) eq_refl) as K. rewrite <- Ex, Eu in K. injection K as ->.
    eexists. split; [reflexivity|apply below_ok]. }
  exists before, q, after, (spaces w), (padded w (dec_of_N l)), x, u. cbv zeta. fold p. split; [|split; [|split; [|split; [|split]]]].
  - split; [|split; [rewrite <- Ea; reflexivity|rewrite <- Ea; apply line_col_at]]. split; [|auto]. rewrite Ea, Eb, <- app_assoc. reflexivity.
  - apply excerpt_if. unfold v. rewrite visible_at_iff, Eb. split; intros (c & r & E & Hc).
    + destruct q as [|d q']; [destruct W as [(q' & E' & _)|(_ & Ea')]; [destruct q'; discriminate|rewrite Ea' in E; discriminate]|]. injection E as -> E. exists c, q'. auto.
    + rewrite E. exists c, (r ++ after). auto.
  - apply blank_spaces.
  - rewrite Ec. apply numbered_ok. cbn. lia.
  - unfold draw, from_pos, excerpts. cbn [sh_from sh_to sh_start sh_end sh_message option_map]. unfold line_of. rewrite upto_app, rest_from_app, Eq. fold p v. fold x. rewrite Ec, Eu.
    fold w. unfold frame, nl. cbn [fst snd]. rewrite <- !app_assoc. reflexivity.
  - intros H. split; [|apply Hu; exact H]. apply excerpt_prefix; assumption.
Qed.
Lemma last_error_app {A} (l : list A) x : last_error (l ++ [x]) = Some x.
Proof. unfold last_error. rewrite rev_app_distr. reflexivity. Qed.
Lemma end_col (before p m b : str) : (before = [] \/ exists x, before = x ++ [10]) -> ~ In 10 p -> ~ In 10 m -> m <> [] ->
  end_line_col ((before ++ p) ++ m ++ b) (blen ((before ++ p) ++ m)) =
  (fst (line_col ((before ++ p) ++ m ++ b) (blen (before ++ p))), 1 + N.of_nat (List.length p) + N.of_nat (List.length m)).
Proof.
  intros H1 H2 H3 H4. destruct (column before p (m ++ b) H1 H2) as (l & E). rewrite E. destruct (column before (p ++ m) b H1) as (l2 & E2); [rewrite in_app_iff; tauto|].
  assert (Ey : (before ++ p) ++ m ++ b = (before ++ p ++ m) ++ b) by (rewrite <- !app_assoc; reflexivity).
  assert (Ez : (before ++ p) ++ m = before ++ p ++ m) by (rewrite <- !app_assoc; reflexivity).
  assert (El : l2 = l).
  { rewrite line_col_fold' in E, E2. rewrite app_assoc, fold_left_app in E2. rewrite E in E2. rewrite fold_line in E2 by exact H3. injection E2 as E2 _. congruence. }
  unfold end_line_col. rewrite Ey, Ez, E2, El, app_length. destruct (N.eqb_spec (1 + N.of_nat (List.length p + List.length m)) 1).
  - destruct m; [congruence|]. cbn [List.length] in *. lia.
  - cbn [fst]. f_equal. lia.
Qed.

Theorem draw_span (msg a m b : str) : m ++ b <> [] \/ a = [] -> exists before q after bar num x more u : str,
  let p := line_before a in let inp := a ++ m ++ b in let at_ := line_col inp (blen a) in let en := end_line_col inp (blen (a ++ m)) in
  place inp before p q after (blen a) at_ /\ printed_if (starts_with_line_end m \/ ends_with_line_end m) (p ++ q) x /\ blank bar /\ numbered bar (fst at_) num /\
  draw inp (from_span msg inp (blen a, blen (a ++ m))) = Some (frame bar at_ num x more u msg) /\
  (~ In 10 m -> more = [] /\ (m = [] \/ exists q', q = m ++ q') /\
     (m <> [] -> ~ In 13 p -> (exists x', x = p ++ x') /\ exists ind mk, u = ind ++ mk /\ below p ind /\ mark (List.length m) mk)) /\
  (forall m1 m2, m = m1 ++ 10 :: m2 -> m2 <> [] -> ~ In 10 m2 -> exists q2 r2 num2 cl g : str,
     b = q2 ++ r2 /\ whole_line (m2 ++ q2) r2 /\ numbered bar (fst en) num2 /\ ((starts_with_line_end m \/ ends_with_line_end m) /\ cl = m2 ++ q2 \/ ~ (starts_with_line_end m \/ ends_with_line_end m) /\ visible (m2 ++ q2) cl) /\
     dots bar (fst at_) (fst en) g /\ more = g ++ num2 ++ s " | " ++ cl ++ [10]).
Proof.
  intros Hne. destruct (line_before_ok a) as (before & Ea & Hb & Hp). pose (p := line_before a). fold p in Ea, Hp.
  pose (at_ := line_col (a ++ m ++ b) (blen a)). pose (en := end_line_col (a ++ m ++ b) (blen (a ++ m))).
  assert (Hat : exists l, at_ = (l, 1 + N.of_nat (List.length p))).
  { destruct (column before p (m ++ b) Hb Hp) as (l & E). exists l. unfold at_. rewrite Ea at 1 2. exact E. }
  assert (Hen : ends_at (a ++ m) en) by (unfold en; rewrite app_assoc; apply end_line_col_at).
  pose proof (ends_snd _ _ Hen) as He2.
  assert (Hle : m <> [] -> fst at_ <= fst en).
  { intros Hm. destruct m as [|d m]; [congruence|]. assert (Hl : located_at a at_) by apply line_col_at. destruct (ends_after a d m at_ en Hl Hen); lia. }
  (* lines *)
  assert (exists q after R, m ++ b = q ++ after /\ whole_line q after /\
            span_lines (a ++ m ++ b) (blen a) (blen (a ++ m)) = match m ++ b with [] => [] | _ => (p ++ q) :: R end /\
            (~ In 10 m -> R = [] /\ (m = [] \/ exists q', q = m ++ q')) /\
            (forall m1 m2, m = m1 ++ 10 :: m2 -> m2 <> [] -> ~ In 10 m2 -> exists q2 r2, b = q2 ++ r2 /\ whole_line (m2 ++ q2) r2 /\ last_error R = Some (m2 ++ q2)))
    as (q & after & R & Emb & W & Els & R1 & R2).
  { destruct (m ++ b) as [|d t] eqn:E.
    - exists [], [], []. split; [reflexivity|]. split; [right; split; [intros []|reflexivity]|]. split; [|split].
      + unfold span_lines. rewrite rest_from_app. reflexivity.
      + intros _. split; [reflexivity|]. left. apply app_eq_nil in E. apply E.
      + intros m1 m2 ->. apply app_eq_nil in E as [E _]. destruct m1; discriminate.
    - destruct (lines_of_cons (m ++ b)) as (q & r & E1 & L & N0 & W); [rewrite E; discriminate|].
      exists q, r, (lines_until (lines_of r) (blen a + blen q) (blen (a ++ m))). rewrite <- E. split; [exact E1|]. split; [exact W|].
      assert (LU : lines_until (lines_of (m ++ b)) (blen a) (blen (a ++ m)) = q :: lines_until (lines_of r) (blen a + blen q) (blen (a ++ m))).
      { rewrite L. cbn [lines_until]. rewrite blen_app. destruct (N.ltb_spec (blen a + blen m) (blen a)); [lia|reflexivity]. }
      split; [|split].
      + unfold span_lines. rewrite rest_from_app, upto_app, LU. fold p. reflexivity.
      + intros H. destruct (until_one m b (blen a) H) as (q' & r' & _ & _ & U); [rewrite E; discriminate|]. rewrite blen_app in LU. rewrite LU in U. injection U as U1 U2.
        split; [rewrite blen_app; exact U2|]. right. exists q'. exact U1.
      + intros m1 m2 Em Hm2 H2. destruct (until_more m1 m2 b (blen a) H2 Hm2) as (q2 & r2 & F1 & F2 & U). exists q2, r2.
        split; [rewrite <- app_assoc in F1; apply app_inv_head in F1; exact F1|]. split; [exact F2|].
        assert (U' : lines_until (lines_of (m ++ b)) (blen a) (blen (a ++ m)) = lines_of (m1 ++ [10]) ++ [m2 ++ q2]) by (rewrite blen_app, Em, <- app_assoc; exact U).
        rewrite LU in U'.
        destruct (lines_of_cons (m1 ++ [10])) as (q0 & r0 & _ & L0 & _); [destruct m1; discriminate|]. rewrite L0 in U'. cbn [app] in U'. injection U' as _ U'. rewrite U'. apply last_error_app. }
  destruct Hat as (l & Eat). rewrite (surjective_pairing en) in Hle. rewrite Eat in Hle. cbn [fst] in Hle.
  pose (v := visible_in m). pose (x := if v then visualize (p ++ q) else no_line_ends (p ++ q)).
  pose (w := List.length (dec_of_N (N.max l (fst en)))).
  destruct (underline_some x (1 + N.of_nat (List.length p)) (snd en)) as (u & Eu); [lia|exact He2|].
  pose (cont := let ll := last_error R in if v then ll else option_map visualize ll).
  pose (gap := if 1 <? fst en - l then spaces w ++ s " | ..." ++ [10] else []).
  pose (more := match cont with Some cl => gap ++ padded w (dec_of_N (fst en)) ++ s " | " ++ cl ++ [10] | None => [] end).
  assert (Hcont : cont <> None -> m <> []).
  { intros H ->. apply H. unfold cont. destruct (R1 (fun K => K)) as [-> _]. destruct v; reflexivity. }
  assert (EX : excerpts (a ++ m ++ b) (from_span msg (a ++ m ++ b) (blen a, blen (a ++ m))) = (x, cont)).
  { assert (Em : skipn (List.length (upto (blen a) (a ++ m ++ b))) (upto (blen (a ++ m)) (a ++ m ++ b)) = m)
      by (rewrite upto_app, (app_assoc a m b), upto_app; apply skipn_len).
    unfold excerpts, from_span. cbn [sh_from sh_to fst snd]. rewrite Em, Els. fold v. unfold x, cont. destruct (m ++ b) as [|d t] eqn:E.
    - apply app_eq_nil in E as [E E0]. destruct (R1 ltac:(rewrite E; intros [])) as [-> _]. symmetry in Emb. apply app_eq_nil in Emb as [-> _].
      destruct Hne as [Hne|Hne]; [congruence|]. unfold p. rewrite Hne. destruct v; reflexivity.
    - destruct v; reflexivity. }
  exists before, q, after, (spaces w), (padded w (dec_of_N l)), x, more, u. cbv zeta. fold p at_ en. rewrite Eat. cbn [fst]. split; [|split; [|split; [|split; [|split; [|split]]]]].
  - split; [|split; [rewrite <- Ea; reflexivity|rewrite <- Ea, <- Eat; apply line_col_at]]. split; [|auto]. rewrite Emb, Ea, <- app_assoc. reflexivity.
  - apply excerpt_if, visible_in_iff.
  - apply blank_spaces.
  - apply numbered_ok. lia.
  - unfold draw. rewrite EX. unfold from_span. cbn [sh_from sh_to sh_start sh_end sh_message option_map fst snd]. fold at_ en. rewrite Eat.
    destruct en as [l' e]. cbn [option_map fst snd] in *. fold w. rewrite Eu. unfold more, frame. destruct cont as [cl|].
    + rewrite minus_ok by (apply Hle, Hcont; discriminate). cbn [option_map fst snd]. unfold gap, nl. f_equal. rewrite <- !app_assoc. reflexivity.
    + cbn [fst snd]. unfold nl. f_equal. rewrite <- !app_assoc. reflexivity.
  - intros H. destruct (R1 H) as [R0 Rq]. split; [unfold more, cont; rewrite R0; destruct v; reflexivity|]. split; [exact Rq|]. intros Hm H13.
    destruct (excerpt_prefix v p q Hp H13) as (x' & Ex). fold x in Ex. split; [eauto|].
    assert (Ee : snd en = 1 + N.of_nat (List.length p) + N.of_nat (List.length m)).
    { unfold en. rewrite Ea at 1 2. rewrite (end_col before p m b Hb Hp H Hm). reflexivity. }
    destruct (underline_mark p x' (List.length m) (1 + N.of_nat (List.length p)) (snd en) eq_refl) as (mk & Eu2 & Hmk); [destruct m; [congruence|cbn; lia]|exact Ee|].
    rewrite <- Ex, Eu in Eu2. injection Eu2 as ->. exists (blanks p), mk. split; [reflexivity|]. split; [apply below_ok|exact Hmk].
  - intros m1 m2 Em Hm2 H2. destruct (R2 m1 m2 Em Hm2 H2) as (q2 & r2 & F1 & F2 & F3).
    exists q2, r2, (padded w (dec_of_N (fst en))), (if v then m2 ++ q2 else visualize (m2 ++ q2)), gap. split; [exact F1|]. split; [exact F2|]. split; [apply numbered_ok; lia|]. split; [|split].
    + pose proof (visible_in_iff m) as V. fold v in V. destruct v; [left; split; [apply V|]; reflexivity|right; split; [|apply visible_ok]]. intros K. apply V in K. discriminate.
    + unfold gap. assert (l <= fst en) by (apply Hle; rewrite Em; destruct m1; discriminate). destruct (N.ltb_spec 1 (fst en - l)); [right|left]; (split; [lia|reflexivity]).
    + unfold more, cont. rewrite F3. destruct v; reflexivity.
Qed.

(** ** Errors *)
Lemma draw_some (msg a m b : str) : exists d, draw (a ++ m ++ b) (from_span msg (a ++ m ++ b) (blen a, blen (a ++ m))) = Some d.
Proof.
  assert (D : m ++ b <> [] \/ m ++ b = []) by (destruct (m ++ b); [right; reflexivity|left; discriminate]).
  destruct D as [D|D].
  - destruct (draw_span msg a m b (or_introl D)) as (before & q & after & bar & num & x & more & u & _ & _ & _ & _ & E & _). eauto.
  - assert (Hen : ends_at (a ++ m) (end_line_col (a ++ m ++ b) (blen (a ++ m)))) by (rewrite app_assoc; apply end_line_col_at). apply ends_snd in Hen.
    assert (Hat : located_at a (line_col (a ++ m ++ b) (blen a))) by apply line_col_at. apply located_snd in Hat.
    unfold draw, excerpts, from_span. cbn [sh_from sh_to sh_start sh_end sh_message fst snd].
    assert (El : span_lines (a ++ m ++ b) (blen a) (blen (a ++ m)) = []) by (unfold span_lines; rewrite rest_from_app, D; reflexivity).
    rewrite El. cbn [hd tl last_error rev].
    destruct (line_col (a ++ m ++ b) (blen a)) as [l c]. destruct (end_line_col (a ++ m ++ b) (blen (a ++ m))) as [l' e]. cbn [snd fst option_map] in *.
    destruct (visible_in (skipn (List.length (upto (blen a) (a ++ m ++ b))) (upto (blen (a ++ m)) (a ++ m ++ b))));
      (match goal with |- context [underline ?z c (Some e)] => destruct (underline_some z c e Hat Hen) as (u & ->) end); eauto.
Qed.
Lemma error_shape inp e sh : parse_dbml inp = Some (Err e) -> show_error inp e = Some sh ->
  (exists a b, inp = a ++ b /\ sh = from_pos (sh_message sh) inp (blen a) /\ e = ErGrammar) \/
  (exists a m b, inp = a ++ m ++ b /\ sh = from_span (sh_message sh) inp (blen a, blen (a ++ m))).
Proof.
  intros H E. pose proof (error_span _ _ H) as V.
  assert (G : forall m sp, valid_span inp sp -> sh = from_span m inp sp -> exists a x b, inp = a ++ x ++ b /\ sh = from_span (sh_message sh) inp (blen a, blen (a ++ x))).
  { intros m sp Hv Es. apply span_split in Hv as (a & x & b & E0 & E1 & E2). exists a, x, b. split; [exact E0|]. rewrite <- E1, <- E2, <- surjective_pairing. rewrite Es at 2. exact Es. }
  destruct e as [|rs sp|m sp|k sp]; cbn [show_error] in E.
  - left. destruct (grammar_error inp) as [rep|] eqn:Gr; [|discriminate]. destruct (report_located _ _ Gr) as (a & b & E0 & Ep). exists a, b. split; [exact E0|]. rewrite <- Ep. injection E as <-. auto.
  - destruct V.
  - right. eapply G; [apply V|]. injection E as <-. reflexivity.
  - right. eapply G; [exact V|]. injection E as <-. reflexivity.
Qed.
Theorem printed inp e : parse_dbml inp = Some (Err e) -> exists d, print_error inp e = Some d.
Proof.
  intros H. destruct (error_shown inp e H) as (sh & E). unfold print_error. rewrite E. destruct (error_shape inp e sh H E) as [(a & b & Ei & Es & _)|(a & m & b & Ei & Es)]; rewrite Es, Ei.
  - destruct (draw_pos (sh_message sh) a b) as (before & q & after & bar & num & x & u & _ & _ & _ & _ & D & _). eauto.
  - apply draw_some.
Qed.
Theorem printed_frame inp e sh : parse_dbml inp = Some (Err e) -> show_error inp e = Some sh ->
  exists before p q after bar num x more u : str,
    place inp before p q after (sh_from sh) (sh_start sh) /\ printed_line (p ++ q) x /\ blank bar /\ numbered bar (fst (sh_start sh)) num /\
    print_error inp e = Some (frame bar (sh_start sh) num x more u (sh_message sh)).
Proof.
  intros H E. unfold print_error. rewrite E. destruct (error_shape inp e sh H E) as [(a & b & Ei & Es & _)|(a & m & b & Ei & Es)].
  - destruct (draw_pos (sh_message sh) a b) as (before & q & after & bar & num & x & u & P1 & P2 & P3 & P4 & P5 & _). apply printed_if_line in P2. rewrite <- Ei, <- Es in P5.
    exists before, (line_before a), q, after, bar, num, x, [], u. rewrite Es. cbn [from_pos sh_from sh_start sh_message]. rewrite <- Es, P5, Ei. auto.
  - destruct (draw_span (sh_message sh) a m b) as (before & q & after & bar & num & x & more & u & P1 & P2 & P3 & P4 & P5 & _).
    { destruct (named_part inp e sh (blen (a ++ m)) H E) as [C|[C _]]; [rewrite Es; reflexivity|rewrite Es in C; cbn [from_span sh_from sh_to fst] in C..].
      - left. intros K. apply app_eq_nil in K as [-> _]. rewrite app_nil_r in C. lia.
      - right. destruct a as [|d a]; [reflexivity|]. cbn in C. pose proof (ulen_pos d). lia. }
    apply printed_if_line in P2. rewrite <- Ei, <- Es in P5.
    exists before, (line_before a), q, after, bar, num, x, more, u. rewrite Es. cbn [from_span sh_from sh_start sh_message fst]. rewrite <- Es, P5, Ei. auto.
Qed.
Theorem printed_grammar inp sh : parse_dbml inp = Some (Err ErGrammar) -> show_error inp ErGrammar = Some sh ->
  exists before p q after bar num x u : str,
    place inp before p q after (sh_from sh) (sh_start sh) /\ printed_if (starts_with_line_end q) (p ++ q) x /\ blank bar /\ numbered bar (fst (sh_start sh)) num /\
    print_error inp ErGrammar = Some (frame bar (sh_start sh) num x [] u (sh_message sh)) /\
    (~ In 13 p -> (exists x', x = p ++ x') /\ exists ind, u = ind ++ s "^---" /\ below p ind).
Proof.
  intros H E. unfold print_error. rewrite E. assert (T : sh_to sh = None) by (cbn [show_error] in E; destruct (grammar_error inp); [|discriminate]; injection E as <-; reflexivity).
  destruct (error_shape inp ErGrammar sh H E) as [(a & b & Ei & Es & _)|(a & m & b & Ei & Es)]; [|rewrite Es in T; discriminate].
  destruct (draw_pos (sh_message sh) a b) as (before & q & after & bar & num & x & u & P1 & P2 & P3 & P4 & P5 & P6). rewrite <- Ei, <- Es in P5.
  exists before, (line_before a), q, after, bar, num, x, u. rewrite Es. cbn [from_pos sh_from sh_start sh_message]. rewrite <- Es, P5, Ei. auto 10.
Qed.
Theorem printed_part inp e sh (a m b : str) : show_error inp e = Some sh -> inp = a ++ m ++ b -> sh_from sh = blen a -> sh_to sh = Some (blen (a ++ m)) -> m <> [] ->
  exists before p q after bar num x more u : str,
    place inp before p q after (sh_from sh) (sh_start sh) /\ printed_if (starts_with_line_end m \/ ends_with_line_end m) (p ++ q) x /\ blank bar /\ numbered bar (fst (sh_start sh)) num /\
    print_error inp e = Some (frame bar (sh_start sh) num x more u (sh_message sh)) /\
    (~ In 10 m -> more = [] /\ (exists q', q = m ++ q') /\
       (~ In 13 p -> (exists x', x = p ++ x') /\ exists ind mk, u = ind ++ mk /\ below p ind /\ mark (List.length m) mk)) /\
    (forall m1 m2 l c, m = m1 ++ 10 :: m2 -> m2 <> [] -> ~ In 10 m2 -> sh_end sh = Some (l, c) -> exists q2 r2 num2 cl g : str,
       b = q2 ++ r2 /\ whole_line (m2 ++ q2) r2 /\ numbered bar l num2 /\ ((starts_with_line_end m \/ ends_with_line_end m) /\ cl = m2 ++ q2 \/ ~ (starts_with_line_end m \/ ends_with_line_end m) /\ visible (m2 ++ q2) cl) /\
       dots bar (fst (sh_start sh)) l g /\ more = g ++ num2 ++ s " | " ++ cl ++ [10]).
Proof.
  intros E Ei Ef Et Hm. unfold print_error. rewrite E.
  assert (Es : sh = from_span (sh_message sh) inp (blen a, blen (a ++ m))).
  { assert (G : forall k sp, sh = from_span k inp sp -> sh = from_span (sh_message sh) inp (blen a, blen (a ++ m))).
    { intros k sp Es. rewrite Es in Ef, Et. cbn in Ef, Et. injection Et as Et. rewrite <- Ef, <- Et, <- surjective_pairing. rewrite Es at 2. exact Es. }
    destruct e as [|rs sp|k sp|k sp]; cbn [show_error] in E.
    - destruct (grammar_error inp); [|discriminate]. injection E as <-. discriminate.
    - eapply G. injection E as <-. reflexivity.
    - eapply G. injection E as <-. reflexivity.
    - eapply G. injection E as <-. reflexivity. }
  destruct (draw_span (sh_message sh) a m b) as (before & q & after & bar & num & x & more & u & P1 & P2 & P3 & P4 & P5 & P6 & P7).
  { left. destruct m; [congruence|discriminate]. }
  rewrite <- Ei, <- Es in P5. exists before, (line_before a), q, after, bar, num, x, more, u. rewrite Es. cbn [from_span sh_from sh_start sh_end sh_message fst snd].
  rewrite <- Es, P5, Ei. split; [exact P1|]. split; [exact P2|]. split; [exact P3|]. split; [exact P4|]. split; [reflexivity|]. split.
  - intros H. destruct (P6 H) as (Q1 & [Q2|Q2] & Q3); [congruence|]. split; [exact Q1|]. split; [exact Q2|]. apply Q3. exact Hm.
  - intros m1 m2 l c E1 E2 E3 E4. injection E4 as E4. specialize (P7 m1 m2 E1 E2 E3). rewrite E4 in P7. exact P7.
Qed.
