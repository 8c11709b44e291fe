(** * CrlfTrack: a grammar error in a text with Windows line ends. *)

From Verif Require Import LinesMain TrackShift EndsTrack PegFacts SynEval ShownOk DrawOk LocSound.
From Coq Require Import Lia.
From Verif Require Import Track Shown Draw DrawSpec Grammar Layout Lex Syntax Lines LineEnds.

Lemma cr_app (a b : str) : crlf (a ++ b) = crlf a ++ crlf b.
Proof. induction a as [|c a IH]; cbn [app crlf]; [reflexivity|]. destruct (c =? 10); cbn [app]; rewrite IH; reflexivity. Qed.
Lemma crlf_ends t : crlf t = ends_as [13; 10] [13] t.
Proof.
  induction t as [|c t IH]; [reflexivity|]. cbn [crlf ends_as]. rewrite IH. destruct (c =? 10); [reflexivity|]. destruct (N.eqb_spec c 13) as [->|]; reflexivity.
Qed.
Lemma crlf_break : breaks [13; 10] /\ breaks [13].
Proof. split; [exists 13, [10]; repeat split; [right; reflexivity|]; constructor; [unfold is_ws; auto|constructor]|exists 13, []; repeat split; [right; reflexivity|constructor]]. Qed.
Definition same_report (t : str) (r r' : option grammar_report) : Prop :=
  match r, r' with
  | None, None => True
  | Some p, Some p' => exists a b, t = a ++ b /\ rep_pos p = blen a /\ rep_pos p' = blen (crlf a) /\ rep_positives p' = rep_positives p /\ rep_negatives p' = rep_negatives p
  | _, _ => False
  end.
Theorem report_crlf t : same_report t (grammar_error t) (grammar_error (crlf t)).
Proof.
  pose proof (report_ends [13; 10] [13] (proj1 crlf_break) (proj2 crlf_break) t) as H. rewrite crlf_ends. unfold EndsTrack.same_report in H. unfold same_report.
  destruct (grammar_error t), (grammar_error (ends_as [13; 10] [13] t)); try exact H. destruct H as (a & b & H). exists a, b. rewrite crlf_ends. exact H.
Qed.
Lemma blen_pos (x : str) : x <> [] -> 0 < blen x.
Proof. destruct x as [|c x]; [congruence|]. intros _. cbn [blen]. pose proof (PegFacts.ulen_pos c). lia. Qed.

(** ** Shown *)
Lemma cr_advance (a : str) : ~ In 13 a -> forall p, fold_left advance (crlf a) p = fold_left advance a p.
Proof.
  induction a as [|c a IH]; intros H p; [reflexivity|]. cbn [crlf]. cbn [In] in H. destruct (N.eqb_spec c 10) as [->|Hc]; cbn [fold_left].
  - rewrite IH by tauto. reflexivity.
  - apply IH. tauto.
Qed.
Lemma cr_line_col (a b : str) : ~ In 13 a -> line_col (crlf (a ++ b)) (blen (crlf a)) = line_col (a ++ b) (blen a).
Proof. intros H. unfold line_col. rewrite cr_app, !upto_app, !line_col_fold. apply cr_advance. exact H. Qed.
Lemma no_cr_app (a b : str) : ~ In 13 (a ++ b) -> ~ In 13 a /\ ~ In 13 b.
Proof. intros H. split; intros K; apply H, in_or_app; auto. Qed.
Theorem show_crlf t sh : ~ In 13 t -> show_error t ErGrammar = Some sh ->
  exists a b, t = a ++ b /\ sh_from sh = blen a /\ show_error (crlf t) ErGrammar = Some (mkShown (sh_message sh) (blen (crlf a)) None (sh_start sh) None).
Proof.
  intros H S. cbn [show_error] in S |- *. pose proof (report_crlf t) as R. destruct (grammar_error t) as [p|]; [|discriminate]. destruct (grammar_error (crlf t)) as [p'|]; [|contradiction].
  destruct R as (a & b & E & E1 & E2 & E3 & E4). exists a, b. injection S as <-. unfold from_pos. cbn [sh_from sh_message sh_start]. rewrite E1, E2, E3, E4.
  split; [exact E|]. split; [reflexivity|]. subst t. rewrite cr_line_col by apply (no_cr_app _ _ H). reflexivity.
Qed.

(** ** Printed *)
Lemma cr_after_lf (a : str) : ~ In 13 a -> forall y, after_lf y (crlf a) = after_lf y a.
Proof.
  induction a as [|c a IH]; intros H y; [reflexivity|]. cbn [In] in H. cbn [crlf]. destruct (N.eqb_spec c 10) as [->|Hc].
  - cbn [after_lf N.eqb Pos.eqb]. apply IH. tauto.
  - cbn [after_lf]. destruct (N.eqb_spec c 10); [contradiction|]. apply IH. tauto.
Qed.
Lemma cr_first_line (b : str) : no_line_ends (hd [] (lines_of (crlf b))) = no_line_ends (hd [] (lines_of b)).
Proof.
  induction b as [|c b IH]; [reflexivity|]. cbn [crlf]. destruct (N.eqb_spec c 10) as [->|Hc]; [reflexivity|].
  cbn [lines_of]. destruct (N.eqb_spec c 10); [contradiction|]. destruct (lines_of (crlf b)) as [|l ls], (lines_of b) as [|l' ls']; cbn [hd] in *; unfold no_line_ends in *; cbn [filter] in *; rewrite ?IH, <- ?IH; reflexivity.
Qed.
Lemma cr_one_line (x b : str) : no_line_ends (x ++ hd [] (lines_of (crlf b))) = no_line_ends (x ++ hd [] (lines_of b)).
Proof. unfold no_line_ends. rewrite !filter_app. f_equal. apply cr_first_line. Qed.
Lemma visible_crlf (b : str) : visible_at (crlf b) = visible_at b.
Proof. destruct b as [|c b]; [reflexivity|]. cbn [crlf]. destruct (N.eqb_spec c 10) as [->|Hc]; reflexivity. Qed.
Theorem print_crlf t sh : ~ In 13 t -> show_error t ErGrammar = Some sh -> (forall b, skipn (List.length (upto (sh_from sh) t)) t <> 10 :: b) ->
  print_error (crlf t) ErGrammar = print_error t ErGrammar.
Proof.
  intros H S Hb. destruct (show_crlf t sh H S) as (a & b & E & Ef & S'). unfold print_error. rewrite S, S'.
  cbn [show_error] in S. destruct (grammar_error t) as [p|]; [|discriminate]. injection S as <-. unfold from_pos in *. cbn [sh_from sh_message sh_start] in *. rewrite Ef in *. clear Ef S'. subst t.
  rewrite upto_app, skipn_app, Nat.sub_diag, skipn_all in Hb. cbn [skipn app] in Hb. destruct (no_cr_app _ _ H) as [Ha Hn].
  unfold draw, excerpts. cbn [sh_from sh_to sh_start sh_end sh_message option_map]. unfold line_of. rewrite cr_app, !upto_app, !rest_from_app, visible_crlf.
  assert (V : visible_at b = false).
  { destruct b as [|c b]; [reflexivity|]. cbn [visible_at]. unfold line_end_char. destruct (N.eqb_spec c 10) as [->|Hc]; [exfalso; apply (Hb b); reflexivity|]. destruct (N.eqb_spec c 13) as [->|]; [exfalso; apply Hn; left; reflexivity|reflexivity]. }
  rewrite V. unfold line_before. rewrite (cr_after_lf a Ha), (cr_one_line (after_lf [] a) b). reflexivity.
Qed.

(** At a line end, which is printed visibly, there is one more sign. *)
Lemma visualize_plain (x : str) : ~ In 10 x -> ~ In 13 x -> visualize x = x.
Proof.
  induction x as [|c x IH]; intros H1 H2; [reflexivity|]. cbn [In] in *. unfold visualize in *. cbn [map]. rewrite IH by tauto.
  destruct (N.eqb_spec c 13); [tauto|]. destruct (N.eqb_spec c 10); [tauto|]. reflexivity.
Qed.
Lemma visualize_end (p e : str) : ~ In 10 p -> ~ In 13 p -> visualize (p ++ e) = p ++ visualize e.
Proof. intros H1 H2. unfold visualize. rewrite map_app. f_equal. apply (visualize_plain p H1 H2). Qed.
Theorem print_crlf_end a b : ~ In 13 (a ++ 10 :: b) -> (exists sh, show_error (a ++ 10 :: b) ErGrammar = Some sh /\ sh_from sh = blen a) ->
  exists x y, print_error (a ++ 10 :: b) ErGrammar = Some (x ++ 9226 :: y) /\ print_error (crlf (a ++ 10 :: b)) ErGrammar = Some (x ++ 9229 :: 9226 :: y).
Proof.
  intros H (sh & S & Ef). destruct (show_crlf _ sh H S) as (a' & b' & E & Ef' & S'). unfold print_error. rewrite S, S'.
  assert (a' = a).
  { destruct (prefix_cases _ _ _ _ E) as [(x & ->)|(x & ->)]; rewrite Ef in Ef'; rewrite blen_app in Ef'; destruct x as [|c x]; rewrite ?app_nil_r; try reflexivity; pose proof (blen_pos (c :: x) ltac:(discriminate)); lia. }
  subst a'. clear E Ef' b' S'. cbn [show_error] in S. destruct (grammar_error _) as [p|]; [|discriminate]. injection S as <-. unfold from_pos in *. cbn [sh_from sh_message sh_start] in *. rewrite Ef in *. clear Ef.
  destruct (no_cr_app _ _ H) as [Ha _]. unfold draw, excerpts. cbn [sh_from sh_to sh_start sh_end sh_message option_map]. unfold line_of. rewrite cr_app, !upto_app, !rest_from_app.
  change (crlf (10 :: b)) with (13 :: 10 :: crlf b). change (visible_at (13 :: 10 :: crlf b)) with true. change (visible_at (10 :: b)) with true. cbv iota.
  change (hd [] (lines_of (13 :: 10 :: crlf b))) with [13; 10]. change (hd [] (lines_of (10 :: b))) with [10].
  unfold line_before. rewrite (cr_after_lf a Ha). fold (line_before a). destruct (line_before_ok a) as (before & Ea & Hb & Hp).
  assert (Hp' : ~ In 13 (line_before a)) by (intros K; apply Ha; rewrite Ea; apply in_or_app; auto).
  rewrite !visualize_end by assumption. change (visualize [13; 10]) with [9229; 9226]. change (visualize [10]) with [9226].
  destruct (DrawOk.column before (line_before a) (10 :: b) Hb Hp) as (l & Ec). rewrite <- Ea in Ec. match goal with |- context [line_col ?x ?y] => replace (line_col x y) with (l, 1 + N.of_nat (Datatypes.length (line_before a))) by (symmetry; exact Ec) end.
  rewrite !(underline_caret (line_before a) _ _ eq_refl). rewrite <- !app_assoc. cbn [app].
  match goal with |- exists x y, Some (?a1 ++ ?a2 ++ ?a3 ++ ?a4 ++ ?a5 ++ ?a6 ++ ?a7 ++ ?a8 ++ ?a9 ++ ?a10 ++ ?a11 ++ ?a12 ++ 9226 :: ?r) = _ /\ _ =>
    exists (a1 ++ a2 ++ a3 ++ a4 ++ a5 ++ a6 ++ a7 ++ a8 ++ a9 ++ a10 ++ a11 ++ a12), r end.
  rewrite <- !app_assoc. split; reflexivity.
Qed.
Theorem print_crlf_at a b : ~ In 13 (a ++ b) -> (exists sh, show_error (a ++ b) ErGrammar = Some sh /\ sh_from sh = blen a) ->
  ~ starts_with_line_end b -> print_error (crlf (a ++ b)) ErGrammar = print_error (a ++ b) ErGrammar.
Proof.
  intros H (sh & S & Ef) Hb. apply (print_crlf (a ++ b) sh H S). intros b' E. apply Hb. rewrite Ef, upto_app, skipn_app, Nat.sub_diag, skipn_all in E. cbn [skipn app] in E.
  exists 10, b'. auto.
Qed.
