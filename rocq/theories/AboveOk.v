(** * AboveOk: reports move down with their text ([AboveSpec]). *)

From Verif Require Import PegFacts ShownOk MessageOk DrawOk TrackFacts TrackShift Respan RespanOk ParseFacts CompleteOk.
From Coq Require Import Lia.
From Verif Require Import Err Api AstSpec.
From Verif Require Import Shown ShownSpec Layout Syntax AboveSpec.

Lemma upto_app2 (g a : str) (b : str) : upto (blen g + blen a) (g ++ a ++ b) = g ++ a.
Proof. rewrite <- blen_app, app_assoc. apply upto_app. Qed.
Lemma advance_down n p c : advance (down n p) c = down n (advance p c).
Proof. destruct p as [l k]. unfold advance, down. cbn [fst snd]. destruct (c =? 10); cbn [fst snd]; f_equal; lia. Qed.
Lemma fold_down n (a : str) : forall p, fold_left advance a (down n p) = down n (fold_left advance a p).
Proof. induction a as [|c a IH]; intros p; cbn [fold_left]; [reflexivity|]. rewrite advance_down. apply IH. Qed.
Lemma lines_snoc (g : str) (c : char) : lines (g ++ [c]) = lines g + (if c =? 10 then 1 else 0).
Proof. unfold lines. rewrite filter_app, app_length, Nat2N.inj_add. f_equal. cbn [filter]. destruct (c =? 10); reflexivity. Qed.
Lemma fold_lines (g : str) : forall p, fst (fold_left advance g p) = fst p + lines g.
Proof.
  induction g as [|c g IH] using rev_ind; intros p; [cbn; unfold lines; cbn; lia|]. rewrite fold_left_app, lines_snoc. cbn [fold_left]. specialize (IH p).
  destruct (fold_left advance g p) as [l k]. cbn [fst] in IH. unfold advance. destruct (c =? 10); cbn [fst]; lia.
Qed.
Lemma whole_fold (g : str) : whole_lines g -> fold_left advance g (1, 1) = down (lines g) (1, 1).
Proof.
  intros H. pose proof (fold_start g H) as E. pose proof (fold_lines g (1, 1)) as F. destruct (fold_left advance g (1, 1)) as [l k]. cbn [fst snd] in *. subst. reflexivity.
Qed.
Lemma line_col_below (g a b : str) : whole_lines g -> line_col (g ++ a ++ b) (blen a + blen g) = down (lines g) (line_col (a ++ b) (blen a)).
Proof.
  intros H. rewrite N.add_comm, <- blen_app, app_assoc, !line_col_fold', fold_left_app, (whole_fold g H). apply fold_down.
Qed.
Lemma end_below (g a b : str) : whole_lines g -> a <> [] -> end_line_col (g ++ a ++ b) (blen a + blen g) = down (lines g) (end_line_col (a ++ b) (blen a)).
Proof.
  intros H Ha. unfold end_line_col. rewrite (line_col_below g a b H). unfold back.
  rewrite (N.add_comm (blen a)), upto_app2, upto_app. destruct (exists_last Ha) as (a' & c & ->).
  assert (B1 : blen (removelast (g ++ a' ++ [c])) = blen a' + blen g) by (rewrite app_assoc, removelast_last, blen_app; apply N.add_comm).
  rewrite B1, removelast_last.
  pose proof (line_col_below g a' ([c] ++ b) H) as L. rewrite <- !app_assoc in *. rewrite L.
  destruct (line_col (a' ++ [c] ++ b) (blen (a' ++ [c]))) as [l k]. cbn [down fst snd].
  destruct (k =? 1); [|reflexivity]. destruct (line_col (a' ++ [c] ++ b) (blen a')) as [l' k']. reflexivity.
Qed.

Lemma span_below (g t m : str) (sp sp' : range) : whole_lines g -> valid_span t sp -> snd sp <> 0 -> sp' = (fst sp + blen g, snd sp + blen g) ->
  moved_below g (from_span m t sp) (from_span m (g ++ t) sp').
Proof.
  intros Hg V Hs ->. destruct (span_split _ _ V) as (a & x & b & -> & E1 & E2).
  assert (Ha : a ++ x <> []) by (intros E; rewrite E in E2; cbn in E2; congruence).
  constructor; unfold from_span; cbn [sh_from sh_to sh_start sh_end fst snd option_map]; try reflexivity.
  - rewrite E1. apply line_col_below. exact Hg.
  - rewrite E2. f_equal. pose proof (end_below g (a ++ x) b Hg Ha) as K. rewrite <- !app_assoc in K. exact K.
Qed.
Lemma error_after_span g t e : ~ of_whole_text e ->
  match e with ErGrammar => error_after g t e = ErGrammar | ErRules r sp => error_after g t e = ErRules r (further (blen g) sp)
  | ErMsg m sp => error_after g t e = ErMsg m (further (blen g) sp) | ErSem k sp => error_after g t e = ErSem k (further (blen g) sp) end.
Proof. intros H. destruct e as [| | |k sp]; try reflexivity. destruct k; try reflexivity; destruct H; exact Logic.I. Qed.

Theorem parse_below g t e : gap g -> parse_dbml t = Some (Err e) -> parse_dbml (g ++ t) = Some (Err (error_after g t e)).
Proof. intros Hg E. rewrite checked_after by exact Hg. rewrite E. reflexivity. Qed.
Theorem moves_below g t e sh : gap g -> whole_lines g -> parse_dbml t = Some (Err e) -> show_error t e = Some sh -> ~ of_whole_text e -> sh_to sh <> Some 0 ->
  exists sh', show_error (g ++ t) (error_after g t e) = Some sh' /\ moved_below g sh sh' /\ (sh_message sh' = sh_message sh \/ (e = ErGrammar /\ sh_from sh = 0)).
Proof.
  intros Hg Hw E S Ht Hz. pose proof (error_span t e E) as V. pose proof (error_after_span g t e Ht) as A.
  destruct e as [|rs sp|m sp|k sp]; rewrite A; cbn [show_error] in *.
  - destruct (grammar_error t) as [rep|] eqn:Gr; [|discriminate]. injection S as <-.
    destruct (report_after g t rep Hg Gr) as (rep' & Gr' & Ep & Er). rewrite Gr'. eexists. split; [reflexivity|].
    destruct (report_located _ _ Gr) as (a & b & Et & Ea). split.
    + constructor; unfold from_pos; cbn [sh_from sh_to sh_start sh_end option_map]; [exact Ep|reflexivity| |reflexivity].
      rewrite Ep, Ea, Et. apply line_col_below. exact Hw.
    + unfold from_pos. cbn [sh_from sh_message]. destruct (N.eq_dec (rep_pos rep) 0) as [Z|Z]; [right; auto|left]. destruct Er as [-> ->]; [lia|reflexivity].
  - contradiction.
  - injection S as <-. cbn [from_span sh_to] in Hz. assert (Hs : snd sp <> 0) by congruence. eexists. split; [reflexivity|]. split; [|left; reflexivity].
    apply span_below; [exact Hw|apply V|exact Hs|]. unfold further. destruct (N.eqb_spec (snd sp) 0); [contradiction|reflexivity].
  - injection S as <-. cbn [from_span sh_to] in Hz. assert (Hs : snd sp <> 0) by congruence. eexists. split; [reflexivity|]. split; [|left; reflexivity].
    apply span_below; [exact Hw|apply V|exact Hs|]. unfold further. destruct (N.eqb_spec (snd sp) 0); [contradiction|reflexivity].
Qed.
Lemma line_col_0 (x y : str) : line_col x 0 = line_col y 0.
Proof. pose proof (line_col_fold' [] x) as K1. pose proof (line_col_fold' [] y) as K2. cbn [app blen] in K1, K2. congruence. Qed.
Theorem whole_below g t e sh : gap g -> whole_lines g -> t <> [] -> parse_dbml t = Some (Err e) -> show_error t e = Some sh -> of_whole_text e ->
  exists sh', show_error (g ++ t) (error_after g t e) = Some sh' /\ sh_message sh' = sh_message sh /\ sh_from sh' = sh_from sh /\ sh_start sh' = sh_start sh /\
    sh_to sh' = option_map (fun b => b + blen g) (sh_to sh) /\ sh_end sh' = option_map (down (lines g)) (sh_end sh).
Proof.
  intros Hg Hw Hn E S Ht. pose proof (parse_below g t e Hg E) as E'.
  assert (K : exists k, (k = DuplicateProjectSetting \/ k = ProjectSettingNotFound) /\ e = ErSem k (0, blen t)).
  { pose proof (parse_below [] t e gap_nil E) as E0. cbn [app] in E0. rewrite E in E0.
    destruct e as [| | |k sp]; try contradiction. destruct k; try contradiction; cbn [error_after app] in E0; injection E0 as ->; eexists; (split; [|reflexivity]); auto. }
  destruct K as (k & Hk & ->). assert (Ek : error_after g t (ErSem k (0, blen t)) = ErSem k (0, blen (g ++ t))) by (destruct Hk as [-> | ->]; reflexivity).
  rewrite Ek. cbn [show_error] in S |- *. injection S as <-. eexists. split; [reflexivity|].
  cbn [from_span sh_message sh_from sh_start sh_to sh_end fst snd option_map]. split; [reflexivity|]. split; [reflexivity|]. split; [apply line_col_0|].
  rewrite blen_app, N.add_comm. split; [reflexivity|]. f_equal.
  pose proof (end_below g t [] Hw Hn) as L. rewrite app_nil_r in L. exact L.
Qed.
Theorem nowhere_below g t e sh : gap g -> parse_dbml t = Some (Err e) -> show_error t e = Some sh -> ~ of_whole_text e -> sh_to sh = Some 0 ->
  error_after g t e = e /\ show_error (g ++ t) e = Some sh.
Proof.
  intros Hg E S Ht Hz. pose proof (error_span t e E) as V. pose proof (error_after_span g t e Ht) as A.
  assert (L : forall x y : str, line_col x 0 = line_col y 0).
  { intros x y. pose proof (line_col_fold' [] x) as K1. pose proof (line_col_fold' [] y) as K2. cbn [app blen] in K1, K2. congruence. }
  assert (B : forall x, back x 0 = 0) by (intros x; unfold back; pose proof (upto_app [] x) as U; cbn [app blen] in U; rewrite U; reflexivity).
  assert (W : forall m sp, valid_span t sp -> snd sp = 0 -> further (blen g) sp = sp /\ from_span m (g ++ t) sp = from_span m t sp).
  { intros m [x y] [Hle _] Hy. cbn [snd fst] in *. subst y. assert (x = 0) as -> by lia. split; [reflexivity|].
    unfold from_span. cbn [fst snd]. unfold end_line_col. rewrite !B, (L (g ++ t) t). reflexivity. }
  destruct e as [|rs sp|m sp|k sp]; cbn [show_error] in *.
  - destruct (grammar_error t); [|discriminate]. injection S as <-. discriminate.
  - contradiction.
  - injection S as <-. injection Hz as Hz. destruct (W m sp (proj2 V) Hz) as [W1 W2]. rewrite A, W1, W2. auto.
  - injection S as <-. injection Hz as Hz. destruct (W (message k) sp V Hz) as [W1 W2]. rewrite A, W1, W2. auto.
Qed.

(** ** The print *)
From Verif Require Import Draw DrawSpec.

Lemma after_lf_app (a b : str) : forall y : str, after_lf y (a ++ b) = after_lf (after_lf y a) b.
Proof. induction a as [|c a IH]; intros y; cbn [app after_lf]; [reflexivity|]. destruct (c =? 10); apply IH. Qed.
Lemma line_before_below (g a : str) : whole_lines g -> line_before (g ++ a) = line_before a.
Proof. intros [-> | (x & ->)]; [reflexivity|]. unfold line_before. rewrite !after_lf_app. reflexivity. Qed.
Lemma skip_prefix (a b : str) : skipn (List.length a) (a ++ b) = b.
Proof. induction a as [|c a IH]; [reflexivity|exact IH]. Qed.
Lemma rest_below (g a b : str) : rest_from (blen a + blen g) (g ++ a ++ b) = rest_from (blen a) (a ++ b).
Proof.
  unfold rest_from. rewrite (N.add_comm (blen a)), upto_app2, upto_app, app_assoc.
  rewrite !skip_prefix. reflexivity.
Qed.
Lemma lines_until_below d ls : forall pos stop, lines_until ls (pos + d) (stop + d) = lines_until ls pos stop.
Proof.
  induction ls as [|l ls IH]; intros pos stop; cbn [lines_until]; [reflexivity|]. rewrite ltb_shift. destruct (stop <? pos); [reflexivity|].
  f_equal. replace (pos + d + blen l) with (pos + blen l + d) by lia. apply IH.
Qed.
Lemma upto_below (g a b : str) : upto (blen a + blen g) (g ++ a ++ b) = g ++ a.
Proof. rewrite N.add_comm. apply upto_app2. Qed.
Lemma excerpts_below (g t : str) sh sh' : whole_lines g -> moved_below g sh sh' -> (exists a b, t = a ++ b /\ sh_from sh = blen a) ->
  (forall to, sh_to sh = Some to -> exists a m b, t = a ++ m ++ b /\ sh_from sh = blen a /\ to = blen (a ++ m)) -> excerpts (g ++ t) sh' = excerpts t sh.
Proof.
  intros Hw M (a & b & -> & Ef) Hto. unfold excerpts. rewrite (mb_to _ _ _ M), (mb_from _ _ _ M), Ef. destruct (sh_to sh) as [to|]; cbn [option_map].
  - destruct (Hto to eq_refl) as (a' & m & b' & Et & Ea & ->). rewrite Ef in Ea. rewrite Ea, Et.
    assert (S : span_lines (g ++ a' ++ m ++ b') (blen a' + blen g) (blen (a' ++ m) + blen g) = span_lines (a' ++ m ++ b') (blen a') (blen (a' ++ m))).
    { unfold span_lines. rewrite rest_below, lines_until_below, upto_below, (upto_app a'), (line_before_below g a' Hw). reflexivity. }
    rewrite S, upto_below, (upto_app a').
    pose proof (upto_below g (a' ++ m) b') as U1. pose proof (upto_app (a' ++ m) b') as U2. rewrite <- app_assoc in U1, U2. rewrite U1, U2.
    rewrite (app_assoc g), !skip_prefix. reflexivity.
  - unfold line_of. rewrite rest_below, upto_below, upto_app, (line_before_below g a Hw). reflexivity.
Qed.
Lemma draw_picture inp sh x : draw inp sh = Some x -> exists marks, underline (fst (excerpts inp sh)) (snd (sh_start sh)) (option_map snd (sh_end sh)) = Some marks /\
  x = picture (sh_start sh) (fst (excerpts inp sh)) (match sh_end sh, snd (excerpts inp sh) with Some (l', _), Some cl => Some (l', cl) | _, _ => None end)
        (match sh_end sh with Some (l', _) => l' | None => fst (sh_start sh) end) marks (sh_message sh) /\
  (match sh_end sh with Some (l', _) => match snd (excerpts inp sh) with Some _ => fst (sh_start sh) <= l' | None => True end | None => True end).
Proof.
  unfold draw. destruct (excerpts inp sh) as [line cont]. destruct (sh_start sh) as [l c]. cbn [fst snd].
  destruct (underline line c (option_map snd (sh_end sh))) as [u|]; [|discriminate]. destruct (sh_end sh) as [[l' c']|].
  - destruct cont as [cl|].
    + unfold minus. destruct (N.ltb_spec l' l) as [L|L]; [discriminate|]. cbn [option_map]. intros [= <-]. exists u. split; [reflexivity|]. split; [|exact L].
      unfold picture, frame, spaces, padded, spaces, nl. cbn [fst snd].
      assert (E : (1 <? l' - l) = (l + 1 <? l')) by (destruct (N.ltb_spec 1 (l' - l)), (N.ltb_spec (l + 1) l'); try reflexivity; lia). rewrite E.
      repeat (rewrite <- ?app_assoc; cbn [app]). destruct (l + 1 <? l'); repeat (rewrite <- ?app_assoc; cbn [app]); reflexivity.
    + intros [= <-]. exists u. split; [reflexivity|]. split; [|exact Logic.I]. unfold picture, frame, spaces, padded, spaces, nl. cbn [fst snd]. repeat (rewrite <- ?app_assoc; cbn [app]). reflexivity.
  - intros [= <-]. exists u. split; [reflexivity|]. split; [|exact Logic.I]. unfold picture, frame, spaces, padded, spaces, nl. cbn [fst snd]. rewrite N.max_id.
    destruct cont; repeat (rewrite <- ?app_assoc; cbn [app]); reflexivity.
Qed.
Lemma draw_total inp sh u : underline (fst (excerpts inp sh)) (snd (sh_start sh)) (option_map snd (sh_end sh)) = Some u ->
  (match sh_end sh with Some (l', _) => match snd (excerpts inp sh) with Some _ => fst (sh_start sh) <= l' | None => True end | None => True end) -> exists x, draw inp sh = Some x.
Proof.
  unfold draw. destruct (excerpts inp sh) as [line cont]. destruct (sh_start sh) as [l c]. cbn [fst snd]. intros -> H.
  destruct (sh_end sh) as [[l' c']|]; [|destruct cont; eauto]. destruct cont as [cl|]; [|eauto]. unfold minus. destruct (N.ltb_spec l' l); [lia|]. cbn. eauto.
Qed.
Theorem draw_below (g t : str) sh sh' x : whole_lines g -> moved_below g sh sh' -> (exists a b, t = a ++ b /\ sh_from sh = blen a) ->
  (forall to, sh_to sh = Some to -> exists a m b, t = a ++ m ++ b /\ sh_from sh = blen a /\ to = blen (a ++ m)) -> draw t sh = Some x ->
  exists excerpt last el marks, x = picture (sh_start sh) excerpt last el marks (sh_message sh) /\
    draw (g ++ t) sh' = Some (picture (sh_start sh') excerpt (last_down (lines g) last) (el + lines g) marks (sh_message sh')).
Proof.
  intros Hw M H1 H2 D. pose proof (excerpts_below g t sh sh' Hw M H1 H2) as X.
  destruct (draw_picture _ _ _ D) as (u & U & -> & L).
  assert (U' : underline (fst (excerpts (g ++ t) sh')) (snd (sh_start sh')) (option_map snd (sh_end sh')) = Some u).
  { rewrite X, (mb_start _ _ _ M), (mb_end _ _ _ M). cbn [down snd]. rewrite <- U. f_equal. destruct (sh_end sh) as [[l' c']|]; reflexivity. }
  assert (L' : match sh_end sh' with Some (l', _) => match snd (excerpts (g ++ t) sh') with Some _ => fst (sh_start sh') <= l' | None => True end | None => True end).
  { rewrite X, (mb_start _ _ _ M), (mb_end _ _ _ M). destruct (sh_end sh) as [[l' c']|]; [|exact Logic.I]. cbn [option_map down fst snd]. destruct (snd (excerpts t sh)); [|exact Logic.I]. lia. }
  destruct (draw_total _ _ _ U' L') as (x' & D'). destruct (draw_picture _ _ _ D') as (u' & U2 & Ex & _). rewrite U' in U2. injection U2 as <-.
  do 4 eexists. split; [reflexivity|]. rewrite D', Ex, X. rewrite (mb_end _ _ _ M), (mb_start _ _ _ M).
  destruct (sh_end sh) as [[l' c']|]; cbn [option_map down fst snd]; [|reflexivity]. destruct (snd (excerpts t sh)); reflexivity.
Qed.
Theorem print_below g t e sh x : gap g -> whole_lines g -> parse_dbml t = Some (Err e) -> show_error t e = Some sh -> print_error t e = Some x -> ~ of_whole_text e -> sh_to sh <> Some 0 ->
  exists sh' excerpt last el marks, show_error (g ++ t) (error_after g t e) = Some sh' /\ moved_below g sh sh' /\
    x = picture (sh_start sh) excerpt last el marks (sh_message sh) /\
    print_error (g ++ t) (error_after g t e) = Some (picture (sh_start sh') excerpt (last_down (lines g) last) (el + lines g) marks (sh_message sh')).
Proof.
  intros Hg Hw E S P Ht Hz. destruct (moves_below g t e sh Hg Hw E S Ht Hz) as (sh' & S' & M & _). unfold print_error in *. rewrite S in P. rewrite S'.
  destruct (draw_below g t sh sh' x Hw M) as (ex & last & el & marks & Ex & D').
  - destruct (error_start _ _ _ E S) as (a & b & Et & Ef & _). exists a, b. auto.
  - intros to Hto. pose proof (error_span t e E) as V.
    assert (K : forall msg sp, valid_span t sp -> sh = from_span msg t sp -> exists a m b, t = a ++ m ++ b /\ sh_from sh = blen a /\ to = blen (a ++ m)).
    { intros msg sp V' ->. cbn [from_span sh_to sh_from] in *. injection Hto as <-. destruct (span_split _ _ V') as (a & m & b & Et & E1 & E2). exists a, m, b. auto. }
    destruct e as [|rs sp|m sp|k sp]; cbn [show_error] in S.
    + destruct (grammar_error t); [|discriminate]. injection S as <-. discriminate.
    + contradiction.
    + injection S as <-. eapply K; [apply V|reflexivity].
    + injection S as <-. eapply K; [exact V|reflexivity].
  - exact P.
  - exists sh', ex, last, el, marks. auto.
Qed.

(** ** Declarations above *)
From Verif Require Import RespanJoinOk SynGrow FirmOk.
Lemma whole_snoc (t : str) : whole_lines (t ++ [10]).
Proof. right. eauto. Qed.
Theorem misfit_below t1 t2 x e sh p : comments_closed t1 \/ (forall a b, t2 <> a ++ s "*/" ++ b) ->
  parse_dbml_unchecked t1 = Some (Ok x) -> parse_dbml_unchecked t2 = Some (Err e) -> e <> ErGrammar -> show_error t2 e = Some sh -> print_error t2 e = Some p ->
  exists e' sh' excerpt last el marks, parse_dbml_unchecked (t1 ++ 10 :: t2) = Some (Err e') /\ parse_dbml (t1 ++ 10 :: t2) = Some (Err e') /\
    show_error (t1 ++ 10 :: t2) e' = Some sh' /\ moved_below (t1 ++ [10]) sh sh' /\ sh_message sh' = sh_message sh /\
    p = picture (sh_start sh) excerpt last el marks (sh_message sh) /\
    print_error (t1 ++ 10 :: t2) e' = Some (picture (sh_start sh') excerpt (last_down (lines t1 + 1) last) (el + (lines t1 + 1)) marks (sh_message sh)).
Proof.
  intros Hc H1 H2 He S P. pose proof (checked_err _ _ H2) as E2. pose proof (error_span t2 e E2) as V.
  assert (J : parse_dbml_unchecked (t1 ++ 10 :: t2) = Some (Err (error_after (t1 ++ [10]) t2 e))).
  { rewrite (unchecked_join t1 t2 (SynEval.fin t2) (Ok x) (Err e) Hc (SynEval.lay_of t2) H1 ltac:(discriminate) H2 ltac:(congruence)). reflexivity. }
  assert (K : exists m sp, e = ErMsg m sp).
  { destruct (unchecked_cases t2) as [K|[(m & sp & K & _)|(y & K & _)]]; rewrite K in H2; [injection H2 as <-; congruence|injection H2 as <-; eauto|discriminate]. }
  destruct K as (m & sp & ->). destruct V as [V1 V2].
  assert (Hs : snd sp <> 0).
  { destruct (named_part t2 _ _ (snd sp) E2 eq_refl eq_refl) as [L | (_ & _ & [-> | (k & L)])]; [cbn [from_span sh_from] in L; lia| |discriminate].
    exfalso. clear -H2. vm_compute in H2. discriminate. }
  assert (Ef : further (blen (t1 ++ [10])) sp = (fst sp + blen (t1 ++ [10]), snd sp + blen (t1 ++ [10]))) by (unfold further; destruct (N.eqb_spec (snd sp) 0); [contradiction|reflexivity]).
  cbn [error_after] in J. rewrite Ef in J.
  assert (Et : t1 ++ 10 :: t2 = (t1 ++ [10]) ++ t2) by (rewrite <- app_assoc; reflexivity).
  cbn [show_error] in S. injection S as <-.
  pose proof (span_below (t1 ++ [10]) t2 m sp _ (whole_snoc t1) V2 Hs eq_refl) as M. rewrite <- Et in M.
  unfold print_error in P. cbn [show_error] in P.
  destruct (span_split _ _ V2) as (a & y & b & E0 & E1 & E3).
  destruct (draw_below (t1 ++ [10]) t2 _ _ p (whole_snoc t1) (eq_ind _ (fun z => moved_below (t1 ++ [10]) (from_span m t2 sp) (from_span m z _)) M _ Et)) as (ex & last & el & marks & Ep & D).
  - exists a, (y ++ b). auto.
  - intros to. cbn [from_span sh_to]. intros [= <-]. exists a, y, b. auto.
  - exact P.
  - assert (El : lines (t1 ++ [10]) = lines t1 + 1) by (rewrite lines_snoc; reflexivity). rewrite El in D. rewrite <- Et in D.
    do 6 eexists. split; [exact J|]. split; [apply checked_err; exact J|]. split; [reflexivity|]. split; [exact M|]. split; [reflexivity|]. split; [exact Ep|]. exact D.
Qed.

(** ** Declarations below *)
Lemma line_col_more (a b y : str) : line_col ((a ++ b) ++ y) (blen a) = line_col (a ++ b) (blen a).
Proof. rewrite <- app_assoc, !line_col_fold'. reflexivity. Qed.
Lemma end_more (a b y : str) : end_line_col ((a ++ b) ++ y) (blen a) = end_line_col (a ++ b) (blen a).
Proof.
  unfold end_line_col. rewrite line_col_more. unfold back. rewrite upto_app. rewrite <- app_assoc, upto_app.
  destruct (line_col (a ++ b) (blen a)) as [l c]. destruct (c =? 1); [|reflexivity].
  destruct a as [|a0 a']; [cbn [removelast blen]; rewrite (line_col_0 ([] ++ b ++ y) ([] ++ b)); reflexivity|].
  destruct (exists_last (l := a0 :: a') ltac:(discriminate)) as (a2 & d & ->). rewrite removelast_last, <- !app_assoc.
  assert (E : line_col (a2 ++ [d] ++ b ++ y) (blen a2) = line_col (a2 ++ [d] ++ b) (blen a2)) by (rewrite !line_col_fold'; reflexivity).
  rewrite E. reflexivity.
Qed.
Lemma span_more (t y m : str) (sp : range) : valid_span t sp -> from_span m (t ++ y) sp = from_span m t sp.
Proof.
  intros V. destruct (span_split _ _ V) as (a & x & b & -> & E1 & E2). unfold from_span. rewrite E1, E2. f_equal; [apply line_col_more|].
  f_equal. pose proof (end_more (a ++ x) b y) as K. rewrite <- !app_assoc in *. exact K.
Qed.
Theorem misfit_above t1 t2 r2 e sh : comments_closed t1 \/ (forall a b, t2 <> a ++ s "*/" ++ b) ->
  parse_dbml_unchecked t1 = Some (Err e) -> e <> ErGrammar -> parse_dbml_unchecked t2 = Some r2 -> r2 <> Err ErGrammar -> show_error t1 e = Some sh ->
  parse_dbml_unchecked (t1 ++ 10 :: t2) = Some (Err e) /\ parse_dbml (t1 ++ 10 :: t2) = Some (Err e) /\ show_error (t1 ++ 10 :: t2) e = Some sh.
Proof.
  intros Hc H1 He H2 Hr S. pose proof (checked_err _ _ H1) as E1. pose proof (error_span t1 e E1) as V.
  assert (K : exists m sp, e = ErMsg m sp).
  { destruct (unchecked_cases t1) as [K|[(m & sp & K & _)|(y & K & _)]]; rewrite K in H1; [injection H1 as <-; congruence|injection H1 as <-; eauto|discriminate]. }
  destruct K as (m & sp & ->).
  assert (J : parse_dbml_unchecked (t1 ++ 10 :: t2) = Some (Err (ErMsg m sp))).
  { rewrite (unchecked_join t1 t2 (SynEval.fin t2) (Err (ErMsg m sp)) r2 Hc (SynEval.lay_of t2) H1 ltac:(congruence) H2 Hr).
    destruct r2 as [y|e2|]; try reflexivity. exfalso. destruct (unchecked_total t2) as (o & Eo & No). congruence. }
  split; [exact J|]. split; [apply checked_err; exact J|]. cbn [show_error] in *. injection S as <-. f_equal. apply span_more. apply V.
Qed.
