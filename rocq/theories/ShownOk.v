(** * ShownOk: messages, lines and columns of errors. *)

From Verif Require Import Shown ShownSpec TrackFacts ParseFacts ParseFacts2 CheckFacts SpansOk PegFacts MessageOk MessageSpec Samples.
From Verif Require Import Err Parser Api AstSpec.
From Coq Require Import Lia.

(** ** Lines and columns *)
Lemma ulen_pos c : 0 < ulen c.
Proof. unfold ulen. repeat match goal with |- context [if ?b then _ else _] => destruct b end; lia. Qed.
Lemma upto_app a b : upto (blen a) (a ++ b) = a.
Proof.
  induction a as [|c a IH]; cbn [blen app].
  - destruct b; reflexivity.
  - cbn [upto]. pose proof (ulen_pos c). destruct (N.eqb_spec (ulen c + blen a) 0); [lia|]. replace (ulen c + blen a - ulen c) with (blen a) by lia. rewrite IH. reflexivity.
Qed.
(** One more character. *)
Definition advance (p : N * N) (c : char) : N * N := if c =? 10 then (fst p + 1, 1) else (fst p, snd p + 1).
Lemma line_col_fold a : forall l c, line_col_from a l c = fold_left advance a (l, c).
Proof.
  assert (G : forall n a, (List.length a <= n)%nat -> forall l c, line_col_from a l c = fold_left advance a (l, c)).
  { induction n as [|n IH]; intros [|x a'] Hn l c; try reflexivity; [cbn in Hn; lia|]. cbn [List.length] in Hn. cbn [line_col_from fold_left].
    destruct (N.eqb_spec x 13) as [->|E1].
    - destruct a' as [|d r]; [reflexivity|]. cbn [List.length] in Hn. destruct (N.eqb_spec d 10) as [->|E2].
      + rewrite IH by lia. reflexivity.
      + rewrite IH by (cbn; lia). reflexivity.
    - unfold advance at 2. cbn [fst snd]. destruct (x =? 10); apply IH; lia. }
  intros l c. apply (G (List.length a)). lia.
Qed.
Lemma located_advance a p c : located_at a p -> located_at (a ++ [c]) (advance p c).
Proof.
  intros (ls & y & -> & Hl & Hy & ->). unfold advance. cbn [fst snd]. destruct (N.eqb_spec c 10) as [->|E].
  - exists (ls ++ [y]), []. split; [rewrite map_app, concat_app; cbn; rewrite !app_nil_r, app_assoc; reflexivity|]. split; [apply Forall_app; auto|]. split; [intros []|].
    rewrite app_length. cbn [List.length]. f_equal. lia.
  - exists ls, (y ++ [c]). split; [rewrite app_assoc; reflexivity|]. split; [exact Hl|]. split; [rewrite in_app_iff; cbn; intuition congruence|]. rewrite app_length. cbn [List.length]. f_equal; lia.
Qed.
Lemma located_fold a : located_at a (fold_left advance a (1, 1)).
Proof.
  induction a as [|c a IH] using rev_ind; [exists [], []; repeat split; auto|]. rewrite fold_left_app. cbn [fold_left]. apply located_advance. exact IH.
Qed.
Lemma line_col_at a b : located_at a (line_col (a ++ b) (blen a)).
Proof. unfold line_col. rewrite upto_app, line_col_fold. apply located_fold. Qed.

Lemma no10_unique x y r r' : ~ In 10 x -> ~ In 10 y -> x ++ 10 :: r = y ++ 10 :: r' -> x = y /\ r = r'.
Proof.
  revert y. induction x as [|c x IH]; intros [|d y] Hx Hy E; cbn in *.
  - injection E as E. auto.
  - injection E as E _. subst d. exfalso. apply Hy. auto.
  - injection E as E _. subst c. exfalso. apply Hx. auto.
  - injection E as <- E. apply IH in E; [|intuition..]. destruct E as [<- <-]. auto.
Qed.
Lemma located_fun a p q : located_at a p -> located_at a q -> p = q.
Proof.
  intros (ls & y & -> & Hl & Hy & ->) (ls' & y' & E & Hl' & Hy' & ->).
  assert (G : ls = ls' /\ y = y').
  { revert ls' Hl' E. induction Hl as [|x ls Hx Hl IH]; intros ls' Hl' E.
    - destruct Hl' as [|x' ls' Hx' Hl']; [cbn in E; auto|]. cbn in E. exfalso. apply Hy. rewrite E. rewrite !in_app_iff. left. left. right. left. reflexivity.
    - destruct Hl' as [|x' ls' Hx' Hl']; cbn in E.
      + exfalso. apply Hy'. rewrite <- E. rewrite !in_app_iff. left. left. right. left. reflexivity.
      + rewrite <- !app_assoc in E. cbn [app] in E. apply no10_unique in E as [-> E]; auto. destruct (IH _ Hl' E) as [-> ->]. auto. }
  destruct G as [-> ->]. reflexivity.
Qed.
Lemma advance_after p c : not_after p (advance p c).
Proof. unfold not_after, advance. destruct p as [l k]. cbn. destruct (c =? 10); cbn; lia. Qed.
Lemma not_after_trans p q r : not_after p q -> not_after q r -> not_after p r.
Proof. unfold not_after. lia. Qed.
Lemma advance_strict p c : p <> advance p c.
Proof. unfold advance. destruct p as [l k]. cbn. destruct (c =? 10); intros E; injection E; lia. Qed.
Lemma fold_after x : forall p, not_after p (fold_left advance x p).
Proof.
  induction x as [|c x IH]; intros p; cbn [fold_left]; [unfold not_after; lia|]. eapply not_after_trans; [apply advance_after|apply IH].
Qed.
Lemma located_order a x p q : located_at a p -> located_at (a ++ x) q -> not_after p q.
Proof.
  intros Hp Hq. rewrite (located_fun _ _ _ Hp (located_fold a)), (located_fun _ _ _ Hq (located_fold (a ++ x))).
  rewrite fold_left_app. apply fold_after.
Qed.
(** Different places have different lines or columns. *)
Lemma located_strict a c x p q : located_at a p -> located_at (a ++ c :: x) q -> p <> q.
Proof.
  intros Hp Hq. rewrite (located_fun _ _ _ Hp (located_fold a)), (located_fun _ _ _ Hq (located_fold (a ++ c :: x))).
  rewrite fold_left_app. cbn [fold_left]. set (o := fold_left advance a (1, 1)). pose proof (fold_after x (advance o c)) as H. intros E. rewrite <- E in H.
  pose proof (advance_after o c) as H2. pose proof (advance_strict o c) as H3. destruct o as [l k], (advance (l, k) c) as [l' k']. unfold not_after in *. cbn in *. apply H3. f_equal; lia.
Qed.
Lemma prefix_cases {A} (a b a' b' : list A) : a ++ b = a' ++ b' -> (exists x, a' = a ++ x) \/ (exists x, a = a' ++ x).
Proof.
  revert a'. induction a as [|c a IH]; intros a' E; [left; exists a'; reflexivity|]. destruct a' as [|d a']; [right; exists (c :: a); reflexivity|].
  cbn in E. injection E as <- E. destruct (IH _ E) as [(x & ->)|(x & ->)]; [left|right]; exists x; reflexivity.
Qed.
Theorem located_unique a b a' b' p : a ++ b = a' ++ b' -> located_at a p -> located_at a' p -> a = a'.
Proof.
  intros E H H'. destruct (prefix_cases _ _ _ _ E) as [([|c x] & ->)|([|c x] & ->)].
  - rewrite app_nil_r. reflexivity.
  - destruct (located_strict _ _ _ _ _ H H'). reflexivity.
  - rewrite app_nil_r. reflexivity.
  - destruct (located_strict _ _ _ _ _ H' H). reflexivity.
Qed.

Lemma located_col1 a l : located_at a (l, 1) -> a = [] \/ exists a', a = a' ++ [10].
Proof.
  intros (ls & y & -> & _ & _ & E). assert (E2 : 1 = 1 + N.of_nat (List.length y)) by (apply (f_equal snd) in E; exact E). assert (y = []) as -> by (destruct y; [reflexivity|cbn [List.length] in E2; lia]). rewrite app_nil_r.
  destruct ls as [|x ls] using rev_ind; [left; reflexivity|right]. rewrite map_app, concat_app. cbn. rewrite app_nil_r, app_assoc. eexists. reflexivity.
Qed.
Lemma end_line_col_at a b : ends_at a (end_line_col (a ++ b) (blen a)).
Proof.
  unfold end_line_col. pose proof (line_col_at a b) as H. destruct (line_col (a ++ b) (blen a)) as [l c]. destruct (N.eqb_spec c 1) as [->|Hc]; [|left; split; [exact H|exact Hc]].
  destruct (located_col1 _ _ H) as [->|(a' & ->)].
  - right. right. split; [reflexivity|]. assert (Eu : upto 0 b = []) by (destruct b; reflexivity). unfold line_col, back. cbn [app blen]. rewrite Eu. cbn [removelast blen]. rewrite Eu. reflexivity.
  - right. left. unfold back. rewrite upto_app, removelast_last. rewrite <- app_assoc. match goal with |- context [line_col ?x ?y] => destruct (line_col x y) as [l' c'] eqn:El end.
    assert (H' : located_at a' (l', c')) by (rewrite <- El; apply line_col_at). exists a', l', c'. split; [reflexivity|]. split; [exact H'|reflexivity].
Qed.
Lemma ends_after a d x p q : located_at a p -> ends_at (a ++ d :: x) q -> not_after p q.
Proof.
  intros Hp [[H _]|[(a' & l & c & E & H & ->)|[E ->]]].
  - eapply located_order; eassumption.
  - destruct x as [|d' x _] using rev_ind.
    + apply app_inj_tail in E as [<- _]. rewrite (located_fun _ _ _ Hp H). unfold not_after. cbn. lia.
    + change (a ++ d :: x ++ [d']) with (a ++ (d :: x) ++ [d']) in E. rewrite app_assoc in E. apply app_inj_tail in E as [<- _].
      eapply not_after_trans; [eapply located_order; eassumption|]. unfold not_after. cbn. lia.
  - apply app_eq_nil in E as [_ E]. discriminate.
Qed.

(** ** Messages of the grammar *)
Definition sep (c : char) : bool := (c =? 32) || (c =? 44).
(** The words of a text: what stands between blanks and commas. *)
Fixpoint words (w : str) (x : str) : list str :=
  match x with
  | [] => match w with [] => [] | _ => [w] end
  | c :: r => if sep c then match w with [] => words [] r | _ => w :: words [] r end else words (w ++ [c]) r
  end.
Lemma words_word w : forall v r, forallb (fun c => negb (sep c)) w = true -> words v (w ++ r) = words (v ++ w) r.
Proof.
  induction w as [|c w IH]; intros v r H; cbn [app]; [rewrite app_nil_r; reflexivity|]. cbn [forallb] in H. apply andb_prop in H as [Hc H]. cbn [words].
  destruct (sep c); [discriminate|]. rewrite IH by exact H. rewrite <- app_assoc. reflexivity.
Qed.
Definition is_word (w : str) : bool := forallb (fun c => negb (sep c)) w && negb (str_eqb w []).
Lemma words_first w r : is_word w = true -> words [] (w ++ 32 :: r) = w :: words [] r /\ words [] (w ++ 44 :: r) = w :: words [] r /\ words [] w = [w].
Proof.
  intros H. apply andb_prop in H as [H Hn]. rewrite !words_word by exact H. cbn [app words]. destruct w as [|c w]; [discriminate|]. cbn [sep N.eqb]. split; [reflexivity|]. split; [reflexivity|].
  rewrite <- (app_nil_r (c :: w)) at 1. rewrite words_word by exact H. reflexivity.
Qed.
Lemma name_word r : is_word (rule_name r) = true.
Proof. destruct r; vm_compute; reflexivity. Qed.
Lemma name_inj a b : rule_name a = rule_name b -> a = b.
Proof.
  intros H. assert (E : exists l, (forall b, In b l) /\ NoDup (map rule_name l)).
  { exists [R_EOI; R_single_line_comment; R_multi_line_comment; R_double_quoted_value; R_double_quoted_string; R_single_quoted_value; R_single_quoted_string;
      R_backquoted_quoted_value; R_backquoted_quoted_string; R_triple_quoted_value; R_triple_quoted_string; R_var; R_spaced_var; R_ident; R_property; R_attribute; R_block_settings;
      R_string_value; R_integer; R_decimal; R_number_value; R_boolean_value; R_hex_value; R_value; R_decl_ident; R_relation; R_rel_settings; R_ref_composition; R_ref_ident; R_ref_inline;
      R_ref_stmt; R_ref_short; R_ref_block; R_ref_decl; R_note_short; R_note_block; R_note_decl; R_indexes_settings; R_indexes_ident; R_indexes_multi; R_indexes_single; R_indexes_block;
      R_indexes_decl; R_enum_settings; R_enum_value; R_enum_block; R_enum_decl; R_col_attribute; R_col_settings; R_col_type_arg; R_col_type_array; R_col_type_unquoted; R_col_type_quoted;
      R_col_type; R_table_col; R_table_block; R_table_alias; R_table_decl; R_table_group_block; R_table_group_decl; R_project_block; R_project_decl; R_schema]. split.
    - intros b0. destruct b0; cbn; tauto.
    - vm_compute. repeat (constructor; [cbn; intuition discriminate|]). constructor. }
  destruct E as (l & Hin & Hn). pose proof (Hin a) as Ha. pose proof (Hin b) as Hb. clear -H Hn Ha Hb. induction l as [|x l IH]; [destruct Ha|].
  cbn [map] in Hn. apply NoDup_cons_iff in Hn as [Hx Hn]. destruct Ha as [->|Ha], Hb as [->|Hb]; auto.
  - exfalso. apply Hx. rewrite H. apply in_map. exact Hb.
  - exfalso. apply Hx. rewrite <- H. apply in_map. exact Ha.
Qed.
Lemma words_comma l x : words [] (comma_join (map rule_name l) ++ s ", or " ++ rule_name x) = map rule_name l ++ [s "or"; rule_name x].
Proof.
  assert (W : words [] (rule_name x) = [rule_name x]) by (apply (proj2 (proj2 (words_first _ [] (name_word x))))).
  assert (T : words [] (s ", or " ++ rule_name x) = [s "or"; rule_name x]) by (cbn; f_equal; apply W).
  induction l as [|a l IH]; [exact T|]. cbn [map comma_join]. destruct (map rule_name l) as [|b l'] eqn:El.
  - change (s ", or " ++ rule_name x) with (44 :: s " or " ++ rule_name x). rewrite (proj1 (proj2 (words_first _ _ (name_word a)))). cbn. f_equal. f_equal. apply W.
  - rewrite <- app_assoc. change (s ", " ++ comma_join (b :: l')) with (44 :: 32 :: comma_join (b :: l')). cbn [app].
    rewrite (proj1 (proj2 (words_first _ _ (name_word a)))). cbn [words sep N.eqb]. cbn [app] in IH. f_equal. exact IH.
Qed.
Lemma words_enumerate l : l <> [] -> filter (fun w => negb (str_eqb w (s "or"))) (words [] (enumerate l)) = map rule_name l.
Proof.
  assert (Nor : forall a, negb (str_eqb (rule_name a) (s "or")) = true) by (intros a; destruct a; vm_compute; reflexivity).
  assert (Fl : forall l, filter (fun w => negb (str_eqb w (s "or"))) (map rule_name l) = map rule_name l).
  { clear l. induction l as [|a l IH]; [reflexivity|]. cbn [map filter]. rewrite Nor, IH. reflexivity. }
  intros Hl. unfold enumerate. destruct l as [|a [|b [|c l]]]; [congruence| | |].
  - rewrite (proj2 (proj2 (words_first _ [] (name_word a)))). cbn [filter map]. rewrite Nor. reflexivity.
  - change (s " or " ++ rule_name b) with (32 :: s "or " ++ rule_name b). rewrite (proj1 (words_first _ _ (name_word a))).
    change (s "or " ++ rule_name b) with (s "or" ++ 32 :: rule_name b). rewrite (proj1 (words_first (s "or") _ eq_refl)).
    rewrite (proj2 (proj2 (words_first _ [] (name_word b)))). cbn [filter map]. rewrite !Nor. reflexivity.
  - set (m := a :: b :: c :: l) in *. rewrite words_comma. rewrite filter_app, Fl. cbn [filter]. change (negb (str_eqb (s "or") (s "or"))) with false. cbn iota. rewrite Nor.
    change [rule_name (last m R_EOI)] with (map rule_name [last m R_EOI]). rewrite <- map_app. f_equal. symmetry. apply app_removelast_last. discriminate.
Qed.
Lemma enumerate_inj l l' : l <> [] -> l' <> [] -> enumerate l = enumerate l' -> l = l'.
Proof.
  intros H H' E. apply (f_equal (fun x => filter (fun w => negb (str_eqb w (s "or"))) (words [] x))) in E. rewrite !words_enumerate in E by assumption.
  clear H H'. revert l' E. induction l as [|a l IH]; intros [|b l'] E; try discriminate; [reflexivity|]. cbn [map] in E. injection E as E1 E2. apply name_inj in E1. f_equal; auto.
Qed.
Lemma parsing_message_inj l l' : l <> [] -> l' <> [] -> parsing_message l [] = parsing_message l' [] -> l = l'.
Proof.
  intros H H' E. destruct l as [|a l]; [congruence|]. destruct l' as [|a' l']; [congruence|]. unfold parsing_message in E.
  apply app_inv_head in E. apply enumerate_inj; assumption.
Qed.

(** ** Errors of [parse_dbml] *)
Lemma shows_valid inp sp d : shows inp sp d -> valid_span inp sp.
Proof.
  unfold shows. intros H. apply slice_inv in H as (a & b & -> & E1 & E2). unfold valid_span. rewrite <- E2, <- E1. split; [lia|]. split.
  - apply boundary_split. exists a, (d ++ b). auto.
  - apply boundary_split. exists (a ++ d), b. rewrite blen_app, app_assoc. auto.
Qed.
Lemma error_span inp e : parse_dbml inp = Some (Err e) ->
  match e with ErGrammar => True | ErRules _ _ => False | ErMsg m sp => parse_error_true inp m sp /\ valid_span inp sp | ErSem _ sp => valid_span inp sp end.
Proof.
  intros H. destruct (unchecked_cases inp) as [K|[(m & sp & K & T)|(x & K & _)]].
  - apply checked_err in K. rewrite H in K. injection K as ->. exact Logic.I.
  - apply checked_err in K. rewrite H in K. injection K as ->. split; [exact T|].
    destruct T as [(_ & d & Hd & _)|[(a & l & Ha & <- & _)|(a & l & w & Ha & <- & _)]]; [eapply shows_valid; exact Hd|apply Ha..].
  - pose proof (checked_sem _ _ K) as S. rewrite H in S. destruct e; try contradiction. apply S.
Qed.
Lemma span_split inp sp : valid_span inp sp -> exists a m b, inp = a ++ m ++ b /\ fst sp = blen a /\ snd sp = blen (a ++ m).
Proof.
  intros (H1 & H2 & H3). apply boundary_split in H2 as (a & b & -> & E). apply boundary_split in H3 as (a' & b' & E' & E2).
  destruct (prefix_cases _ _ _ _ E') as [(x & ->)|(x & ->)].
  - rewrite <- app_assoc in E'. apply app_inv_head in E'. exists a, x, b'. rewrite E'. auto.
  - assert (x = []) as -> by (destruct x as [|c x]; [reflexivity|]; rewrite blen_app in E; cbn in E; pose proof (ulen_pos c); lia).
    rewrite app_nil_r in *. exists a', [], b. rewrite app_nil_r. auto.
Qed.

Theorem error_shown inp e : parse_dbml inp = Some (Err e) -> exists sh, show_error inp e = Some sh.
Proof.
  intros H. destruct e; cbn [show_error]; eauto. destruct (proj1 (reported inp) H) as (rep & ->). eauto.
Qed.
Theorem error_start inp e sh : parse_dbml inp = Some (Err e) -> show_error inp e = Some sh ->
  exists a b, inp = a ++ b /\ sh_from sh = blen a /\ located_at a (sh_start sh).
Proof.
  intros H E. pose proof (error_span _ _ H) as V. destruct e as [|rs sp|m sp|k sp]; cbn [show_error] in E.
  - destruct (grammar_error inp) as [rep|] eqn:G; [|discriminate]. injection E as <-. destruct (report_located _ _ G) as (a & b & -> & Ep). exists a, b. split; [reflexivity|]. cbn. split; [exact Ep|].
    rewrite Ep. apply line_col_at.
  - destruct V.
  - injection E as <-. destruct V as [_ V]. apply span_split in V as (a & x & b & -> & E1 & E2). exists a, (x ++ b). split; [reflexivity|]. cbn. split; [exact E1|]. rewrite E1. apply line_col_at.
  - injection E as <-. apply span_split in V as (a & x & b & -> & E1 & E2). exists a, (x ++ b). split; [reflexivity|]. cbn. split; [exact E1|]. rewrite E1. apply line_col_at.
Qed.
Theorem error_end inp e sh to : parse_dbml inp = Some (Err e) -> show_error inp e = Some sh -> sh_to sh = Some to ->
  exists a b p, inp = a ++ b /\ to = blen a /\ sh_end sh = Some p /\ ends_at a p /\ sh_from sh <= to /\ (sh_from sh < to -> not_after (sh_start sh) p).
Proof.
  intros H E T. pose proof (error_span _ _ H) as V.
  assert (G : forall m sp, valid_span inp sp -> sh = from_span m inp sp -> exists a b p, inp = a ++ b /\ to = blen a /\ sh_end sh = Some p /\ ends_at a p /\ sh_from sh <= to /\ (sh_from sh < to -> not_after (sh_start sh) p)).
  { intros m sp Hv ->. cbn in T. injection T as <-. apply span_split in Hv as (a & x & b & -> & E1 & E2). exists (a ++ x), b. eexists. split; [apply app_assoc|]. split; [exact E2|]. split; [reflexivity|].
    cbn. rewrite E2, E1. rewrite app_assoc. pose proof (end_line_col_at (a ++ x) b) as He. split; [exact He|]. rewrite blen_app. split; [lia|]. intros Hlt.
    rewrite <- app_assoc. pose proof (line_col_at a (x ++ b)) as Hs. destruct x as [|d x]; [cbn in Hlt; lia|]. eapply ends_after; [exact Hs|]. rewrite <- blen_app. rewrite <- app_assoc in He. exact He. }
  destruct e as [|rs sp|m sp|k sp]; cbn [show_error] in E.
  - destruct (grammar_error inp); [|discriminate]. injection E as <-. discriminate.
  - destruct V.
  - injection E as <-. eapply G; [apply V|reflexivity].
  - injection E as <-. eapply G; [exact V|reflexivity].
Qed.
Theorem shown_kind inp inp' e e' sh sh' : parse_dbml inp = Some (Err e) -> parse_dbml inp' = Some (Err e') ->
  show_error inp e = Some sh -> show_error inp' e' = Some sh' -> sh_message sh = sh_message sh' ->
  match e, e' with
  | ErSem a _, ErSem b _ => same_kind a b
  | ErMsg a _, ErMsg b _ => a = b
  | ErGrammar, ErGrammar => exists rep rep', grammar_error inp = Some rep /\ grammar_error inp' = Some rep' /\ rep_positives rep = rep_positives rep'
  | _, _ => False
  end.
Proof.
  intros H H' S S' E.
  assert (Gr : forall i rep, grammar_error i = Some rep -> exists r, parsing_message (rep_positives rep) (rep_negatives rep) = 101 :: r).
  { intros i rep G. apply report_ok in G. rewrite (rt_neg _ _ G). pose proof (rt_some _ _ G) as N0. destruct (rep_positives rep); [congruence|]. eexists. reflexivity. }
  assert (Ms : forall i m sp, parse_error_true i m sp -> exists c r, m = c :: r /\ c <> 101 /\ (c < 65 \/ 90 < c)).
  { intros i m sp T. destruct T as [[-> _]|[(a & l & _ & _ & _ & _ & _ & ->)|(a & l & w & _ & _ & _ & _ & _ & _ & ->)]]; eexists _, _; (split; [reflexivity|]); cbn; lia. }
  pose proof (error_span _ _ H) as V. pose proof (error_span _ _ H') as V'.
  destruct e as [|rs sp|m sp|a sp], e' as [|rs' sp'|m' sp'|b sp']; try contradiction; cbn [show_error] in S, S'.
  - destruct (grammar_error inp) as [rep|] eqn:G; [|discriminate]. destruct (grammar_error inp') as [rep'|] eqn:G'; [|discriminate]. injection S as <-. injection S' as <-. cbn in E.
    exists rep, rep'. split; [reflexivity|]. split; [reflexivity|]. apply report_ok in G. apply report_ok in G'. rewrite (rt_neg _ _ G), (rt_neg _ _ G') in E.
    apply parsing_message_inj in E; [exact E|apply (rt_some _ _ G)|apply (rt_some _ _ G')].
  - destruct (grammar_error inp) as [rep|] eqn:G; [|discriminate]. injection S as <-. injection S' as <-. cbn in E. destruct (Gr _ _ G) as (r & Er). destruct (Ms _ _ _ (proj1 V')) as (c & r' & Ec & Hc & _). rewrite Er, Ec in E. injection E as E _. congruence.
  - destruct (grammar_error inp) as [rep|] eqn:G; [|discriminate]. injection S as <-. injection S' as <-. cbn in E. destruct (Gr _ _ G) as (r & Er). destruct (first_letter b) as (c & r' & Ec & Hc). rewrite Er, Ec in E. injection E as E _. lia.
  - destruct (grammar_error inp') as [rep|] eqn:G; [|discriminate]. injection S as <-. injection S' as <-. cbn in E. destruct (Gr _ _ G) as (r & Er). destruct (Ms _ _ _ (proj1 V)) as (c & r' & Ec & Hc & _). rewrite Er, Ec in E. injection E as E _. congruence.
  - injection S as <-. injection S' as <-. exact E.
  - injection S as <-. injection S' as <-. cbn in E. destruct (Ms _ _ _ (proj1 V)) as (c & r' & Ec & _ & Hc). destruct (first_letter b) as (c' & r & Ec' & Hc'). rewrite Ec, Ec' in E. injection E as E _. lia.
  - destruct (grammar_error inp') as [rep|] eqn:G; [|discriminate]. injection S as <-. injection S' as <-. cbn in E. destruct (Gr _ _ G) as (r & Er). destruct (first_letter a) as (c & r' & Ec & Hc). rewrite Er, Ec in E. injection E as E _. lia.
  - injection S as <-. injection S' as <-. cbn in E. destruct (Ms _ _ _ (proj1 V')) as (c & r' & Ec & _ & Hc). destruct (first_letter a) as (c' & r & Ec' & Hc'). rewrite Ec, Ec' in E. injection E as E _. lia.
  - injection S as <-. injection S' as <-. cbn in E. apply message_kind. exact E.
Qed.
