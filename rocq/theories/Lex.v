(** * Lex: closed forms for the lexical (atomic) part of the grammar. *)

From Verif Require Import Grammar PegFacts Layout.

Fixpoint takewhile (p : char -> bool) (x : str) : str :=
  match x with
  | c :: x' => if p c then c :: takewhile p x' else []
  | [] => []
  end.
Fixpoint dropwhile (p : char -> bool) (x : str) : str :=
  match x with
  | c :: x' => if p c then dropwhile p x' else x
  | [] => []
  end.
(** The prefix before the first suffix satisfying [q], and the rest. *)
Fixpoint before (q : str -> bool) (x : str) : str :=
  match x with
  | c :: x' => if q x then [] else c :: before q x'
  | [] => []
  end.
Fixpoint after (q : str -> bool) (x : str) : str :=
  match x with
  | c :: x' => if q x then x else after q x'
  | [] => []
  end.

Lemma takedrop p x : takewhile p x ++ dropwhile p x = x.
Proof. induction x as [|c x IH]; cbn [takewhile dropwhile]; [reflexivity|]. destruct (p c); cbn [app]; congruence. Qed.
Lemma before_after q x : before q x ++ after q x = x.
Proof. induction x as [|c x IH]; cbn [before after]; [reflexivity|]. destruct (q (c :: x)); cbn [app]; congruence. Qed.

Lemma takewhile_Forall p x : Forall (fun c => p c = true) (takewhile p x).
Proof. induction x as [|c x IH]; cbn [takewhile]; [constructor|]. destruct (p c) eqn:E; constructor; auto. Qed.

Definition stops (p : char -> bool) (x : str) : Prop :=
  match x with [] => True | c :: _ => p c = false end.

Lemma dropwhile_stops p x : stops p (dropwhile p x).
Proof. induction x as [|c x IH]; cbn [dropwhile stops]; [exact I|]. destruct (p c) eqn:E; cbn [stops]; auto. Qed.

Lemma takewhile_app p t r : Forall (fun c => p c = true) t -> stops p r -> takewhile p (t ++ r) = t.
Proof.
  induction 1 as [|c t Hc Ht IH]; intros Hr; cbn [app takewhile].
  - destruct r as [|d r]; [reflexivity|]. cbn [stops takewhile] in *. rewrite Hr. reflexivity.
  - rewrite Hc, IH; auto.
Qed.
Lemma dropwhile_app p t r : Forall (fun c => p c = true) t -> stops p r -> dropwhile p (t ++ r) = r.
Proof.
  induction 1 as [|c t Hc Ht IH]; intros Hr; cbn [app dropwhile].
  - destruct r as [|d r]; [reflexivity|]. cbn [stops dropwhile] in *. rewrite Hr. reflexivity.
  - rewrite Hc, IH; auto.
Qed.

(** One-character classes. *)
Definition char_class (e : pexp) (p : char -> bool) : Prop :=
  forall sk a off inp,
    eval sk e a off inp = match inp with
                          | c :: r => if p c then ROk [c] r [] else RFail
                          | [] => RFail
                          end.

Lemma class_range lo hi : char_class (ERange lo hi) (fun c => (lo <=? c) && (c <=? hi)).
Proof. intros sk a off inp. reflexivity. Qed.
Lemma class_char c0 : char_class (EStr [c0]) (fun c => c =? c0).
Proof.
  intros sk a off inp. cbn [eval strip_prefix]. destruct inp as [|c r]; [reflexivity|].
  rewrite N.eqb_sym. destruct (N.eqb_spec c c0) as [->|]; reflexivity.
Qed.
Lemma class_alt e1 e2 p1 p2 : char_class e1 p1 -> char_class e2 p2 ->
  char_class (EAlt e1 e2) (fun c => p1 c || p2 c).
Proof.
  intros H1 H2 sk a off inp. cbn [eval]. rewrite H1, H2. destruct inp as [|c r]; [reflexivity|].
  destruct (p1 c); reflexivity.
Qed.

Lemma repeat_class (f : N -> str -> pres) (p : char -> bool) : (forall (off : N) (inp : str), f off inp = match inp with
                          | c :: r => if p c then ROk [c] r [] else RFail
                          | [] => RFail
                          end) ->
  forall fuel off inp, (List.length inp < fuel)%nat ->
    repeat f fuel off inp = ROk (takewhile p inp) (dropwhile p inp) [].
Proof.
  intros Hf fuel. induction fuel as [|n IH]; intros off inp Hl; [lia|]. cbn [repeat]. rewrite Hf.
  destruct inp as [|c r]; cbn [takewhile dropwhile]; [reflexivity|].
  destruct (p c); [|reflexivity]. cbn [List.length] in Hl. rewrite IH by lia. reflexivity.
Qed.

Lemma eval_rep_class sk e p a off inp : char_class e p -> a <> NonAtomic ->
  eval sk (ERep e) a off inp = ROk (takewhile p inp) (dropwhile p inp) [].
Proof.
  intros Hc Ha. assert (Hr : repeat (eval sk e a) (fuel_for inp) off inp = ROk (takewhile p inp) (dropwhile p inp) [])
    by (apply repeat_class; [intros; apply Hc|unfold fuel_for; lia]).
  destruct a; [congruence| |]; exact Hr.
Qed.

(** "Until" loops [(!X ~ ANY)*]. *)
Definition tests (x : pexp) (q : str -> bool) : Prop :=
  forall sk a off inp, if q inp then exists t r ps, eval sk x a off inp = ROk t r ps
                       else eval sk x a off inp = RFail.

Lemma eval_rep_until sk x q a off inp : tests x q -> a <> NonAtomic ->
  eval sk (ERep (ESeq (ENot x) EAny)) a off inp = ROk (before q inp) (after q inp) [].
Proof.
  intros Hq Ha.
  assert (Hstep : forall off inp, eval sk (ESeq (ENot x) EAny) a off inp =
            match inp with
            | c :: r => if q inp then RFail else ROk [c] r []
            | [] => RFail
            end).
  { intros off0 inp0. cbn [eval]. specialize (Hq sk a off0 inp0). destruct (q inp0).
    - destruct Hq as (t & r & ps & ->). cbn [bind_res]. destruct inp0; reflexivity.
    - rewrite Hq. cbn [bind_res]. destruct a; [congruence| |]; cbn [do_skip app blen]; destruct inp0; reflexivity. }
  assert (Hr : forall fuel off inp, (List.length inp < fuel)%nat ->
     repeat (eval sk (ESeq (ENot x) EAny) a) fuel off inp = ROk (before q inp) (after q inp) []).
  { intros fuel. induction fuel as [|n IH]; intros off0 inp0 Hl; [lia|]. cbn [repeat].
    rewrite Hstep. destruct inp0 as [|c r]; [reflexivity|]. cbn [before after].
    destruct (q (c :: r)); [reflexivity|]. cbn [List.length] in Hl. rewrite IH by lia. reflexivity. }
  specialize (Hr (fuel_for inp) off inp ltac:(unfold fuel_for; lia)).
  destruct a; [congruence| |]; exact Hr.
Qed.

Definition starts (x : str) (inp : str) : bool :=
  match strip_prefix x inp with Some _ => true | None => false end.
Lemma tests_str x : tests (EStr x) (starts x).
Proof.
  intros sk a off inp. unfold starts. cbn [eval]. destruct (strip_prefix x inp); eauto.
Qed.
Lemma starts_true x inp : starts x inp = true <-> exists r, inp = x ++ r.
Proof.
  unfold starts. destruct (strip_prefix x inp) as [r|] eqn:E.
  - apply strip_prefix_spec in E. split; eauto.
  - pose proof (proj1 (strip_prefix_None x inp) E) as H. split; [discriminate|]. intros [r Hr]. exfalso. eapply H; eassumption.
Qed.
Lemma starts_false x inp : starts x inp = false <-> forall r, inp <> x ++ r.
Proof.
  unfold starts. destruct (strip_prefix x inp) as [r|] eqn:E.
  - apply strip_prefix_spec in E. split; [discriminate|]. intros H. exfalso. eapply H; eassumption.
  - pose proof (proj1 (strip_prefix_None x inp) E) as H. split; auto.
Qed.

(** Facts about [before]/[after]. *)
Lemma after_spec q x : after q x = [] \/ q (after q x) = true.
Proof.
  induction x as [|c x IH]; cbn [after]; [auto|]. destruct (q (c :: x)) eqn:E; auto.
Qed.
Lemma before_spec q x a b : before q x = a ++ b -> b <> [] -> q (b ++ after q x) = false.
Proof.
  revert a. induction x as [|c x IH]; intros a; cbn [before after].
  - intros H Hb. destruct a; destruct b; discriminate || congruence.
  - destruct (q (c :: x)) eqn:E.
    + intros H Hb. destruct a; destruct b; discriminate || congruence.
    + intros H Hb. destruct a as [|d a]; cbn [app] in H.
      * subst b. cbn [app]. rewrite before_after. exact E.
      * injection H as -> H. eapply IH; eassumption.
Qed.
Lemma before_after_intro q t r :
  (forall a b, t = a ++ b -> b <> [] -> q (b ++ r) = false) -> (r = [] \/ q r = true) ->
  before q (t ++ r) = t /\ after q (t ++ r) = r.
Proof.
  intros H Hr. induction t as [|c t IH]; cbn [app].
  - destruct r as [|d r]; [split; reflexivity|]. destruct Hr as [Hr|Hr]; [discriminate|].
    cbn [before after]. rewrite Hr. split; reflexivity.
  - cbn [before after]. pose proof (H [] (c :: t) eq_refl ltac:(discriminate)) as Hc. cbn [app] in Hc. rewrite Hc.
    destruct IH as [-> ->]; [|split; reflexivity].
    intros a b -> Hb. apply (H (c :: a) b); [reflexivity|exact Hb].
Qed.

(** *** Character classes of the grammar *)
Definition digit_b (c : char) : bool := (48 <=? c) && (c <=? 57).
Definition alpha_b (c : char) : bool := ((97 <=? c) && (c <=? 122)) || ((65 <=? c) && (c <=? 90)).
Definition alnum_b (c : char) : bool :=
  (((97 <=? c) && (c <=? 122)) || ((65 <=? c) && (c <=? 90))) || ((48 <=? c) && (c <=? 57)).
Definition word_b (c : char) : bool := alnum_b c || (c =? 95).
Definition hex_b (c : char) : bool :=
  (((48 <=? c) && (c <=? 57)) || ((97 <=? c) && (c <=? 102))) || ((65 <=? c) && (c <=? 70)).
Definition nl_b (c : char) : bool := (c =? 10) || (c =? 13).
Definition ws_b (c : char) : bool := (c =? 32) || (c =? 9) || nl_b c.

Lemma class_digit : char_class ASCII_DIGIT digit_b.
Proof. apply class_range. Qed.
Lemma class_alpha : char_class ASCII_ALPHA alpha_b.
Proof. apply class_alt; apply class_range. Qed.
Lemma class_alnum : char_class ASCII_ALPHANUMERIC alnum_b.
Proof. apply class_alt; [apply class_alt|]; apply class_range. Qed.
Lemma class_word : char_class (EAlt ASCII_ALPHANUMERIC (L "_")) word_b.
Proof. apply class_alt; [apply class_alnum|apply class_char]. Qed.
Lemma class_hex : char_class ASCII_HEX_DIGIT hex_b.
Proof. apply class_alt; [apply class_alt|]; apply class_range. Qed.

Lemma ws_b_spec c : ws_b c = true <-> is_ws c.
Proof.
  unfold ws_b, nl_b, is_ws. rewrite !orb_true_iff, !N.eqb_eq. tauto.
Qed.
Lemma nl_b_spec c : nl_b c = true <-> is_nl c.
Proof. unfold nl_b, is_nl. rewrite !orb_true_iff, !N.eqb_eq. tauto. Qed.
Lemma nl_b_false c : nl_b c = false <-> ~ is_nl c.
Proof. rewrite <- nl_b_spec. destruct (nl_b c); split; congruence. Qed.
Lemma ws_b_false c : ws_b c = false <-> ~ is_ws c.
Proof. rewrite <- ws_b_spec. destruct (ws_b c); split; congruence. Qed.

(** [NEWLINE] as a test. *)
Definition head_b (p : char -> bool) (x : str) : bool := match x with c :: _ => p c | [] => false end.
Lemma tests_newline : tests NEWLINE (head_b nl_b).
Proof.
  intros sk a off inp. unfold NEWLINE, nl_b, head_b. cbn [eval strip_prefix].
  destruct inp as [|c r]; [reflexivity|]. rewrite (N.eqb_sym 10 c).
  destruct (N.eqb_spec c 10) as [->|H1]; cbn [orb]; [eauto|].
  rewrite (N.eqb_sym 13 c). destruct (N.eqb_spec c 13) as [->|H2]; [|reflexivity].
  destruct r as [|d r]; [eauto|]. destruct (10 =? d); eauto.
Qed.

(** [WHITESPACE*] *)
Lemma eval_ws_star sk a off inp : a <> NonAtomic ->
  eval sk (ERep WHITESPACE) a off inp = ROk (takewhile ws_b inp) (dropwhile ws_b inp) [].
Proof.
  intros Ha.
  assert (Hstep : forall off inp, eval sk WHITESPACE a off inp =
    match inp with
    | 13 :: 10 :: r => ROk [13; 10] r []
    | c :: r => if ws_b c then ROk [c] r [] else RFail
    | [] => RFail
    end).
  { intros o i. unfold WHITESPACE, NEWLINE, L. cbn [eval s strip_prefix].
    change (N_of_ascii " ") with 32.
    destruct i as [|c r]; [reflexivity|]. unfold ws_b, nl_b.
    rewrite (N.eqb_sym 32 c), (N.eqb_sym 9 c), (N.eqb_sym 10 c), (N.eqb_sym 13 c).
    destruct (N.eqb_spec c 32) as [->|H1]; [reflexivity|].
    destruct (N.eqb_spec c 9) as [->|H2]; [reflexivity|].
    destruct (N.eqb_spec c 10) as [->|H3]; [reflexivity|].
    destruct (N.eqb_spec c 13) as [->|H4].
    - cbn [orb]. destruct r as [|d r]; [reflexivity|]. rewrite (N.eqb_sym 10 d).
      destruct (N.eqb_spec d 10) as [->|H5]; [reflexivity|].
      destruct d as [|p]; [reflexivity|]. do 4 (destruct p as [p|p|]; try reflexivity). congruence.
    - cbn [orb]. destruct c as [|p]; [reflexivity|]. do 4 (destruct p as [p|p|]; try reflexivity). congruence. }
  assert (Hr : forall n fuel off inp, (List.length inp <= n)%nat -> (List.length inp < fuel)%nat ->
     repeat (eval sk WHITESPACE a) fuel off inp = ROk (takewhile ws_b inp) (dropwhile ws_b inp) []).
  { intros n. induction n as [n IH] using lt_wf_ind. intros fuel o i Hn Hl.
    destruct fuel as [|f]; [lia|]. cbn [repeat]. rewrite Hstep.
    destruct i as [|c r]; [reflexivity|].
    assert (Hone : forall c, match (if ws_b c then ROk [c] r [] else RFail) with
                   | ROk t inp' ps => match repeat (eval sk WHITESPACE a) f (o + blen t) inp' with
                       | ROk t2 inp2 ps2 => ROk (t ++ t2) inp2 (ps ++ ps2)
                       | RFail => RFail | RLoop => RLoop end
                   | RFail => ROk [] (c :: r) []
                   | RLoop => RLoop end = ROk (takewhile ws_b (c :: r)) (dropwhile ws_b (c :: r)) []).
    { intros c'. cbn [takewhile dropwhile]. destruct (ws_b c'); [|reflexivity].
      cbn [List.length] in *. rewrite (IH (List.length r)) by lia. reflexivity. }
    destruct (N.eq_dec c 13) as [->|Hc].
    - destruct r as [|d r]; [apply Hone|].
      destruct (N.eq_dec d 10) as [->|Hd].
      + cbn [takewhile dropwhile]. change (ws_b 13) with true. change (ws_b 10) with true. cbn [List.length] in *.
        rewrite (IH (List.length r)) by lia. reflexivity.
      + assert (Hm : match d with 10 => ROk [13; 10] r [] | _ => if ws_b 13 then ROk [13] (d :: r) [] else RFail end
              = (if ws_b 13 then ROk [13] (d :: r) [] else RFail)).
        { destruct d as [|p]; [reflexivity|]. do 4 (destruct p as [p|p|]; try reflexivity). congruence. }
        cbv beta iota in *. etransitivity; [|apply (Hone 13)].
        destruct d as [|p]; [reflexivity|]. do 4 (destruct p as [p|p|]; try reflexivity). congruence.
    - etransitivity; [|apply (Hone c)].
      destruct c as [|p]; [reflexivity|]. do 4 (destruct p as [p|p|]; try reflexivity). congruence. }
  specialize (Hr (List.length inp) (fuel_for inp) off inp ltac:(lia) ltac:(unfold fuel_for; lia)).
  destruct a; [congruence| |]; exact Hr.
Qed.

(** ** Comments and [skip] *)
Definition comment_fn (inp : str) : option (str * str) :=
  match strip_prefix (s "//") inp with
  | Some i => Some (s "//" ++ before (head_b nl_b) i, after (head_b nl_b) i)
  | None =>
      match strip_prefix (s "/*") inp with
      | Some i =>
          match strip_prefix (s "*/") (after (starts (s "*/")) i) with
          | Some r => Some (s "/*" ++ before (starts (s "*/")) i ++ s "*/", r)
          | None => None
          end
      | None => None
      end
  end.

Lemma eval_comment sk off inp :
  eval sk COMMENT Atomic off inp =
    match comment_fn inp with Some (t, r) => ROk t r [] | None => RFail end.
Proof.
  unfold comment_fn, COMMENT.
  assert (H1 : forall off inp, eval sk single_line_comment Atomic off inp =
    match strip_prefix (s "//") inp with
    | Some i => ROk (s "//" ++ before (head_b nl_b) i) (after (head_b nl_b) i) []
    | None => RFail end).
  { intros o i. unfold single_line_comment, N_, L.
    remember (ERep (ESeq (ENot NEWLINE) EAny)) as loop eqn:El.
    cbn [eval]. destruct (strip_prefix (s "//") i) as [i1|]; [|reflexivity]. cbn [bind_res do_skip].
    subst loop. rewrite (eval_rep_until sk _ _ Atomic _ _ tests_newline) by discriminate.
    cbn [emit]. rewrite app_nil_r. reflexivity. }
  assert (H2 : forall off inp, eval sk multi_line_comment Atomic off inp =
    match strip_prefix (s "/*") inp with
    | Some i => match strip_prefix (s "*/") (after (starts (s "*/")) i) with
                | Some r => ROk (s "/*" ++ before (starts (s "*/")) i ++ s "*/") r []
                | None => RFail end
    | None => RFail end).
  { intros o i. unfold multi_line_comment, N_, L.
    remember (ERep (ESeq (ENot (EStr (s "*/"))) EAny)) as loop eqn:El.
    cbn [eval]. destruct (strip_prefix (s "/*") i) as [i1|]; [|reflexivity]. cbn [bind_res do_skip].
    subst loop. rewrite (eval_rep_until sk _ _ Atomic _ _ (tests_str _)) by discriminate.
    cbn [bind_res]. destruct (strip_prefix (s "*/") (after (starts (s "*/")) i1)); [|reflexivity].
    cbn [emit]. rewrite !app_nil_r. reflexivity. }
  cbn [eval]. rewrite H1. destruct (strip_prefix (s "//") inp) as [i1|]; [reflexivity|].
  rewrite H2. destruct (strip_prefix (s "/*") inp) as [i1|]; [|reflexivity].
  destruct (strip_prefix (s "*/") _); reflexivity.
Qed.

(** Layout followed by [rest]. *)
Inductive gap_to (rest : str) : str -> Prop :=
| gt_nil : gap_to rest []
| gt_ws c g : is_ws c -> gap_to rest g -> gap_to rest (c :: g)
| gt_line body c g : Forall (fun x => ~ is_nl x) body -> is_nl c -> gap_to rest g ->
    gap_to rest (s "//" ++ body ++ c :: g)
| gt_block body g : no_close body -> gap_to rest g -> gap_to rest (s "/*" ++ body ++ s "*/" ++ g)
| gt_eof body : rest = [] -> Forall (fun x => ~ is_nl x) body -> gap_to rest (s "//" ++ body).

Lemma gap_gap_to g rest : gap g -> gap_to rest g.
Proof. induction 1; constructor; assumption. Qed.
Lemma gap_to_app rest a b : gap a -> gap_to rest b -> gap_to rest (a ++ b).
Proof.
  induction 1; intros Hb; cbn [app]; [assumption|constructor; auto| |].
  - rewrite <- !app_assoc. cbn [app]. apply gt_line; auto.
  - rewrite <- !app_assoc. apply gt_block; auto.
Qed.
Lemma gap_app a b : gap a -> gap b -> gap (a ++ b).
Proof.
  induction 1; intros Hb; cbn [app]; [assumption|constructor; auto| |].
  - rewrite <- !app_assoc. cbn [app]. apply gap_line; auto.
  - rewrite <- !app_assoc. apply gap_block; auto.
Qed.
Lemma gap_to_cases rest g : gap_to rest g -> gap g \/ (rest = [] /\ gap_eof g).
Proof.
  induction 1 as [|c g Hc Hg IH|body c g Hb Hc Hg IH|body g Hb Hg IH|body Hr Hb].
  - left; constructor.
  - destruct IH as [IH|[Hr IH]]; [left; constructor; assumption|right; split; [assumption|]].
    destruct IH as [g IH|g body IH Hb]; [apply ge_gap; constructor; assumption|].
    apply (ge_line (c :: g)); [constructor; assumption|assumption].
  - destruct IH as [IH|[Hr IH]]; [left; apply gap_line; assumption|right; split; [assumption|]].
    destruct IH as [g IH|g body' IH Hb']; [apply ge_gap, gap_line; assumption|].
    replace (s "//" ++ body ++ c :: g ++ s "//" ++ body')
      with ((s "//" ++ body ++ c :: g) ++ s "//" ++ body') by (rewrite <- !app_assoc; reflexivity).
    apply ge_line; [apply gap_line; assumption|assumption].
  - destruct IH as [IH|[Hr IH]]; [left; apply gap_block; assumption|right; split; [assumption|]].
    destruct IH as [g IH|g body' IH Hb']; [apply ge_gap, gap_block; assumption|].
    replace (s "/*" ++ body ++ s "*/" ++ g ++ s "//" ++ body')
      with ((s "/*" ++ body ++ s "*/" ++ g) ++ s "//" ++ body') by (rewrite <- !app_assoc; reflexivity).
    apply ge_line; [apply gap_block; assumption|assumption].
  - right. split; [assumption|]. apply (ge_line []); [constructor|assumption].
Qed.
Lemma gap_eof_to g : gap_eof g -> gap_to [] g.
Proof.
  destruct 1 as [g H|g body H Hb]; [apply gap_gap_to; assumption|].
  apply gap_to_app; [assumption|]. apply gt_eof; auto.
Qed.
Lemma gap_to_nonempty rest g : gap_to rest g -> rest <> [] -> gap g.
Proof. intros H Hr. apply gap_to_cases in H as [H|[H _]]; [assumption|congruence]. Qed.
Lemma gap_takewhile_ws x : gap (takewhile ws_b x).
Proof.
  pose proof (takewhile_Forall ws_b x) as H. induction H; constructor; auto. apply ws_b_spec; assumption.
Qed.

Lemma before_nl x : Forall (fun c => ~ is_nl c) (before (head_b nl_b) x).
Proof.
  induction x as [|c x IH]; cbn [before head_b]; [constructor|].
  destruct (nl_b c) eqn:E; constructor; auto. apply nl_b_false; exact E.
Qed.
Lemma after_nl x : after (head_b nl_b) x = [] \/ exists c r, after (head_b nl_b) x = c :: r /\ is_nl c.
Proof.
  destruct (after_spec (head_b nl_b) x) as [H|H]; [auto|].
  destruct (after (head_b nl_b) x) as [|c r]; [auto|]. right. exists c, r. split; [reflexivity|].
  apply nl_b_spec; exact H.
Qed.

(** An occurrence of [*/] inside [x ++ "*"] shows up inside [x ++ "*/..."]. *)
Lemma no_close_before i r :
  after (starts (s "*/")) i = s "*/" ++ r -> no_close (before (starts (s "*/")) i).
Proof.
  intros Ha a b H.
  assert (Hb : exists b', s "*/" ++ b = b' ++ s "*" /\ before (starts (s "*/")) i = a ++ b' /\ b' <> []).
  { destruct (@exists_last _ (s "*/" ++ b) ltac:(discriminate)) as (b' & l & E).
    rewrite E in H. rewrite app_assoc in H. apply app_inj_tail in H as [H1 H2].
    exists b'. split; [|split; [exact H1|]].
    - rewrite E, <- H2. reflexivity.
    - intros ->. destruct b; discriminate. }
  destruct Hb as (b' & E1 & E2 & Hne).
  pose proof (before_spec _ _ _ _ E2 Hne) as Hf. rewrite Ha in Hf.
  assert (Ht : starts (s "*/") (b' ++ s "*/" ++ r) = true).
  { apply starts_true. destruct b' as [|x1 [|x2 b']]; [congruence| |].
    - exfalso. destruct b; discriminate.
    - cbn [app s] in E1. injection E1 as <- <- _. eexists; reflexivity. }
  congruence.
Qed.

Lemma some_pair_inj {A B} (a c : A) (b d : B) : Some (a, b) = Some (c, d) -> a = c /\ b = d.
Proof. intros [= -> ->]. auto. Qed.

Lemma comment_fn_some inp t r : comment_fn inp = Some (t, r) ->
  inp = t ++ r /\ t <> [] /\
  ((exists body, t = s "//" ++ body /\ Forall (fun c => ~ is_nl c) body /\
      (r = [] \/ exists c r', r = c :: r' /\ is_nl c))
   \/ (exists body, t = s "/*" ++ body ++ s "*/" /\ no_close body)).
Proof.
  unfold comment_fn. destruct (strip_prefix (s "//") inp) as [i|] eqn:E1.
  - intros H. apply some_pair_inj in H as [<- <-]. apply strip_prefix_spec in E1 as ->.
    rewrite <- app_assoc, before_after. split; [reflexivity|]. split; [discriminate|].
    left. eexists. split; [reflexivity|]. split; [apply before_nl|apply after_nl].
  - destruct (strip_prefix (s "/*") inp) as [i|] eqn:E2; [|discriminate].
    destruct (strip_prefix (s "*/") (after (starts (s "*/")) i)) as [r'|] eqn:E3; [|discriminate].
    intros H. apply some_pair_inj in H as [<- <-]. apply strip_prefix_spec in E2 as ->. apply strip_prefix_spec in E3.
    rewrite <- !app_assoc, <- E3, before_after. split; [reflexivity|]. split; [discriminate|].
    right. eexists. split; [reflexivity|]. eapply no_close_before; eassumption.
Qed.

Lemma comment_fn_none inp : comment_fn inp = None ->
  (forall r, inp <> s "//" ++ r) /\ (forall body r, inp <> s "/*" ++ body ++ s "*/" ++ r).
Proof.
  unfold comment_fn. destruct (strip_prefix (s "//") inp) as [i|] eqn:E1; [discriminate|].
  intros H. split; [apply strip_prefix_None; exact E1|].
  intros body r ->. change (s "/*" ++ body ++ s "*/" ++ r) with (s "/*" ++ (body ++ s "*/" ++ r)) in H.
  rewrite (proj2 (strip_prefix_spec (s "/*") (s "/*" ++ (body ++ s "*/" ++ r)) _) eq_refl) in H.
  destruct (after_spec (starts (s "*/")) (body ++ s "*/" ++ r)) as [Ha|Ha].
  - pose proof (before_after (starts (s "*/")) (body ++ s "*/" ++ r)) as Hba. rewrite Ha, app_nil_r in Hba.
    pose proof (before_spec (starts (s "*/")) (body ++ s "*/" ++ r) body (s "*/" ++ r) Hba ltac:(discriminate)) as Hf.
    rewrite Ha, app_nil_r in Hf.
    assert (Ht : starts (s "*/") (s "*/" ++ r) = true) by (apply starts_true; eauto). congruence.
  - unfold starts in Ha at 1. destruct (strip_prefix (s "*/") _); discriminate.
Qed.

Lemma eval_comment_ws sk off inp :
  eval sk (ESeq COMMENT (ERep WHITESPACE)) Atomic off inp =
    match comment_fn inp with
    | Some (t, r) => ROk (t ++ takewhile ws_b r) (dropwhile ws_b r) []
    | None => RFail end.
Proof.
  remember COMMENT as cm. remember (ERep WHITESPACE) as w. cbn [eval]. subst.
  rewrite eval_comment. destruct (comment_fn inp) as [[t r]|]; [|reflexivity].
  cbn [bind_res do_skip]. rewrite eval_ws_star by discriminate. rewrite app_nil_r. reflexivity.
Qed.

Lemma repeat_comment_ws sk fuel off inp : (List.length inp < fuel)%nat ->
  exists t r, repeat (eval sk (ESeq COMMENT (ERep WHITESPACE)) Atomic) fuel off inp = ROk t r []
    /\ inp = t ++ r /\ gap_to r t /\ comment_fn r = None /\ (t = [] \/ stops ws_b r).
Proof.
  revert off inp. induction fuel as [|n IH]; intros off inp Hl; [lia|].
  cbn [repeat]. rewrite eval_comment_ws. destruct (comment_fn inp) as [[t r]|] eqn:E.
  - pose proof (comment_fn_some _ _ _ E) as (-> & Hne & Hc).
    assert (Hlen : (List.length (dropwhile ws_b r) < n)%nat).
    { rewrite app_length in Hl. pose proof (takedrop ws_b r) as Htd.
      apply (f_equal (@List.length _)) in Htd. rewrite app_length in Htd.
      destruct t; [congruence|]. cbn [List.length] in Hl. lia. }
    destruct (IH (off + blen (t ++ takewhile ws_b r)) _ Hlen) as (t2 & r2 & -> & Heq & Hg & Hn & Hs).
    exists ((t ++ takewhile ws_b r) ++ t2), r2. split; [reflexivity|].
    split; [rewrite <- !app_assoc, <- Heq, takedrop; reflexivity|].
    split; [|split; [exact Hn|]].
    2:{ right. destruct Hs as [->|Hs]; [|exact Hs]. cbn [app] in Heq. rewrite <- Heq. apply dropwhile_stops. }
    destruct Hc as [(body & -> & Hb & Hr)|(body & -> & Hb)].
    + destruct Hr as [->|(c & r' & -> & Hc)].
      * cbn [dropwhile takewhile app] in *. symmetry in Heq. apply app_eq_nil in Heq as [-> ->].
        rewrite !app_nil_r. apply gt_eof; auto.
      * assert (Hws : ws_b c = true) by (apply ws_b_spec; destruct Hc; subst; unfold is_ws; auto).
        cbn [takewhile]. rewrite Hws. rewrite <- !app_assoc. cbn [app].
        apply gt_line; auto. apply gap_to_app; [apply gap_takewhile_ws|exact Hg].
    + rewrite <- !app_assoc. apply gt_block; auto. apply gap_to_app; [apply gap_takewhile_ws|exact Hg].
  - exists [], inp. repeat split; auto. constructor.
Qed.

(** [skip] succeeds on every input, consuming exactly the layout in front of it. *)
Lemma skip_spec inp : exists g r,
  skip inp = ROk g r [] /\ inp = g ++ r /\ gap_to r g /\ no_layout_start r.
Proof.
  unfold skip, skip_exp.
  remember (ESeq COMMENT (ERep WHITESPACE)) as cw eqn:Ecw.
  remember (ERep WHITESPACE) as w eqn:Ew.
  cbn [eval]. subst w. rewrite eval_ws_star by discriminate. cbn [bind_res do_skip]. subst cw.
  destruct (repeat_comment_ws (fun i => ROk [] i []) (fuel_for (dropwhile ws_b inp))
     (0 + blen (takewhile ws_b inp ++ [])) (dropwhile ws_b inp)) as (t & r & -> & Heq & Hg & Hn & Hs);
    [unfold fuel_for; lia|].
  exists (takewhile ws_b inp ++ t), r. rewrite app_nil_r. split; [reflexivity|].
  split; [rewrite <- app_assoc, <- Heq, takedrop; reflexivity|].
  split; [apply gap_to_app; [apply gap_takewhile_ws|exact Hg]|].
  pose proof (comment_fn_none _ Hn) as [H1 H2]. split; [|split; assumption].
  assert (Hst : stops ws_b r).
  { destruct Hs as [->|Hs]; [|exact Hs]. cbn [app] in Heq. rewrite <- Heq. apply dropwhile_stops. }
  intros c r' ->. cbn [stops] in Hst. apply ws_b_false. exact Hst.
Qed.

Lemma skip_ROk inp t r ps : skip inp = ROk t r ps ->
  ps = [] /\ inp = t ++ r /\ gap_to r t /\ no_layout_start r.
Proof.
  destruct (skip_spec inp) as (g & r0 & E & H1 & H2 & H3). rewrite E. intros [= <- <- <-]. auto.
Qed.
Lemma skip_app inp t r ps : skip inp = ROk t r ps -> inp = t ++ r /\ ps = [].
Proof. intros H. apply skip_ROk in H as (-> & -> & _). auto. Qed.
Lemma skip_noloop inp : skip inp <> RLoop.
Proof. destruct (skip_spec inp) as (g & r & -> & _). discriminate. Qed.

(** The split of a text into layout and the rest is unique. *)
Lemma nl_prefix_unique b1 c1 x1 b2 c2 x2 :
  Forall (fun x => ~ is_nl x) b1 -> Forall (fun x => ~ is_nl x) b2 -> is_nl c1 -> is_nl c2 ->
  b1 ++ c1 :: x1 = b2 ++ c2 :: x2 -> b1 = b2 /\ c1 = c2 /\ x1 = x2.
Proof.
  intros H1. revert b2. induction H1 as [|d b1 Hd H1 IH]; intros b2 H2 Hc1 Hc2 E.
  - destruct H2 as [|d2 b2 Hd2 H2]; cbn [app] in E; injection E as E1 E2; [auto|congruence].
  - destruct H2 as [|d2 b2 Hd2 H2]; cbn [app] in E; injection E as E1 E2; [congruence|].
    subst d2. destruct (IH b2 H2 Hc1 Hc2 E2) as (-> & -> & ->). auto.
Qed.
Lemma nl_no_prefix b1 c1 x1 b2 :
  is_nl c1 -> Forall (fun x => ~ is_nl x) b2 -> b1 ++ c1 :: x1 = b2 -> False.
Proof.
  intros Hc H2 <-. apply Forall_app in H2 as [_ H2]. inversion H2; subst. congruence.
Qed.

Lemma close_lt b1 x1 b2 x2 : no_close b2 -> b1 ++ s "*/" ++ x1 = b2 ++ s "*/" ++ x2 ->
  (List.length b2 <= List.length b1)%nat.
Proof.
  intros H E. destruct (Nat.le_gt_cases (List.length b2) (List.length b1)) as [Hl|Hl]; [exact Hl|exfalso].
  (* b1 ++ "*/" is within b2 ++ "*" *)
  assert (E2 : firstn (List.length (b2 ++ s "*")) (b2 ++ s "*/" ++ x2) = b2 ++ s "*").
  { replace (b2 ++ s "*/" ++ x2) with ((b2 ++ s "*") ++ (s "/" ++ x2)) by (rewrite <- app_assoc; reflexivity).
    rewrite firstn_app, Nat.sub_diag, firstn_all. cbn [firstn]. apply app_nil_r. }
  rewrite <- E in E2.
  replace (b1 ++ s "*/" ++ x1) with ((b1 ++ s "*/") ++ x1) in E2 by (rewrite <- app_assoc; reflexivity).
  rewrite firstn_app in E2. rewrite (firstn_all2 (b1 ++ s "*/")) in E2.
  2:{ rewrite !app_length. cbn. lia. }
  rewrite <- app_assoc in E2. symmetry in E2. exact (H _ _ E2).
Qed.
Lemma close_unique b1 x1 b2 x2 : no_close b1 -> no_close b2 ->
  b1 ++ s "*/" ++ x1 = b2 ++ s "*/" ++ x2 -> b1 = b2 /\ x1 = x2.
Proof.
  intros H1 H2 E. pose proof (close_lt _ _ _ _ H2 E). pose proof (close_lt _ _ _ _ H1 (eq_sym E)).
  assert (Hb : b1 = b2).
  { apply (f_equal (firstn (List.length b1))) in E.
    rewrite firstn_app, Nat.sub_diag, firstn_all, firstn_O, app_nil_r in E.
    rewrite firstn_app in E. replace (List.length b1 - List.length b2)%nat with 0%nat in E by lia.
    rewrite firstn_O, app_nil_r in E. replace (List.length b1) with (List.length b2) in E by lia.
    rewrite firstn_all in E. exact E. }
  subst b2. apply app_inv_head in E. apply app_inv_head in E. auto.
Qed.

Lemma gap_unique g1 r1 g2 r2 :
  gap_to r1 g1 -> gap_to r2 g2 -> no_layout_start r1 -> no_layout_start r2 ->
  g1 ++ r1 = g2 ++ r2 -> g1 = g2 /\ r1 = r2.
Proof.
  intros H1. revert g2. induction H1 as [|c g Hc Hg IH|body c g Hb Hc Hg IH|body g Hb Hg IH|body Hr Hb];
    intros g2 H2 N1 N2 E.
  - cbn [app] in E. subst r1. destruct N1 as (Na & Nb & Nc).
    destruct H2 as [|c2 g2 Hc2 Hg2|body2 c2 g2 Hb2 Hc2 Hg2|body2 g2 Hb2 Hg2|body2 Hr2 Hb2].
    + auto.
    + exfalso. eapply Na; [reflexivity|eassumption].
    + exfalso. apply (Nb ((body2 ++ c2 :: g2) ++ r2)). rewrite <- app_assoc. reflexivity.
    + exfalso. apply (Nc body2 (g2 ++ r2)). rewrite <- !app_assoc. reflexivity.
    + exfalso. apply (Nb (body2 ++ r2)). rewrite <- !app_assoc. reflexivity.
  - destruct N2 as (Na & Nb & Nc). destruct H2 as [|c2 g2 Hc2 Hg2|body2 c2 g2 Hb2 Hc2 Hg2|body2 g2 Hb2 Hg2|body2 Hr2 Hb2].
    + exfalso. cbn [app] in E. eapply Na; [symmetry; exact E|exact Hc].
    + cbn [app] in E. injection E as <- E. destruct (IH _ Hg2 N1 (conj Na (conj Nb Nc)) E) as [-> ->]. auto.
    + cbn [app s] in E. injection E as -> E. destruct Hc as [Hc|[Hc|[Hc|Hc]]]; discriminate.
    + cbn [app s] in E. injection E as -> E. destruct Hc as [Hc|[Hc|[Hc|Hc]]]; discriminate.
    + cbn [app s] in E. injection E as -> E. destruct Hc as [Hc|[Hc|[Hc|Hc]]]; discriminate.
  - pose proof N2 as (Na & Nb & Nc). rewrite <- app_assoc in E.
    destruct H2 as [|c2 g2 Hc2 Hg2|body2 c2 g2 Hb2 Hc2 Hg2|body2 g2 Hb2 Hg2|body2 Hr2 Hb2].
    + exfalso. cbn [app] in E. eapply Nb. symmetry. exact E.
    + cbn [app s] in E. injection E as <- E. destruct Hc2 as [Hc2|[Hc2|[Hc2|Hc2]]]; discriminate.
    + rewrite <- !app_assoc in E. apply app_inv_head in E. cbn [app] in E.
      apply nl_prefix_unique in E as (-> & -> & E); auto. destruct (IH _ Hg2 N1 N2 E) as [-> ->]. auto.
    + exfalso. cbn [app s] in E. discriminate E.
    + exfalso. subst r2. rewrite app_nil_r, <- app_assoc in E. apply app_inv_head in E. cbn [app] in E.
      eapply nl_no_prefix; [exact Hc|exact Hb2|exact E].
  - pose proof N2 as (Na & Nb & Nc). rewrite <- !app_assoc in E.
    destruct H2 as [|c2 g2 Hc2 Hg2|body2 c2 g2 Hb2 Hc2 Hg2|body2 g2 Hb2 Hg2|body2 Hr2 Hb2].
    + exfalso. cbn [app] in E. eapply Nc. symmetry. exact E.
    + cbn [app s] in E. injection E as <- E. destruct Hc2 as [Hc2|[Hc2|[Hc2|Hc2]]]; discriminate.
    + exfalso. cbn [app s] in E. discriminate E.
    + rewrite <- !app_assoc in E. apply app_inv_head in E.
      apply close_unique in E as [-> E]; auto. destruct (IH _ Hg2 N1 N2 E) as [-> ->]. auto.
    + exfalso. cbn [app s] in E. discriminate E.
  - subst r1. rewrite app_nil_r in E. pose proof N2 as (Na & Nb & Nc).
    destruct H2 as [|c2 g2 Hc2 Hg2|body2 c2 g2 Hb2 Hc2 Hg2|body2 g2 Hb2 Hg2|body2 Hr2 Hb2].
    + exfalso. cbn [app] in E. eapply Nb. symmetry. exact E.
    + cbn [app s] in E. injection E as <- E. destruct Hc2 as [Hc2|[Hc2|[Hc2|Hc2]]]; discriminate.
    + exfalso. rewrite <- !app_assoc in E. apply app_inv_head in E. symmetry in E. cbn [app] in E.
      eapply nl_no_prefix; [exact Hc2|exact Hb|exact E].
    + exfalso. cbn [app s] in E. discriminate E.
    + subst r2. rewrite app_nil_r in E. auto.
Qed.

Lemma skip_complete g r : gap_to r g -> no_layout_start r -> skip (g ++ r) = ROk g r [].
Proof.
  intros Hg Hn. destruct (skip_spec (g ++ r)) as (g' & r' & -> & E & Hg' & Hn').
  destruct (gap_unique _ _ _ _ Hg Hg' Hn Hn' E) as [-> ->]. reflexivity.
Qed.

Lemma solid_no_layout x : solid x -> no_layout_start x.
Proof.
  intros H. split; [|split].
  - intros c r ->. exact (proj1 H).
  - intros r ->. cbn [app s solid] in H. apply (proj2 H). reflexivity.
  - intros b r ->. cbn [app s solid] in H. apply (proj2 H). reflexivity.
Qed.
