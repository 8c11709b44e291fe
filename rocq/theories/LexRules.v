(** * LexRules: closed forms of the token rules of the grammar. *)

From Verif Require Export Grammar PegFacts Layout Lex TextSpec.

(** [do_skip] as a total function. *)
Definition skipf (a : atomicity) (inp : str) : str * str :=
  match do_skip skip a inp with ROk g r _ => (g, r) | _ => ([], inp) end.

Lemma do_skip_skipf a inp : do_skip skip a inp = ROk (fst (skipf a inp)) (snd (skipf a inp)) [].
Proof.
  unfold skipf. destruct a; cbn [do_skip]; [|reflexivity|reflexivity].
  destruct (skip_spec inp) as (g & r & -> & _). reflexivity.
Qed.
Lemma skipf_spec inp g r : skipf NonAtomic inp = (g, r) <->
  inp = g ++ r /\ gap_to r g /\ no_layout_start r.
Proof.
  unfold skipf. cbn [do_skip]. destruct (skip_spec inp) as (g' & r' & E & H1 & H2 & H3). rewrite E.
  split; [intros [= <- <-]; auto|].
  intros (-> & Hg & Hn). rewrite skip_complete in E by assumption. injection E as -> ->. reflexivity.
Qed.
Lemma skipf_solid a x : solid x -> skipf a x = ([], x).
Proof.
  intros H. destruct a; [|reflexivity|reflexivity]. apply skipf_spec. split; [reflexivity|].
  split; [constructor|apply solid_no_layout; exact H].
Qed.

Lemma eval_seq e1 e2 a off inp :
  eval skip (ESeq e1 e2) a off inp =
    match eval skip e1 a off inp with
    | ROk t1 i1 ps1 =>
        let (g, i2) := skipf a i1 in
        match eval skip e2 a (off + blen t1 + blen g) i2 with
        | ROk t2 r ps2 => ROk (t1 ++ g ++ t2) r (ps1 ++ ps2)
        | RFail => RFail
        | RLoop => RLoop
        end
    | RFail => RFail
    | RLoop => RLoop
    end.
Proof.
  cbn [eval]. destruct (eval skip e1 a off inp) as [t1 i1 ps1| |]; [|reflexivity|reflexivity].
  cbn [bind_res]. rewrite do_skip_skipf. destruct (skipf a i1) as [g i2]. cbn [fst snd bind_res].
  rewrite blen_app, N.add_assoc.
  destruct (eval skip e2 a (off + blen t1 + blen g) i2); [|reflexivity|reflexivity].
  rewrite app_nil_r, app_assoc. reflexivity.
Qed.


Lemma eval_normal r b a off inp : eval skip (N_ r b) a off inp = emit a r off (eval skip b a off inp).
Proof. reflexivity. Qed.
Lemma eval_atomic r b a off inp : eval skip (A_ r b) a off inp = emit a r off (eval skip b Atomic off inp).
Proof. reflexivity. Qed.
Lemma eval_compound r b a off inp :
  eval skip (C_ r b) a off inp = emit CompoundAtomic r off (eval skip b CompoundAtomic off inp).
Proof. reflexivity. Qed.
Lemma eval_alt e1 e2 a off inp :
  eval skip (EAlt e1 e2) a off inp =
    match eval skip e1 a off inp with RFail => eval skip e2 a off inp | r => r end.
Proof. reflexivity. Qed.
Lemma eval_opt e1 a off inp :
  eval skip (EOpt e1) a off inp =
    match eval skip e1 a off inp with RFail => ROk [] inp [] | r => r end.
Proof. reflexivity. Qed.
Lemma eval_str x a off inp :
  eval skip (EStr x) a off inp = match strip_prefix x inp with Some r => ROk x r [] | None => RFail end.
Proof. reflexivity. Qed.
Lemma skipf_atomic inp : skipf Atomic inp = ([], inp).
Proof. reflexivity. Qed.
Lemma skipf_compound inp : skipf CompoundAtomic inp = ([], inp).
Proof. reflexivity. Qed.

(** The emitted token of a leaf rule. *)
Definition leaf (r : rule) (off : N) (t : str) : pair := Pair r off (off + blen t) t [].

Lemma emit_ok a r off t rest ps : a <> Atomic ->
  emit a r off (ROk t rest ps) = ROk t rest [Pair r off (off + blen t) t ps].
Proof. destruct a; [reflexivity|reflexivity|congruence]. Qed.

(** *** var *)
Lemma eval_var a off inp :
  eval skip var a off inp =
    match inp with
    | c :: r => if alpha_b c then emit a R_var off (ROk (c :: takewhile word_b r) (dropwhile word_b r) [])
                else RFail
    | [] => RFail
    end.
Proof.
  unfold var. rewrite eval_atomic, eval_seq, class_alpha.
  destruct inp as [|c r]; [reflexivity|]. destruct (alpha_b c); [|reflexivity].
  rewrite skipf_atomic, (eval_rep_class _ _ _ _ _ _ class_word) by discriminate. reflexivity.
Qed.

(** *** spaced_var *)
Fixpoint svar_tail (x : str) : str :=
  match x with
  | c :: x' =>
      if word_b c then c :: svar_tail x'
      else if c =? 32 then
             match x' with
             | d :: x'' => if word_b d then c :: d :: svar_tail x'' else []
             | [] => []
             end
           else []
  | [] => []
  end.
Fixpoint svar_rest (x : str) : str :=
  match x with
  | c :: x' =>
      if word_b c then svar_rest x'
      else if c =? 32 then
             match x' with
             | d :: x'' => if word_b d then svar_rest x'' else x
             | [] => x
             end
           else x
  | [] => []
  end.

Lemma word_b_32 : word_b 32 = false.
Proof. reflexivity. Qed.

Lemma svar_step off inp :
  eval skip (ESeq (EOpt (L " ")) (EAlt ASCII_ALPHANUMERIC (L "_"))) Atomic off inp =
    match inp with
    | c :: x' =>
        if word_b c then ROk [c] x' []
        else if c =? 32 then
             match x' with
             | d :: x'' => if word_b d then ROk [c; d] x'' [] else RFail
             | [] => RFail
             end
        else RFail
    | [] => RFail
    end.
Proof.
  rewrite eval_seq, eval_opt. unfold L at 1. cbn [s]. change (N_of_ascii " ") with 32.
  rewrite (class_char 32). destruct inp as [|c x']; [reflexivity|].
  destruct (N.eqb_spec c 32) as [->|Hc].
  - rewrite word_b_32, skipf_atomic, class_word. destruct x' as [|d x'']; [reflexivity|].
    destruct (word_b d); reflexivity.
  - rewrite skipf_atomic, class_word. destruct (word_b c); reflexivity.
Qed.

Lemma eval_svar_star off inp :
  eval skip (ERep (ESeq (EOpt (L " ")) (EAlt ASCII_ALPHANUMERIC (L "_")))) Atomic off inp =
    ROk (svar_tail inp) (svar_rest inp) [].
Proof.
  assert (Hr : forall n fuel off inp, (List.length inp <= n)%nat -> (List.length inp < fuel)%nat ->
     repeat (eval skip (ESeq (EOpt (L " ")) (EAlt ASCII_ALPHANUMERIC (L "_"))) Atomic) fuel off inp
       = ROk (svar_tail inp) (svar_rest inp) []).
  { intros n. induction n as [n IH] using lt_wf_ind. intros fuel o i Hn Hl.
    destruct fuel as [|f]; [lia|]. cbn [repeat]. rewrite svar_step.
    destruct i as [|c x']; [reflexivity|]. cbn [svar_tail svar_rest]. cbn [List.length] in *.
    destruct (word_b c); [rewrite (IH (List.length x')) by lia; reflexivity|].
    destruct (c =? 32); [|reflexivity].
    destruct x' as [|d x'']; [reflexivity|]. cbn [List.length] in *.
    destruct (word_b d); [|reflexivity]. rewrite (IH (List.length x'')) by lia. reflexivity. }
  apply (Hr (List.length inp)); [lia|unfold fuel_for; lia].
Qed.

Lemma eval_spaced_var a off inp :
  eval skip spaced_var a off inp =
    match inp with
    | c :: r => if alpha_b c then emit a R_spaced_var off (ROk (c :: svar_tail r) (svar_rest r) []) else RFail
    | [] => RFail
    end.
Proof.
  unfold spaced_var. rewrite eval_atomic, eval_seq, class_alpha.
  destruct inp as [|c r]; [reflexivity|]. destruct (alpha_b c); [|reflexivity].
  rewrite skipf_atomic, eval_svar_star. reflexivity.
Qed.

(** *** numbers *)
Lemma eval_digits off inp :
  eval skip (ESeq ASCII_DIGIT (ERep ASCII_DIGIT)) Atomic off inp =
    match inp with
    | c :: r => if digit_b c then ROk (c :: takewhile digit_b r) (dropwhile digit_b r) [] else RFail
    | [] => RFail
    end.
Proof.
  rewrite eval_seq, class_digit. destruct inp as [|c r]; [reflexivity|]. destruct (digit_b c); [|reflexivity].
  rewrite skipf_atomic, (eval_rep_class _ _ _ _ _ _ class_digit) by discriminate. reflexivity.
Qed.
Lemma eval_integer a off inp :
  eval skip integer a off inp =
    match inp with
    | c :: r => if digit_b c then emit a R_integer off (ROk (c :: takewhile digit_b r) (dropwhile digit_b r) [])
                else RFail
    | [] => RFail
    end.
Proof.
  unfold integer. rewrite eval_atomic, eval_digits. destruct inp as [|c r]; [reflexivity|].
  destruct (digit_b c); reflexivity.
Qed.
Lemma eval_decimal a off inp :
  eval skip decimal a off inp =
    match inp with
    | c :: r =>
        if digit_b c then
          match dropwhile digit_b r with
          | 46 :: r2 => emit a R_decimal off
                          (ROk (c :: takewhile digit_b r ++ 46 :: takewhile digit_b r2) (dropwhile digit_b r2) [])
          | _ => RFail
          end
        else RFail
    | [] => RFail
    end.
Proof.
  unfold decimal. rewrite eval_atomic, eval_seq, eval_digits. destruct inp as [|c r]; [reflexivity|].
  destruct (digit_b c); [|reflexivity]. rewrite skipf_atomic, eval_seq. unfold L. cbn [s].
  change (N_of_ascii ".") with 46. rewrite (class_char 46).
  destruct (dropwhile digit_b r) as [|d r2]; [reflexivity|].
  destruct (N.eqb_spec d 46) as [->|Hd].
  - rewrite skipf_atomic, (eval_rep_class _ _ _ _ _ _ class_digit) by discriminate. reflexivity.
  - destruct d as [|p]; [reflexivity|]. do 6 (destruct p as [p|p|]; try reflexivity). congruence.
Qed.

(** *** booleans *)
Lemma eval_boolean a off inp :
  eval skip boolean_value a off inp =
    match strip_prefix (s "true") inp with
    | Some r => emit a R_boolean_value off (ROk (s "true") r [])
    | None => match strip_prefix (s "false") inp with
              | Some r => emit a R_boolean_value off (ROk (s "false") r [])
              | None => match strip_prefix (s "null") inp with
                        | Some r => emit a R_boolean_value off (ROk (s "null") r [])
                        | None => RFail
                        end
              end
    end.
Proof.
  unfold boolean_value, L. rewrite eval_atomic, !eval_alt, !eval_str.
  destruct (strip_prefix (s "true") inp) as [r|]; [reflexivity|].
  destruct (strip_prefix (s "false") inp) as [r|]; [reflexivity|].
  destruct (strip_prefix (s "null") inp) as [r|]; reflexivity.
Qed.

(** *** hex colours *)
Definition take3_hex (inp : str) : option (str * str) :=
  match inp with
  | c1 :: c2 :: c3 :: r => if hex_b c1 && hex_b c2 && hex_b c3 then Some ([c1; c2; c3], r) else None
  | _ => None
  end.
Lemma eval_hex3 off inp :
  eval skip hex3 Atomic off inp = match take3_hex inp with Some (t, r) => ROk t r [] | None => RFail end.
Proof.
  unfold hex3, take3_hex. rewrite eval_seq, class_hex. destruct inp as [|c1 r]; [reflexivity|].
  destruct (hex_b c1) eqn:E1.
  - rewrite skipf_atomic, eval_seq, class_hex. destruct r as [|c2 r]; [reflexivity|].
    destruct (hex_b c2) eqn:E2.
    + rewrite skipf_atomic, class_hex. destruct r as [|c3 r]; [reflexivity|]. cbn [andb].
      destruct (hex_b c3); reflexivity.
    + destruct r; reflexivity.
  - destruct r as [|c2 [|c3 r]]; reflexivity.
Qed.
Lemma eval_hex a off inp :
  eval skip hex_value a off inp =
    match strip_prefix (s "#") inp with
    | Some i => match take3_hex i with
                | Some (t, r) =>
                    match take3_hex r with
                    | Some (t2, r2) => emit a R_hex_value off (ROk (s "#" ++ t ++ t2) r2 [])
                    | None => emit a R_hex_value off (ROk (s "#" ++ t) r [])
                    end
                | None => RFail
                end
    | None => RFail
    end.
Proof.
  unfold hex_value, L. rewrite eval_atomic, eval_seq, eval_str.
  destruct (strip_prefix (s "#") inp) as [i|]; [|reflexivity].
  rewrite skipf_atomic, eval_seq, eval_hex3. destruct (take3_hex i) as [[t r]|]; [|reflexivity].
  rewrite skipf_atomic, eval_opt, eval_hex3. destruct (take3_hex r) as [[t2 r2]|]; cbn [app].
  - reflexivity.
  - rewrite app_nil_r. reflexivity.
Qed.

(** *** quoted strings *)
Definition quoted_rule (rs rv : rule) (q : str) : pexp :=
  N_ rs (ESeq (EStr q) (ESeq (A_ rv (ERep (ESeq (ENot (EStr q)) EAny))) (EStr q))).

Lemma eval_quoted rs rv q a off inp : a <> Atomic -> q <> [] -> (forall r, solid (q ++ r)) ->
  eval skip (quoted_rule rs rv q) a off inp =
    match strip_prefix q inp with
    | Some i =>
        let (g, i2) := skipf a i in
        match strip_prefix q (after (starts q) i2) with
        | Some r =>
            let v := before (starts q) i2 in
            let t := q ++ g ++ v ++ q in
            ROk t r [Pair rs off (off + blen t) t [leaf rv (off + blen q + blen g) v]]
        | None => RFail
        end
    | None => RFail
    end.
Proof.
  intros Ha Hq Hs. unfold quoted_rule. rewrite eval_normal, eval_seq, eval_str.
  destruct (strip_prefix q inp) as [i|]; [|reflexivity].
  destruct (skipf a i) as [g i2]. rewrite eval_seq, eval_atomic.
  rewrite (eval_rep_until _ _ _ Atomic _ _ (tests_str q)) by discriminate.
  rewrite emit_ok by exact Ha.
  set (v := before (starts q) i2). set (w := after (starts q) i2).
  destruct (strip_prefix q w) as [r|] eqn:E.
  - apply strip_prefix_spec in E as ->. rewrite (skipf_solid a (q ++ r)) by apply Hs.
    rewrite eval_str. rewrite (proj2 (strip_prefix_spec q (q ++ r) r) eq_refl).
    cbn [app]. rewrite emit_ok by exact Ha. unfold leaf. reflexivity.
  - assert (Hw : w = []).
    { destruct (after_spec (starts q) i2) as [H|H]; fold w in H; [exact H|].
      unfold starts in H. rewrite E in H. discriminate. }
    rewrite Hw. rewrite (skipf_solid a []) by exact I. rewrite eval_str.
    destruct q; [congruence|]. reflexivity.
Qed.

Lemma dqs_rule : double_quoted_string = quoted_rule R_double_quoted_string R_double_quoted_value dq.
Proof. reflexivity. Qed.
Lemma sqs_rule : single_quoted_string = quoted_rule R_single_quoted_string R_single_quoted_value sq.
Proof. reflexivity. Qed.
Lemma bqs_rule : backquoted_quoted_string = quoted_rule R_backquoted_quoted_string R_backquoted_quoted_value bq.
Proof. reflexivity. Qed.
Lemma tqs_rule : triple_quoted_string = quoted_rule R_triple_quoted_string R_triple_quoted_value tq.
Proof. reflexivity. Qed.

Lemma solid_char c r : ~ is_ws c -> c <> 47 -> solid (c :: r).
Proof. cbn. auto. Qed.
Ltac not_ws := unfold is_ws; let H := fresh in intros [H|[H|[H|H]]]; discriminate H.
Lemma solid_dq r : solid (dq ++ r). Proof. apply solid_char; [not_ws|discriminate]. Qed.
Lemma solid_sq r : solid (sq ++ r). Proof. apply solid_char; [not_ws|discriminate]. Qed.
Lemma solid_bq r : solid (bq ++ r). Proof. apply solid_char; [not_ws|discriminate]. Qed.
Lemma solid_tq r : solid (tq ++ r). Proof. apply solid_char; [not_ws|discriminate]. Qed.

(** ** The character predicates agree with the specification. *)
Lemma alpha_b_spec c : alpha_b c = true <-> letter c.
Proof. unfold alpha_b, letter. rewrite orb_true_iff, !andb_true_iff, !N.leb_le. tauto. Qed.
Lemma digit_b_spec c : digit_b c = true <-> digit c.
Proof. unfold digit_b, digit. rewrite andb_true_iff, !N.leb_le. tauto. Qed.
Lemma word_b_spec c : word_b c = true <-> word_char c.
Proof.
  unfold word_b, alnum_b, word_char, letter, digit. rewrite !orb_true_iff, !andb_true_iff, !N.leb_le, N.eqb_eq. tauto.
Qed.
Lemma hex_b_spec c : hex_b c = true <-> hex_digit c.
Proof. unfold hex_b, hex_digit, digit. rewrite !orb_true_iff, !andb_true_iff, !N.leb_le. tauto. Qed.

Lemma Forall_bool (p : char -> bool) (P : char -> Prop) x :
  (forall c, p c = true <-> P c) -> Forall (fun c => p c = true) x <-> Forall P x.
Proof. intros H. split; apply Forall_impl; intros c; apply H. Qed.

Lemma word_takewhile c r : alpha_b c = true -> word (c :: takewhile word_b r).
Proof.
  intros H. exists c, (takewhile word_b r). split; [reflexivity|]. split; [apply alpha_b_spec; exact H|].
  apply (Forall_bool word_b); [apply word_b_spec|]. apply takewhile_Forall.
Qed.
Lemma svar_tail_ok r : spaced_tail (svar_tail r).
Proof.
  assert (H : forall n r, (List.length r <= n)%nat -> spaced_tail (svar_tail r)).
  { intros n. induction n as [n IH] using lt_wf_ind. intros x Hn. destruct x as [|c x]; cbn [svar_tail]; [constructor|].
    cbn [List.length] in Hn.
    destruct (word_b c) eqn:Ec; [constructor; [apply word_b_spec; exact Ec|apply (IH (List.length x)); lia]|].
    destruct (N.eqb_spec c 32) as [->|]; [|constructor].
    destruct x as [|d x]; [constructor|]. cbn [List.length] in Hn.
    destruct (word_b d) eqn:Ed; constructor; [apply word_b_spec; exact Ed|apply (IH (List.length x)); lia]. }
  apply (H (List.length r)). lia.
Qed.
Lemma svar_split r : svar_tail r ++ svar_rest r = r.
Proof.
  assert (H : forall n r, (List.length r <= n)%nat -> svar_tail r ++ svar_rest r = r).
  { intros n. induction n as [n IH] using lt_wf_ind. intros x Hn. destruct x as [|c x]; cbn [svar_tail svar_rest]; [reflexivity|].
    cbn [List.length] in Hn. destruct (word_b c); cbn [app]; [rewrite (IH (List.length x)) by lia; reflexivity|].
    destruct (c =? 32); [|reflexivity]. destruct x as [|d x]; [reflexivity|]. cbn [List.length] in Hn.
    destruct (word_b d); cbn [app]; [rewrite (IH (List.length x)) by lia; reflexivity|reflexivity]. }
  apply (H (List.length r)). lia.
Qed.

(** [before (starts q)] stops exactly at the first closing delimiter. *)
Lemma closes_first_before q i r : q <> [] -> after (starts q) i = q ++ r -> closes_first q (before (starts q) i).
Proof.
  intros Hq Ha a b H.
  (* position of [a] *)
  destruct (Nat.le_gt_cases (List.length (before (starts q) i)) (List.length a)) as [Hl|Hl].
  - apply (f_equal (@List.length _)) in H. rewrite !app_length in H.
    destruct b; [reflexivity|]. cbn [List.length] in H. lia.
  - exfalso. set (v := before (starts q) i) in *.
    assert (Hv : exists b1, v = a ++ b1 /\ b1 <> []).
    { exists (skipn (List.length a) v). split.
      - rewrite <- (firstn_skipn (List.length a) v) at 1. f_equal.
        apply (f_equal (firstn (List.length a))) in H. rewrite !firstn_app, Nat.sub_diag, firstn_all in H.
        replace (List.length a - List.length v)%nat with 0%nat in H by lia. cbn [firstn] in H.
        rewrite !app_nil_r in H. exact H.
      - intros E. apply (f_equal (@List.length _)) in E. rewrite skipn_length in E. cbn [List.length] in E. lia. }
    destruct Hv as (b1 & Hv & Hb1). pose proof (before_spec (starts q) i a b1 Hv Hb1) as Hf.
    rewrite Ha in Hf. rewrite Hv in H. rewrite <- app_assoc in H. apply app_inv_head in H.
    assert (Ht : starts q (b1 ++ q ++ r) = true).
    { apply starts_true. exists (b ++ r). rewrite app_assoc, H, <- app_assoc. reflexivity. }
    congruence.
Qed.

Lemma no_layout_prefix v x : no_layout_start (v ++ x) -> no_layout_start v.
Proof.
  intros (H1 & H2 & H3). split; [|split].
  - intros c r ->. eapply H1. reflexivity.
  - intros r ->. apply (H2 (r ++ x)). rewrite <- app_assoc. reflexivity.
  - intros b r ->. apply (H3 b (r ++ x)). rewrite <- !app_assoc. reflexivity.
Qed.
