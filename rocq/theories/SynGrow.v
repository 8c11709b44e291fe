(** * SynGrow: what is read stays read when more text is added after a line end. *)

From Verif Require Import SynLex SynEval SynCut.
From Verif Require Import Syntax.

(** A check for samples. *)
Definition two_at (w t : str) (n : nat) : bool := if list_eq_dec N.eq_dec (firstn 2 (skipn n t)) w then true else false.
Definition closed_check (t : str) : bool :=
  forallb (fun n => negb (two_at (s "/*") t n) || existsb (two_at (s "*/") t) (List.seq (S (S n)) (List.length t))) (List.seq 0 (List.length t)).
Lemma two_at_ok w t n : List.length w = 2%nat -> two_at w t n = true -> exists a b, t = a ++ w ++ b /\ List.length a = n.
Proof.
  unfold two_at. destruct list_eq_dec as [E|]; [|discriminate]. intros Hw _. exists (firstn n t), (skipn 2 (skipn n t)). split; [rewrite <- E, !firstn_skipn; reflexivity|].
  apply firstn_length_le. destruct (le_lt_dec n (List.length t)) as [H|H]; [exact H|]. rewrite skipn_all2 in E by lia. rewrite <- E in Hw. discriminate.
Qed.
Lemma closed_ok t : closed_check t = true -> comments_closed t.
Proof.
  intros H a b ->. unfold closed_check in H. rewrite forallb_forall in H. specialize (H (List.length a)).
  assert (K : two_at (s "/*") (a ++ s "/*" ++ b) (List.length a) = true) by (unfold two_at; rewrite skipn_app, skipn_all, Nat.sub_diag; destruct list_eq_dec as [|K]; [reflexivity|destruct K; reflexivity]).
  rewrite K in H. cbn [negb orb] in H. destruct (proj1 (existsb_exists _ _) (H ltac:(apply in_seq; rewrite !app_length; cbn; lia))) as (n & Hn & E). clear H K.
  apply in_seq in Hn. apply two_at_ok in E as (c & d & E & Hc); [|reflexivity].
  assert (Q : exists e, c = (a ++ s "/*") ++ e).
  { exists (skipn (List.length (a ++ s "/*")) c). rewrite <- (firstn_skipn (List.length (a ++ s "/*")) c) at 1. f_equal.
    assert (E' : firstn (List.length (a ++ s "/*")) (a ++ s "/*" ++ b) = a ++ s "/*") by (rewrite app_assoc, firstn_app, Nat.sub_diag, firstn_O, app_nil_r, firstn_all; reflexivity).
    rewrite E, firstn_app in E'. rewrite app_length in E' at 2. cbn [List.length] in E'. replace (List.length a + _ - List.length c)%nat with 0%nat in E' by (cbn; lia). rewrite firstn_O, app_nil_r in E'. exact E'. }
  destruct Q as (e & ->). exists e, d. rewrite <- app_assoc in E. rewrite <- !app_assoc in E. apply app_inv_head in E. cbn in E. injection E as E. exact E.
Qed.

Section Grow.
  (** The text added. *)
  Variable t : str.
  Notation z := (10 :: t).
  Definition ext (r : str) : str := match r with [] => fin t | _ => r ++ z end.
  (** No comment opened before ends in the added text. *)
  Definition safe (i : str) : Prop := comments_closed i \/ (forall a b, t <> a ++ s "*/" ++ b).
  Lemma safe_suffix x r : safe (x ++ r) -> safe r.
  Proof. intros [H|H]; [left|right; exact H]. intros a b ->. apply (H (x ++ a) b). rewrite <- !app_assoc. reflexivity. Qed.

  Lemma nls_grow r : safe r -> r <> [] -> no_layout_start r -> no_layout_start (r ++ z).
  Proof.
    intros Hs Hr (H1 & H2 & H3). destruct r as [|c r]; [congruence|]. split; [|split].
    - intros d x E. injection E as <- _. apply (H1 c r). reflexivity.
    - intros x E. destruct r as [|d r]; cbn in E; [discriminate|]. injection E as E1 E2 E. subst c d. apply (H2 r). reflexivity.
    - intros body x E. destruct r as [|d r]; cbn in E; [discriminate|]. injection E as E1 E2 E. subst c d.
      destruct Hs as [Hs|Hs]; [destruct (Hs [] r eq_refl) as (b & y & ->); apply (H3 b y); reflexivity|].
      assert (K : (exists b y, r = b ++ s "*/" ++ y) \/ (exists b y, t = b ++ s "*/" ++ y)).
      { clear -E. revert body E. induction r as [|d r IH]; intros body E; cbn [app] in E.
        - right. destruct body as [|b body]; [discriminate|]. injection E as _ E. exists body, x. exact E.
        - destruct body as [|b body].
          + cbn in E. injection E as -> E. destruct r as [|d r]; [discriminate|]. injection E as -> E. left. exists [], r. reflexivity.
          + injection E as -> E. destruct (IH body E) as [(b' & y & ->)|K]; [left|right; exact K]. exists (b :: b'), y. reflexivity. }
      destruct K as [(b & y & ->)|(b & y & K)]; [apply (H3 b y)|apply (Hs b y K)]. reflexivity.
  Qed.
  Lemma gap_app g g' : gap g -> gap g' -> gap (g ++ g').
  Proof.
    intros H H'. induction H as [|c g Hc _ IH|b c g Hb Hc _ IH|b g Hb _ IH]; [exact H'| | |].
    - cbn [app]. constructor; assumption.
    - rewrite <- !app_assoc. cbn [app]. apply gap_line; assumption.
    - rewrite <- !app_assoc. apply gap_block; assumption.
  Qed.
  Lemma gap_eof_grow g : gap_eof g -> gap (g ++ [10]).
  Proof.
    intros [g' H|g' b H Hb].
    - apply gap_app; [exact H|]. constructor; [right; right; left; reflexivity|constructor].
    - rewrite <- !app_assoc. apply gap_app; [exact H|]. apply gap_line; [exact Hb|left; reflexivity|constructor].
  Qed.
  Lemma gap_eof_app g g' : gap g -> gap_eof g' -> gap_eof (g ++ g').
  Proof.
    intros H [g0 H0|g0 b H0 Hb]; [constructor; apply gap_app; assumption|]. rewrite app_assoc. constructor; [apply gap_app; assumption|exact Hb].
  Qed.
  Lemma lay_grow i r : safe i -> lay i r -> lay (i ++ z) (ext r).
  Proof.
    intros Hs (g & -> & Hg & Hn). apply safe_suffix in Hs. destruct r as [|c r].
    - rewrite app_nil_r. assert (G : gap (g ++ [10])) by (apply gap_eof_grow; destruct Hg as [Hg|[_ Hg]]; [constructor|]; exact Hg).
      destruct (lay_of t) as (g' & E & Hg' & Hn'). cbn [ext]. exists ((g ++ [10]) ++ g'). split; [rewrite E at 1; rewrite <- !app_assoc; reflexivity|].
      split; [|exact Hn']. destruct Hg' as [Hg'|[E' Hg']]; [left; apply gap_app; assumption|right]. split; [exact E'|]. apply gap_eof_app; assumption.
    - destruct Hg as [Hg|[E _]]; [|discriminate]. exists g. cbn [ext]. split; [symmetry; apply app_assoc|]. split; [left; exact Hg|]. apply nls_grow; [exact Hs|discriminate|exact Hn].
  Qed.
  Lemma ext_app w m : w <> [] -> ext (w ++ m) = w ++ m ++ z.
  Proof. intros H. destruct w as [|c w]; [congruence|]. cbn [app ext]. rewrite <- app_assoc. reflexivity. Qed.
  Lemma ext_cons c m : ext (c :: m) = c :: m ++ z.
  Proof. reflexivity. Qed.
  Definition growp (R : str -> str -> Prop) : Prop := localp R /\ forall i r, safe i -> R i r -> R (ext i) (ext r).
  Definition grow {A} (R : reader A) : Prop := local R /\ forall i r a, safe i -> R i r a -> R (ext i) (ext r) a.
  Lemma stepp R i r : growp R -> R i r -> safe i -> safe r /\ R (ext i) (ext r).
  Proof. intros [[L _] G] H Hs. split; [|auto]. apply L in H as (x & ->). apply safe_suffix in Hs. exact Hs. Qed.
  Lemma step {A} (R : reader A) i r a : grow R -> R i r a -> safe i -> safe r /\ R (ext i) (ext r) a.
  Proof. intros [[L _] G] H Hs. split; [|auto]. apply L in H as (x & ->). apply safe_suffix in Hs. exact Hs. Qed.
  Lemma tok_grow w : w <> [] -> growp (tok w).
  Proof. intros Hw. split; [apply tok_local|]. intros i r Hs (m & -> & Hl). apply safe_suffix in Hs. exists (m ++ z). split; [apply ext_app; exact Hw|]. apply lay_grow; assumption. Qed.
  Lemma kw_grow k : s k <> [] -> growp (kw k).
  Proof. intros Hk. split; [apply kw_local|]. intros i r Hs (w & m & -> & Hw & Hl). apply safe_suffix in Hs. exists w, (m ++ z). split; [apply ext_app; intros ->; inversion Hw; congruence|]. split; [exact Hw|]. apply lay_grow; assumption. Qed.
  Lemma no_word_grow m : no_word m -> no_word (m ++ z).
  Proof. intros H c x E. destruct m as [|d m]; cbn in E; injection E as <- _; [|apply (H d m); reflexivity]. intros Q. unfold word_char, letter, digit in Q. lia. Qed.
  Lemma no_phrase_grow m : no_phrase m -> no_phrase (m ++ z).
  Proof.
    intros [H1 H2]. split; [apply no_word_grow; exact H1|]. intros c x E. destruct m as [|d [|e m]]; cbn in E; [discriminate| |].
    - injection E as _ <- _. intros Q. unfold word_char, letter, digit in Q. lia.
    - injection E as -> <- _. apply (H2 e m). reflexivity.
  Qed.
  Lemma no_digit_grow m : no_digit m -> no_digit (m ++ z).
  Proof. intros H c x E. destruct m as [|d m]; cbn in E; injection E as <- _; [|apply (H d m); reflexivity]. unfold digit; lia. Qed.
  Lemma plain_grow : grow plain.
  Proof.
    split; [apply plain_local|]. intros i r w Hs (m & -> & Hw & Hn & Hl). apply safe_suffix in Hs. exists (m ++ z). split; [apply ext_app; intros ->; destruct Hw as (c0 & w0 & E0 & _); discriminate|].
    split; [exact Hw|]. split; [apply no_word_grow; exact Hn|apply lay_grow; assumption].
  Qed.
  Lemma phrase_grow : grow phrase.
  Proof.
    split; [apply phrase_local|]. intros i r w Hs (m & -> & Hw & Hn & Hl). apply safe_suffix in Hs. exists (m ++ z). split; [apply ext_app; intros ->; destruct Hw as (c0 & w0 & E0 & _); discriminate|].
    split; [exact Hw|]. split; [apply no_phrase_grow; exact Hn|apply lay_grow; assumption].
  Qed.
  Lemma quote_grow q : q <> [] -> grow (quote q).
  Proof.
    intros Hq. split; [apply quote_local|]. intros i r v Hs (i' & m & -> & Hi & Hc & Hl). apply safe_suffix in Hs.
    assert (Hm : safe m). { destruct Hi as (g & -> & _). apply safe_suffix, safe_suffix, safe_suffix in Hs. exact Hs. }
    apply (lay_grow _ _ Hs) in Hi. exists (i' ++ z), (m ++ z). split; [apply ext_app; exact Hq|]. split; [|split; [exact Hc|apply lay_grow; assumption]].
    replace (ext (v ++ q ++ m)) with (v ++ q ++ m ++ z) in Hi; [exact Hi|]. unfold ext. destruct (v ++ q ++ m) as [|c x] eqn:E.
    - apply app_eq_nil in E as [_ E]. apply app_eq_nil in E as [E _]. contradiction.
    - rewrite <- E, <- !app_assoc. reflexivity.
  Qed.
  Lemma or_grow {A} (R S : reader A) : grow R -> grow S -> grow (fun i r a => R i r a \/ S i r a).
  Proof. intros [L1 G1] [L2 G2]. split; [apply or_local; assumption|]. intros i r a Hs [H|H]; [left|right]; auto. Qed.
  Lemma name_grow : grow name.
  Proof. apply (or_grow plain (quote dq)); [apply plain_grow|apply quote_grow; discriminate]. Qed.
  Lemma text_grow : grow text.
  Proof. apply (or_grow (quote tq) (quote sq)); apply quote_grow; discriminate. Qed.
  Ltac app1 := repeat rewrite <- app_assoc; cbn [app]; reflexivity.
  Lemma literal_grow : grow literal_r.
  Proof.
    split; [apply literal_local|]. intros i r a Hs H. revert Hs.
    destruct H as [i r v H|i r v H|i r H|i r H|i r H|d m r Hd Hn Hp Hl|d1 d2 m r f Hd Hd2 Hn Hl Hf|h m r Hh Hlen Hl|h m r Hh Hlen Hno Hl]; intros Hs.
    - constructor. apply text_grow; assumption.
    - constructor. apply quote_grow; [discriminate|assumption..].
    - constructor. apply tok_grow; [discriminate|assumption..].
    - constructor. apply tok_grow; [discriminate|assumption..].
    - constructor. apply tok_grow; [discriminate|assumption..].
    - apply safe_suffix in Hs. rewrite ext_app by apply Hd. constructor; [exact Hd|apply no_digit_grow; exact Hn| |apply lay_grow; assumption].
      intros m' E. destruct m as [|c m]; cbn in E; [discriminate|]. injection E as -> _. apply (Hp m). reflexivity.
    - apply safe_suffix, safe_suffix, safe_suffix in Hs. rewrite ext_app by apply Hd. rewrite <- !app_assoc.
      constructor; [exact Hd|exact Hd2|apply no_digit_grow; exact Hn|apply lay_grow; assumption|exact Hf].
    - apply safe_suffix, safe_suffix in Hs. rewrite ext_app by discriminate. rewrite <- !app_assoc. constructor; [exact Hh|exact Hlen|apply lay_grow; assumption].
    - apply safe_suffix, safe_suffix in Hs. rewrite ext_app by discriminate. rewrite <- !app_assoc. apply lr_hex3; [exact Hh|exact Hlen| |apply lay_grow; assumption].
      intros h' m' E L F. destruct (le_lt_dec (List.length h') (List.length m)) as [Hle|Hlt].
      + apply (Hno h' (skipn (List.length h') m)); [|exact L|exact F].
        assert (E' : firstn (List.length h') (m ++ z) = h') by (rewrite E, firstn_app, firstn_all, Nat.sub_diag, firstn_O, app_nil_r; reflexivity).
        rewrite firstn_app in E'. replace (List.length h' - List.length m)%nat with 0%nat in E' by lia. rewrite firstn_O, app_nil_r in E'.
        rewrite <- E' at 1. symmetry. apply firstn_skipn.
      + assert (In 10 h').
        { assert (E' : firstn (List.length h') (m ++ z) = h') by (rewrite E, firstn_app, firstn_all, Nat.sub_diag, firstn_O, app_nil_r; reflexivity).
          rewrite <- E', firstn_app. apply in_or_app. right. destruct (List.length h' - List.length m)%nat eqn:En; [lia|]. left. reflexivity. }
        rewrite Forall_forall in F. specialize (F 10 H). unfold hex_digit, digit in F. lia.
  Qed.
  Lemma bare_grow : grow bare.
  Proof. split; [apply bare_local|]. intros i r a Hs (w & H & Hn & ->). exists w. split; [apply phrase_grow; assumption|auto]. Qed.
  Ltac gp L H := apply (stepp _ _ _ L) in H; [|assumption]; let H' := fresh "Hs" in destruct H as [H' H].
  Ltac gr L H := apply (step _ _ _ _ L) in H; [|assumption]; let H' := fresh "Hs" in destruct H as [H' H].
  Lemma many_grow {A} (R : reader A) : grow R -> grow (many R).
  Proof.
    intros HR. split; [apply many_local, HR|]. intros i r l Hs H. induction H as [i|i m r a l Ha Hl IH]; [constructor|].
    gr HR Ha. econstructor; [exact Ha|]. auto.
  Qed.
  Lemma maybe_grow {A} (R : reader A) : grow R -> grow (maybe R).
  Proof.
    intros HR. split; [apply maybe_local, HR|]. intros i r o Hs H0; revert Hs; destruct H0 as [i'|i' r' a Ha]; intros Hs; [constructor|]. gr HR Ha. constructor. exact Ha.
  Qed.
  Notation T w := (tok_grow (s w) ltac:(discriminate)).
  Notation K w := (kw_grow w ltac:(discriminate)).
  Lemma commas_grow {A} (R : reader A) : grow R -> grow (commas R).
  Proof.
    intros HR. split; [apply commas_local, HR|]. intros i r l Hs H. induction H as [i r a Ha|i m m' r a l Ha Ht Hl IH].
    - gr HR Ha. constructor. exact Ha.
    - gr HR Ha. gp (T ",") Ht. eapply commas_more; eauto.
  Qed.
  Lemma bracket_grow op cl {A} (R : reader A) : s op <> [] -> s cl <> [] -> grow R -> grow (bracket op cl R).
  Proof.
    intros Ho Hc HR. split; [apply bracket_local, HR|]. intros i r l Hs H0; revert Hs; destruct H0 as [i' m r' H1 H2|i' m m' r' l' H1 H2 H3]; intros Hs.
    - gp (tok_grow (s op) Ho) H1. gp (tok_grow (s cl) Hc) H2. eapply bracket_none; eassumption.
    - gp (tok_grow (s op) Ho) H1. gr (commas_grow R HR) H2. gp (tok_grow (s cl) Hc) H3. eapply bracket_some; eassumption.
  Qed.
  Lemma braces_grow {A} (R : reader A) : grow R -> grow (braces R).
  Proof.
    intros HR. split; [apply braces_local, HR|]. intros i r l Hs (m & m' & H1 & H2 & H3).
    gp (T "{") H1. gr (many_grow R HR) H2. gp (T "}") H3. exists (ext m), (ext m'). auto.
  Qed.
  Lemma attr_grow : grow attr.
  Proof.
    split; [apply attr_local|]. intros i r a Hs H0; revert Hs; destruct H0 as [i' r' k H|i' m m' r' k v H1 H2 H3]; intros Hs.
    - gr phrase_grow H. constructor. assumption.
    - gr phrase_grow H1. gp (T ":") H2. eapply attr_value; [eassumption..|].
      destruct H3 as [H3|[H3|(w & H3 & ->)]]; [left; apply literal_grow; assumption|right; left; apply bare_grow; assumption|].
      right. right. exists w. split; [|reflexivity]. apply quote_grow; [discriminate|assumption..].
  Qed.
  Lemma attrs_grow : grow attrs. Proof. apply bracket_grow; [discriminate..|apply attr_grow]. Qed.
  Lemma decl_grow : grow decl_name.
  Proof.
    split; [apply decl_local|]. intros i r [[sc|] n] Hs H; cbn [decl_name] in *.
    - destruct H as (m & m' & H1 & H2 & H3). gr name_grow H1. gp (T ".") H2. gr name_grow H3. eauto.
    - gr name_grow H. assumption.
  Qed.
  Lemma columns_grow : grow columns.
  Proof.
    split; [apply columns_local|]. intros i r l Hs H0; revert Hs; destruct H0 as [i' r' c H|i' m m' r' l' H1 H2 H3]; intros Hs.
    - gr name_grow H. constructor. assumption.
    - gp (T "(") H1. gr (commas_grow name name_grow) H2. gp (T ")") H3. eapply cols_more; eassumption.
  Qed.
  Lemma endpoint_grow : grow endpoint.
  Proof.
    split; [apply endpoint_local|]. intros i r l Hs H0; revert Hs; destruct H0 as [i' m1 m2 r' t' l' H1 H2 H3|i' m1 m2 m3 m4 r' sc t' l' H1 H2 H3 H4 H5]; intros Hs.
    - gr name_grow H1. gp (T ".") H2. gr columns_grow H3. econstructor; eassumption.
    - gr name_grow H1. gp (T ".") H2. gr name_grow H3. gp (T ".") H4. gr columns_grow H5. eapply end_schema; eassumption.
  Qed.
  Lemma rel_grow : grow rel.
  Proof.
    split; [apply rel_local|]. intros i r x Hs (w & Hw & H). exists w. split; [exact Hw|]. apply tok_grow; [|assumption..].
    intros ->. destruct x; cbn in Hw; discriminate.
  Qed.
  Lemma inline_grow : grow inline.
  Proof.
    split; [apply inline_local|]. intros i r l Hs H0; revert Hs; destruct H0 as [i' m1 m2 m3 r' x e H1 H2 H3 H4]; intros Hs.
    gp (T "ref") H1. gp (T ":") H2. gr rel_grow H3. gr endpoint_grow H4. econstructor; eassumption.
  Qed.
  Lemma ref_body_grow n : grow (ref_body n).
  Proof.
    split; [apply ref_body_local|]. intros i r l Hs H0; revert Hs; destruct H0 as [i' m1 m2 m3 r' x a b st H1 H2 H3 H4]; intros Hs.
    gr endpoint_grow H1. gr rel_grow H2. gr endpoint_grow H3. gr (maybe_grow attrs attrs_grow) H4. econstructor; eassumption.
  Qed.
  Lemma reference_grow : grow reference.
  Proof.
    split; [apply reference_local|]. intros i r l Hs H0; revert Hs; destruct H0 as [i' m1 m2 m3 r' n a H1 H2 H3 H4|i' m1 m2 m3 m4 r' n a H1 H2 H3 H4 H5]; intros Hs.
    - gp (K "Ref") H1. gr (maybe_grow name name_grow) H2. gp (T ":") H3. gr (ref_body_grow n) H4. econstructor; eassumption.
    - gp (K "Ref") H1. gr (maybe_grow name name_grow) H2. gp (T "{") H3. gr (ref_body_grow n) H4. gp (T "}") H5. eapply ref_braces; eassumption.
  Qed.
  Lemma note_grow : grow note.
  Proof.
    split; [apply note_local|]. intros i r l Hs H0; revert Hs; destruct H0 as [i' m1 m2 r' v H1 H2 H3|i' m1 m2 m3 r' v H1 H2 H3 H4]; intros Hs.
    - gp (K "Note") H1. gp (T ":") H2. gr text_grow H3. econstructor; eassumption.
    - gp (K "Note") H1. gp (T "{") H2. gr text_grow H3. gp (T "}") H4. eapply note_braces; eassumption.
  Qed.
  Lemma type_nonempty raw ty : type_raw raw ty -> raw <> [].
  Proof.
    intros [p np b ta args td dims Hp Hb Ha Hd|p np b ta args td1 d1 td2 d2 Hp Hb Ha H1 H2 Hn] E.
    - apply app_eq_nil in E as [_ E]. apply app_eq_nil in E as [E _]. destruct Hb as (c0 & w0 & E0 & _). congruence.
    - apply app_eq_nil in E as [_ E]. discriminate.
  Qed.
  Lemma type_grow : grow type_r.
  Proof.
    split; [apply type_local|]. intros i r ty Hs (raw & m & -> & Ht & Hm & Hd & Hl). apply safe_suffix in Hs.
    exists raw, (m ++ z). split; [apply ext_app; eapply type_nonempty; exact Ht|]. split; [exact Ht|]. split; [|split; [|apply lay_grow; assumption]].
    - intros x c E Hc. apply no_word_grow. eapply Hm; eassumption.
    - intros d x Fd E. assert (Q : exists y, m = s "[" ++ d ++ s "]" ++ y); [|destruct Q as (y & Ey); exact (Hd d y Fd Ey)].
      destruct m as [|c m]; cbn in E; [discriminate|]. injection E as -> E. clear -Fd E. 
      assert (Q : exists y, m = d ++ s "]" ++ y); [|destruct Q as (y & ->); exists y; reflexivity].
      revert m E. induction Fd as [|a d Ha _ IH]; intros m E; (destruct m as [|c m]; cbn in E; [injection E as E _; try discriminate|]).
      + injection E as -> _. exists m. reflexivity.
      + subst a. destruct Ha. lia.
      + injection E as -> E. destruct (IH m E) as (y & ->). exists y. reflexivity.
  Qed.
  Lemma col_item_grow : grow col_item.
  Proof. split; [apply col_item_local|]. intros i r [a|x] Hs H; cbn [col_item] in *; [apply attr_grow|apply inline_grow]; assumption. Qed.
  Lemma col_settings_grow : grow col_settings_r.
  Proof.
    split; [apply col_settings_local|]. intros i r x Hs (l & H & E1 & E2). exists l. split; [|auto]. apply bracket_grow; [discriminate..|apply col_item_grow|assumption|exact H].
  Qed.
  Lemma column_grow : grow column.
  Proof.
    split; [apply column_local|]. intros i r l Hs H0; revert Hs; destruct H0 as [i' m1 m2 r' n ty st H1 H2 H3]; intros Hs.
    gr name_grow H1. gr type_grow H2. gr (maybe_grow _ col_settings_grow) H3. econstructor; eassumption.
  Qed.
  Lemma index_col_grow : grow index_col.
  Proof.
    split; [apply index_col_local|]. intros i r l Hs H0; revert Hs; destruct H0 as [i' r' w H|i' r' v H]; intros Hs; constructor; [apply name_grow; assumption|apply quote_grow; [discriminate|assumption..]].
  Qed.
  Lemma index_grow : grow index.
  Proof.
    split; [apply index_local|]. intros i r l Hs H0; revert Hs; destruct H0 as [i' m r' c st H1 H2|i' m r' c st H1 H2]; intros Hs.
    - gr index_col_grow H1. gr (maybe_grow attrs attrs_grow) H2. econstructor; eassumption.
    - gr (bracket_grow "(" ")" index_col ltac:(discriminate) ltac:(discriminate) index_col_grow) H1. gr (maybe_grow attrs attrs_grow) H2. eapply index_list; eassumption.
  Qed.
  Lemma indexes_grow : grow indexes.
  Proof.
    split; [apply indexes_local|]. intros i r l Hs H0; revert Hs; destruct H0 as [i' m r' l' H1 H2]; intros Hs. gp (K "Indexes") H1. gr (braces_grow index index_grow) H2. econstructor; eassumption.
  Qed.
  Lemma table_item_grow : grow table_item.
  Proof. split; [apply table_item_local|]. intros i r [a|x|x] Hs H; cbn [table_item] in *; [apply column_grow|apply note_grow|apply indexes_grow]; assumption. Qed.
  Lemma alias_grow : grow alias.
  Proof. split; [apply alias_local|]. intros i r w Hs (m & H1 & H2). gp (K "as ") H1. gr name_grow H2. exists (ext m). auto. Qed.
  Lemma table_grow : grow table.
  Proof.
    split; [apply table_local|]. intros i r l Hs H0; revert Hs; destruct H0 as [i' m1 m2 m3 m4 r' d al st l' H1 H2 H3 H4 H5]; intros Hs.
    gp (K "Table ") H1. gr decl_grow H2. gr (maybe_grow _ alias_grow) H3. gr (maybe_grow attrs attrs_grow) H4. gr (braces_grow _ table_item_grow) H5. econstructor; eassumption.
  Qed.
  Lemma enum_value_grow : grow enum_value_r.
  Proof. split; [apply enum_value_local|]. intros i r x Hs (m & H1 & H2). gr name_grow H1. gr (maybe_grow attrs attrs_grow) H2. exists (ext m). auto. Qed.
  Lemma enum_grow : grow enum.
  Proof.
    split; [apply enum_local|]. intros i r l Hs H0; revert Hs; destruct H0 as [i' m1 m2 r' d l' H1 H2 H3]; intros Hs. gp (K "Enum ") H1. gr decl_grow H2. gr (braces_grow _ enum_value_grow) H3. econstructor; eassumption.
  Qed.
  Lemma group_item_grow : grow group_item.
  Proof. split; [apply group_item_local|]. intros i r [a|x] Hs H; cbn [group_item] in *; [apply note_grow|apply decl_grow]; assumption. Qed.
  Lemma group_grow : grow group.
  Proof.
    split; [apply group_local|]. intros i r l Hs H0; revert Hs; destruct H0 as [i' m1 m2 m3 r' n st l' H1 H2 H3 H4]; intros Hs.
    gp (K "TableGroup ") H1. gr name_grow H2. gr (maybe_grow attrs attrs_grow) H3. gr (braces_grow _ group_item_grow) H4. econstructor; eassumption.
  Qed.
  Lemma property_grow : grow property_r.
  Proof.
    split; [apply property_local|]. intros i r x Hs (m & m' & H1 & H2 & H3 & H4).
    gr phrase_grow H1. gp (T ":") H2. exists (ext m), (ext m'). split; [exact H1|]. split; [exact H2|]. split; [|exact H4].
    destruct H3 as [H3|H3]; [left; apply literal_grow|right; apply bare_grow]; assumption.
  Qed.
  Lemma project_item_grow : grow project_item.
  Proof. split; [apply project_item_local|]. intros i r [a|x] Hs H; cbn [project_item] in *; [apply note_grow|apply property_grow]; assumption. Qed.
  Lemma project_grow : grow project.
  Proof.
    split; [apply project_local|]. intros i r l Hs H0; revert Hs; destruct H0 as [i' m1 m2 r' n l' H1 H2 H3]; intros Hs.
    gp (K "Project ") H1. gr name_grow H2. gr (braces_grow _ project_item_grow) H3. econstructor; eassumption.
  Qed.
  Lemma block_grow : grow block_r.
  Proof.
    split; [apply block_local|]. intros i r [x|x|x|x|x|x] Hs H; cbn [block_r] in *;
      [apply project_grow|apply table_grow|apply group_grow|apply note_grow|apply reference_grow|apply enum_grow]; assumption.
  Qed.
End Grow.
Lemma many_app {A} (R : reader A) i m r l l' : many R i m l -> many R m r l' -> many R i r (l ++ l').
Proof. intros H H'. induction H as [i|i m1 m a l Ha _ IH]; [exact H'|]. cbn [app]. econstructor; eauto. Qed.
Theorem text_app t1 t2 a b : safe t2 t1 -> dbml_text t1 a -> dbml_text t2 b -> dbml_text (t1 ++ 10 :: t2) (a ++ b).
Proof.
  intros Hs (m1 & L1 & M1) (m2 & L2 & M2). exists (ext t2 m1). split; [apply lay_grow; assumption|].
  pose proof L1 as (g & -> & _). apply safe_suffix in Hs.
  apply (proj2 (many_grow t2 block_r (block_grow t2)) _ _ _ Hs) in M1. eapply many_app; [exact M1|].
  cbn [ext]. apply lay_fin in L2. rewrite L2. exact M2.
Qed.
