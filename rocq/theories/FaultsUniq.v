(** * FaultsUniq: a text has one list of faults. *)

From Verif Require Import SynMain.
From Verif Require Export FaultsErase LocUniq.
From Verif Require Import Syntax.

(** ** Values, whatever their size *)
Lemma d_leaf_fun rl p w w' : d_leaf rl p w -> d_leaf rl p w' -> w = w'.
Proof. intros [_ H1] [_ H2]. congruence. Qed.
Lemma d_quoted_fun rs rv p v v' : d_quoted rs rv p v -> d_quoted rs rv p v' -> v = v'.
Proof. intros (_ & x & H1 & D1) (_ & x' & H2 & D2). rewrite H1 in H2. injection H2 as <-. eapply d_leaf_fun; eassumption. Qed.
Lemma d_string_fun p v v' : d_string p v -> d_string p v' -> v = v'.
Proof.
  intros (_ & q & H1 & D1) (_ & q' & H2 & D2). rewrite H1 in H2. injection H2 as <-.
  destruct D1 as [D1|D1], D2 as [D2|D2]; try (exfalso; destruct D1 as [D1 _], D2 as [D2 _]; congruence); eapply d_quoted_fun; eassumption.
Qed.
Lemma d_number_fun p v v' : d_number p v -> d_number p v' -> v = v'.
Proof.
  intros (_ & q & H1 & D1) (_ & q' & H2 & D2). rewrite H1 in H2. injection H2 as <-.
  destruct D1 as [(d & D1 & _ & ->)|(d & D1 & ->)], D2 as [(d' & D2 & _ & ->)|(d' & D2 & ->)]; try (exfalso; destruct D1 as [D1 _], D2 as [D2 _]; congruence);
    rewrite (d_leaf_fun _ _ _ _ D1 D2); reflexivity.
Qed.
Lemma bool_word_fun w v v' : bool_word w v -> bool_word w v' -> v = v'.
Proof. intros [[-> ->]|[[-> ->]|[-> ->]]] [[E0 ->]|[[E0 ->]|[E0 ->]]]; try reflexivity; discriminate. Qed.
Lemma d_lit_fun p v v' : d_lit p v -> d_lit p v' -> v = v'.
Proof.
  intros [(w & D1 & ->)|[(w & D1 & ->)|[(w & D1 & B1)|[D1|(w & D1 & ->)]]]] [(w' & D2 & ->)|[(w' & D2 & ->)|[(w' & D2 & B2)|[D2|(w' & D2 & ->)]]]];
    try (exfalso; destruct D1 as [D1 _], D2 as [D2 _]; congruence).
  - rewrite (d_string_fun _ _ _ D1 D2). reflexivity.
  - rewrite (d_quoted_fun _ _ _ _ _ D1 D2). reflexivity.
  - rewrite (d_leaf_fun _ _ _ _ D1 D2) in B1. eapply bool_word_fun; eassumption.
  - eapply d_number_fun; eassumption.
  - rewrite (d_leaf_fun _ _ _ _ D1 D2). reflexivity.
Qed.
Lemma d_value_eq p v v' : d_value p v -> d_value p v' -> v = v'.
Proof. intros (_ & q & H1 & D1) (_ & q' & H2 & D2). rewrite H1 in H2. injection H2 as <-. eapply d_lit_fun; eassumption. Qed.

Lemma plain_value_eq i m m' v v' r r' : plain_value_at i m v -> plain_value_at i m' v' ->
  lay m r -> lay m' r' -> nh 39 r -> nh 39 r' -> m = m' /\ v = v'.
Proof.
  intros [H1|H1] [H2|H2] L1 L2 g g'.
  - pose proof (F_value _ _ _ (er_value _ _ _ _ H1 L1) g) as F1. pose proof (F_value _ _ _ (er_value _ _ _ _ H2 L2) g') as F2.
    destruct (F_fun _ _ _ _ _ _ F1 F2) as [_ (ps & (p & -> & D1) & (p' & [= <-] & D2))]. pose proof (d_value_eq _ _ _ D1 D2). subst v'.
    split; [eapply value_end; eassumption|reflexivity].
  - exfalso. eapply F_X; [apply F_value; [eapply er_value; eassumption|exact g]|]. eapply X_value_bare, er_bare; eassumption.
  - exfalso. eapply F_X; [apply F_value; [eapply er_value; [exact H2|exact L2]|exact g']|]. eapply X_value_bare, er_bare; eassumption.
  - destruct H1 as (w & H1 & _ & ->), H2 as (w' & H2 & _ & ->). destruct (phrase_det _ _ _ _ _ H1 H2) as [-> ->]. auto.
Qed.
Lemma attr_value_eq i m m' v v' r r' : attr_value_at i m v -> attr_value_at i m' v' ->
  lay m r -> lay m' r' -> nh 39 r -> nh 39 r' -> m = m' /\ v = v'.
Proof.
  assert (H34 : forall i m v w m', plain_value_at i m v -> quote_at dq i m' w -> False).
  { intros j n u w n' [H|(w' & H & _)] (i' & E0 & _); [eapply value_34; eassumption|eapply phrase_34; eassumption]. }
  intros [H1|(w & H1 & ->)] [H2|(w' & H2 & ->)] L1 L2 g g'.
  - eapply plain_value_eq; eassumption.
  - destruct (H34 _ _ _ _ _ H1 H2).
  - destruct (H34 _ _ _ _ _ H2 H1).
  - destruct (quote_det dq _ _ _ _ _ ltac:(discriminate) H1 H2) as [-> ->]. auto.
Qed.

(** ** Judges *)
Definition fixed (J : judge) : Prop := forall k v w w', J k v w -> J k v w' -> w = w'.
Lemma no_rule_fixed : fixed no_rule.
Proof. intros k v w w' -> ->. reflexivity. Qed.
Lemma index_rule_fixed : fixed index_rule.
Proof.
  intros k v w w' H1 H2. destruct H1 as [k v H1|v H1]; inversion H2 as [k2 v2 K1 E1 E2 E3|v2 K1 E1 E2 E3]; subst; try reflexivity.
  - destruct (H1 eq_refl) as (t & Ht). destruct (K1 t Ht).
  - destruct (K1 eq_refl) as (t & Ht). destruct (H1 t Ht).
Qed.
Lemma action_rule_fixed : fixed action_rule.
Proof.
  intros k v w w' H1 H2. destruct H1 as [k v H1|k v Hi H1]; inversion H2 as [k2 v2 K1 E1 E2 E3|k2 v2 Ki K1 E1 E2 E3]; subst; try reflexivity.
  - destruct (H1 _ Ki eq_refl) as (t & Ht). destruct (K1 t Ht).
  - destruct (K1 _ Hi eq_refl) as (t & Ht). destruct (H1 t Ht).
Qed.

Section Unique.
Variable inp : str.

(** ** Settings *)
Lemma attribute_f_det J : fixed J -> det (attribute_f inp J) (then_or 44 93).
Proof.
  intros HJ i m m' x y r r' H1 H2 L1 L2 g g'.
  destruct H1 as [i m k Hk|i m1 m2 m k v ws Hk Ht Hv Hj]; inversion H2 as [i2 n k2 Hk2 E1 E2 E3|i2 n1 n2 n k2 v2 ws2 Hk2 Ht2 Hv2 Hj2 E1 E2 E3]; subst.
  - destruct (next_key _ _ _ _ _ _ Hk Hk2) as [-> ->]. auto.
  - exfalso. destruct (next_key _ _ _ _ _ _ Hk Hk2) as [-> _]. rewrite (lay_twice _ _ _ (next_lay _ _ _ _ Hk) L1) in g. apply tok_first in Ht2 as (z & ->).
    revert g. intros (c & u & [= <- _] & Hc). lia.
  - exfalso. destruct (next_key _ _ _ _ _ _ Hk Hk2) as [<- _]. rewrite (lay_twice _ _ _ (next_lay _ _ _ _ Hk2) L2) in g'. apply tok_first in Ht as (z & ->).
    revert g'. intros (c & u & [= <- _] & Hc). lia.
  - destruct (next_key _ _ _ _ _ _ Hk Hk2) as [-> ->]. rewrite (tok_fun _ _ _ _ Ht Ht2) in *.
    destruct (attr_value_eq _ _ _ _ _ _ _ Hv Hv2 L1 L2) as [-> ->]; [eapply nh_then; [exact g| |]; discriminate|eapply nh_then; [exact g'| |]; discriminate|].
    rewrite (HJ _ _ _ _ Hj Hj2). auto.
Qed.
Lemma attribute_f_first J i r x : next (attribute_f inp J) i r x -> hd_in letter i.
Proof.
  intros (m & [i' m' k Hk|i' m1 m2 m' k v ws Hk Ht Hv _] & _); apply er_key in Hk; eapply phrase_first; exact Hk.
Qed.
Lemma settings_f_det J G : fixed J -> det (settings_f inp J) G.
Proof.
  intros HJ i m m' x y r r' (ls & H1 & ->) (ls' & H2 & ->) L1 L2 g g'.
  assert (HD : det (list_at "[" "]" (attribute_f inp J)) any).
  { apply (det_list _ "[" "]" 93); [reflexivity|discriminate|apply attribute_f_det; exact HJ|].
    intros j s0 z H. eapply letter_nh; [eapply attribute_f_first; exact H|unfold letter; lia]. }
  destruct (HD _ _ _ _ _ _ _ H1 H2 L1 L2 Logic.I Logic.I) as [-> ->]. auto.
Qed.
Lemma settings_f_first J i m l : settings_f inp J i m l -> exists z, i = 91 :: z.
Proof. intros (ls & [i' m' Ht|i' m1 m' l' Ht Hl] & _); eapply tok_first; exact Ht. Qed.

(** ** Column types *)
Lemma arg_det raw v raw' v' m m' : arg_text raw v -> arg_text raw' v' -> arg_follow m -> arg_follow m' -> raw ++ m = raw' ++ m' ->
  raw = raw' /\ m = m' /\ v = v'.
Proof.
  intros H1 H2 f f' E0. destruct (FC_arg _ _ _ H1 f 0) as (t & ps & E1 & p & -> & D1). destruct (FC_arg _ _ _ H2 f' 0) as (t' & ps' & E2 & p' & -> & D2).
  rewrite E0, E2 in E1. injection E1 as _ <- <-. apply app_inv_tail in E0. rewrite (d_value_eq _ _ _ D1 D2). auto.
Qed.
Lemma follow_comma z : arg_follow (s "," ++ z).
Proof. exists 44, z. auto. Qed.
Lemma follow_close z : arg_follow (s ")" ++ z).
Proof. exists 41, z. auto. Qed.
Lemma args_f_det i m l : args_f inp i m l -> forall m' l', args_f inp i m' l' -> m = m' /\ l = l'.
Proof.
  induction 1 as [raw v m Ha|raw v i m l Ha Hl IH]; intros m' l' H2;
    inversion H2 as [raw' v' n Ha' E1 E2 E3|raw' v' i' n l2 Ha' Hl' E1 E2 E3]; subst.
  - destruct (arg_det _ _ _ _ _ _ Ha' Ha (follow_close _) (follow_close _) E1) as (-> & [= ->] & ->). auto.
  - destruct (arg_det _ _ _ _ _ _ Ha' Ha (follow_comma _) (follow_close _) E1) as (_ & E0 & _). discriminate E0.
  - destruct (arg_det _ _ _ _ _ _ Ha' Ha (follow_close _) (follow_comma _) E1) as (_ & E0 & _). discriminate E0.
  - destruct (arg_det _ _ _ _ _ _ Ha' Ha (follow_comma _) (follow_comma _) E1) as (-> & E0 & ->). injection E0 as ->. destruct (IH _ _ Hl') as [-> ->]. auto.
Qed.
Lemma args_f_first i m l : args_f inp i m l -> nh 41 i.
Proof.
  intros [raw v n Ha|raw v j n l2 Ha _] z; apply arg_first in Ha as (c & x & -> & Hc); intros [= -> _]; revert Hc; unfold value_start, digit; lia.
Qed.
Lemma arguments_f_head i m l : arguments_f inp i m l -> (exists z, i = 40 :: z) \/ i = m.
Proof. intros [n|n|j n l' _]; [right; reflexivity|left|left]; eexists; reflexivity. Qed.
Lemma dims_f_head i m l : dims_f inp i m l -> (exists z, i = 91 :: z) \/ i = m.
Proof. intros [n|j n l' _|d j n l' _ _]; [right; reflexivity|left|left]; eexists; reflexivity. Qed.
Lemma arguments_f_det i m m' l l' : arguments_f inp i m l -> arguments_f inp i m' l' -> nh 40 m -> nh 40 m' -> m = m' /\ l = l'.
Proof.
  intros H1 H2 g g'. destruct H1 as [n|n|j n l Hl]; inversion H2 as [n' E1 E2 E3|n' E1 E2 E3|j' n' l2 Hl' E1 E2 E3]; subst.
  - auto.
  - destruct (g _ eq_refl).
  - destruct (g _ eq_refl).
  - destruct (g' _ eq_refl).
  - auto.
  - destruct (args_f_first _ _ _ Hl' _ eq_refl).
  - destruct (g' _ eq_refl).
  - destruct (args_f_first _ _ _ Hl _ eq_refl).
  - eapply args_f_det; eassumption.
Qed.
Lemma dims_f_det i m l : dims_f inp i m l -> forall m' l', dims_f inp i m' l' -> no_dim m -> no_dim m' -> m = m' /\ l = l'.
Proof.
  assert (O : forall x, ~ no_dim (s "[]" ++ x)) by (intros x H; apply (H [] x); [constructor|reflexivity]).
  assert (S : forall d x, digits d -> ~ no_dim (s "[" ++ d ++ s "]" ++ x)) by (intros d x [_ Hd] H; apply (H d x Hd); reflexivity).
  induction 1 as [m|i m l Hl IH|d i m l Hd Hl IH]; intros m' l' H2 g g'; inversion H2 as [n E1 E2 E3|j n l2 Hl2 E1 E2 E3|e j n l2 He Hl2 E1 E2 E3]; subst.
  - auto.
  - destruct (O _ g).
  - destruct (S _ _ He g).
  - destruct (O _ g').
  - eauto.
  - exfalso. destruct e as [|c e]; [destruct He; congruence|]. destruct He as [_ He]. apply Forall_cons_iff in He as [He _]. injection E1 as -> _. revert He. unfold digit. lia.
  - destruct (S _ _ Hd g').
  - exfalso. destruct d as [|c d]; [destruct Hd; congruence|]. destruct Hd as [_ Hd]. apply Forall_cons_iff in Hd as [Hd _]. injection E1 as <- _. revert Hd. unfold digit. lia.
  - assert (E0 : e = d /\ s "]" ++ j = s "]" ++ i).
    { apply (run_det digit); [assumption|apply He|apply Hd| |]; intros c x [= <- _]; unfold digit; lia. }
    destruct E0 as [-> E0]. injection E0 as ->. destruct (IH _ _ Hl2 g g') as [-> ->]. auto.
Qed.
Lemma quoted_cut raw w raw' w' x x' : quoted_verbatim dq raw w -> quoted_verbatim dq raw' w' -> raw ++ x = raw' ++ x' -> raw = raw' /\ x = x'.
Proof.
  intros [-> C1] [-> C2] E0. rewrite <- !app_assoc in E0. apply app_inv_head in E0.
  destruct (close_before dq w x ltac:(discriminate) C1) as [B1 A1]. destruct (close_before dq w' x' ltac:(discriminate) C2) as [B2 A2].
  rewrite E0 in B1, A1. rewrite B1 in B2. rewrite A1 in A2. apply app_inv_head in A2. subst. rewrite B2. auto.
Qed.
Definition stopped (i m : str) : Prop := (exists z, i = 40 :: z \/ i = 91 :: z) \/ i = m.
Lemma args_dims_stop i m1 m l1 l2 : arguments_f inp i m1 l1 -> dims_f inp m1 m l2 -> stopped i m.
Proof.
  intros H1 H2. destruct (arguments_f_head _ _ _ H1) as [(z & ->)| ->]; [left; eauto|]. destruct (dims_f_head _ _ _ H2) as [(z & ->)| ->]; [left; eauto|right; reflexivity].
Qed.
Lemma dims_f_40 m1 m l : dims_f inp m1 m l -> nh 40 m -> nh 40 m1.
Proof. intros H g. destruct (dims_f_head _ _ _ H) as [(z & ->)| ->]; [apply nh_cons; discriminate|exact g]. Qed.
Lemma no_dim_dq x : no_dim (dq ++ x).
Proof. intros d y _ E0. discriminate. Qed.

Lemma word_stop b b' i i' m : word b -> word b' -> b ++ i = b' ++ i' -> stopped i m \/ (exists z, i = 46 :: z) -> stopped i' m \/ (exists z, i' = 46 :: z) ->
  no_word m -> b = b' /\ i = i'.
Proof.
  intros H1 H2 E0 S1 S2 Hm. assert (HN : forall i, stopped i m \/ (exists z, i = 46 :: z) -> forall c x, i = c :: x -> ~ word_char c).
  { intros j [[(z & [-> | ->])| ->]|(z & ->)] c x; [intros [= <- _]..|apply Hm|intros [= <- _]]; unfold word_char, letter, digit; cbn; lia. }
  apply (run_det word_char); auto using word_chars; eauto.
Qed.
Lemma phrase_stop b b' i i' : spaced_word b -> spaced_word b' -> b ++ i = b' ++ i' -> hd_in (fun c => c = 40 \/ c = 91 \/ c = 34) i -> hd_in (fun c => c = 40 \/ c = 91 \/ c = 34) i' ->
  b = b' /\ i = i'.
Proof.
  intros H1 H2 E0 S1 S2. assert (HN : forall i, hd_in (fun c => c = 40 \/ c = 91 \/ c = 34) i -> no_phrase i).
  { intros j (c & z & -> & Hc). split.
    - intros d x [= <- _]. unfold word_char, letter, digit. lia.
    - intros d x [= -> _]. lia. }
  destruct (phrase_det (b ++ i) i i' b b') as [-> ->]; [split; auto|split; auto|]. auto.
Qed.
Lemma type_parts_det i m l l' : type_parts_f inp i m l -> type_parts_f inp i m l' -> no_dim m -> nh 46 m -> nh 40 m ->
  (forall raw, i = raw ++ m -> no_merge raw m) -> l = l'.
Proof.
  intros H1 H2 Hnd H46 H40 Hmg.
  (* the word of a bare type is followed by no other word character *)
  assert (SW : forall p b i1 m1 l1 l2, i = p ++ b ++ i1 -> word b -> arguments_f inp i1 m1 l1 -> dims_f inp m1 m l2 -> stopped i1 m /\ (i1 = m -> no_word m)).
  { intros p b i1 m1 l1 l2 Ei Hb Ha Hd. split; [eapply args_dims_stop; eassumption|]. intros ->. 
    destruct Hb as (c & w & -> & Hc & Hw). destruct (@exists_last _ (c :: w)) as (x & z & E0); [discriminate|].
    apply (Hmg (p ++ c :: w)) with (x := p ++ x) (c := z); [rewrite <- app_assoc; exact Ei|rewrite E0, app_assoc; reflexivity|].
    assert (Hf : Forall word_char (c :: w)) by (constructor; [apply letter_word; exact Hc|exact Hw]). rewrite E0 in Hf.
    apply Forall_app in Hf as [_ Hf]. apply Forall_cons_iff in Hf as [Hf _]. exact Hf. }
  (* a word directly before a dot is a prefix *)
  assert (WD : forall p b i1 m1 l1 l2 w x, i = p ++ b ++ i1 -> word b -> arguments_f inp i1 m1 l1 -> dims_f inp m1 m l2 -> word w -> b ++ i1 = w ++ s "." ++ x -> False).
  { intros p b i1 m1 l1 l2 w x Ei Hb Ha Hd Hw E0. destruct (SW _ _ _ _ _ _ Ei Hb Ha Hd) as [S1 S2].
    assert (E : b = w /\ i1 = s "." ++ x).
    { apply (run_det word_char); auto using word_chars.
      - intros c y Ey. destruct S1 as [(z & [-> | ->])| Em]; [injection Ey as <- _; unfold word_char, letter, digit; cbn; lia..|]. apply (S2 Em c y). congruence.
      - intros c y [= <- _]. unfold word_char, letter, digit. cbn. lia. }
    destruct E as [_ ->]. destruct S1 as [(z & [E1|E1])|E1]; [discriminate E1|discriminate E1|]. apply (H46 x). rewrite <- E1. reflexivity. }
  assert (W34 : forall b x y, word b -> b ++ x = dq ++ y -> False).
  { intros b x y (c & w & -> & Hc & _) E0. injection E0 as -> _. revert Hc. unfold letter. lia. }
  assert (HQ : forall i1 m1 l1 m2 l2, arguments_f inp i1 m1 l1 -> dims_f inp m1 (dq ++ m2) l2 -> hd_in (fun c => c = 40 \/ c = 91 \/ c = 34) i1).
  { intros i1 m1 l1 m2 l2 Ha Hd. destruct (args_dims_stop _ _ _ _ _ Ha Hd) as [(z & [-> | ->])| ->]; eexists _, _; split; try reflexivity; auto. }
  (* the same prefix *)
  assert (PP : forall p np p' np' y y', prefix_r p np -> prefix_r p' np' -> p ++ y = p' ++ y' -> 
            (p = [] -> forall w x, word w -> y <> w ++ s "." ++ x) -> (p' = [] -> forall w x, word w -> y' <> w ++ s "." ++ x) ->
            (p = [] -> forall w x, closes_first dq w -> y <> dq ++ w ++ dq ++ s "." ++ x) -> (p' = [] -> forall w x, closes_first dq w -> y' <> dq ++ w ++ dq ++ s "." ++ x) -> y = y').
  { intros p np p' np' y y' P1 P2 E0 A1 A2 B1 B2. destruct P1 as [|w Hw|raw w Hw], P2 as [|w' Hw'|raw' w' Hw']; cbn [app] in E0.
    - exact E0.
    - exfalso. rewrite <- app_assoc in E0. exact (A1 eq_refl _ _ Hw' E0).
    - exfalso. destruct Hw' as [-> Hc]. rewrite <- !app_assoc in E0. exact (B1 eq_refl _ _ Hc E0).
    - exfalso. rewrite <- app_assoc in E0. exact (A2 eq_refl _ _ Hw (eq_sym E0)).
    - rewrite <- !app_assoc in E0. assert (E : w = w' /\ s "." ++ y = s "." ++ y').
      { apply (run_det word_char); auto using word_chars; intros c x [= <- _]; unfold word_char, letter, digit; cbn; lia. }
      destruct E as [_ E]. injection E as E. exact E.
    - exfalso. destruct Hw' as [-> Hc]. rewrite <- !app_assoc in E0. eapply W34; [exact Hw|exact E0].
    - exfalso. destruct Hw as [-> Hc]. rewrite <- !app_assoc in E0. exact (B2 eq_refl _ _ Hc (eq_sym E0)).
    - exfalso. destruct Hw as [-> Hc]. rewrite <- !app_assoc in E0. eapply W34; [exact Hw'|exact (eq_sym E0)].
    - rewrite <- !app_assoc in E0. destruct (quoted_cut _ _ _ _ _ _ Hw Hw' E0) as [_ E]. injection E as E. exact E. }
  assert (Q116 : forall y w x, word w -> dq ++ y <> w ++ s "." ++ x) by (intros y w x Hw E0; eapply W34; [exact Hw|exact (eq_sym E0)]).
  assert (B34 : forall b i1 w x, word b -> b ++ i1 <> dq ++ w ++ dq ++ s "." ++ x) by (intros b i1 w x Hb E0; eapply W34; eassumption).
  destruct H1 as [p np b i1 m1 m l1 l2 Hp Hb Ha Hd|p np b i1 m1 m2 m l1 l2 l3 Hp Hb Ha Hd1 Hd2 Hns];
    inversion H2 as [p' np' b' i1' m1' n l1' l2' Hp' Hb' Ha' Hd' E1 E2 E3|p' np' b' i1' m1' m2' n l1' l2' l3' Hp' Hb' Ha' Hd1' Hd2' Hns' E1 E2 E3]; subst n l'.
  - assert (E0 : b ++ i1 = b' ++ i1').
    { eapply PP; [exact Hp|exact Hp'|exact (eq_sym E1)| | | |]; intros _ w x Hw E0.
      - eapply (WD p b i1); try eassumption. reflexivity.
      - eapply (WD p' b' i1'); try eassumption. symmetry. exact E1.
      - exact (B34 _ _ _ _ Hb E0).
      - exact (B34 _ _ _ _ Hb' E0). }
    destruct (SW _ _ _ _ _ _ eq_refl Hb Ha Hd) as [S1 S2]. destruct (SW _ _ _ _ _ _ (eq_sym E1) Hb' Ha' Hd') as [S3 S4].
    assert (HN : forall j, stopped j m -> (j = m -> no_word m) -> forall c x, j = c :: x -> ~ word_char c).
    { intros j [(z & [-> | ->])| Em] Hm c x Ey; [injection Ey as <- _; unfold word_char, letter, digit; cbn; lia..|]. apply (Hm Em c x). congruence. }
    apply (run_det word_char) in E0 as [-> ->]; auto using word_chars; eauto.
    destruct (arguments_f_det _ _ _ _ _ Ha Ha' (dims_f_40 _ _ _ Hd H40) (dims_f_40 _ _ _ Hd' H40)) as [-> ->].
    destruct (dims_f_det _ _ _ Hd _ _ Hd' Hnd Hnd) as [_ ->]. reflexivity.
  - exfalso. assert (E0 : b ++ i1 = dq ++ b' ++ i1').
    { eapply PP; [exact Hp|exact Hp'|exact (eq_sym E1)| | | |].
      - intros _ w x Hw E0. eapply (WD p b i1); try eassumption. reflexivity.
      - intros _ w x Hw. apply Q116. exact Hw.
      - intros _ w x Hw. apply B34. exact Hb.
      - intros E w x Hw. apply (Hns' E w x Hw). }
    eapply W34; eassumption.
  - exfalso. assert (E0 : b' ++ i1' = dq ++ b ++ i1).
    { eapply PP; [exact Hp'|exact Hp|exact E1| | | |].
      - intros _ w x Hw E0. eapply (WD p' b' i1'); try eassumption. symmetry. exact E1.
      - intros _ w x Hw. apply Q116. exact Hw.
      - intros _ w x Hw. apply B34. exact Hb'.
      - intros E w x Hw. apply (Hns E w x Hw). }
    eapply W34; eassumption.
  - assert (E0 : dq ++ b ++ i1 = dq ++ b' ++ i1').
    { eapply PP; [exact Hp|exact Hp'|exact (eq_sym E1)| | | |].
      - intros _ w x Hw. apply Q116. exact Hw.
      - intros _ w x Hw. apply Q116. exact Hw.
      - intros E w x Hw. apply (Hns E w x Hw).
      - intros E w x Hw. apply (Hns' E w x Hw). }
    apply app_inv_head in E0. destruct (phrase_stop _ _ _ _ Hb Hb' E0) as [-> ->]; [eapply HQ; eassumption|eapply HQ; eassumption|].
    assert (N40 : forall x, nh 40 (dq ++ x)) by (intros x; apply nh_cons; discriminate).
    destruct (arguments_f_det _ _ _ _ _ Ha Ha' (dims_f_40 _ _ _ Hd1 (N40 _)) (dims_f_40 _ _ _ Hd1' (N40 _))) as [-> ->].
    destruct (dims_f_det _ _ _ Hd1 _ _ Hd1' (no_dim_dq _) (no_dim_dq _)) as [E ->]. apply app_inv_head in E. subst m2'.
    destruct (dims_f_det _ _ _ Hd2 _ _ Hd2' Hnd Hnd) as [_ ->]. reflexivity.
Qed.
Lemma type_f_det : det (type_f inp) type_follow.
Proof.
  intros i m m' x y r r' ((raw & ty & E1 & H1 & N1 & D1) & P1) ((raw' & ty' & E3 & H2 & N2 & D2) & P2) L1 L2 [g1 g2] [g1' g2'].
  assert (S46 : solid [46]) by (apply solid_char; unfold is_ws, is_nl; lia). assert (S40 : solid [40]) by (apply solid_char; unfold is_ws, is_nl; lia).
  pose proof (FC_type _ _ m H1 N1 D1 (lay_nh _ _ _ L1 g1 S46) (lay_nh _ _ _ L1 g2 S40)) as F1.
  pose proof (FC_type _ _ m' H2 N2 D2 (lay_nh _ _ _ L2 g1' S46) (lay_nh _ _ _ L2 g2' S40)) as F2.
  rewrite <- E1 in F1. rewrite <- E3 in F2. destruct (F1 0) as (t & ps & V1 & p & -> & T1). destruct (F2 0) as (t' & ps' & V2 & p' & -> & T2).
  rewrite V1 in V2. injection V2 as _ <- _. split; [reflexivity|].
  eapply type_parts_det; [exact P1|exact P2|exact D1|exact (lay_nh _ _ _ L1 g1 S46)|exact (lay_nh _ _ _ L1 g2 S40)|].
  intros raw0 E0. rewrite E1 in E0. apply app_inv_tail in E0. subst raw0. exact N1.
Qed.

(** ** Tables *)
Lemma sound_det {A} (R : reader A) G : det R G -> det (sound R) G.
Proof. intros H i m m' x y r r' ((a & H1) & ->) ((b & H2) & ->) L1 L2 g g'. destruct (H _ _ _ _ _ _ _ H1 H2 L1 L2 g g') as [-> _]. auto. Qed.
Lemma col_item_f_det : det (col_item_f inp) (then_or 44 93).
Proof.
  intros i m m' x y r r' H1 H2 L1 L2 g g'.
  assert (G46 : forall r, then_or 44 93 r -> nh 46 r) by (intros u Hu; eapply nh_then; [exact Hu| |]; discriminate).
  assert (HX : forall i m x n z r r', attribute_f inp no_rule i m x -> inline_at inp i n z -> lay m r -> lay n r' -> then_or 44 93 r -> then_or 44 93 r' -> False).
  { clear - inp. intros i m x n z r r' H1 H2 L1 L2 g g'. destruct (fe_attribute inp no_rule i r x) as (a & Ha); [exists m; auto|].
    assert (Hb : inline i r' (e_inline z)) by (apply (er_inline inp); exists n; auto).
    destruct (F_fun _ _ _ _ _ _ (F_col_item i r (CIAttr a) Ha g) (F_col_item i r' (CIRef (e_inline z)) Hb g')) as [_ (ps & (p & -> & _ & q & Hq & D1) & (p' & [= <-] & _ & q' & Hq' & D2))].
    rewrite Hq in Hq'. injection Hq' as <-. cbn in D1, D2. destruct D1 as [D1 _], D2 as [D2 _]. congruence. }
  destruct H1 as [H1|((z & H1) & ->)], H2 as [H2|((z' & H2) & ->)].
  - exact (attribute_f_det _ no_rule_fixed _ _ _ _ _ _ _ H1 H2 L1 L2 g g').
  - exfalso. eapply HX; eassumption.
  - exfalso. eapply HX; [exact H2|exact H1|eassumption..].
  - destruct (inline_det _ _ _ _ _ _ _ _ H1 H2 L1 L2 (G46 _ g) (G46 _ g')) as [-> _]. auto.
Qed.
Lemma col_settings_f_det G : det (col_settings_f inp) G.
Proof.
  intros i m m' x y r r' (ls & H1 & ->) (ls' & H2 & ->) L1 L2 g g'.
  assert (HD : det (list_at "[" "]" (col_item_f inp)) any).
  { apply (det_list _ "[" "]" 93); [reflexivity|discriminate|apply col_item_f_det|]. intros j s0 z (n & [H|((u & H) & _)] & Hn).
    - eapply letter_nh; [eapply attribute_f_first; exists n; eauto|unfold letter; lia].
    - eapply letter_nh; [eapply (inline_start inp); exists n; eauto|unfold letter; lia]. }
  destruct (HD _ _ _ _ _ _ _ H1 H2 L1 L2 Logic.I Logic.I) as [-> ->]. auto.
Qed.
Lemma column_f_det : det (column_f inp) item_follow.
Proof.
  intros i m m' x y r r' H1 H2 L1 L2 g g'. destruct H1 as [i m1 m n l o H1 H3]. inversion H2 as [i2 k1 k n2 l2 o2 K1 K3 E1 E2 E3]; subst.
  destruct (next_ident _ _ _ _ _ _ H1 K1) as [-> ->].
  destruct (det_tail _ _ type_follow item_follow _ _ _ _ _ _ _ _ _ type_f_det (col_settings_f_det _) H3 K3 L1 L2) as (-> & -> & ->); auto.
  - intros j n0 b (ls & Hl & _). inversion Hl as [? ? Ht|? ? ? ? Ht _]; subst; eapply tok_first; exact Ht.
  - intros z. split; apply nh_cons; discriminate.
  - apply item_type.
Qed.
Lemma index_f_det : det (index_f inp) (nh 91).
Proof.
  intros i m m' x y r r' H1 H2 L1 L2 g g'.
  assert (HX : forall i m m' c st l st', tail_at (index_col_at inp) (settings_f inp index_rule) i m c st ->
                tail_at (list_at "(" ")" (index_col_at inp)) (settings_f inp index_rule) i m' l st' -> False).
  { intros j n n' c st l st' T1 T2. assert (H40 : exists z, j = 40 :: z).
    { destruct T2 as [j1 n1 a1 (n2 & Hl & _)|j1 n1 n3 a1 o1 (n2 & Hl & _) _]; inversion Hl as [? ? Ht|? ? ? ? Ht _]; subst; eapply tok_first; exact Ht. }
    destruct H40 as (z & ->). assert (Hi : hd_in index_start (40 :: z)) by (inversion T1; subst; eapply index_col_start; eassumption).
    destruct Hi as (c' & u & [= <- _] & Hc). revert Hc. apply not_index. auto. }
  destruct H1 as [i m c st H1|i m l st H1]; inversion H2 as [i2 k c2 st2 K1 E1 E2 E3|i2 k l2 st2 K1 E1 E2 E3]; subst.
  - destruct (det_tail _ _ any (nh 91) _ _ _ _ _ _ _ _ _ (index_col_det inp _) (settings_f_det _ _ index_rule_fixed) H1 K1 L1 L2) as (-> & -> & ->); auto; [apply settings_f_first|intros z; exact Logic.I|].
    intros u Hu. split; [exact Logic.I|exact Hu].
  - destruct (HX _ _ _ _ _ _ _ H1 K1).
  - destruct (HX _ _ _ _ _ _ _ K1 H1).
  - destruct (det_tail _ _ any (nh 91) _ _ _ _ _ _ _ _ _ (index_list_det inp _) (settings_f_det _ _ index_rule_fixed) H1 K1 L1 L2) as (-> & -> & ->); auto; [apply settings_f_first|intros z; exact Logic.I|].
    intros u Hu. split; [exact Logic.I|exact Hu].
Qed.
Lemma indexes_f_det G : det (indexes_f inp) G.
Proof.
  intros i m m' x y r r' H1 H2 L1 L2 _ _. destruct H1 as [i m1 m l Hk Hb]. inversion H2 as [i2 k1 k l2 Kk Kb E1 E2 E3]; subst.
  pose proof (kw_fun _ _ _ _ Hk Kk). subst k1.
  assert (HD : det (braces_at (index_f inp)) any).
  { apply (det_braces _ (nh 91)); [apply index_f_det| |intros z; apply nh_cons; discriminate].
    intros j s0 z H. apply fe_index in H as (a & H). apply index_first in H.
    split; (eapply hd_nh; [exact H|]); unfold index_start, name_start, letter; lia. }
  destruct (HD _ _ _ _ _ _ _ Hb Kb L1 L2 Logic.I Logic.I) as [-> ->]. auto.
Qed.
(** Which of several readings of [X] it is. *)
Lemma table_item_f_det : det (table_item_f inp) item_follow.
Proof.
  assert (HX : forall i r r' a b, table_item i r a -> table_item i r' b -> item_follow r -> item_follow r' ->
     match a, b with TICol _, TICol _ | TINote _, TINote _ | TIIndexes _, TIIndexes _ => True | _, _ => False end).
  { intros i r r' a b E1 E2 g g'. destruct (F_fun _ _ _ _ _ _ (F_table_item _ _ _ E1 g) (F_table_item _ _ _ E2 g')) as [_ (ps & (p & -> & D1) & (p' & [= <-] & D2))].
    destruct a as [x|x|x], b as [y|y|y]; cbn in D1, D2; try exact Logic.I; destruct D1 as [D1 _], D2 as [D2 _]; congruence. }
  assert (HK : forall i m l r, table_item_f inp i m l -> lay m r -> exists a, table_item i r a /\
     match a with TICol _ => column_f inp i m l | TINote _ => sound (note_at inp) i m l | TIIndexes _ => indexes_f inp i m l end).
  { intros i m l r [H|[H|H]] Hr.
    - destruct (fe_column inp i r l) as (y & Hy); [exists m; auto|]. exists (TICol y). auto.
    - pose proof H as ((x & Hx) & _). destruct (fe_note inp i r x) as (y & Hy); [exists m; auto|]. exists (TINote y). auto.
    - destruct (fe_indexes inp i r l) as (y & Hy); [exists m; auto|]. exists (TIIndexes y). auto. }
  intros i m m' x y r r' H1 H2 L1 L2 g g'. destruct (HK _ _ _ _ H1 L1) as (a & A1 & A2). destruct (HK _ _ _ _ H2 L2) as (b & B1 & B2).
  specialize (HX _ _ _ _ _ A1 B1 g g'). destruct a, b; try destruct HX.
  - exact (column_f_det _ _ _ _ _ _ _ A2 B2 L1 L2 g g').
  - exact (sound_det _ _ (note_det inp) _ _ _ _ _ _ _ A2 B2 L1 L2 (item_39 _ g) (item_39 _ g')).
  - exact (indexes_f_det any _ _ _ _ _ _ _ A2 B2 L1 L2 Logic.I Logic.I).
Qed.
Lemma table_f_det G : det (table_f inp) G.
Proof.
  intros i m m' x y r r' H1 H2 L1 L2 _ _. destruct H1 as [i m1 m2 m3 m4 m5 m d al st l Hk Hd Hl Hal Hst Hb].
  inversion H2 as [i2 k1 k2 k3 k4 k5 k d2 al2 st2 l2 Kk Kd Kl Kal Kst Kb E1 E2 E3]; subst.
  pose proof (kw_fun _ _ _ _ Hk Kk). subst k1.
  pose proof (braces_start _ _ _ _ Hb) as S5. pose proof (braces_start _ _ _ _ Kb) as T5.
  pose proof (head_of _ _ _ _ (settings_f_first no_rule) Hst S5) as S4. pose proof (head_of _ _ _ _ (settings_f_first no_rule) Kst T5) as T4.
  assert (HA : forall i r o, maybe (next (alias_at inp)) i r o -> head_follow r -> nh 46 i).
  { intros j s0 o [j1|j1 s1 x Hx] (c & z & Ez & Hc); [subst; apply nh_cons; lia|]. eapply letter_nh; [eapply (alias_first inp); exact Hx|unfold letter; lia]. }
  destruct (decl_det _ _ _ _ _ _ _ _ Hd Kd Hl Kl (HA _ _ _ Hal S4) (HA _ _ _ Kal T4)) as [-> ->].
  pose proof (lay_fun _ _ _ Hl Kl). subst k3.
  destruct (det_maybe (alias_at inp) head_follow _ _ _ _ _ (alias_det inp _) Hal Kal) as [-> ->]; auto.
  { intros j s0 x Hx (c & z & -> & Hc). apply alias_first in Hx as (c' & z' & [= <- _] & Hl'). revert Hl'. unfold letter. lia. }
  destruct (settings_det_maybe _ _ _ _ _ _ (settings_f_det _ _ no_rule_fixed) (settings_f_first no_rule) Hst Kst S5 T5) as [-> ->].
  assert (HD : det (braces_at (table_item_f inp)) any).
  { apply (det_braces _ item_follow); [apply table_item_f_det| |].
    - intros j s0 z Hn. apply fe_table_item in Hn as (a & Hn).
      split; [eapply table_item_first; exact Hn|].
      destruct a as [a|a|a]; cbn in Hn.
      + destruct Hn as [j1 n1 n2 s1 nm ty st0 Hnm _ _]. eapply hd_nh; [eapply name_first; exact Hnm|]. apply name_start_not. auto 20.
      + eapply hd_nh; [eapply note_first; exact Hn|]. unfold letter. lia.
      + destruct Hn as [j1 n1 s1 l1 Hk1 _]. eapply hd_nh; [eapply kw_first; [exact Hk1|reflexivity|unfold letter; cbn; lia]|]. unfold letter. lia.
    - intros z. eexists _, _. split; [reflexivity|right; reflexivity]. }
  destruct (HD _ _ _ _ _ _ _ Hb Kb L1 L2 Logic.I Logic.I) as [-> ->]. auto.
Qed.

(** ** Enums, groups, projects, references *)
Lemma enum_value_f_det : det (enum_value_f inp) (nh 91).
Proof.
  intros i m m' x y r r' H1 H2 L1 L2 g g'. destruct H1 as [i m v st H1]. inversion H2 as [i2 k v2 st2 K1 E1 E2 E3]; subst.
  destruct (det_tail _ _ any (nh 91) _ _ _ _ _ _ _ _ _ (ident_det inp _) (settings_f_det _ _ no_rule_fixed) H1 K1 L1 L2) as (-> & -> & ->); auto.
  - apply settings_f_first.
  - intros z. exact Logic.I.
  - intros u Hu. split; [exact Logic.I|exact Hu].
Qed.
Lemma enum_f_det G : det (enum_f inp) G.
Proof.
  intros i m m' x y r r' H1 H2 L1 L2 _ _. destruct H1 as [i m1 m2 m3 m d l Hk Hd Hl Hb]. inversion H2 as [i2 k1 k2 k3 k d2 l2 Kk Kd Kl Kb E1 E2 E3]; subst.
  pose proof (kw_fun _ _ _ _ Hk Kk). subst k1. destruct (braces_start _ _ _ _ Hb) as (z & Ez). destruct (braces_start _ _ _ _ Kb) as (z' & Ez').
  destruct (decl_det _ _ _ _ _ _ _ _ Hd Kd Hl Kl) as [-> ->]; [subst; apply nh_cons; discriminate|subst; apply nh_cons; discriminate|].
  pose proof (lay_fun _ _ _ Hl Kl) as E0. rewrite E0 in Hb.
  assert (HD : det (braces_at (enum_value_f inp)) any).
  { apply (det_braces _ (nh 91)); [apply enum_value_f_det| |intros u; apply nh_cons; discriminate].
    intros j s0 u H. apply fe_enum_value in H as (a & n & Hn & _). split; (eapply hd_nh; [eapply name_first; exact Hn|]; apply name_start_not; auto 20). }
  destruct (HD _ _ _ _ _ _ _ Hb Kb L1 L2 Logic.I Logic.I) as [-> ->]. auto.
Qed.
Lemma group_f_det G : det (group_f inp) G.
Proof.
  intros i m m' x y r r' H1 H2 L1 L2 _ _. destruct H1 as [i m1 m2 m3 m n st l Hk Hn Hst Hb]. inversion H2 as [i2 k1 k2 k3 k n2 st2 l2 Kk Kn Kst Kb E1 E2 E3]; subst.
  pose proof (kw_fun _ _ _ _ Hk Kk). subst k1. destruct (next_ident _ _ _ _ _ _ Hn Kn) as [-> ->].
  destruct (settings_det_maybe _ _ _ _ _ _ (settings_f_det _ _ no_rule_fixed) (settings_f_first no_rule) Hst Kst (braces_start _ _ _ _ Hb) (braces_start _ _ _ _ Kb)) as [-> ->].
  assert (HD : det (braces_at (group_part_at inp)) any).
  { apply (det_braces _ item_follow); [apply group_part_det| |].
    - intros j s0 z H. apply er_group_part in H as [H _]. destruct z as [z|z]; cbn in H.
      + apply note_first in H. split; [apply letter_item; exact H|]. eapply hd_nh; [exact H|]. unfold letter. lia.
      + apply (decl_first _ _ (option_map id_str (gi_schema z), id_str (gi_ident_alias z))) in H. split; [apply name_item; exact H|]. eapply hd_nh; [exact H|]. apply name_start_not. auto 20.
    - intros z. eexists _, _. split; [reflexivity|right; reflexivity]. }
  destruct (HD _ _ _ _ _ _ _ Hb Kb L1 L2 Logic.I Logic.I) as [-> _]. auto.
Qed.
Lemma property_f_det : det (property_f inp) (nh 39).
Proof.
  intros i m m' x y r r' H1 H2 L1 L2 g g'. destruct H1 as [i m1 m2 m k v Hk Ht Hv _]. inversion H2 as [i2 n1 n2 n k2 v2 Hk2 Ht2 Hv2 _ E1 E2 E3]; subst.
  destruct (next_key _ _ _ _ _ _ Hk Hk2) as [-> ->]. rewrite (tok_fun _ _ _ _ Ht Ht2) in *.
  destruct (plain_value_eq _ _ _ _ _ _ _ Hv Hv2 L1 L2 g g') as [-> ->]. auto.
Qed.
Lemma project_item_f_det : det (project_item_f inp) item_follow.
Proof.
  assert (HX : forall i r r' a b, project_item i r a -> project_item i r' b -> item_follow r -> item_follow r' ->
     match a, b with PINote _, PINote _ | PIProp _, PIProp _ => True | _, _ => False end).
  { intros i r r' a b E1 E2 g g'. destruct (F_fun _ _ _ _ _ _ (F_project_item _ _ _ E1 g) (F_project_item _ _ _ E2 g')) as [_ (ps & (p & -> & D1) & (p' & [= <-] & D2))].
    destruct a as [x|x], b as [y|y]; cbn in D1, D2; try exact Logic.I; destruct D1 as [D1 _], D2 as [D2 _]; congruence. }
  assert (HK : forall i m l r, project_item_f inp i m l -> lay m r -> exists a, project_item i r a /\
     match a with PINote _ => sound (note_at inp) i m l | PIProp _ => property_f inp i m l end).
  { intros i m l r [H|H] Hr.
    - pose proof H as ((x & Hx) & _). destruct (fe_note inp i r x) as (y & Hy); [exists m; auto|]. exists (PINote y). auto.
    - destruct (fe_property inp i r l) as (y & Hy); [exists m; auto|]. exists (PIProp y). auto. }
  intros i m m' x y r r' H1 H2 L1 L2 g g'. destruct (HK _ _ _ _ H1 L1) as (a & A1 & A2). destruct (HK _ _ _ _ H2 L2) as (b & B1 & B2).
  specialize (HX _ _ _ _ _ A1 B1 g g'). destruct a, b; try destruct HX.
  - exact (sound_det _ _ (note_det inp) _ _ _ _ _ _ _ A2 B2 L1 L2 (item_39 _ g) (item_39 _ g')).
  - exact (property_f_det _ _ _ _ _ _ _ A2 B2 L1 L2 (item_39 _ g) (item_39 _ g')).
Qed.
Lemma project_f_det G : det (project_f inp) G.
Proof.
  intros i m m' x y r r' H1 H2 L1 L2 _ _. destruct H1 as [i m1 m2 m n l Hk Hn Hb]. inversion H2 as [i2 k1 k2 k n2 l2 Kk Kn Kb E1 E2 E3]; subst.
  pose proof (kw_fun _ _ _ _ Hk Kk). subst k1. destruct (next_ident _ _ _ _ _ _ Hn Kn) as [-> ->].
  assert (HD : det (braces_at (project_item_f inp)) any).
  { apply (det_braces _ item_follow); [apply project_item_f_det| |].
    - intros j s0 z H. apply fe_project_item in H as (a & H). assert (Hl : hd_in letter j).
      { destruct a as [a|a]; cbn in H; [eapply note_first; exact H|]. destruct H as (n & n' & H & _). eapply phrase_first. exact H. }
      split; [apply letter_item; exact Hl|]. eapply hd_nh; [exact Hl|]. unfold letter. lia.
    - intros z. eexists _, _. split; [reflexivity|right; reflexivity]. }
  destruct (HD _ _ _ _ _ _ _ Hb Kb L1 L2 Logic.I Logic.I) as [-> ->]. auto.
Qed.
Lemma stmt_f_det : det (stmt_f inp) rel_follow.
Proof.
  intros i m m' x y r r' H1 H2 L1 L2 g g'. destruct H1 as [i m1 m2 m x a b st H1 H3 H4]. inversion H2 as [i2 k1 k2 k x2 a2 b2 st2 K1 K3 K4 E1 E2 E3]; subst.
  assert (HR : forall i r x, next rel_at i r x -> nh 46 i) by (intros j s0 z H; apply er_rel in H; eapply hd_nh; [eapply rel_first; exact H|]; cbn; lia).
  assert (HE : forall i m b st, tail_at (endpoint_at inp) (settings_f inp action_rule) i m b st -> hd_in name_start i).
  { intros j n0 b0 st0 [j1 n1 b1 Hb|j1 n1 n2 b1 o1 Hb _]; eapply endpoint_start; exact Hb. }
  destruct (det_next _ _ _ _ _ _ _ (endpoint_det inp) H1 K1 (HR _ _ _ H3) (HR _ _ _ K3)) as [-> ->].
  destruct (next_rel _ _ _ _ _ H3 K3 (HE _ _ _ _ H4) (HE _ _ _ _ K4)) as [-> ->].
  destruct (det_tail _ _ (nh 46) rel_follow _ _ _ _ _ _ _ _ _ (endpoint_det inp) (settings_f_det _ _ action_rule_fixed) H4 K4 L1 L2) as (-> & -> & ->); auto.
  - apply settings_f_first.
  - intros z. apply nh_cons. discriminate.
Qed.
Lemma reference_f_det : det (reference_f inp) rel_follow.
Proof.
  intros i m m' x y r r' H1 H2 L1 L2 g g'.
  assert (N58 : ~ name_start 58) by (apply name_start_not; auto 20). assert (N123 : ~ name_start 123) by (apply name_start_not; auto 20).
  destruct H1 as [i m1 m2 m3 m n f Hk Hn Ht Hb|i m1 m2 m3 m n f Hk Hn Ht Hb];
  inversion H2 as [i2 k1 k2 k3 k n2 f2 Kk Kn Kt Kb E1 E2 E3|i2 k1 k2 k3 k n2 f2 Kk Kn Kt Kb E1 E2 E3]; subst;
  rewrite (kw_fun _ _ _ _ Hk Kk) in Hn; destruct (tok_first _ _ _ _ Ht) as (z & Ez); destruct (tok_first _ _ _ _ Kt) as (z' & Ez');
  (destruct (opt_ident_det _ _ _ _ _ _ _ _ _ _ Hn Kn Ez Ez') as [E0 ->]; [assumption|assumption|]); rewrite E0 in Ht.
  - rewrite (tok_fun _ _ _ _ Ht Kt) in Hb. eapply stmt_f_det; eassumption.
  - exfalso. apply tok_first in Ht as (u & ->). discriminate.
  - exfalso. apply tok_first in Ht as (u & ->). discriminate.
  - rewrite (tok_fun _ _ _ _ Ht Kt) in Hb. assert (G : forall u, rel_follow (s "}" ++ u)) by (intros u; split; apply nh_cons; discriminate).
    destruct (det_next _ _ _ _ _ _ _ stmt_f_det Hb Kb (G _) (G _)) as [E1 ->]. apply app_inv_head in E1. auto.
Qed.

(** ** Whole texts *)
Lemma top_f_det : det (top_f inp) top_follow.
Proof.
  assert (HX : forall i r r' a b, block_r i r a -> block_r i r' b -> top_follow r -> top_follow r' ->
     match a, b with AProject _, AProject _ | ATable _, ATable _ | AGroup _, AGroup _ | ANote _, ANote _ | ARef _, ARef _ | AEnum _, AEnum _ => True | _, _ => False end).
  { intros i r r' a b E1 E2 g g'. destruct (F_fun _ _ _ _ _ _ (F_block _ _ _ E1 g) (F_block _ _ _ E2 g')) as [_ (ps & (p & -> & D1) & (p' & [= <-] & D2))].
    destruct a, b; cbn [d_block] in D1, D2; try exact Logic.I; destruct D1 as [D1 _], D2 as [D2 _]; congruence. }
  assert (HK : forall i m l r, top_f inp i m l -> lay m r -> exists a, block_r i r a /\
     match a with AProject _ => project_f inp i m l | ATable _ => table_f inp i m l | AGroup _ => group_f inp i m l | ANote _ => sound (note_at inp) i m l
             | ARef _ => reference_f inp i m l | AEnum _ => enum_f inp i m l end).
  { intros i m l r H Hr. destruct H as [H|[H|[H|[H|[H|H]]]]].
    - destruct (fe_project inp i r l) as (y & Hy); [exists m; auto|]. exists (AProject y). auto.
    - destruct (fe_table inp i r l) as (y & Hy); [exists m; auto|]. exists (ATable y). auto.
    - destruct (fe_group inp i r l) as (y & Hy); [exists m; auto|]. exists (AGroup y). auto.
    - pose proof H as ((x & Hx) & _). destruct (fe_note inp i r x) as (y & Hy); [exists m; auto|]. exists (ANote y). auto.
    - destruct (fe_reference inp i r l) as (y & Hy); [exists m; auto|]. exists (ARef y). auto.
    - destruct (fe_enum inp i r l) as (y & Hy); [exists m; auto|]. exists (AEnum y). auto. }
  assert (G39 : forall r, top_follow r -> nh 39 r) by (intros u Hu; apply top_nh; [exact Hu|unfold letter; lia]).
  assert (GR : forall r, top_follow r -> rel_follow r) by (intros u Hu; split; (apply top_nh; [exact Hu|unfold letter; lia])).
  intros i m m' x y r r' H1 H2 L1 L2 g g'. destruct (HK _ _ _ _ H1 L1) as (a & A1 & A2). destruct (HK _ _ _ _ H2 L2) as (b & B1 & B2).
  specialize (HX _ _ _ _ _ A1 B1 g g'). destruct a, b; try destruct HX.
  - exact (project_f_det any _ _ _ _ _ _ _ A2 B2 L1 L2 Logic.I Logic.I).
  - exact (table_f_det any _ _ _ _ _ _ _ A2 B2 L1 L2 Logic.I Logic.I).
  - exact (group_f_det any _ _ _ _ _ _ _ A2 B2 L1 L2 Logic.I Logic.I).
  - exact (sound_det _ _ (note_det inp) _ _ _ _ _ _ _ A2 B2 L1 L2 (G39 _ g) (G39 _ g')).
  - exact (reference_f_det _ _ _ _ _ _ _ A2 B2 L1 L2 (GR _ g) (GR _ g')).
  - exact (enum_f_det any _ _ _ _ _ _ _ A2 B2 L1 L2 Logic.I Logic.I).
Qed.
End Unique.

Theorem faults_unique inp l l' : faults inp l -> faults inp l' -> l = l'.
Proof.
  intros (m & ls & L1 & H1 & ->) (m' & ls' & L2 & H2 & ->). rewrite (lay_fun _ _ _ L1 L2) in H1.
  destruct (det_many (top_f inp) top_follow (fun z => z = []) _ _ _ _ _ (top_f_det inp) H1 H2) as [_ ->]; auto.
  - intros i r z H. apply fe_top in H as (a & H). apply block_first in H as (c & u & -> & Hc). split; [right; exists c, u; auto|discriminate].
  - intros z ->. left. reflexivity.
Qed.
