(** * ParserOk: every function of the AST builder, on the pairs the grammar yields,
    returns a faithful node or a truthful error. *)

From Verif Require Import Shape.
From Verif Require Import Parser.
From Verif Require DecOk.

(** ** Pairs in the source text *)
Definition spot (inp : str) (off : N) (t : str) : Prop := exists a b, inp = a ++ t ++ b /\ blen a = off.
Definition pls (inp : str) (lo hi : N) (ps : list pair) : Prop :=
  exists t, spot inp lo t /\ hi = lo + blen t /\ placed lo t ps.
Definition pl (inp : str) (p : pair) : Prop :=
  shows inp (span_of p) (as_str p) /\ p_start p <= p_end p /\ pls inp (p_start p) (p_end p) (into_inner p).

Lemma spot_shows inp off t : spot inp off t -> shows inp (off, off + blen t) t.
Proof. intros (a & b & -> & <-). apply slice_mid. Qed.
Lemma spot_sub inp off x t y : spot inp off (x ++ t ++ y) -> spot inp (off + blen x) t.
Proof.
  intros (a & b & -> & <-). exists (a ++ x), (y ++ b). rewrite blen_app. split; [|reflexivity].
  rewrite <- !app_assoc. reflexivity.
Qed.
Lemma pls_nil inp lo hi : pls inp lo hi [] -> lo <= hi.
Proof. intros (t & _ & -> & _). lia. Qed.
Lemma pls_cons inp lo hi p ps : pls inp lo hi (p :: ps) -> lo <= p_start p /\ pl inp p /\ pls inp (p_end p) hi ps.
Proof.
  intros (t & Hs & -> & Hp). inversion Hp as [|off g txt inner rest rl ps' H1 H2]; subst.
  cbn [p_start p_end span_of as_str into_inner]. split; [lia|]. split.
  - unfold pl. cbn [p_start p_end span_of as_str into_inner].
    split; [|split; [lia|]].
    + apply spot_shows. eapply spot_sub. exact Hs.
    + exists txt. split; [eapply spot_sub; exact Hs|]. auto.
  - exists rest. split; [|split; [|exact H2]].
    + rewrite <- N.add_assoc, <- blen_app.
      apply (spot_sub inp lo (g ++ txt) rest []). rewrite app_nil_r, <- app_assoc. exact Hs.
    + rewrite !blen_app. lia.
Qed.
Lemma pls_le inp lo hi ps : pls inp lo hi ps -> lo <= hi.
Proof. intros (t & _ & -> & _). lia. Qed.
Lemma pls_app inp lo hi ps qs : pls inp lo hi (ps ++ qs) -> exists m, pls inp lo m ps /\ pls inp m hi qs.
Proof.
  revert lo. induction ps as [|p ps IH]; intros lo; cbn [app].
  - intros H. exists lo. split; [|exact H]. destruct H as (t & (a & b & -> & Ha) & _ & _).
    exists []. split; [exists a, (t ++ b); auto|]. split; [cbn; lia|constructor].
  - intros H. pose proof (pls_cons _ _ _ _ _ H) as (H1 & H2 & H3). apply IH in H3 as (m & H3 & H4).
    exists m. split; [|exact H4]. destruct H as (t & (a & b & -> & Ha) & Ht & Hp).
    inversion Hp as [|off g txt inner rest rl ps' Hp1 Hp2]; subst. cbn [p_end] in *.
    destruct H3 as (t2 & (a2 & b2 & E2 & Ha2) & -> & Hp3).
    (* the text of [p] and [ps] *)
    exists (g ++ txt ++ t2). split; [|split; [rewrite !blen_app; lia|constructor; assumption]].
    assert (Ea : a2 = a ++ g ++ txt).
    { assert (Hs : take_bytes (a2 ++ t2 ++ b2) (blen a2) = Some a2) by apply take_bytes_app.
      assert (Hs2 : take_bytes ((a ++ g ++ txt) ++ rest ++ b) (blen (a ++ g ++ txt)) = Some (a ++ g ++ txt))
        by apply take_bytes_app.
      replace ((a ++ g ++ txt) ++ rest ++ b) with (a2 ++ t2 ++ b2) in Hs2
        by (rewrite <- E2, <- !app_assoc; reflexivity).
      replace (blen (a ++ g ++ txt)) with (blen a2) in Hs2 by (rewrite !blen_app; lia). congruence. }
    exists a, b2. rewrite E2, Ea, <- !app_assoc. auto.
Qed.
Lemma pl_lo inp p : pl inp p -> p_start p <= p_end p.
Proof. intros H. apply H. Qed.

Lemma is_boundary_app a b : is_boundary (a ++ b) (blen a) = true.
Proof.
  induction a as [|c a IH]; cbn [app is_boundary blen].
  - destruct b; reflexivity.
  - pose proof (ulen_pos c). destruct (N.eqb_spec (ulen c + blen a) 0); [lia|].
    destruct (N.ltb_spec (ulen c + blen a) (ulen c)); [lia|].
    replace (ulen c + blen a - ulen c) with (blen a) by lia. exact IH.
Qed.
Lemma shows_valid inp sp t : shows inp sp t -> valid_span inp sp.
Proof.
  unfold shows. destruct sp as [lo hi]; cbn [fst snd]. intros H. apply slice_inv in H as (a & b & -> & <- & <-).
  split; [cbn; lia|]. cbn [fst snd]. split; [apply is_boundary_app|].
  rewrite app_assoc, <- blen_app. apply is_boundary_app.
Qed.
Lemma pl_valid inp p : pl inp p -> valid_span inp (span_of p).
Proof. intros H. eapply shows_valid. apply H. Qed.

(** ** Order of spans *)
Lemma in_order_le lo l hi : in_order lo l hi -> lo <= hi.
Proof. revert lo. induction l as [|sp l IH]; intros lo; cbn [in_order]; [auto|]. intros (H1 & H2 & H3). apply IH in H3. lia. Qed.
Lemma in_order_app lo l1 m l2 hi : in_order lo l1 m -> in_order m l2 hi -> in_order lo (l1 ++ l2) hi.
Proof.
  revert lo. induction l1 as [|sp l1 IH]; intros lo; cbn [in_order app].
  - intros Hl H. destruct l2 as [|sp l2]; cbn [in_order] in *; [lia|]. destruct H as (H1 & H2). split; [lia|exact H2].
  - intros (H1 & H2 & H3) H. auto.
Qed.
Lemma in_order_hi lo l hi hi' : in_order lo l hi -> hi <= hi' -> in_order lo l hi'.
Proof. intros H Hh. rewrite <- (app_nil_r l). eapply in_order_app; [exact H|exact Hh]. Qed.
Lemma in_order_lo lo lo' l hi : in_order lo l hi -> lo' <= lo -> in_order lo' l hi.
Proof. intros H Hh. apply (in_order_app lo' [] lo l hi); [exact Hh|exact H]. Qed.
Lemma in_order_snoc lo l m sp : in_order lo l m -> m <= fst sp -> fst sp <= snd sp -> in_order lo (l ++ [sp]) (snd sp).
Proof. intros H H1 H2. eapply in_order_app; [exact H|]. cbn [in_order]. repeat split; auto; lia. Qed.

(** ** Outcomes *)
Definition good {A} (inp : str) (P : A -> Prop) (o : outcome A) : Prop :=
  match o with
  | Ok a => P a
  | Err (ErMsg m sp) => parse_error_true inp m sp
  | _ => False
  end.
Lemma good_bind {A B} inp (P : A -> Prop) (Q : B -> Prop) x f :
  good inp P x -> (forall a, P a -> good inp Q (f a)) -> good inp Q (bind x f).
Proof. destruct x as [a|e|]; cbn [good bind]; auto. Qed.
Lemma good_omap {A B} inp (P : A -> Prop) (Q : B -> Prop) x (f : A -> B) :
  good inp P x -> (forall a, P a -> Q (f a)) -> good inp Q (omap f x).
Proof. destruct x as [a|e|]; cbn [good omap]; auto. Qed.
Lemma good_impl {A} inp (P Q : A -> Prop) x : good inp P x -> (forall a, P a -> Q a) -> good inp Q x.
Proof. destruct x as [a|e|]; cbn [good]; auto. Qed.

(** Loops: [I lo acc] holds of the accumulator when everything before [lo] is done. *)
Lemma try_fold_good {A} inp (Sh : pair -> Prop) (f : A -> pair -> outcome A) (I : N -> A -> Prop) :
  (forall lo lo' acc, I lo acc -> lo <= lo' -> I lo' acc) ->
  (forall acc p, I (p_start p) acc -> Sh p -> pl inp p -> good inp (I (p_end p)) (f acc p)) ->
  forall ps lo hi acc, I lo acc -> Forall Sh ps -> pls inp lo hi ps -> good inp (I hi) (try_fold f ps acc).
Proof.
  intros Hm Hf ps. induction ps as [|p ps IH]; intros lo hi acc Hi Hs Hp; cbn [try_fold].
  - eapply Hm; [exact Hi|]. eapply pls_nil; exact Hp.
  - apply pls_cons in Hp as (H1 & H2 & H3). inversion Hs as [|? ? Hs1 Hs2]; subst.
    eapply good_bind; [apply Hf; eauto|]. intros a Ha. eapply IH; eauto.
Qed.
Lemma try_map_good {A} inp (Sh : pair -> Prop) (f : pair -> outcome A) (P : A -> Prop) (sp : A -> range) :
  (forall p, Sh p -> pl inp p -> good inp (fun a => P a /\ inside (sp a) (span_of p)) (f p)) ->
  forall ps lo hi, Forall Sh ps -> pls inp lo hi ps ->
    good inp (fun l => Forall P l /\ in_order lo (map sp l) hi) (try_map f ps).
Proof.
  intros Hf ps. induction ps as [|p ps IH]; intros lo hi Hs Hp; cbn [try_map].
  - cbn. split; [constructor|]. eapply pls_nil; exact Hp.
  - apply pls_cons in Hp as (H1 & H2 & H3). inversion Hs as [|? ? Hs1 Hs2]; subst.
    eapply good_bind; [apply Hf; eassumption|]. intros a [Ha (Hb & Hc & Hd)].
    eapply good_bind; [eapply IH; eassumption|]. intros l [Hl1 Hl2]. cbn [good].
    split; [constructor; assumption|]. cbn [map in_order]. cbn [span_of fst snd] in *.
    split; [lia|]. split; [lia|]. eapply in_order_lo; eassumption.
Qed.

(** ** Identifiers *)
Lemma parse_ident_ok inp p : sh_ident NonAtomic p -> pl inp p ->
  exists i, parse_ident p = Ok i /\ ident_ok inp i /\ inside (id_span i) (span_of p).
Proof.
  intros (Hr & q & Hq & Ht & Hsh) (_ & _ & Hp). unfold parse_ident. rewrite Hq in *.
  apply pls_cons in Hp as (H1 & H2 & H3). apply pls_nil in H3.
  assert (Hin : inside (span_of q) (span_of p)).
  { pose proof (pl_lo _ _ H2). unfold inside. cbn [span_of fst snd]. lia. }
  destruct H2 as (H2 & _).
  destruct Hsh as [[Hv Hw]|[Hv (x & Hx & _ & Hw)]]; rewrite Hv.
  - eexists. split; [reflexivity|]. split; [|exact Hin]. split; [exact H2|]. left. auto.
  - eexists. split; [reflexivity|]. split; [|exact Hin]. split; [exact H2|]. right.
    cbn [id_str id_raw]. rewrite Hx. unfold pairs_as_str. cbn [map List.concat]. rewrite app_nil_r. exact Hw.
Qed.
Lemma parse_ident_c p : sh_ident CompoundAtomic p ->
  exists i, parse_ident p = Ok i /\ ((word (as_str p) /\ id_str i = as_str p) \/ quoted_verbatim dq (as_str p) (id_str i)).
Proof.
  intros (Hr & q & Hq & Ht & Hsh). unfold parse_ident. rewrite Hq in *.
  destruct Hsh as [[Hv Hw]|[Hv (x & Hx & _ & Hw)]]; rewrite Hv.
  - eexists. split; [reflexivity|]. left. cbn [id_str]. rewrite <- Ht. auto.
  - eexists. split; [reflexivity|]. right. cbn [id_str]. rewrite Hx. unfold pairs_as_str. cbn [map List.concat].
    rewrite app_nil_r. rewrite <- Ht. exact Hw.
Qed.
Lemma parse_decl_ident_ok inp p : sh_decl_ident p -> pl inp p ->
  exists d, parse_decl_ident p = Ok d /\ opt_all (ident_ok inp) (fst d) /\ ident_ok inp (snd d) /\
    within (span_of p) (opt_list id_span (fst d) ++ [id_span (snd d)]).
Proof.
  intros [Hr Hsh] (_ & _ & Hp). unfold parse_decl_ident, within. cbn [span_of fst snd].
  destruct Hsh as [(n & Hi & Hn)|(sc & n & Hi & Hsc & Hn)]; rewrite Hi in *; cbn [try_map].
  - apply pls_cons in Hp as (H1 & H2 & H3). apply pls_nil in H3.
    pose proof (proj1 Hn) as Hrn. rewrite Hrn.
    destruct (parse_ident_ok _ _ Hn H2) as (i & -> & Hok & Hin). cbn [bind].
    eexists. split; [reflexivity|]. cbn [fst snd opt_all opt_list app in_order].
    unfold inside in Hin. cbn [span_of fst snd] in Hin. repeat split; auto; try apply Hok; lia.
  - apply pls_cons in Hp as (H1 & H2 & H3). apply pls_cons in H3 as (H4 & H5 & H6). apply pls_nil in H6.
    rewrite (proj1 Hn), (proj1 Hsc).
    destruct (parse_ident_ok _ _ Hsc H2) as (i & -> & Hok & Hin).
    destruct (parse_ident_ok _ _ Hn H5) as (i2 & -> & Hok2 & Hin2). cbn [bind].
    eexists. split; [reflexivity|]. cbn [fst snd opt_all opt_list app in_order].
    unfold inside in Hin, Hin2. cbn [span_of fst snd] in Hin, Hin2.
    split; [exact Hok|]. split; [exact Hok2|]. repeat split; lia.
Qed.

(** ** Values *)
Lemma parse_string_value_ok a p : sh_string_value a p ->
  exists v, parse_string_value p = Ok v /\
    match a with
    | NonAtomic => quoted sq (as_str p) v \/ quoted tq (as_str p) v
    | _ => quoted_verbatim sq (as_str p) v \/ quoted_verbatim tq (as_str p) v
    end.
Proof.
  intros (Hr & q & Hq & Ht & Hsh). unfold parse_string_value. rewrite Hq. cbn [try_fold].
  destruct Hsh as [[Hv (x & Hx & Hrx & Hw)]|[Hv (x & Hx & Hrx & Hw)]]; rewrite Hv, Hx; cbn [try_fold]; rewrite Hrx;
    cbn [bind]; (eexists; split; [reflexivity|]); rewrite <- Ht; destruct a; auto.
Qed.
Lemma digits_value_fold d acc : digits_value acc d = fold_left (fun a c => 10 * a + digit_val c) d acc.
Proof. revert acc. induction d as [|c d IH]; intros acc; cbn [digits_value fold_left]; [reflexivity|]. apply IH. Qed.
Lemma N_of_digits_value d : N_of_digits d = digits_value 0 d.
Proof. symmetry. apply digits_value_fold. Qed.

Definition is_text_value (v : value_t) : Prop := (exists x, v = VString x) \/ (exists x, v = VExpr x).
Lemma parse_value_gen inp a p : sh_value a p -> pl inp p ->
  good inp (fun v =>
     (exists x, v = VString x /\ match a with NonAtomic => quoted sq (as_str p) x \/ quoted tq (as_str p) x
                                 | _ => quoted_verbatim sq (as_str p) x \/ quoted_verbatim tq (as_str p) x end) \/
     (exists x, v = VExpr x /\ match a with NonAtomic => quoted bq (as_str p) x | _ => quoted_verbatim bq (as_str p) x end) \/
     (spells (as_str p) v /\ (forall x, v <> VString x) /\ (forall x, v <> VExpr x) /\ (forall x, v <> VEnum x)))
   (parse_value p).
Proof.
  intros (Hr & q & Hq & Ht & Hsh) (_ & _ & Hp). unfold parse_value. rewrite Hq in *.
  apply pls_cons in Hp as (_ & Hpq & _). rewrite <- Ht. clear p Hr Hq Ht.
  destruct Hsh as [[[[Hs|Hs]|Hs]|Hs]|Hs].
  - pose proof (proj1 Hs) as Hrq. rewrite Hrq. destruct (parse_string_value_ok _ _ Hs) as (v & -> & Hv).
    cbn [omap good]. left. eauto.
  - destruct Hs as [Hrq (x & Hx & _ & Hw)]. rewrite Hrq. cbn [good]. right; left. eexists. split; [reflexivity|].
    rewrite Hx. unfold pairs_as_str. cbn [map List.concat]. rewrite app_nil_r. exact Hw.
  - destruct Hs as [Hrq Hs]. rewrite Hrq.
    destruct Hs as [E|[E|E]]; rewrite E; cbv [value_from_str]; cbn [str_eqb s]; cbn [good]; right; right;
      (split; [constructor|repeat split; intros; discriminate]).
  - destruct Hs as (Hrq & n & Hn & Htn & Hs). rewrite Hrq, Hn.
    destruct Hpq as (_ & _ & Hpq). rewrite Hn in Hpq. apply pls_cons in Hpq as (_ & Hpn & _). rewrite <- Htn.
    destruct Hs as [[Hrn (d1 & d2 & E & Hd1 & Hd2)]|[Hrn Hd]]; rewrite Hrn.
    + cbn [good]. right; right. rewrite E. split; [apply sp_dec; [assumption|assumption|apply DecOk.decimal_ok; [apply Hd1|assumption]]|repeat split; intros; discriminate].
    + unfold parse_i64. rewrite N_of_digits_value.
      destruct (N.leb_spec (digits_value 0 (as_str n)) 9223372036854775807) as [Hle|Hgt].
      * cbn [good]. right; right. split; [constructor; assumption|repeat split; intros; discriminate].
      * cbn [good throw_msg]. left. split; [reflexivity|]. exists (as_str n). split; [apply Hpn|]. auto.
  - destruct Hs as [Hrq (h & E & Hh & Hl)]. rewrite Hrq. cbn [good]. right; right. rewrite E.
    split; [constructor; assumption|repeat split; intros; discriminate].
Qed.
Lemma parse_value_ok inp p : sh_value NonAtomic p -> pl inp p -> good inp (spells (as_str p)) (parse_value p).
Proof.
  intros H Hp. eapply good_impl; [apply (parse_value_gen inp NonAtomic p H Hp)|].
  intros v [(x & -> & [Hx|Hx])|[(x & -> & Hx)|[Hx _]]]; [apply sp_single|apply sp_triple|apply sp_expr|]; exact Hx.
Qed.
Lemma parse_value_c inp p : sh_value CompoundAtomic p -> pl inp p -> good inp (spells_arg (as_str p)) (parse_value p).
Proof.
  intros H Hp. eapply good_impl; [apply (parse_value_gen inp CompoundAtomic p H Hp)|].
  intros v [(x & -> & [Hx|Hx])|[(x & -> & Hx)|(Hx & H1 & H2 & H3)]];
    [apply sa_single|apply sa_triple|apply sa_expr|apply sa_other]; assumption.
Qed.

(** ** Attributes *)
Lemma span_inside p lo hi : lo <= p_start p -> p_start p <= p_end p -> p_end p <= hi -> inside (span_of p) (lo, hi).
Proof. unfold inside. cbn [span_of fst snd]. auto. Qed.

Lemma parse_attr_val_ok inp v (a : attribute_t) : sh_attr_val v -> pl inp v -> id_raw (at_key a) <> [] ->
  good inp (fun a' => at_span a' = at_span a /\ at_key a' = at_key a /\
    exists l, at_value a' = Some l /\ lit_span l = span_of v /\ literal_ok inp l)
   (match p_rule v with
    | R_spaced_var =>
        match id_raw (at_key a) with
        | [] => Ok (mkAttr (at_span a) (mkIdent (span_of v) (as_str v) (as_str v)) (at_value a))
        | _ => Ok (mkAttr (at_span a) (at_key a)
                     (Some (mkLiteral (span_of v) (as_str v) (VEnum (as_str v)))))
        end
    | R_value =>
        let? x := parse_value v in
        Ok (mkAttr (at_span a) (at_key a) (Some (mkLiteral (span_of v) (as_str v) x)))
    | R_double_quoted_string =>
        Ok (mkAttr (at_span a) (at_key a)
              (Some (mkLiteral (span_of v) (as_str v) (VString (pairs_as_str (into_inner v))))))
    | _ => throw_rules [R_value; R_spaced_var; R_double_quoted_string] v
    end).
Proof.
  intros Hv Hp Hk. destruct Hv as [[Hv|[Hr Hv]]|[Hr (x & Hx & _ & Hv)]].
  - pose proof (proj1 Hv) as Hr. rewrite Hr. eapply good_bind; [apply (parse_value_ok inp v Hv Hp)|].
    intros x Hx. cbn [good]. repeat (split; [reflexivity|]). eexists. split; [reflexivity|]. split; [reflexivity|].
    split; [apply Hp|exact Hx].
  - rewrite Hr. destruct (id_raw (at_key a)) as [|c w] eqn:Ek; [congruence|]. cbn [good].
    repeat (split; [reflexivity|]). eexists. split; [reflexivity|]. split; [reflexivity|].
    split; [apply Hp|]. cbn [lit_raw lit_value]. apply sp_enum. exact Hv.
  - rewrite Hr. cbn [good]. repeat (split; [reflexivity|]). eexists. split; [reflexivity|]. split; [reflexivity|].
    split; [apply Hp|]. cbn [lit_raw lit_value]. apply sp_double. rewrite Hx. unfold pairs_as_str. cbn [map List.concat].
    rewrite app_nil_r. exact Hv.
Qed.

Lemma key_nonempty k : sh_svar k -> as_str k <> [].
Proof. intros [_ (c & w & -> & _)]. discriminate. Qed.

Lemma parse_attribute_gen inp p k tail : pl inp p -> into_inner p = k :: tail -> sh_svar k ->
  (tail = [] \/ exists v, tail = [v] /\ sh_attr_val v) ->
  good inp (fun a => attribute_ok inp a /\ at_span a = span_of p /\ (at_value a = None <-> tail = [])) (parse_attribute p).
Proof.
  intros (Hp0 & Hle & Hp) Hi Hk Ht. unfold parse_attribute. rewrite Hi in *.
  apply pls_cons in Hp as (H1 & H2 & H3). cbn [try_fold]. rewrite (proj1 Hk).
  cbn [bind id_raw at_key ident0].
  pose proof (key_nonempty k Hk) as Hne.
  set (a0 := mkAttr (span_of p) (mkIdent (span_of k) (as_str k) (as_str k)) None).
  assert (Hkok : key_ok inp (at_key a0)).
  { split; [apply H2|]. split; [apply Hk|reflexivity]. }
  pose proof (pl_lo _ _ H2) as Hlk.
  destruct Ht as [->|(v & -> & Hv)].
  - apply pls_nil in H3. cbn [try_fold good]. split; [|split; [reflexivity|split; reflexivity]].
    split; [eapply shows_valid; exact Hp0|]. split; [exact Hkok|]. split; [exact I|].
    unfold within. cbn [at_span a0 at_key id_span opt_list at_value in_order span_of fst snd]. repeat split; lia.
  - apply pls_cons in H3 as (H4 & H5 & H6). apply pls_nil in H6. pose proof (pl_lo _ _ H5) as Hlv.
    cbn [try_fold at_key at_span at_value].
    change (good inp (fun a => attribute_ok inp a /\ at_span a = span_of p /\ (at_value a = None <-> [v] = []))
      (let? acc' := (match p_rule v with
         | R_spaced_var =>
             match id_raw (at_key a0) with
             | [] => Ok (mkAttr (at_span a0) (mkIdent (span_of v) (as_str v) (as_str v)) (at_value a0))
             | _ => Ok (mkAttr (at_span a0) (at_key a0)
                          (Some (mkLiteral (span_of v) (as_str v) (VEnum (as_str v)))))
             end
         | R_value =>
             let? x := parse_value v in
             Ok (mkAttr (at_span a0) (at_key a0) (Some (mkLiteral (span_of v) (as_str v) x)))
         | R_double_quoted_string =>
             Ok (mkAttr (at_span a0) (at_key a0)
                   (Some (mkLiteral (span_of v) (as_str v) (VString (pairs_as_str (into_inner v))))))
         | _ => throw_rules [R_value; R_spaced_var; R_double_quoted_string] v
         end) in Ok acc')).
    eapply good_bind; [apply (parse_attr_val_ok inp v a0 Hv H5 Hne)|].
    intros a (E1 & E2 & l & E3 & E4 & Hl). cbn [good].
    split; [|split; [exact E1|split; [congruence|discriminate]]].
    split; [rewrite E1; eapply shows_valid; exact Hp0|]. split; [rewrite E2; exact Hkok|].
    rewrite E3. split; [exact Hl|]. unfold within. rewrite E1, E2.
    cbn [opt_list in_order at_key at_span a0 id_span]. rewrite E4. cbn [span_of fst snd]. repeat split; lia.
Qed.
Lemma parse_attribute_ok inp p : sh_attribute p -> pl inp p ->
  good inp (fun a => attribute_ok inp a /\ at_span a = span_of p) (parse_attribute p).
Proof.
  intros [Hr (k & Hk & Hi)] Hp.
  assert (H : exists tail, into_inner p = k :: tail /\ (tail = [] \/ exists v, tail = [v] /\ sh_attr_val v)).
  { destruct Hi as [Hi|(v & Hi & Hv)]; eexists; (split; [exact Hi|]); eauto. }
  destruct H as (tail & Hi' & Ht). eapply good_impl; [eapply parse_attribute_gen; eassumption|].
  intros a (H1 & H2 & _). auto.
Qed.
Lemma parse_property_ok inp p : sh_property p -> pl inp p ->
  good inp (fun a => property_ok inp a /\ pr_span a = span_of p) (parse_property p).
Proof.
  intros [Hr (k & v & Hi & Hk & Hv)] Hp. unfold parse_property.
  eapply good_bind; [eapply parse_attribute_gen; [exact Hp|exact Hi|exact Hk|right; eauto]|].
  intros a (Hok & Hsp & Hn). destruct (at_value a) as [l|] eqn:El.
  - cbn [good]. split; [|exact Hsp]. destruct Hok as (A1 & A2 & A3 & A4). rewrite El in *. cbn [opt_all opt_list] in *.
    split; [exact A1|]. split; [exact A2|]. split; [exact A3|exact A4].
  - exfalso. destruct Hn as [Hn _]. specialize (Hn eq_refl). discriminate.
Qed.
Lemma inside_refl p : p_start p <= p_end p -> inside (span_of p) (span_of p).
Proof. unfold inside. cbn. lia. Qed.

Lemma parse_attributes_ok inp rl p : sh_settings rl p -> pl inp p ->
  good inp (fun l => attributes_ok inp (span_of p) l) (parse_attributes p).
Proof.
  intros [Hr Hs] Hp. unfold parse_attributes. eapply good_impl.
  - eapply (try_map_good inp sh_attribute _ (attribute_ok inp) at_span); [|exact Hs|apply Hp].
    intros q Hq Hpq. rewrite (proj1 Hq). eapply good_impl; [apply parse_attribute_ok; assumption|].
    intros a [H1 H2]. split; [exact H1|]. rewrite H2. apply inside_refl. apply Hpq.
  - intros l [H1 H2]. split; [apply pl_valid; exact Hp|]. split; [exact H1|exact H2].
Qed.
