(** * ParserOk3: types, columns, indexes and blocks (continues [ParserOk2]). *)

From Verif Require Export ParserOk2.
From Verif Require Import Shape Parser.

(** ** Column types *)
Lemma parse_col_type_arg_ok inp p : sh_type_arg p -> pl inp p ->
  good inp (fun vs => args_text (as_str p) vs) (parse_col_type_arg p).
Proof.
  intros (Hr & Hs & Ht) (_ & _ & Hp). unfold parse_col_type_arg.
  assert (H : forall ps lo hi pre acc, Forall (sh_value CompoundAtomic) ps -> pls inp lo hi ps ->
     Forall2 spells_arg pre acc ->
     good inp (fun vs => Forall2 spells_arg (pre ++ map as_str ps) vs)
       (try_fold (fun acc p1 => match p_rule p1 with
          | R_value => let? v := parse_value p1 in Ok (acc ++ [v])
          | _ => throw_rules [R_value] p1 end) ps acc)).
  { induction ps as [|q ps IH]; intros lo hi pre acc Hf Hpl Ha; cbn [try_fold map].
    - rewrite app_nil_r. exact Ha.
    - inversion Hf as [|? ? Hf1 Hf2]; subst. apply pls_cons in Hpl as (H1 & H2 & H3). rewrite (proj1 Hf1).
      pose proof (parse_value_c _ _ Hf1 H2) as Hv. destruct (parse_value q) as [v|e|]; cbn [bind good] in *; [|exact Hv|exact Hv].
      replace (pre ++ as_str q :: map as_str ps) with ((pre ++ [as_str q]) ++ map as_str ps)
        by (rewrite <- app_assoc; reflexivity).
      eapply IH; [exact Hf2|exact H3|]. apply Forall2_app; [exact Ha|]. constructor; [exact Hv|constructor]. }
  eapply good_impl; [eapply (H _ _ _ [] []); [exact Hs|exact Hp|constructor]|].
  intros vs Hvs. right. exists (map as_str (into_inner p)). split; [exact Ht|exact Hvs].
Qed.

Lemma digits_not d : digits d -> (forall t, d <> 91 :: t) /\ (forall t, d <> t ++ [93]).
Proof.
  intros [_ Hd]. split; intros t ->.
  - inversion Hd as [|? ? H _]; subst. unfold digit in H. lia.
  - apply Forall_app in Hd as [_ Hd]. inversion Hd as [|? ? H _]; subst. unfold digit in H. lia.
Qed.
Lemma bracket_mid (g d r d' : str) : g ++ d ++ r = 91 :: d' ++ [93] -> d = d' -> digits d -> g = [91] /\ r = [93].
Proof.
  intros E <- Hd. destruct (digits_not d Hd) as [N1 N2].
  assert (Hlen : (List.length g + List.length r = 2)%nat).
  { assert (HL : List.length (g ++ d ++ r) = List.length (91 :: d ++ [93])) by (rewrite E; reflexivity).
    rewrite !app_length in HL. cbn [List.length] in HL. rewrite app_length in HL. cbn [List.length] in HL. lia. }
  destruct g as [|g1 [|g2 [|g3 g]]]; cbn [app List.length] in *; [|injection E as -> E|injection E as -> E|lia].
  - exfalso. destruct d as [|c d]; [exact (proj1 Hd eq_refl)|]. cbn [app] in E. injection E as -> _.
    exact (N1 d eq_refl).
  - apply app_inv_head in E. auto.
  - exfalso. destruct r as [|r1 r]; [|cbn [List.length] in Hlen; lia]. rewrite app_nil_r in E.
    destruct (exists_last (proj1 Hd)) as (d0 & c & Ed). rewrite Ed in E.
    change (g2 :: d0 ++ [c]) with ((g2 :: d0) ++ [c]) in E.
    apply app_inj_tail in E as [_ ->]. exact (N2 d0 Ed).
Qed.
Lemma parse_col_type_array_ok inp p : sh_type_array p -> pl inp p ->
  good inp (dim_text (as_str p)) (parse_col_type_array p).
Proof.
  intros [Hr Hsh] (Hsp & Hle & Hp). unfold parse_col_type_array.
  destruct Hsh as [[Hi Ht]|(n & Hi & Hn & Ht)]; rewrite Hi in *; cbn [try_fold].
  - exact Ht.
  - rewrite (proj1 Hn). unfold parse_u32. rewrite N_of_digits_value.
    destruct (N.leb_spec (digits_value 0 (as_str n)) 4294967295) as [Hle2|Hgt]; cbn [bind good throw_msg].
    + exists (as_str n). split; [exact Ht|]. split; [apply Hn|]. auto.
    + left. split; [reflexivity|]. exists (as_str n).
      pose proof (pls_cons _ _ _ _ _ Hp) as (_ & Hpn & _).
      split; [apply Hpn|]. split; [apply Hn|]. right. split; [exact Hgt|].
      destruct Hp as (t & Hspot & Hend & Hpl).
      assert (Etxt : t = as_str p).
      { destruct Hspot as (a & b & -> & Ha). pose proof (slice_mid a t b) as E. unfold shows in Hsp.
        cbn [span_of fst snd] in Hsp. rewrite Hend, <- Ha in Hsp. rewrite <- Ha in *. congruence. }
      assert (Hex : exists g rest, t = g ++ as_str n ++ rest /\ p_start n = p_start p + blen g /\
                p_end n = p_start p + blen g + blen (as_str n)).
      { inversion Hpl as [|off g txt inner rest rl ps H1 H2]; subst. exists g, rest. auto. }
      destruct Hex as (g & rest & Hg & Es & Ee). rewrite Etxt, Ht in Hg. symmetry in Hg.
      destruct (bracket_mid g (as_str n) rest (as_str n) Hg eq_refl (proj2 Hn)) as [Eg _]. rewrite Etxt, Ht in Hspot.
      cbn [span_of fst snd]. rewrite Es, Ee, Eg. set (txt := as_str n) in *.
      change (blen [91]) with 1.
      assert (E2 : p_start p + 1 - 1 = p_start p) by lia. rewrite E2.
      assert (E3 : p_start p + 1 + blen txt + 1 = p_start p + blen (s "[" ++ txt ++ s "]")).
      { rewrite !blen_app. change (blen (s "[")) with 1. change (blen (s "]")) with 1. lia. }
      rewrite E3. apply spot_shows. exact Hspot.
Qed.

Definition type_fold (sch : option ident_t) (out : col_type_t) (p2 : pair) : outcome col_type_t :=
  match p_rule p2 with
  | R_var | R_spaced_var =>
      Ok (mkColType (ct_span out) (ct_raw out)
            (CT_Raw (build_type_name_with_schema sch p2)) (ct_args out) (ct_arrays out))
  | R_col_type_arg =>
      let? a := parse_col_type_arg p2 in
      Ok (mkColType (ct_span out) (ct_raw out) (ct_type_name out) a (ct_arrays out))
  | R_col_type_array =>
      let? v := parse_col_type_array p2 in
      Ok (mkColType (ct_span out) (ct_raw out) (ct_type_name out) (ct_args out) (ct_arrays out ++ [v]))
  | _ => throw_rules [R_var; R_spaced_var; R_col_type_arg; R_col_type_array] p2
  end.
Lemma type_fold_arrays inp sch ps : forall lo hi out, Forall sh_type_array ps -> pls inp lo hi ps ->
  good inp (fun o => exists vs, dims_text (txts ps) vs /\
     o = mkColType (ct_span out) (ct_raw out) (ct_type_name out) (ct_args out) (ct_arrays out ++ vs))
   (try_fold (type_fold sch) ps out).
Proof.
  induction ps as [|q ps IH]; intros lo hi out Hf Hpl; cbn [try_fold].
  - cbn [good]. exists []. split; [exists []; split; [reflexivity|constructor]|]. rewrite app_nil_r. destruct out; reflexivity.
  - inversion Hf as [|? ? Hf1 Hf2]; subst. apply pls_cons in Hpl as (H1 & H2 & H3).
    assert (Hg : good inp (fun o => exists v, dim_text (as_str q) v /\
      o = mkColType (ct_span out) (ct_raw out) (ct_type_name out) (ct_args out) (ct_arrays out ++ [v])) (type_fold sch out q)).
    { unfold type_fold. rewrite (proj1 Hf1). eapply good_bind; [apply parse_col_type_array_ok; eassumption|].
      intros v Hv. cbn [good]. eauto. }
    eapply good_bind; [exact Hg|]. intros o (v & Hv & ->). eapply good_impl; [eapply IH; eassumption|].
    cbn [ct_span ct_raw ct_type_name ct_args ct_arrays]. intros o (vs & (raws & Er & Hr) & ->).
    exists (v :: vs). rewrite <- app_assoc. split; [|reflexivity].
    exists (as_str q :: raws). split; [|constructor; assumption]. unfold txts in *. cbn [map List.concat]. rewrite Er. reflexivity.
Qed.
Lemma type_fold_args inp sch ps lo hi out : opt_pair sh_type_arg ps -> pls inp lo hi ps -> ct_args out = [] ->
  good inp (fun o => exists vs, args_text (txts ps) vs /\
     o = mkColType (ct_span out) (ct_raw out) (ct_type_name out) vs (ct_arrays out))
   (try_fold (type_fold sch) ps out).
Proof.
  intros [->|(x & -> & Hx)] Hpl He; cbn [try_fold].
  - cbn [good]. exists []. split; [left; auto|]. destruct out; cbn in *; subst; reflexivity.
  - apply pls_cons in Hpl as (H1 & H2 & _).
    assert (Hg : good inp (fun o => exists vs, args_text (as_str x) vs /\
      o = mkColType (ct_span out) (ct_raw out) (ct_type_name out) vs (ct_arrays out)) (type_fold sch out x)).
    { unfold type_fold. rewrite (proj1 Hx). eapply good_bind; [apply parse_col_type_arg_ok; eassumption|].
      intros v Hv. cbn [good]. eauto. }
    eapply good_bind; [exact Hg|]. intros o (v & Hv & ->). cbn [good]. exists v.
    split; [|reflexivity]. unfold txts. cbn [map List.concat]. rewrite app_nil_r. exact Hv.
Qed.
Lemma try_fold_app {A B} (f : B -> A -> outcome B) l1 l2 acc :
  try_fold f (l1 ++ l2) acc = let? x := try_fold f l1 acc in try_fold f l2 x.
Proof.
  revert acc. induction l1 as [|a l1 IH]; intros acc; cbn [try_fold app bind]; [reflexivity|].
  destruct (f acc a); cbn [bind]; auto.
Qed.

Definition schema_prefix (sch : option ident_t) : str :=
  match sch with Some i => id_str i ++ s "." | None => [] end.
Lemma build_prefix sch p : build_type_name_with_schema sch p = schema_prefix sch ++ as_str p.
Proof. destruct sch; cbn; [rewrite <- app_assoc|]; reflexivity. Qed.

Definition type_body (body base : str) (args : list value_t) (arrays : list (option N)) : Prop :=
  (exists ta td, word base /\ body = base ++ ta ++ td /\ args_text ta args /\ dims_text td arrays) \/
  (exists ta td1 td2 a1 a2, spaced_word base /\ body = dq ++ base ++ ta ++ td1 ++ dq ++ td2 /\
     args_text ta args /\ dims_text td1 a1 /\ dims_text td2 a2 /\ arrays = a1 ++ a2).
Lemma type_fold_ok inp sch p sp raw : sh_type p -> pl inp p ->
  good inp (fun o => exists base args arrays, type_body (as_str p) base args arrays /\
     o = mkColType sp raw (CT_Raw (schema_prefix sch ++ base)) args arrays)
   (try_fold (type_fold sch) (into_inner p) (mkColType sp raw CT_Undef [] [])).
Proof.
  intros Hsh (_ & _ & Hp).
  destruct Hsh as [[Hr (n & args & a1 & a2 & Hi & Hn & Ha & Hd1 & Hd2 & Ht)]|[Hr (n & args & a1 & Hi & Hn & Ha & Hd1 & Ht)]];
    rewrite Hi in *; apply pls_cons in Hp as (H1 & H2 & H3); cbn [try_fold].
  - apply pls_app in H3 as (m1 & H3 & H4). apply pls_app in H4 as (m2 & H4 & H5).
    assert (E : type_fold sch (mkColType sp raw CT_Undef [] []) n =
      Ok (mkColType sp raw (CT_Raw (schema_prefix sch ++ as_str n)) [] [])).
    { unfold type_fold. rewrite (proj1 Hn), build_prefix. reflexivity. }
    rewrite E. cbn [bind]. rewrite try_fold_app.
    eapply good_bind; [eapply type_fold_args; [exact Ha|exact H3|reflexivity]|]. intros o (va & Hva & ->).
    rewrite try_fold_app. eapply good_bind; [apply (type_fold_arrays inp sch a1 _ _ _ Hd1 H4)|]. intros o (v1 & Hv1 & ->).
    eapply good_impl; [apply (type_fold_arrays inp sch a2 _ _ _ Hd2 H5)|]. intros o (v2 & Hv2 & ->).
    cbn [ct_span ct_raw ct_type_name ct_args ct_arrays app].
    eexists (as_str n), va, (v1 ++ v2). split; [|reflexivity]. right. exists (txts args), (txts a1), (txts a2), v1, v2.
    split; [apply Hn|]. split; [exact Ht|]. auto.
  - apply pls_app in H3 as (m1 & H3 & H4).
    assert (E : type_fold sch (mkColType sp raw CT_Undef [] []) n =
      Ok (mkColType sp raw (CT_Raw (schema_prefix sch ++ as_str n)) [] [])).
    { unfold type_fold. rewrite (proj1 Hn), build_prefix. reflexivity. }
    rewrite E. cbn [bind]. rewrite try_fold_app.
    eapply good_bind; [eapply type_fold_args; [exact Ha|exact H3|reflexivity]|]. intros o (va & Hva & ->).
    eapply good_impl; [apply (type_fold_arrays inp sch a1 _ _ _ Hd1 H4)|]. intros o (v1 & Hv1 & ->).
    cbn [ct_span ct_raw ct_type_name ct_args ct_arrays app].
    eexists (as_str n), va, v1. split; [|reflexivity]. left. exists (txts args), (txts a1).
    split; [apply Hn|]. split; [exact Ht|]. auto.
Qed.
Lemma body_base_ne body base args arrays : type_body body base args arrays -> base <> [].
Proof. intros [(ta & td & (c & w & -> & _) & _)|(ta & td1 & td2 & a1 & a2 & (c & w & -> & _) & _)]; discriminate. Qed.
Lemma sh_type_rule p : sh_type p -> p_rule p = R_col_type_quoted \/ p_rule p = R_col_type_unquoted.
Proof. intros [[H _]|[H _]]; auto. Qed.
Lemma parse_col_type_ok inp p : sh_col_type p -> pl inp p ->
  good inp (fun t => col_type_ok inp t /\ ct_span t = span_of p) (parse_col_type p).
Proof.
  intros [Hr Hsh] (Hsp & Hle & Hp). unfold parse_col_type.
  change (fun acc p1 => let '(sch, out) := acc in _) with
    (fun (acc : option ident_t * col_type_t) p1 => let '(sch, out) := acc in
      match p_rule p1 with
      | R_ident => let? i := parse_ident p1 in Ok (Some i, out)
      | R_col_type_quoted | R_col_type_unquoted =>
          omap (fun o => (sch, o)) (try_fold (type_fold sch) (into_inner p1) out)
      | _ => throw_rules [R_col_type_quoted; R_col_type_unquoted] p1
      end).
  assert (Hstep : forall sch t, sh_type t -> pl inp t ->
    good inp (fun r => exists base args arrays, type_body (as_str t) base args arrays /\
        snd r = mkColType (span_of p) (as_str p) (CT_Raw (schema_prefix sch ++ base)) args arrays)
      (match p_rule t with
      | R_ident => let? i := parse_ident t in Ok (Some i, mkColType (span_of p) (as_str p) CT_Undef [] [])
      | R_col_type_quoted | R_col_type_unquoted =>
          omap (fun o => (sch, o)) (try_fold (type_fold sch) (into_inner t) (mkColType (span_of p) (as_str p) CT_Undef [] []))
      | _ => throw_rules [R_col_type_quoted; R_col_type_unquoted] t
      end)).
  { intros sch t Ht Hpt. pose proof (type_fold_ok inp sch t (span_of p) (as_str p) Ht Hpt) as Hg.
    destruct (sh_type_rule _ Ht) as [-> | ->]; (eapply good_omap; [exact Hg|]); intros o Ho; exact Ho. }
  destruct Hsh as [(t & Hi & Hty & Htx)|(i & t & Hi & Hid & Hty & Htx)]; rewrite Hi in *; cbn [try_fold].
  - apply pls_cons in Hp as (H1 & H2 & H3). eapply good_omap; [eapply good_bind; [apply (Hstep None t Hty H2)|]|].
    + intros r Hr'. cbn [good]. exact Hr'.
    + intros r (base & args & arrays & Hb & E). rewrite E. cbn [ct_span]. split; [|reflexivity]. split; [exact Hsp|].
      cbn [ct_type_name ct_raw ct_args ct_arrays]. eexists. split; [reflexivity|].
      cbn [schema_prefix app]. split; [eapply body_base_ne; exact Hb|].
      exists [], [], (as_str p), base. rewrite <- Htx in Hb. split; [reflexivity|]. split; [reflexivity|]. split; [left; auto|exact Hb].
  - apply pls_cons in Hp as (H1 & H2 & H3). apply pls_cons in H3 as (H4 & H5 & H6). rewrite (proj1 Hid).
    destruct (parse_ident_c _ Hid) as (ii & -> & Hii). cbn [bind].
    eapply good_omap; [eapply good_bind; [apply (Hstep (Some ii) t Hty H5)|]|].
    + intros r Hr'. cbn [good]. exact Hr'.
    + intros r (base & args & arrays & Hb & E). rewrite E. cbn [ct_span]. split; [|reflexivity]. split; [exact Hsp|].
      cbn [ct_type_name ct_raw ct_args ct_arrays]. eexists. split; [reflexivity|].
      pose proof (body_base_ne _ _ _ _ Hb) as Hne. cbn [schema_prefix].
      split; [intros E0; apply app_eq_nil in E0 as [_ E0]; contradiction|].
      exists (as_str i ++ s "."), (id_str ii ++ s "."), (as_str t), base.
      split; [rewrite <- app_assoc; exact Htx|]. split; [reflexivity|]. split; [right; exists (as_str i), (id_str ii)|exact Hb].
      split; [reflexivity|]. split; [reflexivity|]. destruct Hii as [[Hw ->]|Hq]; auto.
Qed.

(** ** Columns *)
Lemma col_settings_say_ref l acc r : col_settings_say l acc -> col_settings_say l (col_settings_add_ref acc r).
Proof. destruct acc. exact (fun H => H). Qed.
Lemma col_settings_say_nil sp : col_settings_say [] (col_settings0 sp).
Proof.
  unfold col_settings_say, col_settings0. cbn. repeat split; try discriminate; try apply last_says_nil;
    try (intros H; apply has_key_nil in H; contradiction).
  intros [H|H]; apply has_key_nil in H; contradiction.
Qed.
Lemma add_attr_fields acc a : cs_span (col_settings_add_attr acc a) = cs_span acc /\
  cs_attributes (col_settings_add_attr acc a) = cs_attributes acc ++ [a] /\
  cs_refs (col_settings_add_attr acc a) = cs_refs acc.
Proof.
  destruct acc. unfold col_settings_add_attr.
  repeat match goal with |- context [if ?b then _ else _] => destruct b end; auto.
Qed.
Lemma parse_col_settings_ok inp p : sh_col_settings p -> pl inp p ->
  good inp (fun x => col_settings_ok inp x /\ cs_span x = span_of p) (parse_col_settings p).
Proof.
  intros [Hr Hs] Hp. unfold parse_col_settings.
  set (I := fun lo (x : col_settings_t) => cs_span x = span_of p /\
     attrs_inv inp (p_start p) (cs_attributes x) lo /\ col_settings_say (cs_attributes x) x /\
     Forall (ref_inline_ok inp) (cs_refs x) /\ in_order (p_start p) (map rin_span (cs_refs x)) lo).
  assert (H0 : I (p_start p) (col_settings0 (span_of p))).
  { split; [reflexivity|]. split; [apply attrs_inv_nil|]. split; [apply col_settings_say_nil|].
    split; [constructor|cbn; lia]. }
  eapply good_impl.
  - apply (try_fold_good inp sh_col_attribute _ I) with (lo := p_start p) (hi := p_end p); [| |exact H0|exact Hs|apply Hp].
    + intros lo lo' x (A1 & A2 & A3 & A4 & A5) Hl. split; [exact A1|]. split; [eapply attrs_inv_mono; eassumption|].
      split; [exact A3|]. split; [exact A4|]. eapply in_order_hi; eassumption.
    + intros acc q (A1 & A2 & A3 & A4 & A5) (Hq & y & Hy & Hsh) Hpq. rewrite Hq, Hy. cbn [try_fold].
      destruct Hpq as (_ & _ & Hpq). rewrite Hy in Hpq. apply pls_cons in Hpq as (H1 & H2 & H3). apply pls_nil in H3.
      pose proof (pl_lo _ _ H2) as Hly.
      assert (Hg : good inp (I (p_end q)) (match p_rule y with
          | R_attribute => let? a := parse_attribute y in Ok (col_settings_add_attr acc a)
          | R_ref_inline => let? r := parse_ref_inline y in Ok (col_settings_add_ref acc r)
          | _ => throw_rules [R_ref_inline; R_attribute] y
          end)).
      { destruct Hsh as [Hsh|Hsh]; rewrite (proj1 Hsh).
        - destruct (parse_ref_inline_ok _ _ Hsh H2) as (r & -> & Hrok & Hrs). cbn [bind good].
          destruct acc as [sp attrs pk un nu inc nt df rf]. cbn [cs_span cs_attributes cs_refs col_settings_add_ref] in *.
          split; [exact A1|]. split; [eapply attrs_inv_mono; [exact A2|lia]|]. split; [exact A3|].
          split; [apply Forall_app; auto|]. cbn [cs_refs]. rewrite map_app. cbn [map]. rewrite Hrs.
          eapply in_order_hi; [apply (in_order_snoc _ _ (p_start q) (span_of y))|]; cbn [span_of fst snd]; [exact A5|lia|lia|lia].
        - eapply good_bind; [apply parse_attribute_ok; eassumption|]. intros a [Ha Hsa]. cbn [good].
          assert (Hsn : attrs_inv inp (p_start p) (cs_attributes acc ++ [a]) (p_end y)).
          { apply attrs_inv_snoc; auto. eapply attrs_inv_mono; [exact A2|lia]. }
          pose proof (col_settings_say_attr _ _ a A3) as Hsay.
          destruct (add_attr_fields acc a) as (F1 & F2 & F3). unfold I. rewrite F1, F2, F3.
          split; [exact A1|]. split; [eapply attrs_inv_mono; [exact Hsn|lia]|]. split; [exact Hsay|].
          split; [exact A4|]. eapply in_order_hi; [exact A5|lia]. }
      destruct (match p_rule y with
          | R_attribute => let? a := parse_attribute y in Ok (col_settings_add_attr acc a)
          | R_ref_inline => let? r := parse_ref_inline y in Ok (col_settings_add_ref acc r)
          | _ => throw_rules [R_ref_inline; R_attribute] y
          end); exact Hg.
  - intros x (A1 & A2 & A3 & A4 & A5). split; [|exact A1]. split; [|split; [exact A3|]].
    + rewrite A1. apply attrs_inv_ok; [exact Hp|exact A2].
    + split; [exact A4|]. unfold within. rewrite A1. exact A5.
Qed.

(** a [let?] whose continuation is just [Ok] of a constructor *)
Lemma bind_Ok_r {A} (x : outcome A) : (let? a := x in Ok a) = x.
Proof. destruct x; reflexivity. Qed.

Lemma parse_table_col_ok inp p : sh_table_col p -> pl inp p ->
  good inp (fun c => table_col_ok inp c /\ tc_span c = span_of p) (parse_table_col p).
Proof.
  intros [Hr (n & ty & Hi & Hn & Hty)] Hpl. pose proof (pl_valid _ _ Hpl) as Hv. destruct Hpl as (_ & _ & Hp).
  assert (Hc : exists tail, into_inner p = n :: ty :: tail /\ (tail = [] \/ exists x, tail = [x] /\ sh_col_settings x)).
  { destruct Hi as [Hi|(x & Hi & Hx)]; rewrite Hi; eexists; (split; [reflexivity|]); eauto. }
  destruct Hc as (tail & Hi' & Ht). unfold parse_table_col. rewrite Hi' in *. clear Hi.
  apply pls_cons in Hp as (H1 & H2 & H3). apply pls_cons in H3 as (H4 & H5 & H6). cbn [try_fold].
  rewrite (proj1 Hn), (proj1 Hty). destruct (parse_ident_ok _ _ Hn H2) as (i & -> & Hi & Hin). cbn [bind].
  unfold inside in Hin. cbn [span_of fst snd] in Hin. pose proof (pl_lo _ _ H2). pose proof (pl_lo _ _ H5).
  cbn [tc_span tc_name tc_type tc_settings].
  pose proof (parse_col_type_ok _ _ Hty H5) as Hg. destruct (parse_col_type ty) as [ct|e|]; cbn [bind good] in *; [|exact Hg|exact Hg].
  destruct Hg as [Hct Hcs].
  destruct Ht as [->|(x & -> & Hx)]; cbn [try_fold].
  - apply pls_nil in H6. cbn [good]. split; [|reflexivity]. split; [exact Hv|]. cbn [tc_name tc_type tc_settings tc_span opt_all opt_list].
    split; [exact Hi|]. split; [exact Hct|]. split; [exact I|]. unfold within. cbn [in_order]. rewrite Hcs. cbn [span_of fst snd].
    repeat split; lia.
  - apply pls_cons in H6 as (H7 & H8 & H9). apply pls_nil in H9. pose proof (pl_lo _ _ H8). rewrite (proj1 Hx).
    cbn [tc_span tc_name tc_type tc_settings].
    pose proof (parse_col_settings_ok _ _ Hx H8) as Hg.
    destruct (parse_col_settings x) as [st|e|]; cbn [bind good] in *; [|exact Hg|exact Hg]. destruct Hg as [Hst Hss].
    split; [|reflexivity]. split; [exact Hv|]. cbn [tc_name tc_type tc_settings tc_span opt_all opt_list].
    split; [exact Hi|]. split; [exact Hct|]. split; [exact Hst|]. unfold within. cbn [in_order]. rewrite Hcs, Hss. cbn [span_of fst snd].
    repeat split; lia.
Qed.

(** ** Indexes *)
Lemma parse_indexes_ident_ok inp p : sh_indexes_ident p -> pl inp p ->
  exists c, parse_indexes_ident p = Ok c /\ indexes_col_ok inp c /\ inside (indexes_col_span c) (span_of p).
Proof.
  intros (Hr & q & Hq & Ht & Hsh) (_ & _ & Hp). unfold parse_indexes_ident. rewrite Hq in *.
  apply pls_cons in Hp as (H1 & H2 & H3). apply pls_nil in H3. pose proof (pl_lo _ _ H2) as Jq1.
  destruct Hsh as [Hsh|[Hv (x & Hx & Hxr & Hw)]].
  - rewrite (proj1 Hsh). destruct (parse_ident_ok _ _ Hsh H2) as (i & -> & Hi & Hin). cbn [omap].
    eexists. split; [reflexivity|]. split; [exact Hi|]. unfold inside in *. cbn [span_of fst snd indexes_col_span] in *. lia.
  - rewrite Hv, Hx, Hxr. eexists. split; [reflexivity|]. split; [|apply span_inside; assumption].
    split; [apply H2|]. exists (as_str x). auto.
Qed.
Lemma parse_index_def_ok inp rl p : sh_index_def rl p -> pl inp p ->
  good inp (fun d => indexes_def_ok inp d /\ idf_span d = span_of p) (parse_indexes_single_multi p).
Proof.
  intros [Hr (cs & Hi & Hcs)] Hpl. pose proof (pl_valid _ _ Hpl) as Hv. destruct Hpl as (_ & _ & Hp).
  assert (Hc : exists tail, into_inner p = cs ++ tail /\ (tail = [] \/ exists x, tail = [x] /\ sh_settings R_indexes_settings x)).
  { destruct Hi as [Hi|(x & Hi & Hx)]; rewrite Hi; [exists []; rewrite app_nil_r|exists [x]]; (split; [reflexivity|]); eauto. }
  destruct Hc as (tail & Hi' & Ht). unfold parse_indexes_single_multi. rewrite Hi' in *. clear Hi.
  apply pls_app in Hp as (m & H1 & H2). rewrite try_fold_app.
  set (I := fun lo (d : indexes_def) => idf_span d = span_of p /\ idf_settings d = None /\
     Forall (indexes_col_ok inp) (idf_cols d) /\ in_order (p_start p) (map indexes_col_span (idf_cols d)) lo).
  eapply (good_bind inp (I m)).
  - apply (try_fold_good inp sh_indexes_ident _ I) with (lo := p_start p); [| |split; [reflexivity|split; [reflexivity|split; [constructor|cbn; lia]]]|exact Hcs|exact H1].
    + intros lo lo' d (A1 & A2 & A3 & A4) Hl. repeat (split; [assumption|]). eapply in_order_hi; eassumption.
    + intros acc q (A1 & A2 & A3 & A4) Hq Hpq. rewrite (proj1 Hq).
      destruct (parse_indexes_ident_ok _ _ Hq Hpq) as (c & -> & Hc & Hin). cbn [bind good].
      unfold inside in Hin. cbn [span_of fst snd] in Hin.
      split; [exact A1|]. split; [exact A2|]. split; [apply Forall_app; auto|]. cbn [idf_cols]. rewrite map_app. cbn [map].
      eapply in_order_hi; [apply (in_order_snoc _ _ (p_start q) (indexes_col_span c)); [exact A4|lia|lia]|lia].
  - intros d (A1 & A2 & A3 & A4). destruct Ht as [->|(x & -> & Hx)]; cbn [try_fold].
    + apply pls_nil in H2. cbn [good]. split; [|exact A1]. split; [rewrite A1; exact Hv|]. split; [exact A3|].
      rewrite A2. split; [exact Logic.I|]. cbn [opt_list]. rewrite app_nil_r. unfold within. rewrite A1. eapply in_order_hi; eassumption.
    + apply pls_cons in H2 as (H3 & H4 & H5). apply pls_nil in H5. pose proof (pl_lo _ _ H4) as Jq2. rewrite (proj1 Hx).
      pose proof (parse_indexes_settings_ok _ _ Hx H4) as Hg.
      destruct (parse_indexes_settings x) as [st|e|]; cbn [bind good] in *; [|exact Hg|exact Hg]. destruct Hg as [Hst Hss].
      split; [|exact A1]. split; [rewrite <- A1 in Hv; exact Hv|]. cbn [idf_cols idf_settings idf_span opt_all opt_list].
      split; [exact A3|]. split; [exact Hst|]. unfold within. rewrite A1, Hss. cbn [span_of fst snd].
      eapply in_order_hi; [apply (in_order_snoc _ _ m (span_of x)); cbn [span_of fst snd]; [exact A4|lia|lia]|cbn [span_of snd]; lia].
Qed.
Lemma parse_indexes_block_ok inp p : sh_indexes_block p -> pl inp p ->
  good inp (fun b => indexes_block_ok inp b /\ ib_span b = span_of p) (parse_indexes_block p).
Proof.
  intros [Hr Hs] Hp. unfold parse_indexes_block.
  set (I := fun lo (x : indexes_block_t) => ib_span x = span_of p /\
     Forall (indexes_def_ok inp) (ib_defs x) /\ in_order (p_start p) (map idf_span (ib_defs x)) lo).
  eapply good_impl.
  - apply (try_fold_good inp _ _ I) with (lo := p_start p) (hi := p_end p) (4 := Hs);
      [| |split; [reflexivity|split; [constructor|cbn; lia]]|apply Hp].
    + intros lo lo' d (A1 & A2 & A3) Hl. repeat (split; [assumption|]). eapply in_order_hi; eassumption.
    + intros acc q (A1 & A2 & A3) Hq Hpq. pose proof (pl_lo _ _ Hpq).
      assert (Hg : good inp (I (p_end q)) (let? d := parse_indexes_single_multi q in Ok (mkIndexesBlock (ib_span acc) (ib_defs acc ++ [d])))).
      { assert (Hq' : exists rl, sh_index_def rl q) by (destruct Hq as [Hq|Hq]; eauto). destruct Hq' as [rl Hq'].
        eapply good_bind; [eapply parse_index_def_ok; eassumption|]. intros d [Hd Hds]. cbn [good].
        split; [exact A1|]. split; [apply Forall_app; auto|]. cbn [ib_defs]. rewrite map_app. cbn [map]. rewrite Hds.
        apply (in_order_snoc _ _ (p_start q) (span_of q)); cbn [span_of fst snd]; [exact A3|lia|lia]. }
      destruct Hq as [Hq|Hq]; rewrite (proj1 Hq); exact Hg.
  - intros b (A1 & A2 & A3). split; [|exact A1]. split; [rewrite A1; apply pl_valid; exact Hp|]. split; [exact A2|].
    unfold within. rewrite A1. exact A3.
Qed.
Lemma parse_indexes_decl_ok inp p : sh_indexes_decl p -> pl inp p ->
  good inp (fun b => indexes_block_ok inp b /\ inside (ib_span b) (span_of p)) (parse_indexes_decl p).
Proof.
  intros [Hr (b & Hi & Hb)] (_ & _ & Hp). unfold parse_indexes_decl. rewrite Hi in *.
  apply pls_cons in Hp as (H1 & H2 & H3). apply pls_nil in H3. pose proof (pl_lo _ _ H2) as Jq3. rewrite (proj1 Hb).
  eapply good_impl; [apply parse_indexes_block_ok; eassumption|]. intros x [Hx Hxs]. split; [exact Hx|].
  rewrite Hxs. apply span_inside; assumption.
Qed.

(** ** Tables *)
Definition table_items (acc : table_t) (p2 : pair) : outcome table_t :=
  let '(mkTable sp cols id nt ix st) := acc in
  match p_rule p2 with
  | R_table_col => let? c := parse_table_col p2 in Ok (mkTable sp (cols ++ [c]) id nt ix st)
  | R_note_decl => let? n := parse_note_decl p2 in Ok (mkTable sp cols id (Some n) ix st)
  | R_indexes_decl => let? i := parse_indexes_decl p2 in Ok (mkTable sp cols id nt (Some i) st)
  | _ => throw_rules [R_table_col; R_note_decl; R_indexes_decl] p2
  end.
Definition t_items_inv (inp : str) (sp : range) (id : table_ident_t) (st : option table_settings_t) (m : N) (lo : N) (t : table_t) : Prop :=
  tb_span t = sp /\ tb_ident t = id /\ tb_settings t = st /\
  Forall (table_col_ok inp) (tb_cols t) /\ in_order m (map tc_span (tb_cols t)) lo /\
  opt_all (fun n => note_ok inp n /\ inside (nb_span n) (m, lo)) (tb_note t) /\
  opt_all (fun n => indexes_block_ok inp n /\ inside (ib_span n) (m, lo)) (tb_indexes t).
Lemma table_items_ok inp sp id st b : sh_table_block b -> pl inp b ->
  good inp (t_items_inv inp sp id st (p_start b) (p_end b))
    (try_fold table_items (into_inner b) (mkTable sp [] id None None st)).
Proof.
  intros [Hr Hs] Hp. set (m := p_start b).
  apply (try_fold_good inp _ _ (t_items_inv inp sp id st m)) with (lo := p_start b) (4 := Hs); [| | |apply Hp].
  - intros lo lo' t (A1 & A2 & A3 & A4 & A5 & A6 & A7) Hl. repeat (split; [assumption|]).
    split; [eapply in_order_hi; eassumption|]. unfold inside in *. cbn [fst snd] in *.
    split; [destruct (tb_note t)|destruct (tb_indexes t)]; cbn [opt_all] in *; try exact Logic.I;
      (split; [tauto|lia]).
  - intros acc q (A1 & A2 & A3 & A4 & A5 & A6 & A7) Hq Hpq. pose proof (pl_lo _ _ Hpq) as Hlq.
    pose proof (in_order_le _ _ _ A5) as Hm.
    destruct acc as [sp' cols id' nt ix st']. cbn [tb_span tb_ident tb_settings tb_cols tb_note tb_indexes] in *. subst sp' id' st'.
    unfold table_items.
    assert (B6 : opt_all (fun n => note_ok inp n /\ inside (nb_span n) (m, p_end q)) nt).
    { destruct nt; cbn [opt_all] in *; [|exact Logic.I]. unfold inside in *. cbn [fst snd] in *. split; [tauto|lia]. }
    assert (B7 : opt_all (fun n => indexes_block_ok inp n /\ inside (ib_span n) (m, p_end q)) ix).
    { destruct ix; cbn [opt_all] in *; [|exact Logic.I]. unfold inside in *. cbn [fst snd] in *. split; [tauto|lia]. }
    assert (B5 : in_order m (map tc_span cols) (p_end q)) by (eapply in_order_hi; [exact A5|lia]).
    destruct Hq as [[Hq|Hq]|Hq]; rewrite (proj1 Hq).
    + eapply good_bind; [apply parse_table_col_ok; eassumption|]. intros c [Hc Hcs]. cbn [good].
      unfold t_items_inv. cbn [tb_span tb_ident tb_settings tb_cols tb_note tb_indexes]. repeat (split; [reflexivity|]).
      split; [apply Forall_app; auto|]. split; [|split; assumption].
      rewrite map_app. cbn [map]. rewrite Hcs.
      apply (in_order_snoc _ _ (p_start q) (span_of q)); cbn [span_of fst snd]; [exact A5|lia|lia].
    + eapply good_bind; [apply parse_note_decl_ok; eassumption|]. intros c [Hc Hcs]. cbn [good].
      unfold t_items_inv. cbn [tb_span tb_ident tb_settings tb_cols tb_note tb_indexes]. repeat (split; [reflexivity|]).
      split; [exact A4|]. split; [exact B5|]. split; [|exact B7]. cbn [opt_all].
      split; [exact Hc|]. unfold inside in *. cbn [span_of fst snd] in *. lia.
    + eapply good_bind; [apply parse_indexes_decl_ok; eassumption|]. intros c [Hc Hcs]. cbn [good].
      unfold t_items_inv. cbn [tb_span tb_ident tb_settings tb_cols tb_note tb_indexes]. repeat (split; [reflexivity|]).
      split; [exact A4|]. split; [exact B5|]. split; [exact B6|]. cbn [opt_all].
      split; [exact Hc|]. unfold inside in *. cbn [span_of fst snd] in *. lia.
  - unfold t_items_inv. cbn. repeat split; try constructor. lia.
Qed.

Definition table_parts (acc : table_t) (p1 : pair) : outcome table_t :=
    let '(mkTable sp cols id nt ix st) := acc in
    match p_rule p1 with
    | R_decl_ident =>
        let? d := parse_decl_ident p1 in
        Ok (mkTable sp cols (mkTableIdent (span_of p1) (snd d) (fst d) (ti_alias id)) nt ix st)
    | R_table_alias =>
        try_fold (fun acc p2 =>
          match p_rule p2 with
          | R_ident =>
              let? a := parse_ident p2 in
              let '(mkTable sp cols id nt ix st) := acc in
              Ok (mkTable sp cols (mkTableIdent (ti_span id) (ti_name id) (ti_schema id) (Some a)) nt ix st)
          | _ => throw_rules [R_ident] p2
          end) (into_inner p1) acc
    | R_table_block => try_fold table_items (into_inner p1) acc
    | R_block_settings =>
        let? x := parse_table_settings p1 in Ok (mkTable sp cols id nt ix (Some x))
    | _ => throw_rules [R_decl_ident; R_table_alias; R_table_block; R_block_settings] p1
    end.
Lemma parse_table_decl_parts p : parse_table_decl p = try_fold table_parts (into_inner p) (table0 (span_of p)).
Proof. reflexivity. Qed.

Definition t_head (inp : str) (sp : range) (st : option table_settings_t) (al : option ident_t) (lo : N) (t : table_t) : Prop :=
  exists id, t = mkTable sp [] id None None st /\ table_ident_ok inp id /\ ti_alias id = al /\
    opt_all (fun x => attributes_ok inp (ts_span x) (ts_attributes x)) st /\
    in_order (fst sp) (ti_span id :: opt_list id_span al ++ opt_list ts_span st) lo.

Lemma parse_table_decl_ok inp p : sh_table_decl p -> pl inp p ->
  good inp (fun t => table_ok inp t /\ tb_span t = span_of p) (parse_table_decl p).
Proof.
  intros [Hr (i & al & st & b & Hi & Hid & Hal & Hst & Hb)] Hpl. pose proof (pl_valid _ _ Hpl) as Hv.
  destruct Hpl as (_ & _ & Hp). rewrite parse_table_decl_parts, Hi in *.
  apply pls_cons in Hp as (H1 & H2 & H3). apply pls_app in H3 as (m1 & H3 & H4). apply pls_app in H4 as (m2 & H4 & H5).
  apply pls_cons in H5 as (H5 & H6 & H7). apply pls_nil in H7.
  pose proof (pl_lo _ _ H2) as Jq4. pose proof (pl_lo _ _ H6) as Jq5. pose proof (pls_le _ _ _ _ H3) as Jq6. pose proof (pls_le _ _ _ _ H4) as Jq7.
  cbn [try_fold]. unfold table_parts at 1, table0. rewrite (proj1 Hid).
  destruct (parse_decl_ident_ok _ _ Hid H2) as (d & -> & Hd1 & Hd2 & Hd3). cbn [bind ti_alias]. rewrite try_fold_app.
  eapply (good_bind inp (fun t => exists a, t_head inp (span_of p) None a m1 t)).
  { destruct Hal as [->|(x & -> & Hxr & y & Hxi & Hy)]; cbn [try_fold].
    - apply pls_nil in H3. cbn [good]. exists None. eexists. split; [reflexivity|].
      split; [|split; [reflexivity|split; [exact Logic.I|]]].
      + split; [apply pl_valid; exact H2|]. cbn [ti_schema ti_name ti_alias ti_span opt_all]. auto.
      + cbn [opt_list app in_order ti_span span_of fst snd]. lia.
    - apply pls_cons in H3 as (H8 & H9 & H10). apply pls_nil in H10. pose proof (pl_lo _ _ H9) as Jq8.
      unfold table_parts. rewrite Hxr, Hxi. cbn [try_fold]. rewrite (proj1 Hy).
      destruct H9 as (_ & _ & H9). rewrite Hxi in H9. apply pls_cons in H9 as (H9 & H11 & H12). apply pls_nil in H12.
      destruct (parse_ident_ok _ _ Hy H11) as (a & -> & Ha & Hin). cbn [bind]. cbn [good]. exists (Some a).
      unfold inside in Hin. cbn [span_of fst snd] in Hin.
      eexists. split; [reflexivity|]. split; [|split; [reflexivity|split; [exact Logic.I|]]].
      + split; [apply pl_valid; exact H2|]. cbn [ti_schema ti_name ti_alias ti_span opt_all]. auto.
      + cbn [opt_list app in_order ti_span span_of fst snd]. lia. }
  intros t0 (a & id & -> & Hidok & Hal' & _ & Ho1). rewrite try_fold_app.
  eapply (good_bind inp (fun t => exists st', t_head inp (span_of p) st' a m2 t)).
  { destruct Hst as [->|(x & -> & Hx)]; cbn [try_fold].
    - apply pls_nil in H4. cbn [good]. exists None. eexists. split; [reflexivity|].
      split; [exact Hidok|split; [exact Hal'|split; [exact Logic.I|]]].
      eapply in_order_hi; [exact Ho1|lia].
    - apply pls_cons in H4 as (H8 & H9 & H10). apply pls_nil in H10. pose proof (pl_lo _ _ H9) as Jq9.
      unfold table_parts. rewrite (proj1 Hx). unfold parse_table_settings.
      pose proof (parse_attributes_ok _ _ _ Hx H9) as Hg.
      destruct (parse_attributes x) as [l|e|]; cbn [bind good] in *; [|exact Hg|exact Hg].
      eexists; exists id. split; [reflexivity|]. split; [exact Hidok|]. split; [exact Hal'|].
      split; [exact Hg|].
      cbn [opt_list] in Ho1. rewrite app_nil_r in Ho1.
      change (ti_span id :: opt_list id_span a ++ opt_list ts_span (Some {| ts_span := span_of x; ts_attributes := l |}))
        with ((ti_span id :: opt_list id_span a) ++ [span_of x]).
      eapply in_order_hi; [apply (in_order_snoc _ _ m1 (span_of x)); cbn [span_of fst snd]; [exact Ho1|lia|lia]|exact H10]. }
  intros t1 (st' & id' & -> & Hidok' & Hal2 & Hstok & Ho2). cbn [try_fold].
  unfold table_parts. rewrite (proj1 Hb).
  pose proof (table_items_ok inp (span_of p) id' st' b Hb H6) as Hg.
  destruct (try_fold table_items (into_inner b) (mkTable (span_of p) [] id' None None st')) as [t|e|]; cbn [bind good] in *;
    [|exact Hg|exact Hg].
  destruct Hg as (A1 & A2 & A3 & A4 & A5 & A6 & A7). split; [|exact A1].
  split; [rewrite A1; exact Hv|]. rewrite A1, A2, A3. split; [exact Hidok'|]. split; [exact Hstok|]. split; [exact A4|].
  split; [destruct (tb_note t); cbn [opt_all] in *; [apply A6|exact Logic.I]|].
  split; [destruct (tb_indexes t); cbn [opt_all] in *; [apply A7|exact Logic.I]|].
  exists (p_start b). rewrite Hal2. cbn [span_of fst snd].
  split; [eapply in_order_hi; [exact Ho2|lia]|]. split; [eapply in_order_hi; [exact A5|lia]|].
  unfold inside in *. cbn [fst snd] in *.
  split; [destruct (tb_note t)|destruct (tb_indexes t)]; cbn [opt_all] in *; try exact Logic.I; lia.
Qed.

(** ** Enums *)
Lemma parse_enum_value_ok inp p : sh_enum_value p -> pl inp p ->
  good inp (fun c => enum_value_ok inp c /\ ev_span c = span_of p) (parse_enum_value p).
Proof.
  intros [Hr (n & Hi & Hn)] Hpl. pose proof (pl_valid _ _ Hpl) as Hv. destruct Hpl as (_ & _ & Hp).
  assert (Hc : exists tail, into_inner p = n :: tail /\ (tail = [] \/ exists x, tail = [x] /\ sh_settings R_enum_settings x)).
  { destruct Hi as [Hi|(x & Hi & Hx)]; rewrite Hi; eexists; (split; [reflexivity|]); eauto. }
  destruct Hc as (tail & Hi' & Ht). unfold parse_enum_value. rewrite Hi' in *. clear Hi.
  apply pls_cons in Hp as (H1 & H2 & H3). cbn [try_fold].
  rewrite (proj1 Hn). destruct (parse_ident_ok _ _ Hn H2) as (i & -> & Hi & Hin). cbn [bind].
  unfold inside in Hin. cbn [span_of fst snd] in Hin. cbn [ev_span ev_value ev_settings].
  destruct Ht as [->|(x & -> & Hx)]; cbn [try_fold].
  - apply pls_nil in H3. cbn [good]. split; [|reflexivity]. split; [exact Hv|]. cbn [ev_value ev_settings ev_span opt_all opt_list].
    split; [exact Hi|]. split; [exact Logic.I|]. unfold within. cbn [in_order span_of fst snd]. lia.
  - apply pls_cons in H3 as (H7 & H8 & H9). apply pls_nil in H9. pose proof (pl_lo _ _ H8) as Jq10. rewrite (proj1 Hx).
    cbn [ev_span ev_value ev_settings].
    pose proof (parse_enum_settings_ok _ _ Hx H8) as Hg.
    destruct (parse_enum_settings x) as [st|e|]; cbn [bind good] in *; [|exact Hg|exact Hg]. destruct Hg as (Hst & Hsy & Hss).
    split; [|reflexivity]. split; [exact Hv|]. cbn [ev_value ev_settings ev_span opt_all opt_list].
    split; [exact Hi|]. split; [auto|]. unfold within. cbn [in_order]. rewrite Hss. cbn [span_of fst snd]. lia.
Qed.
Lemma parse_enum_decl_ok inp p : sh_enum_decl p -> pl inp p ->
  good inp (fun e => enum_ok inp e /\ en_span e = span_of p) (parse_enum_decl p).
Proof.
  intros [Hr (i & b & Hi & Hid & Hb)] Hpl. pose proof (pl_valid _ _ Hpl) as Hv. destruct Hpl as (_ & _ & Hp).
  unfold parse_enum_decl. rewrite Hi in *.
  apply pls_cons in Hp as (H1 & H2 & H3). apply pls_cons in H3 as (H4 & H5 & H6). apply pls_nil in H6.
  pose proof (pl_lo _ _ H2) as Jq11. pose proof (pl_lo _ _ H5) as Jq12. cbn [try_fold]. rewrite (proj1 Hid), (proj1 Hb).
  destruct (parse_decl_ident_ok _ _ Hid H2) as (d & -> & Hd1 & Hd2 & Hd3). cbn [bind en_span en_ident en_values].
  unfold parse_enum_block.
  assert (Hg : good inp (fun l => Forall (enum_value_ok inp) l /\ in_order (p_start b) (map ev_span l) (p_end b))
    (try_map (fun p1 => match p_rule p1 with R_enum_value => parse_enum_value p1 | _ => throw_rules [R_enum_value] p1 end) (into_inner b))).
  { eapply try_map_good; [|apply Hb|apply H5]. intros q Hq Hpq. rewrite (proj1 Hq).
    eapply good_impl; [apply parse_enum_value_ok; eassumption|]. intros v [Hv1 Hv2]. split; [exact Hv1|].
    rewrite Hv2. apply inside_refl. apply Hpq. }
  destruct (try_map _ (into_inner b)) as [l|e|]; cbn [bind good] in *; [|exact Hg|exact Hg]. destruct Hg as [Hl1 Hl2].
  split; [|reflexivity]. split; [exact Hv|]. cbn [en_ident en_values en_span].
  split.
  { split; [apply pl_valid; exact H2|]. cbn [ei_schema ei_name ei_span]. auto. }
  split; [exact Hl1|]. unfold within. cbn [in_order ei_span span_of fst snd]. split; [lia|]. split; [lia|].
  eapply in_order_lo; [eapply in_order_hi; [exact Hl2|lia]|lia].
Qed.

(** ** Table groups *)
Definition group_items (acc : group_t) (p2 : pair) : outcome group_t :=
  let '(mkGroup sp id nt items st) := acc in
  match p_rule p2 with
  | R_decl_ident =>
      let? d := parse_decl_ident p2 in
      Ok (mkGroup sp id nt (items ++ [mkGroupItem (span_of p2) (fst d) (snd d)]) st)
  | R_note_decl => let? n := parse_note_decl p2 in Ok (mkGroup sp id (Some n) items st)
  | _ => throw_rules [R_decl_ident; R_note_decl] p2
  end.
Definition group_parts (acc : group_t) (p1 : pair) : outcome group_t :=
    let '(mkGroup sp id nt items st) := acc in
    match p_rule p1 with
    | R_ident => let? i := parse_ident p1 in Ok (mkGroup sp i nt items st)
    | R_table_group_block => try_fold group_items (into_inner p1) acc
    | R_block_settings =>
        let? x := parse_table_group_settings p1 in Ok (mkGroup sp id nt items (Some x))
    | _ => throw_rules [R_ident; R_table_group_block; R_block_settings] p1
    end.
Lemma parse_group_parts p : parse_table_group_decl p = try_fold group_parts (into_inner p) (mkGroup (span_of p) ident0 None [] None).
Proof. reflexivity. Qed.
Definition g_items_inv (inp : str) (sp : range) (id : ident_t) (st : option group_settings_t) (m : N) (lo : N) (t : group_t) : Prop :=
  tg_span t = sp /\ tg_ident t = id /\ tg_settings t = st /\
  Forall (group_item_ok inp) (tg_items t) /\ in_order m (map gi_span (tg_items t)) lo /\
  opt_all (fun n => note_ok inp n /\ inside (nb_span n) (m, lo)) (tg_note t).
Lemma group_items_ok inp sp id st b : sh_group_block b -> pl inp b ->
  good inp (g_items_inv inp sp id st (p_start b) (p_end b))
    (try_fold group_items (into_inner b) (mkGroup sp id None [] st)).
Proof.
  intros [Hr Hs] Hp. set (m := p_start b).
  apply (try_fold_good inp _ _ (g_items_inv inp sp id st m)) with (lo := p_start b) (4 := Hs); [| | |apply Hp].
  - intros lo lo' t (A1 & A2 & A3 & A4 & A5 & A6) Hl. repeat (split; [assumption|]).
    split; [eapply in_order_hi; eassumption|]. unfold inside in *. cbn [fst snd] in *.
    destruct (tg_note t); cbn [opt_all] in *; try exact Logic.I; (split; [tauto|lia]).
  - intros acc q (A1 & A2 & A3 & A4 & A5 & A6) Hq Hpq. pose proof (pl_lo _ _ Hpq) as Hlq.
    pose proof (in_order_le _ _ _ A5) as Hm.
    destruct acc as [sp' id' nt items st']. cbn [tg_span tg_ident tg_settings tg_items tg_note] in *. subst sp' id' st'.
    unfold group_items.
    assert (B6 : opt_all (fun n => note_ok inp n /\ inside (nb_span n) (m, p_end q)) nt).
    { destruct nt; cbn [opt_all] in *; [|exact Logic.I]. unfold inside in *. cbn [fst snd] in *. split; [tauto|lia]. }
    destruct Hq as [Hq|Hq]; rewrite (proj1 Hq).
    + eapply good_bind; [apply parse_note_decl_ok; eassumption|]. intros c [Hc Hcs]. cbn [good].
      unfold g_items_inv. cbn [tg_span tg_ident tg_settings tg_items tg_note]. repeat (split; [reflexivity|]).
      split; [exact A4|]. split; [eapply in_order_hi; [exact A5|lia]|]. cbn [opt_all].
      split; [exact Hc|]. unfold inside in *. cbn [span_of fst snd] in *. lia.
    + destruct (parse_decl_ident_ok _ _ Hq Hpq) as (d & -> & Hd1 & Hd2 & Hd3). cbn [bind good].
      unfold g_items_inv. cbn [tg_span tg_ident tg_settings tg_items tg_note]. repeat (split; [reflexivity|]).
      split; [|split; [|exact B6]].
      * apply Forall_app. split; [exact A4|]. constructor; [|constructor]. split; [apply pl_valid; exact Hpq|]. auto.
      * rewrite map_app. cbn [map gi_span].
        apply (in_order_snoc _ _ (p_start q) (span_of q)); cbn [span_of fst snd]; [exact A5|lia|lia].
  - unfold g_items_inv. cbn. repeat split; try constructor. lia.
Qed.
Lemma parse_group_decl_ok inp p : sh_group_decl p -> pl inp p ->
  good inp (fun t => group_ok inp t /\ tg_span t = span_of p) (parse_table_group_decl p).
Proof.
  intros [Hr (i & st & b & Hi & Hid & Hst & Hb)] Hpl. pose proof (pl_valid _ _ Hpl) as Hv.
  destruct Hpl as (_ & _ & Hp). rewrite parse_group_parts, Hi in *.
  apply pls_cons in Hp as (H1 & H2 & H3). apply pls_app in H3 as (m1 & H3 & H4).
  apply pls_cons in H4 as (H5 & H6 & H7). apply pls_nil in H7.
  pose proof (pl_lo _ _ H2) as Jq13. pose proof (pl_lo _ _ H6) as Jq14. pose proof (pls_le _ _ _ _ H3) as Jq15.
  cbn [try_fold]. unfold group_parts at 1. rewrite (proj1 Hid).
  destruct (parse_ident_ok _ _ Hid H2) as (id & -> & Hidok & Hin). cbn [bind]. rewrite try_fold_app.
  unfold inside in Hin. cbn [span_of fst snd] in Hin.
  eapply (good_bind inp (fun t => exists st', t = mkGroup (span_of p) id None [] st' /\
     opt_all (fun x => attributes_ok inp (gs_span x) (gs_attributes x)) st' /\
     in_order (p_start p) (id_span id :: opt_list gs_span st') m1)).
  { destruct Hst as [->|(x & -> & Hx)]; cbn [try_fold].
    - apply pls_nil in H3. cbn [good]. exists None. split; [reflexivity|]. split; [exact Logic.I|].
      cbn [opt_list in_order]. lia.
    - apply pls_cons in H3 as (H8 & H9 & H10). apply pls_nil in H10. pose proof (pl_lo _ _ H9) as Jq16.
      unfold group_parts. rewrite (proj1 Hx). unfold parse_table_group_settings.
      pose proof (parse_attributes_ok _ _ _ Hx H9) as Hg.
      destruct (parse_attributes x) as [l|e|]; cbn [bind good] in *; [|exact Hg|exact Hg].
      eexists. split; [reflexivity|]. split; [exact Hg|].
      cbn [opt_list in_order gs_span span_of fst snd]. lia. }
  intros t1 (st' & -> & Hstok & Ho2). cbn [try_fold].
  unfold group_parts. rewrite (proj1 Hb).
  pose proof (group_items_ok inp (span_of p) id st' b Hb H6) as Hg.
  destruct (try_fold group_items (into_inner b) (mkGroup (span_of p) id None [] st')) as [t|e|]; cbn [bind good] in *;
    [|exact Hg|exact Hg].
  destruct Hg as (A1 & A2 & A3 & A4 & A5 & A6). split; [|exact A1].
  split; [rewrite A1; exact Hv|]. rewrite A1, A2, A3. split; [exact Hidok|]. split; [exact Hstok|]. split; [exact A4|].
  split; [destruct (tg_note t); cbn [opt_all] in *; [apply A6|exact Logic.I]|].
  exists (p_start b). cbn [span_of fst snd].
  split; [eapply in_order_hi; [exact Ho2|lia]|]. split; [eapply in_order_hi; [exact A5|lia]|].
  unfold inside in *. cbn [fst snd] in *. destruct (tg_note t); cbn [opt_all] in *; try exact Logic.I; lia.
Qed.

(** ** Projects *)
Definition project_items (acc : project_t) (p2 : pair) : outcome project_t :=
  match p_rule p2 with
  | R_property =>
      let? prop := parse_property p2 in
      let db := if str_eqb (id_str (pr_key prop)) (s "database_type") then
                  match lit_value (pr_value prop) with
                  | VString name => Some (database_type_from_str name)
                  | _ => pj_database_type acc
                  end
                else pj_database_type acc in
      Ok (mkProject (pj_span acc) (pj_properties acc ++ [prop]) (pj_ident acc) db (pj_note acc))
  | R_note_decl =>
      let? n := parse_note_decl p2 in
      Ok (mkProject (pj_span acc) (pj_properties acc) (pj_ident acc) (pj_database_type acc) (Some n))
  | _ => throw_rules [R_property; R_note_decl] p2
  end.
Definition p_items_inv (inp : str) (sp : range) (id : ident_t) (m : N) (lo : N) (t : project_t) : Prop :=
  pj_span t = sp /\ pj_ident t = id /\
  Forall (property_ok inp) (pj_properties t) /\ in_order m (map pr_span (pj_properties t)) lo /\
  opt_all (fun n => note_ok inp n /\ inside (nb_span n) (m, lo)) (pj_note t) /\
  database_type_says (pj_properties t) (pj_database_type t).
Lemma db_says_miss l p v : ~ (id_str (pr_key p) = s "database_type" /\ exists n, lit_value (pr_value p) = VString n) ->
  database_type_says l v -> database_type_says (l ++ [p]) v.
Proof.
  intros Hn [[H1 ->]|(l1 & q & l2 & n & -> & H2 & H3 & H4 & H5)].
  - left. split; [apply Forall_app; auto|reflexivity].
  - right. exists l1, q, (l2 ++ [p]), n. rewrite <- app_assoc. repeat (split; [auto|]).
    + apply Forall_app. auto.
    + exact H5.
Qed.
Lemma db_says_hit l p n : id_str (pr_key p) = s "database_type" -> lit_value (pr_value p) = VString n ->
  database_type_says (l ++ [p]) (Some (database_type_from_str n)).
Proof.
  intros H1 H2. right. exists l, p, [], n. repeat (split; [auto|]). unfold database_type_from_str.
  destruct (str_eqb_spec n (s "PostgreSQL")); auto.
Qed.
Lemma project_items_ok inp sp id b : sh_project_block b -> pl inp b ->
  good inp (p_items_inv inp sp id (p_start b) (p_end b))
    (try_fold project_items (into_inner b) (mkProject sp [] id None None)).
Proof.
  intros [Hr Hs] Hp. set (m := p_start b).
  apply (try_fold_good inp _ _ (p_items_inv inp sp id m)) with (lo := p_start b) (4 := Hs); [| | |apply Hp].
  - intros lo lo' t (A1 & A2 & A4 & A5 & A6 & A7) Hl. repeat (split; [assumption|]).
    split; [eapply in_order_hi; eassumption|]. split; [|exact A7]. unfold inside in *. cbn [fst snd] in *.
    destruct (pj_note t); cbn [opt_all] in *; try exact Logic.I; (split; [tauto|lia]).
  - intros acc q (A1 & A2 & A4 & A5 & A6 & A7) Hq Hpq. pose proof (pl_lo _ _ Hpq) as Hlq.
    pose proof (in_order_le _ _ _ A5) as Hm. unfold project_items.
    assert (B6 : opt_all (fun n => note_ok inp n /\ inside (nb_span n) (m, p_end q)) (pj_note acc)).
    { destruct (pj_note acc); cbn [opt_all] in *; [|exact Logic.I]. unfold inside in *. cbn [fst snd] in *. split; [tauto|lia]. }
    destruct Hq as [Hq|Hq]; rewrite (proj1 Hq).
    + eapply good_bind; [apply parse_note_decl_ok; eassumption|]. intros c [Hc Hcs]. cbn [good].
      unfold p_items_inv. cbn [pj_span pj_ident pj_properties pj_note pj_database_type]. split; [exact A1|]. split; [exact A2|].
      split; [exact A4|]. split; [eapply in_order_hi; [exact A5|lia]|]. split; [|exact A7]. cbn [opt_all].
      split; [exact Hc|]. unfold inside in *. cbn [span_of fst snd] in *. lia.
    + eapply good_bind; [apply parse_property_ok; eassumption|]. intros c [Hc Hcs]. cbv zeta. cbn [good].
      unfold p_items_inv. cbn [pj_span pj_ident pj_properties pj_note pj_database_type]. split; [exact A1|]. split; [exact A2|].
      split; [apply Forall_app; auto|]. split; [|split; [exact B6|]].
      * rewrite map_app. cbn [map]. rewrite Hcs.
        apply (in_order_snoc _ _ (p_start q) (span_of q)); cbn [span_of fst snd]; [exact A5|lia|lia].
      * destruct (str_eqb_spec (id_str (pr_key c)) (s "database_type")) as [Ek|Ek].
        -- destruct (lit_value (pr_value c)) eqn:El;
             try (apply db_says_miss; [intros [_ (n & En)]; congruence|exact A7]).
           apply db_says_hit; assumption.
        -- apply db_says_miss; [intros [E _]; contradiction|exact A7].
  - unfold p_items_inv. cbn. repeat split; try constructor; try lia. split; [constructor|reflexivity].
Qed.
Lemma parse_project_decl_ok inp p : sh_project_decl p -> pl inp p ->
  good inp (fun t => project_ok inp t /\ pj_span t = span_of p) (parse_project_decl p).
Proof.
  intros [Hr (i & b & Hi & Hid & Hb)] Hpl. pose proof (pl_valid _ _ Hpl) as Hv.
  destruct Hpl as (_ & _ & Hp). unfold parse_project_decl. rewrite Hi in *.
  apply pls_cons in Hp as (H1 & H2 & H3). apply pls_cons in H3 as (H5 & H6 & H7). apply pls_nil in H7.
  pose proof (pl_lo _ _ H2) as Jq17. pose proof (pl_lo _ _ H6) as Jq18.
  cbn [try_fold]. rewrite (proj1 Hid), (proj1 Hb).
  destruct (parse_ident_ok _ _ Hid H2) as (id & -> & Hidok & Hin). cbn [bind project0 pj_span pj_properties pj_database_type pj_note].
  unfold inside in Hin. cbn [span_of fst snd] in Hin.
  pose proof (project_items_ok inp (span_of p) id b Hb H6) as Hg. fold project_items.
  match goal with |- good _ _ (bind ?x _) => change x with (try_fold project_items (into_inner b) (mkProject (span_of p) [] id None None)) end.
  destruct (try_fold project_items (into_inner b) (mkProject (span_of p) [] id None None)) as [t|e|]; cbn [bind good] in *;
    [|exact Hg|exact Hg].
  destruct Hg as (A1 & A2 & A4 & A5 & A6 & A7). split; [|exact A1].
  split; [rewrite A1; exact Hv|]. rewrite A1, A2. split; [exact Hidok|]. split; [exact A4|].
  split; [destruct (pj_note t); cbn [opt_all] in *; [apply A6|exact Logic.I]|]. split; [exact A7|].
  unfold within. cbn [in_order span_of fst snd]. split; [split; [lia|split; [lia|]]|].
  - eapply in_order_lo; [eapply in_order_hi; [exact A5|lia]|lia].
  - unfold inside in *. cbn [fst snd] in *. destruct (pj_note t); cbn [opt_all] in *; try exact Logic.I; lia.
Qed.

(** ** The schema *)
Lemma parse_block_ok inp p : sh_block p -> pl inp p ->
  good inp (fun o => exists b, o = Some b /\ block_ok inp b /\ inside (block_span b) (span_of p)) (parse_block p).
Proof.
  intros Hsh Hp. pose proof (inside_refl p (pl_lo _ _ Hp)) as Hrefl. unfold parse_block.
  destruct Hsh as [[[[[H|H]|H]|H]|H]|H]; rewrite (proj1 H).
  - eapply good_omap; [apply parse_project_decl_ok; eassumption|]. intros x [Hx Hs]. eexists. split; [reflexivity|].
    cbn [block_ok block_span]. rewrite Hs. auto.
  - eapply good_omap; [apply parse_table_decl_ok; eassumption|]. intros x [Hx Hs]. eexists. split; [reflexivity|].
    cbn [block_ok block_span]. rewrite Hs. auto.
  - eapply good_omap; [apply parse_enum_decl_ok; eassumption|]. intros x [Hx Hs]. eexists. split; [reflexivity|].
    cbn [block_ok block_span]. rewrite Hs. auto.
  - eapply good_omap; [apply parse_ref_decl_ok; eassumption|]. intros x (Hx & Hs & _). eexists. split; [reflexivity|]. auto.
  - eapply good_omap; [apply parse_group_decl_ok; eassumption|]. intros x [Hx Hs]. eexists. split; [reflexivity|].
    cbn [block_ok block_span]. rewrite Hs. auto.
  - eapply good_omap; [apply parse_note_decl_ok; eassumption|]. intros x [Hx Hs]. eexists. split; [reflexivity|]. auto.
Qed.
Lemma parse_schema_ok inp p : sh_schema p -> pl inp p -> span_of p = (0, blen inp) ->
  good inp (schema_ok inp) (parse_schema p inp).
Proof.
  intros [Hr (bs & e & Hi & Hbs & He)] (_ & _ & Hp) Hspan. unfold parse_schema. rewrite Hi in *.
  apply pls_app in Hp as (m & H1 & H2). apply pls_cons in H2 as (H3 & H4 & H5). apply pls_nil in H5.
  pose proof (pl_lo _ _ H4) as Jq19. rewrite try_fold_app.
  set (I := fun lo (x : schema_t) => sb_input x = inp /\ sb_span x = span_of p /\ Forall (block_ok inp) (sb_blocks x) /\
     in_order (p_start p) (map block_span (sb_blocks x)) lo).
  eapply (good_bind inp (I m)).
  - apply (try_fold_good inp sh_block _ I) with (lo := p_start p); [| | |exact Hbs|exact H1].
    + intros lo lo' x (A1 & A2 & A3 & A4) Hl. repeat (split; [assumption|]). eapply in_order_hi; eassumption.
    + intros acc q (A1 & A2 & A3 & A4) Hq Hpq. eapply good_bind; [apply parse_block_ok; eassumption|].
      intros o (b & -> & Hb & Hin). cbn [good]. unfold inside in Hin. cbn [span_of fst snd] in Hin.
      split; [exact A1|]. split; [exact A2|]. cbn [sb_blocks]. split; [apply Forall_app; auto|].
      rewrite map_app. cbn [map].
      eapply in_order_hi; [apply (in_order_snoc _ _ (p_start q) (block_span b)); [exact A4|lia|lia]|lia].
    + split; [reflexivity|]. split; [reflexivity|]. split; [constructor|cbn; lia].
  - intros x (A1 & A2 & A3 & A4). cbn [try_fold]. unfold parse_block. rewrite He. cbn [bind good].
    split; [exact A1|]. split; [congruence|]. split; [exact A3|]. unfold within. rewrite A2. cbn [span_of fst snd].
    eapply in_order_hi; [exact A4|lia].
Qed.

(** ** The main fact: [parse_dbml_unchecked] terminates without panicking, and every
    result is faithful to the source. *)
Lemma schema_loop_free : loop_free schema = true.
Proof. vm_compute. reflexivity. Qed.

Theorem parse_unchecked_ok inp : exists o, parse_dbml_unchecked inp = Some o /\
  (o = Err ErGrammar \/ good inp (schema_ok inp) o).
Proof.
  unfold parse_dbml_unchecked, run.
  destruct (eval skip schema NonAtomic 0 inp) as [t r ps| |] eqn:E.
  - apply run_D in E as [-> Hd]. pose proof Hd as Hd'. apply D_schema in Hd as (p & -> & Hs & He & Ht & Hsh & ->).
    eexists. split; [reflexivity|]. right. rewrite (proj1 Hsh).
    apply (proj1 (der_placed skip)) in Hd'. rewrite app_nil_r.
    assert (Hp : pls t 0 (blen t) [p]).
    { exists t. split; [exists [], []; rewrite app_nil_r; auto|]. split; [lia|exact Hd']. }
    apply pls_cons in Hp as (_ & Hp & _). apply parse_schema_ok; [exact Hsh|exact Hp|].
    unfold span_of. rewrite Hs, He. f_equal.
  - eexists. split; [reflexivity|]. auto.
  - exfalso. revert E. apply eval_noloop; [exact skip_app|exact skip_noloop|exact schema_loop_free].
Qed.
