(** * FaultsOk: the parser reports the first fault of a text. *)

From Verif Require Import PegFacts Lex.
From Verif Require Import ParserOk ParserOk2 ParserOk3 ParseFacts.
From Verif Require Import SynEval SynLex SynGram SynType SynGram2 SynBuild SynBuild2 SynCut.
From Verif Require Import Parser.
From Verif Require Import SynSpan LocSound.
From Verif Require Export Faults.
From Verif Require Import Syntax.

(** ** Outcomes *)
Definition says {A} (l : list fault) (o : outcome A) : Prop :=
  match l with [] => exists x, o = Ok x | f :: _ => o = Err (ErMsg (fst f) (snd f)) end.
Lemma says_ok {A} (x : A) : says [] (Ok x).
Proof. exists x. reflexivity. Qed.
Lemma says_bind {A B} l1 l2 (o : outcome A) (k : A -> outcome B) : says l1 o -> (forall x, o = Ok x -> says l2 (k x)) -> says (l1 ++ l2) (bind o k).
Proof.
  destruct l1 as [|f l1]; cbn [says app].
  - intros (x & ->) H. cbn [bind]. apply H. reflexivity.
  - intros -> _. reflexivity.
Qed.
Lemma says_bind0 {A B} l (o : outcome A) (k : A -> outcome B) : says l o -> (forall x, o = Ok x -> exists y, k x = Ok y) -> says l (bind o k).
Proof. intros H Hk. rewrite <- (app_nil_r l). apply says_bind; assumption. Qed.
Lemma says_bind1 {A B} l (o : outcome A) (k : A -> outcome B) x : o = Ok x -> says l (k x) -> says l (bind o k).
Proof. intros ->. auto. Qed.
Lemma says_omap {A B} l (f : A -> B) o : says l o -> says l (omap f o).
Proof. destruct l as [|x l]; cbn [says]; [intros (y & ->)|intros ->]; cbn [omap]; eauto. Qed.
Lemma says_fold {A} (f : A -> pair -> outcome A) ps ls : Forall2 (fun p l => forall acc, says l (f acc p)) ps ls -> forall acc, says (List.concat ls) (try_fold f ps acc).
Proof.
  induction 1 as [|p l ps ls Hp Hl IH]; intros acc; cbn [try_fold List.concat]; [apply says_ok|].
  apply says_bind; [apply Hp|]. intros x _. apply IH.
Qed.
Lemma says_map {A} (f : pair -> outcome A) ps ls : Forall2 (fun p l => says l (f p)) ps ls -> says (List.concat ls) (try_map f ps).
Proof.
  induction 1 as [|p l ps ls Hp Hl IH]; cbn [try_map List.concat]; [apply says_ok|].
  apply says_bind; [apply Hp|]. intros x _. apply says_bind0; [exact IH|]. eauto.
Qed.

(** ** Lists of readers *)
Section Ex.
Context {A B : Type} (R : reader A) (R' : reader B) (Q : A -> B -> Prop).
Hypothesis HR : forall i m a, R i m a -> exists b, R' i m b /\ Q a b.
Lemma next_ex i r a : next R i r a -> exists b, next R' i r b /\ Q a b.
Proof. intros (m & Ha & Hl). apply HR in Ha as (b & Hb & Hq). exists b. split; [exists m; auto|exact Hq]. Qed.
Lemma many_ex i r l : many (next R) i r l -> exists l', many (next R') i r l' /\ Forall2 Q l l'.
Proof.
  induction 1 as [i|i m r a l Ha Hm (l' & H1 & H2)]; [exists []; split; constructor|].
  apply next_ex in Ha as (b & Hb & Hq). exists (b :: l'). split; [econstructor; eassumption|constructor; assumption].
Qed.
Lemma commas_ex i r l : commas (next R) i r l -> exists l', commas (next R') i r l' /\ Forall2 Q l l'.
Proof.
  induction 1 as [i r a Ha|i m m' r a l Ha Ht Hm (l' & H1 & H2)]; apply next_ex in Ha as (b & Hb & Hq).
  - exists [b]. split; [constructor; exact Hb|constructor; [exact Hq|constructor]].
  - exists (b :: l'). split; [econstructor; eassumption|constructor; assumption].
Qed.
Lemma list_ex op cl i m l : list_at op cl R i m l -> exists l', list_at op cl R' i m l' /\ Forall2 Q l l'.
Proof.
  intros [i' m' Ht|i' m1 m' l' Ht Hc]; [exists []; split; constructor; exact Ht|].
  apply commas_ex in Hc as (l2 & Hc & HF). exists l2. split; [eapply list_some; eassumption|exact HF].
Qed.
Lemma braces_ex i m l : braces_at R i m l -> exists l', braces_at R' i m l' /\ Forall2 Q l l'.
Proof. intros (m1 & Ht & Hm). apply many_ex in Hm as (l' & Hm & HF). exists l'. split; [exists m1; auto|exact HF]. Qed.
Definition opt_rel (o : option A) (o' : option B) : Prop :=
  match o, o' with None, None => True | Some a, Some b => Q a b | _, _ => False end.
Lemma maybe_ex i r o : maybe (next R) i r o -> exists o', maybe (next R') i r o' /\ opt_rel o o'.
Proof.
  intros [i'|i' r' a Ha]; [exists None; split; [constructor|exact Logic.I]|].
  apply next_ex in Ha as (b & Hb & Hq). exists (Some b). split; [constructor; exact Hb|exact Hq].
Qed.
End Ex.
Lemma tail_ex {A B C D} (R : reader A) (R' : reader B) (O : reader C) (O' : reader D) Q Q' i m a o :
  (forall i m a, R i m a -> exists b, R' i m b /\ Q a b) -> (forall i m a, O i m a -> exists b, O' i m b /\ Q' a b) ->
  tail_at R O i m a o -> exists b o', tail_at R' O' i m b o' /\ Q a b /\ opt_rel Q' o o'.
Proof.
  intros HR HO [i' m' a' Ha|i' m1 m' a' c Ha Hc].
  - apply (next_ex _ _ _ HR) in Ha as (b & Hb & Hq). exists b, None. split; [constructor; exact Hb|]. split; [exact Hq|exact Logic.I].
  - apply (next_ex _ _ _ HR) in Ha as (b & Hb & Hq). apply HO in Hc as (d & Hd & Hq'). exists b, (Some d).
    split; [eapply tail_yes; eassumption|]. split; [exact Hq|exact Hq'].
Qed.

Section Sound.
Variable inp : str.
Notation P := (P inp).
Notation at_ := (at_ inp).
Notation spans := (spans inp).
Notation single := (single inp).

(** ** Values *)
Lemma int_place i m p q x : P value i m [p] -> into_inner p = [q] -> p_rule q = R_number_value -> into_inner q = [x] -> spans x i m.
Proof.
  intros H Hp Hq Hx. apply P_rule in H as (p' & [= <-] & _ & _ & H). rewrite Hp in H.
  apply P_alt in H as [H|[H _]]; [apply P_alt in H as [H|[H _]]; [apply P_alt in H as [H|[H _]]; [apply P_alt in H as [H|[H _]]|]|]|].
  4: { apply P_rule in H as (q' & [= <-] & _ & _ & H). rewrite Hx in H.
       apply P_alt in H as [H|[H _]]; apply P_emit in H as (x' & [= <-] & _ & Hs); exact Hs. }
  all: apply P_emit in H as (q' & [= <-] & Hr & _); rewrite Hq in Hr; discriminate.
Qed.
Lemma value_faults_fits v sp : fits_value v -> value_faults v sp = [].
Proof. destruct v; try reflexivity. cbn [fits_value value_faults]. intros H. destruct (Z.leb_spec z 9223372036854775807); [reflexivity|lia]. Qed.
Lemma value_says p v (I : pair -> Prop) sp : d_value p v ->
  (forall q x, into_inner p = [q] -> p_rule q = R_number_value -> into_inner q = [x] -> span_of x = sp) ->
  says (value_faults v sp) (parse_value p) /\ forall x, parse_value p = Ok x -> x = v.
Proof.
  intros Hd Hsp. split; [|intros x Hx; exact (proj2 (gives_both _ _ _ _ _ (build_value _ _ Hd) Hx))].
  destruct (build_value _ _ Hd) as [[Hf (x & Hx & _)]|[Hf _]]; [rewrite value_faults_fits by exact Hf; exists x; exact Hx|].
  destruct Hd as (_ & q & Hi & Hd). unfold parse_value. rewrite Hi.
  destruct Hd as [(w & Hd & ->)|[(w & Hd & ->)|[(w & _ & Hw)|[(Hr & x & Hx & Hd)|(h & _ & ->)]]]].
  - destruct Hf. exact Logic.I.
  - destruct Hf. exact Logic.I.
  - destruct Hf. destruct Hw as [[_ ->]|[[_ ->]|[_ ->]]]; exact Logic.I.
  - rewrite Hr, Hx. destruct Hd as [(d & Hd & _ & ->)|(d & _ & ->)]; [|destruct Hf; exact Logic.I].
    cbn [fits_value] in Hf. cbn [value_faults]. destruct (Z.leb_spec (Z.of_N (digits_value 0 d)) 9223372036854775807); [lia|].
    rewrite (build_int _ _ Hd), (proj1 Hd). destruct (N.leb_spec (digits_value 0 d) 9223372036854775807); [lia|].
    cbn [says fst snd]. unfold throw_msg. rewrite (Hsp q x Hi Hr Hx). reflexivity.
  - destruct Hf. exact Logic.I.
Qed.
Lemma f_plain_value i m ps : P (EAlt value spaced_var) i m ps ->
  exists p v, ps = [p] /\ (p_rule p = R_value \/ p_rule p = R_spaced_var) /\ plain_value_at i m v /\
    says (value_faults v (span inp i m)) (attr_lit p) /\ forall l, attr_lit p = Ok l -> lit_value l = v.
Proof.
  intros H. apply P_alt in H as [H|[H (off & Hf)]].
  - pose proof H as H'. apply at_value_den in H as (p & v & -> & Hd & Hv & Hs). exists p, v. split; [reflexivity|]. split; [left; apply Hd|].
    split; [left; exact Hv|]. destruct (value_says p v (fun _ => True) (span inp i m) Hd) as [Hsay Hval].
    { intros q x Hq Hr Hx. exact (proj1 (int_place _ _ _ _ _ H' Hq Hr Hx)). }
    unfold attr_lit. rewrite (proj1 Hd). split; [apply says_bind0; [exact Hsay|eauto]|]. intros l Hl. apply bind_inv in Hl as (w & Hw & Hl).
    apply Ok_inj in Hl as <-. exact (Hval _ Hw).
  - destruct (single_rule _ _ _ _ _ _ _ H) as (p & ->). pose proof (at_rule _ _ _ _ _ _ _ H) as Hr. exists p, (VEnum (as_str p)).
    split; [reflexivity|]. split; [right; exact Hr|]. apply at_phrase in H. split; [|unfold attr_lit; rewrite Hr; split; [apply says_ok|]].
    + right. exists (as_str p). split; [exact H|]. split; [|reflexivity]. eapply value_fail_bare; [exact Hf|apply H].
    + intros l Hl. apply Ok_inj in Hl as <-. reflexivity.
Qed.
Lemma f_attr_value i m ps : P (EAlt (EAlt value spaced_var) double_quoted_string) i m ps ->
  exists p v, ps = [p] /\ In (p_rule p) [R_value; R_spaced_var; R_double_quoted_string] /\ attr_value_at i m v /\
    says (value_faults v (span inp i m)) (attr_lit p) /\ forall l, attr_lit p = Ok l -> lit_value l = v.
Proof.
  intros H. apply P_alt in H as [H|[H _]].
  - apply f_plain_value in H as (p & v & -> & Hr & Hv & H). exists p, v. split; [reflexivity|]. split; [destruct Hr as [->| ->]; cbn; auto|].
    split; [left; exact Hv|exact H].
  - rewrite dqs_rule in H. apply at_quoted in H as (p & v & -> & Hd & Hv & Hs); [|apply ok_dq]. exists p, (VString v). split; [reflexivity|].
    split; [rewrite (proj1 Hd); cbn; auto|]. split; [right; exists v; auto|]. unfold attr_lit. rewrite (proj1 Hd). split; [apply says_ok|].
    intros l Hl. apply Ok_inj in Hl as <-. cbn. f_equal. apply (quoted_text _ _ _ _ Hd).
Qed.
Lemma parse_attr_lit p k y : into_inner p = [k; y] -> p_rule k = R_spaced_var -> as_str k <> [] ->
  In (p_rule y) [R_value; R_spaced_var; R_double_quoted_string] ->
  parse_attribute p = let? l := attr_lit y in Ok (mkAttr (span_of p) (mk_key k) (Some l)).
Proof.
  intros Hi Hk Hne Hy. unfold parse_attribute. rewrite Hi. cbn [try_fold]. rewrite Hk.
  cbn [id_raw at_key ident0 bind at_span at_value]. unfold attr_lit. cbn [In] in Hy. destruct Hy as [Hy|[Hy|[Hy|[]]]]; rewrite <- Hy in *.
  - destruct (parse_value y); reflexivity.
  - destruct (as_str k) as [|c w] eqn:Ek; [congruence|]. cbn [bind]. unfold mk_key. rewrite Ek. reflexivity.
  - cbn [bind]. reflexivity.
Qed.
Lemma f_attr i m p : at_ attribute i m p ->
  (exists k x, next (key_at inp) i m k /\ parse_attribute p = Ok x /\ at_value x = None) \/
  (exists k v m1 m2, next (key_at inp) i m1 k /\ tok (s ":") m1 m2 /\ attr_value_at m2 m v /\
     says (value_faults v (span inp m2 m)) (parse_attribute p) /\
     forall x, parse_attribute p = Ok x -> at_key x = k /\ option_map lit_value (at_value x) = Some v).
Proof.
  intros H. apply at_body in H. apply P_seq in H as (m1 & ps1 & ps2 & H1 & H2 & Ei).
  destruct (single_rule _ _ _ _ _ _ _ H1) as (k & ->). pose proof (at_rule _ _ _ _ _ _ _ H1) as Hk. apply at_key_ in H1 as [Hkey Hne].
  assert (Hn : next (key_at inp) i (fin m1) (mk_key k)) by (exists m1; split; [exact Hkey|apply lay_of]).
  apply P_opt in H2 as [H2|[-> ->]].
  - right. apply P_tok in H2 as (m2 & Ht & H2). apply f_attr_value in H2 as (y & v & -> & Hy & Hv & Hsay & Hval).
    exists (mk_key k), v, (fin m1), m2. split; [exact Hn|]. split; [exact Ht|]. split; [exact Hv|].
    rewrite (parse_attr_lit _ _ _ Ei Hk Hne Hy). split; [apply says_bind0; [exact Hsay|eauto]|].
    intros x Hx. apply bind_inv in Hx as (l & Hl & Hx). apply Ok_inj in Hx as <-. cbn. split; [reflexivity|]. rewrite (Hval _ Hl). reflexivity.
  - left. unfold parse_attribute. rewrite Ei. cbn [app try_fold]. rewrite Hk. cbn [id_raw at_key ident0 bind at_span at_value].
    eexists _, _. split; [exact Hn|]. split; reflexivity.
Qed.
Lemma p_attr_rule i m p : at_ attribute i m p -> p_rule p = R_attribute.
Proof. apply at_rule. Qed.

(** A list of attributes, each handled by [f]. *)
Lemma f_attribute_plain i m p : at_ attribute i m p -> exists l, attribute_f inp no_rule i m l /\ says l (parse_attribute p).
Proof.
  intros H. apply f_attr in H as [(k & x & Hk & Hx & _)|(k & v & m1 & m2 & Hk & Ht & Hv & Hs & _)].
  - exists []. split; [econstructor; exact Hk|]. exists x. exact Hx.
  - exists (value_faults v (span inp m2 m) ++ map (fun w => (w, span inp i m)) []).
    split; [eapply valued_f; try eassumption; reflexivity|]. cbn [map]. rewrite app_nil_r. exact Hs.
Qed.
Lemma f_settings (J : judge) rl i m p (Q : pair -> list fault -> Prop) :
  (forall i m q, at_ attribute i m q -> exists l, attribute_f inp J i m l /\ Q q l) ->
  at_ (N_ rl (bracketed attribute)) i m p -> exists ls, list_at "[" "]" (attribute_f inp J) i m ls /\ Forall2 Q (into_inner p) ls.
Proof.
  intros HQ H. apply at_body, P_bracketed in H; [|apply single_rule]. eapply list_ex; [exact HQ|exact H].
Qed.
Definition ruled (q : pair) (l : list fault) : Prop := p_rule q = R_attribute /\ says l (parse_attribute q).
Lemma f_plain_settings rl i m p : at_ (N_ rl (bracketed attribute)) i m p ->
  exists l, settings_f inp no_rule i m l /\ exists ls, l = List.concat ls /\ Forall2 ruled (into_inner p) ls.
Proof.
  intros H. apply (f_settings no_rule _ _ _ _ ruled) in H as (ls & H1 & H2).
  - exists (List.concat ls). split; [exists ls; auto|]. eauto.
  - intros i0 m0 q Hq. destruct (f_attribute_plain _ _ _ Hq) as (l & Hl & Hs). exists l. split; [exact Hl|]. split; [apply (at_rule _ _ _ _ _ _ _ Hq)|exact Hs].
Qed.
Lemma F2_weak {X Y} (A B : X -> Y -> Prop) l l' : Forall2 A l l' -> (forall x y, A x y -> B x y) -> Forall2 B l l'.
Proof. intros H HAB. induction H; constructor; auto. Qed.
Lemma f_table_settings i m p : at_ block_settings i m p -> exists l, settings_f inp no_rule i m l /\ says l (parse_table_settings p).
Proof.
  intros H. apply f_plain_settings in H as (l & Hl & ls & -> & HF). exists (List.concat ls). split; [exact Hl|].
  unfold parse_table_settings. apply says_bind0; [|eauto]. unfold parse_attributes. apply says_map. eapply F2_weak; [exact HF|]. intros q y [Hr Hq]. rewrite Hr. exact Hq.
Qed.
Lemma f_group_settings i m p : at_ block_settings i m p -> exists l, settings_f inp no_rule i m l /\ says l (parse_table_group_settings p).
Proof.
  intros H. apply f_plain_settings in H as (l & Hl & ls & -> & HF). exists (List.concat ls). split; [exact Hl|].
  unfold parse_table_group_settings. apply says_bind0; [|eauto]. unfold parse_attributes. apply says_map. eapply F2_weak; [exact HF|]. intros q y [Hr Hq]. rewrite Hr. exact Hq.
Qed.
Lemma f_enum_settings i m p : at_ enum_settings i m p -> exists l, settings_f inp no_rule i m l /\ says l (parse_enum_settings p).
Proof.
  intros H. apply f_plain_settings in H as (l & Hl & ls & -> & HF). exists (List.concat ls). split; [exact Hl|].
  unfold parse_enum_settings. apply says_fold. eapply F2_weak; [exact HF|]. intros q y [Hr Hq] acc. rewrite Hr. apply says_bind0; [exact Hq|eauto].
Qed.
Lemma action_says a q k v : at_key a = k -> option_map lit_value (at_value a) = Some v ->
  (In (id_str k) [s "update"; s "delete"]) -> exists ws, action_rule (id_str k) v ws /\ says (map (fun w => (w, span_of q)) ws) (parse_ref_action a q).
Proof.
  intros Hk Hv Hin. unfold parse_ref_action. destruct (at_value a) as [[sp raw w]|]; [|discriminate]. cbn in Hv. injection Hv as ->.
  destruct v; try (exists []; split; [constructor; intros w _ [= ]|apply says_ok]).
  match goal with |- context [ref_action_from_str ?w0] => destruct (ref_action_from_str w0) as [y|] eqn:Ey end.
  - apply action_words in Ey. exists []. split; [|apply says_ok]. constructor. intros w0 _ [= <-]. exists y. auto.
  - exists [s "invalid referential action"]. split; [|reflexivity]. constructor; [exact Hin|]. intros y Hy. symmetry in Hy. apply action_words in Hy. congruence.
Qed.
Lemma f_ref_settings i m p : at_ rel_settings i m p -> exists l, settings_f inp action_rule i m l /\ says l (parse_rel_settings p).
Proof.
  intros H. unfold parse_rel_settings.
  match goal with |- context [try_fold ?f0 _ _] => set (f := f0) end.
  edestruct (f_settings action_rule R_rel_settings i m p (fun q l => forall acc, says l (f acc q))) as (ls & H1 & H2); [|exact H|].
  2: { exists (List.concat ls). split; [exists ls; auto|]. apply says_fold. exact H2. }
  - clear - f. intros i m q Hq. pose proof (at_rule _ _ _ _ _ _ _ Hq) as Hr. pose proof (at_spans _ _ _ _ _ _ _ Hq) as [Hs _].
    apply f_attr in Hq as [(k & x & Hk & Hx & Hn)|(k & v & m1 & m2 & Hk & Ht & Hv & Hsay & Hval)].
    + exists []. split; [econstructor; exact Hk|]. intros acc. unfold f. rewrite Hr. eapply says_bind1; [exact Hx|]. cbv zeta. unfold parse_ref_action. rewrite Hn. cbn [bind].
      destruct (str_eqb _ _); [apply says_ok|]. destruct (str_eqb _ _); apply says_ok.
    + destruct (str_eqb_spec (id_str k) (s "update")) as [K1|K1]; [|destruct (str_eqb_spec (id_str k) (s "delete")) as [K2|K2]].
      3: { exists (value_faults v (span inp m2 m) ++ map (fun w => (w, span inp i m)) []). split.
           - eapply valued_f; try eassumption. constructor. intros w [E0|[E0|[]]]; congruence.
           - intros acc. unfold f. rewrite Hr. cbn [map]. apply says_bind; [exact Hsay|]. intros x Hx. destruct (Hval x Hx) as [-> _].
             destruct (str_eqb_spec (id_str k) (s "update")); [contradiction|]. destruct (str_eqb_spec (id_str k) (s "delete")); [contradiction|]. apply says_ok. }
      all: assert (Hin : In (id_str k) [s "update"; s "delete"]) by (rewrite ?K1, ?K2; cbn; auto).
      all: assert (exists ws, action_rule (id_str k) v ws /\ forall x, parse_attribute q = Ok x -> says (map (fun w => (w, span inp i m)) ws) (parse_ref_action x q)) as (ws & HJ & Hws).
      1,3: destruct (parse_attribute q) as [x|e|] eqn:Ex;
        [destruct (Hval x eq_refl) as [E1 E2]; destruct (action_says x q k v E1 E2 Hin) as (ws & HJ & Hws); exists ws; split; [exact HJ|]; intros y [= <-]; rewrite <- Hs; exact Hws| |];
        (destruct (action_says (mkAttr range0 k (Some (mkLiteral range0 [] v))) q k v eq_refl eq_refl Hin) as (ws & HJ & _); exists ws; split; [exact HJ|]; intros y [= ]).
      all: eexists; (split; [eapply valued_f; eassumption|]); intros acc; unfold f; rewrite Hr; (apply says_bind; [exact Hsay|]); intros x Hx;
        destruct (Hval x Hx) as [-> _]; cbv zeta.
      * destruct (str_eqb_spec (id_str k) (s "update")); [|contradiction]. apply says_bind0; [apply Hws; exact Hx|eauto].
      * destruct (str_eqb_spec (id_str k) (s "update")); [contradiction|]. destruct (str_eqb_spec (id_str k) (s "delete")); [|contradiction]. apply says_bind0; [apply Hws; exact Hx|eauto].
Qed.
Lemma index_says v : exists ws, index_rule (s "type") v ws /\
  ((ws = [] /\ exists t, indexes_type_from_str (value_to_string v) = Some t) \/ (ws = [idx_type_msg (value_to_string v)] /\ indexes_type_from_str (value_to_string v) = None)).
Proof.
  pose proof (index_type_known (value_to_string v)) as Hk. destruct (indexes_type_from_str (value_to_string v)) as [t|].
  - exists []. split; [constructor; intros _; exists t; exact Hk|]. left. eauto.
  - exists [idx_type_msg (value_to_string v)]. split; [apply index_bad; exact Hk|]. right. auto.
Qed.
Lemma f_index_settings i m p : at_ indexes_settings i m p -> exists l, settings_f inp index_rule i m l /\ says l (parse_indexes_settings p).
Proof.
  intros H. unfold parse_indexes_settings.
  match goal with |- context [try_fold ?f0 _ _] => set (f := f0) end.
  edestruct (f_settings index_rule R_indexes_settings i m p (fun q l => forall acc, says l (f acc q))) as (ls & H1 & H2); [|exact H|].
  2: { exists (List.concat ls). split; [exists ls; auto|]. apply says_fold. exact H2. }
  - clear - f. intros i m q Hq. pose proof (at_rule _ _ _ _ _ _ _ Hq) as Hr. pose proof (at_spans _ _ _ _ _ _ _ Hq) as [Hs _].
    apply f_attr in Hq as [(k & x & Hk & Hx & Hn)|(k & v & m1 & m2 & Hk & Ht & Hv & Hsay & Hval)].
    + exists []. split; [econstructor; exact Hk|]. intros [sp attrs ty un pk nt nm]. unfold f. rewrite Hr. eapply says_bind1; [exact Hx|]. cbv zeta.
      assert (Ha : attr_value_string x = None) by (unfold attr_value_string; rewrite Hn; reflexivity). rewrite Ha.
      repeat (destruct (str_eqb _ _); [apply says_ok|]). apply says_ok.
    + destruct (str_eqb_spec (id_str k) (s "type")) as [K|K].
      * destruct (index_says v) as (ws & HJ & Hws). eexists. split; [eapply valued_f; try eassumption; rewrite K; exact HJ|].
        intros [sp attrs ty un pk nt nm]. unfold f. rewrite Hr. apply says_bind; [exact Hsay|]. intros x Hx. destruct (Hval x Hx) as [E1 E2]. cbv zeta. rewrite E1, K.
        assert (Ha : attr_value_string x = Some (value_to_string v)).
        { unfold attr_value_string. destruct (at_value x) as [l|]; [|discriminate]. cbn in E2 |- *. injection E2 as ->. reflexivity. }
        rewrite Ha. cbn [str_eqb]. destruct Hws as [[-> (t & ->)]|[-> ->]]; [apply says_ok|]. cbn [map says fst snd]. unfold throw_msg. rewrite Hs. reflexivity.
      * exists (value_faults v (span inp m2 m) ++ map (fun w => (w, span inp i m)) []). split.
        { eapply valued_f; try eassumption. constructor. intros E0. contradiction. }
        intros [sp attrs ty un pk nt nm]. unfold f. rewrite Hr. cbn [map]. apply says_bind; [exact Hsay|]. intros x Hx. destruct (Hval x Hx) as [E1 E2]. cbv zeta. rewrite E1.
        destruct (str_eqb_spec (id_str k) (s "type")); [contradiction|]. repeat (destruct (str_eqb _ _); [apply says_ok|]). apply says_ok.
Qed.

(** ** Types: no layout in between *)
Definition PC (e : pexp) (i m : str) (ps : list pair) : Prop :=
  blen i <= blen inp /\ exists t, eval skip e CompoundAtomic (pos inp i) i = ROk t m ps /\ i = t ++ m.
Lemma PC_intro e i t m ps : blen i <= blen inp -> eval skip e CompoundAtomic (pos inp i) i = ROk t m ps -> PC e i m ps.
Proof. intros H E0. split; [exact H|]. exists t. split; [exact E0|]. apply eval_der in E0 as [E0 _]; [exact E0|exact skip_app]. Qed.
Lemma PC_EC e i m ps : PC e i m ps -> EC e i m ps.
Proof. intros (_ & t & H & _). exists (pos inp i), t. exact H. Qed.
Lemma PC_seq e1 e2 i m ps : PC (ESeq e1 e2) i m ps -> exists m1 ps1 ps2, PC e1 i m1 ps1 /\ PC e2 m1 m ps2 /\ ps = ps1 ++ ps2.
Proof.
  intros (Hb & t & H & _). rewrite eval_seq in H. destruct (eval skip e1 CompoundAtomic (pos inp i) i) as [t1 m1 ps1| |] eqn:E1; try discriminate.
  pose proof (PC_intro _ _ _ _ _ Hb E1) as HP1. pose proof HP1 as (_ & t1' & E1' & Hi). rewrite E1 in E1'. injection E1' as <-.
  rewrite skipf_compound in H. destruct (eval skip e2 CompoundAtomic (pos inp i + blen t1 + blen []) m1) as [t2 m2 ps2| |] eqn:E2; try discriminate.
  injection H as <- <- <-. exists m1, ps1, ps2. split; [exact HP1|]. split; [|reflexivity].
  assert (Hp : pos inp i + blen t1 + blen [] = pos inp m1).
  { rewrite Hi in Hb |- *. rewrite pos_app by exact Hb. change (blen []) with 0. lia. }
  rewrite Hp in E2. eapply PC_intro; [|exact E2]. rewrite Hi, !blen_app in Hb. lia.
Qed.
Lemma PC_alt e1 e2 i m ps : PC (EAlt e1 e2) i m ps -> PC e1 i m ps \/ PC e2 i m ps.
Proof.
  intros (Hb & t & H & Hi). rewrite eval_alt in H. destruct (eval skip e1 CompoundAtomic (pos inp i) i) as [t1 m1 ps1| |] eqn:E1; try discriminate.
  - left. split; [exact Hb|]. exists t. rewrite E1. auto.
  - right. split; [exact Hb|exists t; auto].
Qed.
Lemma PC_opt e i m ps : PC (EOpt e) i m ps -> PC e i m ps \/ (ps = [] /\ m = i /\ exists off, eval skip e CompoundAtomic off i = RFail).
Proof.
  intros (Hb & t & H & Hi). rewrite eval_opt in H. destruct (eval skip e CompoundAtomic (pos inp i) i) as [t1 m1 ps1| |] eqn:E1; try discriminate.
  - left. split; [exact Hb|]. exists t. rewrite E1. auto.
  - right. injection H as <- <- <-. eauto.
Qed.
Lemma PC_emit rl ty b i m ps : PC (ERule rl ty b) i m ps -> exists p, ps = [p] /\ p_rule p = rl /\ spans p i m.
Proof.
  intros (Hb & t & H & Hi). assert (exists l, ps = [Pair rl (pos inp i) (pos inp i + blen t) t l]) as (l & ->).
  { destruct ty; cbn [eval] in H; (destruct (eval skip b _ (pos inp i) i) as [t2 m2 ps2| |]; cbn [emit] in H; try discriminate);
      injection H as -> -> <-; eauto. }
  eexists. split; [reflexivity|]. split; [reflexivity|]. split; [|exact Hi]. unfold span_of, span. cbn [p_start p_end].
  f_equal. rewrite Hi in Hb |- *. apply pos_app. exact Hb.
Qed.
Lemma PC_rule rl b i m ps : PC (N_ rl b) i m ps -> exists p, ps = [p] /\ p_rule p = rl /\ spans p i m /\ PC b i m (into_inner p).
Proof.
  intros H. pose proof (PC_emit _ _ _ _ _ _ H) as (p & Hps & Hr & Hs). exists p. split; [exact Hps|]. split; [exact Hr|]. split; [exact Hs|].
  destruct H as (Hb & t & H & Hi). rewrite eval_normal in H. destruct (eval skip b CompoundAtomic (pos inp i) i) as [t1 m1 ps1| |] eqn:E1; try discriminate.
  rewrite emit_ok in H by discriminate. injection H as <- <- <-. injection Hps as <-. cbn [into_inner]. eapply PC_intro; eassumption.
Qed.
Lemma PC_comp rl b i m ps : PC (C_ rl b) i m ps -> exists p, ps = [p] /\ p_rule p = rl /\ spans p i m /\ PC b i m (into_inner p).
Proof.
  intros H. pose proof (PC_emit _ _ _ _ _ _ H) as (p & Hps & Hr & Hs). exists p. split; [exact Hps|]. split; [exact Hr|]. split; [exact Hs|].
  destruct H as (Hb & t & H & Hi). rewrite eval_compound in H. destruct (eval skip b CompoundAtomic (pos inp i) i) as [t1 m1 ps1| |] eqn:E1; try discriminate.
  rewrite emit_ok in H by discriminate. injection H as <- <- <-. injection Hps as <-. cbn [into_inner]. eapply PC_intro; eassumption.
Qed.
Lemma PC_tok w e i m ps : PC (ESeq (EStr w) e) i m ps -> exists m1, i = w ++ m1 /\ PC e m1 m ps.
Proof.
  intros H. apply PC_seq in H as (m1 & ps1 & ps2 & H1 & H2 & ->). apply PC_EC, EC_str in H1 as (-> & ->). exists m1. auto.
Qed.
Lemma PC_end w e i m ps : PC (ESeq e (EStr w)) i m ps -> PC e i (w ++ m) ps.
Proof.
  intros H. apply PC_seq in H as (m1 & ps1 & ps2 & H1 & H2 & ->). apply PC_EC, EC_str in H2 as (-> & ->). rewrite app_nil_r. exact H1.
Qed.
Definition ca (e : pexp) : reader pair := fun i m p => PC e i m [p].
Lemma PC_rep e i m ps : (forall i m ps, PC e i m ps -> exists p, ps = [p]) -> PC (ERep e) i m ps -> many (ca e) i m ps.
Proof.
  intros Hs (Hb & t & H & _). cbn [eval] in H. revert H. generalize (fuel_for i) as fuel. intros fuel. revert i t m ps Hb.
  induction fuel as [|n IH]; intros i t m ps Hb H; cbn [Peg.repeat] in H; [discriminate|].
  destruct (eval skip e CompoundAtomic (pos inp i) i) as [t1 m1 ps1| |] eqn:E1; try discriminate.
  - pose proof (PC_intro _ _ _ _ _ Hb E1) as HP. destruct (Hs _ _ _ HP) as (p & ->).
    pose proof HP as (_ & t1' & E1' & Hi1). rewrite E1 in E1'. injection E1' as <-.
    rewrite Hi1 in H at 1. rewrite pos_app in H by (rewrite <- Hi1; exact Hb).
    match type of H with context [Peg.repeat ?f n ?o m1] => destruct (Peg.repeat f n o m1) as [t2 m2 ps2| |] eqn:E2 end; try discriminate.
    injection H as _ <- <-. eapply many_cons; [exact HP|]. eapply IH; [|exact E2]. rewrite Hi1, blen_app in Hb. lia.
  - injection H as <- <- <-. constructor.
Qed.
Lemma PC_int_place i m p q x : PC value i m [p] -> into_inner p = [q] -> p_rule q = R_number_value -> into_inner q = [x] -> spans x i m.
Proof.
  intros H Hp Hq Hx. apply PC_rule in H as (p' & [= <-] & _ & _ & H). rewrite Hp in H.
  apply PC_alt in H as [H|H]; [apply PC_alt in H as [H|H]; [apply PC_alt in H as [H|H]; [apply PC_alt in H as [H|H]|]|]|].
  4: { apply PC_rule in H as (q' & [= <-] & _ & _ & H). rewrite Hx in H.
       apply PC_alt in H as [H|H]; apply PC_emit in H as (x' & [= <-] & _ & Hs); exact Hs. }
  all: apply PC_emit in H as (q' & [= <-] & Hr & _); rewrite Hq in Hr; discriminate.
Qed.
Lemma single_value i m ps : PC value i m ps -> exists p, ps = [p].
Proof. intros H. apply PC_emit in H as (p & -> & _). eauto. Qed.
(** One argument. *)
Definition arg_says (p : pair) (l : list fault) : Prop := p_rule p = R_value /\ says l (parse_value p).
Lemma f_arg i m p : ca value i m p -> exists raw v, i = raw ++ m /\ arg_text raw v /\ arg_says p (value_faults v (span inp i m)).
Proof.
  intros H. pose proof (PC_EC _ _ _ _ H) as H1. apply EC_arg in H1 as (raw & v & -> & Hv & q & [= <-] & Hd). exists raw, v. split; [reflexivity|]. split; [exact Hv|].
  split; [apply Hd|]. apply (value_says p v (fun _ => True)); [exact Hd|]. intros q x Hq Hr Hx. apply (PC_int_place _ _ _ _ _ H Hq Hr Hx).
Qed.
Lemma f_args_rest i m ps : many (ca (ESeq (L ",") value)) i (s ")" ++ m) ps -> forall raw v, arg_text raw v ->
  exists ls, args_f inp (raw ++ i) m (value_faults v (span inp (raw ++ i) i) ++ List.concat ls) /\ Forall2 arg_says ps ls.
Proof.
  intros H. remember (s ")" ++ m) as r eqn:Er. revert Er. induction H as [i|i m1 r p ps Hp Hm IH]; intros -> raw v Hv.
  - exists []. cbn [List.concat]. rewrite app_nil_r. split; [constructor; exact Hv|constructor].
  - apply PC_tok in Hp as (i1 & -> & Hp). apply f_arg in Hp as (raw1 & v1 & -> & Hv1 & Hs1).
    destruct (IH eq_refl raw1 v1 Hv1) as (ls & Hls & HF). exists (value_faults v1 (span inp (raw1 ++ m1) m1) :: ls).
    split; [|constructor; assumption]. cbn [List.concat]. apply args_next; assumption.
Qed.
Lemma f_col_type_arg i m p : ca col_type_arg i m p -> p_rule p = R_col_type_arg /\ exists l, arguments_f inp i m l /\ says l (parse_col_type_arg p).
Proof.
  intros H. apply PC_rule in H as (p' & [= <-] & Hr & _ & H). split; [exact Hr|]. apply PC_tok in H as (i1 & -> & H). apply PC_end in H.
  assert (Hfold : forall ls, Forall2 arg_says (into_inner p) ls -> says (List.concat ls) (parse_col_type_arg p)).
  { intros ls HF. unfold parse_col_type_arg. apply says_fold. eapply F2_weak; [exact HF|]. intros q l [Hq Hl] acc. rewrite Hq. apply says_bind0; [exact Hl|eauto]. }
  apply PC_opt in H as [H|(Hn & <- & _)].
  - apply PC_seq in H as (m1 & ps1 & ps2 & H1 & H2 & Ei). destruct (single_value _ _ _ H1) as (q & ->). apply f_arg in H1 as (raw & v & -> & Hv & Hs).
    apply PC_rep in H2; [|intros i0 m0 ps0 H0; apply PC_tok in H0 as (i2 & _ & H0); apply (single_value _ _ _ H0)].
    destruct (f_args_rest _ _ _ H2 raw v Hv) as (ls & Hls & HF). eexists. split; [constructor; exact Hls|].
    apply (Hfold (_ :: ls)). rewrite Ei. constructor; assumption.
  - exists []. split; [apply empty_arguments|]. apply (Hfold []). rewrite Hn. constructor.
Qed.
Definition dim_says (p : pair) (l : list fault) : Prop := p_rule p = R_col_type_array /\ says l (parse_col_type_array p).
Lemma f_dims i m ps : many (ca col_type_array) i m ps -> exists ls, dims_f inp i m (List.concat ls) /\ Forall2 dim_says ps ls.
Proof.
  induction 1 as [i|i m1 m p ps Hp Hm (ls & IH & HF)]; [exists []; split; constructor|].
  apply PC_rule in Hp as (p' & [= <-] & Hr & _ & H). apply PC_tok in H as (i1 & -> & H). apply PC_end in H.
  apply PC_opt in H as [H|(Hn & <- & _)].
  - pose proof (PC_emit _ _ _ _ _ _ H) as (x & Ex & Hrx & Hsx). destruct H as (_ & t & H & _). apply eval_int_inv in H as (d & -> & Hd & _ & _).
    assert (Hx : as_str x = d) by (destruct Hsx as [_ E0]; apply app_inv_tail in E0; congruence).
    exists (size_faults (digits_value 0 d) (span inp (d ++ s "]" ++ m1) (s "]" ++ m1)) :: ls). split.
    + cbn [List.concat]. apply sized_dim; assumption.
    + constructor; [|exact HF]. split; [exact Hr|]. unfold parse_col_type_array. rewrite Ex. cbn [try_fold]. rewrite Hrx, Hx.
      unfold parse_u32, size_faults. rewrite N_of_digits_value. destruct (digits_value 0 d <=? 4294967295); [apply says_ok|].
      cbn [bind says fst snd]. unfold throw_msg. rewrite (proj1 Hsx). reflexivity.
  - exists ([] :: ls). split; [cbn [List.concat app]; change (s "[" ++ s "]" ++ m1) with (s "[]" ++ m1); constructor; exact IH|].
    constructor; [|exact HF]. split; [exact Hr|]. unfold parse_col_type_array. rewrite Hn. apply says_ok.
Qed.
Lemma single_dim i m ps : PC col_type_array i m ps -> exists p, ps = [p].
Proof. intros H. apply PC_emit in H as (p & -> & _). eauto. Qed.
Lemma f_arg_opt i m ps : PC (EOpt col_type_arg) i m ps -> exists l, arguments_f inp i m l /\
  ((ps = [] /\ l = []) \/ exists p, ps = [p] /\ p_rule p = R_col_type_arg /\ says l (parse_col_type_arg p)).
Proof.
  intros H. apply PC_opt in H as [H|(-> & -> & _)].
  - pose proof (PC_emit _ _ _ _ _ _ H) as (p & -> & _). apply f_col_type_arg in H as [Hr (l & Hl & Hs)]. exists l. split; [exact Hl|]. right. eauto.
  - exists []. split; [constructor|left; auto].
Qed.
Lemma body_says sch v args dims l1 ls : p_rule v = R_var \/ p_rule v = R_spaced_var ->
  ((args = [] /\ l1 = []) \/ exists p, args = [p] /\ p_rule p = R_col_type_arg /\ says l1 (parse_col_type_arg p)) -> Forall2 dim_says dims ls ->
  forall out, says (l1 ++ List.concat ls) (try_fold (body_step sch) (v :: args ++ dims) out).
Proof.
  intros Hv Ha Hd out. cbn [try_fold]. assert (exists o, body_step sch out v = Ok o) as (o & ->).
  { unfold body_step. destruct Hv as [-> | ->]; eauto. }
  cbn [bind]. rewrite try_fold_app. assert (HD : forall o, says (List.concat ls) (try_fold (body_step sch) dims o)).
  { apply says_fold. eapply F2_weak; [exact Hd|]. intros q l [Hq Hl] acc. unfold body_step. rewrite Hq. apply says_bind0; [exact Hl|eauto]. }
  destruct Ha as [[-> ->]|(p & -> & Hp & Hs)]; [apply HD|]. apply says_bind; [|intros; apply HD].
  rewrite try_fold_one. unfold body_step. rewrite Hp. apply says_bind0; [exact Hs|eauto].
Qed.
Lemma f_type i m p : at_ col_type i m p -> exists l, type_f inp i m l /\ says l (parse_col_type p).
Proof.
  intros H. assert (HC : PC col_type i m [p]).
  { destruct H as (Hb & t & H & Hi). split; [exact Hb|]. exists t. rewrite <- mode_col_type. auto. }
  clear H. pose proof (PC_EC _ _ _ _ HC) as HE. apply EC_type in HE as (raw & ty & E0 & Ht & Hmg & Hnd & _).
  assert (Hw : exists raw ty, i = raw ++ m /\ type_raw raw ty /\ no_merge raw m /\ no_dim m) by eauto 7. clear raw ty E0 Ht Hmg Hnd.
  cut (exists l, type_parts_f inp i m l /\ says l (parse_col_type p)); [intros (l & H1 & H2); exists l; repeat split; assumption|]. clear Hw.
  apply PC_comp in HC as (p' & [= <-] & _ & _ & H). apply PC_seq in H as (m1 & ps1 & ps2 & H1 & H2 & Ei).
  assert (Hpre : exists pp np, i = pp ++ m1 /\ prefix_r pp np /\ (ps1 = [] \/ exists x y, ps1 = [x] /\ p_rule x = R_ident /\ parse_ident x = Ok y) /\
     (pp = [] -> exists off, eval skip (ESeq ident (L ".")) CompoundAtomic off m1 = RFail)).
  { apply PC_opt in H1 as [H1|(-> & -> & Hf)].
    - apply PC_end, PC_EC, EC_ident in H1 as (raw & w & -> & Hw & x & -> & Hx). exists (raw ++ s "."), (w ++ s "."). split; [rewrite <- app_assoc; reflexivity|].
      split; [|split; [right; destruct (build_ident _ _ Hx) as (y & Hy & _); exists x, y; split; [reflexivity|split; [apply Hx|exact Hy]]|intros E0; destruct raw; discriminate]].
      destruct Hw as [(Hw & -> & _)|Hw]; constructor; exact Hw.
    - exists [], []. split; [reflexivity|]. split; [constructor|]. split; [left; auto|auto]. }
  destruct Hpre as (pp & np & -> & Hpp & Hps & Hf).
  assert (Hbody : exists l q, ps2 = [q] /\ (p_rule q = R_col_type_quoted \/ p_rule q = R_col_type_unquoted) /\ type_parts_f inp (pp ++ m1) m l /\
     forall sch out, says l (try_fold (body_step sch) (into_inner q) out)).
  { apply PC_alt in H2 as [H2|H2]; apply PC_comp in H2 as (q & -> & Hq & _ & H2).
    - apply PC_tok in H2 as (i1 & -> & H2). apply PC_seq in H2 as (m2 & ps3 & ps4 & H3 & H2 & Eq).
      pose proof (PC_emit _ _ _ _ _ _ H3) as (v & -> & Hv & _). apply PC_EC in H3 as (off & t & H3). apply eval_phrase_inv in H3 as (b & -> & Hb & _ & _).
      apply PC_seq in H2 as (m3 & ps5 & ps6 & H3 & H2 & ->). apply f_arg_opt in H3 as (l1 & Ha & Hl1).
      apply PC_seq in H2 as (m4 & ps7 & ps8 & H3 & H2 & ->). apply PC_rep in H3; [|apply single_dim]. apply f_dims in H3 as (ls & Hd & Hls).
      apply PC_tok in H2 as (m5 & -> & H2). apply PC_rep in H2; [|apply single_dim]. apply f_dims in H2 as (ls2 & Hd2 & Hls2).
      exists (l1 ++ List.concat ls ++ List.concat ls2), q. split; [reflexivity|]. split; [auto|]. split.
      + eapply quoted_parts; try eassumption. intros E0 w x Hc E1. destruct (Hf E0) as (off' & Hf'). change (eval skip (ESeq ident (L ".")) CompoundAtomic off' (dq ++ b ++ m2) = RFail) in Hf'. rewrite E1 in Hf'.
        assert (HF : FC (ESeq ident (L ".")) (((dq ++ w ++ dq) ++ s ".") ++ x) x (SynEval.one d_ident w)).
        { rewrite <- app_assoc. apply FC_end, FC_ident_quoted. split; [reflexivity|exact Hc]. }
        destruct (HF off') as (t' & ps' & E2 & _). rewrite <- !app_assoc in E2. pose proof (eq_trans (eq_sym Hf') E2) as E3. discriminate E3.
      + intros sch out. rewrite <- concat_app, Eq. apply (body_says sch v ps5 (ps7 ++ ps8)); [auto|exact Hl1|apply Forall2_app; assumption].
    - apply PC_seq in H2 as (m2 & ps3 & ps4 & H3 & H2 & Eq).
      pose proof (PC_emit _ _ _ _ _ _ H3) as (v & -> & Hv & _). apply PC_EC in H3 as (off & t & H3). apply eval_word_inv in H3 as (b & -> & Hb & _ & _).
      apply PC_seq in H2 as (m3 & ps5 & ps6 & H3 & H2 & ->). apply f_arg_opt in H3 as (l1 & Ha & Hl1).
      apply PC_rep in H2; [|apply single_dim]. apply f_dims in H2 as (ls & Hd & Hls).
      exists (l1 ++ List.concat ls), q. split; [reflexivity|]. split; [auto|]. split; [eapply bare_parts; eassumption|].
      intros sch out. rewrite Eq. apply (body_says sch v ps5 ps6); [auto|exact Hl1|assumption]. }
  destruct Hbody as (l & q & -> & Hq & Hl & Hs). exists l. split; [exact Hl|]. unfold parse_col_type. apply says_omap. rewrite Ei, try_fold_app.
  assert (HB : forall sch out, says l (try_fold (fun (acc : option ident_t * col_type_t) p1 =>
    let '(sch, out) := acc in
    match p_rule p1 with
    | R_ident => let? i := parse_ident p1 in Ok (Some i, out)
    | R_col_type_quoted | R_col_type_unquoted => omap (fun o => (sch, o)) (try_fold (body_step sch) (into_inner p1) out)
    | _ => throw_rules [R_col_type_quoted; R_col_type_unquoted] p1
    end) [q] (sch, out))).
  { intros sch out. rewrite try_fold_one. destruct Hq as [-> | ->]; apply says_omap, Hs. }
  destruct Hps as [->|(x & y & -> & Hx & Hy)]; [apply HB|]. eapply says_bind1; [rewrite try_fold_one; rewrite Hx, Hy; reflexivity|]. apply HB.
Qed.

(** ** Parts without faults *)
Definition clean {A} (e : pexp) (f : pair -> outcome A) (R : reader A) : Prop :=
  forall i m p, at_ e i m p -> exists x, f p = Ok x /\ R i m x.
Lemma c_ident : clean ident parse_ident (ident_at inp).
Proof.
  intros i m p H. assert (exists x, parse_ident p = Ok x) as (x & Hx); [|exists x; split; [exact Hx|eapply at_ident; eassumption]].
  apply P_E, B_ident in H as (w & _ & q & [= <-] & Hd). destruct (build_ident _ _ Hd) as (x & Hx & _). eauto.
Qed.
Lemma c_decl : clean decl_ident parse_decl_ident (decl_at inp).
Proof.
  intros i m p H. assert (exists x, parse_decl_ident p = Ok x) as (x & Hx); [|exists x; split; [exact Hx|eapply at_decl; eassumption]].
  apply P_E, B_decl in H as (w & _ & q & [= <-] & Hd). destruct (build_decl _ _ Hd) as (x & Hx & _). eauto.
Qed.
Lemma c_endpoint : clean ref_ident parse_ref_ident (endpoint_at inp).
Proof.
  intros i m p H. assert (exists x, parse_ref_ident p = Ok x) as (x & Hx); [|exists x; split; [exact Hx|eapply at_endpoint; eassumption]].
  apply P_E, B_endpoint in H as (w & _ & q & [= <-] & Hd). destruct (build_end _ _ Hd) as (x & Hx & _). eauto.
Qed.
Lemma c_inline : clean ref_inline parse_ref_inline (inline_at inp).
Proof.
  intros i m p H. assert (exists x, parse_ref_inline p = Ok x) as (x & Hx); [|exists x; split; [exact Hx|eapply at_inline; eassumption]].
  apply P_E, B_inline in H as (w & _ & q & [= <-] & Hd). destruct (build_inline _ _ Hd) as (x & Hx & _). eauto.
Qed.
Lemma c_note : clean note_decl parse_note_decl (note_at inp).
Proof.
  intros i m p H. assert (exists x, parse_note_decl p = Ok x) as (x & Hx); [|exists x; split; [exact Hx|eapply at_note; eassumption]].
  apply P_E, B_note in H as (w & _ & q & [= <-] & Hd). destruct (build_note _ _ Hd) as (x & Hx & _). eauto.
Qed.
Lemma c_index_col : clean indexes_ident parse_indexes_ident (index_col_at inp).
Proof.
  intros i m p H. assert (exists x, parse_indexes_ident p = Ok x) as (x & Hx); [|exists x; split; [exact Hx|eapply at_index_col; eassumption]].
  apply P_E, B_index_col in H as (w & _ & q & [= <-] & Hd). destruct (build_index_col _ _ Hd) as (x & Hx & _). eauto.
Qed.
Lemma c_rel i m p : at_ relation i m p -> exists r, relation_from_str (as_str p) = Some r /\ rel_at i m r.
Proof.
  intros H. assert (exists r, relation_from_str (as_str p) = Some r) as (r & Hr); [|exists r; split; [exact Hr|eapply at_rel; eassumption]].
  apply P_E, B_rel in H as (w & _ & q & [= <-] & Hd). destruct (build_rel _ _ Hd) as (_ & Hx). eauto.
Qed.
Lemma clean_sound {A} e (f : pair -> outcome A) R i m p : clean e f R -> at_ e i m p -> exists l, sound R i m l /\ says l (f p).
Proof. intros Hc H. destruct (Hc _ _ _ H) as (x & Hx & HR). exists []. split; [split; [eauto|reflexivity]|]. exists x. exact Hx. Qed.
Lemma next_clean {A} e (f : pair -> outcome A) R i m p : clean e f R -> next (at_ e) i m p -> exists x, f p = Ok x /\ next R i m x.
Proof. intros Hc (m1 & H & Hl). destruct (Hc _ _ _ H) as (x & Hx & HR). exists x. split; [exact Hx|]. exists m1. auto. Qed.
Lemma many_clean {A} e (f : pair -> outcome A) R i m ps : clean e f R -> many (next (at_ e)) i m ps -> exists l, Forall2 (gets f) ps l /\ many (next R) i m l.
Proof.
  intros Hc H. destruct (many_ex (at_ e) R (gets f)) with (i := i) (r := m) (l := ps) as (l & H1 & H2); [|exact H|eauto].
  intros i0 m0 a Ha. destruct (Hc _ _ _ Ha) as (x & Hx & HR). exists x. auto.
Qed.

(** ** Blocks *)
Definition says1 {A S} (f : S -> A -> outcome S) (p : A) (l : list fault) : Prop := forall acc, says l (f acc p).
Lemma says_parts {S} (f : S -> pair -> outcome S) ps ls l : Forall2 (says1 f) ps ls -> l = List.concat ls -> forall acc, says l (try_fold f ps acc).
Proof. intros H -> acc. apply says_fold. exact H. Qed.
Lemma opt_parts {S} (f : S -> pair -> outcome S) o ol : opt_rel (says1 f) o ol -> Forall2 (says1 f) (opt_pairs o) [opt_faults ol] \/ (opt_pairs o = [] /\ opt_faults ol = []).
Proof. destruct o as [p|], ol as [l|]; cbn [opt_rel opt_pairs opt_faults]; try contradiction; [left; constructor; [assumption|constructor]|auto]. Qed.
Lemma says_opt {S} (f : S -> pair -> outcome S) o ol : opt_rel (says1 f) o ol -> forall acc, says (opt_faults ol) (try_fold f (opt_pairs o) acc).
Proof.
  destruct o as [p|], ol as [l|]; cbn [opt_rel opt_pairs opt_faults]; try contradiction; intros H acc; [|apply says_ok].
  rewrite try_fold_one. apply H.
Qed.
Lemma concat_app_says {S} (f : S -> pair -> outcome S) p l ps l' acc : says1 f p l -> (forall acc, says l' (try_fold f ps acc)) -> says (l ++ l') (try_fold f (p :: ps) acc).
Proof. intros H1 H2. cbn [try_fold]. apply says_bind; [apply H1|]. intros x _. apply H2. Qed.
Lemma app_says {S} (f : S -> pair -> outcome S) ps1 l ps l' acc : (forall acc, says l (try_fold f ps1 acc)) -> (forall acc, says l' (try_fold f ps acc)) -> says (l ++ l') (try_fold f (ps1 ++ ps) acc).
Proof. intros H1 H2. rewrite try_fold_app. apply says_bind; [apply H1|]. intros x _. apply H2. Qed.
Lemma nil_says {S} (f : S -> pair -> outcome S) p ps l' acc : says1 f p [] -> (forall acc, says l' (try_fold f ps acc)) -> says l' (try_fold f (p :: ps) acc).
Proof. intros H1 H2. apply (concat_app_says f p [] ps l'); assumption. Qed.
Lemma says_ok_of {A} (o : outcome A) x : o = Ok x -> says [] o.
Proof. intros ->. apply says_ok. Qed.

Lemma f_col_item i m p : at_ col_attribute i m p -> exists l, col_item_f inp i m l /\ p_rule p = R_col_attribute /\
  forall acc, says l (try_fold (fun acc p2 =>
          match p_rule p2 with
          | R_attribute => let? a := parse_attribute p2 in Ok (col_settings_add_attr acc a)
          | R_ref_inline => let? r := parse_ref_inline p2 in Ok (col_settings_add_ref acc r)
          | _ => throw_rules [R_ref_inline; R_attribute] p2
          end) (into_inner p) acc).
Proof.
  intros H. pose proof (at_rule _ _ _ _ _ _ _ H) as Hr. apply at_body in H. apply P_alt in H as [H|[H _]]; destruct (single_rule _ _ _ _ _ _ _ H) as (q & Eq); rewrite Eq in *;
    pose proof (at_rule _ _ _ _ _ _ _ H) as Hq.
  - destruct (c_inline _ _ _ H) as (x & Hx & HR). exists []. split; [right; split; [eauto|reflexivity]|]. split; [exact Hr|]. intros acc. rewrite try_fold_one, Hq, Hx. apply says_ok.
  - destruct (f_attribute_plain _ _ _ H) as (l & Hl & Hs). exists l. split; [left; exact Hl|]. split; [exact Hr|]. intros acc. rewrite try_fold_one, Hq. apply says_bind0; [exact Hs|eauto].
Qed.
Lemma f_col_settings i m p : at_ col_settings i m p -> exists l, col_settings_f inp i m l /\ says l (parse_col_settings p).
Proof.
  intros H. apply at_body, P_bracketed in H; [|apply single_rule]. unfold parse_col_settings.
  match goal with |- context [try_fold ?f0 _ _] => set (f := f0) end.
  destruct (list_ex (at_ col_attribute) (col_item_f inp) (says1 f)) with (op := "["%string) (cl := "]"%string) (i := i) (m := m) (l := into_inner p) as (ls & H1 & H2); [|exact H|].
  - intros i0 m0 q Hq. destruct (f_col_item _ _ _ Hq) as (l & Hl & Hr & Hs). exists l. split; [exact Hl|]. intros acc. unfold f. rewrite Hr. apply Hs.
  - exists (List.concat ls). split; [exists ls; auto|]. apply says_fold. exact H2.
Qed.
Lemma f_column i m p : at_ table_col i m p -> exists l, column_f inp i m l /\ says l (parse_table_col p).
Proof.
  intros H. apply at_body in H. unfold parse_table_col.
  match goal with |- context [try_fold ?f0 _ _] => set (f := f0) end.
  apply P_seq in H as (m1 & ps1 & ps2 & H1 & H & Ei). destruct (single_ident _ _ _ _ H1) as (n & ->).
  apply P_tail in H as (t & o & -> & H2); [|apply single_rule|apply single_rule].
  destruct (c_ident _ _ _ H1) as (vn & Hn & HR).
  destruct (tail_ex (at_ col_type) (type_f inp) (at_ col_settings) (col_settings_f inp) (says1 f) (says1 f) (fin m1) m t o) as (l & ol & Ht & Hl & Ho).
  - intros i0 m0 a Ha. destruct (f_type _ _ _ Ha) as (l & Hl & Hs). exists l. split; [exact Hl|]. intros acc. unfold f. rewrite (at_rule _ _ _ _ _ _ _ Ha). apply says_bind0; [exact Hs|eauto].
  - intros i0 m0 a Ha. destruct (f_col_settings _ _ _ Ha) as (l & Hl & Hs). exists l. split; [exact Hl|]. intros acc. unfold f. rewrite (at_rule _ _ _ _ _ _ _ Ha). apply says_bind0; [exact Hs|eauto].
  - exact H2.
  - exists (l ++ opt_faults ol). split; [econstructor; [exists m1; split; [exact HR|apply lay_of]|exact Ht]|]. rewrite Ei. cbn [app]. apply nil_says.
    + intros acc. unfold f. rewrite (at_rule _ _ _ _ _ _ _ H1), Hn. apply says_ok.
    + intros acc. apply concat_app_says; [exact Hl|]. apply says_opt. exact Ho.
Qed.

(** Indexes. *)
Lemma s_index_col i m q : at_ indexes_ident i m q -> says1 index_step q [].
Proof. intros H acc. destruct (c_index_col _ _ _ H) as (x & Hx & _). unfold index_step. rewrite (at_rule _ _ _ _ _ _ _ H), Hx. apply says_ok. Qed.
Lemma s_index_settings i m q : at_ indexes_settings i m q -> exists l, settings_f inp index_rule i m l /\ says1 index_step q l.
Proof.
  intros H. destruct (f_index_settings _ _ _ H) as (l & Hl & Hs). exists l. split; [exact Hl|]. intros acc. unfold index_step. rewrite (at_rule _ _ _ _ _ _ _ H).
  apply says_bind0; [exact Hs|eauto].
Qed.
Lemma says_nils {S} (f : S -> pair -> outcome S) ps : Forall (fun p => says1 f p []) ps -> forall acc, says [] (try_fold f ps acc).
Proof. induction 1 as [|p ps Hp H IH]; intros acc; [apply says_ok|]. apply nil_says; assumption. Qed.
Lemma f_index i m p : at_ (EAlt indexes_single indexes_multi) i m p -> exists l, index_f inp i m l /\ says l (parse_indexes_single_multi p).
Proof.
  intros H. change (parse_indexes_single_multi p) with (try_fold index_step (into_inner p) (mkIndexesDef (span_of p) [] None)).
  apply P_alt in H as [H|[H _]]; apply at_body in H.
  - apply P_tail in H as (c & o & Ei & H); [|apply single_rule|apply single_rule].
    destruct (tail_ex (at_ indexes_ident) (index_col_at inp) (at_ indexes_settings) (settings_f inp index_rule) (fun q _ => says1 index_step q []) (says1 index_step) i m c o) as (x & ol & Ht & Hl & Ho).
    + intros i0 m0 a Ha. destruct (c_index_col _ _ _ Ha) as (x & _ & HR). exists x. split; [exact HR|]. eapply s_index_col. exact Ha.
    + intros i0 m0 a Ha. eapply s_index_settings. exact Ha.
    + exact H.
    + exists (opt_faults ol). split; [eapply index_single_f; exact Ht|]. rewrite Ei. apply nil_says; [exact Hl|]. apply says_opt. exact Ho.
  - apply P_tok in H as (m1 & Ht & H). apply P_seq in H as (m2 & ps1 & ps2 & H1 & H & Ei). apply P_tok in H as (m3 & (y & Ey & Hl) & H).
    assert (HL : list_at "(" ")" (at_ indexes_ident) i y ps1).
    { eapply P_listed; [apply single_rule|exact Ht|exact H1|]. apply lay_fin. exact Ey. }
    assert (Hnil : Forall (fun p => says1 index_step p []) ps1).
    { apply Forall_forall. intros q Hq. destruct (list_in _ _ _ _ _ _ HL q Hq) as (i0 & m0 & H0). eapply s_index_col. exact H0. }
    destruct (list_ex (at_ indexes_ident) (index_col_at inp) (fun _ _ => True)) with (op := "("%string) (cl := ")"%string) (i := i) (m := y) (l := ps1) as (ls & HL' & _); [|exact HL|].
    { intros i0 m0 a Ha. destruct (c_index_col _ _ _ Ha) as (x & _ & HR). eauto. }
    assert (Hn : next (list_at "(" ")" (index_col_at inp)) i m3 ls) by (exists y; auto).
    apply P_opt in H as [H|[-> ->]].
    + destruct (single_rule _ _ _ _ _ _ _ H) as (q & ->). destruct (s_index_settings _ _ _ H) as (l & Hs & Hsay). exists l. split.
      * change l with (opt_faults (Some l)). eapply index_multi_f. eapply tail_yes; eassumption.
      * rewrite Ei. apply (app_says index_step ps1 [] [q] l); [apply says_nils; exact Hnil|]. intros acc. rewrite try_fold_one. apply Hsay.
    + exists []. split; [change (@nil fault) with (opt_faults None); eapply index_multi_f; constructor; exact Hn|]. rewrite Ei, app_nil_r. apply says_nils. exact Hnil.
Qed.
Lemma f_indexes i m p : at_ indexes_decl i m p -> exists l, indexes_f inp i m l /\ says l (parse_indexes_decl p).
Proof.
  intros H. apply at_body in H. unfold parse_indexes_decl. apply P_word in H as (m1 & Hk & H).
  destruct (single_rule _ _ _ _ _ _ _ H) as (b & Eb). rewrite Eb in *. rewrite (at_rule _ _ _ _ _ _ _ H).
  apply at_body, P_braced in H; [|apply single_index]. unfold parse_indexes_block.
  match goal with |- context [try_fold ?f0 _ _] => set (f := f0) end.
  destruct (braces_ex (at_ (EAlt indexes_single indexes_multi)) (index_f inp) (says1 f)) with (i := m1) (m := m) (l := into_inner b) as (ls & HL & HF); [|exact H|].
  - intros i0 m0 a Ha. destruct (f_index _ _ _ Ha) as (l & Hl & Hs). exists l. split; [exact Hl|]. intros acc. unfold f.
    apply P_alt in Ha as [Ha|[Ha _]]; rewrite (at_rule _ _ _ _ _ _ _ Ha); apply says_bind0; eauto.
  - exists (List.concat ls). split; [econstructor; eassumption|]. apply says_fold. exact HF.
Qed.

(** Tables. *)
Lemma s_table_item i m q : at_ (EAlt (EAlt table_col note_decl) indexes_decl) i m q -> exists l, table_item_f inp i m l /\ says1 table_items q l.
Proof.
  intros H. apply P_alt in H as [H|[H _]]; [apply P_alt in H as [H|[H _]]|].
  - destruct (f_column _ _ _ H) as (l & Hl & Hs). exists l. split; [left; exact Hl|]. intros [a b c d e g]. unfold table_items. rewrite (at_rule _ _ _ _ _ _ _ H).
    apply says_bind0; [exact Hs|eauto].
  - destruct (clean_sound _ _ _ _ _ _ c_note H) as (l & Hl & Hs). exists l. split; [right; left; exact Hl|]. intros [a b c d e g]. unfold table_items.
    rewrite (at_rule _ _ _ _ _ _ _ H). apply says_bind0; [exact Hs|eauto].
  - destruct (f_indexes _ _ _ H) as (l & Hl & Hs). exists l. split; [right; right; exact Hl|]. intros [a b c d e g]. unfold table_items. rewrite (at_rule _ _ _ _ _ _ _ H).
    apply says_bind0; [exact Hs|eauto].
Qed.
Lemma f_table i m p : at_ table_decl i m p -> exists l, table_f inp i m l /\ says l (parse_table_decl p).
Proof.
  intros H. apply at_body in H. rewrite parse_table_decl_parts.
  apply P_word in H as (m1 & Hk & H). apply P_seq in H as (m2 & ps1 & ps2 & H1 & H & Ei). destruct (single_rule _ _ _ _ _ _ _ H1) as (d & ->).
  apply P_seq in H as (m3 & ps3 & ps4 & H2 & H & ->). apply P_maybe in H2 as (oa & -> & H2); [|apply single_rule|apply fin_fin].
  apply P_seq in H as (m4 & ps5 & ps6 & H3 & H & ->). apply P_maybe in H3 as (os & -> & H3); [|apply single_rule|apply fin_fin].
  destruct (single_rule _ _ _ _ _ _ _ H) as (b & ->). pose proof (at_rule _ _ _ _ _ _ _ H) as Hrb. apply at_body, P_braced in H; [|apply single_table_item].
  destruct (c_decl _ _ _ H1) as (vd & Hvd & HRd).
  destruct (maybe_ex (at_ table_alias) (alias_at inp) (fun q _ => says1 table_parts q [])) with (i := fin m2) (r := fin m3) (o := oa) as (va & Hva & Hsa); [|exact H2|].
  { intros i0 m0 a Ha. destruct (alias_inner _ _ _ _ Ha) as (q & Eq & Hq). pose proof (at_rule _ _ _ _ _ _ _ Ha) as Hr.
    pose proof Ha as Ha'. apply at_body in Ha. apply P_word in Ha as (m5 & _ & Ha). rewrite Eq in Ha. destruct (c_ident _ _ _ Ha) as (x & Hx & _).
    exists x. split; [eapply at_alias; eassumption|]. intros [z1 z2 z3 z4 z5 z6]. unfold table_parts. rewrite Hr, Eq, try_fold_one, Hq, Hx. apply says_ok. }
  destruct (maybe_ex (at_ block_settings) (settings_f inp no_rule) (says1 table_parts)) with (i := fin m3) (r := fin m4) (o := os) as (ls & Hls & Hss); [|exact H3|].
  { intros i0 m0 a Ha. destruct (f_table_settings _ _ _ Ha) as (l & Hl & Hs). exists l. split; [exact Hl|]. intros [z1 z2 z3 z4 z5 z6]. unfold table_parts.
    rewrite (at_rule _ _ _ _ _ _ _ Ha). apply says_bind0; [exact Hs|eauto]. }
  destruct (braces_ex (at_ (EAlt (EAlt table_col note_decl) indexes_decl)) (table_item_f inp) (says1 table_items)) with (i := fin m4) (m := m) (l := into_inner b) as (lb & HL & HF);
    [intros i0 m0 a Ha; eapply s_table_item; exact Ha|exact H|].
  exists (opt_faults ls ++ List.concat lb). split; [econstructor; try eassumption; apply lay_of|].
  rewrite Ei. cbn [app]. apply nil_says.
  - intros [z1 z2 z3 z4 z5 z6]. unfold table_parts. rewrite (at_rule _ _ _ _ _ _ _ H1), Hvd. apply says_ok.
  - intros acc. apply (app_says table_parts (opt_pairs oa) []).
    + intros acc1. destruct oa as [q|], va as [v|]; cbn [opt_rel opt_pairs] in *; try contradiction; [rewrite try_fold_one; apply Hsa|apply says_ok].
    + intros acc1. apply app_says; [apply says_opt; exact Hss|]. intros [z1 z2 z3 z4 z5 z6]. rewrite try_fold_one. unfold table_parts. rewrite Hrb. apply says_fold. exact HF.
Qed.

(** Enums. *)
Lemma f_enum_value i m p : at_ Grammar.enum_value i m p -> exists l, enum_value_f inp i m l /\ says l (parse_enum_value p).
Proof.
  intros H. apply at_body in H. unfold parse_enum_value.
  match goal with |- context [try_fold ?f0 _ _] => set (f := f0) end.
  apply P_tail in H as (c & o & Ei & H); [|apply single_rule|apply single_rule].
  destruct (tail_ex (at_ ident) (ident_at inp) (at_ enum_settings) (settings_f inp no_rule) (fun q _ => says1 f q []) (says1 f) i m c o) as (x & ol & Ht & Hl & Ho).
  - intros i0 m0 a Ha. destruct (c_ident _ _ _ Ha) as (x & Hx & HR). exists x. split; [exact HR|]. intros acc. unfold f. rewrite (at_rule _ _ _ _ _ _ _ Ha), Hx. apply says_ok.
  - intros i0 m0 a Ha. destruct (f_enum_settings _ _ _ Ha) as (l & Hl & Hs). exists l. split; [exact Hl|]. intros acc. unfold f. rewrite (at_rule _ _ _ _ _ _ _ Ha).
    apply says_bind0; [exact Hs|eauto].
  - exact H.
  - exists (opt_faults ol). split; [econstructor; exact Ht|]. rewrite Ei. apply nil_says; [exact Hl|]. apply says_opt. exact Ho.
Qed.
Lemma f_enum i m p : at_ enum_decl i m p -> exists l, enum_f inp i m l /\ says l (parse_enum_decl p).
Proof.
  intros H. apply at_body in H. unfold parse_enum_decl.
  apply P_word in H as (m1 & Hk & H). apply P_seq in H as (m2 & ps1 & ps2 & H1 & H & Ei). destruct (single_rule _ _ _ _ _ _ _ H1) as (d & ->).
  destruct (single_rule _ _ _ _ _ _ _ H) as (b & ->). rewrite Ei. cbn [app]. pose proof (at_rule _ _ _ _ _ _ _ H) as Hrb.
  destruct (c_decl _ _ _ H1) as (vd & Hvd & HRd). apply at_body, P_braced in H; [|apply single_rule].
  destruct (braces_ex (at_ Grammar.enum_value) (enum_value_f inp) (fun q l => p_rule q = R_enum_value /\ says l (parse_enum_value q))) with (i := fin m2) (m := m) (l := into_inner b) as (lb & HL & HF);
    [|exact H|].
  { intros i0 m0 a Ha. destruct (f_enum_value _ _ _ Ha) as (l & Hl & Hs). exists l. split; [exact Hl|]. split; [apply (at_rule _ _ _ _ _ _ _ Ha)|exact Hs]. }
  exists (List.concat lb). split; [econstructor; try eassumption; apply lay_of|]. apply nil_says.
  - intros acc. rewrite (at_rule _ _ _ _ _ _ _ H1), Hvd. apply says_ok.
  - intros acc. rewrite try_fold_one, Hrb. apply says_bind0; [|eauto]. unfold parse_enum_block. apply says_map. eapply F2_weak; [exact HF|]. intros q l [Hq Hs]. rewrite Hq. exact Hs.
Qed.

(** Groups. *)
Lemma f_group i m p : at_ table_group_decl i m p -> exists l, group_f inp i m l /\ says l (parse_table_group_decl p).
Proof.
  intros H. apply at_body in H. rewrite parse_group_parts.
  apply P_word in H as (m1 & Hk & H). apply P_seq in H as (m2 & ps1 & ps2 & H1 & H & Ei). destruct (single_ident _ _ _ _ H1) as (d & ->).
  apply P_seq in H as (m4 & ps5 & ps6 & H3 & H & ->). apply P_maybe in H3 as (os & -> & H3); [|apply single_rule|apply fin_fin].
  destruct (single_rule _ _ _ _ _ _ _ H) as (b & ->). pose proof (at_rule _ _ _ _ _ _ _ H) as Hrb.
  apply at_body, P_braced in H; [|apply single_alt; apply single_rule].
  destruct (c_ident _ _ _ H1) as (vd & Hvd & HRd).
  destruct (maybe_ex (at_ block_settings) (settings_f inp no_rule) (says1 group_parts)) with (i := fin m2) (r := fin m4) (o := os) as (ls & Hls & Hss); [|exact H3|].
  { intros i0 m0 a Ha. destruct (f_group_settings _ _ _ Ha) as (l & Hl & Hs). exists l. split; [exact Hl|]. intros [z1 z2 z3 z4 z5]. unfold group_parts.
    rewrite (at_rule _ _ _ _ _ _ _ Ha). apply says_bind0; [exact Hs|eauto]. }
  destruct (braces_ex (at_ (EAlt note_decl decl_ident)) (group_part_at inp) (fun q _ => says1 group_items q [])) with (i := fin m4) (m := m) (l := into_inner b) as (lb & HL & HF); [|exact H|].
  { intros i0 m0 a Ha. pose proof Ha as Ha'. apply P_alt in Ha as [Ha|[Ha _]].
    - destruct (c_note _ _ _ Ha) as (x & Hx & HR). exists (GroupNote x). split; [eapply at_group_part; [exact Ha'|]|].
      + unfold get_group_part. rewrite (at_rule _ _ _ _ _ _ _ Ha), Hx. reflexivity.
      + intros [z1 z2 z3 z4 z5]. unfold group_items. rewrite (at_rule _ _ _ _ _ _ _ Ha), Hx. apply says_ok.
    - destruct (c_decl _ _ _ Ha) as (x & Hx & HR). eexists. split; [eapply at_group_part; [exact Ha'|]|].
      + unfold get_group_part. rewrite (at_rule _ _ _ _ _ _ _ Ha), Hx. reflexivity.
      + intros [z1 z2 z3 z4 z5]. unfold group_items. rewrite (at_rule _ _ _ _ _ _ _ Ha), Hx. apply says_ok. }
  exists (opt_faults ls). split; [econstructor; try eassumption; exists m2; split; [eassumption|apply lay_of]|].
  rewrite Ei. cbn [app]. apply nil_says.
  - intros [z1 z2 z3 z4 z5]. unfold group_parts. rewrite (at_rule _ _ _ _ _ _ _ H1), Hvd. apply says_ok.
  - intros acc. rewrite <- (app_nil_r (opt_faults ls)). apply app_says; [apply says_opt; exact Hss|].
    intros [z1 z2 z3 z4 z5]. rewrite try_fold_one. unfold group_parts. rewrite Hrb. apply says_nils. clear - HF. induction HF; constructor; assumption.
Qed.

(** Projects. *)
Lemma f_property i m p off : at_ property i m p -> eval skip note_decl NonAtomic off i = RFail -> exists l, property_f inp i m l /\ says l (parse_property p).
Proof.
  intros H Hnf. apply at_body in H. apply P_seq in H as (m1 & ps1 & ps2 & H1 & H2 & Ei).
  destruct (single_rule _ _ _ _ _ _ _ H1) as (k & ->). pose proof (at_rule _ _ _ _ _ _ _ H1) as Hk. apply at_key_ in H1 as [Hkey Hne].
  apply P_tok in H2 as (m2 & Ht & H2). apply f_plain_value in H2 as (y & v & -> & Hy & Hv & Hs & Hval).
  exists (value_faults v (span inp m2 m)). split.
  - eapply (property_faults inp i (fin m1) m2 m (mk_key k) v); [exists m1; split; [exact Hkey|apply lay_of]|exact Ht|exact Hv|].
    intros [Hn (w & ->)]. destruct Hv as [Hv|(w' & _ & _ & E1)]; [|discriminate].
    destruct Hkey as (Hi & _). cbn [mk_key id_raw id_str] in *. rewrite Hi in Hnf. eapply note_fails; [exact Hn|apply lay_of|exact Ht| |exact Hnf].
    inversion Hv; subst. eassumption.
  - unfold parse_property. rewrite (parse_attr_lit _ _ _ Ei Hk Hne) by (destruct Hy as [->| ->]; cbn; auto).
    apply says_bind0; [apply says_bind0; [exact Hs|eauto]|]. intros x Hx. apply bind_inv in Hx as (l & Hl & Hx). apply Ok_inj in Hx as <-. cbn. eauto.
Qed.
Lemma s_project_item i m q : at_ (EAlt note_decl property) i m q -> exists l, project_item_f inp i m l /\ says1 project_items q l.
Proof.
  intros H. apply P_alt in H as [H|[H (off & Hf)]].
  - destruct (clean_sound _ _ _ _ _ _ c_note H) as (l & Hl & Hs). exists l. split; [left; exact Hl|]. intros acc. unfold project_items.
    rewrite (at_rule _ _ _ _ _ _ _ H). apply says_bind0; [exact Hs|eauto].
  - destruct (f_property _ _ _ _ H Hf) as (l & Hl & Hs). exists l. split; [right; exact Hl|]. intros acc. unfold project_items. rewrite (at_rule _ _ _ _ _ _ _ H).
    apply says_bind0; [exact Hs|eauto].
Qed.
Lemma f_project i m p : at_ project_decl i m p -> exists l, project_f inp i m l /\ says l (parse_project_decl p).
Proof.
  intros H. apply at_body in H. unfold parse_project_decl. fold project_items.
  apply P_word in H as (m1 & Hk & H). apply P_seq in H as (m2 & ps1 & ps2 & H1 & H & Ei). destruct (single_ident _ _ _ _ H1) as (d & ->).
  destruct (single_rule _ _ _ _ _ _ _ H) as (b & ->). rewrite Ei. cbn [app]. pose proof (at_rule _ _ _ _ _ _ _ H) as Hrb.
  destruct (c_ident _ _ _ H1) as (vd & Hvd & HRd). apply at_body, P_braced in H; [|apply single_alt; apply single_rule].
  destruct (braces_ex (at_ (EAlt note_decl property)) (project_item_f inp) (says1 project_items)) with (i := fin m2) (m := m) (l := into_inner b) as (lb & HL & HF);
    [intros i0 m0 a Ha; eapply s_project_item; exact Ha|exact H|].
  exists (List.concat lb). split; [econstructor; try eassumption; exists m2; split; [eassumption|apply lay_of]|]. apply nil_says.
  - intros acc. rewrite (at_rule _ _ _ _ _ _ _ H1), Hvd. apply says_ok.
  - intros acc. rewrite try_fold_one, Hrb. apply says_fold. exact HF.
Qed.

(** References. *)
Lemma f_stmt i m p : at_ ref_stmt i m p -> exists l, stmt_f inp i m l /\ says l (parse_ref_stmt p).
Proof.
  intros H. apply at_body in H. unfold parse_ref_stmt.
  match goal with |- context [try_fold ?f0 _ _] => set (f := f0) end.
  apply P_seq in H as (m1 & ps1 & ps2 & H1 & H & Ei). apply P_seq in H as (m2 & ps3 & ps4 & H2 & H & ->).
  apply P_tail in H as (b & o & -> & H3); [|apply single_rule|apply single_rule].
  destruct (single_rule _ _ _ _ _ _ _ H1) as (a & ->). destruct (single_rule _ _ _ _ _ _ _ H2) as (q & ->).
  destruct (c_rel _ _ _ H2) as (r & Hr & HRr). destruct (c_endpoint _ _ _ H1) as (va & Hva & HRa).
  assert (Hend : forall i0 m0 a0, at_ ref_ident i0 m0 a0 -> exists x, endpoint_at inp i0 m0 x /\ says1 f a0 []).
  { intros i0 m0 a0 Ha. destruct (c_endpoint _ _ _ Ha) as (x & Hx & HR). exists x. split; [exact HR|]. intros [z1 z2 z3 z4 z5 z6]. unfold f.
    rewrite (at_rule _ _ _ _ _ _ _ Ha), Hx. cbn [bind]. destruct (relation_eqb z3 Undef); apply says_ok. }
  destruct (tail_ex (at_ ref_ident) (endpoint_at inp) (at_ rel_settings) (settings_f inp action_rule) (fun q _ => says1 f q []) (says1 f) (fin m2) m b o) as (x & ol & Ht & Hl & Ho).
  - exact Hend.
  - intros i0 m0 a0 Ha. destruct (f_ref_settings _ _ _ Ha) as (l & Hl & Hs). exists l. split; [exact Hl|]. intros [z1 z2 z3 z4 z5 z6]. unfold f. rewrite (at_rule _ _ _ _ _ _ _ Ha).
    apply says_bind0; [exact Hs|eauto].
  - exact H3.
  - exists (opt_faults ol). split; [econstructor; [exists m1; split; [exact HRa|apply lay_of]|exists m2; split; [exact HRr|apply lay_of]|exact Ht]|].
    rewrite Ei. cbn [app]. apply nil_says; [destruct (Hend _ _ _ H1) as (? & _ & HH); exact HH|]. intros acc. apply nil_says.
    + intros [z1 z2 z3 z4 z5 z6]. unfold f. rewrite (at_rule _ _ _ _ _ _ _ H2), Hr. apply says_ok.
    + intros acc1. apply nil_says; [exact Hl|]. apply says_opt. exact Ho.
Qed.
Lemma f_reference i m p : at_ ref_decl i m p -> exists l, reference_f inp i m l /\ says l (parse_ref_decl p).
Proof.
  intros H. apply at_body in H. unfold parse_ref_decl.
  assert (Hone : forall p1 o st l, into_inner p = [p1] -> p_rule p1 = R_ref_block \/ p_rule p1 = R_ref_short -> into_inner p1 = opt_pairs o ++ [st] ->
     (forall q, o = Some q -> p_rule q = R_ident /\ exists x, parse_ident q = Ok x) -> p_rule st = R_ref_stmt -> says l (parse_ref_stmt st) ->
     says l ((fix go (l : list pair) : outcome ref_block_t :=
     match l with
     | [] => Panic
     | p1 :: l' =>
         match p_rule p1 with
         | R_ref_block | R_ref_short =>
             let? r := ref_decl_inner None (into_inner p1) in
             match r with
             | Some b => Ok b
             | None => go l'
             end
         | _ => throw_rules [R_ref_block; R_ref_short] p1
         end
     end) (into_inner p))).
  { clear. intros p1 o st l E0 Hr E1 Ho Hst Hs. rewrite E0.
    assert (Hin : says l (ref_decl_inner None (into_inner p1)) /\ forall r, ref_decl_inner None (into_inner p1) = Ok r -> r <> None).
    { rewrite E1. destruct o as [q|]; cbn [opt_pairs app ref_decl_inner].
      - destruct (Ho q eq_refl) as [Hq (x & Hx)]. rewrite Hq, Hx. cbn [bind]. rewrite Hst. split; [apply says_omap; exact Hs|]. intros r H. apply omap_inv in H as (y & _ & ->). discriminate.
      - rewrite Hst. split; [apply says_omap; exact Hs|]. intros r H. apply omap_inv in H as (y & _ & ->). discriminate. }
    destruct Hin as [H1 H2]. destruct Hr as [-> | ->]; (apply says_bind0; [exact H1|]); intros [x|] Hx; eauto; destruct (H2 _ Hx eq_refl). }
  assert (Hname : forall i0 r0 o, maybe (next (at_ ident)) i0 r0 o -> (exists o', maybe (next (ident_at inp)) i0 r0 o') /\
    forall q, o = Some q -> p_rule q = R_ident /\ exists x, parse_ident q = Ok x).
  { clear - inp. intros i0 r0 o Ho. split.
    - destruct (maybe_ex (at_ ident) (ident_at inp) (fun _ _ => True)) with (i := i0) (r := r0) (o := o) as (o' & Ho' & _); [|exact Ho|eauto].
      intros i1 m1 a Ha. destruct (c_ident _ _ _ Ha) as (x & _ & HR). eauto.
    - intros q Hq. destruct (maybe_rule _ _ _ _ Ho q Hq) as (i1 & m1 & H0). split; [apply (at_rule _ _ _ _ _ _ _ H0)|]. destruct (c_ident _ _ _ H0) as (x & Hx & _). eauto. }
  apply P_alt in H as [H|[H _]]; apply P_rule in H as (p1 & E1 & Hr & _ & H);
    apply P_word in H as (m1 & Hk & H); apply P_seq in H as (m2 & ps1 & ps2 & H1 & H & Ei);
    (apply P_maybe in H1 as (o & -> & Ho); [|apply single_ident|eapply kw_fixed; exact Hk]); destruct (Hname _ _ _ Ho) as [(o' & Ho') Hor];
    apply P_tok in H as (m3 & Ht & H).
  - apply P_end in H as (m4 & H & Hl). destruct (single_rule _ _ _ _ _ _ _ H) as (st & ->). destruct (f_stmt _ _ _ H) as (l & Hfl & Hs).
    exists l. split; [eapply reference_braces_f; try eassumption; exists m4; auto|]. eapply Hone; eauto. apply (at_rule _ _ _ _ _ _ _ H).
  - destruct (single_rule _ _ _ _ _ _ _ H) as (st & ->). destruct (f_stmt _ _ _ H) as (l & Hfl & Hs).
    exists l. split; [eapply reference_colon_f; eassumption|]. eapply Hone; eauto. apply (at_rule _ _ _ _ _ _ _ H).
Qed.

(** Whole texts. *)
Lemma f_top i m p : at_ decls i m p -> exists l, top_f inp i m l /\ says l (parse_block p) /\ forall o, parse_block p = Ok o -> o <> None.
Proof.
  intros H. unfold parse_block, top_f. unfold decls in H.
  apply P_alt in H as [H|[H _]]; [apply P_alt in H as [H|[H _]]; [apply P_alt in H as [H|[H _]]; [apply P_alt in H as [H|[H _]]; [apply P_alt in H as [H|[H _]]|]|]|]|];
    rewrite (at_rule _ _ _ _ _ _ _ H).
  - destruct (f_project _ _ _ H) as (l & Hl & Hs). exists l. split; [tauto|]. split; [apply says_omap; exact Hs|]. intros o Ho. apply omap_inv in Ho as (y & _ & ->). discriminate.
  - destruct (f_table _ _ _ H) as (l & Hl & Hs). exists l. split; [tauto|]. split; [apply says_omap; exact Hs|]. intros o Ho. apply omap_inv in Ho as (y & _ & ->). discriminate.
  - destruct (f_enum _ _ _ H) as (l & Hl & Hs). exists l. split; [tauto|]. split; [apply says_omap; exact Hs|]. intros o Ho. apply omap_inv in Ho as (y & _ & ->). discriminate.
  - destruct (f_reference _ _ _ H) as (l & Hl & Hs). exists l. split; [tauto|]. split; [apply says_omap; exact Hs|]. intros o Ho. apply omap_inv in Ho as (y & _ & ->). discriminate.
  - destruct (f_group _ _ _ H) as (l & Hl & Hs). exists l. split; [tauto|]. split; [apply says_omap; exact Hs|]. intros o Ho. apply omap_inv in Ho as (y & _ & ->). discriminate.
  - destruct (clean_sound _ _ _ _ _ _ c_note H) as (l & Hl & Hs). exists l. split; [tauto|]. split; [apply says_omap; exact Hs|]. intros o Ho. apply omap_inv in Ho as (y & _ & ->). discriminate.
Qed.
End Sound.

Theorem faults_sound inp o : parse_dbml_unchecked inp = Some o -> o <> Err ErGrammar -> exists l, faults inp l /\ says l o.
Proof.
  intros H Hg. unfold parse_dbml_unchecked in H. destruct (run schema NonAtomic 0 inp) as [t m ps| |] eqn:E0; try discriminate; [|congruence].
  assert (HP : P inp schema inp m ps).
  { eapply P_intro; [lia|]. unfold pos. rewrite N.sub_diag. exact E0. }
  rewrite schema_rule in HP. apply P_rule in HP as (p & -> & Hr & [Hs Hi] & HP). rewrite Hr in H. injection H as <-.
  apply P_seq in HP as (m1 & ps1 & ps2 & H1 & H2 & Ei).
  assert (ps1 = [] /\ m1 = inp) as [-> ->].
  { destruct H1 as (_ & t1 & H1 & _). unfold pos in H1. rewrite N.sub_diag, eval_soi in H1. injection H1 as <- <- <-. auto. }
  apply P_seq in H2 as (m2 & ps3 & ps4 & H2 & H3 & ->). apply P_many in H2; [|apply single_decls|apply fin_fin].
  apply P_rule in H3 as (e & -> & He & _ & H3).
  assert (fin m2 = [] /\ m = []) as [Em ->].
  { destruct H3 as (_ & t3 & H3 & _). cbn [eval] in H3. destruct (fin m2); [split; congruence|discriminate]. }
  rewrite Em in H2. unfold parse_schema. rewrite Ei. cbn [app].
  match goal with |- context [try_fold ?f0 _ _] => set (f := f0) end.
  destruct (many_ex (at_ inp decls) (top_f inp) (says1 f)) with (i := fin inp) (r := @nil char) (l := ps3) as (ls & HL & HF); [|exact H2|].
  - intros i0 m0 a Ha. destruct (f_top _ _ _ _ Ha) as (l & Hl & Hsay & _). exists l. split; [exact Hl|]. intros acc. unfold f. apply says_bind0; [exact Hsay|].
    intros [b|] _; eauto.
  - exists (List.concat ls). split; [exists (fin inp), ls; split; [apply lay_of|auto]|]. rewrite try_fold_app. apply says_bind0; [apply says_fold; exact HF|].
    intros x _. rewrite try_fold_one. unfold f, parse_block. rewrite He. cbn [bind]. eauto.
Qed.
