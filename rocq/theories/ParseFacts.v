(** * ParseFacts: lemmas behind the parser properties. *)

From Verif Require Import Layout Nodes NodesOk SpansOk RulesOk RulesOk3 ParserOk ParserOk3 PegFacts Rules CheckFacts.
From Verif Require Import Err Parser Analyzer Api.

Lemma unchecked_cases inp :
  parse_dbml_unchecked inp = Some (Err ErGrammar) \/
  (exists m sp, parse_dbml_unchecked inp = Some (Err (ErMsg m sp)) /\ parse_error_true inp m sp) \/
  (exists x, parse_dbml_unchecked inp = Some (Ok x) /\ schema_ok inp x).
Proof.
  destruct (parse_unchecked_ok inp) as (o & E & [->|H]); [auto|]. destruct o as [x|[| |m sp|e sp]|]; cbn [good] in H; try contradiction.
  - right. right. eauto.
  - right. left. eauto.
Qed.
Lemma unchecked_ok inp x : parse_dbml_unchecked inp = Some (Ok x) -> schema_ok inp x.
Proof.
  intros E. destruct (unchecked_cases inp) as [H|[(m & sp & H & _)|(y & H & K)]]; rewrite E in H; try discriminate.
  injection H as ->. exact K.
Qed.
Lemma unchecked_total inp : exists o, parse_dbml_unchecked inp = Some o /\ o <> Panic.
Proof.
  destruct (unchecked_cases inp) as [H|[(m & sp & H & _)|(y & H & K)]]; rewrite H; eexists; (split; [reflexivity|discriminate]).
Qed.

Lemma checked_same inp x : parse_dbml inp = Some (Ok x) -> parse_dbml_unchecked inp = Some (Ok x).
Proof.
  unfold parse_dbml. destruct (parse_dbml_unchecked inp) as [[y|e|]|]; cbn [bind]; try discriminate.
  destruct (analyze y); cbn [omap]; try discriminate. congruence.
Qed.
Lemma checked_ok inp x : parse_dbml inp = Some (Ok x) -> schema_ok inp x.
Proof. intros H. apply unchecked_ok, checked_same. exact H. Qed.
Lemma checked_err inp e : parse_dbml_unchecked inp = Some (Err e) -> parse_dbml inp = Some (Err e).
Proof. unfold parse_dbml. intros ->. reflexivity. Qed.
Lemma checked_wf inp x : parse_dbml inp = Some (Ok x) <-> parse_dbml_unchecked inp = Some (Ok x) /\ wf x.
Proof.
  split.
  - intros H. pose proof (checked_same _ _ H) as E. split; [exact E|]. unfold parse_dbml in H. rewrite E in H. cbn [bind] in H.
    apply analyze_accepts. destruct (analyze x) as [an| |]; cbn [omap] in H; try discriminate. eauto.
  - intros [E W]. unfold parse_dbml. rewrite E. cbn [bind]. apply analyze_accepts in W as (an & ->). reflexivity.
Qed.
Lemma checked_sem inp x : parse_dbml_unchecked inp = Some (Ok x) ->
  match parse_dbml inp with
  | Some (Ok y) => y = x /\ wf x
  | Some (Err (ErSem e sp)) => violates x e sp /\ valid_span inp sp
  | Some Panic => unsized_default x
  | _ => False
  end.
Proof.
  intros E. pose proof (analyze_parsed _ _ (unchecked_ok _ _ E)) as H. unfold parse_dbml. rewrite E. cbn [bind].
  destruct (analyze x) as [an|[| | |e sp]|]; cbn [omap]; try exact H. split; [reflexivity|apply H].
Qed.

(** ** Literals *)
Lemma digits_not_word d : digits d -> ~ spaced_word d.
Proof.
  intros [Hn HF] (c & w & -> & Hl & _). inversion HF as [|? ? Hd _]. subst. unfold letter, digit in *. lia.
Qed.
Lemma not_digit c : ((c <? 48) || (57 <? c)) = true -> ~ digit c.
Proof. unfold digit. intros H K. apply orb_true_iff in H as [H|H]; apply N.ltb_lt in H; lia. Qed.
Lemma spells_digits raw v : digits raw -> spells raw v ->
  v = VInteger (Z.of_N (digits_value 0 raw)) /\ digits_value 0 raw <= 9223372036854775807.
Proof.
  intros [Hn HF] H.
  assert (Hq : forall q c v, q = c :: List.tl q -> ~ digit c -> ~ quoted q raw v).
  { intros q c w Eq Hc (g & E & _). rewrite E, Eq in HF. inversion HF. contradiction. }
  destruct H as [raw v H|raw v H|raw v H|raw v H|d Hd Hle|d1 d2 f H1 H2 Hf| | | |h H1 H2|raw H].
  - exfalso. eapply (Hq sq 39); [reflexivity|unfold digit; lia|exact H].
  - exfalso. eapply (Hq tq 39); [reflexivity|unfold digit; lia|exact H].
  - exfalso. eapply (Hq dq 34); [reflexivity|unfold digit; lia|exact H].
  - exfalso. eapply (Hq bq 96); [reflexivity|unfold digit; lia|exact H].
  - auto.
  - exfalso. apply Forall_app in HF as [_ HF]. apply Forall_app in HF as [HF _]. inversion HF as [|? ? Hd _].
    revert Hd; apply not_digit; reflexivity.
  - exfalso. inversion HF as [|? ? Hd _]. revert Hd; apply not_digit; reflexivity.
  - exfalso. inversion HF as [|? ? Hd _]. revert Hd; apply not_digit; reflexivity.
  - exfalso. inversion HF as [|? ? Hd _]. revert Hd; apply not_digit; reflexivity.
  - exfalso. inversion HF as [|? ? Hd _]. revert Hd; apply not_digit; reflexivity.
  - exfalso. eapply digits_not_word; [split; [exact Hn|exact HF]|exact H].
Qed.
Lemma spells_integer raw z : spells raw (VInteger z) -> digits raw /\ z = Z.of_N (digits_value 0 raw) /\ digits_value 0 raw <= 9223372036854775807.
Proof. intros H. inversion H; subst. auto. Qed.
Lemma spells_decimal raw f : spells raw (VDecimal f) ->
  exists d1 d2, raw = d1 ++ s "." ++ d2 /\ digits d1 /\ Forall digit d2 /\ nearest64 (decimal_value d1 d2) f.
Proof. intros H. inversion H; subst; eauto 8. Qed.
Lemma digits_split d1 d2 e1 e2 : Forall digit d1 -> Forall digit e1 -> d1 ++ s "." ++ d2 = e1 ++ s "." ++ e2 -> d1 = e1 /\ d2 = e2.
Proof.
  revert e1. induction d1 as [|c d1 IH]; intros [|c' e1] H1 H2 E.
  - injection E as ->. auto.
  - injection E as <- _. exfalso. apply Forall_cons_iff in H2 as [H2 _]. revert H2. apply not_digit. reflexivity.
  - injection E as -> _. exfalso. apply Forall_cons_iff in H1 as [H1 _]. revert H1. apply not_digit. reflexivity.
  - injection E as -> E. apply Forall_cons_iff in H1 as [_ H1]. apply Forall_cons_iff in H2 as [_ H2]. destruct (IH e1 H1 H2 E) as [-> ->]. auto.
Qed.
Lemma spells_dec d1 d2 v : digits d1 -> Forall digit d2 -> spells (d1 ++ s "." ++ d2) v ->
  exists f, v = VDecimal f /\ nearest64 (decimal_value d1 d2) f.
Proof.
  intros [Hn HF] H2 H. remember (d1 ++ s "." ++ d2) as raw eqn:E.
  assert (Hh : exists c t, raw = c :: t /\ digit c).
  { destruct d1 as [|c d1]; [congruence|]. exists c. eexists. split; [exact E|]. inversion HF; assumption. }
  destruct Hh as (c & t & E' & Hc).
  assert (Hq : forall q c v, q = c :: List.tl q -> ~ digit c -> ~ quoted q raw v).
  { intros q c0 w Eq Hc0 (g & E0 & _). rewrite E', Eq in E0. injection E0 as <- _. contradiction. }
  destruct H as [raw v H|raw v H|raw v H|raw v H|d Hd Hle|e1 e2 f H1 H3 Hf| | | |h H1 H3|raw H].
  - exfalso. eapply (Hq sq 39); [reflexivity|unfold digit; lia|exact H].
  - exfalso. eapply (Hq tq 39); [reflexivity|unfold digit; lia|exact H].
  - exfalso. eapply (Hq dq 34); [reflexivity|unfold digit; lia|exact H].
  - exfalso. eapply (Hq bq 96); [reflexivity|unfold digit; lia|exact H].
  - exfalso. subst d. destruct Hd as [_ Hd]. apply Forall_app in Hd as [_ Hd]. apply Forall_app in Hd as [Hd _]. inversion Hd as [|? ? K _].
    revert K; apply not_digit; reflexivity.
  - destruct (digits_split e1 e2 d1 d2 (proj2 H1) HF E) as [-> ->]. eauto.
  - exfalso. injection E' as <- _. revert Hc; apply not_digit; reflexivity.
  - exfalso. injection E' as <- _. revert Hc; apply not_digit; reflexivity.
  - exfalso. injection E' as <- _. revert Hc; apply not_digit; reflexivity.
  - exfalso. injection E' as <- _. revert Hc; apply not_digit; reflexivity.
  - exfalso. destruct H as (c0 & w & -> & Hl & _). injection E' as <- _. unfold letter, digit in *. lia.
Qed.
Lemma spells_arg_decimal raw f : spells_arg raw (VDecimal f) ->
  exists d1 d2, raw = d1 ++ s "." ++ d2 /\ digits d1 /\ Forall digit d2 /\ nearest64 (decimal_value d1 d2) f.
Proof. intros H. inversion H; subst. apply spells_decimal. assumption. Qed.
Lemma spells_arg_integer raw z : spells_arg raw (VInteger z) -> digits raw /\ z = Z.of_N (digits_value 0 raw) /\ digits_value 0 raw <= 9223372036854775807.
Proof. intros H. inversion H; subst. apply spells_integer. assumption. Qed.

Lemma gap_solid g r : gap g -> no_layout_start (g ++ r) -> g = [].
Proof.
  intros [|c g' Hc _|body c g' _ _ _|body g' _ _] (H1 & H2 & H3); [reflexivity| | |]; exfalso.
  - apply (H1 c (g' ++ r)); [reflexivity|exact Hc].
  - apply (H2 ((body ++ c :: g') ++ r)). rewrite <- app_assoc. reflexivity.
  - apply (H3 body (g' ++ r)). rewrite <- !app_assoc. reflexivity.
Qed.
Lemma quoted_verb q raw v body : quoted q raw v -> raw = q ++ body ++ q -> no_layout_start body -> v = body.
Proof.
  intros (g & E & Hg & _ & _) E' Hb. rewrite E in E'. apply app_inv_head in E'. rewrite app_assoc in E'. apply app_inv_tail in E'.
  subst body. rewrite (gap_solid _ _ Hg Hb). reflexivity.
Qed.
Lemma spells_string raw v : spells raw (VString v) -> exists q, In q [sq; tq; dq] /\ quoted q raw v.
Proof. intros H. inversion H; subst; [exists sq|exists tq|exists dq]; cbn; auto. Qed.
Lemma spells_expr raw v : spells raw (VExpr v) -> quoted bq raw v.
Proof. intros H. inversion H; subst; assumption. Qed.

(** ** Accessors *)
Lemma accessor {A} (f : block -> option A) (mk : A -> block) (is : block -> bool) l :
  (forall b, match f b with Some a => is b = true /\ b = mk a | None => is b = false end) ->
  map mk (filter_map f l) = filter is l.
Proof.
  intros H. induction l as [|b l IH]; [reflexivity|]. unfold filter_map in *. cbn [flat_map filter]. specialize (H b).
  destruct (f b) as [a|].
  - destruct H as [-> ->]. cbn [app map]. rewrite IH. reflexivity.
  - rewrite H. exact IH.
Qed.
Lemma block_counts (l : list block) :
  List.length l = (List.length (filter is_project l) + List.length (filter is_table l) + List.length (filter is_group l)
    + List.length (filter is_ref l) + List.length (filter is_enum l) + List.length (filter is_note_b l))%nat.
Proof. induction l as [|b l IH]; [reflexivity|]. destruct b; cbn [filter is_project is_table is_group is_ref is_enum is_note_b List.length]; lia. Qed.
Lemma accessors_partition x :
  map BProject (projects x) = filter is_project (sb_blocks x) /\
  map BTable (tables x) = filter is_table (sb_blocks x) /\
  map BTableGroup (table_groups x) = filter is_group (sb_blocks x) /\
  map BRef (refs x) = filter is_ref (sb_blocks x) /\
  map BEnum (enums x) = filter is_enum (sb_blocks x) /\
  map BNote (notes x) = filter is_note_b (sb_blocks x) /\
  List.length (sb_blocks x) = (List.length (projects x) + List.length (tables x) + List.length (table_groups x)
    + List.length (refs x) + List.length (enums x) + List.length (notes x))%nat.
Proof.
  assert (E1 : map BProject (projects x) = filter is_project (sb_blocks x)) by (apply accessor; intros []; cbn; auto).
  assert (E2 : map BTable (tables x) = filter is_table (sb_blocks x)) by (apply accessor; intros []; cbn; auto).
  assert (E3 : map BTableGroup (table_groups x) = filter is_group (sb_blocks x)) by (apply accessor; intros []; cbn; auto).
  assert (E4 : map BRef (refs x) = filter is_ref (sb_blocks x)) by (apply accessor; intros []; cbn; auto).
  assert (E5 : map BEnum (enums x) = filter is_enum (sb_blocks x)) by (apply accessor; intros []; cbn; auto).
  assert (E6 : map BNote (notes x) = filter is_note_b (sb_blocks x)).
  { unfold notes. clear. induction (sb_blocks x) as [|b l IH]; [reflexivity|]. destruct b; cbn; first [exact IH|f_equal; exact IH]. }
  repeat (split; [assumption|]). rewrite block_counts, <- E1, <- E2, <- E3, <- E4, <- E5, <- E6, !map_length. reflexivity.
Qed.

(** ** Keyword tables *)
Lemma action_round a : ref_action_from_str (ref_action_to_string a) = Some a.
Proof. destruct a; reflexivity. Qed.
Ltac word_table := repeat match goal with |- context [str_eqb ?a ?b] => destruct (str_eqb_spec a b) as [->|]; [split; [congruence|]|] end.
Lemma action_words w a : ref_action_from_str w = Some a <-> w = action_word a.
Proof.
  unfold ref_action_from_str. split.
  - repeat match goal with |- context [str_eqb ?a ?b] => destruct (str_eqb_spec a b) as [->|] end; intros [= <-]; reflexivity.
  - intros ->. destruct a; reflexivity.
Qed.
Lemma index_words w t : indexes_type_from_str w = Some t <-> w = index_type_word t.
Proof.
  unfold indexes_type_from_str. split.
  - repeat match goal with |- context [str_eqb ?a ?b] => destruct (str_eqb_spec a b) as [->|] end; intros [= <-]; reflexivity.
  - intros ->. destruct t; reflexivity.
Qed.
Lemma relation_words w r : relation_from_str w = Some r <-> symbol r = Some w.
Proof.
  unfold relation_from_str. split.
  - repeat match goal with |- context [str_eqb ?a ?b] => destruct (str_eqb_spec a b) as [->|] end; intros [= <-]; reflexivity.
  - destruct r; intros [= <-]; reflexivity.
Qed.
Lemma value_words w v : value_from_str w = Some v <->
  (w = s "true" /\ v = VBool true) \/ (w = s "false" /\ v = VBool false) \/ (w = s "null" /\ v = VNull).
Proof.
  unfold value_from_str. split.
  - repeat match goal with |- context [str_eqb ?a ?b] => destruct (str_eqb_spec a b) as [->|] end; intros [= <-]; auto.
  - intros [[-> ->]|[[-> ->]|[-> ->]]]; reflexivity.
Qed.
Lemma value_word_round v : (exists b, v = VBool b) \/ v = VNull -> value_from_str (value_to_string v) = Some v.
Proof. intros [[[] ->]| ->]; reflexivity. Qed.
Lemma database_words w d : database_type_from_str w = d <->
  (w = s "PostgreSQL" /\ d = PostgreSQL) \/ (w <> s "PostgreSQL" /\ d = DbUnknown w).
Proof.
  unfold database_type_from_str. destruct (str_eqb_spec w (s "PostgreSQL")) as [->|Hn]; split; intros H.
  - left. auto.
  - destruct H as [[_ ->]|[H _]]; [reflexivity|contradiction].
  - right. auto.
  - destruct H as [[H _]|[_ ->]]; [contradiction|reflexivity].
Qed.
