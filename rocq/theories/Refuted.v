(** * Refuted: witnesses that some claims are false of the code. *)

From Verif Require Import Layout Nodes Rules Err Analyzer Api Samples CheckFacts Reindex ParseFacts CheckFacts2 RulesOk3.

Lemma C02_never_panics_refuted_w : ~ (forall inp, exists o, parse_dbml inp = Some o /\ o <> Panic).
Proof.
  intros H. destruct (H (prj "Table t { a char [default: 'x'] }")) as (o & E & Hn).
  vm_compute in E. injection E as <-. apply Hn. reflexivity.
Qed.

Lemma C23_items_exist_refuted_w :
  ~ (forall inp x g it, parse_dbml inp = Some (Ok x) -> In g (table_groups x) -> In it (tg_items g) ->
     exists t, In t (tables x) /\ (alias_of t = Some (id_str (gi_ident_alias it)) \/
                                   table_name t = (in_schema (gi_schema it), id_str (gi_ident_alias it)))).
Proof.
  intros H. set (inp := prj "Table t { a int } TableGroup g { nope.nope }").
  pose (x := get schema0 (accepted inp)).
  destruct (table_groups x) as [|g gs] eqn:Eg; [vm_compute in Eg; discriminate|].
  destruct (tg_items g) as [|it its] eqn:Ei; [vm_compute in Eg; injection Eg as <- <-; vm_compute in Ei; discriminate|].
  destruct (H inp x g it) as (t & Ht & Hd).
  - apply accepted_ok. vm_compute. reflexivity.
  - rewrite Eg. left. reflexivity.
  - rewrite Ei. left. reflexivity.
  - vm_compute in Eg. injection Eg as <- <-. vm_compute in Ei. injection Ei as <- <-. vm_compute in Ht. destruct Ht as [<-|[]].
    destruct Hd as [Hd|Hd]; vm_compute in Hd; discriminate.
Qed.

Lemma C24_keys_distinct_refuted_w :
  ~ (forall inp x sp l, parse_dbml inp = Some (Ok x) -> In (sp, l) (all_settings x) -> distinct_keys l).
Proof.
  intros H. set (inp := prj "Table t { a int } TableGroup g [color: #aaa, color: #bbb] { t }").
  pose (x := get schema0 (accepted inp)).
  destruct (all_settings x) as [|[sp l] r] eqn:E; [vm_compute in E; discriminate|].
  assert (G : distinct_keys l).
  { eapply (H inp x sp l); [apply accepted_ok; vm_compute; reflexivity|]. rewrite E. left. reflexivity. }
  vm_compute in E. injection E as _ <- _. unfold distinct_keys in G. vm_compute in G. inversion G as [|? ? K]. apply K. left. reflexivity.
Qed.

Lemma C29_in_range_accepted_refuted_w :
  ~ (forall inp raw sp, parse_dbml inp = Some (Err (ErSem (DataTypeExceeded raw) sp)) ->
     exists x c tn st z lo hi, parse_dbml_unchecked inp = Some (Ok x) /\ In c (all_cols x) /\ col_means c tn /\
       has_default c st (VInteger z) /\ int_range tn = Some (lo, hi) /\ ~ (lo <= z <= hi)%Z).
Proof.
  intros H. set (inp := prj "Table t { a bigint [default: 9223372036854775807] }").
  destruct (H inp (s "bigint") (43, 62)) as (x & c & tn & st & z & lo & hi & P & Hc & (raw & Hr & Hm) & Hd & Hi & Hz); [vm_compute; reflexivity|].
  vm_compute in P. injection P as <-. vm_compute in Hc. destruct Hc as [<-|[]]. vm_compute in Hr. injection Hr as <-.
  destruct Hd as [Hs Hv]. vm_compute in Hs. injection Hs as <-. vm_compute in Hv. injection Hv as <-.
  assert (Ht : type_means (s "bigint") CT_BigInt).
  { apply tm_builtin. exists "bigint"%string. split; [cbn; tauto|reflexivity]. }
  rewrite (RulesOk.type_means_fun _ _ _ Hm Ht) in Hi. injection Hi as <- <-. lia.
Qed.

Lemma C34_many_to_many_refuted_w :
  ~ (forall inp x r lt rt l rr lc rc, parse_dbml inp = Some (Ok x) -> In r (all_refs x) -> ir_rel r = Many2Many ->
     target (tables x) (ir_lhs r) lt -> target (tables x) (ir_rhs r) rt ->
     ri_compositions (ir_lhs r) = [l] -> ri_compositions (ir_rhs r) = [rr] -> names_col lt l lc -> names_col rt rr rc ->
     key_col lc /\ key_col rc).
Proof.
  intros H. set (inp := prj "Table t { a int [pk] } Table u { b int } Ref: t.a <> u.b").
  pose (x := get schema0 (accepted inp)).
  assert (A : parse_dbml inp = Some (Ok x)) by (apply accepted_ok; vm_compute; reflexivity).
  destruct (all_refs x) as [|r rs] eqn:Er; [vm_compute in Er; discriminate|].
  assert (Hr : In r (all_refs x)) by (rewrite Er; left; reflexivity).
  destruct (a_ref_types _ _ A r Hr) as (lt & rt & lcs & rcs & H1 & H2 & H3 & H4 & _).
  vm_compute in Er. injection Er as <- <-. cbn [ir_lhs ir_rhs ri_compositions] in H3, H4.
  inversion H3 as [|? lc ? ? Hlc F3]; subst. inversion F3; subst. inversion H4 as [|? rc ? ? Hrc F4]; subst. inversion F4; subst.
  destruct (H _ _ _ _ _ _ _ _ _ A Hr eq_refl H1 H2 eq_refl eq_refl Hlc Hrc) as [_ Hk].
  destruct Hrc as [Hin Hn]. destruct H2 as [Ht _]. vm_compute in Ht. destruct Ht as [<-|[<-|[]]].
  - vm_compute in Hin. destruct Hin as [<-|[]]. vm_compute in Hn. discriminate.
  - vm_compute in Hin. destruct Hin as [<-|[]]. destruct Hk as [(st & E & _)|(st & E & _)]; vm_compute in E; discriminate.
Qed.

Lemma C41_transparent_refuted_w :
  ~ (forall inp x y, parse_dbml_unchecked inp = Some (Ok x) -> respelled (tables x) (sb_blocks x) (sb_blocks y) ->
     (exists an, analyze x = Ok an) -> exists an, analyze y = Ok an).
Proof.
  intros H. pose (x := get schema0 (accepted (prj "Table t as T { a int [pk] } Table u { b int } Ref: u.b > t.a"))).
  destruct (H (prj "Table t as T { a int [pk] } Table u { b int } Ref: u.b > t.a") x (respell x)) as (an & E).
  - apply parsed_ok. vm_compute. reflexivity.
  - vm_compute. do 3 constructor. apply rp_ref; [|constructor]. split; [reflexivity|]. split; [reflexivity|]. split.
    + split; [|reflexivity]. eexists. split; right; (split; [|split; [right; left; reflexivity|reflexivity]]); vm_compute; intuition discriminate.
    + split; [|reflexivity]. eexists. split; [right; split; [|split; [left; reflexivity|reflexivity]]|left; split; [left; reflexivity|reflexivity]].
      vm_compute. intuition discriminate.
  - eexists. vm_compute. reflexivity.
  - vm_compute in E. discriminate.
Qed.

Lemma C44_index_order_refuted_w :
  ~ (forall x y, reindexed_blocks (sb_blocks x) (sb_blocks y) -> (exists an, analyze x = Ok an) -> exists an, analyze y = Ok an).
Proof.
  intros H. pose (x := get schema0 (accepted (prj "Table t { a int Indexes { a `f` a [type: hash] } }"))).
  destruct (H x (swap_defs x)) as (an & E).
  - vm_compute. constructor. apply rx_table; [|constructor]. eexists. eexists. split; [reflexivity|]. split; [reflexivity|].
    split; [|auto]. apply (Permutation_rev [_; _; _]).
  - eexists. vm_compute. reflexivity.
  - vm_compute in E. discriminate.
Qed.

Lemma C09_strings_verbatim_refuted_w :
  ~ (forall inp x l v, parse_dbml_unchecked inp = Some (Ok x) -> In l (all_literals x) -> lit_value l = VString v ->
     exists q, In q [sq; tq; dq] /\ lit_raw l = q ++ v ++ q).
Proof.
  intros H. specialize (H (s "Note { '  x' }") (get schema0 (parsed (s "Note { '  x' }"))) (mkLiteral (7, 12) (s "'  x'") (VString (s "x"))) (s "x")).
  destruct H as (q & Hq & E); [apply parsed_ok; vm_compute; reflexivity|vm_compute; auto|reflexivity|].
  destruct Hq as [<-|[<-|[<-|[]]]]; discriminate E.
Qed.
