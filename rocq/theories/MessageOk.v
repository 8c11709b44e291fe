(** * MessageOk: messages tell errors apart. *)

From Verif Require Import TextSpec Message MessageSpec AstSpec ParseFacts ParseFacts2 Api.
From Verif Require Import Syntax.

(** ** Printed numbers *)
Lemma digits_value_app a b acc : digits_value acc (a ++ b) = digits_value (digits_value acc a) b.
Proof. revert acc. induction a as [|c a IH]; intros acc; [reflexivity|]. cbn [app digits_value]. apply IH. Qed.
Lemma dec_aux_ok fuel : forall n acc, n < 10 ^ N.of_nat fuel ->
  exists d, dec_digits_aux fuel n acc = d ++ acc /\ (fuel <> 0%nat -> d <> []) /\ Forall digit d /\ forall k, digits_value k d = k * 10 ^ N.of_nat (List.length d) + n.
Proof.
  induction fuel as [|f IH]; intros n acc H.
  - exists []. split; [reflexivity|]. split; [congruence|]. split; [constructor|]. intros k. cbn [digits_value List.length]. change (10 ^ N.of_nat 0) with 1 in *. lia.
  - cbn [dec_digits_aux]. assert (Hd : digit (48 + n mod 10)).
    { pose proof (N.mod_lt n 10 ltac:(discriminate)) as Q. unfold digit. generalize dependent (n mod 10). intros q Q. lia. }
    destruct (N.ltb_spec n 10) as [Hn|Hn].
    + exists [48 + n mod 10]. rewrite N.mod_small in * by exact Hn. split; [reflexivity|]. split; [discriminate|]. split; [constructor; [exact Hd|constructor]|].
      intros k. cbn [digits_value List.length]. change (10 ^ N.of_nat 1) with 10. lia.
    + destruct (IH (n / 10) ((48 + n mod 10) :: acc)) as (d & E & _ & Fd & V).
      { apply N.div_lt_upper_bound; [lia|]. rewrite Nat2N.inj_succ, N.pow_succ_r' in H. exact H. }
      exists (d ++ [48 + n mod 10]). split; [rewrite E, <- app_assoc; reflexivity|]. split; [intros _ K; apply app_eq_nil in K as [_ K]; discriminate|].
      split; [apply Forall_app; split; [exact Fd|constructor; [exact Hd|constructor]]|]. intros k. rewrite digits_value_app, V. cbn [digits_value].
      rewrite app_length, Nat2N.inj_add. cbn [List.length]. rewrite N.pow_add_r. change (10 ^ N.of_nat 1) with 10.
      pose proof (N.div_mod n 10 ltac:(discriminate)) as Q.
      rewrite (N.add_comm 48), N.add_sub. rewrite N.mul_add_distr_l, <- N.add_assoc, <- Q. f_equal. ring.
Qed.
Lemma dec_of_N_ok n : digits (dec_of_N n) /\ digits_value 0 (dec_of_N n) = n.
Proof.
  unfold dec_of_N. destruct (dec_aux_ok (S (N.to_nat (N.log2 n))) n []) as (d & E & H1 & H2 & H3).
  - rewrite Nat2N.inj_succ, N2Nat.id. destruct n as [|p]; [reflexivity|].
    pose proof (N.log2_spec (N.pos p)) as [_ L]; [lia|]. eapply N.lt_le_trans; [exact L|]. apply N.pow_le_mono_l. lia.
  - rewrite E, app_nil_r. split; [split; [apply H1; discriminate|exact H2]|]. rewrite H3. lia.
Qed.
Lemma dec_of_N_inj a b : dec_of_N a = dec_of_N b -> a = b.
Proof. intros E. rewrite <- (proj2 (dec_of_N_ok a)), E. apply dec_of_N_ok. Qed.

(** ** Kinds *)
Fixpoint starts (p x : str) : bool :=
  match p, x with
  | [], _ => true
  | c :: p', d :: x' => (c =? d) && starts p' x'
  | _, [] => false
  end.
(** A table of messages; an entry ending in [None] is a prefix. *)
Definition constant : list sem_err :=
  [NullablePrimaryKey; ArrayPrimaryKey; InvalidIndexesSetting; DuplicateAttributeKey; DuplicatePropertyKey; DuplicateProjectSetting;
   DuplicatePrimaryKey; DuplicateUniqueKey; DuplicateIndexKey; DuplicateTableName; DuplicateColumnName; ConflictRelation; DuplicateEnumName;
   DuplicateEnumValue; DuplicateTableGroupName; DuplicateTableGroupItem; DuplicateAlias; ConflictNullableSetting; ProjectSettingNotFound;
   EmptyIndexesBlock; InvalidEnum; InvalidDataType; InvalidArgumentValue; DefaultNullInNonNullable; TableGroupNotFound; SchemaNotFound;
   TableNotFound; ColumnNotFound; EnumNotFound; EnumValueNotFound; InvalidForeignKey FK_NeitherUniqueNorPrimary;
   InvalidForeignKey FK_NeitherUniqueNorPrimaryComposite; InvalidForeignKey FK_One2One; InvalidForeignKey FK_One2OneComposite;
   InvalidForeignKey FK_Many2Many; InvalidForeignKey FK_Many2ManyComposite; MismatchedCompositeForeignKey].
Definition families : list (str * sem_err) :=
  [(s "Invalid data type arguments: '", InvalidDataTypeArguments [] 0); (s "Invalid default value: the defualt value '", InvalidDefaultValue [] []);
   (s "Data type exceeded: ", DataTypeExceeded []); (s "Mismatched foreign key type: '", MismatchedForeignKeyType [] [] [] [])].
Definition classify (m : str) : option sem_err :=
  match find (fun e => str_eqb (message e) m) constant with
  | Some e => Some e
  | None => option_map snd (find (fun p => starts (fst p) m) families)
  end.
Definition blank (e : sem_err) : sem_err :=
  match e with
  | InvalidDataTypeArguments _ _ => InvalidDataTypeArguments [] 0
  | InvalidDefaultValue _ _ => InvalidDefaultValue [] []
  | DataTypeExceeded _ => DataTypeExceeded []
  | MismatchedForeignKeyType _ _ _ _ => MismatchedForeignKeyType [] [] [] []
  | _ => e
  end.
Lemma classify_message e : classify (message e) = Some (blank e).
Proof. destruct e as [ | | | | | | | | | | | | | | | | | | | | | | | | | | | | | | | | | |[]| ]; vm_compute; reflexivity. Qed.
Lemma blank_kind a b : blank a = blank b -> same_kind a b.
Proof. destruct a, b; cbn [blank same_kind]; intros E; try exact Logic.I; try discriminate; exact E. Qed.
Theorem message_kind a b : message a = message b -> same_kind a b.
Proof. intros E. apply blank_kind. pose proof (classify_message a) as H. rewrite E, classify_message in H. congruence. Qed.

(** ** Parameters *)
Lemma unquoted_cut a b x y : ~ In 39 a -> ~ In 39 b -> a ++ 39 :: x = b ++ 39 :: y -> a = b /\ x = y.
Proof.
  revert b. induction a as [|c a IH]; intros [|d b] Ha Hb E; cbn [app] in E.
  - injection E as E. auto.
  - injection E as E _. exfalso. apply Hb. left. symmetry. exact E.
  - injection E as E _. exfalso. apply Ha. left. exact E.
  - injection E as -> E. destruct (IH b) as [-> ->]; auto; intros K; [apply Ha|apply Hb]; right; exact K.
Qed.
Lemma digits_cut a b x y c : Forall digit a -> Forall digit b -> ~ digit c -> a ++ c :: x = b ++ c :: y -> a = b /\ x = y.
Proof.
  intros Ha Hb Hc. revert b Hb. induction Ha as [|d a Hd Ha IH]; intros [|e b] Hb E; cbn [app] in E.
  - injection E as E. auto.
  - injection E as E _. subst. inversion Hb. contradiction.
  - injection E as E _. subst. contradiction.
  - injection E as -> E. inversion Hb. subst. destruct (IH b) as [-> ->]; auto.
Qed.
Theorem message_params a b : message a = message b -> Forall unquoted (params a) -> Forall unquoted (params b) -> a = b.
Proof.
  intros E Ha Hb. pose proof (message_kind _ _ E) as K.
  destruct a; destruct b; cbn [same_kind] in K; try exact K; try discriminate; cbn [params] in Ha, Hb; rewrite ?Forall_cons_iff in Ha, Hb;
    unfold message in E; apply app_inv_head in E.
  - destruct Ha as [Ha _], Hb as [Hb _]. apply unquoted_cut in E as [-> E]; [|assumption..].
    apply (app_inv_head (s " requires only ")) in E. apply (digits_cut _ _ _ _ 32) in E as [E _]; [|apply dec_of_N_ok..|unfold digit; lia].
    apply dec_of_N_inj in E as ->. reflexivity.
  - destruct Ha as (Ha & Ha' & _), Hb as (Hb & Hb' & _). apply unquoted_cut in E as [-> E]; [|assumption..].
    apply (app_inv_head (s " is not associated with '")) in E. apply unquoted_cut in E as [-> E]; [|assumption..]. reflexivity.
  - destruct Ha as [Ha _], Hb as [Hb _]. apply unquoted_cut in E as [-> E]; [|assumption..]. reflexivity.
  - destruct Ha as (H1 & H2 & H3 & H4 & _), Hb as (H5 & H6 & H7 & H8 & _).
    apply unquoted_cut in E as [-> E]; [|assumption..]. apply (app_inv_head (s ": '")) in E.
    apply unquoted_cut in E as [-> E]; [|assumption..]. apply (app_inv_head (s " (left) and '")) in E.
    apply unquoted_cut in E as [-> E]; [|assumption..]. apply (app_inv_head (s ": '")) in E.
    apply unquoted_cut in E as [-> E]; [|assumption..]. reflexivity.
Qed.
Lemma message_shows e x : In x (params e) -> shown_in x (message e).
Proof.
  unfold shown_in. destruct e; cbn [params In]; intros H; try (destruct H; fail).
  - destruct H as [<-|[]]. exists (s "Invalid data type arguments: "), (s " requires only " ++ dec_of_N n_arg ++ s " argument(s)"). reflexivity.
  - destruct H as [<-|[<-|[]]]; [exists (s "Invalid default value: the defualt value "), (s " is not associated with '" ++ raw_type ++ s "'"); reflexivity|].
    exists (s "Invalid default value: the defualt value '" ++ raw_value ++ s "' is not associated with "), []. cbn. rewrite <- !app_assoc. reflexivity.
  - destruct H as [<-|[]]. exists (s "Data type exceeded: the default value exceeds the maximum value of "), []. reflexivity.
  - destruct H as [<-|[<-|[<-|[<-|[]]]]].
    + exists (s "Mismatched foreign key type: '" ++ l_ident ++ s "': '" ++ l_type ++ s "' (left) and "), (s ": '" ++ r_type ++ s "' (right) are incompatible").
      unfold message. rewrite <- !app_assoc. reflexivity.
    + exists (s "Mismatched foreign key type: "), (s ": '" ++ l_type ++ s "' (left) and '" ++ r_ident ++ s "': '" ++ r_type ++ s "' (right) are incompatible"). reflexivity.
    + exists (s "Mismatched foreign key type: '" ++ l_ident ++ s "': '" ++ l_type ++ s "' (left) and '" ++ r_ident ++ s "': "), (s " (right) are incompatible").
      unfold message. rewrite <- !app_assoc. reflexivity.
    + exists (s "Mismatched foreign key type: '" ++ l_ident ++ s "': "), (s " (left) and '" ++ r_ident ++ s "': '" ++ r_type ++ s "' (right) are incompatible").
      unfold message. rewrite <- !app_assoc. reflexivity.
Qed.

(** ** Errors of [parse_dbml] *)
Lemma first_letter e : exists c m, message e = c :: m /\ 65 <= c <= 90.
Proof. destruct e; unfold message; eexists _, _; (split; [reflexivity|]); cbn; lia. Qed.
Theorem which_error inp inp' e e' : parse_dbml inp = Some (Err e) -> parse_dbml inp' = Some (Err e') -> custom_message e = custom_message e' ->
  match e, e' with
  | ErSem a _, ErSem b _ => same_kind a b
  | ErMsg a _, ErMsg b _ => a = b
  | ErGrammar, ErGrammar => True
  | _, _ => False
  end.
Proof.
  intros H H' E.
  assert (P : forall i x, parse_dbml i = Some (Err x) -> match x with ErRules _ _ => False | ErMsg m _ => exists c r, m = c :: r /\ (c < 65 \/ 90 < c) | _ => True end).
  { clear. intros i x H. unfold parse_dbml in H. destruct (parse_dbml_unchecked i) as [[y|er|]|] eqn:U; try discriminate; cbn [bind] in H.
    - destruct (Analyzer.analyze y) as [an|er|] eqn:A; try discriminate. cbn in H. injection H as <-.
      assert (S : exists e sp, er = ErSem e sp) by (apply (checked_sem_err i y er U); unfold parse_dbml; rewrite U; cbn [bind]; rewrite A; reflexivity). destruct S as (e & sp & ->). exact Logic.I.
    - injection H as ->. destruct (p_error _ _ U) as [->|(m & sp & -> & T)]; [exact Logic.I|].
      destruct T as [[-> _]|[(a & l & _ & _ & _ & _ & _ & ->)|(a & l & w & _ & _ & _ & _ & _ & _ & ->)]]; eexists _, _; (split; [reflexivity|]); cbn; lia. }
  pose proof (P _ _ H) as Q. pose proof (P _ _ H') as Q'. destruct e as [|rs sp|m sp|a sp], e' as [|rs' sp'|m' sp'|b sp']; cbn [custom_message] in E; try discriminate; try contradiction; auto.
  - injection E as E. exact E.
  - injection E as ->. destruct Q as (c & r & E & Hc). destruct (first_letter b) as (c' & r' & E' & Hc'). rewrite E' in E. injection E as -> _. lia.
  - injection E as <-. destruct Q' as (c & r & E & Hc). destruct (first_letter a) as (c' & r' & E' & Hc'). rewrite E' in E. injection E as -> _. lia.
  - injection E as E. apply message_kind. exact E.
Qed.
