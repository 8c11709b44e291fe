(** * CharsAnswer: the whole answer for a text with characters without a meaning replaced. *)

From Verif Require Import Api Answer ParseFacts CharsOk CharsMain CharsLoc CharsFaults CharsAn CharsTrack FaultsMain Shown Analyzer.
From Verif Require Import Syntax CharsAst.

Lemma sp_outcome_mo f {A} (g : A -> A) o : sp_outcome f g o = mo f g o.
Proof. destruct o as [a|[]|]; reflexivity. Qed.

Section Answers.
  Variable f : char -> char.
  Hypothesis Hf : respells f.
  Hypothesis Hu : forall c, ulen (f c) = ulen c.

  Lemma misfit_m t m sp : parse_dbml_unchecked t = Some (Err (ErMsg m sp)) -> parse_dbml_unchecked (map f t) = Some (Err (ErMsg (respelled_message f m) sp)).
  Proof. intros H. apply first_fault in H as (l & H). apply first_fault. exists (map (sf f) l). apply (faults_m f t _ Hf Hu H). Qed.
  Lemma unchecked_m t : answer_alike f (parse_dbml_unchecked t) (parse_dbml_unchecked (map f t)).
  Proof.
    pose proof (other_outcome t (map f t) (map_other f Hf t)) as K. destruct (unchecked_cases t) as [H|[(m & sp & H & _)|(x & H & _)]].
    - rewrite H in *. destruct (parse_dbml_unchecked (map f t)) as [[|[]|]|]; cbn; tauto.
    - rewrite H, (misfit_m _ _ _ H). cbn. split; [reflexivity|]. apply respelled_cases.
    - rewrite H, (same_ast f t x Hf Hu H). reflexivity.
  Qed.
  Hypothesis Hi : forall c d, f c = f d -> c = d.
  Lemma analyze_m x : analyze (sp_schema f x) = sp_outcome f (sp_analyzed f) (analyze x).
  Proof. rewrite sp_outcome_mo. apply an_all; assumption. Qed.
  Lemma checked_m t : answer_alike f (parse_dbml t) (parse_dbml (map f t)).
  Proof.
    pose proof (unchecked_m t) as K. destruct (unchecked_cases t) as [H|[(m & sp & H & _)|(x & H & _)]].
    - rewrite (checked_err _ _ H), H in *. destruct (parse_dbml_unchecked (map f t)) as [[|e|]|] eqn:E; try contradiction K. rewrite (checked_err _ _ E). exact K.
    - rewrite (checked_err _ _ H), H in *. destruct (parse_dbml_unchecked (map f t)) as [[|e|]|] eqn:E; try contradiction K. rewrite (checked_err _ _ E). exact K.
    - pose proof (checked_sem t x H) as C. unfold parse_dbml in *. rewrite H in *. rewrite (same_ast f t x Hf Hu H). cbn [bind] in *. rewrite analyze_m.
      destruct (analyze x) as [an|[| | |e sp]|]; cbn in *; try contradiction; auto.
  Qed.
  Lemma same_checked t x : parse_dbml t = Some (Ok x) -> parse_dbml (map f t) = Some (Ok (sp_schema f x)).
  Proof. intros H. pose proof (checked_m t) as K. rewrite H in K. destruct (parse_dbml (map f t)) as [[y|e|]|]; cbn in K; try contradiction. rewrite K. reflexivity. Qed.

  (** How an error is shown. *)
  Lemma alike_place e e' t sh : error_alike f e e' -> show_error t e = Some sh ->
    exists sh', show_error (map f t) e' = Some sh' /\ sh_from sh' = sh_from sh /\ sh_to sh' = sh_to sh /\ sh_start sh' = sh_start sh /\ sh_end sh' = sh_end sh.
  Proof.
    destruct e as [|rs sp|m sp|k sp], e' as [|rs' sp'|m' sp'|k' sp']; cbn [error_alike]; try contradiction; cbn [show_error].
    - intros _. rewrite (same_report f Hf Hu). destruct (grammar_error t) as [rep|]; [|discriminate]. intros [= <-]. eexists. split; [reflexivity|]. unfold from_pos. cbn [sh_from sh_to sh_start sh_end].
      rewrite (map_line f Hf Hu). auto.
    - intros [-> _] [= <-]. eexists. split; [reflexivity|]. unfold from_span. cbn [sh_from sh_to sh_start sh_end]. rewrite (map_line f Hf Hu), (map_end_line f Hf Hu). auto.
    - intros [-> _] [= <-]. eexists. split; [reflexivity|]. unfold from_span. cbn [sh_from sh_to sh_start sh_end]. rewrite (map_line f Hf Hu), (map_end_line f Hf Hu). auto.
  Qed.
  Lemma shown_m t e sh : parse_dbml t = Some (Err e) -> show_error t e = Some sh ->
    exists e' sh', parse_dbml (map f t) = Some (Err e') /\ show_error (map f t) e' = Some sh' /\
      sh_from sh' = sh_from sh /\ sh_to sh' = sh_to sh /\ sh_start sh' = sh_start sh /\ sh_end sh' = sh_end sh.
  Proof.
    intros H Hs. pose proof (checked_m t) as K. rewrite H in K. destruct (parse_dbml (map f t)) as [[y|e'|]|] eqn:E; cbn [answer_alike] in K; try contradiction.
    destruct (alike_place _ _ _ _ K Hs) as (sh' & A). exists e', sh'. auto.
  Qed.

  (** What [get_table_refs] finds. *)
  Lemma table_refs_m tid a : get_table_refs (sp_table_ident f tid) (sp_analyzed f a) = sp_table_ref f (get_table_refs tid a).
  Proof.
    unfold get_table_refs. cbn [sp_analyzed indexed_refs an_indexer sp_table_ident ti_schema ti_name].
    change (mkTableRef [] [] []) with (sp_table_ref f (mkTableRef [] [] [])) at 1. generalize (mkTableRef [] [] []).
    induction (indexed_refs a) as [|r l IH]; intros acc; [reflexivity|]. cbn [map fold_left]. rewrite <- IH. f_equal. cbn [sp_iref ir_lhs ir_rhs].
    rewrite !(an_alias f Hi). cbn [sp_end ri_schema ri_table]. rewrite !(same_m f Hi).
    set (b1 := same_table (ti_schema tid) (ti_name tid) (ri_schema (resolve_ref_alias (an_indexer a) (ir_lhs r))) _).
    set (b2 := same_table (ti_schema tid) (ti_name tid) (ri_schema (resolve_ref_alias (an_indexer a) (ir_rhs r))) _).
    destruct b1, b2; cbn [andb]; unfold sp_table_ref; cbn; rewrite ?map_app; reflexivity.
  Qed.
End Answers.
