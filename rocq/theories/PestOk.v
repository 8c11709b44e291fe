(** * PestOk: the grammar of the model is the one in src/dbml.pest. *)

From Verif Require Import PestText OptimOk.
From Verif Require Export PestMeta.
Local Open Scope N_scope.

(** Right-nested alternatives. *)
Fixpoint ralt (a b : pexp) : pexp := match a with EAlt x y => EAlt x (ralt y b) | _ => EAlt a b end.
Fixpoint reassoc (e : pexp) : pexp :=
  match e with
  | EAlt a b => ralt (reassoc a) (reassoc b)
  | ESeq a b => ESeq (reassoc a) (reassoc b)
  | EOpt a => EOpt (reassoc a)
  | ERep a => ERep (reassoc a)
  | ENot a => ENot (reassoc a)
  | ERule r t b => ERule r t (reassoc b)
  | _ => e
  end.
Section Any.
  Variable sk : str -> pres.
  Definition eqs (e e' : pexp) : Prop := forall a off inp, eval sk e a off inp = eval sk e' a off inp.
  Lemma ralt_ok a b : eqs (ralt a b) (EAlt a b).
  Proof.
    induction a as [z|z|u v| | | |a1 _ a2 _|a1 _ a2 IH|a _|a _|a _|r t a _]; try (intros y off inp; reflexivity).
    intros x off inp. cbn [ralt eval]. specialize (IH x off inp). cbn [eval] in IH. rewrite IH.
    destruct (eval sk a1 x off inp); reflexivity.
  Qed.
  Lemma reassoc_ok e : eqs (reassoc e) e.
  Proof.
    induction e as [z|z|u v| | | |a1 IH1 a2 IH2|a1 IH1 a2 IH2|a IH|a IH|a IH|r t a IH]; intros x off inp; try reflexivity; cbn [reassoc].
    - cbn [eval]. rewrite IH1. apply bind_ext. intros o i. apply IH2.
    - rewrite ralt_ok. cbn [eval]. rewrite IH1, IH2. reflexivity.
    - cbn [eval]. rewrite IH. reflexivity.
    - destruct x; cbn [eval].
      + rewrite IH. destruct (eval sk a NonAtomic off inp); try reflexivity. apply bind_ext. intros o i.
        apply repeat_ext. intros o' i'. apply bind_ext. intros o2 i2. apply IH.
      + apply repeat_ext. apply IH.
      + apply repeat_ext. apply IH.
    - cbn [eval]. rewrite IH. reflexivity.
    - destruct t; cbn [eval]; rewrite IH; reflexivity.
  Qed.
End Any.

Definition dbml_rules : list srule := Eval vm_compute in match read_pest dbml_pest with Some l => l | None => [] end.
Lemma dbml_read : read_pest dbml_pest = Some dbml_rules.
Proof. vm_compute. reflexivity. Qed.

Lemma from_file_ok passes x e : option_map reassoc (compile (passes dbml_rules) 20 x) = Some (reassoc e) -> from_file dbml_pest passes x e.
Proof.
  intros H. destruct (compile (passes dbml_rules) 20 x) as [e'|] eqn:E; [|discriminate]. injection H as H.
  exists dbml_rules, 20%nat, e'. split; [exact dbml_read|]. split; [exact E|].
  intros sk a off inp. rewrite <- (reassoc_ok sk e'), H. apply reassoc_ok.
Qed.

Lemma schema_from_file : from_file dbml_pest desugar (s "schema") schema.
Proof. apply from_file_ok. vm_compute. reflexivity. Qed.
Lemma whitespace_from_file : from_file dbml_pest desugar (s "WHITESPACE") WHITESPACE.
Proof. apply from_file_ok. vm_compute. reflexivity. Qed.
Lemma comment_from_file : from_file dbml_pest desugar (s "COMMENT") COMMENT.
Proof. apply from_file_ok. vm_compute. reflexivity. Qed.
Lemma oschema_from_file : from_file dbml_pest optimize (s "schema") oschema.
Proof. apply from_file_ok. vm_compute. reflexivity. Qed.

(** ** The pass [skip] *)
Lemma skip_until_step x c r : strip_prefix x (c :: r) = None -> skip_until x (c :: r) = (c :: fst (skip_until x r), snd (skip_until x r)).
Proof. intros H. cbn [skip_until]. rewrite H. destruct (skip_until x r); reflexivity. Qed.
Lemma skip_repeat sk x : forall inp n off, (List.length inp < n)%nat ->
  repeat (eval sk (ESeq (ENot (EStr x)) EAny) Atomic) n off inp = ROk (fst (skip_until x inp)) (snd (skip_until x inp)) [].
Proof.
  induction inp as [|c r IH]; intros n off Hn; (destruct n as [|n]; [cbn in Hn; lia|]); cbn [repeat].
  - cbn [eval]. destruct x as [|d x]; cbn [strip_prefix bind_res]; reflexivity.
  - cbn [eval]. destruct (strip_prefix x (c :: r)) as [m|] eqn:E.
    + cbn [bind_res]. unfold skip_until. rewrite E. reflexivity.
    + cbn [bind_res do_skip app]. rewrite IH by (cbn in Hn; lia). rewrite (skip_until_step _ _ _ E). reflexivity.
Qed.
Lemma skip_pass sk x off inp :
  eval sk (ERep (ESeq (ENot (EStr x)) EAny)) Atomic off inp = ROk (fst (skip_until x inp)) (snd (skip_until x inp)) [].
Proof. cbn [eval]. apply skip_repeat. unfold fuel_for. lia. Qed.
