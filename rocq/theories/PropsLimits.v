(** * PropsLimits: what does not fit is an error (C10, C13). *)

From Verif Require Import Samples TextSamples SynPrint SynMain LexRules Api Parser.
From Verif Require Import Limits.
From Verif Require Import Syntax.

Lemma fits_values a v : fits a -> In v (values_of a) -> fits_value v.
Proof.
  intros F H. apply in_flat_map in H as (b & Hb & H). unfold fits in F. rewrite Forall_forall in F. specialize (F b Hb).
  assert (Vi : forall l, Forall fits_attr l -> In v (values_in l) -> fits_value v).
  { intros l Fl Hv. apply in_flat_map in Hv as (x & Hx & Hv). rewrite Forall_forall in Fl. specialize (Fl x Hx). destruct (snd x) as [w|] eqn:E; [|destruct Hv].
    destruct Hv as [<-|[]]. exact (Fl _ E). }
  assert (Ov : forall o, fits_attrs o -> In v (opt_values o) -> fits_value v).
  { intros [l|] Fo Hv; [|destruct Hv]. exact (Vi l (Fo l eq_refl) Hv). }
  destruct b as [p|t|g|n|f|e]; cbn [fits_block block_values] in *.
  - rewrite Forall_forall in F. apply in_map_iff in H as (x & <- & Hx). exact (F x Hx).
  - destruct F as (F1 & F2 & F3). apply in_app_or in H as [H|H]; [exact (Ov _ F1 H)|]. apply in_app_or in H as [H|H].
    + apply in_flat_map in H as (c & Hc & H). rewrite Forall_forall in F2. destruct (F2 c Hc) as [[Fa _] Fs]. apply in_app_or in H as [H|H].
      * rewrite Forall_forall in Fa. exact (Fa v H).
      * destruct (c_settings c) as [st|]; [|destruct H]. exact (Vi _ (Fs st eq_refl) H).
    + apply in_flat_map in H as (x & Hx & H). apply in_concat in Hx as (l & Hl & Hx). rewrite Forall_forall in F3. specialize (F3 l Hl). rewrite Forall_forall in F3.
      destruct (F3 x Hx) as [Fx _]. exact (Ov _ Fx H).
  - exact (Ov _ F H).
  - destruct H.
  - destruct F as [F _]. exact (Ov _ F H).
  - apply in_flat_map in H as (x & Hx & H). rewrite Forall_forall in F. exact (Ov _ (F x Hx) H).
Qed.
Lemma fits_sizes a n : fits a -> In n (sizes_of a) -> n <= 4294967295.
Proof.
  intros F H. apply in_flat_map in H as (b & Hb & H). unfold fits in F. rewrite Forall_forall in F. specialize (F b Hb).
  destruct b as [p|t|g|v|f|e]; cbn [fits_block block_sizes] in *; try destruct H. destruct F as (_ & F & _).
  apply in_flat_map in H as (c & Hc & H). rewrite Forall_forall in F. destruct (F c Hc) as [[_ Fd] _].
  apply in_flat_map in H as ([m|] & Hm & H); [|destruct H]. destruct H as [<-|[]]. exact (Fd _ Hm).
Qed.
Lemma fits_index_type a v : fits a -> In (s "type", Some v) (index_settings_of a) -> exists t, index_type_word t = value_to_string v.
Proof.
  intros F H. apply in_flat_map in H as (b & Hb & H). unfold fits in F. rewrite Forall_forall in F. specialize (F b Hb).
  destruct b as [p|t|g|w|f|e]; try destruct H. cbn [fits_block] in F. destruct F as (_ & _ & F). apply in_flat_map in H as (x & Hx & H).
  apply in_concat in Hx as (l & Hl & Hx). rewrite Forall_forall in F. specialize (F l Hl). rewrite Forall_forall in F. destruct (F x Hx) as [_ Fx].
  destruct (x_settings x) as [st|] eqn:E; [|destruct H]. exact (Fx _ _ eq_refl H).
Qed.
Lemma fits_action a k w : fits a -> In k ["update"; "delete"]%string -> In (s k, Some (VEnum w)) (ref_settings_of a) -> exists x, action_word x = w.
Proof.
  intros F Hk H. apply in_flat_map in H as (b & Hb & H). unfold fits in F. rewrite Forall_forall in F. specialize (F b Hb).
  destruct b as [p|t|g|v|f|e]; try destruct H. cbn [fits_block] in F. destruct F as [_ F].
  destruct (f_settings f) as [st|] eqn:E; [|destruct H]. exact (F _ _ _ eq_refl Hk H).
Qed.
Lemma misfit t a : dbml_text t a -> ~ fits a -> fails (parse_dbml_unchecked t) /\ fails (parse_dbml t).
Proof.
  intros H F. destruct (too_big_only _ _ H F) as (m & sp & E). split; exists m, sp; [exact E|]. unfold parse_dbml. rewrite E. reflexivity.
Qed.

(** A number above the limit, anywhere in a text: both functions fail. *)
Theorem C10_too_large : forall t a, dbml_text t a ->
  ((exists z, In (VInteger z) (values_of a) /\ (z > 9223372036854775807)%Z) \/ (exists n, In n (sizes_of a) /\ n > 4294967295)) ->
  fails (parse_dbml_unchecked t) /\ fails (parse_dbml t).
Proof.
  intros t a H X. apply (misfit _ _ H). intros F. destruct X as [(z & Hz & Z)|(n & Hn & Z)].
  - pose proof (fits_values _ _ F Hz) as V. cbn in V. lia.
  - pose proof (fits_sizes _ _ F Hn). lia.
Qed.
Print Assumptions C10_too_large.
(** A schema that writes both kinds of numbers, and one that writes both kinds of words;
    both can be written. *)
Definition big : a_schema :=
  [AProject (mkAProject (s "p") [(s "k", VInteger 9223372036854775808)] []);
   ATable (mkATable None (s "t") None None [mkCol (s "a") (mkType (CT_Raw (s "int")) [] [Some 4294967296]) None] [] [])].
Definition odd : a_schema :=
  [ATable (mkATable None (s "t") None None [] [] [[mkIndex [IName (s "a")] (Some [(s "type", Some (VEnum (s "btree2")))])]]);
   ARef (mkARef None Many2One (mkEnd None (s "t") [s "a"]) (mkEnd None (s "u") [s "b"]) (Some [(s "delete", Some (VEnum (s "cascading")))]))].
Lemma big_text : exists t, dbml_text t big.
Proof.
  apply has_text. constructor; [|constructor; [|constructor]].
  - split; [nm|]. split; [constructor|]. constructor; [|constructor]. cbn [fst snd]. split; [wd|]. split; [left; cbn; lia|]. intros [_ [w [= ]]].
  - split; [split; [intros sc [= ]|nm]|]. split; [intros w [= ]|]. split; [intros l [= ]|]. split; [|split; constructor]. constructor; [|constructor].
    split; [nm|]. split; [|intros st [= ]]. exists [], (s "int"). split; [reflexivity|]. split; [left; reflexivity|]. split; [left; wd|constructor].
Qed.
Ltac res := intros (k & x & Hk & E0); cbn [In] in Hk; destruct Hk as [<-|[<-|[<-|[]]]]; discriminate.
Lemma odd_text : exists t, dbml_text t odd.
Proof.
  apply has_text. constructor; [|constructor; [|constructor]].
  - split; [split; [intros sc [= ]|nm]|]. split; [intros w [= ]|]. split; [intros l [= ]|]. split; [constructor|]. split; [constructor|]. constructor; [|constructor]. constructor; [|constructor].
    split; [constructor; [nm|constructor]|]. intros l [= <-]. constructor; [|constructor]. split; [wd|]. intros v [= <-]. right. left. exists (s "btree2"). split; [reflexivity|]. split; [wd|]. res.
  - split; [intros w [= ]|]. split; [discriminate|]. split; [|split].
    + split; [split; [intros sc [= ]|nm]|]. split; [discriminate|]. constructor; [nm|constructor].
    + split; [split; [intros sc [= ]|nm]|]. split; [discriminate|]. constructor; [nm|constructor].
    + intros l [= <-]. constructor; [|constructor]. split; [wd|]. intros v [= <-]. right. left. exists (s "cascading"). split; [reflexivity|]. split; [wd|]. res.
Qed.
Example C10_too_large_meets : (exists t, dbml_text t big) /\ In (VInteger 9223372036854775808) (values_of big) /\ In 4294967296 (sizes_of big).
Proof. split; [exact big_text|]. split; vm_compute; auto. Qed.

(** An index type or a referential action that does not exist: both functions fail. *)
Theorem C13_unknown : forall t a, dbml_text t a ->
  ((exists v, In (s "type", Some v) (index_settings_of a) /\ (forall x, index_type_word x <> value_to_string v)) \/
   (exists k w, In k ["update"; "delete"]%string /\ In (s k, Some (VEnum w)) (ref_settings_of a) /\ (forall x, action_word x <> w))) ->
  fails (parse_dbml_unchecked t) /\ fails (parse_dbml t).
Proof.
  intros t a H X. apply (misfit _ _ H). intros F. destruct X as [(v & Hv & Z)|(k & w & Hk & Hw & Z)].
  - destruct (fits_index_type _ _ F Hv) as [x Hx]. exact (Z x Hx).
  - destruct (fits_action _ _ _ F Hk Hw) as [x Hx]. exact (Z x Hx).
Qed.
Print Assumptions C13_unknown.
Example C13_unknown_meets : (exists t, dbml_text t odd) /\
  (exists v, In (s "type", Some v) (index_settings_of odd) /\ (forall x, index_type_word x <> value_to_string v)) /\
  (exists k w, In k ["update"; "delete"]%string /\ In (s k, Some (VEnum w)) (ref_settings_of odd) /\ (forall x, action_word x <> w)).
Proof.
  split; [exact odd_text|]. split.
  - exists (VEnum (s "btree2")). split; [left; reflexivity|]. intros []; vm_compute; discriminate.
  - exists "delete"%string, (s "cascading"). split; [right; left; reflexivity|]. split; [left; reflexivity|]. intros []; vm_compute; discriminate.
Qed.
