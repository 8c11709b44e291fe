(** * SizeOk: a schema is no larger than its text. *)

From Verif Require Export SynPrint SynMain.
From Verif Require Import LexRules Syntax Size.
Local Open Scope nat_scope.

Notation len := (@List.length char) (only parsing).
Ltac sc := repeat match goal with
  | |- context [List.length (s ?k)] => let n := eval vm_compute in (List.length (s k)) in change (List.length (s k)) with n
  | H : context [List.length (s ?k)] |- _ => let n := eval vm_compute in (List.length (s k)) in change (List.length (s k)) with n in H
  end.
Lemma f2_len {A B} (P : A -> B -> Prop) l l' : Forall2 P l l' -> List.length l = List.length l'.
Proof. induction 1; cbn; congruence. Qed.
Definition pays {A} (R : reader A) (f : A -> nat) : Prop := forall i r a, R i r a -> f a + len r <= len i.
Lemma lay_len i r : lay i r -> len r <= len i.
Proof. intros (g & -> & _). rewrite app_length. lia. Qed.
Lemma tok_len w i r : tok w i r -> len w + len r <= len i.
Proof. intros (m & -> & H). apply lay_len in H. rewrite app_length. lia. Qed.
Lemma kw_len k i r : kw k i r -> len (s k) + len r <= len i.
Proof.
  intros (w & m & -> & Hw & H). apply lay_len in H. rewrite app_length. apply f2_len in Hw. lia.
Qed.
Lemma word_pos w : word w -> name_size w = len w.
Proof. intros (c & x & -> & _). reflexivity. Qed.
Lemma spaced_pos w : spaced_word w -> name_size w = len w.
Proof. intros (c & x & -> & _). reflexivity. Qed.
Lemma name_len w : name_size w <= 1 + len w.
Proof. unfold name_size. lia. Qed.
Lemma quote_pays q : len q >= 1 -> pays (quote q) (fun v => 1 + name_size v).
Proof.
  intros Hq i r v (j & m & -> & H1 & _ & H2). apply lay_len in H1, H2. rewrite !app_length in *. pose proof (name_len v). lia.
Qed.
Ltac ql := match goal with H : quote ?q _ _ _ |- _ => apply (quote_pays q ltac:(cbn; lia)) in H end.
Lemma name_pays : pays name name_size.
Proof.
  intros i r w [(m & -> & Hw & _ & H)|H]; [|ql; lia]. apply lay_len in H. rewrite (word_pos _ Hw), app_length. lia.
Qed.
Lemma text_pays : pays text (fun v => 1 + name_size v).
Proof. intros i r w [H|H]; ql; lia. Qed.
Lemma phrase_pays : pays phrase name_size.
Proof. intros i r w (m & -> & Hw & _ & H). apply lay_len in H. rewrite (spaced_pos _ Hw), app_length. lia. Qed.
Lemma digits_len d : digits d -> 1 <= len d.
Proof. intros [H _]. destruct d; [congruence|cbn; lia]. Qed.
Ltac tl := repeat match goal with
  | H : tok _ _ _ |- _ => apply tok_len in H
  | H : kw _ _ _ |- _ => apply kw_len in H
  | H : lay _ _ |- _ => apply lay_len in H
  | H : digits _ |- _ => apply digits_len in H
  end; sc.
Lemma literal_pays : pays literal_r value_size.
Proof.
  intros i r v H. destruct H; cbn [value_size]; try ql; repeat match goal with H : text _ _ _ |- _ => apply text_pays in H end; tl; rewrite ?app_length in *; sc; try lia;
    unfold name_size; rewrite app_length; sc; lia.
Qed.
Lemma bare_pays : pays bare value_size.
Proof. intros i r v (w & H & _ & ->). apply phrase_pays in H. exact H. Qed.
Lemma attr_pays : pays attr attr_size.
Proof.
  intros i r a [i0 r0 k Hk|i0 m m' r0 k v Hk Ht Hv]; unfold attr_size; cbn [fst snd given]; apply phrase_pays in Hk; [lia|]. tl.
  destruct Hv as [Hv|[Hv|(w & Hv & ->)]]; [apply literal_pays in Hv|apply bare_pays in Hv|ql; cbn [value_size]]; lia.
Qed.
Lemma many_pays {A} (R : reader A) f : pays R f -> pays (many R) (total f).
Proof. intros HR i r l H. induction H as [|i m r a l H1 H2 IH]; cbn [total]; [lia|]. apply HR in H1. lia. Qed.
Lemma commas_pays {A} (R : reader A) f : pays R f -> pays (commas R) (total f).
Proof. intros HR i r l H. induction H as [i r a H1|i m m' r a l H1 Ht H2 IH]; cbn [total]; apply HR in H1; [lia|]. tl. lia. Qed.
Lemma bracket_pays op cl {A} (R : reader A) f : len (s op) = 1 -> len (s cl) = 1 -> pays R f -> pays (bracket op cl R) (fun l => 2 + total f l).
Proof.
  intros Ho Hc HR i r l [i0 m r0 H1 H2|i0 m m' r0 l0 H1 H2 H3]; repeat match goal with H : tok _ _ _ |- _ => apply tok_len in H end.
  - cbn. lia.
  - apply (commas_pays R f HR) in H2. lia.
Qed.
Lemma braces_pays {A} (R : reader A) f : pays R f -> pays (braces R) (fun l => 2 + total f l).
Proof. intros HR i r l (m & m' & H1 & H2 & H3). apply (many_pays R f HR) in H2. tl. lia. Qed.
Lemma maybe_pays {A} (R : reader A) f : pays R f -> pays (maybe R) (given f).
Proof. intros HR i r o [i0|i0 r0 a H]; cbn; [lia|apply HR; exact H]. Qed.
Lemma attrs_pays : pays attrs (fun l => 1 + total attr_size l).
Proof. intros i r l H. apply (bracket_pays "[" "]" attr attr_size eq_refl eq_refl attr_pays) in H. lia. Qed.
Lemma mattrs_pays : pays (maybe attrs) attrs_size.
Proof. apply maybe_pays, attrs_pays. Qed.
Lemma decl_pays : pays decl_name decl_size.
Proof.
  intros i r [[sc|] n]; unfold decl_size; cbn [decl_name fst snd given]; [intros (m & m' & H1 & H2 & H3)|intros H1]; repeat match goal with H : name _ _ _ |- _ => apply name_pays in H end; tl; lia.
Qed.
Lemma columns_pays : pays columns (total name_size).
Proof. intros i r l [i0 r0 c H|i0 m m' r0 l0 H1 H2 H3]; [apply name_pays in H; cbn [total]; lia|]. apply (commas_pays _ _ name_pays) in H2. tl. lia. Qed.
Lemma endpoint_pays : pays endpoint (fun e => 1 + end_size e).
Proof.
  intros i r e H. destruct H; unfold end_size, decl_size; cbn [e_schema e_table e_cols fst snd given]; repeat match goal with H : name _ _ _ |- _ => apply name_pays in H | H : columns _ _ _ |- _ => apply columns_pays in H end; tl; lia.
Qed.
Lemma rel_pays : pays rel (fun _ => 1).
Proof. intros i r x (t & Ht & H). apply tok_len in H. destruct x; cbn in Ht; try discriminate Ht; injection Ht as <-; sc; cbn [List.length] in H; lia. Qed.
Lemma inline_pays : pays inline inline_size.
Proof. intros i r x [i0 m1 m2 m3 r0 y e H1 H2 H3 H4]. apply rel_pays in H3. apply endpoint_pays in H4. unfold inline_size. cbn [snd]. tl. lia. Qed.
Lemma ref_body_pays n : pays (ref_body n) (fun f => 1 + end_size (f_lhs f) + end_size (f_rhs f) + attrs_size (f_settings f) ).
Proof.
  intros i r a [i0 m1 m2 m3 r0 x e1 e2 st H1 H2 H3 H4]. apply endpoint_pays in H1, H3. apply rel_pays in H2. apply mattrs_pays in H4. cbn [f_lhs f_rhs f_settings]. lia.
Qed.
Lemma ref_body_name n i r a : ref_body n i r a -> f_name a = n.
Proof. intros []. reflexivity. Qed.
Lemma reference_pays : pays reference (fun f : a_ref => block_size (ARef f)).
Proof.
  intros i r a H. destruct H as [i m1 m2 m3 r n a H1 H2 H3 H4|i m1 m2 m3 m4 r n a H1 H2 H3 H4 H5]; unfold block_size; pose proof (ref_body_name _ _ _ _ H4) as En; subst n;
    apply ref_body_pays in H4; apply (maybe_pays _ _ name_pays) in H2; tl; lia.
Qed.
Lemma note_pays : pays note (fun v => 4 + value_size v).
Proof. intros i r v H. destruct H; repeat match goal with H : text _ _ _ |- _ => apply text_pays in H end; cbn [value_size]; tl; lia. Qed.

(** ** Column types *)
Lemma verbatim_len q raw v : len q >= 1 -> quoted_verbatim q raw v -> 1 + name_size v <= len raw.
Proof. intros Hq [-> _]. rewrite !app_length. pose proof (name_len v). lia. Qed.
Lemma arg_len raw v : arg_text raw v -> value_size v <= len raw.
Proof.
  intros H. destruct H; cbn [value_size]; repeat match goal with H : quoted_verbatim ?q _ _ |- _ => apply (verbatim_len q) in H; [|cbn; lia] end; tl; rewrite ?app_length; sc; try lia.
  unfold name_size. rewrite app_length. sc. lia.
Qed.
Lemma join_len raws l : Forall2 arg_text raws l -> total value_size l <= len (join (s ",") raws).
Proof.
  induction 1 as [|raw v raws l Hv H IH]; [cbn; lia|]. apply arg_len in Hv. destruct H as [|r2 v2 raws l Hv2 H]; [cbn; lia|].
  change (join (s ",") (raw :: r2 :: raws)) with (raw ++ s "," ++ join (s ",") (r2 :: raws)). rewrite !app_length. cbn [total] in *. lia.
Qed.
Lemma args_len ta l : args_r ta l -> total value_size l <= len ta.
Proof. intros [|raws l0 H]; [cbn; lia|]. apply join_len in H. rewrite !app_length. lia. Qed.
Lemma dims_len td l : dims_r td l -> List.length l <= len td.
Proof. induction 1 as [|t d ts ds Ht Hts IH]; [cbn; lia|]. rewrite app_length. destruct Ht; rewrite ?app_length; sc; cbn [List.length]; lia. Qed.
Lemma prefix_len p np : prefix_r p np -> len np <= len p.
Proof. intros [|w Hw|raw w Hq]; [lia|lia|]. apply verbatim_len in Hq; [|cbn; lia]. unfold name_size in Hq. rewrite !app_length. lia. Qed.
Lemma type_len raw t : type_raw raw t -> type_size t <= len raw.
Proof.
  intros [p np b ta args td dims Hp Hb Ha Hd|p np b ta args td1 d1 td2 d2 Hp Hb Ha H1 H2 Hs]; unfold type_size; cbn [y_name y_args y_dims]; apply prefix_len in Hp; apply args_len in Ha;
    repeat match goal with H : dims_r _ _ |- _ => apply dims_len in H end; rewrite !app_length; unfold name_size; rewrite app_length.
  - pose proof (word_pos _ Hb) as E0. unfold name_size in E0. lia.
  - pose proof (spaced_pos _ Hb) as E0. unfold name_size in E0. lia.
Qed.
Lemma type_pays : pays type_r type_size.
Proof. intros i r t (raw & m & -> & H & _ & _ & Hl). apply type_len in H. tl. rewrite app_length. lia. Qed.

(** ** Blocks *)
Definition col_item_size (x : a_col_item) : nat := match x with CIAttr a => attr_size a | CIRef r => inline_size r end.
Lemma col_settings_pays : pays col_settings_r (fun st => 1 + total attr_size (s_attrs st) + total inline_size (s_refs st)).
Proof.
  assert (B : pays col_item col_item_size) by (intros i r [a|a]; cbn [col_item col_item_size]; [apply attr_pays|apply inline_pays]).
  intros i r x (l & H & -> & ->). apply (bracket_pays "[" "]" _ _ eq_refl eq_refl B) in H.
  assert (E0 : total attr_size (pick (fun y => match y with CIAttr a => Some a | _ => None end) l) + total inline_size (pick (fun y => match y with CIRef a => Some a | _ => None end) l) = total col_item_size l).
  { clear. induction l as [|[a|a] l IH]; [reflexivity|..]; unfold pick in *; cbn [flat_map app total] in *; unfold col_item_size in *; lia. }
  lia.
Qed.
Lemma column_pays : pays column col_size.
Proof.
  intros i r c [i0 m1 m2 r0 n ty st H1 H2 H3]. apply name_pays in H1. apply type_pays in H2. apply (maybe_pays _ _ col_settings_pays) in H3. unfold col_size. cbn [c_name c_type c_settings]. lia.
Qed.
Definition icol_size (c : a_index_col) : nat := match c with IName w => name_size w | IExpr v => value_size v end.
Lemma index_col_pays : pays index_col icol_size.
Proof. intros i r c [i0 r0 w H|i0 r0 v H]; cbn [icol_size value_size]; [apply name_pays; exact H|ql; lia]. Qed.
Lemma index_pays : pays index index_size.
Proof.
  intros i r x H. unfold index_size. change (fun c => match c with IName w => name_size w | IExpr v => value_size v end) with icol_size.
  destruct H as [i m r c st H1 H2|i m r l st H1 H2]; apply mattrs_pays in H2; cbn [x_cols x_settings].
  - apply index_col_pays in H1. cbn [total]. assert (1 <= icol_size c) by (destruct c as [w|[]]; cbn [icol_size value_size]; unfold name_size; lia). lia.
  - apply (bracket_pays "(" ")" _ _ eq_refl eq_refl index_col_pays) in H1. lia.
Qed.
Lemma indexes_pays : pays indexes (fun l => 1 + total index_size l).
Proof. intros i r l [i0 m r0 l0 H1 H2]. apply (braces_pays _ _ index_pays) in H2. tl. lia. Qed.
Definition table_item_size (x : a_table_item) : nat :=
  match x with TICol c => col_size c | TINote v => note_size v | TIIndexes l => 1 + total index_size l end.
Lemma table_pays : pays table (fun t => block_size (ATable t)).
Proof.
  assert (B : pays table_item table_item_size).
  { intros i r [c|v|l]; cbn [table_item table_item_size]; [apply column_pays| |apply indexes_pays]. intros H. apply note_pays in H. unfold note_size. lia. }
  assert (Ba : pays alias name_size) by (intros i r w (m & H1 & H2); apply name_pays in H2; tl; lia).
  intros i r t [i0 m1 m2 m3 m4 r0 d al st l H1 H2 H3 H4 H5]. unfold block_size; cbn [t_schema t_name t_alias t_settings t_cols t_notes t_indexes]. rewrite <- surjective_pairing.
  apply decl_pays in H2. apply (maybe_pays _ _ Ba) in H3. apply mattrs_pays in H4. apply (braces_pays _ _ B) in H5. tl.
  assert (E0 : total col_size (pick (fun x => match x with TICol c => Some c | _ => None end) l) + total note_size (pick (fun x => match x with TINote v => Some v | _ => None end) l) +
    total (fun l => 1 + total index_size l) (pick (fun x => match x with TIIndexes v => Some v | _ => None end) l) = total table_item_size l).
  { clear. induction l as [|[a|a|a] l IH]; [reflexivity|..]; unfold pick in *; cbn [flat_map app total table_item_size] in *; lia. }
  lia.
Qed.
Lemma enum_pays : pays enum (fun e => block_size (AEnum e)).
Proof.
  assert (B : pays enum_value_r (fun x => name_size (fst x) + attrs_size (snd x))).
  { intros i r x (m & H1 & H2). apply name_pays in H1. apply mattrs_pays in H2. lia. }
  intros i r e [i0 m1 m2 r0 d l H1 H2 H3]. unfold block_size; cbn [m_schema m_name m_values]. rewrite <- surjective_pairing. apply decl_pays in H2. apply (braces_pays _ _ B) in H3. tl. lia.
Qed.
Definition group_item_size (x : a_group_item) : nat := match x with GINote v => note_size v | GIName d => decl_size d end.
Lemma group_pays : pays group (fun g => block_size (AGroup g)).
Proof.
  assert (B : pays group_item group_item_size).
  { intros i r [v|d]; cbn [group_item group_item_size]; [|apply decl_pays]. intros H. apply note_pays in H. unfold note_size. lia. }
  intros i r g [i0 m1 m2 m3 r0 n st l H1 H2 H3 H4]. unfold block_size; cbn [g_name g_settings g_notes g_items]. apply name_pays in H2. apply mattrs_pays in H3. apply (braces_pays _ _ B) in H4. tl.
  assert (E0 : total note_size (pick (fun x => match x with GINote v => Some v | _ => None end) l) + total decl_size (pick (fun x => match x with GIName d => Some d | _ => None end) l) = total group_item_size l).
  { clear. induction l as [|[a|a] l IH]; [reflexivity|..]; unfold pick in *; cbn [flat_map app total] in *; unfold group_item_size in *; lia. }
  lia.
Qed.
Definition project_item_size (x : a_project_item) : nat := match x with PINote v => note_size v | PIProp p => name_size (fst p) + value_size (snd p) end.
Lemma project_pays : pays project (fun p => block_size (AProject p)).
Proof.
  assert (B : pays project_item project_item_size).
  { intros i r [v|p]; cbn [project_item project_item_size]; intros H; [apply note_pays in H; unfold note_size; lia|]. destruct H as (m & m' & H1 & H2 & H3 & _). apply phrase_pays in H1. tl.
    destruct H3 as [H3|H3]; [apply literal_pays in H3|apply bare_pays in H3]; lia. }
  intros i r p [i0 m1 m2 r0 n l H1 H2 H3]. unfold block_size; cbn [p_name p_props p_notes]. apply name_pays in H2. apply (braces_pays _ _ B) in H3. tl.
  assert (E0 : total (fun x => name_size (fst x) + value_size (snd x)) (pick (fun x => match x with PIProp p => Some p | _ => None end) l) + total note_size (pick (fun x => match x with PINote v => Some v | _ => None end) l) = total project_item_size l).
  { clear. induction l as [|[a|a] l IH]; [reflexivity|..]; unfold pick in *; cbn [flat_map app total] in *; unfold project_item_size in *; lia. }
  lia.
Qed.
Lemma block_pays : pays block_r block_size.
Proof.
  intros i r [p|t|g|v|f|e]; cbn [block_r]; [apply project_pays|apply table_pays|apply group_pays| |apply reference_pays|apply enum_pays].
  intros H. apply note_pays in H. unfold block_size. lia.
Qed.
Theorem text_size t a : dbml_text t a -> schema_size a <= len t.
Proof. intros (m & H1 & H2). apply (many_pays _ _ block_pays) in H2. tl. cbn in H2. unfold schema_size. lia. Qed.
Lemma last_size {A} (f : A -> nat) l : total f (last_only l) <= total f l.
Proof. induction l as [|a [|b l] IH]; [cbn; lia|cbn; lia|]. change (last_only (a :: b :: l)) with (last_only (b :: l)). cbn [total] in *. lia. Qed.
Lemma settle_size a : schema_size (settle a) <= schema_size a.
Proof.
  unfold schema_size, settle. induction a as [|b a IH]; [cbn; lia|]. cbn [map total]. assert (block_size (settle_block b) <= block_size b); [|lia].
  destruct b as [p|t|g|v|f|e]; unfold block_size; cbn [settle_block p_name p_props p_notes t_schema t_name t_alias t_settings t_cols t_notes t_indexes g_name g_settings g_notes g_items]; try lia.
  - pose proof (last_size note_size (p_notes p)). lia.
  - pose proof (last_size note_size (t_notes t)). pose proof (last_size (fun l => 1 + total index_size l) (t_indexes t)). lia.
  - pose proof (last_size note_size (g_notes g)). lia.
Qed.
Theorem schema_no_larger t x : parse_dbml_unchecked t = Some (Ok x) -> schema_size (meaning x) <= len t.
Proof. intros H. destruct (accepts_iff _ _ H) as (a & Ha & _ & ->). pose proof (settle_size a). apply text_size in Ha. lia. Qed.
