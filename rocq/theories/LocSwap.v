(** * LocSwap: nodes stay what they are when what follows them is exchanged. *)

From Verif Require Import SynLex SynEval SynCut.
From Verif Require Export Located RespanBase.
From Verif Require Import Syntax SynMain LocErase.

Section Swap.
Variables inp z1 z2 : str.
(** Whether nothing may be left of [inp] where a lookahead is made. *)
Variable E0 : Prop.
Notation inp1 := (inp ++ z1).
Notation inp2 := (inp ++ z2).
Definition good (r : str) : Prop := r <> [] \/ E0.
Hypothesis some1 : E0 -> z1 <> [].
(** What is looked at behind a node stays. *)
Hypothesis look_lay : forall r, sx inp r -> good r -> no_layout_start (r ++ z1) -> no_layout_start (r ++ z2).
Hypothesis look_word : forall r, sx inp r -> good r -> no_word (r ++ z1) -> no_word (r ++ z2).
Hypothesis look_phrase : forall r, sx inp r -> good r -> no_phrase (r ++ z1) -> no_phrase (r ++ z2).
Hypothesis look_digit : forall r, sx inp r -> good r -> no_digit (r ++ z1) -> no_digit (r ++ z2).
Hypothesis look_dot : forall r, sx inp r -> good r -> (forall m, r ++ z1 <> s "." ++ m) -> (forall m, r ++ z2 <> s "." ++ m).
Hypothesis look_hex : forall r, sx inp r -> good r ->
  (forall h m, r ++ z1 = h ++ m -> List.length h = 3%nat -> ~ Forall hex_digit h) ->
  (forall h m, r ++ z2 = h ++ m -> List.length h = 3%nat -> ~ Forall hex_digit h).
Hypothesis look_dim : forall r, sx inp r -> good r -> no_dim (r ++ z1) -> no_dim (r ++ z2).

Lemma span_swap i m : span inp1 (i ++ z1) (m ++ z1) = span inp2 (i ++ z2) (m ++ z2).
Proof. unfold span, pos. rewrite !blen_app. f_equal; lia. Qed.
Lemma px_cut i0 m : px (i0 ++ z1) (m ++ z1) -> px i0 m.
Proof. intros (x & Hx & E). exists x. split; [exact Hx|]. rewrite app_assoc in E. apply app_inv_tail in E. exact E. Qed.
Lemma px_ne' i m : px i m -> i <> [].
Proof. intros (x & Hx & ->) E. apply app_eq_nil in E. tauto. Qed.
Lemma px_good i m : px i m -> good i.
Proof. intros H. left. eapply px_ne'. exact H. Qed.
Lemma sx_good i m : sx i m -> good m -> good i.
Proof. intros (x & ->) [H|H]; [left|right; exact H]. intros E. apply app_eq_nil in E. tauto. Qed.
Lemma cl_good w m : s w <> [] -> good (s w ++ m).
Proof. intros H. left. intros E. apply app_eq_nil in E. tauto. Qed.
Lemma split1 i m : sx i (m ++ z1) -> exists i0, i = i0 ++ z1 /\ sx i0 m.
Proof. intros (x & ->). exists (x ++ m). split; [apply app_assoc|]. exists x. reflexivity. Qed.

Definition sA {A} (R R' : reader A) : Prop := forall i m x, R i (m ++ z1) x -> exists i0, i = i0 ++ z1 /\ px i0 m /\ (sx inp i0 -> R' (i0 ++ z2) (m ++ z2) x).
Definition sB {A} (R R' : reader A) : Prop := forall i m x, R i (m ++ z1) x -> exists i0, i = i0 ++ z1 /\ px i0 m /\ (sx inp i0 -> good m -> R' (i0 ++ z2) (m ++ z2) x).
Lemma sAB {A} (R R' : reader A) : sA R R' -> sB R R'.
Proof. intros H i m x Hx. destruct (H _ _ _ Hx) as (i0 & -> & P & Q). exists i0. auto. Qed.

Lemma sw_lay i m : lay i (m ++ z1) -> exists i0, i = i0 ++ z1 /\ sx i0 m /\ (sx inp i0 -> good m -> lay (i0 ++ z2) (m ++ z2)).
Proof.
  intros H. pose proof (lay_sx _ _ H) as S. destruct (split1 _ _ S) as (i0 & -> & Hs). exists i0. split; [reflexivity|]. split; [exact Hs|]. intros Hi Hg.
  destruct H as (g & E & Hgap & Hn). rewrite app_assoc in E. apply app_inv_tail in E. subst i0. exists g. split; [symmetry; apply app_assoc|]. split.
  - destruct Hgap as [H|[H1 H2]]; [left; exact H|]. destruct Hg as [Hg|Hg]; [apply app_eq_nil in H1; tauto|].
    apply app_eq_nil in H1. destruct (some1 Hg). tauto.
  - apply look_lay; [eapply sx_trans; [exact Hi|exact Hs]|exact Hg|exact Hn].
Qed.

Lemma sx_cons (w m : str) : sx (w ++ m) m.
Proof. exists w. reflexivity. Qed.
Lemma sw_tok w i m : w <> [] -> tok w i (m ++ z1) -> exists i0, i = i0 ++ z1 /\ px i0 m /\ (sx inp i0 -> good m -> tok w (i0 ++ z2) (m ++ z2)).
Proof.
  intros Hw (j & -> & Hl). apply sw_lay in Hl as (j0 & -> & Hs & Q). exists (w ++ j0). split; [apply app_assoc|]. split; [eapply px_sx_trans; [apply px_app; exact Hw|exact Hs]|].
  intros Hi Hg. exists (j0 ++ z2). split; [symmetry; apply app_assoc|]. apply Q; [eapply sx_trans; [exact Hi|apply sx_cons]|exact Hg].
Qed.
Lemma sw_kw k i m : s k <> [] -> kw k i (m ++ z1) -> exists i0, i = i0 ++ z1 /\ px i0 m /\ (sx inp i0 -> good m -> kw k (i0 ++ z2) (m ++ z2)).
Proof.
  intros Hk (w & j & -> & Hc & Hl). apply sw_lay in Hl as (j0 & -> & Hs & Q). exists (w ++ j0). split; [apply app_assoc|].
  split; [eapply px_sx_trans; [apply px_app; intros ->; inversion Hc; congruence|exact Hs]|].
  intros Hi Hg. exists w, (j0 ++ z2). split; [symmetry; apply app_assoc|]. split; [exact Hc|]. apply Q; [eapply sx_trans; [exact Hi|apply sx_cons]|exact Hg].
Qed.

(** Splits a hypothesis that ends in [z1]; then says what is left, and what it becomes. *)
Ltac re H := match type of H with
  | _ (?w ++ ?m ++ z1) _ => replace (w ++ m ++ z1) with ((w ++ m) ++ z1) in H by (rewrite <- app_assoc; reflexivity)
  | _ (?w ++ ?m ++ z1) => replace (w ++ m ++ z1) with ((w ++ m) ++ z1) in H by (rewrite <- app_assoc; reflexivity) | _ => idtac end.
Ltac ct L H := let x := fresh "j" in let P := fresh "P" in let Q := fresh "Q" in re H; apply L in H; destruct H as (x & -> & P & Q).
Ltac tk H := let x := fresh "j" in let P := fresh "P" in let Q := fresh "Q" in re H; match type of H with
  | tok _ _ _ => apply sw_tok in H; [|discriminate] | kw _ _ _ => apply sw_kw in H; [|discriminate] | lay _ _ => apply sw_lay in H end; destruct H as (x & -> & P & Q).
Ltac sxs := match goal with
  | |- sx ?i ?i => apply sx_refl
  | H : sx ?i ?m |- sx ?i ?m => exact H
  | H : px ?i ?m |- sx ?i ?m => exact (px_sx _ _ H)
  | H : sx ?i _ |- sx ?i _ => eapply sx_trans; [exact H|]; clear H; sxs
  | H : px ?i _ |- sx ?i _ => eapply sx_trans; [exact (px_sx _ _ H)|]; clear H; sxs end.
Ltac pxs := match goal with
  | H : px ?i ?m |- px ?i ?m => exact H
  | H : px ?i _ |- px ?i _ => eapply px_sx_trans; [exact H|]; clear H; sxs
  | H : sx ?i _ |- px ?i _ => eapply sx_px_trans; [exact H|]; clear H; pxs end.
Ltac gd := repeat first [assumption | apply cl_good; discriminate | eapply px_good; eassumption | eapply sx_good; [eassumption|]].
Ltac qq := match goal with
  | Q : sx inp _ -> good _ -> _ |- _ => rewrite ?app_assoc; eapply Q; [solve [sxs]|solve [gd]]
  | Q : sx inp _ -> _ |- _ => rewrite ?app_assoc; eapply Q; solve [sxs] end.
Ltac ok := eexists; split; [reflexivity|]; split; [solve [pxs]|].

Lemma s_next {A} (R R' : reader A) : sB R R' -> sB (next R) (next R').
Proof. intros H i r x (m & Hx & Hl). tk Hl. ct H Hx. ok. intros Hi Hg. exists (j ++ z2). split; qq. Qed.
Lemma s_commas {A} (R R' : reader A) : sB R R' -> sB (commas R) (commas R').
Proof.
  intros H i r l H0. remember (r ++ z1) as r' eqn:Er. induction H0 as [i r' a Ha|i m m' r' a l Ha Ht _ IH]; subst r'.
  - ct H Ha. ok. intros Hi Hg. constructor. qq.
  - destruct (IH eq_refl) as (m0 & -> & P & Q). tk Ht. ct H Ha. ok. intros Hi Hg. eapply commas_more; qq.
Qed.
Lemma s_many {A} (R R' : reader A) i m l : sB R R' -> many R i (m ++ z1) l -> exists i0, i = i0 ++ z1 /\ sx i0 m /\ (sx inp i0 -> good m -> many R' (i0 ++ z2) (m ++ z2) l).
Proof.
  intros H H0. remember (m ++ z1) as r' eqn:Er. induction H0 as [i|i m1 r' a l Ha _ IH]; subst.
  - exists m. split; [reflexivity|]. split; [apply sx_refl|]. constructor.
  - destruct (IH eq_refl) as (m0 & -> & P & Q). ct H Ha. exists j. split; [reflexivity|]. split; [sxs|]. intros Hi Hg. econstructor; qq.
Qed.
Lemma s_maybe {A} (R R' : reader A) i m l : sB R R' -> maybe R i (m ++ z1) l -> exists i0, i = i0 ++ z1 /\ sx i0 m /\ (sx inp i0 -> good m -> maybe R' (i0 ++ z2) (m ++ z2) l).
Proof.
  intros H H0. remember (m ++ z1) as r' eqn:Er. destruct H0 as [i|i r' a Ha]; subst.
  - exists m. split; [reflexivity|]. split; [apply sx_refl|]. constructor.
  - ct H Ha. exists j. split; [reflexivity|]. split; [sxs|]. intros Hi Hg. constructor. qq.
Qed.
Lemma px_cl i w m : px i (s w ++ m) -> px i m.
Proof. intros H. eapply px_sx_trans; [exact H|]. exists (s w). reflexivity. Qed.
Lemma sx_cl i w m : sx i (s w ++ m) -> s w <> [] -> px i m.
Proof. intros H Hw. eapply sx_px_trans; [exact H|]. apply px_app. exact Hw. Qed.
Ltac okc := eexists; split; [reflexivity|]; split; [match goal with
  | H : px _ (s ?w ++ ?r) |- px _ ?r => apply (px_cl _ w); solve [pxs] | H : sx _ (s ?w ++ ?r) |- px _ ?r => apply (sx_cl _ w); [solve [sxs]|discriminate] end|].
Lemma s_list {A} op cl (R R' : reader A) : s op <> [] -> s cl <> [] -> sB R R' -> sA (list_at op cl R) (list_at op cl R').
Proof.
  intros Ho Hc H i r l H0. remember (r ++ z1) as r' eqn:Er. destruct H0 as [i m Ht|i m1 m l Ht Hl]; subst.
  - re Ht. apply sw_tok in Ht; [|exact Ho]. destruct Ht as (j & -> & P & Q). okc. intros Hi. constructor. rewrite app_assoc. apply Q; [exact Hi|apply cl_good; exact Hc].
  - ct (s_commas _ _ (s_next _ _ H)) Hl. apply sw_tok in Ht; [|exact Ho]. destruct Ht as (j0 & -> & P0 & Q0). okc. intros Hi.
    assert (G : good (s cl ++ r)) by (apply cl_good; exact Hc). eapply list_some; qq.
Qed.
Lemma s_braces {A} (R R' : reader A) : sB R R' -> sA (braces_at R) (braces_at R').
Proof.
  intros H i r l (m & Ht & Hl). re Hl. apply (s_many _ _ _ _ _ (s_next _ _ H)) in Hl as (j & -> & P & Q). tk Ht. okc. intros Hi. exists (j ++ z2). split; [|qq].
  apply Q0; [exact Hi|]. eapply sx_good; [exact P|]. apply cl_good. discriminate.
Qed.
Lemma s_tail {A B} (R R' : reader A) (O O' : reader B) i m a o : sB R R' -> sB O O' -> tail_at R O i (m ++ z1) a o ->
  exists i0, i = i0 ++ z1 /\ px i0 m /\ (sx inp i0 -> good m -> tail_at R' O' (i0 ++ z2) (m ++ z2) a o).
Proof.
  intros HR HO H. remember (m ++ z1) as r' eqn:Er. destruct H as [i m0 a Ha|i m1 m0 a b Ha Hb]; subst.
  - ct (s_next _ _ HR) Ha. ok. intros Hi Hg. constructor. qq.
  - ct HO Hb. ct (s_next _ _ HR) Ha. ok. intros Hi Hg. econstructor; qq.
Qed.

(** ** Words and literals *)
Lemma sx_drop (w m : str) : sx inp (w ++ m) -> sx inp m.
Proof. intros H. eapply sx_trans; [exact H|apply sx_cons]. Qed.
Lemma s_plain : sB plain_at plain_at.
Proof.
  intros i m w H. pose proof (plain_px _ _ _ H) as P. destruct H as (-> & H1 & H2). exists (w ++ m). split; [apply app_assoc|]. rewrite app_assoc in P. apply px_cut in P. split; [exact P|].
  intros Hi Hg. split; [symmetry; apply app_assoc|]. split; [exact H1|]. apply look_word; [eapply sx_drop; exact Hi|exact Hg|exact H2].
Qed.
Lemma s_phrase : sB phrase_at phrase_at.
Proof.
  intros i m w H. pose proof (phrase_px _ _ _ H) as P. destruct H as (-> & H1 & H2). exists (w ++ m). split; [apply app_assoc|]. rewrite app_assoc in P. apply px_cut in P. split; [exact P|].
  intros Hi Hg. split; [symmetry; apply app_assoc|]. split; [exact H1|]. apply look_phrase; [eapply sx_drop; exact Hi|exact Hg|exact H2].
Qed.
Lemma s_quote q : q <> [] -> sA (quote_at q) (quote_at q).
Proof.
  intros Hq i m v H. pose proof (quote_px _ _ _ _ Hq H) as P. destruct H as (i' & -> & Hl & Hc). replace (v ++ q ++ m ++ z1) with ((v ++ q ++ m) ++ z1) in Hl by (rewrite <- !app_assoc; reflexivity).
  apply sw_lay in Hl as (j & -> & S & Q). exists (q ++ j). split; [apply app_assoc|]. rewrite app_assoc in P. apply px_cut in P. split; [exact P|]. intros Hi. exists (j ++ z2).
  split; [symmetry; apply app_assoc|]. split; [|exact Hc]. replace (v ++ q ++ m ++ z2) with ((v ++ q ++ m) ++ z2) by (rewrite <- !app_assoc; reflexivity). apply Q; [eapply sx_drop; exact Hi|].
  left. intros E. apply app_eq_nil in E as [_ E]. apply app_eq_nil in E. tauto.
Qed.
Lemma s_orA {A} (R S R' S' : reader A) : sA R R' -> sA S S' -> sA (fun i m v => R i m v \/ S i m v) (fun i m v => R' i m v \/ S' i m v).
Proof. intros HR HS i m v [H|H]; [ct HR H|ct HS H]; ok; auto. Qed.
Lemma s_orB {A} (R S R' S' : reader A) : sB R R' -> sB S S' -> sB (fun i m v => R i m v \/ S i m v) (fun i m v => R' i m v \/ S' i m v).
Proof. intros HR HS i m v [H|H]; [ct HR H|ct HS H]; ok; auto. Qed.
Lemma s_text : sA text_at text_at.
Proof. apply (s_orA (quote_at tq) (quote_at sq)); apply s_quote; discriminate. Qed.
Lemma s_string q : q <> [] -> sA (string_at q) (string_at q).
Proof. intros Hq i m v (w & H & ->). ct (s_quote q Hq) H. ok. intros Hi. exists w. split; [qq|reflexivity]. Qed.
Lemma s_note_text : sA note_text_at note_text_at.
Proof. apply (s_orA (string_at tq) (string_at sq)); apply s_string; discriminate. Qed.
Ltac app0 := repeat rewrite <- app_assoc; cbn [app]; reflexivity.
Lemma s_value : sB value_at value_at.
Proof.
  intros i r v H. pose proof (value_px _ _ _ H) as P. remember (r ++ z1) as r' eqn:Er.
  destruct H as [i m v H|i m v H|m|m|m|d m Hd Hn Hp|d1 d2 m f Hd Hd2 Hn Hf|h m Hh Hlen|h m Hh Hlen Hno]; subst.
  - ct (sAB _ _ s_text) H. ok. intros Hi Hg. constructor. qq.
  - ct (sAB _ _ (s_quote bq ltac:(discriminate))) H. ok. intros Hi Hg. constructor. qq.
  - exists (s "true" ++ r). split; [app0|]. split; [apply px_app; discriminate|]. intros _ _. rewrite <- app_assoc. constructor.
  - exists (s "false" ++ r). split; [app0|]. split; [apply px_app; discriminate|]. intros _ _. rewrite <- app_assoc. constructor.
  - exists (s "null" ++ r). split; [app0|]. split; [apply px_app; discriminate|]. intros _ _. rewrite <- app_assoc. constructor.
  - exists (d ++ r). split; [app0|]. split; [apply px_app, Hd|]. intros Hi Hg. apply sx_drop in Hi. rewrite <- app_assoc. constructor; [exact Hd|apply look_digit; assumption|apply look_dot; assumption].
  - exists (d1 ++ s "." ++ d2 ++ r). split; [app0|]. rewrite 3app_assoc in P. apply px_cut in P. split; [rewrite <- !app_assoc in P; exact P|]. intros Hi Hg. do 3 apply sx_drop in Hi.
    rewrite <- !app_assoc. constructor; [exact Hd|exact Hd2|apply look_digit; assumption|exact Hf].
  - exists (s "#" ++ h ++ r). split; [app0|]. rewrite 2app_assoc in P. apply px_cut in P. split; [rewrite <- !app_assoc in P; exact P|]. intros Hi Hg. rewrite <- !app_assoc. constructor; assumption.
  - exists (s "#" ++ h ++ r). split; [app0|]. rewrite 2app_assoc in P. apply px_cut in P. split; [rewrite <- !app_assoc in P; exact P|]. intros Hi Hg. do 2 apply sx_drop in Hi.
    rewrite <- !app_assoc. apply va_hex3; [exact Hh|exact Hlen|]. apply look_hex; assumption.
Qed.
Lemma s_bare : sB bare_at bare_at.
Proof. intros i m v (w & H & Hn & ->). ct s_phrase H. ok. intros Hi Hg. exists w. split; [qq|auto]. Qed.
Lemma s_plain_value : sB plain_value_at plain_value_at.
Proof. apply (s_orB value_at bare_at); [apply s_value|apply s_bare]. Qed.
Lemma s_attr_value : sB attr_value_at attr_value_at.
Proof. apply (s_orB plain_value_at (string_at dq)); [apply s_plain_value|apply sAB, s_string; discriminate]. Qed.
Lemma raw_swap (i raw m : str) : i ++ z1 = raw ++ m ++ z1 -> i ++ z2 = raw ++ m ++ z2.
Proof. rewrite !app_assoc. intros H. apply app_inv_tail in H. rewrite H. reflexivity. Qed.
Lemma s_ident : sB (ident_at inp1) (ident_at inp2).
Proof.
  intros i m x (E1 & E2 & H). ct (s_orB _ _ _ _ s_plain (sAB _ _ (s_quote dq ltac:(discriminate)))) H. ok. intros Hi Hg. split; [apply raw_swap; exact E1|]. split; [rewrite <- span_swap; exact E2|].
  apply Q; assumption.
Qed.
Lemma s_key : sB (key_at inp1) (key_at inp2).
Proof. intros i m x (E1 & E2 & H). ct s_phrase H. ok. intros Hi Hg. split; [apply raw_swap; exact E1|]. split; [rewrite <- span_swap; exact E2|qq]. Qed.
Lemma s_litA R : sA R R -> sA (lit inp1 R) (lit inp2 R).
Proof. intros HR i m x (E1 & E2 & H & Hf). ct HR H. ok. intros Hi. split; [apply raw_swap; exact E1|]. split; [rewrite <- span_swap; exact E2|auto]. Qed.
Lemma s_litB R : sB R R -> sB (lit inp1 R) (lit inp2 R).
Proof. intros HR i m x (E1 & E2 & H & Hf). ct HR H. ok. intros Hi Hg. split; [apply raw_swap; exact E1|]. split; [rewrite <- span_swap; exact E2|auto]. Qed.

(** ** Settings *)
Ltac sp := rewrite ?span_swap.
Lemma s_attribute : sB (attribute_at inp1) (attribute_at inp2).
Proof.
  intros i r x H. remember (r ++ z1) as r' eqn:Er. destruct H as [i m k Hk|i m1 m2 m k v Hk Ht Hv]; subst.
  - ct (s_next _ _ s_key) Hk. ok. intros Hi Hg. sp. constructor. qq.
  - ct (s_litB _ s_attr_value) Hv. tk Ht. ct (s_next _ _ s_key) Hk. ok. intros Hi Hg. sp. econstructor; qq.
Qed.
Lemma s_attributes : sA (attributes_at inp1) (attributes_at inp2).
Proof. apply s_list; [discriminate..|apply s_attribute]. Qed.
Lemma s_table_settings : sA (table_settings_at inp1) (table_settings_at inp2).
Proof. intros i m x (E & H). ct s_attributes H. ok. intros Hi. split; [rewrite <- span_swap; exact E|qq]. Qed.
Lemma s_group_settings : sA (group_settings_at inp1) (group_settings_at inp2).
Proof. intros i m x (E & H). ct s_attributes H. ok. intros Hi. split; [rewrite <- span_swap; exact E|qq]. Qed.
Lemma s_enum_settings : sA (enum_settings_at inp1) (enum_settings_at inp2).
Proof. intros i m x (E & H & K). ct s_attributes H. ok. intros Hi. split; [rewrite <- span_swap; exact E|split; [qq|exact K]]. Qed.
Lemma s_ref_settings : sA (ref_settings_at inp1) (ref_settings_at inp2).
Proof. intros i m x (E & H & K). ct s_attributes H. ok. intros Hi. split; [rewrite <- span_swap; exact E|split; [qq|exact K]]. Qed.
Lemma s_index_settings : sA (index_settings_at inp1) (index_settings_at inp2).
Proof. intros i m x (E & H & K). ct s_attributes H. ok. intros Hi. split; [rewrite <- span_swap; exact E|split; [qq|exact K]]. Qed.

(** ** References *)
Lemma s_decl : sB (decl_at inp1) (decl_at inp2).
Proof.
  intros i r x H. remember (r ++ z1) as r' eqn:Er. destruct H as [i m n Hn|i m1 m2 m sc n Hsc Ht Hn]; subst.
  - ct (s_next _ _ s_ident) Hn. ok. intros Hi Hg. constructor. qq.
  - ct s_ident Hn. tk Ht. ct (s_next _ _ s_ident) Hsc. ok. intros Hi Hg. econstructor; qq.
Qed.
Lemma s_columns : sB (columns_at inp1) (columns_at inp2).
Proof.
  intros i r x H. remember (r ++ z1) as r' eqn:Er. destruct H as [i m c Hc|i m1 m l Ht Hl]; subst.
  - ct s_ident Hc. ok. intros Hi Hg. constructor. qq.
  - ct (s_commas _ _ (s_next _ _ s_ident)) Hl. tk Ht. okc. intros Hi Hg. eapply columns_more; qq.
Qed.
Lemma s_endpoint : sB (endpoint_at inp1) (endpoint_at inp2).
Proof.
  intros i r x H. remember (r ++ z1) as r' eqn:Er. destruct H as [i m1 m2 m t0 l H1 H2 H3|i m1 m2 m3 m4 m sc t0 l H1 H2 H3 H4 H5]; subst.
  - ct s_columns H3. tk H2. ct (s_next _ _ s_ident) H1. ok. intros Hi Hg. sp. econstructor; qq.
  - ct s_columns H5. tk H4. ct (s_next _ _ s_ident) H3. tk H2. ct (s_next _ _ s_ident) H1. ok. intros Hi Hg. sp. eapply endpoint_schema; qq.
Qed.
Lemma s_rel : sA rel_at rel_at.
Proof. intros i m x (w & E & ->). exists (w ++ m). split; [apply app_assoc|]. split; [apply px_app; destruct x; cbn in E; congruence|]. intros _. exists w. split; [exact E|symmetry; apply app_assoc]. Qed.
Lemma s_inline : sB (inline_at inp1) (inline_at inp2).
Proof.
  intros i r x H. remember (r ++ z1) as r' eqn:Er. destruct H as [i m1 m2 m3 m x e H1 H2 H3 H4]; subst.
  ct s_endpoint H4. ct (s_next _ _ (sAB _ _ s_rel)) H3. tk H2. tk H1. ok. intros Hi Hg. sp. econstructor; qq.
Qed.
Ltac tl L O H := let x := fresh "j" in let P := fresh "P" in let Q := fresh "Q" in apply (s_tail _ _ _ _ _ _ _ _ L O) in H; destruct H as (x & -> & P & Q).
Lemma s_stmt n : sB (stmt_at inp1 n) (stmt_at inp2 n).
Proof.
  intros i r x H. remember (r ++ z1) as r' eqn:Er. destruct H as [i m1 m2 m x a b st H1 H2 H3]; subst.
  tl s_endpoint (sAB _ _ s_ref_settings) H3. ct (s_next _ _ (sAB _ _ s_rel)) H2. ct (s_next _ _ s_endpoint) H1. ok. intros Hi Hg. sp. econstructor; qq.
Qed.
Ltac my L H := let x := fresh "j" in let P := fresh "P" in let Q := fresh "Q" in apply (s_maybe _ _ _ _ _ (s_next _ _ L)) in H; destruct H as (x & -> & P & Q).
Lemma s_reference : sB (reference_at inp1) (reference_at inp2).
Proof.
  intros i r x H. remember (r ++ z1) as r' eqn:Er. destruct H as [i m1 m2 m3 m n f H1 H2 H3 H4|i m1 m2 m3 m n f H1 H2 H3 H4]; subst.
  - ct (s_stmt n) H4. tk H3. my s_ident H2. tk H1. ok. intros Hi Hg. econstructor; qq.
  - ct (s_next _ _ (s_stmt n)) H4. tk H3. my s_ident H2. tk H1. okc. intros Hi Hg. eapply reference_braces; qq.
Qed.
Lemma s_note : sA (note_at inp1) (note_at inp2).
Proof.
  intros i r x H. remember (r ++ z1) as r' eqn:Er. destruct H as [i m1 m2 m v H1 H2 H3|i m1 m2 m v H1 H2 H3]; subst.
  - ct (s_litA _ s_note_text) H3. tk H2. tk H1. ok. intros Hi. sp. econstructor; qq.
  - ct (s_next _ _ (sAB _ _ (s_litA _ s_note_text))) H3. tk H2. tk H1. okc. intros Hi. sp. eapply note_braces_at; qq.
Qed.

(** ** Tables *)
Lemma s_type : sB (type_at inp1) (type_at inp2).
Proof.
  intros i m x (E1 & E2 & H1 & H2 & H3 & H4). exists (ct_raw x ++ m). split; [rewrite E1; apply app_assoc|]. split; [apply px_app; eapply type_raw_ne; exact H1|]. intros Hi Hg. apply sx_drop in Hi.
  split; [symmetry; apply app_assoc|]. split; [rewrite <- span_swap, <- app_assoc, <- E1; exact E2|]. split; [exact H1|]. split; [|split; [apply look_dim; assumption|exact H4]].
  intros y c E Hc. apply look_word; [assumption..|]. eapply H2; eassumption.
Qed.
Lemma s_col_item : sB (col_item_at inp1) (col_item_at inp2).
Proof. intros i m [a|a] H; cbn [col_item_at] in *; [apply s_attribute|apply s_inline]; exact H. Qed.
Lemma s_col_settings : sA (col_settings_at inp1) (col_settings_at inp2).
Proof. intros i m x (E & l & H & K). ct (s_list "[" "]" _ _ ltac:(discriminate) ltac:(discriminate) s_col_item) H. ok. intros Hi. split; [rewrite <- span_swap; exact E|]. exists l. split; [qq|exact K]. Qed.
Lemma s_column : sB (column_at inp1) (column_at inp2).
Proof.
  intros i r x H. remember (r ++ z1) as r' eqn:Er. destruct H as [i m1 m n ty st H1 H2]; subst. tl s_type (sAB _ _ s_col_settings) H2. ct (s_next _ _ s_ident) H1. ok.
  intros Hi Hg. sp. econstructor; qq.
Qed.
Lemma s_index_col : sB (index_col_at inp1) (index_col_at inp2).
Proof.
  intros i r x H. remember (r ++ z1) as r' eqn:Er. destruct H as [i m x H|i m v H]; subst; [ct s_ident H|ct (sAB _ _ (s_litA _ (s_string bq ltac:(discriminate)))) H]; ok; intros Hi Hg; constructor; qq.
Qed.
Lemma s_index : sB (index_at inp1) (index_at inp2).
Proof.
  intros i r x H. remember (r ++ z1) as r' eqn:Er. destruct H as [i m c st H|i m l st H]; subst.
  - tl s_index_col (sAB _ _ s_index_settings) H. ok. intros Hi Hg. sp. constructor. qq.
  - tl (sAB _ _ (s_list "(" ")" _ _ ltac:(discriminate) ltac:(discriminate) s_index_col)) (sAB _ _ s_index_settings) H. ok. intros Hi Hg. sp. apply index_multi. qq.
Qed.
Lemma s_indexes : sA (indexes_at inp1) (indexes_at inp2).
Proof.
  intros i r x H. remember (r ++ z1) as r' eqn:Er. destruct H as [i m1 m l H1 H2]; subst. ct (s_braces _ _ s_index) H2. tk H1. ok. intros Hi. sp. econstructor; qq.
Qed.
Lemma s_table_item : sB (table_item_at inp1) (table_item_at inp2).
Proof. intros i m [a|a|a] H; cbn [table_item_at] in *; [apply s_column|apply (sAB _ _ s_note)|apply (sAB _ _ s_indexes)]; exact H. Qed.
Lemma s_alias : sB (alias_at inp1) (alias_at inp2).
Proof. intros i m x (m1 & H1 & H2). ct s_ident H2. tk H1. ok. intros Hi Hg. exists (j ++ z2). split; qq. Qed.
Lemma s_table : sA (table_at inp1) (table_at inp2).
Proof.
  intros i r x H. remember (r ++ z1) as r' eqn:Er. destruct H as [i m1 m2 m3 m4 m5 m d al st l H1 H2 H3 H4 H5 H6]; subst.
  ct (s_braces _ _ s_table_item) H6. my (sAB _ _ s_table_settings) H5. my s_alias H4. tk H3. ct s_decl H2. tk H1. ok. intros Hi. sp. econstructor; qq.
Qed.

(** ** Enums, groups, projects *)
Lemma s_enum_value : sB (enum_value_at inp1) (enum_value_at inp2).
Proof. intros i r x H. remember (r ++ z1) as r' eqn:Er. destruct H as [i m v st H]; subst. tl s_ident (sAB _ _ s_enum_settings) H. ok. intros Hi Hg. sp. constructor. qq. Qed.
Lemma s_enum : sA (enum_at inp1) (enum_at inp2).
Proof.
  intros i r x H. remember (r ++ z1) as r' eqn:Er. destruct H as [i m1 m2 m3 m d l H1 H2 H3 H4]; subst.
  ct (s_braces _ _ s_enum_value) H4. tk H3. ct s_decl H2. tk H1. ok. intros Hi. sp. econstructor; qq.
Qed.
Lemma s_group_part : sB (group_part_at inp1) (group_part_at inp2).
Proof.
  intros i r x H. remember (r ++ z1) as r' eqn:Er. destruct H as [i m n H|i m d H]; subst; [ct (sAB _ _ s_note) H|ct s_decl H]; ok; intros Hi Hg; sp; constructor; qq.
Qed.
Lemma s_group : sA (group_at inp1) (group_at inp2).
Proof.
  intros i r x H. remember (r ++ z1) as r' eqn:Er. destruct H as [i m1 m2 m3 m n st l H1 H2 H3 H4]; subst.
  ct (s_braces _ _ s_group_part) H4. my (sAB _ _ s_group_settings) H3. ct (s_next _ _ s_ident) H2. tk H1. ok. intros Hi. sp. econstructor; qq.
Qed.
Lemma s_property : sB (property_at inp1) (property_at inp2).
Proof.
  intros i r x H. remember (r ++ z1) as r' eqn:Er. destruct H as [i m1 m2 m k v H1 H2 H3 H4]; subst.
  ct (s_litB _ s_plain_value) H3. tk H2. ct (s_next _ _ s_key) H1. ok. intros Hi Hg. sp. econstructor; [qq|qq|qq|exact H4].
Qed.
Lemma s_project_item : sB (project_item_at inp1) (project_item_at inp2).
Proof. intros i m [a|a] H; cbn [project_item_at] in *; [apply (sAB _ _ s_note)|apply s_property]; exact H. Qed.
Lemma s_project : sA (project_at inp1) (project_at inp2).
Proof.
  intros i r x H. remember (r ++ z1) as r' eqn:Er. destruct H as [i m1 m2 m n l props db H1 H2 H3 H4 H5]; subst.
  ct (s_braces _ _ s_project_item) H3. ct (s_next _ _ s_ident) H2. tk H1. ok. intros Hi. sp. econstructor; [qq|qq|qq|reflexivity|exact H5].
Qed.
Lemma s_top : sB (top_at inp1) (top_at inp2).
Proof.
  intros i m [x|x|x|x|x|x] H; cbn [top_at] in *; [apply (sAB _ _ s_project)|apply (sAB _ _ s_table)|apply (sAB _ _ s_group)|apply (sAB _ _ s_note)|apply s_reference|apply (sAB _ _ s_enum)]; exact H.
Qed.
(** A block that is no reference is closed. *)
Lemma s_closed i m b : (forall r, b <> BRef r) -> top_at inp1 i (m ++ z1) b -> exists i0, i = i0 ++ z1 /\ px i0 m /\ (sx inp i0 -> top_at inp2 (i0 ++ z2) (m ++ z2) b).
Proof.
  intros Hr H. destruct b as [x|x|x|x|x|x]; cbn [top_at] in *; [apply s_project|apply s_table|apply s_group|apply s_note|destruct (Hr x); reflexivity|apply s_enum]; exact H.
Qed.
End Swap.
