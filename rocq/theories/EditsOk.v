(** * EditsOk: a part of a text can be exchanged; the rest is read as before. *)

From Verif Require Import SynLex SynEval SynCut LocMain SynMain LocErase RespanBase LocCut LocSwap LocUniq CompleteOk SynGrow PiecesOk.
From Verif Require Import Api Parser Syntax.
From Verif Require Import Respan.
From Verif Require Export Edits.

(** ** How blocks end *)
Definition seals (P : N -> Prop) (i m : str) : Prop := exists u e, i = u ++ e :: m /\ P e.
Definition shut (e : N) : Prop := e = 125 \/ e = 39.
Definition stop (e : N) : Prop := ~ word_char e.
Lemma seals_sx P i j m : sx i j -> seals P j m -> seals P i m.
Proof. intros (x & ->) (u & e & -> & H). exists (x ++ u), e. split; [rewrite <- app_assoc; reflexivity|exact H]. Qed.
Lemma seals_px P i j m : px i j -> seals P j m -> seals P i m.
Proof. intros H. apply seals_sx, px_sx, H. Qed.
Lemma seals_weak (P Q : N -> Prop) i m : (forall e, P e -> Q e) -> seals P i m -> seals Q i m.
Proof. intros H (u & e & -> & He). exists u, e. auto. Qed.
Lemma shut_stop e : shut e -> stop e.
Proof. intros [->| ->] H; unfold word_char, letter, digit in H; lia. Qed.
Lemma seals_tok c m : seals (eq c) ([c] ++ m) m.
Proof. exists [], c. split; reflexivity. Qed.

Ltac nw W := repeat match type of W with _ \/ _ => destruct W as [W|W] | _ /\ _ => destruct W as [? W] end; try discriminate; try (match goal with H : ?x <> ?x |- _ => apply H; reflexivity | H : _ = Gt -> False |- _ => apply H; reflexivity end).
Section Ends.
Variable t : str.
Let same := fun (b i m : str) (_ : ends b i) (_ : px i m) => eq_refl : span t i m = (fun sp : range => sp) (span t i m).
Lemma braces_seal {A} (R R' : reader A) sh i m l : mvs i R R' sh -> braces_at R i m l -> seals (eq 125) i m.
Proof.
  intros HR (m1 & Ht & Hl). pose proof (tok_px (s "{") _ _ ltac:(discriminate) Ht) as P. destruct (mv_many i _ _ _ _ _ _ (mv_next i _ _ _ HR) (px_sx _ _ P) Hl) as [P2 _].
  eapply seals_px; [exact P|]. eapply seals_sx; [exact P2|]. apply seals_tok.
Qed.
Lemma list_seal {A} op c (R R' : reader A) sh i m l : s op <> [] -> mvs i R R' sh -> list_at op (String c "") R i m l -> seals (eq (N_of_ascii c)) i m.
Proof.
  intros Ho HR H. remember (String c "") as cl eqn:Ec. destruct H as [i m Ht|i m1 m l Ht Hl]; subst cl.
  - eapply seals_px; [eapply tok_px; [exact Ho|exact Ht]|]. apply seals_tok.
  - pose proof (tok_px _ _ _ Ho Ht) as P. destruct (mv_commas i _ _ _ _ _ _ (mv_next i _ _ _ HR) (px_sx _ _ P) Hl) as [P2 _].
    eapply seals_px; [exact P|]. eapply seals_px; [exact P2|]. apply seals_tok.
Qed.
Lemma quote_seal u c i m v : quote_at (u ++ [c]) i m v -> seals (eq c) i m.
Proof.
  intros (i' & -> & (g & -> & _) & _). exists ((u ++ [c]) ++ g ++ v ++ u), c. split; [|reflexivity]. rewrite <- !app_assoc. reflexivity.
Qed.
Lemma note_text_seal i m v : note_text_at i m v -> seals (eq 39) i m.
Proof. intros [(w & H & _)|(w & H & _)]; [apply (quote_seal [39; 39] 39 _ _ _ H)|apply (quote_seal [] 39 _ _ _ H)]. Qed.
Lemma note_seal i m x : note_at t i m x -> seals shut i m.
Proof.
  intros H. destruct H as [i m1 m2 m v H1 H2 H3|i m1 m2 m v H1 H2 H3].
  - apply kw_px in H1; [|discriminate]. apply tok_px in H2; [|discriminate]. eapply seals_px; [exact H1|]. eapply seals_px; [exact H2|]. destruct H3 as (_ & _ & H3 & _). apply note_text_seal in H3.
    eapply seals_weak; [|exact H3]. intros e <-. right. reflexivity.
  - apply kw_px in H1; [|discriminate]. apply tok_px in H2; [|discriminate]. eapply seals_px; [exact H1|]. eapply seals_px; [exact H2|].
    destruct H3 as (k & (E & _) & Hl). eapply seals_sx; [exists (lit_raw v); exact E|]. eapply seals_sx; [apply lay_sx; exact Hl|].
    eapply seals_weak; [|apply seals_tok]. intros e <-. left. reflexivity.
Qed.
Lemma brace_shut i j m : sx i j -> seals (eq 125) j m -> seals shut i m.
Proof. intros H1 H2. eapply seals_sx; [exact H1|]. eapply seals_weak; [|exact H2]. intros e <-. left. reflexivity. Qed.
Ltac go := match goal with
  | |- sx ?i ?i => apply sx_refl
  | H : sx ?i ?m |- sx ?i ?m => exact H
  | H : px ?i ?m |- sx ?i ?m => exact (px_sx _ _ H)
  | H : sx ?i _ |- sx ?i _ => eapply sx_trans; [exact H|]; clear H; go
  | H : px ?i _ |- sx ?i _ => eapply sx_trans; [exact (px_sx _ _ H)|]; clear H; go end.
Ltac en := unfold ends; go.
Lemma top_shut i m b : top_at t i m b -> (forall r, b <> BRef r) -> seals shut i m.
Proof.
  intros H Hr. destruct b as [x|x|x|x|x|x]; cbn [top_at] in H; [| | | |destruct (Hr x eq_refl)|].
  - destruct H as [i m1 m2 m n l props db H1 H2 H3 _ _]. apply kw_px in H1; [|discriminate].
    destruct (mv_next i _ _ _ (mv_ident i t t _ (same i)) _ _ _ (px_sx _ _ H1) H2) as [P2 _]. eapply brace_shut; [|eapply braces_seal; [|exact H3]; apply (mv_project_item _ t t _ (same _))]. go.
  - destruct H as [i m1 m2 m3 m4 m5 m d al st l H1 H2 H3 H4 H5 H6]. apply kw_px in H1; [|discriminate].
    destruct (mv_decl i t t _ (same i) _ _ _ (px_sx _ _ H1) H2) as [P2 _]. apply lay_sx in H3.
    destruct (mv_maybe i _ _ _ m3 _ _ (mv_next i _ _ _ (mv_alias i t t _ (same i))) ltac:(en) H4) as [P4 _].
    destruct (mv_maybe i _ _ _ m4 _ _ (mv_next i _ _ _ (mv_table_settings i t t _ (same i))) ltac:(en) H5) as [P5 _].
    eapply brace_shut; [|eapply braces_seal; [|exact H6]; apply (mv_table_item _ t t _ (same _))]. go.
  - destruct H as [i m1 m2 m3 m n st l H1 H2 H3 H4]. apply kw_px in H1; [|discriminate].
    destruct (mv_next i _ _ _ (mv_ident i t t _ (same i)) _ _ _ (px_sx _ _ H1) H2) as [P2 _].
    destruct (mv_maybe i _ _ _ m2 _ _ (mv_next i _ _ _ (mv_group_settings i t t _ (same i))) ltac:(en) H3) as [P3 _].
    eapply brace_shut; [|eapply braces_seal; [|exact H4]; apply (mv_group_part _ t t _ (same _))]. go.
  - eapply note_seal. exact H.
  - destruct H as [i m1 m2 m3 m d l H1 H2 H3 H4]. apply kw_px in H1; [|discriminate].
    destruct (mv_decl i t t _ (same i) _ _ _ (px_sx _ _ H1) H2) as [P2 _]. apply lay_sx in H3.
    eapply brace_shut; [|eapply braces_seal; [|exact H4]; apply (mv_enum_value _ t t _ (same _))]. go.
Qed.

(** Before a letter there is no word, unless the letter belongs to it. *)
Lemma gap_seal g m : gap g -> g <> [] -> seals stop (g ++ m) m.
Proof.
  intros H. induction H as [|c g Hc H IH|b c g Hb Hc H IH|b g Hb H IH]; intros Hne; [congruence| | |].
  - destruct g as [|d g].
    + exists [], c. split; [reflexivity|]. intros W. unfold is_ws, word_char, letter, digit in *. lia.
    + eapply seals_sx; [exists [c]; reflexivity|]. apply IH. discriminate.
  - destruct g as [|d g].
    + exists (s "//" ++ b), c. split; [rewrite <- !app_assoc; reflexivity|]. intros W. unfold is_nl, word_char, letter, digit in *. lia.
    + eapply seals_sx; [exists (s "//" ++ b ++ [c]); rewrite <- !app_assoc; reflexivity|]. apply IH. discriminate.
  - destruct g as [|d g].
    + exists (s "/*" ++ b ++ [42]), 47. split; [rewrite <- !app_assoc; reflexivity|]. intros W. unfold word_char, letter, digit in *. lia.
    + eapply seals_sx; [exists (s "/*" ++ b ++ s "*/"); rewrite <- !app_assoc; reflexivity|]. apply IH. discriminate.
Qed.
Lemma lay_seal i r : lay i r -> r <> [] -> i = r \/ seals stop i r.
Proof.
  intros (g & -> & [Hg|[E _]] & _) Hr; [|congruence]. destruct g as [|c g]; [left; reflexivity|right]. apply gap_seal; [exact Hg|discriminate].
Qed.
Lemma begins_word z : begins z -> no_word z -> False.
Proof. intros (c & r & -> & H) W. apply (W c r eq_refl). left. exact H. Qed.
Lemma begins_ne z : begins z -> z <> [].
Proof. intros (c & r & -> & _). discriminate. Qed.
Lemma ident_seal z i m x : begins z -> ident_at t i m x -> lay m z -> seals stop i z.
Proof.
  intros Hz H Hl. destruct (lay_seal _ _ Hl (begins_ne _ Hz)) as [->|Hs].
  - destruct H as (_ & _ & [(-> & _ & H)|H]); [destruct (begins_word _ Hz H)|]. apply (quote_seal [] 34) in H. eapply seals_weak; [|exact H].
    intros e <- W. vm_compute in W. nw W.
  - eapply seals_sx; [|exact Hs]. destruct H as (E & _). exists (id_raw x). exact E.
Qed.
Lemma endpoint_seal z i m x : begins z -> endpoint_at t i m x -> lay m z -> seals stop i z.
Proof.
  intros Hz H Hl.
  assert (Hc : forall i m l, columns_at t i m l -> lay m z -> seals stop i z).
  { clear -Hz same. intros i m l H Hl. destruct H as [i m c Hc|i m1 m l Ht Hc]; [eapply ident_seal; eassumption|]. apply tok_px in Ht; [|discriminate].
    destruct (mv_commas i _ _ _ _ _ _ (mv_next i _ _ _ (mv_ident i t t _ (same i))) (px_sx _ _ Ht) Hc) as [P _]. eapply seals_px; [exact Ht|]. eapply seals_px; [exact P|].
    destruct (lay_seal _ _ Hl (begins_ne _ Hz)) as [->|Hs]; [|eapply seals_sx; [exists (s ")"); reflexivity|exact Hs]].
    eapply seals_weak; [|apply seals_tok]. intros e <- W. vm_compute in W. nw W. }
  destruct H as [i m1 m2 m t0 l H1 H2 H3|i m1 m2 m3 m4 m sc t0 l H1 H2 H3 H4 H5].
  - destruct (mv_next i _ _ _ (mv_ident i t t _ (same i)) _ _ _ (sx_refl _) H1) as [P1 _]. apply tok_px in H2; [|discriminate]. eapply seals_px; [exact P1|]. eapply seals_px; [exact H2|]. eauto.
  - destruct (mv_next i _ _ _ (mv_ident i t t _ (same i)) _ _ _ (sx_refl _) H1) as [P1 _]. apply tok_px in H2; [|discriminate]. 
    destruct (mv_next m2 _ _ _ (mv_ident m2 t t _ (same m2)) _ _ _ (sx_refl _) H3) as [P3 _]. apply tok_px in H4; [|discriminate].
    eapply seals_px; [exact P1|]. eapply seals_px; [exact H2|]. eapply seals_px; [exact P3|]. eapply seals_px; [exact H4|]. eauto.
Qed.
Lemma stmt_seal z n i m x : begins z -> stmt_at t n i m x -> lay m z -> seals stop i z.
Proof.
  intros Hz H Hl. destruct H as [i m1 m2 m x a b st H1 H2 H3].
  destruct (mv_next i _ _ _ (mv_endpoint i t t _ (same i)) _ _ _ (sx_refl _) H1) as [P1 _]. destruct (mv_next m1 _ _ _ (mv_rel m1) _ _ _ (sx_refl _) H2) as [P2 _].
  eapply seals_px; [exact P1|]. eapply seals_px; [exact P2|]. clear H1 H2 P1 P2. destruct H3 as [i0 m0 a0 (k & Ha & Hk)|i0 m3 m0 a0 b0 Ha Hb].
  - eapply endpoint_seal; [exact Hz|exact Ha|]. apply lay_fin in Hk, Hl. apply lay_fin. rewrite <- Hl, <- Hk. symmetry. apply fin_fin.
  - destruct (mv_next i0 _ _ _ (mv_endpoint i0 t t _ (same i0)) _ _ _ (sx_refl _) Ha) as [P1 _]. eapply seals_px; [exact P1|].
    destruct (mv_ref_settings m3 t t _ (same m3) _ _ _ (sx_refl _) Hb) as [P2 _].
    destruct (lay_seal _ _ Hl (begins_ne _ Hz)) as [->|Hs]; [|eapply seals_px; [exact P2|exact Hs]].
    destruct Hb as (_ & Hb & _). unfold attributes_at in Hb. apply (list_seal "[" "]" _ (attribute_at t) (at_attr (fun sp => sp))) in Hb; [|discriminate|apply (mv_attribute _ t t _ (same _))].
    eapply seals_weak; [|exact Hb]. intros e <- W. vm_compute in W. nw W.
Qed.
Lemma top_seal z i m b : begins z -> top_at t i m b -> lay m z -> seals stop i z.
Proof.
  intros Hz H Hl. destruct (lay_seal _ _ Hl (begins_ne _ Hz)) as [->|Hs]; [|eapply seals_px; [eapply top_px; exact H|exact Hs]].
  assert (D : (forall r, b <> BRef r) \/ exists r, b = BRef r) by (destruct b; [left|left|left|left|right|left]; try discriminate; eauto). destruct D as [D|(r & ->)].
  - eapply seals_weak; [exact shut_stop|]. eapply top_shut; eassumption.
  - cbn [top_at] in H. destruct H as [i m1 m2 m3 m n r H1 H2 H3 H4|i m1 m2 m3 m n r H1 H2 H3 H4]; (apply kw_px in H1; [|discriminate]);
      (destruct (mv_maybe i _ _ _ _ _ _ (mv_next i _ _ _ (mv_ident i t t _ (same i))) (px_sx _ _ H1) H2) as [P2 _]); (apply tok_px in H3; [|discriminate]);
      (eapply seals_px; [exact H1|]); (eapply seals_sx; [exact P2|]); (eapply seals_px; [exact H3|]).
    + eapply stmt_seal; eassumption.
    + destruct (mv_next m3 _ _ _ (mv_stmt m3 t t _ (same m3) n) _ _ _ (sx_refl _) H4) as [P4 _]. eapply seals_px; [exact P4|]. eapply seals_weak; [|apply seals_tok].
      intros e <- W. vm_compute in W. nw W.
Qed.
End Ends.

(** ** Where a comment ends *)
Lemma close_split (u v body x : str) : u ++ v = body ++ s "*/" ++ x ->
  (exists b y, u = b ++ s "*/" ++ y) \/ (exists b y, v = b ++ s "*/" ++ y) \/ ((exists b, u = b ++ [42]) /\ exists y, v = 47 :: y).
Proof.
  revert body. induction u as [|d u IH]; intros body E; cbn [app] in E; [right; left; eauto|]. destruct body as [|b body]; cbn in E.
  - injection E as -> E. destruct u as [|d u]; cbn in E.
    + right. right. split; [exists []; reflexivity|eauto].
    + injection E as -> E. left. exists [], u. reflexivity.
  - injection E as -> E. destruct (IH body E) as [(b' & y & ->)|[H|((b' & ->) & H)]]; [left; exists (b :: b'), y; reflexivity|auto|]. right. right. split; [exists (b :: b'); reflexivity|exact H].
Qed.
Lemma last_eq (u v : str) c d : u ++ [c] = v ++ [d] -> c = d.
Proof. intros H. apply app_inj_tail in H. tauto. Qed.
Lemma sx_last (a r : str) u e : sx a r -> r <> [] -> a = u ++ [e] -> exists v, r = v ++ [e].
Proof.
  intros (x & E1) Hr E2. destruct (exists_last Hr) as (v & d & ->). rewrite app_assoc, E2 in E1. apply last_eq in E1 as <-. eauto.
Qed.

(** ** What is looked at behind the part before *)
Section Left.
Variables a z1 z2 : str.
Hypothesis B1 : begins z1.
Hypothesis B2 : begins z2.
Hypothesis Hlast : a = [] \/ exists u e, a = u ++ [e] /\ stop e.
Hypothesis Hhex : forall h m, z2 = h ++ m -> List.length h = 3%nat -> ~ Forall hex_digit h.
Hypothesis Hcom : forall r, sx a r -> no_layout_start (r ++ z1) -> forall body x, r ++ z2 <> s "/*" ++ body ++ s "*/" ++ x.
Lemma left_lay r : sx a r -> good True r -> no_layout_start (r ++ z1) -> no_layout_start (r ++ z2).
Proof.
  intros Hr _ H. split; [|split; [|apply Hcom; assumption]].
  - destruct B2 as (c & y & -> & Hc). destruct H as (H & _). destruct r as [|d r]; cbn [app] in *.
    + intros c' r' E. injection E as <- _. unfold is_ws, letter in *. lia.
    + intros c' r' E. injection E as <- _. eapply H. reflexivity.
  - destruct B2 as (c & y & -> & Hc). destruct H as (_ & H & _). intros x E. destruct r as [|d [|d' r]]; cbn in E.
    + injection E as -> _. unfold letter in Hc. lia.
    + injection E as _ -> _. unfold letter in Hc. lia.
    + injection E as -> -> _. apply (H (r ++ z1)). reflexivity.
Qed.
Lemma left_word r : sx a r -> good True r -> no_word (r ++ z1) -> no_word (r ++ z2).
Proof.
  intros _ _ H. destruct r as [|d r]; [destruct (begins_word _ B1 H)|]. intros c m E. injection E as <- _. eapply H. reflexivity.
Qed.
Lemma left_phrase r : sx a r -> good True r -> no_phrase (r ++ z1) -> no_phrase (r ++ z2).
Proof.
  intros Hr Hg [H1 H2]. split; [apply left_word; assumption|]. intros c m E. destruct r as [|d [|d' r]].
  - destruct (begins_word _ B1 H1).
  - cbn in E. injection E as -> E. destruct B1 as (c1 & y & -> & Hc). destruct (H2 c1 y eq_refl). left. exact Hc.
  - cbn in E. injection E as -> -> _. eapply H2. reflexivity.
Qed.
Lemma left_digit r : sx a r -> good True r -> no_digit (r ++ z1) -> no_digit (r ++ z2).
Proof.
  intros _ _ H c m E. destruct r as [|d r]; cbn in E.
  - destruct B2 as (c2 & y & E2 & Hc). rewrite E2 in E. injection E as <- _. unfold letter, digit in *. lia.
  - injection E as <- _. eapply H. reflexivity.
Qed.
Lemma left_dot r : sx a r -> good True r -> (forall m, r ++ z1 <> s "." ++ m) -> (forall m, r ++ z2 <> s "." ++ m).
Proof.
  intros _ _ H m E. destruct r as [|d r]; cbn in E.
  - destruct B2 as (c2 & y & E2 & Hc). rewrite E2 in E. injection E as -> _. unfold letter in Hc. lia.
  - injection E as -> _. apply (H (r ++ z1)). reflexivity.
Qed.
Lemma left_hex r : sx a r -> good True r ->
  (forall h m, r ++ z1 = h ++ m -> List.length h = 3%nat -> ~ Forall hex_digit h) ->
  (forall h m, r ++ z2 = h ++ m -> List.length h = 3%nat -> ~ Forall hex_digit h).
Proof.
  intros Hr _ H h m E L F. destruct r as [|d0 r0] eqn:Er; [exact (Hhex h m E L F)|]. rewrite <- Er in *.
  apply app_eq_app in E as (l & [[E1 E2]|[E1 E2]]).
  - apply (H h (l ++ z1)); [rewrite E1, <- app_assoc; reflexivity|exact L|exact F].
  - destruct Hlast as [->|(u & e & Ea & He)].
    + destruct Hr as (x & Hr). symmetry in Hr. apply app_eq_nil in Hr as [_ Hr]. congruence.
    + destruct (sx_last _ _ _ _ Hr ltac:(congruence) Ea) as (v & Ev). rewrite E1, Ev in F. rewrite Forall_forall in F.
      specialize (F e ltac:(apply in_or_app; left; apply in_or_app; right; left; reflexivity)). apply He. unfold hex_digit, word_char, letter, digit in *. lia.
Qed.
Lemma left_dim r : sx a r -> good True r -> no_dim (r ++ z1) -> no_dim (r ++ z2).
Proof.
  intros _ _ H d x Fd E. destruct B2 as (c & y & -> & Hc).
  assert (Q : exists y', r = s "[" ++ d ++ s "]" ++ y'); [|destruct Q as (y' & ->); apply (H d (y' ++ z1) Fd); rewrite <- !app_assoc; reflexivity].
  destruct r as [|d0 r]; cbn in E; [injection E as -> _; unfold letter in Hc; lia|]. injection E as -> E. clear H.
  assert (Q : exists y', r = d ++ s "]" ++ y'); [|destruct Q as (y' & ->); exists y'; reflexivity].
  revert r E. induction Fd as [|b d Hb _ IH]; intros r E; (destruct r as [|c' r]; cbn in E).
  - injection E as -> _. unfold letter in Hc. lia.
  - injection E as -> _. exists r. reflexivity.
  - injection E as -> _. unfold letter, digit in *. lia.
  - injection E as -> E. destruct (IH r E) as (y' & ->). exists y'. reflexivity.
Qed.
Definition left_some1 : True -> z1 <> [] := fun _ => begins_ne _ B1.
End Left.

(** ** What is looked at inside the new part *)
Section Right.
Variables w z : str.
Variables (u : str) (e : N).
Hypothesis Ew : w = u ++ [e].
Hypothesis He : shut e.
Hypothesis Hc : comments_apart w z.
Lemma right_last r : sx w r -> good False r -> exists v, r = v ++ [e].
Proof. intros H [Hr|[]]. eapply sx_last; eassumption. Qed.
Lemma right_lay r : sx w r -> good False r -> no_layout_start (r ++ []) -> no_layout_start (r ++ z).
Proof.
  intros Hr Hg. destruct (right_last r Hr Hg) as (v & Er). rewrite app_nil_r. intros (H1 & H2 & H3). split; [|split].
  - intros c x E. destruct r as [|d r]; [destruct v; discriminate|]. injection E as <- _. eapply H1. reflexivity.
  - intros x E. destruct r as [|d [|d' r]]; [destruct v; discriminate| |].
    + injection E as -> _. destruct v as [|? [|? ?]]; try discriminate. injection Er as <-. destruct He; discriminate.
    + injection E as -> -> _. apply (H2 r). reflexivity.
  - intros body x E. destruct r as [|d [|d' r]]; [destruct v; discriminate| |].
    + injection E as -> _. destruct v as [|? [|? ?]]; try discriminate. injection Er as <-. destruct He; discriminate.
    + injection E as -> -> E. assert (K : (exists b y, r = b ++ s "*/" ++ y) -> False) by (intros (b & y & ->); apply (H3 b y); reflexivity).
      destruct (close_split _ _ _ _ E) as [H|[(b & y & H)|((b & H) & _)]]; [exact (K H)| |].
      * destruct Hc as [Hc'|Hc']; [|exact (Hc' _ _ H)]. destruct Hr as (x0 & Hr). destruct (Hc' x0 r) as (c & d & E'); [rewrite Hr; reflexivity|]. apply K. eauto.
      * rewrite H in Er. change (47 :: 42 :: b ++ [42]) with ((47 :: 42 :: b) ++ [42]) in Er. apply last_eq in Er as <-. destruct He; discriminate.
Qed.
Lemma right_word r : sx w r -> good False r -> no_word (r ++ []) -> no_word (r ++ z).
Proof. intros Hr Hg H. destruct (right_last r Hr Hg) as (v & Er). rewrite app_nil_r in H. intros c m E. destruct r as [|d r]; [destruct v; discriminate|]. injection E as <- _. eapply H. reflexivity. Qed.
Lemma right_phrase r : sx w r -> good False r -> no_phrase (r ++ []) -> no_phrase (r ++ z).
Proof.
  intros Hr Hg [H1 H2]. split; [apply right_word; assumption|]. destruct (right_last r Hr Hg) as (v & Er). rewrite app_nil_r in *. intros c m E. destruct r as [|d [|d' r]]; [destruct v; discriminate| |].
  - injection E as -> _. destruct v as [|? [|? ?]]; try discriminate. injection Er as <-. destruct He; discriminate.
  - injection E as -> <- _. eapply H2. reflexivity.
Qed.
Lemma right_digit r : sx w r -> good False r -> no_digit (r ++ []) -> no_digit (r ++ z).
Proof. intros Hr Hg H. destruct (right_last r Hr Hg) as (v & Er). rewrite app_nil_r in H. intros c m E. destruct r as [|d r]; [destruct v; discriminate|]. injection E as <- _. eapply H. reflexivity. Qed.
Lemma right_dot r : sx w r -> good False r -> (forall m, r ++ [] <> s "." ++ m) -> (forall m, r ++ z <> s "." ++ m).
Proof. intros Hr Hg H. destruct (right_last r Hr Hg) as (v & Er). rewrite app_nil_r in H. intros m E. destruct r as [|d r]; [destruct v; discriminate|]. injection E as -> _. apply (H r). reflexivity. Qed.
Lemma right_hex r : sx w r -> good False r ->
  (forall h m, r ++ [] = h ++ m -> List.length h = 3%nat -> ~ Forall hex_digit h) ->
  (forall h m, r ++ z = h ++ m -> List.length h = 3%nat -> ~ Forall hex_digit h).
Proof.
  intros Hr Hg H h m E L F. destruct (right_last r Hr Hg) as (v & Er). rewrite app_nil_r in H. apply app_eq_app in E as (l & [[E1 E2]|[E1 E2]]).
  - exact (H h l E1 L F).
  - rewrite E1, Er in F. rewrite Forall_forall in F. specialize (F e ltac:(apply in_or_app; left; apply in_or_app; right; left; reflexivity)). destruct He as [-> | ->]; unfold hex_digit, digit in F; lia.
Qed.
Lemma right_dim r : sx w r -> good False r -> no_dim (r ++ []) -> no_dim (r ++ z).
Proof.
  intros Hr Hg H d x Fd E. destruct (right_last r Hr Hg) as (v & Er). rewrite app_nil_r in H.
  rewrite 2app_assoc in E. apply app_eq_app in E as (l & [[E1 E2]|[E1 E2]]).
  - apply (H d l Fd). rewrite E1, <- !app_assoc. reflexivity.
  - destruct l as [|c l]; [rewrite app_nil_r in E1; apply (H d [] Fd); rewrite <- E1, <- app_assoc, app_nil_r; reflexivity|].
    assert (K : In e (s "[" ++ d)).
    { assert (Hl : c :: l <> []) by discriminate. destruct (exists_last Hl) as (l' & c' & El). rewrite El, app_assoc in E1. apply app_inj_tail in E1 as [E1 _].
      rewrite E1, Er. apply in_or_app. left. apply in_or_app. right. left. reflexivity. }
    apply in_app_iff in K as [K|K]; [destruct K as [K|[]]; destruct He; subst e; discriminate|]. rewrite Forall_forall in Fd. apply Fd in K. destruct He as [-> | ->]; unfold digit in K; lia.
Qed.
End Right.
