(** * PropsFaults: which of a text's misfits is reported.

    [faults t l] (Faults): [t] is a DBML text, and [l] lists everything written in it that
    the AST cannot hold, in the order of the text, each with its message and its extent. *)

From Coq Require Import Sorted.
From Verif Require Import Samples FaultsMain SynEval LexRules SynMain.
From Verif Require Import Api Parser Faults Syntax.

Theorem C68_reported : forall t m sp, parse_dbml_unchecked t = Some (Err (ErMsg m sp)) <-> exists l, faults t ((m, sp) :: l).
Proof. exact first_fault. Qed.
Print Assumptions C68_reported.
Theorem C68_reported_checked : forall t m sp, parse_dbml t = Some (Err (ErMsg m sp)) <-> exists l, faults t ((m, sp) :: l).
Proof. exact first_fault_checked. Qed.
Print Assumptions C68_reported_checked.
Theorem C68_accepted : forall t, (exists x, parse_dbml_unchecked t = Some (Ok x)) <-> faults t [].
Proof. exact no_fault. Qed.
Print Assumptions C68_accepted.
Theorem C68_every_text : forall t, (exists l, faults t l) <-> exists a, dbml_text t a.
Proof. exact faults_defined. Qed.
Print Assumptions C68_every_text.
Theorem C68_one_list : forall t l l', faults t l -> faults t l' -> l = l'.
Proof. exact faults_unique. Qed.
Print Assumptions C68_one_list.
Theorem C68_none_iff_fits : forall t a, dbml_text t a -> (fits a <-> faults t []).
Proof. exact faults_fit. Qed.
Print Assumptions C68_none_iff_fits.
(** In order of where they end, and in the text. *)
Theorem C68_order : forall t l, faults t l ->
  Forall (fun f => 0 <= fst (snd f) /\ fst (snd f) <= snd (snd f) /\ snd (snd f) <= blen t) l /\
  StronglySorted (fun f g => snd (snd f) <= snd (snd g)) l.
Proof. exact faults_ordered. Qed.
Print Assumptions C68_order.

(** Two misfits in a table, the first in a type. *)
Definition too_many : str := s "Table a{b int[3][4294967296] [default: 9223372036854775808]}".
Example C68_meets : exists l, faults too_many ((too_large, (17, 27)) :: l).
Proof. apply first_fault. vm_compute. reflexivity. Qed.
(** A misfit after a reference's action, which is reported. *)
Example C68_meets_action : exists l, faults (s "Ref: a.b > c.d[update: nothing] Project p {x: 9223372036854775808}") ((s "invalid referential action", (15, 30)) :: l).
Proof. apply first_fault. vm_compute. reflexivity. Qed.
(** Two misfits, both listed; the first is the error. *)
Definition two : str := s "Project p{a:9223372036854775808 b:99999999999999999999}".
Example C68_two : faults two [(too_large, (12, 31)); (too_large, (34, 54))].
Proof.
  assert (D : forall d, forallb (fun c => (48 <=? c) && (c <=? 57)) d = true -> d <> [] -> digits d).
  { intros d H Hn. split; [exact Hn|]. apply Forall_forall. intros c Hc. rewrite forallb_forall in H. specialize (H c Hc). apply andb_prop in H as [H1 H2].
    apply N.leb_le in H1, H2. split; assumption. }
  assert (K : forall k, any_case k k) by (intros k; induction k; constructor; [left; reflexivity|assumption]).
  assert (W : forall a b c d m r, word_char c -> ~ word_char d -> d <> 32 -> letter c -> lay (d :: m) r -> span two ([c] ++ d :: m) (d :: m) = (a, b) ->
    next (key_at two) ([c] ++ d :: m) r (mkIdent (a, b) [c] [c])).
  { intros a b c d m r H1 H2 H3 H4 H5 H6. exists (d :: m). split; [|exact H5]. split; [reflexivity|]. split; [symmetry; exact H6|]. split; [reflexivity|].
    split; [exists c, []; auto using st_nil|]. split; [intros c' x [= <- _]; exact H2|intros c' x [= E _]; congruence]. }
  assert (P : forall c d x m r z, letter c -> digits d -> x = d ++ m -> lay x x -> no_digit m -> (forall m', m <> s "." ++ m') -> lay m r ->
    z = value_faults (VInteger (Z.of_N (digits_value 0 d))) (span two x m) -> next (project_item_f two) (c :: 58 :: x) r z).
  { intros c d x m r z Hc Hd -> Hl Hn Hm Hr ->. exists m. split; [|exact Hr]. right.
    apply (property_faults two (c :: 58 :: d ++ m) (58 :: d ++ m) (d ++ m) m (mkIdent (span two (c :: 58 :: d ++ m) (58 :: d ++ m)) [c] [c]) (VInteger (Z.of_N (digits_value 0 d)))).
    - apply (W _ _ c 58 (d ++ m)); [left; exact Hc|unfold word_char, letter, digit; lia|discriminate|exact Hc| |apply surjective_pairing].
      apply lay_self, fin_solid, solid_char; [not_ws|discriminate].
    - exists (d ++ m). split; [reflexivity|exact Hl].
    - left. apply va_int; assumption.
    - intros [_ (w & [=])]. }
  exists two, [[(too_large, (12, 31)); (too_large, (34, 54))]]. split; [apply lay_fin; vm_compute; reflexivity|]. split; [|reflexivity].
  eapply many_cons; [|apply many_nil]. exists []. split; [|apply lay_fin; reflexivity]. left.
  apply (project_faults two two (skipn 8 two) (skipn 9 two) [] (mkIdent (8, 9) (s "p") (s "p")) [[(too_large, (12, 31))]; [(too_large, (34, 54))]]).
  - exists (s "Project "), (skipn 8 two). split; [reflexivity|]. split; [apply K|apply lay_fin; vm_compute; reflexivity].
  - exists (skipn 9 two). split; [|apply lay_fin; vm_compute; reflexivity]. split; [reflexivity|]. split; [reflexivity|]. left. split; [reflexivity|]. split.
    + exists 112, []. split; [reflexivity|]. split; [unfold letter; lia|constructor].
    + intros c x [= <- _]. unfold word_char, letter, digit. lia.
  - exists (skipn 10 two). split; [exists (skipn 10 two); split; [reflexivity|apply lay_fin; vm_compute; reflexivity]|].
    eapply (many_cons _ (skipn 10 two) (skipn 32 two)); [|eapply (many_cons _ (skipn 32 two) (s "}")); [|apply many_nil]].
    + apply (P 97 (s "9223372036854775808") (skipn 12 two) (skipn 31 two)); try (apply lay_fin); try reflexivity.
      * unfold letter; lia.
      * apply D; [reflexivity|discriminate].
      * intros c x [= <- _]. unfold digit. lia.
      * discriminate.
    + apply (P 98 (s "99999999999999999999") (skipn 34 two) (skipn 54 two)); try (apply lay_fin); try reflexivity.
      * unfold letter; lia.
      * apply D; [reflexivity|discriminate].
      * intros c x [= <- _]. unfold digit. lia.
      * discriminate.
Qed.
