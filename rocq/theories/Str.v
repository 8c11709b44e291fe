(** * Str: Rust's [char], [str] and [String].

    A Rust [&str] is a valid UTF-8 byte sequence, i.e. exactly a sequence of
    Unicode scalar values.  We model a [char] by its code point (an [N]) and a
    string by the list of its chars; byte lengths and byte offsets (what
    [str::len], [pest::Span] and [Range<usize>] talk about) are computed with
    [ulen]/[blen].  Simplification: [N] also contains numbers that are not
    scalar values; every theorem quantifies over all of them, hence in
    particular over the real strings.  [usize] offsets are unbounded [N]
    (an in-memory [&str] has fewer than 2^63 bytes). *)

From Coq Require Export List NArith ZArith Bool Lia.
From Coq Require Export String Ascii.
Export ListNotations.
#[global] Open Scope list_scope.
#[global] Open Scope N_scope.

Definition char : Set := N.
Definition str : Set := list char.

(** Coq string literal to model string (ASCII only). *)
Fixpoint s (x : string) : str :=
  match x with
  | EmptyString => []
  | String c x' => N_of_ascii c :: s x'
  end.

(** [char::len_utf8] *)
Definition ulen (c : char) : N :=
  if c <? 128 then 1 else if c <? 2048 then 2 else if c <? 65536 then 3 else 4.

(** [str::len]: length in bytes. *)
Fixpoint blen (x : str) : N :=
  match x with
  | [] => 0
  | c :: x' => ulen c + blen x'
  end.

(** [str] equality ([==] on [String]/[&str]). *)
Fixpoint str_eqb (a b : str) : bool :=
  match a, b with
  | [], [] => true
  | x :: a', y :: b' => (x =? y) && str_eqb a' b'
  | _, _ => false
  end.

Lemma str_eqb_eq a b : str_eqb a b = true <-> a = b.
Proof.
  revert b; induction a as [|x a IH]; intros [|y b]; cbn [str_eqb]; try (split; congruence).
  rewrite andb_true_iff, N.eqb_eq, IH. split; [intros [-> ->]; reflexivity | intros H; injection H; auto].
Qed.

Lemma str_eqb_refl a : str_eqb a a = true.
Proof. apply str_eqb_eq; reflexivity. Qed.

Lemma str_eqb_neq a b : str_eqb a b = false <-> a <> b.
Proof.
  destruct (str_eqb a b) eqn:E; split; try congruence.
  - apply str_eqb_eq in E. congruence.
  - intros _ ->. rewrite str_eqb_refl in E. discriminate.
Qed.

Lemma str_eqb_spec a b : reflect (a = b) (str_eqb a b).
Proof. destruct (str_eqb a b) eqn:E; constructor; [apply str_eqb_eq|apply str_eqb_neq]; exact E. Qed.

Lemma str_eq_dec (a b : str) : {a = b} + {a <> b}.
Proof. destruct (str_eqb_spec a b); auto. Qed.

(** [str::is_char_boundary]. *)
Fixpoint is_boundary (x : str) (n : N) : bool :=
  if n =? 0 then true
  else match x with
       | [] => false
       | c :: x' => if n <? ulen c then false else is_boundary x' (n - ulen c)
       end.

(** Byte slicing [&x[a..b]] as the total function [str::get]: [None] where Rust
    returns [None] (indexing would panic). *)
Fixpoint drop_bytes (x : str) (n : N) : option str :=
  if n =? 0 then Some x
  else match x with
       | [] => None
       | c :: x' => if n <? ulen c then None else drop_bytes x' (n - ulen c)
       end.

Fixpoint take_bytes (x : str) (n : N) : option str :=
  if n =? 0 then Some []
  else match x with
       | [] => None
       | c :: x' => if n <? ulen c then None
                    else match take_bytes x' (n - ulen c) with
                         | Some t => Some (c :: t)
                         | None => None
                         end
       end.

Definition slice (x : str) (a b : N) : option str :=
  if a <=? b then
    match drop_bytes x a with
    | Some y => take_bytes y (b - a)
    | None => None
    end
  else None.

(** [core::ops::Range<usize>] as used for every [span_range]. *)
Definition range : Set := (N * N)%type.

(** [str::split('.')] — returns the pieces. *)
Fixpoint split_on (d : char) (x : str) : list str :=
  match x with
  | [] => [[]]
  | c :: x' =>
      if c =? d then [] :: split_on d x'
      else match split_on d x' with
           | p :: ps => (c :: p) :: ps
           | [] => [[c]]
           end
  end.

Definition mem_str (x : str) (l : list str) : bool := existsb (str_eqb x) l.

Lemma mem_str_In x l : mem_str x l = true <-> In x l.
Proof.
  unfold mem_str. rewrite existsb_exists. split.
  - intros (y & Hy & E). apply str_eqb_eq in E. congruence.
  - intros H. exists x. split; [exact H | apply str_eqb_refl].
Qed.

(** Decimal digits of a natural number ([format!("{v}")] on unsigned integers). *)
Fixpoint dec_digits_aux (fuel : nat) (n : N) (acc : str) : str :=
  match fuel with
  | O => acc
  | S f => let acc' := (48 + n mod 10) :: acc in
           if n <? 10 then acc' else dec_digits_aux f (n / 10) acc'
  end.
Definition dec_of_N (n : N) : str := dec_digits_aux (S (N.to_nat (N.log2 n))) n [].
Definition dec_of_Z (z : Z) : str :=
  match z with
  | Z0 => s "0"
  | Zpos p => dec_of_N (Npos p)
  | Zneg p => s "-" ++ dec_of_N (Npos p)
  end.

(** Value of a digit string. *)
Definition digit_val (c : char) : N := c - 48.
Definition N_of_digits (x : str) : N := fold_left (fun a c => 10 * a + digit_val c) x 0.
