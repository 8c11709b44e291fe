(** * F64: the part of [f64] the crate uses — parsing an unsigned decimal literal
    ([str::parse::<f64>], src/parser/mod.rs:838), equality (derived [PartialEq] of
    [Value], src/ast/unit.rs:61) and [Display] (src/ast/unit.rs:92).

    A literal is always [digits "." digits*], hence non-negative and finite or
    infinite; no NaN and no sign can arise.  [f64::from_str] rounds to nearest, ties
    to even; [Display] prints the shortest digit string that reads back to the same
    number, the closest one among those, without exponent. *)

From Verif Require Export Str.

(** [FFin m e] is [m * 2^e], normalised: [2^52 <= m < 2^53], or [m < 2^52] and
    [e = -1074]. *)
Inductive f64 : Set :=
| FFin (m : N) (e : Z)
| FInf.

Definition f64_eqb (a b : f64) : bool :=
  match a, b with
  | FFin m e, FFin m' e' => (m =? m') && Z.eqb e e'
  | FInf, FInf => true
  | _, _ => false
  end.

(** num/den scaled by 2^-e, as a fraction of naturals. *)
Definition scale2 (num den : N) (e : Z) : N * N :=
  match e with
  | Z0 => (num, den)
  | Zpos p => (num, N.shiftl den (Npos p))
  | Zneg p => (N.shiftl num (Npos p), den)
  end.

Definition rne (num den : N) : N :=
  let q := num / den in
  let r := num mod den in
  match 2 * r ?= den with
  | Lt => q
  | Gt => q + 1
  | Eq => if N.even q then q else q + 1
  end.

(** Nearest binary64 to num/den (den > 0). *)
Definition f64_of_ratio (num den : N) : f64 :=
  if num =? 0 then FFin 0 (-1074) else
  let e0 := (Z.of_N (N.log2 num) - Z.of_N (N.log2 den) - 52)%Z in
  (* floor(log2 (num/den)) is log2 num - log2 den or one less *)
  let '(n0, d0) := scale2 num den e0 in
  let e1 := if n0 / d0 <? 2 ^ 52 then (e0 - 1)%Z else e0 in
  let e2 := Z.max e1 (-1074) in
  let '(n2, d2) := scale2 num den e2 in
  let q := rne n2 d2 in
  let '(m, e) := if q =? 2 ^ 53 then (2 ^ 52, (e2 + 1)%Z) else (q, e2) in
  if (971 <? e)%Z then FInf else FFin m e.

(** [parse::<f64>] of "ip.fp" *)
Definition f64_of_parts (ip fp : str) : f64 :=
  f64_of_ratio (N_of_digits (ip ++ fp)) (10 ^ N.of_nat (List.length fp)).

(** Split a literal at its (only) dot. *)
Definition f64_of_lit (x : str) : f64 :=
  match split_on 46 x with
  | [ip; fp] => f64_of_parts ip fp
  | _ => f64_of_parts x []
  end.

(** Ratio of naturals equal to m * 2^e * 10^(-k). *)
Definition ratio10 (m : N) (e k : Z) : N * N :=
  let '(n, d) := match e with
                 | Z0 => (m, 1)
                 | Zpos p => (N.shiftl m (Npos p), 1)
                 | Zneg p => (m, N.shiftl 1 (Npos p))
                 end in
  match k with
  | Z0 => (n, d)
  | Zpos p => (n, d * 10 ^ Npos p)
  | Zneg p => (n * 10 ^ Npos p, d)
  end.

Definition f64_of_dec (d : N) (k : Z) : f64 :=
  match k with
  | Zneg p => f64_of_ratio d (10 ^ Npos p)
  | _ => f64_of_ratio (d * 10 ^ Z.to_N k) 1
  end.

(** Try to represent the value with [d * 10^k] for the given [k]. *)
Definition try_k (m : N) (e : Z) (v : f64) (k : Z) : option N :=
  let '(n, d) := ratio10 m e k in
  let lo := n / d in
  let near := rne n d in
  if f64_eqb (f64_of_dec near k) v then Some near
  else if f64_eqb (f64_of_dec lo k) v then Some lo
  else if f64_eqb (f64_of_dec (lo + 1) k) v then Some (lo + 1)
  else None.

Fixpoint shortest (fuel : nat) (m : N) (e : Z) (v : f64) (k : Z) : N * Z :=
  match fuel with
  | O => (0, 0%Z)
  | S f => match try_k m e v k with
           | Some d => if d =? 0 then shortest f m e v (k - 1) else (d, k)
           | None => shortest f m e v (k - 1)
           end
  end.

Fixpoint strip_zeros (fuel : nat) (d : N) (k : Z) : N * Z :=
  match fuel with
  | O => (d, k)
  | S f => if (d mod 10 =? 0) && negb (d =? 0) then strip_zeros f (d / 10) (k + 1) else (d, k)
  end.

Definition zeros (n : nat) : str := List.repeat (48 : N) n.

(** [Display] for [d * 10^k]. *)
Definition show_dec (d : N) (k : Z) : str :=
  let ds := dec_of_N d in
  match k with
  | Zneg p =>
      let n := Pos.to_nat p in
      let len := List.length ds in
      if Nat.leb len n then s "0." ++ zeros (n - len) ++ ds
      else firstn (len - n) ds ++ s "." ++ skipn (len - n) ds
  | _ => ds ++ zeros (Z.to_nat k)
  end.

Definition f64_to_string (v : f64) : str :=
  match v with
  | FInf => s "inf"
  | FFin m e =>
      if m =? 0 then s "0" else
      (* floor(log10 v) <= 0.30103 * (log2 m + e) + 1 *)
      let b := (Z.of_N (N.log2 m) + e)%Z in
      let k0 := (b * 30103 / 100000 + 2)%Z in
      let '(d, k) := shortest 24 m e v k0 in
      let '(d, k) := strip_zeros 400 d k in
      show_dec d k
  end.
