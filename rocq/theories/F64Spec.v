(** * F64Spec: which binary64 number a decimal literal stands for (specification only). *)

From Coq Require Import QArith Qabs.
From Verif Require Import F64.

(** The number [m * 2^e]. *)
Definition bin (m : N) (e : Z) : Q := (inject_Z (Z.of_N m) * 2 ^ e)%Q.
(** The finite binary64 numbers that are not negative, and the form each is kept in. *)
Definition finite64 (m : N) (e : Z) : Prop := (m < 2 ^ 53)%N /\ (-1074 <= e <= 971)%Z.
Definition normal64 (m : N) (e : Z) : Prop := finite64 m e /\ (e = -1074 \/ 2 ^ 52 <= Z.of_N m)%Z.
(** Half way between the largest finite number and [2^1024]. *)
Definition overflow : Q := ((2 ^ 53 - (1 # 2)) * 2 ^ 971)%Q.

(** [v] is the binary64 number nearest to [x]: infinity from [overflow] on; below it the
    finite number nearest to [x], the one with even mantissa of two equally near. *)
Definition nearest64 (x : Q) (v : f64) : Prop :=
  match v with
  | FInf => (overflow <= x)%Q
  | FFin m e =>
      (x < overflow)%Q /\ normal64 m e /\
      forall m' e', finite64 m' e' ->
        (Qabs (x - bin m e) <= Qabs (x - bin m' e'))%Q /\
        ((Qabs (x - bin m e) == Qabs (x - bin m' e'))%Q -> (bin m e == bin m' e')%Q \/ N.even m = true)
  end.

(** Decimal value of a digit string. *)
Fixpoint digits_value (acc : N) (d : str) : N :=
  match d with
  | [] => acc
  | c :: d' => digits_value (10 * acc + (c - 48))%N d'
  end.
(** The value of the literal [d1 "." d2]. *)
Definition decimal_value (d1 d2 : str) : Q :=
  (inject_Z (Z.of_N (digits_value 0 (d1 ++ d2))) / 10 ^ Z.of_nat (List.length d2))%Q.
