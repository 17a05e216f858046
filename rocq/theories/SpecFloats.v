(** * What a floating-point number is

    The words in which the statements about binary64 numbers are made. *)

From Coq Require Import ZArith Bool Reals Floats SpecFloat.
Open Scope Z_scope.

(** The real number a float stands for; infinities and NaN stand for none. *)
Definition number (x : float) : option R :=
  match Prim2SF x with
  | S754_zero _ => Some 0%R
  | S754_finite s m e => Some ((if s then -1 else 1) * IZR (Zpos m) * powerRZ 2 e)%R
  | _ => None
  end.

(** The sign bit is set: negative numbers, minus zero and minus infinity *)
Definition negative (x : float) : bool :=
  match Prim2SF x with
  | S754_zero s | S754_infinity s | S754_finite s _ _ => s
  | S754_nan => false
  end.

(** Two coordinates agree to [p] decimals: they stand for numbers that are at most one unit of
    the last decimal apart, or they are the same infinity, or both are NaN. *)
Definition agree (p : nat) (x y : float) : Prop :=
  match number x, number y with
  | Some a, Some b => (Rabs (a - b) <= / 10 ^ p)%R
  | None, None => Prim2SF x = Prim2SF y
  | _, _ => False
  end.
