(** * Scalars and vectors

    The model is generic in the scalar type.  Two instances are provided: the
    real numbers, for theorems of statics and geometry, and primitive binary64
    floats, which is what CPython computes with. *)

From Coq Require Import List ZArith Bool Reals Floats.
From Verif Require Import Py.
Import ListNotations.

(** One formatted coordinate ["{:.Nf}"]: the rounded number of units of the last
    decimal, or the code of a non-finite float. *)
Inductive gcoord : Type :=
| GFin (z : Z)
| GSpecial (z : Z).

Definition gcoord_eqb (a b : gcoord) : bool :=
  match a, b with
  | GFin x, GFin y => Z.eqb x y
  | GSpecial x, GSpecial y => Z.eqb x y
  | _, _ => false
  end.

#[global] Program Instance Eqb_gcoord : Eqb gcoord := {| eqb := gcoord_eqb |}.
Next Obligation.
  destruct x, y; cbn; try (constructor; congruence);
    destruct (Z.eqb_spec z z0); constructor; congruence.
Defined.

(** The scalar operations the code uses. *)
Class NumOps (T : Type) := {
  n0 : T;
  n1 : T;
  nadd : T -> T -> T;
  nsub : T -> T -> T;
  nmul : T -> T -> T;
  ndiv : T -> T -> T;
  nopp : T -> T;
  nabs : T -> T;           (* math.fabs *)
  nsqrt : T -> T;          (* math.sqrt *)
  ncopysign : T -> T -> T; (* math.copysign *)
  nltb : T -> T -> bool;   (* < *)
  neqb : T -> T -> bool;   (* == *)
  neps6 : T;               (* the literal 1e-6 *)
  nround : nat -> T -> gcoord (* "{:.Nf}".format(x), up to the sign of zero *)
}.

(** Python truth value of a float: false for zero only. *)
Definition ntruthy {T} `{NumOps T} (x : T) : bool := negb (neqb x n0).

(** ** 3-vectors (Python lists of three floats) *)

Record vec (T : Type) : Type := V3 { vx : T; vy : T; vz : T }.
Arguments V3 {T} _ _ _.
Arguments vx {T} _.
Arguments vy {T} _.
Arguments vz {T} _.

Section Vec.
  Context {T : Type} `{NumOps T}.

  (** [0.0, 0.0, 0.0] *)
  Definition vzero : vec T := V3 n0 n0 n0.

  (** compas.geometry.add_vectors *)
  Definition add_vectors (u v : vec T) : vec T :=
    V3 (nadd (vx u) (vx v)) (nadd (vy u) (vy v)) (nadd (vz u) (vz v)).

  (** compas.geometry.subtract_vectors *)
  Definition subtract_vectors (u v : vec T) : vec T :=
    V3 (nsub (vx u) (vx v)) (nsub (vy u) (vy v)) (nsub (vz u) (vz v)).

  (** compas.geometry.scale_vector *)
  Definition scale_vector (v : vec T) (s : T) : vec T :=
    V3 (nmul (vx v) s) (nmul (vy v) s) (nmul (vz v) s).

  (** compas.geometry.dot_vectors *)
  Definition dot_vectors (u v : vec T) : T :=
    nadd (nadd (nmul (vx u) (vx v)) (nmul (vy u) (vy v))) (nmul (vz u) (vz v)).

  (** compas.geometry.length_vector_sqrd *)
  Definition length_vector_sqrd (v : vec T) : T :=
    nadd (nadd (nmul (vx v) (vx v)) (nmul (vy v) (vy v))) (nmul (vz v) (vz v)).

  (** compas.geometry.length_vector *)
  Definition length_vector (v : vec T) : T := nsqrt (length_vector_sqrd v).

  (** compas.geometry.normalize_vector: a vector of length zero is returned as is. *)
  Definition normalize_vector (v : vec T) : vec T :=
    let l := length_vector v in
    if ntruthy l then V3 (ndiv (vx v) l) (ndiv (vy v) l) (ndiv (vz v) l) else v.

  (** compas.geometry.distance_point_point *)
  Definition distance_point_point (a b : vec T) : T :=
    length_vector (subtract_vectors b a).

  (** compas.geometry.distance_point_point_sqrd *)
  Definition distance_point_point_sqrd (a b : vec T) : T :=
    length_vector_sqrd (subtract_vectors b a).
End Vec.

(** ** Real numbers *)

Definition Rltb (x y : R) : bool := if Rlt_dec x y then true else false.
Definition Reqb (x y : R) : bool := if Req_EM_T x y then true else false.

(** Round to the nearest integer, ties to even. *)
Definition Rround_half_even (r : R) : Z :=
  let f := Int_part r in
  let d := (r - IZR f)%R in
  if Rlt_dec d (/ 2) then f
  else if Rlt_dec (/ 2) d then (f + 1)%Z
       else if Z.even f then f else (f + 1)%Z.

#[global] Instance R_ops : NumOps R := {|
  n0 := 0%R;
  n1 := 1%R;
  nadd := Rplus;
  nsub := Rminus;
  nmul := Rmult;
  ndiv := Rdiv;
  nopp := Ropp;
  nabs := Rabs;
  nsqrt := R_sqrt.sqrt;
  ncopysign := fun x y => if Rlt_dec y 0 then (- Rabs x)%R else Rabs x;
  nltb := Rltb;
  neqb := Reqb;
  neps6 := (/ 1000000)%R;
  nround := fun p x => GFin (Rround_half_even (x * pow 10 p))
|}.

(** ** Binary64 *)

(** Sign bit of a float (false for NaN, whose sign CPython exposes but the code
    never inspects). *)
Definition fsign (x : float) : bool :=
  (x <? 0)%float || ((x =? 0)%float && (1 / x <? 0)%float).

Definition fcopysign (x y : float) : float :=
  if fsign y then (- abs x)%float else abs x.

(** [floor (n / d + 1/2)] with ties to even, for [0 <= n], [0 < d]. *)
Definition div_half_even (n d : Z) : Z :=
  let q := Z.div n d in
  let r := Z.modulo n d in
  match Z.compare (2 * r) d with
  | Lt => q
  | Gt => (q + 1)%Z
  | Eq => if Z.even q then q else (q + 1)%Z
  end.

(** ["{:.pf}".format(x)]: correctly rounded from the exact binary value. *)
Definition fround (p : nat) (x : float) : gcoord :=
  match Prim2SF x with
  | S754_zero _ => GFin 0
  | S754_infinity false => GSpecial 1
  | S754_infinity true => GSpecial 2
  | S754_nan => GSpecial 3
  | S754_finite s m e =>
      let n := (Zpos m * 10 ^ Z.of_nat p)%Z in
      let a := match e with
               | Zneg e' => div_half_even n (2 ^ Zpos e')%Z
               | _ => (n * 2 ^ e)%Z
               end in
      GFin (if s then - a else a)%Z
  end.

#[global] Instance F_ops : NumOps float := {|
  n0 := 0%float;
  n1 := 1%float;
  nadd := PrimFloat.add;
  nsub := PrimFloat.sub;
  nmul := PrimFloat.mul;
  ndiv := PrimFloat.div;
  nopp := PrimFloat.opp;
  nabs := PrimFloat.abs;
  nsqrt := PrimFloat.sqrt;
  ncopysign := fcopysign;
  nltb := PrimFloat.ltb;
  neqb := PrimFloat.eqb;
  neps6 := 0x1.0c6f7a0b5ed8dp-20%float;
  nround := fround
|}.
