(** * Python building blocks used by the model

    Results with exceptions and insertion-ordered dictionaries (CPython >= 3.7
    [dict]).  Nothing here is specific to compas_cem. *)

From Coq Require Import List ZArith Bool String.
Import ListNotations.
Open Scope Z_scope.

(** Exceptions raised by the modelled code.  The string is the start of the
    message where the code gives one ("" for exceptions raised by Python). *)
Inductive exn : Type :=
| KeyError
| ValueError (msg : string)
| AssertionError (msg : string)
| AttributeError
| TypeError
| IndexError
| ZeroDivisionError
| UnboundLocalError
| OutOfFuel (** never raised by Python: the model ran out of loop fuel *).

Inductive res (A : Type) : Type :=
| Ok (a : A)
| Err (e : exn).
Arguments Ok {A} a.
Arguments Err {A} e.

Definition bind {A B} (x : res A) (f : A -> res B) : res B :=
  match x with
  | Ok a => f a
  | Err e => Err e
  end.

Notation "'let*' x := e 'in' f" := (bind e (fun x => f))
  (at level 61, x pattern, e at next level, f at next level, right associativity).

(** A loop whose body may raise and that has no other effect than its state. *)
Fixpoint fold_res {S A} (body : S -> A -> res S) (l : list A) (s : S) : res S :=
  match l with
  | [] => Ok s
  | a :: l => let* s' := body s a in fold_res body l s'
  end.

(** [ [f(a) for a in l] ] with a raising [f]. *)
Fixpoint map_res {A B} (f : A -> res B) (l : list A) : res (list B) :=
  match l with
  | [] => Ok []
  | a :: l => let* b := f a in let* bs := map_res f l in Ok (b :: bs)
  end.

(** [ [a for a in l if p(a)] ] with a raising [p]. *)
Fixpoint filter_res {A} (p : A -> res bool) (l : list A) : res (list A) :=
  match l with
  | [] => Ok []
  | a :: l =>
      let* b := p a in
      let* r := filter_res p l in
      Ok (if b then a :: r else r)
  end.

(** Effectful computations on a mutable object of type [S]: the object survives
    an exception in the state it had when the exception was raised. *)
Definition eff (S A : Type) : Type := S -> S * res A.

Definition eret {S A} (a : A) : eff S A := fun s => (s, Ok a).
Definition eraise {S A} (e : exn) : eff S A := fun s => (s, Err e).
Definition ebind {S A B} (m : eff S A) (f : A -> eff S B) : eff S B :=
  fun s => match m s with
           | (s', Ok a) => f a s'
           | (s', Err e) => (s', Err e)
           end.
Notation "'do*' x := m 'in' f" := (ebind m (fun x => f))
  (at level 61, x pattern, m at next level, f at next level, right associativity).

(** Reading from the object, possibly raising, without changing it. *)
Definition eget {S A} (f : S -> res A) : eff S A := fun s => (s, f s).

(** [for a in l: body(a)] with an accumulator. *)
Fixpoint eloop {S X A} (body : X -> A -> eff S X) (l : list A) (x : X) : eff S X :=
  match l with
  | [] => eret x
  | a :: l => do* x' := body x a in eloop body l x'
  end.

(** ** Keys with decidable equality *)

Class Eqb (K : Type) := {
  eqb : K -> K -> bool;
  eqb_spec : forall x y, reflect (x = y) (eqb x y)
}.

#[global] Instance Eqb_Z : Eqb Z := {| eqb := Z.eqb; eqb_spec := Z.eqb_spec |}.

#[global] Instance Eqb_nat : Eqb nat := {| eqb := Nat.eqb; eqb_spec := Nat.eqb_spec |}.

#[global] Program Instance Eqb_pair {A B} `{Eqb A} `{Eqb B} : Eqb (A * B) :=
  {| eqb := fun x y => eqb (fst x) (fst y) && eqb (snd x) (snd y) |}.
Next Obligation.
  cbn. destruct (eqb_spec a0 a) as [->|n]; cbn.
  - destruct (eqb_spec b0 b) as [->|n']; constructor; congruence.
  - constructor; congruence.
Defined.

(** Membership in a Python list or set of keys. *)
Definition memb {K} `{Eqb K} (k : K) (l : list K) : bool := existsb (eqb k) l.

(** ** Dictionaries *)

Definition dict (K V : Type) : Type := list (K * V).

Section Dict.
  Context {K V : Type} `{Eqb K}.

  (** [d.get(k)] *)
  Fixpoint dget (d : dict K V) (k : K) : option V :=
    match d with
    | [] => None
    | (k', v) :: d => if eqb k k' then Some v else dget d k
    end.

  (** [k in d] *)
  Definition dmem (d : dict K V) (k : K) : bool :=
    match dget d k with Some _ => true | None => false end.

  (** [d[k] = v]: an existing key keeps its position, a new one goes last. *)
  Fixpoint dset (d : dict K V) (k : K) (v : V) : dict K V :=
    match d with
    | [] => [(k, v)]
    | (k', v') :: d => if eqb k k' then (k', v) :: d else (k', v') :: dset d k v
    end.

  (** [del d[k]] for a key that is present. *)
  Fixpoint ddel (d : dict K V) (k : K) : dict K V :=
    match d with
    | [] => []
    | (k', v') :: d => if eqb k k' then d else (k', v') :: ddel d k
    end.

  (** [d[k]] *)
  Definition dgetr (d : dict K V) (k : K) : res V :=
    match dget d k with Some v => Ok v | None => Err KeyError end.

  Definition dkeys (d : dict K V) : list K := map fst d.
  Definition dvalues (d : dict K V) : list V := map snd d.
End Dict.
