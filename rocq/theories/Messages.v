(** * What form finding says while it runs

    compas_cem/equilibrium/force.py again, with what it prints and the calls of the function
    given as [callback].  Messages name the edge; the vectors and the plane that are printed
    too are left out.  The callback returns, and does not change the topology. *)

From Coq Require Import List ZArith Bool String.
From Verif Require Import Py Num Diagram Topology Equilibrium.
Import ListNotations.
Open Scope Z_scope.

Inductive message :=
| NoIntersection (e : ekey)     (* "Warning! No intersection found ..." (force.py:136-138) *)
| Flipped (e : ekey)            (* "Warning! Force state has flipped ..." (force.py:143) *)
| Called                        (* callback() (force.py:162-163) *)
| Completed (t : nat).          (* "Completed Equilibrium in {t} iters." (force.py:185-187) *)

(** What is said, and the result; what was said before an exception stays said. *)
Definition out (A : Type) : Type := list message * res A.
Definition oret {A} (a : A) : out A := ([], Ok a).
Definition olift {A} (r : res A) : out A := ([], r).
Definition osay (m : message) : out unit := ([m], Ok tt).
Definition obind {A B} (x : out A) (f : A -> out B) : out B :=
  match snd x with
  | Ok a => let y := f a in (fst x ++ fst y, snd y)
  | Err e => (fst x, Err e)
  end.
Fixpoint ofold {S A} (f : S -> A -> out S) (l : list A) (s : S) : out S :=
  match l with
  | [] => oret s
  | a :: l => obind (f s a) (ofold f l)
  end.
Notation "'let+' x ':=' e 'in' f" := (obind e (fun x => f)) (at level 61, x binder, e at next level, right associativity).

Section Messages.
  Context {T : Type} `{NumOps T}.

  (** The signed length of a trail edge (force.py:124-145) *)
  Definition trail_edge_length_out (edge : ekey) (a : edge_attr T) (pos rvec : vec T) : out T :=
    let length := ea_length a in
    match ea_plane a with
    | None => oret length
    | Some plane =>
        match trail_length_from_plane pos rvec plane neps6 with
        | Some plength =>
            if ntruthy plength then
              if nltb (nmul plength length) n0
              then let+ _ := osay (Flipped edge) in oret plength
              else oret plength
            else let+ _ := osay (NoIntersection edge) in oret length
        | None => let+ _ := osay (NoIntersection edge) in oret length
        end
    end.

  (** The body of the loop over trails (force.py:90-163) *)
  Definition visit_out (d : diagram T) (ts : dict Z (dict Z Z)) (kmax : option Z) (callback : bool) (indirect : bool)
             (k : Z) (st : eqstate T) (key : Z) : out (eqstate T) :=
    let+ m := olift (dgetr ts key) in
    match dget m k with
    | None => oret st
    | Some node =>
        let+ pos := olift (dgetr (s_xyz st) node) in
        let+ rin := olift (dgetr (s_res st) node) in
        let+ rvec := olift (node_equilibrium d node rin (s_xyz st) indirect) in
        let+ sup := olift (is_node_support d node) in
        if sup || match kmax with Some km => Z.eqb k km | None => false end then
          oret (mkEq (s_xyz st) (s_res st) (dset (s_reac st) node rvec) (s_tforce st) (s_tdir st))
        else
          let+ next := olift (dgetr m (k + 1)) in
          let edge := trail_edge_key d node next in
          let+ a := olift (edge_get d edge) in
          let+ length := trail_edge_length_out edge a pos rvec in
          let nrvec := normalize_vector rvec in
          let next_pos := add_vectors pos (scale_vector nrvec length) in
          let+ _ := if callback then osay Called else oret tt in
          oret (mkEq (dset (s_xyz st) next next_pos)
                     (dset (s_res st) next rvec)
                     (s_reac st)
                     (dset (s_tforce st) edge (ncopysign (length_vector rvec) length))
                     (dset (s_tdir st) edge nrvec))
    end.

  (** One iteration over all sequences and trails (force.py:88-163) *)
  Definition sweep_out (d : diagram T) (ts : dict Z (dict Z Z)) (kmax : option Z) (callback : bool) (indirect : bool)
             (st : eqstate T) : out (eqstate T) :=
    let+ n := olift (number_of_sequences d) in
    ofold (fun st k => ofold (visit_out d ts kmax callback indirect k) (dkeys (trails d)) st) (zrange n) st.

  (** The loop over iterations (force.py:83-177); see [iterate] *)
  Fixpoint iterate_out (d : diagram T) (ts : dict Z (dict Z Z)) (kmax : option Z) (callback : bool) (eta : T)
           (n t : nat) (distance : option T) (st : eqstate T) : out (eqstate T * option nat * option T) :=
    match n with
    | O => oret (st, match t with O => None | S t => Some t end, distance)
    | S n =>
        let+ st' := sweep_out d ts kmax callback (negb (Nat.eqb t 0)) st in
        if Nat.eqb t 0 then iterate_out d ts kmax callback eta n (S t) distance st'
        else
          let+ dist := olift (residual_distance (s_xyz st) (s_xyz st')) in
          if nltb dist eta then oret (st', Some t, Some dist)
          else iterate_out d ts kmax callback eta n (S t) (Some dist) st'
    end.

  (** equilibrium_state (force.py:59-195) *)
  Definition equilibrium_state_out (d : diagram T) (kmax : option Z) (tmax : Z) (eta : T) (verbose callback : bool) : out (eqstate T) :=
    if negb (Z.ltb 0 (number_of_trails d)) then olift (Err (AssertionError "No trails in the diagram!"))
    else
      let+ ts := olift (trails_sequences d) in
      let+ _ := olift (sequence_last d) in
      if match kmax with Some km => Z.ltb km 0 | None => false end
      then olift (Err (AssertionError "Kmax must be a non-negative number!"))
      else
        let+ r := iterate_out d ts kmax callback eta (Z.to_nat tmax) 0 None (init_state d) in
        let '(st, t, distance) := r in
        match t with
        | None => olift (Err UnboundLocalError)
        | Some t =>
            let+ _ := (if negb (Nat.eqb t 0) then
                         match distance with
                         | None => olift (Err UnboundLocalError)
                         | Some dist => if nltb eta dist then olift (Err (ValueError "Over iters")) else oret tt
                         end
                       else oret tt) in
            let+ _ := (if verbose then
                         match distance with
                         | None => olift (Err UnboundLocalError)
                         | Some _ => osay (Completed t)
                         end
                       else oret tt) in
            oret st
        end.

  (** static_equilibrium (force.py:18-56) *)
  Definition static_equilibrium_out (d : diagram T) (kmax : option Z) (tmax : Z) (eta : T) (verbose callback : bool) : out (diagram T) :=
    let+ st := equilibrium_state_out d kmax tmax eta verbose callback in
    match form_update st (form_of_topology d) with
    | (form, Ok tt) => oret form
    | (_, Err e) => olift (Err e)
    end.

  (** What is said, and what comes out *)
  Definition said {A} (x : out A) : list message := fst x.
  Definition outcome {A} (x : out A) : res A := snd x.
End Messages.
