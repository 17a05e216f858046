(** * Concrete instances for solving in another process *)

From Coq Require Import String List ZArith Bool Floats.
From Verif Require Import Py PyFacts Num Diagram Topology History Equilibrium EquilibriumNp Fixtures SpecDiagram Constraints Optimizer Serialize SpecSerialize
  Files SpecFiles FilesThms Remote SpecRemote RemoteThms Witness WitnessEq WitnessOpt.
Import ListNotations.
Open Scope Z_scope.

(** Differentiation that evaluates the function next to the point *)
Definition differences : differentiation float :=
  fun S f x => grad_finite_differences f 0x1p-20%float x (repeat 0%float (List.length x)).

Lemma differences_only_call : only_calls differences.
Proof. intros S S' h f f' F x. apply follows_finite, F. Qed.

(** The targets of the tower: compas objects and numbers, or the coordinates of a point alone *)
Definition tower_goals : list (cobj float) := map goal_object tower_constraints.
Definition tower_plain : list (cobj float) :=
  [ mkCobj CPoint (VInt 0) (Plain [fv 1 0 0]) 0x1p0%float; mkCobj CLength (VTuple [1; 4]) (Number 0x1p0%float) 0x1p1%float ].
Definition tower_objects : list (pobj float) := map parameter_object tower_parameters.

Lemma tower_plain_same : map_res goal_of tower_plain = Ok tower_constraints /\ map_res goal_of tower_goals = Ok tower_constraints.
Proof. split; vm_compute; reflexivity. Qed.

Definition ended {A} (r : res A) : bool := match r with Ok _ => true | Err _ => false end.

Lemma ended_ok {A} (r : res A) : ended r = true -> exists a, r = Ok a.
Proof. destruct r; [eauto|discriminate]. Qed.

(** Solving the tower ends, here and in another process. *)
Lemma tower_solved : ended (local_solve differences goes_back float_tower tower_goals tower_objects "SLSQP" 100 0x1p-20%float None None 100 neps6) = true
  /\ ended (remote_solve differences goes_back float_tower tower_goals tower_objects "SLSQP" 100 0x1p-20%float None None 100 neps6) = true.
Proof. split; vm_compute; reflexivity. Qed.

(** The full statement of C93 is false.  The same problem with the coordinates of a point as target is
    solved here but raises in another process; and where both end, the topology solved here can be
    asked for a trail and the one that comes back cannot. *)
Lemma c93_refuted :
  (exists ad solver (d : diagram float) constraints ps algorithm iters h tmax eta r,
     only_calls ad /\ reachable d /\ Forall usable constraints
     /\ local_solve ad solver d constraints (map parameter_object ps) algorithm iters h None None tmax eta = Ok r
     /\ remote_solve ad solver d constraints (map parameter_object ps) algorithm iters h None None tmax eta = Err AttributeError)
  /\ (exists ad solver (d : diagram float) constraints ps algorithm iters h tmax eta d' form r topology form' r' key,
     only_calls ad /\ reachable d /\ Forall usable constraints /\ Forall can_travel constraints
     /\ local_solve ad solver d constraints (map parameter_object ps) algorithm iters h None None tmax eta = Ok (d', form, r)
     /\ remote_solve ad solver d constraints (map parameter_object ps) algorithm iters h None None tmax eta = Ok (topology, form', r')
     /\ trail d' key = Ok [2; 1; 0] /\ o_trail topology key = Err KeyError).
Proof.
  split.
  - destruct (ended_ok (local_solve differences goes_back float_tower tower_plain tower_objects "SLSQP" 100 0x1p-20%float None None 100 neps6)) as [r E];
      [vm_compute; reflexivity|].
    exists differences, goes_back, float_tower, tower_plain, tower_parameters, "SLSQP"%string, 100, 0x1p-20%float, 100, neps6, r.
    split; [apply differences_only_call|]. split; [apply float_tower_reachable|].
    split; [repeat constructor; eexists; vm_compute; reflexivity|]. split; [exact E|]. vm_compute. reflexivity.
  - assert (K : match local_solve differences goes_back float_tower tower_goals tower_objects "SLSQP" 100 0x1p-20%float None None 100 neps6 with
                | Ok (d', _, _) => match trail d' 2 with Ok l => if list_eq_dec Z.eq_dec l [2; 1; 0] then true else false | _ => false end | _ => false end = true) by (vm_compute; reflexivity).
    destruct (ended_ok _ (proj2 tower_solved)) as [[[topology form'] r'] E'].
    destruct (local_solve differences goes_back float_tower tower_goals tower_objects "SLSQP" 100 0x1p-20%float None None 100 neps6) as [[[d' form] r]|] eqn:E; [|discriminate K].
    exists differences, goes_back, float_tower, tower_goals, tower_parameters, "SLSQP"%string, 100, 0x1p-20%float, 100, neps6, d', form, r, topology, form', r', 2.
    split; [apply differences_only_call|]. split; [apply float_tower_reachable|].
    split; [repeat constructor; eexists; vm_compute; reflexivity|].
    split; [repeat constructor; vm_compute; reflexivity|]. split; [exact E|]. split; [exact E'|].
    split; [|eapply c93_lost; [exact E'|apply differences_only_call]].
    destruct (trail d' 2) as [l|]; [|discriminate K]. destruct (list_eq_dec Z.eq_dec l [2; 1; 0]) as [->|]; [reflexivity|discriminate K].
Qed.
