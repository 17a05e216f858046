(** * Concrete instances for optimization *)

From Coq Require Import String List ZArith Bool Lia Floats Reals Lra.
From Verif Require Import Py PyFacts Num Diagram Topology Equilibrium EquilibriumNp History Fixtures SpecDiagram Constraints Optimizer
  SpecConstraints SpecOptimizer OptFacts OptThms SolveThms RVec Witness WitnessEq.
Import ListNotations.
Open Scope Z_scope.

(** The braced tower with the force of a brace, a trail length, a load and the height
    of an origin as variables, and a target for a support *)
Definition tower_parameters : list (parameter float) :=
  [ mkParam (EdgeSlot (1, 5) AForce) (Some 0x1p1%float) (Some (-0x1p1)%float);
    mkParam (EdgeSlot (0, 1) ALength) None (Some 0x1p1%float);
    mkParam (NodeSlot 2 AQX) None None;
    mkParam (NodeSlot 5 AY) (Some 0x1p0%float) None ].
Definition tower_constraints : list (constraint float) :=
  [ mkConstraint (PointGoal 0 (fv 1 0 0)) 0x1p0%float; mkConstraint (LengthGoal (1, 4) 0x1p0%float) 0x1p1%float ].
Definition tower_optimizer : optimizer float := proxy_optimizer tower_constraints tower_parameters.

Definition no_ad : (list float -> eff (diagram float) float) -> list float -> eff (diagram float) (list float) :=
  fun _ x => eret (repeat 0%float (List.length x)).

Definition no_grad : list float := [].
Definition some_grad : list float := repeat 0%float 4.

(** A second point *)
Definition elsewhere (x : list float) : list float := map (fun v => (v * 0x1.8p0)%float) x.

(** A solver that starts, tries another point and goes back to the start *)
Definition goes_back : problem float -> list float -> strategy float :=
  fun _ x => SEval x some_grad (fun y _ => SEval (elsewhere x) some_grad (fun _ _ => SReturn x y 2 1)).

(** A solver that evaluates the start only *)
Definition stays : problem float -> list float -> strategy float :=
  fun _ x => SEval x no_grad (fun y _ => SReturn x y 1 1).

(** A solver that stops on roundoff errors after two evaluations *)
Definition rounds : problem float -> list float -> strategy float :=
  fun _ x => SEval x some_grad (fun y _ => SEval (elsewhere x) no_grad (fun _ _ => SRoundoff y 2 (-4))).

Lemma tower_obtained : obtained tower_optimizer.
Proof. apply proxy_obtained. Qed.

Lemma tower_keys : keys_in_range tower_optimizer.
Proof.
  intros k I. assert (N : number_of_parameters tower_optimizer = 4) by (vm_compute; reflexivity). rewrite N.
  vm_compute in I. destruct I as [<-|[<-|[<-|[<-|[]]]]]; lia.
Qed.

Lemma tower_distinct : NoDup (addressed tower_optimizer).
Proof. vm_compute. repeat constructor; cbn; intuition discriminate. Qed.

Lemma tower_present : forall s, In s (addressed tower_optimizer) -> present float_tower s.
Proof. intros s I. vm_compute in I. destruct I as [<-|[<-|[<-|[<-|[]]]]]; eexists; vm_compute; reflexivity. Qed.

(** ** Removing a parameter *)

(** The optimizer with two parameters of which the first is removed *)
Definition one_removed : optimizer float :=
  fst (remove_parameter 0 (fst (add_parameter (mkParam (EdgeSlot (1, 4) AForce) None None)
    (fst (add_parameter (mkParam (EdgeSlot (1, 5) AForce) None None) new_optimizer))))).

(** Removing a parameter other than the last makes the optimizer unusable. *)
Lemma c52_refuted : exists o (d : diagram float), reachable d /\ obtained o /\ number_of_parameters o = 1
  /\ (forall s, In s (addressed o) -> present d s)
  /\ optimization_parameters o d = Err IndexError.
Proof.
  exists one_removed, float_tower. split; [apply float_tower_reachable|].
  split; [repeat constructor|]. split; [reflexivity|]. split; [|vm_compute; reflexivity].
  intros s I. vm_compute in I. destruct I as [<-|[]]. eexists; vm_compute; reflexivity.
Qed.

(** Even if a parameter is added again *)
Lemma c52_replaced_refuted : exists o (d : diagram float), reachable d /\ obtained o
  /\ o = fst (add_parameter (mkParam (EdgeSlot (1, 4) AForce) None None) (fst (remove_parameter 0
           (fst (add_parameter (mkParam (EdgeSlot (1, 5) AForce) None None) new_optimizer)))))
  /\ number_of_parameters o = 1
  /\ (forall s, In s (addressed o) -> present d s)
  /\ optimization_parameters o d = Err IndexError.
Proof.
  exists (fst (add_parameter (mkParam (EdgeSlot (1, 4) AForce) None None) (fst (remove_parameter 0
           (fst (add_parameter (mkParam (EdgeSlot (1, 5) AForce) None None) new_optimizer)))))), float_tower.
  split; [apply float_tower_reachable|]. split; [repeat constructor|]. split; [reflexivity|]. split; [reflexivity|].
  split; [|vm_compute; reflexivity]. intros s I. vm_compute in I. destruct I as [<-|[]]. eexists; vm_compute; reflexivity.
Qed.

(** ** The returned form *)

(** The force of an edge of a form *)
Definition force_of (r : res (diagram float)) (e : ekey) : float :=
  match r with Ok f => match edge_force f e with Ok x => x | Err _ => PrimFloat.nan end | Err _ => PrimFloat.nan end.
Definition y_of (r : res (diagram float)) (n : Z) : float :=
  match r with Ok f => match node_coordinates f n with Ok p => vy p | Err _ => PrimFloat.nan end | Err _ => PrimFloat.nan end.

(** The form returned by solve need not be the form of x_opt: a solver may return a
    point other than the last one it evaluated. *)
Lemma c54_refuted : exists solver o (d : diagram float) o' d' form x,
  reachable d /\ obtained o
  /\ solve no_ad solver "SLSQP" "FD" 0x1p-20%float 100 None None 100 neps6 (o, d) = ((o', d'), Ok form)
  /\ o_x o' = Some x
  /\ exists dx form_x, update_parameters o x d = (dx, Ok tt)
     /\ static_equilibrium dx None 100 neps6 false = Ok form_x /\ form_x <> form.
Proof.
  destruct (solve no_ad goes_back "SLSQP" "FD" 0x1p-20%float 100 None None 100 neps6 (tower_optimizer, float_tower)) as [[o' d'] r] eqn:E.
  assert (R : exists form, r = Ok form /\ PrimFloat.eqb (force_of (Ok form) (1, 5)) 0x1.8p0 = true).
  { replace r with (snd (solve no_ad goes_back "SLSQP" "FD" 0x1p-20%float 100 None None 100 neps6 (tower_optimizer, float_tower))) by (rewrite E; reflexivity).
    eexists. split; [vm_compute; reflexivity|]. vm_compute. reflexivity. }
  destruct R as (form&->&R).
  assert (X : exists x, o_x o' = Some x /\ x = [0x1p0; -0x1p0; 0; 0x1p1]%float).
  { replace o' with (fst (fst (solve no_ad goes_back "SLSQP" "FD" 0x1p-20%float 100 None None 100 neps6 (tower_optimizer, float_tower)))) by (rewrite E; reflexivity).
    eexists. split; vm_compute; reflexivity. }
  destruct X as (x&X&->).
  exists goes_back, tower_optimizer, float_tower, o', d', form, [0x1p0; -0x1p0; 0; 0x1p1]%float.
  split; [apply float_tower_reachable|]. split; [apply tower_obtained|]. split; [exact E|]. split; [exact X|].
  destruct (update_parameters tower_optimizer [0x1p0; -0x1p0; 0; 0x1p1]%float float_tower) as [dx u] eqn:U.
  assert (A : u = Ok tt) by (change u with (snd (dx, u)); rewrite <- U; vm_compute; reflexivity). subst u.
  assert (B : exists fx, static_equilibrium dx None 100 neps6 false = Ok fx /\ PrimFloat.eqb (force_of (Ok fx) (1, 5)) 0x1p0 = true).
  { change dx with (fst (dx, @Ok unit tt)). rewrite <- U. eexists. split; [vm_compute; reflexivity|]. vm_compute. reflexivity. }
  destruct B as (fx&B&C). exists dx, fx. split; [reflexivity|]. split; [exact B|]. intros ->.
  assert (Q : PrimFloat.eqb (force_of (Ok form) (1, 5)) 0x1.8p0 && PrimFloat.eqb (force_of (Ok form) (1, 5)) 0x1p0 = true) by (rewrite R, C; reflexivity).
  revert Q. clear - E. replace (Ok form) with (snd (solve no_ad goes_back "SLSQP" "FD" 0x1p-20%float 100 None None 100 neps6 (tower_optimizer, float_tower))) by (rewrite E; reflexivity).
  vm_compute. discriminate.
Qed.

(** Even if the solver returns the last point it evaluated, the form is not the one
    found with the tmax and eta given to solve. *)
Lemma c54_settings_refuted : exists solver o (d : diagram float) o' d' form x tmax eta,
  reachable d /\ obtained o
  /\ solve no_ad solver "SLSQP" "AD" 0x1p-20%float 100 None None tmax eta (o, d) = ((o', d'), Ok form)
  /\ o_x o' = Some x
  /\ exists form_x, update_parameters o x d = (d', Ok tt)
     /\ static_equilibrium d' None tmax eta false = Ok form_x /\ form_x <> form.
Proof.
  destruct (solve no_ad stays "SLSQP" "AD" 0x1p-20%float 100 None None 1 neps6 (tower_optimizer, float_tower)) as [[o' d'] r] eqn:E.
  assert (R : exists form, r = Ok form).
  { replace r with (snd (solve no_ad stays "SLSQP" "AD" 0x1p-20%float 100 None None 1 neps6 (tower_optimizer, float_tower))) by (rewrite E; reflexivity).
    eexists. vm_compute. reflexivity. }
  destruct R as (form&->).
  assert (X : exists x, o_x o' = Some x /\ x = [0x1p0; -0x1p0; 0; 0x1p1]%float).
  { replace o' with (fst (fst (solve no_ad stays "SLSQP" "AD" 0x1p-20%float 100 None None 1 neps6 (tower_optimizer, float_tower)))) by (rewrite E; reflexivity).
    eexists. split; vm_compute; reflexivity. }
  destruct X as (x&X&->).
  exists stays, tower_optimizer, float_tower, o', d', form, [0x1p0; -0x1p0; 0; 0x1p1]%float, 1, neps6.
  split; [apply float_tower_reachable|]. split; [apply tower_obtained|]. split; [exact E|]. split; [exact X|].
  assert (D : d' = snd (fst (solve no_ad stays "SLSQP" "AD" 0x1p-20%float 100 None None 1 neps6 (tower_optimizer, float_tower)))) by (rewrite E; reflexivity).
  assert (B : exists fx, static_equilibrium d' None 1 neps6 false = Ok fx) by (rewrite D; eexists; vm_compute; reflexivity).
  destruct B as (fx&B). exists fx. split; [rewrite D; vm_compute; reflexivity|]. split; [exact B|]. intros ->.
  assert (Q : PrimFloat.eqb (y_of (static_equilibrium d' None 1 neps6 false) 0) (y_of (Ok form) 0) = PrimFloat.eqb (y_of (Ok form) 0) (y_of (Ok form) 0)) by (now rewrite B).
  revert Q. clear - E D. rewrite D.
  replace (Ok form) with (snd (solve no_ad stays "SLSQP" "AD" 0x1p-20%float 100 None None 1 neps6 (tower_optimizer, float_tower))) by (rewrite E; reflexivity).
  vm_compute. discriminate.
Qed.
