(** * Concrete instances for constraints *)

From Coq Require Import String List ZArith Bool Lia Reals Lra Floats.
From Verif Require Import Py PyFacts Num Diagram Equilibrium RVec SpecStatics Constraints SpecConstraints ConFacts ConThms.
Import ListNotations.
Open Scope R_scope.

(** Two nodes, three units and four units apart along x and y, with one edge. *)
Definition two_nodes : eqstate R :=
  mkEq [(0%Z, V3 0 0 0); (1%Z, V3 3 4 0)] [] [(0%Z, V3 0 0 5)] [((0, 1)%Z, -2)] [].

(** One constraint of every class, none of them met *)
Definition eight : list (constraint R) :=
  [ mkConstraint (PointGoal 1%Z (V3 1 0 0)) 1;
    mkConstraint (LineGoal 1%Z (V3 0 1 0) (V3 1 1 0)) 2;
    mkConstraint (PlaneGoal 1%Z (V3 0 0 1) (V3 0 0 2)) 1;
    mkConstraint (PolylineGoal 1%Z [V3 0 0 0; V3 1 0 0; V3 1 1 0]) 3;
    mkConstraint (TrailForceGoal (0, 1)%Z 7) 1;
    mkConstraint (ReactionGoal 0%Z (V3 0 0 1)) 1;
    mkConstraint (LengthGoal (0, 1)%Z 6) 1;
    mkConstraint (DirectionGoal (0, 1)%Z (V3 0 1 0)) 1 ].

(** The same classes with goals that are met *)
Definition eight_met : list (constraint R) :=
  [ mkConstraint (PointGoal 1%Z (V3 3 4 0)) 1;
    mkConstraint (LineGoal 1%Z (V3 0 4 0) (V3 1 4 0)) 2;
    mkConstraint (PlaneGoal 1%Z (V3 0 0 0) (V3 0 0 2)) 1;
    mkConstraint (PolylineGoal 1%Z [V3 0 0 0; V3 3 0 0; V3 3 8 0]) 3;
    mkConstraint (TrailForceGoal (0, 1)%Z (-2)) 1;
    mkConstraint (ReactionGoal 0%Z (V3 0 0 5)) 1;
    mkConstraint (DirectionGoal (0, 1)%Z (V3 (-6) (-8) 0)) 1 ].

Lemma eight_well : forall c, In c eight -> has_direction two_nodes (c_goal c) /\ 0 < c_weight c.
Proof.
  intros c I. cbn [eight In] in I.
  repeat (destruct I as [<-|I]; [split; [|cbn; lra]; cbn [has_direction c_goal]; try exact Logic.I|]); try contradiction.
  - intros E. apply (f_equal vz) in E. cbn in E. lra.
  - split; [intros E; apply (f_equal vy) in E; cbn in E; lra|].
    intros p q E1 E2 ->. unfold node_at in *. cbn [fst snd] in *. vm_compute in E1. vm_compute in E2. rewrite <- E1 in E2.
    apply Some_inj in E2. apply (f_equal vx) in E2. cbn in E2. lra.
Qed.

Lemma eight_met_well : forall c, In c eight_met -> has_direction two_nodes (c_goal c) /\ 0 < c_weight c.
Proof.
  intros c I. cbn [eight_met In] in I.
  repeat (destruct I as [<-|I]; [split; [|cbn; lra]; cbn [has_direction c_goal]; try exact Logic.I|]); try contradiction.
  - intros E. apply (f_equal vz) in E. cbn in E. lra.
  - split; [intros E; apply (f_equal vy) in E; cbn in E; lra|].
    intros p q E1 E2 ->. unfold node_at in *. cbn [fst snd] in *. vm_compute in E1. vm_compute in E2. rewrite <- E1 in E2.
    apply Some_inj in E2. apply (f_equal vx) in E2. cbn in E2. lra.
Qed.

Lemma eight_Ok : exists x, calculate_penalty eight two_nodes = Ok x.
Proof. eexists. reflexivity. Qed.

Lemma eight_unmet : ~ meets two_nodes (c_goal (mkConstraint (PointGoal 1%Z (V3 1 0 0)) 1)).
Proof. intros E. vm_compute in E. apply Some_inj in E. apply (f_equal vx) in E. cbn in E. lra. Qed.

Lemma eight_positive : exists x, calculate_penalty eight two_nodes = Ok x /\ 0 < x.
Proof.
  destruct eight_Ok as [x E]. exists x. split; [exact E|]. destruct (c48_zero _ _ _ eight_well E) as [P Z].
  destruct P as [P|P]; [exact P|]. exfalso. apply eight_unmet, (proj1 Z (eq_sym P)). now left.
Qed.

Lemma eight_met_zero : calculate_penalty eight_met two_nodes = Ok 0.
Proof.
  assert (Ex : exists x, calculate_penalty eight_met two_nodes = Ok x) by (eexists; reflexivity). destruct Ex as [x E].
  rewrite E. f_equal. apply (c48_zero _ _ _ eight_met_well E). intros c I. cbn [eight_met In] in I.
  repeat (destruct I as [<-|I]); try contradiction; cbn [meets c_goal].
  - reflexivity.
  - exists (V3 3 4 0). split; [reflexivity|]. exists 3. vunf. f_equal; ring.
  - exists (V3 3 4 0). split; [reflexivity|]. unfold on_plane. vunf. ring.
  - exists (V3 3 4 0). split; [reflexivity|]. exists [V3 0 0 0], (V3 3 0 0), (V3 3 8 0), []. split; [reflexivity|].
    exists (1/2). split; [lra|]. vunf. f_equal; field.
  - reflexivity.
  - reflexivity.
  - exists (V3 0 0 0), (V3 3 4 0). split; [reflexivity|]. split; [reflexivity|]. exists (-1/2). vunf. f_equal; field.
Qed.
