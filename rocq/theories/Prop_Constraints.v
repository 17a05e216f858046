(** * Properties of constraints (C48-C51)

    Generated by tools/gen_props.py from the lemmas of ConThms.v.
    The vocabulary is in SpecConstraints.v. *)

From Coq Require Import String List ZArith Bool Lia Reals Lra.
From Verif Require Import Py PyFacts Num Diagram Equilibrium RVec SpecStatics Constraints SpecConstraints ConThms WitnessCon.
Import ListNotations.
Open Scope R_scope.

Implicit Types (st : eqstate R) (c : constraint R).

(** The penalty of a constraint is its weight times the square of the deviation
  from its goal. *)
Theorem C48_penalty : forall st c x, has_direction st (c_goal c) ->
  penalty st c = Ok x <-> exists y, deviates st (c_goal c) y /\ x = c_weight c * (y * y).
Proof. exact c48_penalty. Qed.
(** No deviation means that the goal is met. *)
Theorem C48_no_deviation : forall st g, has_direction st g -> deviates st g 0 <-> meets st g.
Proof. exact c48_no_deviation. Qed.
(** The total penalty is the sum of the weighted squared deviations. *)
Theorem C48_total : forall st cs x, (forall c, In c cs -> has_direction st (c_goal c)) ->
  calculate_penalty cs st = Ok x <->
  exists ys, Forall2 (fun c y => deviates st (c_goal c) y) cs ys
    /\ x = rsum (map (fun cy => c_weight (fst cy) * (snd cy * snd cy)) (combine cs ys)).
Proof. exact c48_total. Qed.
(** With positive weights the total penalty is not negative and vanishes exactly
  when all goals are met. *)
Theorem C48_zero : forall st cs x, (forall c, In c cs -> has_direction st (c_goal c) /\ 0 < c_weight c) ->
  calculate_penalty cs st = Ok x ->
  0 <= x /\ (x = 0 <-> forall c, In c cs -> meets st (c_goal c)).
Proof. exact c48_zero. Qed.
(** A line constraint measures the distance to the nearest point of the line. *)
Theorem C49_line : forall st n a b w p, node_at st n p ->
  exists q, on_line a b q /\ (forall r, on_line a b r -> dist p q <= dist p r)
    /\ penalty st (mkConstraint (LineGoal n a b) w) = Ok (w * (dist p q * dist p q)).
Proof. exact c49_line. Qed.
(** A plane constraint measures the distance to the nearest point of the plane. *)
Theorem C49_plane : forall st n o nrm w p, nrm <> v0 -> node_at st n p ->
  exists q, on_plane o nrm q /\ (forall r, on_plane o nrm r -> dist p q <= dist p r)
    /\ penalty st (mkConstraint (PlaneGoal n o nrm) w) = Ok (w * (dist p q * dist p q)).
Proof. exact c49_plane. Qed.
(** The target on a polyline of two or more points is a point of the polyline and
  no point of the polyline is nearer. *)
Theorem C50_polyline : forall p l, (2 <= length l)%nat ->
  exists q, closest_point_on_polyline p l = Ok q /\ on_polyline l q
    /\ forall r, on_polyline l r -> dist p q <= dist p r.
Proof. exact c50_polyline. Qed.
(** The penalty of a polyline constraint is the weighted squared distance to it. *)
Theorem C50_penalty : forall st n l w p, (2 <= length l)%nat -> node_at st n p ->
  exists q, on_polyline l q /\ (forall r, on_polyline l r -> dist p q <= dist p r)
    /\ penalty st (mkConstraint (PolylineGoal n l) w) = Ok (w * (dist p q * dist p q)).
Proof. exact c50_penalty. Qed.
(** A direction constraint is met exactly by edges parallel to its vector. *)
Theorem C51_parallel : forall st u v t w p q, 0 < w -> t <> v0 -> node_at st u p -> node_at st v q -> p <> q ->
  exists x, penalty st (mkConstraint (DirectionGoal (u, v) t) w) = Ok x /\ (x = 0 <-> parallel (q -v p) t).
Proof. exact c51_parallel. Qed.
(** Neither the magnitude nor the sense of the vector matters. *)
Theorem C51_scaled : forall st e t w s, s <> 0 ->
  (forall p q, node_at st (fst e) p -> node_at st (snd e) q -> p <> q) -> t <> v0 ->
  penalty st (mkConstraint (DirectionGoal e (s *v t)) w) = penalty st (mkConstraint (DirectionGoal e t) w).
Proof. exact c51_scaled. Qed.
Print Assumptions C48_penalty.
Print Assumptions C48_no_deviation.
Print Assumptions C48_total.
Print Assumptions C48_zero.
Print Assumptions C49_line.
Print Assumptions C49_plane.
Print Assumptions C50_polyline.
Print Assumptions C50_penalty.
Print Assumptions C51_parallel.
Print Assumptions C51_scaled.

(** ** The hypotheses can be met *)

(** One constraint of each class on two nodes: the penalty is defined and positive. *)
Example C48_nonvacuous : (forall c, In c eight -> has_direction two_nodes (c_goal c) /\ 0 < c_weight c)
  /\ exists x, calculate_penalty eight two_nodes = Ok x /\ 0 < x.
Proof. split; [apply eight_well|apply eight_positive]. Qed.

(** Goals of each class that are met: the penalty is zero. *)
Example C48_met_nonvacuous : (forall c, In c eight_met -> has_direction two_nodes (c_goal c) /\ 0 < c_weight c)
  /\ calculate_penalty eight_met two_nodes = Ok 0.
Proof. split; [apply eight_met_well|apply eight_met_zero]. Qed.

(** The edge has two ends and a direction. *)
Example C51_nonvacuous : node_at two_nodes 0%Z (V3 0 0 0) /\ node_at two_nodes 1%Z (V3 3 4 0) /\ V3 0 0 0 <> V3 3 4 0.
Proof. split; [reflexivity|]. split; [reflexivity|]. intros E. apply (f_equal vx) in E. cbn in E. lra. Qed.
