(** * Properties of the constraint and parameter components *)

From Coq Require Import String List ZArith Bool Lia Reals Lra.
From Verif Require Import Py PyFacts Num Diagram Topology Equilibrium Constraints Optimizer RVec SpecStatics SpecConstraints ConThms
  SpecGoals Components SpecComponents SettingThms.
Import ListNotations.
Open Scope R_scope.

(** ** C85 — what is asked for is what is charged *)

Lemma component_charges {K V} (g : K -> V -> goal R) k v weight w (S : eqstate R -> Prop) far : setting weight 1 w -> w <> 0 ->
  (forall st, S st -> has_direction st (g k v)) -> (forall st y, S st -> deviates st (g k v) y <-> far st y) ->
  exists c, gh_constraint g (Some k) (Some v) weight = Some c /\ charges S c w far.
Proof.
  intros Sw Nw Hd Hf.
  assert (Nz : neqb w n0 = false). { change (neqb w n0) with (Reqb w 0). destruct (Reqb_spec w 0); congruence. }
  exists (mkConstraint (g k v) w). split.
  - exact (c80_weight_partial _ _ g k v weight w Sw Nz).
  - intros st x Hs. rewrite (c48_penalty st (mkConstraint (g k v) w) x (Hd st Hs)). cbn [c_goal c_weight].
    split; intros (y&D&->); exists y; (split; [now apply Hf|reflexivity]).
Qed.

(** The constraint components charge the weight given, or one, times the square of: the distance of the node from the point,
    the line, the plane or the polyline; the distance of the reaction at the node from the vector; the difference of the force
    in the trail edge, or of the distance between the ends of the deviation edge, from the number. *)
Lemma c85_constraints : forall weight w, setting weight 1 w -> w <> 0 ->
  (forall k t, exists c, gh_point_constraint (Some k) (Some t) weight = Some c
     /\ charges any_state c w (fun st y => exists p, node_at st k p /\ y = dist p t))
  /\ (forall k a b, exists c, gh_line_constraint (Some k) (Some (a, b)) weight = Some c
     /\ charges any_state c w (fun st y => exists p, node_at st k p /\ distance_to (on_line a b) p y))
  /\ (forall k o n, n <> v0 -> exists c, gh_plane_constraint (Some k) (Some (o, n)) weight = Some c
     /\ charges any_state c w (fun st y => exists p, node_at st k p /\ distance_to (on_plane o n) p y))
  /\ (forall k l, exists c, gh_polyline_constraint (Some k) (Some l) weight = Some c
     /\ charges any_state c w (fun st y => exists p, node_at st k p /\ distance_to (on_polyline l) p y))
  /\ (forall k r, exists c, gh_reaction_constraint (Some k) (Some r) weight = Some c
     /\ charges any_state c w (fun st y => exists q, dget (s_reac st) k = Some q /\ y = dist q r))
  /\ (forall e f, exists c, gh_force_constraint (Some e) (Some f) weight = Some c
     /\ charges any_state c w (fun st y => exists g, dget (s_tforce st) e = Some g /\ y = Rabs (g - f)))
  /\ (forall u v l, exists c, gh_length_constraint (Some (u, v)) (Some l) weight = Some c
     /\ charges any_state c w (fun st y => exists p q, node_at st u p /\ node_at st v q /\ y = Rabs (dist p q - l))).
Proof.
  intros weight w Sw Nw. repeat split; intros; (eapply component_charges; [exact Sw|exact Nw|cbn; auto|intros; reflexivity]).
Qed.

(** The direction component charges the weight times the square of the distance of the direction of the edge from
    that of the vector or of its opposite, whichever is nearer. *)
Lemma c85_direction : forall weight w u v t, setting weight 1 w -> w <> 0 -> t <> v0 ->
  exists c, gh_direction_constraint (Some (u, v)) (Some t) weight = Some c
    /\ charges (directed (u, v)) c w (fun st y => exists p q, node_at st u p /\ node_at st v q
         /\ y = Rmin (dist (direction (q -v p)) (direction t)) (dist (direction (q -v p)) (-1 *v direction t))).
Proof.
  intros weight w u v t Sw Nw Nt. eapply component_charges; [exact Sw|exact Nw| |intros; reflexivity].
  intros st Hd. cbn. split; [exact Nt|exact Hd].
Qed.

(** Without a node, an edge or a target there is no constraint, and without a node or an edge no parameter. *)
Lemma c85_none : forall (weight : option R) (k : option Z) (e : option ekey) p ab l q f,
  gh_point_constraint None p weight = None /\ gh_point_constraint k None weight = None
  /\ gh_line_constraint None ab weight = None /\ gh_line_constraint k None weight = None
  /\ gh_plane_constraint None ab weight = None /\ gh_plane_constraint k None weight = None
  /\ gh_polyline_constraint None l weight = None /\ gh_polyline_constraint k None weight = None
  /\ gh_reaction_constraint None q weight = None /\ gh_reaction_constraint k None weight = None
  /\ gh_force_constraint None f weight = None /\ gh_force_constraint e None weight = None
  /\ gh_length_constraint None f weight = None /\ gh_length_constraint e None weight = None
  /\ gh_direction_constraint None q weight = None /\ gh_direction_constraint e None weight = None
  /\ forall low up : option R, gh_origin_x_parameter None low up = None /\ gh_origin_y_parameter None low up = None
     /\ gh_origin_z_parameter None low up = None /\ gh_load_x_parameter None low up = None /\ gh_load_y_parameter None low up = None
     /\ gh_load_z_parameter None low up = None /\ gh_deviation_parameter None low up = None /\ gh_trail_parameter None low up = None.
Proof. intros. repeat split; try reflexivity; destruct k; try reflexivity; destruct e; reflexivity. Qed.

(** The parameter components vary the coordinate of the origin, the component of the load, the force of the deviation edge
    or the length of the trail edge, from its value in the topology, within the bounds given. *)
Lemma c85_parameters : forall low up,
  (forall k, exists p, gh_origin_x_parameter (Some k) low up = Some p /\ varies p (fun d => let* x := node_coordinates d k in Ok (vx x)) low up)
  /\ (forall k, exists p, gh_origin_y_parameter (Some k) low up = Some p /\ varies p (fun d => let* x := node_coordinates d k in Ok (vy x)) low up)
  /\ (forall k, exists p, gh_origin_z_parameter (Some k) low up = Some p /\ varies p (fun d => let* x := node_coordinates d k in Ok (vz x)) low up)
  /\ (forall k, exists p, gh_load_x_parameter (Some k) low up = Some p /\ varies p (fun d => let* q := node_load d k in Ok (vx q)) low up)
  /\ (forall k, exists p, gh_load_y_parameter (Some k) low up = Some p /\ varies p (fun d => let* q := node_load d k in Ok (vy q)) low up)
  /\ (forall k, exists p, gh_load_z_parameter (Some k) low up = Some p /\ varies p (fun d => let* q := node_load d k in Ok (vz q)) low up)
  /\ (forall e, exists p, gh_deviation_parameter (Some e) low up = Some p /\ varies p (fun d => edge_force d e) low up)
  /\ (forall e, exists p, gh_trail_parameter (Some e) low up = Some p /\ varies p (fun d => edge_length_2 d e) low up).
Proof.
  intros low up.
  assert (V : forall s q, (forall d x, q d = Ok x -> slot_get d s = Ok x) -> varies (mkParam s low up) q low up).
  { intros s q Q d x E. apply Q in E. unfold start_value, bound_low, bound_up, start_value. cbn [p_slot p_low p_up]. rewrite E. cbn [bind].
    split; [reflexivity|]. destruct low, up; split; reflexivity. }
  repeat split; intros; eexists; (split; [reflexivity|]); apply V; intros d x E; unfold slot_get, node_coordinates, node_load, edge_force, edge_length_2 in *;
    [destruct (node_get d k) as [a|] eqn:G; [|discriminate E]; cbn in *; exact E..|
     destruct (edge_get d e) as [a|] eqn:G; [|discriminate E]; cbn in *; exact E|destruct (edge_get d e) as [a|] eqn:G; [|discriminate E]; cbn in *; exact E].
Qed.
