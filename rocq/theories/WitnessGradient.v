(** * Gradients that tend to the derivatives, and gradients that grow without bound *)

From Coq Require Import String List ZArith Bool Lia Reals Lra.
From Verif Require Import Py PyFacts Num Diagram DiagramFacts Topology Equilibrium EquilibriumNp History HistoryFacts Fixtures SpecDiagram SpecTopology
  TopologyFacts EqFacts SpecEquilibrium SpecStatics RVec StaticsFacts EqThms ReadyThms StaticsThms SpecNumpy NpThms Constraints Optimizer SpecOptimizer
  OptFacts OptThms SolveThms SpecUnique UniqueThms SpecSmooth SmoothThms SpecGradient GradientThms SpecConstraints ConFacts PolyThms
  Witness WitnessEq WitnessUnique WitnessSmooth.
Import ListNotations.
Open Scope Z_scope.

(** ** The tension chain *)

(** Three variables: the load across the chain, where it starts and the length of its
    second edge; and a goal of every kind.  The nearest point of the polyline is its corner,
    which two of its segments share. *)
Definition chain_parameters : list (parameter R) :=
  [ mkParam (NodeSlot 0 AQY) None None; mkParam (NodeSlot 0 AX) None None; mkParam (EdgeSlot (1, 2) ALength) None None ].
Definition corner : list rvec := [ V3 0 4 0; V3 (5/2) 2 0; V3 5 4 0 ]%R.
Definition chain_goals : list (constraint R) :=
  [ mkConstraint (PointGoal 2 (V3 2 1 0)) 1; mkConstraint (LineGoal 1 (V3 0 1 0) (V3 1 1 0)) 2;
    mkConstraint (PlaneGoal 2 (V3 1 1 1) (V3 1 2 3)) 1; mkConstraint (TrailForceGoal (1, 2)%Z 3) 1;
    mkConstraint (ReactionGoal 3 (V3 0 1 0)) 1; mkConstraint (LengthGoal (0, 1)%Z 2) 1;
    mkConstraint (DirectionGoal (0, 1)%Z (V3 1 1 0)) 1; mkConstraint (PolylineGoal 2 corner) 1 ]%R.
Definition chain_optimizer : optimizer R := proxy_optimizer chain_goals chain_parameters.
Definition chain_variables : list R := [0; 0; 1]%R.

Lemma after_none (o : optimizer R) tmax eta d : after_evaluations o tmax eta [] d = d.
Proof. reflexivity. Qed.

Lemma chain_update : update_parameters chain_optimizer chain_variables rchain = (rchain, Ok tt).
Proof. vm_compute. reflexivity. Qed.

Lemma chain_problem : obtained chain_optimizer /\ keys_in_range chain_optimizer /\ NoDup (addressed chain_optimizer)
  /\ (forall s, In s (addressed chain_optimizer) -> present rchain s)
  /\ Z.of_nat (List.length chain_variables) = number_of_parameters chain_optimizer.
Proof.
  split; [apply proxy_obtained|]. assert (K : dkeys (o_params chain_optimizer) = [0; 1; 2]) by (lazy; reflexivity).
  assert (N : number_of_parameters chain_optimizer = 3) by (lazy; reflexivity).
  assert (A : addressed chain_optimizer = [NodeSlot 0 AQY; NodeSlot 0 AX; EdgeSlot (1, 2) ALength]) by (lazy; reflexivity).
  split; [|split; [|split]].
  - intros k I. rewrite K in I. rewrite N. cbn in I. lia.
  - rewrite A. repeat constructor; cbn; intuition discriminate.
  - intros s I. rewrite A in I. destruct I as [<-|[<-|[<-|[]]]]; eexists; lazy; reflexivity.
  - rewrite N. reflexivity.
Qed.

Lemma corner_nearest q : on_polyline corner q -> (dist (V3 (5/2) 0 0) q <= dist (V3 (5/2) 0 0) (V3 (5/2) 2 0))%R -> q = (V3 (5/2) 2 0)%R.
Proof.
  intros (l1&a&b&l2&E&t&Ht&->) L.
  assert (L2 := Rmult_le_compat _ _ _ _ (dist_nonneg _ _) (dist_nonneg _ _) L L). clear L. rewrite !dist_sq in L2.
  unfold distance_point_point_sqrd in L2. destruct l1 as [|x [|y [|z l1]]]; cbn [app corner] in E.
  - injection E as <- <- _. vunf. assert (t = 1)%R by nra. subst t. apply vec_eq; cbn; field.
  - injection E as _ <- <- _. vunf. assert (t = 0)%R by nra. subst t. apply vec_eq; cbn; field.
  - discriminate E.
  - destruct l1; discriminate E.
Qed.
Lemma corner_only : one_nearest corner (V3 (5/2) 0 0)%R.
Proof.
  assert (O : on_polyline corner (V3 (5/2) 2 0)%R).
  { exists [], (V3 0 4 0)%R, (V3 (5/2) 2 0)%R, [V3 5 4 0]%R. split; [reflexivity|]. exists 1%R. split; [lra|]. apply vec_eq; cbn; ring. }
  intros q r Oq Or Nq Nr. rewrite (corner_nearest q Oq (Nq _ O)). symmetry. exact (corner_nearest r Or (Nr _ O)).
Qed.

Lemma chain_smooth_goals : forall k c, In (k, c) (o_cons chain_optimizer) -> smooth_goal rchain (form_of rchain) (c_goal c).
Proof.
  assert (Q : o_cons chain_optimizer = numbered 0 chain_goals) by (lazy; reflexivity).
  assert (N : nodes rchain = [0; 1; 2; 3]) by (lazy; reflexivity).
  assert (Tr1 : trail_edges rchain = [(0, 1); (1, 2); (2, 3)]) by (lazy; reflexivity).
  destruct hand_positions as (P0&P1&P2&_).
  assert (X : forall n, In n [0; 1; 2; 3] -> position (form_of rchain) n = position hand_chain n).
  { intros n I. rewrite <- N in I. symmetry. apply (proj1 chain_as_written n I). }
  assert (Ap : position (form_of rchain) 0 <> position (form_of rchain) 1).
  { rewrite !X, P0, P1 by (cbn; auto). intros Z. apply (f_equal vx) in Z. cbn in Z. lra. }
  intros k c I. rewrite Q in I. cbn [numbered chain_goals] in I.
  destruct I as [E|[E|[E|[E|[E|[E|[E|[E|[]]]]]]]]]; injection E as <- <-; cbn [smooth_goal c_goal fst snd]; rewrite ?N, ?Tr1.
  - right. right. now left.
  - right. now left.
  - split; [right; right; now left|]. intros Z. apply (f_equal vx) in Z. cbn in Z. lra.
  - right. now left.
  - lazy. reflexivity.
  - split; [now left|]. split; [right; now left|exact Ap].
  - split; [now left|]. split; [right; now left|]. split; [exact Ap|]. rewrite !X, P0, P1 by (cbn; auto). vunf. lra.
  - split; [right; right; now left|]. split; [cbn; lia|]. rewrite X, P2 by (cbn; auto). exact corner_only.
Qed.

(** ** A bar that meets its plane at the tolerance *)

(** The load across the bar is the variable; the end of the bar shall stay where it is. *)
Definition bar_optimizer : optimizer R :=
  proxy_optimizer [ mkConstraint (PointGoal 1 (V3 5 0 0)) 1 ]%R [ mkParam (NodeSlot 0 AQY) None None ].
Definition tolerance_bar (t : R) : diagram R := bar (V3 (-1) t 0)%R edge_of_tolerance.

Lemma bar_update t : update_parameters bar_optimizer [t] (tolerance_bar 0) = (tolerance_bar t, Ok tt).
Proof. vm_compute. reflexivity. Qed.

Lemma bar_problem : obtained bar_optimizer /\ keys_in_range bar_optimizer /\ NoDup (addressed bar_optimizer)
  /\ (forall s, In s (addressed bar_optimizer) -> present (tolerance_bar 0) s)
  /\ Z.of_nat (List.length [0%R]) = number_of_parameters bar_optimizer.
Proof.
  split; [apply proxy_obtained|]. assert (K : dkeys (o_params bar_optimizer) = [0]) by (lazy; reflexivity).
  assert (N : number_of_parameters bar_optimizer = 1) by (lazy; reflexivity).
  assert (A : addressed bar_optimizer = [NodeSlot 0 AQY]) by (lazy; reflexivity).
  split; [|split; [|split]].
  - intros k I. rewrite K in I. rewrite N. cbn in I. lia.
  - rewrite A. repeat constructor; cbn; tauto.
  - intros s I. rewrite A in I. destruct I as [<-|[]]. eexists. lazy. reflexivity.
  - rewrite N. reflexivity.
Qed.

Lemma bar_goal t f : forall k c, In (k, c) (o_cons bar_optimizer) -> smooth_goal (tolerance_bar t) f (c_goal c).
Proof.
  assert (Q : o_cons bar_optimizer = [(0%Z, mkConstraint (PointGoal 1 (V3 5 0 0)) 1)]%R) by (lazy; reflexivity).
  intros k c I. rewrite Q in I. destruct I as [E|[]]. injection E as <- <-. cbn [smooth_goal c_goal].
  assert (N : nodes (tolerance_bar t) = [0; 1]) by (lazy; reflexivity). rewrite N. right. now left.
Qed.

Lemma bar_carrying t : carrying (tolerance_bar t) (form_of (tolerance_bar t)).
Proof.
  assert (E : trail_edges (tolerance_bar t) = [(0, 1)]) by (lazy; reflexivity).
  intros e I. rewrite E in I. destruct I as [<-|[]].
  apply (bar_asked (V3 (-1) t 0)%R edge_of_tolerance). intros Z. apply (f_equal vx) in Z. cbn in Z. lra.
Qed.

Lemma bar_sound t : form_is_sound (tolerance_bar t) (form_of (tolerance_bar t)).
Proof. exact (sound_of (tolerance_bar t) (form_of (tolerance_bar t)) (bar_carrying t) (bar_apart (V3 (-1) t 0)%R edge_of_tolerance (form_of (tolerance_bar t)))). Qed.

Lemma bar_objective t : objective bar_optimizer 100 (/ 1000000)%R (tolerance_bar 0) [t]
  = Ok (0 + vector_penalty (position (form_of (tolerance_bar t)) 1) (V3 5 0 0) 1)%R.
Proof.
  assert (Q : dvalues (o_cons bar_optimizer) = [mkConstraint (PointGoal 1 (V3 5 0 0)) 1]%R) by (lazy; reflexivity).
  destruct (penalties_of_form (tolerance_bar t) 100 (/ 1000000)%R (form_of (tolerance_bar t)) (dvalues (o_cons bar_optimizer))
    (bar_reachable _ _) (bar_ready _ _) (bar_direct _ _) (bar_forms _ _) (bar_sound t)) as (st&Es&Ep).
  { intros c J. unfold dvalues in J. apply in_map_iff in J as ([k c']&<-&J). cbn [snd]. exists (form_of (tolerance_bar t)). now apply (bar_goal t _ k). }
  unfold objective, optimize_form, ebind. rewrite bar_update. unfold eget. cbn [snd]. rewrite Es. cbn [bind]. rewrite Ep, Q. reflexivity.
Qed.

Lemma far_penalty (p : rvec) : (vx p <= 1)%R -> (16 <= vector_penalty p (V3 5 0 0) 1)%R.
Proof. intros L. unfold vector_penalty, distance_point_point_sqrd. destruct p as [a b c]. vunf. nra. Qed.

Lemma near_penalty (p : rvec) s r : p = s *v unitv r -> r = (V3 1 0 0)%R -> vx p = 5%R -> (vector_penalty p (V3 5 0 0) 1 = 0)%R.
Proof.
  intros E -> X. destruct (unitv_x 1 ltac:(lra)) as [U _]. rewrite U in E. destruct p as [a b c].
  pose proof (f_equal vy E) as E2. pose proof (f_equal vz E) as E3. unfold vector_penalty, distance_point_point_sqrd.
  vunf. rewrite X, E2, E3. ring.
Qed.
Lemma tolerated_penalty : (vector_penalty (position (form_of (tolerance_bar 0)) 1) (V3 5 0 0) 1 = 0)%R.
Proof.
  assert (Nq : (V3 (-1) 0 0)%R <> v0). { intros Z. apply (f_equal vx) in Z. cbn in Z. lra. }
  assert (Er : v0 -v (V3 (-1) 0 0)%R = (V3 1 0 0)%R) by vring.
  exact (near_penalty _ _ _ (proj2 (proj2 (bar_asked (V3 (-1) 0 0)%R edge_of_tolerance Nq))) Er tolerated).
Qed.
Lemma turned_penalty h : h <> 0%R -> (16 <= vector_penalty (position (form_of (tolerance_bar h)) 1) (V3 5 0 0) 1)%R.
Proof. intros N. exact (far_penalty _ (not_tolerated h N)). Qed.

(** Without the condition that no trail edge meets its plane at the tolerance, the
    finite-difference gradient may grow without bound as the step shrinks: here it is at
    least sixteen over the step. *)
Lemma c103_jump : exists (o : optimizer R) d x form,
  obtained o /\ keys_in_range o /\ NoDup (addressed o) /\ (forall s, In s (addressed o) -> present d s)
  /\ Z.of_nat (List.length x) = number_of_parameters o
  /\ reachable d /\ ready d /\ direct_only d /\ update_parameters o x d = (d, Ok tt)
  /\ static_equilibrium d None 100 (/ 1000000)%R false = Ok form
  /\ nonzero_trails d /\ carrying d form /\ apart d form
  /\ (forall k c, In (k, c) (o_cons o) -> smooth_goal d form (c_goal c))
  /\ forall h, h <> 0%R -> exists v, (16 / Rabs h <= Rabs v)%R
     /\ forall ys grad, List.length grad = List.length x ->
          snd (grad_finite_differences (optimize_form o 100 (/ 1000000)%R) h x grad (after_evaluations o 100 (/ 1000000)%R ys d)) = Ok [v].
Proof.
  exists bar_optimizer, (tolerance_bar 0), [0%R], (form_of (tolerance_bar 0)).
  destruct bar_problem as (B1&B2&B3&B4&B5).
  split; [exact B1|]. split; [exact B2|]. split; [exact B3|]. split; [exact B4|]. split; [exact B5|].
  split; [exact (bar_reachable (V3 (-1) 0 0)%R edge_of_tolerance)|]. split; [exact (bar_ready (V3 (-1) 0 0)%R edge_of_tolerance)|].
  split; [exact (bar_direct (V3 (-1) 0 0)%R edge_of_tolerance)|]. split; [exact (bar_update 0%R)|].
  split; [exact (bar_forms (V3 (-1) 0 0)%R edge_of_tolerance)|]. split; [exact (bar_nonzero (V3 (-1) 0 0)%R edge_of_tolerance)|].
  split; [exact (bar_carrying 0%R)|]. split; [exact (bar_apart (V3 (-1) 0 0)%R edge_of_tolerance (form_of (tolerance_bar 0%R)))|].
  split; [exact (bar_goal 0%R (form_of (tolerance_bar 0%R)))|]. intros h Nh.
  assert (O0 := bar_objective 0). assert (Oh := bar_objective (0 + h)).
  rewrite tolerated_penalty in O0. assert (Vh := turned_penalty (0 + h)%R ltac:(lra)).
  set (w := vector_penalty (position (form_of (tolerance_bar (0 + h))) 1) (V3 5 0 0)%R 1%R) in *. clearbody w.
  exists (((0 + w) - (0 + 0)) / h)%R. split.
  - unfold Rdiv. rewrite Rabs_mult, Rabs_inv. apply Rmult_le_compat_r.
    + apply Rlt_le, Rinv_0_lt_compat. now apply Rabs_pos_lt.
    + rewrite Rabs_right by lra. lra.
  - intros ys grad Lg. rewrite c47_objective_gradient by exact Lg. unfold forward_differences. rewrite O0. cbn [bind List.length seq map_res].
    change (bump [0%R] 0 h) with [(0 + h)%R]. rewrite Oh. reflexivity.
Qed.

(** ** A bar between the sides of a polyline *)

(** The load across the bar is the variable; the end of the bar shall lie on a polyline
    that passes it on either side. *)
Definition hairpin : list rvec := [ V3 2 1 0; V3 (-5) 1 0; V3 (-5) (-1) 0; V3 2 (-1) 0 ]%R.
Definition kink_optimizer : optimizer R :=
  proxy_optimizer [ mkConstraint (PolylineGoal 1 hairpin) 1 ]%R [ mkParam (NodeSlot 0 AQY) None None ].
Definition pulled_bar (t : R) : diagram R := bar (V3 (-1) t 0)%R None.

Lemma kink_update t : update_parameters kink_optimizer [t] (pulled_bar 0) = (pulled_bar t, Ok tt).
Proof. vm_compute. reflexivity. Qed.

Lemma kink_problem : obtained kink_optimizer /\ keys_in_range kink_optimizer /\ NoDup (addressed kink_optimizer)
  /\ (forall s, In s (addressed kink_optimizer) -> present (pulled_bar 0) s)
  /\ Z.of_nat (List.length [0%R]) = number_of_parameters kink_optimizer.
Proof.
  split; [apply proxy_obtained|]. assert (K : dkeys (o_params kink_optimizer) = [0]) by (lazy; reflexivity).
  assert (N : number_of_parameters kink_optimizer = 1) by (lazy; reflexivity).
  assert (A : addressed kink_optimizer = [NodeSlot 0 AQY]) by (lazy; reflexivity).
  split; [|split; [|split]].
  - intros k I. rewrite K in I. rewrite N. cbn in I. lia.
  - rewrite A. repeat constructor; cbn; tauto.
  - intros s I. rewrite A in I. destruct I as [<-|[]]. eexists. lazy. reflexivity.
  - rewrite N. reflexivity.
Qed.

Lemma kink_load t : (V3 (-1) t 0)%R <> v0.
Proof. intros Z. apply (f_equal vx) in Z. cbn in Z. lra. Qed.

Lemma kink_carrying t : carrying (pulled_bar t) (form_of (pulled_bar t)).
Proof.
  assert (E : trail_edges (pulled_bar t) = [(0, 1)]) by (lazy; reflexivity).
  intros e I. rewrite E in I. destruct I as [<-|[]]. exact (proj1 (proj2 (bar_asked (V3 (-1) t 0)%R None (kink_load t)))).
Qed.

Lemma kink_sound t : form_is_sound (pulled_bar t) (form_of (pulled_bar t)).
Proof. exact (sound_of (pulled_bar t) (form_of (pulled_bar t)) (kink_carrying t) (bar_apart (V3 (-1) t 0)%R None (form_of (pulled_bar t)))). Qed.

(** Some place where the end of the bar may be has only one nearest point. *)
Lemma hairpin_place : exists f : diagram R, one_nearest hairpin (position f 1).
Proof.
  set (q := (V3 0 (-1) 0)%R). exists (form_of (bar q None)).
  assert (Nq : q <> v0). { intros Z. apply (f_equal vy) in Z. cbn in Z. lra. }
  assert (E : position (form_of (bar q None)) 1 = (V3 0 1 0)%R).
  { rewrite (bar_end q Nq). assert (Er : v0 -v q = (V3 0 1 0)%R) by (unfold q; vring). rewrite Er.
    assert (N1 : (V3 0 1 0)%R <> v0). { intros Z. apply (f_equal vy) in Z. cbn in Z. lra. }
    assert (Q : norm (V3 0 1 0)%R = 1%R).
    { unfold length_vector, length_vector_sqrd. cbn. replace (0 * 0 + 1 * 1 + 0 * 0)%R with 1%R by ring. apply sqrt_1. }
    rewrite (unitv_scale _ N1), Q. apply vec_eq; cbn; field. }
  rewrite E. apply one_nearest_on. exists [], (V3 2 1 0)%R, (V3 (-5) 1 0)%R, [V3 (-5) (-1) 0; V3 2 (-1) 0]%R. split; [reflexivity|].
  exists (2/7)%R. split; [lra|]. apply vec_eq; cbn; field.
Qed.

Lemma kink_goals : dvalues (o_cons kink_optimizer) = [mkConstraint (PolylineGoal 1 hairpin) 1]%R.
Proof. lazy. reflexivity. Qed.

Lemma kink_objective t : objective kink_optimizer 100 (/ 1000000)%R (pulled_bar 0) [t]
  = Ok (0 + vector_penalty (position (form_of (pulled_bar t)) 1) (foot hairpin (position (form_of (pulled_bar t)) 1)) 1)%R.
Proof.
  destruct (penalties_of_form (pulled_bar t) 100 (/ 1000000)%R (form_of (pulled_bar t)) (dvalues (o_cons kink_optimizer))
    (bar_reachable _ _) (bar_ready _ _) (bar_direct _ _) (bar_forms _ _) (kink_sound t)) as (st&Es&Ep).
  { intros c J. rewrite kink_goals in J. destruct J as [<-|[]]. destruct hairpin_place as [f U]. exists f. cbn [smooth_goal c_goal].
    assert (N : nodes (pulled_bar t) = [0; 1]) by (lazy; reflexivity). rewrite N. split; [right; now left|]. split; [cbn; lia|exact U]. }
  unfold objective, optimize_form, ebind. rewrite kink_update. unfold eget. cbn [snd]. rewrite Es. cbn [bind]. rewrite Ep, kink_goals. reflexivity.
Qed.

Lemma pulled_end t : exists k, (k * k * (1 + t * t) = 1 /\ 0 < k)%R /\ position (form_of (pulled_bar t)) 1 = (V3 k (- (t * k)) 0)%R.
Proof.
  assert (E : v0 -v (V3 (-1) t 0)%R = (V3 1 (- t) 0)%R) by vring.
  assert (N1 : (V3 1 (- t) 0)%R <> v0). { intros Z. apply (f_equal vx) in Z. cbn in Z. lra. }
  assert (P := norm_pos _ N1). assert (S := norm_sq (V3 1 (- t) 0)%R). exists (/ norm (V3 1 (- t) 0))%R. split; [split|].
  - replace (1 + t * t)%R with (@length_vector_sqrd R R_ops (V3 1 (- t) 0)%R) by (vunf; ring). rewrite <- S. field. lra.
  - now apply Rinv_0_lt_compat.
  - assert (Q := bar_end (V3 (-1) t 0)%R (kink_load t)). rewrite E, (unitv_scale _ N1) in Q. transitivity ((/ norm (V3 1 (- t) 0)) *v (V3 1 (- t) 0))%R; [exact Q|]. apply vec_eq; unfold scale_vector; cbn [vx vy vz nmul R_ops]; ring.
Qed.

Lemma hairpin_away q : on_polyline hairpin q -> (1 <= sqrd (q -v V3 1 0 0))%R.
Proof.
  intros (l1&a&b&l2&E&t&Ht&->). destruct l1 as [|x [|y [|z [|w l1]]]]; cbn [app hairpin] in E.
  - injection E as <- <- _. assert (H := Rle_0_sqr (1 - 7 * t)). unfold Rsqr in H. vunf. lra.
  - injection E as _ <- <- _. assert (H := Rle_0_sqr (1 - 2 * t)). unfold Rsqr in H. vunf. lra.
  - injection E as _ _ <- <- _. assert (H := Rle_0_sqr (7 * t - 6)). unfold Rsqr in H. vunf. lra.
  - discriminate E.
  - destruct l1; discriminate E.
Qed.

Lemma hairpin_sides x y : (-5 <= x <= 2)%R -> (y = 1 \/ y = -1)%R -> on_polyline hairpin (V3 x y 0)%R.
Proof.
  intros Hx [->| ->].
  - exists [], (V3 2 1 0)%R, (V3 (-5) 1 0)%R, [V3 (-5) (-1) 0; V3 2 (-1) 0]%R. split; [reflexivity|].
    exists ((2 - x) / 7)%R. split; [lra|]. apply vec_eq; cbn; field.
  - exists [V3 2 1 0; V3 (-5) 1 0]%R, (V3 (-5) (-1) 0)%R, (V3 2 (-1) 0)%R, []. split; [reflexivity|].
    exists ((x + 5) / 7)%R. split; [lra|]. apply vec_eq; cbn; field.
Qed.

Lemma penalty_sqrd (p q : rvec) : vector_penalty p q 1%R = sqrd (q -v p).
Proof. unfold vector_penalty, distance_point_point_sqrd. vunf. ring. Qed.

Lemma straight_penalty : (1 <= vector_penalty (position (form_of (pulled_bar 0)) 1) (foot hairpin (position (form_of (pulled_bar 0)) 1)) 1)%R.
Proof.
  destruct (pulled_end 0) as (k&[K Pk]&E). assert (k = 1)%R by nra. subst k. rewrite E, penalty_sqrd.
  replace (V3 1 (- (0 * 1)) 0)%R with (V3 1 0 0)%R by (apply vec_eq; cbn; ring).
  apply hairpin_away. apply foot_nearest. cbn. lia.
Qed.

Lemma turned_lower t : (-1 <= t <= 1)%R ->
  (vector_penalty (position (form_of (pulled_bar t)) 1) (foot hairpin (position (form_of (pulled_bar t)) 1)) 1 <= 1 - Rabs t / 2)%R.
Proof.
  intros Ht. destruct (pulled_end t) as (k&[K Pk]&E). rewrite E, penalty_sqrd.
  assert (T0 : (0 <= t * t <= 1)%R) by nra. assert (Q0 : (0 <= k * k * (t * t) <= k * k)%R).
  { assert (0 <= k * k)%R by nra. split; [apply Rmult_le_pos; lra|]. rewrite <- (Rmult_1_r (k * k)) at 2. apply Rmult_le_compat_l; lra. }
  assert (Q1 : (k * k + k * k * (t * t) = 1)%R) by (rewrite <- K; ring).
  assert (K1 : (k <= 1)%R) by nra. assert (K2 : (1 / 2 <= k)%R) by nra.
  set (p := (V3 k (- (t * k)) 0)%R). assert (L : (2 <= List.length hairpin)%nat) by (cbn; lia).
  destruct (foot_nearest hairpin p L) as [_ N].
  assert (Y : forall y, (y = 1 \/ y = -1)%R -> (sqrd (foot hairpin p -v p) <= (y + t * k) * (y + t * k))%R).
  { intros y Hy. assert (M := N _ (hairpin_sides k y ltac:(lra) Hy)).
    assert (M2 := Rmult_le_compat _ _ _ _ (dist_nonneg _ _) (dist_nonneg _ _) M M). rewrite !dist_sq in M2.
    assert (Z : forall u : rvec, @distance_point_point_sqrd R R_ops p u = sqrd (u -v p)).
    { intros u. unfold distance_point_point_sqrd. vunf. ring. }
    rewrite !Z in M2. eapply Rle_trans; [exact M2|]. right. unfold p. vunf. ring. }
  destruct (Rle_or_lt 0 t) as [T|T].
  - rewrite Rabs_pos_eq by lra. specialize (Y (-1)%R (or_intror eq_refl)).
    assert (U1 : (t / 2 <= t * k)%R) by nra. assert (U2 : (t * k <= 1)%R) by nra. set (u := (t * k)%R) in *. clearbody u. nra.
  - rewrite Rabs_left by lra. specialize (Y 1%R (or_introl eq_refl)).
    assert (U1 : (t * k <= t / 2)%R) by nra. assert (U2 : (-1 <= t * k)%R) by nra. set (u := (t * k)%R) in *. clearbody u. nra.
Qed.

(** Without the condition that no two points of a polyline are equally near, the
    differences with a positive and a negative step stay apart however small the step is:
    the penalty has no derivative. *)
Lemma c103_kink : exists (o : optimizer R) d x form n l,
  obtained o /\ keys_in_range o /\ NoDup (addressed o) /\ (forall s, In s (addressed o) -> present d s)
  /\ Z.of_nat (List.length x) = number_of_parameters o
  /\ reachable d /\ ready d /\ direct_only d /\ update_parameters o x d = (d, Ok tt)
  /\ static_equilibrium d None 100 (/ 1000000)%R false = Ok form
  /\ nonzero_trails d /\ carrying d form /\ definite d form /\ apart d form
  /\ dvalues (o_cons o) = [mkConstraint (PolylineGoal n l) 1%R] /\ In n (nodes d) /\ (2 <= List.length l)%nat
  /\ forall h, (0 < h <= 1)%R -> exists v w, (v <= - / 2)%R /\ (/ 2 <= w)%R
     /\ forall ys grad, List.length grad = List.length x ->
          snd (grad_finite_differences (optimize_form o 100 (/ 1000000)%R) h x grad (after_evaluations o 100 (/ 1000000)%R ys d)) = Ok [v]
          /\ snd (grad_finite_differences (optimize_form o 100 (/ 1000000)%R) (- h)%R x grad (after_evaluations o 100 (/ 1000000)%R ys d)) = Ok [w].
Proof.
  exists kink_optimizer, (pulled_bar 0), [0%R], (form_of (pulled_bar 0)), 1%Z, hairpin.
  destruct kink_problem as (B1&B2&B3&B4&B5).
  split; [exact B1|]. split; [exact B2|]. split; [exact B3|]. split; [exact B4|]. split; [exact B5|].
  split; [exact (bar_reachable (V3 (-1) 0 0)%R None)|]. split; [exact (bar_ready (V3 (-1) 0 0)%R None)|].
  split; [exact (bar_direct (V3 (-1) 0 0)%R None)|]. split; [exact (kink_update 0%R)|].
  split; [exact (bar_forms (V3 (-1) 0 0)%R None)|]. split; [exact (bar_nonzero (V3 (-1) 0 0)%R None)|].
  split; [exact (kink_carrying 0%R)|]. split; [exact (bar_definite (V3 (-1) 0 0)%R (form_of (pulled_bar 0)))|].
  split; [exact (bar_apart (V3 (-1) 0 0)%R None (form_of (pulled_bar 0%R)))|]. split; [exact kink_goals|].
  split. { assert (N : nodes (pulled_bar 0) = [0; 1]) by (lazy; reflexivity). rewrite N. right. now left. }
  split; [cbn; lia|]. intros h Hh.
  assert (O0 := kink_objective 0). assert (O1 := kink_objective (0 + h)). assert (O2 := kink_objective (0 + - h)).
  assert (V0 := straight_penalty). assert (V1 := turned_lower (0 + h) ltac:(lra)). assert (V2 := turned_lower (0 + - h) ltac:(lra)).
  rewrite Rabs_pos_eq in V1 by lra. rewrite Rabs_left in V2 by lra.
  set (w0 := vector_penalty (position (form_of (pulled_bar 0)) 1) _ 1%R) in *.
  set (w1 := vector_penalty (position (form_of (pulled_bar (0 + h))) 1) _ 1%R) in *.
  set (w2 := vector_penalty (position (form_of (pulled_bar (0 + - h))) 1) _ 1%R) in *. clearbody w0 w1 w2.
  exists (((0 + w1) - (0 + w0)) / h)%R, (((0 + w2) - (0 + w0)) / - h)%R. split; [|split].
  - apply (Rmult_le_reg_r h); [lra|]. unfold Rdiv. rewrite Rmult_assoc, Rinv_l by lra. lra.
  - apply (Rmult_le_reg_r h); [lra|]. replace (((0 + w2) - (0 + w0)) / - h * h)%R with (w0 - w2)%R by (field; lra). lra.
  - intros ys grad Lg. rewrite !c47_objective_gradient by exact Lg. unfold forward_differences. rewrite O0. cbn [bind List.length seq map_res].
    change (bump [0%R] 0 h) with [(0 + h)%R]. change (bump [0%R] 0 (- h)%R) with [(0 + - h)%R]. rewrite O1, O2. split; reflexivity.
Qed.
