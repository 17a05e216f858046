(** * The finite differences tend to the derivatives of the penalty (C103) *)

From Coq Require Import String List ZArith Bool Lia Reals Lra.
From Verif Require Import Py PyFacts Num Diagram DiagramFacts Topology History HistoryFacts SpecDiagram SpecTopology TopologyFacts BuildFacts SequenceThms
  Equilibrium EquilibriumNp Constraints Optimizer SpecEquilibrium SpecStatics SpecConstraints SpecOptimizer SpecNumpy SpecMet RVec EqFacts FormFacts
  StaticsFacts NpFacts NpThms OptFacts OptThms EqThms StaticsThms SpecHand HandThms SolveThms SpecUnique UniqueThms SketchThms SpecSmooth SmoothThms SpecGradient
  ConFacts ConThms PolyThms.
Import ListNotations.
Open Scope Z_scope.

(** ** The containers of the array program show the form *)

Lemma state_of_form d tmax eta form : reachable d -> ready d -> direct_only d ->
  static_equilibrium d None tmax eta false = Ok form -> form_is_sound d form ->
  exists st, equilibrium_state_numpy d tmax eta false = Ok st
    /\ (forall n, In n (nodes d) -> dget (s_xyz st) n = Some (position form n))
    /\ (forall e, In e (trail_edges d) -> dget (s_tforce st) e = Some (force form e))
    /\ (forall n, is_node_support d n = Ok true -> dget (s_reac st) n = Some (reaction form n)).
Proof.
  intros Hr Rd Di E Snd. assert (W := reachable_wf _ Hr).
  assert (E1 := c35_one_iteration d None tmax eta eta false form Hr Rd Di E).
  assert (Eq := state_direct d eta form Hr Rd Di E1 Snd tmax eta false).
  destruct (static_formed d None tmax eta false form W Rd E) as (st&Es&Fm). exists st. rewrite Eq, Es. split; [reflexivity|].
  assert (Es' := Es). apply equilibrium_state_Ok in Es' as (ts&t&Ets&_&A&Lt&_). destruct t as [|t]; [lia|].
  destruct (ready_ts d W Rd) as (ts'&Ets'&Hts). rewrite Ets in Ets'. apply Ok_inj in Ets'. subst ts'.
  assert (I := after_inv d ts None _ st W A).
  destruct (after_total d ts None W Rd Hts t) as (s0&E0&_). assert (Sw := after_swept d ts None t s0 st W Rd Hts E0 A).
  split; [|split].
  - intros n J. rewrite (fm_position _ _ _ Fm n J). rewrite <- (iv_xyz _ _ I) in J. apply In_keys_dget in J as [p Ep].
    unfold xg. now rewrite Ep.
  - intros [u v] J. rewrite (fm_force _ _ _ Fm).
    2:{ apply In_trail_edges in J as (a&Ea&_); auto. apply In_edges; auto. apply has_edge_find. eauto. }
    assert (K : forall a b, follows d a b -> (u, v) = (a, b) \/ (u, v) = (b, a) -> exists x, dget (s_tforce st) (u, v) = Some x).
    { intros a b Fo Y. rewrite (edge_between_key d a b (u, v) W Rd Fo (conj J Y)).
      destruct (follows_nodes d a b Rd Fo) as [Ia _]. destruct (sw_visit _ _ _ _ _ Sw a Ia) as (w&_&_&_&_&V).
      assert (S : stops d None a = false).
      { unfold stops. destruct (is_sup d a) eqn:Q; [|reflexivity]. destruct (sup_not_follows d a b W Rd Q Fo). }
      destruct (V b S Fo) as (_&_&X&_). eauto. }
    destruct (joined_follows d u v Rd (or_introl J)) as [Fo|Fo].
    + destruct (K u v Fo (or_introl eq_refl)) as [x ->]. reflexivity.
    + destruct (K v u Fo (or_intror eq_refl)) as [x ->]. reflexivity.
  - intros n S. assert (J : In n (nodes d)).
    { unfold is_node_support, node_get in S. apply bind_Ok in S as (a&Sa&_). apply dgetr_Ok in Sa. eapply dget_In_keys; eauto. }
    rewrite (fm_reaction _ _ _ Fm n J). destruct (sw_visit _ _ _ _ _ Sw n J) as (w&_&_&_&V&_).
    assert (St : stops d None n = true).
    { unfold stops. rewrite is_node_support_Ok in S by auto. apply Ok_inj in S. now rewrite S. }
    unfold xg. now rewrite (V St).
Qed.

Lemma sound_of (d f : diagram R) : carrying d f -> apart d f -> form_is_sound d f.
Proof.
  intros Ca Ap. split.
  - intros u v p q J Pu Pv. specialize (Ap u v J). unfold position in Ap. now rewrite Pu, Pv in Ap.
  - intros e x J Ef. specialize (Ca e J). unfold force in Ca. now rewrite Ef in Ca.
Qed.

(** ** The penalty of a form *)

Open Scope R_scope.

Definition penalty_of (c : constraint R) (f : diagram R) : R :=
  let w := c_weight c in
  match c_goal c with
  | PointGoal n t => vector_penalty (position f n) t w
  | LineGoal n a b => vector_penalty (position f n) (closest_point_on_line (position f n) a b) w
  | PlaneGoal n o nrm => vector_penalty (position f n) (closest_point_on_plane (position f n) o nrm) w
  | PolylineGoal n l => vector_penalty (position f n) (foot l (position f n)) w
  | TrailForceGoal e y => float_penalty (force f e) y w
  | ReactionGoal n r => vector_penalty (reaction f n) r w
  | LengthGoal e l => float_penalty (dist (position f (fst e)) (position f (snd e))) l w
  | DirectionGoal e t =>
      let ref := unitized_vector (position f (snd e) -v position f (fst e)) in
      vector_penalty ref (aligned_vector (normalize_vector t) ref) w
  end.

Lemma penalties_of_form d tmax eta form cs : reachable d -> ready d -> direct_only d ->
  static_equilibrium d None tmax eta false = Ok form -> form_is_sound d form ->
  (forall c, In c cs -> exists f, smooth_goal d f (c_goal c)) ->
  exists st, equilibrium_state_numpy d tmax eta false = Ok st
    /\ calculate_penalty cs st = Ok (fold_left (fun acc c => acc + penalty_of c form) cs 0).
Proof.
  intros Hr Rd Di E Snd G. destruct (state_of_form d tmax eta form Hr Rd Di E Snd) as (st&Es&X&F&Re).
  exists st. split; [exact Es|]. unfold calculate_penalty. change (@n0 R R_ops) with 0. generalize 0.
  induction cs as [|c cs IH]; intros acc; [reflexivity|]. cbn [fold_res fold_left].
  assert (P : penalty st c = Ok (penalty_of c form)).
  { destruct (G c (or_introl eq_refl)) as [f Gc]. clear - Gc X F Re. unfold penalty, penalty_of.
    destruct (c_goal c); cbn [smooth_goal] in Gc; unfold dgetr; try contradiction.
    1,2: now rewrite X.
    - now rewrite X by apply Gc.
    - rewrite X by apply Gc. cbn [bind]. now rewrite (foot_Ok _ _ (proj1 (proj2 Gc))).
    - now rewrite F.
    - now rewrite Re.
    - destruct Gc as (I1&I2&_). now rewrite !X by assumption.
    - destruct Gc as (I1&I2&_). now rewrite !X by assumption. }
  rewrite P. cbn [bind]. change (@nadd R R_ops) with Rplus. apply IH. intros c' I. apply G. now right.
Qed.

(** ** The penalty varies nicely *)

Section Penalty.
  Context {X : Type} (x0 : X) (near : (X -> Prop) -> Prop) (nice : (X -> R) -> Prop) (C : calculus x0 near nice).
  Notation nicev := (nicev nice).

  Lemma nice_vector_penalty p q w : nicev p -> nicev q -> nice (fun x => vector_penalty (p x) (q x) w).
  Proof using C.
    intros P Q. assert (D := nicev_sub x0 near nice C p q P Q). apply (ca_ext _ _ _ C (fun x => dot (p x -v q x) (p x -v q x) * w)).
    - apply (ca_all _ _ _ C). intros x. unfold vector_penalty, distance_point_point_sqrd. vunf. ring.
    - apply (ca_mul _ _ _ C); [now apply (nice_dot x0 near nice C)|apply (ca_const _ _ _ C)].
  Qed.
  Lemma nice_float_penalty a y w : nice a -> nice (fun x => float_penalty (a x) y w).
  Proof using C.
    intros A. unfold float_penalty. cbn [nsub nmul R_ops].
    assert (D : nice (fun x => a x - y)) by (apply (nice_sub x0 near nice C); auto; apply (ca_const _ _ _ C)).
    apply (ca_mul _ _ _ C); [now apply (ca_mul _ _ _ C)|apply (ca_const _ _ _ C)].
  Qed.
  Lemma nicev_line p a b : nicev p -> nicev (fun x => closest_point_on_line (p x) a b).
  Proof using C.
    intros P. unfold closest_point_on_line, vector_component. destruct (ntruthy _).
    - apply (nicev_add x0 near nice C); [apply (nicev_const x0 near nice C)|].
      apply (nicev_scale x0 near nice C (fun x => ndiv (dot (p x -v a) (b -v a)) (length_vector_sqrd (b -v a)))); [|apply (nicev_const x0 near nice C)].
      cbn [ndiv R_ops]. unfold Rdiv. apply (ca_mul _ _ _ C); [|apply (ca_const _ _ _ C)].
      apply (nice_dot x0 near nice C); [|apply (nicev_const x0 near nice C)].
      apply (nicev_sub x0 near nice C); auto. apply (nicev_const x0 near nice C).
    - apply (nicev_const x0 near nice C).
  Qed.
  Lemma nicev_plane p o nrm : nicev p -> nicev (fun x => closest_point_on_plane (p x) o nrm).
  Proof using C.
    intros P. unfold closest_point_on_plane. set (n := normalize_vector nrm).
    set (k := fun x => ndiv (nsub (dot_vectors n (p x)) (dot_vectors n o)) (length_vector_sqrd n)).
    assert (K : nice k).
    { unfold k. cbn [ndiv R_ops]. unfold Rdiv. apply (ca_mul _ _ _ C); [|apply (ca_const _ _ _ C)].
      apply (nice_sub x0 near nice C); [|apply (ca_const _ _ _ C)]. apply (nice_dot x0 near nice C); [apply (nicev_const x0 near nice C)|exact P]. }
    destruct P as (P1&P2&P3).
    repeat split; cbn [vx vy vz]; fold k; (apply (nice_sub x0 near nice C); [assumption|apply (ca_mul _ _ _ C); [exact K|apply (ca_const _ _ _ C)]]).
  Qed.
  Lemma apart_v0 (p q : rvec) : p <> q -> q -v p <> v0.
  Proof using. intros N Z. apply N. replace p with (q -v (q -v p)) by vring. rewrite Z. vring. Qed.

  Lemma nice_penalty (F : X -> diagram R) d c :
    (forall p l, (2 <= List.length l)%nat -> nicev p -> one_nearest l (p x0) -> nice (fun x => sqrd (p x -v foot l (p x)))) ->
    smooth_goal d (F x0) (c_goal c) ->
    (forall n, In n (nodes d) -> nicev (fun x => position (F x) n)) ->
    (forall n, In n (nodes d) -> nicev (fun x => reaction (F x) n)) ->
    (forall e, In e (trail_edges d) -> nice (fun x => force (F x) e)) -> nice (fun x => penalty_of c (F x)).
  Proof using C.
    intros PL G P Q T. unfold penalty_of. destruct (c_goal c) as [n t|n a b|n o nrm|n l|e y|n r|e l|e t]; cbn [smooth_goal] in G.
    - apply nice_vector_penalty; [auto|apply (nicev_const x0 near nice C)].
    - apply nice_vector_penalty; [auto|now apply nicev_line, P].
    - apply nice_vector_penalty; [apply P, G|now apply nicev_plane, P].
    - destruct G as (I&L2&U). apply (ca_ext _ _ _ C (fun x => sqrd (position (F x) n -v foot l (position (F x) n)) * c_weight c)).
      + apply (ca_all _ _ _ C). intros x. unfold vector_penalty, distance_point_point_sqrd. vunf. ring.
      + apply (ca_mul _ _ _ C); [|apply (ca_const _ _ _ C)]. apply (PL (fun x => position (F x) n) l L2 (P n I) U).
    - apply nice_float_penalty; auto.
    - apply nice_vector_penalty; [|apply (nicev_const x0 near nice C)]. apply Q.
      unfold is_node_support, node_get in G. apply bind_Ok in G as (a&Sa&_). apply dgetr_Ok in Sa. eapply dget_In_keys; eauto.
    - destruct G as (I1&I2&N). apply nice_float_penalty.
      apply (nice_norm x0 near nice C (fun x => position (F x) (snd e) -v position (F x) (fst e))).
      + apply (nicev_sub x0 near nice C); auto.
      + now apply apart_v0.
    - destruct G as (I1&I2&N&K). set (u := fun x => position (F x) (snd e) -v position (F x) (fst e)) in *.
      assert (Nu : nicev u) by (apply (nicev_sub x0 near nice C); auto).
      assert (U0 : u x0 <> v0) by now apply apart_v0.
      set (w := fun x => unitized_vector (u x)).
      assert (Ew : forall x, w x = (/ norm (u x)) *v u x).
      { intros x. unfold w, unitized_vector. cbn [ndiv nsqrt n1 R_ops]. unfold Rdiv. rewrite Rmult_1_l. reflexivity. }
      assert (Nw : nicev w).
      { apply (nicev_ext x0 near nice C (fun x => (/ norm (u x)) *v u x)).
        - apply (ca_all _ _ _ C). intros x. now rewrite Ew.
        - apply (nicev_scale x0 near nice C); auto. apply (ca_inv _ _ _ C); [now apply (nice_norm x0 near nice C)|].
          assert (Pn := norm_pos _ U0). lra. }
      set (t' := normalize_vector t). cbv zeta. unfold aligned_vector.
      set (k := fun x => dot t' (w x)). assert (Nk : nice k).
      { apply (nice_dot x0 near nice C); [apply (nicev_const x0 near nice C)|exact Nw]. }
      assert (T0 : t <> v0). { intros ->. apply K. destruct (u x0). vunf. ring. }
      assert (K0 : k x0 <> 0).
      { unfold k. rewrite Ew. unfold t'. rewrite (unitv_scale t T0).
        replace (dot ((/ norm t) *v t) ((/ norm (u x0)) *v u x0)) with (/ norm t * / norm (u x0) * dot t (u x0)) by (destruct t, (u x0); vunf; ring).
        assert (P1 := norm_pos _ U0). assert (P2 := norm_pos _ T0).
        apply Rmult_integral_contrapositive. split; [|exact K]. apply Rmult_integral_contrapositive. split; apply Rinv_neq_0_compat; lra. }
      destruct (Rlt_dec (k x0) 0) as [L|L].
      + apply (ca_ext _ _ _ C (fun x => vector_penalty (w x) (scale_vector t' (nopp n1)) (c_weight c))).
        * apply (ca_mono _ _ _ C) with (2 := near_lt x0 near nice C k 0 Nk L). intros x Hx.
          change (vector_penalty (w x) (scale_vector t' (nopp n1)) (c_weight c) = vector_penalty (w x) (if Rltb (k x) 0 then scale_vector t' (nopp n1) else t') (c_weight c)).
          destruct (Rltb_spec (k x) 0); [reflexivity|lra].
        * apply nice_vector_penalty; [exact Nw|apply (nicev_const x0 near nice C)].
      + apply (ca_ext _ _ _ C (fun x => vector_penalty (w x) t' (c_weight c))).
        * apply (ca_mono _ _ _ C) with (2 := near_gt x0 near nice C k 0 Nk ltac:(lra)). intros x Hx.
          change (vector_penalty (w x) t' (c_weight c) = vector_penalty (w x) (if Rltb (k x) 0 then scale_vector t' (nopp n1) else t') (c_weight c)).
          destruct (Rltb_spec (k x) 0); [lra|reflexivity].
        * apply nice_vector_penalty; [exact Nw|apply (nicev_const x0 near nice C)].
  Qed.

  Lemma nice_penalties (F : X -> diagram R) cs : (forall c, In c cs -> nice (fun x => penalty_of c (F x))) ->
    forall a, nice a -> nice (fun x => fold_left (fun acc c => acc + penalty_of c (F x)) cs (a x)).
  Proof using C.
    induction cs as [|c cs IH]; intros N a A; cbn [fold_left]; [exact A|].
    apply (IH (fun c' I => N c' (or_intror I)) (fun x => a x + penalty_of c (F x))). apply (ca_add _ _ _ C); [exact A|apply N; now left].
  Qed.
End Penalty.

(** ** The topology as a function of one variable *)

Lemma edges_of_type_filter (d : diagram R) t : wf d ->
  edges_of_type d t = filter (fun e => match edge_find d e with Some a => opt_is etype_eqb (ea_type a) t | None => false end) (edges d).
Proof.
  intros W. rewrite <- (edge_tags d t (NoDup_edges d W)) at 1. apply filter_ext_in. intros e I.
  apply In_edges, has_edge_find in I as [a Ea]; auto. rewrite Ea.
  destruct (memb e (edges_of_type d t)) eqn:M.
  - apply memb_In in M. apply In_edges_of_type in M as (b&Eb&Tb); auto. rewrite Ea in Eb. injection Eb as <-.
    rewrite Tb. destruct t; reflexivity.
  - symmetry. apply not_true_is_false. intros Q. apply not_true_iff_false in M. apply M. apply memb_In. apply In_edges_of_type; auto.
    exists a. split; auto. destruct (ea_type a) as [[]|], t; cbn in Q; congruence.
Qed.

Lemma same_kind S (d d' : diagram R) : wf d -> wf d' -> same_except S d d' -> trail_edges d' = trail_edges d /\ deviation_edges d' = deviation_edges d.
Proof.
  intros W W' (_&Ee&_&_&_&_&_&_&_&_&Et&Ed&_). unfold trail_edges, deviation_edges. rewrite !edges_of_type_filter, Ee by assumption.
  split; apply filter_ext; intros e; [specialize (Et e); unfold is_trail_edge, edge_get in Et|specialize (Ed e); unfold is_deviation_edge, edge_get in Ed];
    destruct (edge_find d' e), (edge_find d e); cbn [bind] in *; congruence.
Qed.

Lemma layout_except S d d1 d2 : wf d -> wf d1 -> wf d2 -> same_except S d d1 -> same_except S d d2 -> same_layout d1 d2.
Proof.
  intros W W1 W2 A B. destruct (same_kind S d d1 W W1 A) as [A1 A2]. destruct (same_kind S d d2 W W2 B) as [B1 B2].
  destruct A as (A3&A4&_&_&A5&_&A6&_&A7&_&_&_&A8&_). destruct B as (B3&B4&_&_&B5&_&B6&_&B7&_&_&_&B8&_).
  constructor; [congruence|congruence|congruence|congruence|congruence| | |].
  - intros n _. now rewrite A7, B7.
  - intros n _. now rewrite A6, B6.
  - intros e _. now rewrite A8, B8.
Qed.

Lemma bump_length (x : list R) i h : List.length (bump x i h) = List.length x.
Proof. apply length_set_nth. Qed.

Lemma bump_0 (x : list R) i : (i < List.length x)%nat -> bump x i 0 = x.
Proof.
  intros L. apply set_nth_same. cbn [nadd R_ops n0]. rewrite Rplus_0_r. now apply nth_error_nth'.
Qed.

Lemma bump_get (x : list R) i h k : (i < List.length x)%nat ->
  aget (bump x i h) k = if Z.eqb (Z.of_nat i) k then Ok (nth i x 0 + h) else aget x k.
Proof.
  intros L. assert (A := aset_Ok x (Z.of_nat i) (nth i x 0 + h) ltac:(lia)). rewrite Nat2Z.id in A. exact (aget_aset x _ k _ _ A).
Qed.

Section Variable_i.
  Context (o : optimizer R) (d : diagram R) (x : list R) (i : nat).
  Context (M : obtained o) (K : keys_in_range o) (ND : NoDup (addressed o)) (P : forall s, In s (addressed o) -> present d s)
    (L : Z.of_nat (List.length x) = number_of_parameters o) (Hr : reachable d) (Rd : ready d) (Di : direct_only d) (Li : (i < List.length x)%nat).

  Definition moved (h : R) : diagram R := fst (update_parameters o (bump x i h) d).

  Lemma moved_Ok h : update_parameters o (bump x i h) d = (moved h, Ok tt)
    /\ forall k p, In (k, p) (o_params o) -> quantity (moved h) (p_slot p) = aget (bump x i h) k.
  Proof using M K ND P L.
    destruct (c45_round_trip o (bump x i h) d M K ND P) as (d'&E&_&Q); [now rewrite bump_length|].
    unfold moved. rewrite E. auto.
  Qed.

  Lemma moved_quantity s : has_derivative (fun h => value 0 (quantity (moved h) s)) 0.
  Proof using M K ND P L Li.
    assert (C := differentiability_calculus 0). destruct (in_dec slot_dec s (addressed o)) as [I|I].
    - unfold addressed in I. apply in_map_iff in I as ([k p]&<-&I). cbn [snd].
      apply (ca_ext _ _ _ C (fun h => if Z.eqb (Z.of_nat i) k then nth i x 0 + h else value 0 (aget x k))).
      + apply (ca_all _ _ _ C). intros h. rewrite (proj2 (moved_Ok h) k p I), bump_get by exact Li. now destruct (Z.eqb _ _).
      + destruct (Z.eqb (Z.of_nat i) k); [|apply (ca_const _ _ _ C)].
        apply (ca_add _ _ _ C); [apply (ca_const _ _ _ C)|]. exists 1. apply derivable_pt_lim_id.
    - apply (ca_ext _ _ _ C (fun _ => value 0 (quantity d s))); [|apply (ca_const _ _ _ C)].
      apply (ca_all _ _ _ C). intros h. destruct (c45_frame o (bump x i h) d) as (_&_&_&_&_&_&_&_&_&_&_&_&_&Q). unfold moved. now rewrite Q.
  Qed.

  Lemma moved_built h : reachable (moved h) /\ ready (moved h) /\ direct_only (moved h) /\ same_layout (moved 0) (moved h).
  Proof using Hr Rd Di.
    assert (Y : forall h, reachable (moved h) /\ ready (moved h)).
    { intros h'. destruct (evolved_by_hand (addressed o) d (moved h')) as (ops&Fo&E); [apply update_evolved|]. rewrite E.
      destruct (by_hand_ready _ _ Fo d Hr) as [A B]. auto. }
    destruct (Y h) as [Hh Rh]. split; [exact Hh|]. split; [exact Rh|].
    assert (Sx : forall h, same_except (addressed o) d (moved h)) by (intros h'; apply c45_frame).
    assert (W := reachable_wf _ Hr). assert (Wh := reachable_wf _ Hh). split.
    - destruct (same_kind _ _ _ W Wh (Sx h)) as [_ E]. destruct (Sx h) as (_&_&_&_&_&_&_&_&Q&_).
      intros u v I. rewrite E in I. rewrite !Q. now apply Di.
    - apply (layout_except (addressed o) d); auto. apply reachable_wf, Y.
  Qed.

  Lemma moved_smooth : smooth_inputs moved 0.
  Proof using M K ND P L Li.
    assert (C := differentiability_calculus 0).
    assert (Ext : forall f g, (forall h, f h = g h) -> has_derivative f 0 -> has_derivative g 0).
    { intros f g E. apply (ca_ext _ _ _ C). now apply (ca_all _ _ _ C). }
    constructor.
    - intros n tr _. split; [|split].
      + apply (Ext (fun h => value 0 (quantity (moved h) (NodeSlot n AX)))); [|apply moved_quantity].
        intros h. unfold position. cbn [quantity]. now destruct (node_coordinates (moved h) n).
      + apply (Ext (fun h => value 0 (quantity (moved h) (NodeSlot n AY)))); [|apply moved_quantity].
        intros h. unfold position. cbn [quantity]. now destruct (node_coordinates (moved h) n).
      + apply (Ext (fun h => value 0 (quantity (moved h) (NodeSlot n AZ)))); [|apply moved_quantity].
        intros h. unfold position. cbn [quantity]. now destruct (node_coordinates (moved h) n).
    - intros n _. split; [|split].
      + apply (Ext (fun h => value 0 (quantity (moved h) (NodeSlot n AQX)))); [|apply moved_quantity].
        intros h. unfold load. cbn [quantity]. now destruct (node_load (moved h) n).
      + apply (Ext (fun h => value 0 (quantity (moved h) (NodeSlot n AQY)))); [|apply moved_quantity].
        intros h. unfold load. cbn [quantity]. now destruct (node_load (moved h) n).
      + apply (Ext (fun h => value 0 (quantity (moved h) (NodeSlot n AQZ)))); [|apply moved_quantity].
        intros h. unfold load. cbn [quantity]. now destruct (node_load (moved h) n).
    - intros e _. exact (moved_quantity (EdgeSlot e AForce)).
    - intros e _. exact (moved_quantity (EdgeSlot e ALength)).
    - intros e _. assert (Q : forall h, plane_of (moved h) e = plane_of d e).
      { intros h. destruct (c45_frame o (bump x i h) d) as (_&_&_&_&_&_&_&_&_&_&_&_&Q&_). unfold plane_of, moved. now rewrite Q. }
      assert (Y : forall g : rvec * rvec -> R, has_derivative (fun h => g (plane_of (moved h) e)) 0).
      { intros g. apply (Ext (fun _ => g (plane_of d e))); [intros h; now rewrite Q|apply (ca_const _ _ _ C)]. }
      split; (split; [|split]).
      + exact (Y (fun p => vx (fst p))).
      + exact (Y (fun p => vy (fst p))).
      + exact (Y (fun p => vz (fst p))).
      + exact (Y (fun p => vx (snd p))).
      + exact (Y (fun p => vy (snd p))).
      + exact (Y (fun p => vz (snd p))).
  Qed.

  Context (tmax : Z) (eta : R) (form : diagram R) (Lt : (1 <= tmax)%Z) (Pe : 0 <= eta).
  Context (E : static_equilibrium (moved 0) None tmax eta false = Ok form).
  Context (Nz : nonzero_trails (moved 0)) (Ca : carrying (moved 0) form) (De : definite (moved 0) form) (Ap : apart (moved 0) form).
  Context (G : forall k c, In (k, c) (o_cons o) -> smooth_goal (moved 0) form (c_goal c)).

  Lemma smooth_goal_layout d1 d2 f g : same_layout d1 d2 -> smooth_goal d1 f g -> smooth_goal d2 f g.
  Proof using.
    intros Ly. destruct g; cbn [smooth_goal]; rewrite ?(ly_nodes _ _ Ly), ?(ly_trail_edges _ _ Ly); auto.
    intros S. assert (J : In node (nodes d1)).
    { unfold is_node_support, node_get in S. apply bind_Ok in S as (a&Sa&_). apply dgetr_Ok in Sa. eapply dget_In_keys; eauto. }
    now rewrite (ly_supports _ _ Ly node J).
  Qed.

  Lemma objective_derivative : exists l, partial_derivative (objective o tmax eta d) x i l.
  Proof using M K ND P L Hr Rd Di Li Lt Pe E Nz Ca De Ap G.
    assert (C := differentiability_calculus 0).
    set (F := fun h => value form (static_equilibrium (moved h) None tmax eta false)).
    assert (F0 : F 0 = form) by (unfold F; now rewrite E).
    assert (FE : forall h, static_equilibrium (moved h) None tmax eta false = Ok (F h)).
    { intros h. destruct (moved_built h) as (A1&A2&A3&_).
      destruct (c35_success (moved h) None tmax eta false A1 A2 A3 I Lt Pe ltac:(discriminate)) as (f&Ef&_). unfold F. now rewrite Ef. }
    assert (S : smooth_forms moved F 0).
    { apply c102_differentiable; try (rewrite F0; assumption); try assumption.
      - exists 1. split; [lra|]. intros h _. destruct (moved_built h) as (A1&A2&_&A4). split; [exact A1|]. split; [exact A2|]. split; [exact A4|].
        exists tmax, eta, false. apply FE.
      - apply (moved_built 0).
      - exact moved_smooth. }
    destruct S as [Sp Sr Sf]. destruct (moved_built 0) as (Hr0&_). assert (W0 := reachable_wf _ Hr0).
    assert (Te : forall e, In e (trail_edges (moved 0)) -> In e (edges (moved 0))).
    { intros e J. apply In_trail_edges in J as (a&Ea&_); auto. apply In_edges; auto. apply has_edge_find. eauto. }
    (** near the point the form is sound *)
    assert (N1 : close_by 0 (fun h => forall e, In e (trail_edges (moved 0)) -> force (F h) e <> 0)).
    { apply (near_list 0 _ _ C). intros e J. apply (near_ne 0 _ _ C); [exact (Sf e (Te e J))|]. rewrite F0. now apply Ca. }
    assert (N2 : close_by 0 (fun h => forall e, In e (deviation_edges (moved 0)) -> position (F h) (snd e) -v position (F h) (fst e) <> v0)).
    { apply (near_list 0 _ _ C). intros [u v] J. cbn [fst snd]. destruct (deviation_ends _ u v W0 J) as [Iu Iv].
      apply (near_nev 0 _ _ C (fun h => position (F h) v -v position (F h) u)).
      - apply (nicev_sub 0 _ _ C); [exact (Sp v Iv)|exact (Sp u Iu)].
      - rewrite F0. apply apart_v0. now apply Ap. }
    assert (N3 : close_by 0 (fun h => form_is_sound (moved h) (F h))).
    { apply (ca_mono _ _ _ C) with (2 := ca_and _ _ _ C _ _ N1 N2). intros h [A B]. destruct (moved_built h) as (_&_&_&Ly). split.
      - intros u v p q J Pu Pv. rewrite (ly_deviation_edges _ _ Ly) in J. specialize (B _ J). cbn [fst snd] in B. unfold position in B.
        rewrite Pu, Pv in B. cbn [value] in B. intros ->. apply B. vring.
      - intros e f J Ef. rewrite (ly_trail_edges _ _ Ly) in J. specialize (A e J). unfold force in A. now rewrite Ef in A. }
    set (phi := fun h => fold_left (fun acc c => acc + penalty_of c (F h)) (dvalues (o_cons o)) 0).
    assert (Np : has_derivative phi 0).
    { apply (nice_penalties 0 _ _ C F (dvalues (o_cons o))) with (a := fun _ => 0); [|apply (ca_const _ _ _ C)].
      intros c J. unfold dvalues in J. apply in_map_iff in J as ([k c']&<-&J). cbn [snd].
      apply (nice_penalty 0 _ _ C F (moved 0)).
      - intros p l L2 Np U. apply polyline_derivative; [exact L2|exact Np|exact U|].
        assert (Nd := nicev_sub 0 _ _ C p (fun _ => foot l (p 0)) Np (nicev_const 0 _ _ C _)).
        exact (nice_dot 0 _ _ C _ _ Nd Nd).
      - rewrite F0. now apply (G k).
      - exact Sp.
      - exact Sr.
      - intros e Ie. apply Sf. now apply Te. }
    assert (Nv : close_by 0 (fun h => objective o tmax eta d (bump x i h) = Ok (phi h))).
    { apply (ca_mono _ _ _ C) with (2 := N3). intros h Sd. destruct (moved_built h) as (A1&A2&A3&A4).
      destruct (penalties_of_form (moved h) tmax eta (F h) (dvalues (o_cons o)) A1 A2 A3 (FE h) Sd) as (st&Es&Ep).
      { intros c J. unfold dvalues in J. apply in_map_iff in J as ([k c']&<-&J). cbn [snd]. exists form.
        apply (smooth_goal_layout (moved 0)); [exact A4|now apply (G k)]. }
      unfold objective, optimize_form, ebind. rewrite (proj1 (moved_Ok h)). unfold eget. cbn [snd]. rewrite Es. cbn [bind]. exact Ep. }
    destruct Np as [l Dl]. exists l. intros epsilon Pp. destruct (Dl epsilon Pp) as [b Hb]. destruct Nv as (a&Pa&Ha).
    exists (Rmin a b). split; [apply Rmin_pos; [exact Pa|apply cond_pos]|]. intros h Nh Lh.
    assert (M1 := Rmin_l a b). assert (M2 := Rmin_r a b). exists (phi 0), (phi h). split; [|split].
    - rewrite <- (bump_0 x i Li). apply Ha. rewrite Rminus_diag_eq, Rabs_R0; auto.
    - apply Ha. rewrite Rminus_0_r. lra.
    - specialize (Hb h Nh ltac:(lra)). now rewrite Rplus_0_l in Hb.
  Qed.
End Variable_i.

(** ** C103 *)

(** Derivatives in all variables at once *)
Lemma gradient_tends (g : list R -> res R) x :
  (forall i, (i < List.length x)%nat -> exists l, partial_derivative g x i l) -> (exists y0, g x = Ok y0) ->
  exists gr, List.length gr = List.length x /\ (forall i v, nth_error gr i = Some v -> partial_derivative g x i v)
    /\ forall epsilon, 0 < epsilon -> exists delta, 0 < delta /\ forall h, h <> 0 -> Rabs h < delta ->
         exists ds, forward_differences g h x = Ok ds /\ Forall2 (fun a b => Rabs (a - b) < epsilon) ds gr.
Proof.
  intros H [y0 E0]. unfold forward_differences. rewrite E0. cbn [bind].
  assert (Y : forall n k, (k + n <= List.length x)%nat -> exists gr, List.length gr = n
    /\ (forall i v, nth_error gr i = Some v -> partial_derivative g x (k + i) v)
    /\ forall epsilon, 0 < epsilon -> exists delta, 0 < delta /\ forall h, h <> 0 -> Rabs h < delta ->
         exists ds, map_res (fun i => let* y := g (bump x i h) in Ok (ndiv (nsub y y0) h)) (seq k n) = Ok ds
           /\ Forall2 (fun a b => Rabs (a - b) < epsilon) ds gr).
  { induction n as [|n IH]; intros k Lk.
    - exists []. split; [reflexivity|]. split; [intros [|i] v; discriminate|]. intros epsilon P. exists 1. split; [lra|].
      intros h _ _. exists []. split; [reflexivity|constructor].
    - destruct (IH (S k) ltac:(lia)) as (gr&Lg&Dg&Tg). destruct (H k ltac:(lia)) as [l Dl]. exists (l :: gr).
      split; [cbn; now rewrite Lg|]. split.
      + intros [|i] v N; cbn in N; [injection N as <-; now rewrite Nat.add_0_r|]. replace (k + S i)%nat with (S k + i)%nat by lia. now apply Dg.
      + intros epsilon P. destruct (Tg epsilon P) as (a&Pa&Ha). destruct (Dl epsilon P) as (b&Pb&Hb).
        exists (Rmin a b). split; [now apply Rmin_pos|]. intros h Nh Lh. assert (M1 := Rmin_l a b). assert (M2 := Rmin_r a b).
        destruct (Ha h Nh ltac:(lra)) as (ds&Ed&Fd). destruct (Hb h Nh ltac:(lra)) as (z0&y&Z0&Ey&B). rewrite E0 in Z0. apply Ok_inj in Z0. subst z0.
        exists ((y - y0) / h :: ds). cbn [seq map_res]. rewrite Ey. cbn [bind]. rewrite Ed. cbn [bind]. split; [reflexivity|]. now constructor. }
  destruct (Y (List.length x) 0%nat ltac:(lia)) as (gr&A&B&D). exists gr. auto.
Qed.

(** With smaller and smaller steps the finite-difference gradient tends to the partial
    derivatives of the penalty, at every point where the form is sound, clear of the
    tolerance of planes, and clear of the kinks of the constraints. *)
Lemma c103_gradient : forall (o : optimizer R) tmax eta d x d' form,
  obtained o -> keys_in_range o -> NoDup (addressed o) -> (forall s, In s (addressed o) -> present d s) ->
  Z.of_nat (List.length x) = number_of_parameters o ->
  reachable d -> ready d -> direct_only d -> (1 <= tmax)%Z -> (0 <= eta)%R ->
  update_parameters o x d = (d', Ok tt) -> static_equilibrium d' None tmax eta false = Ok form ->
  nonzero_trails d' -> carrying d' form -> definite d' form -> apart d' form ->
  (forall k c, In (k, c) (o_cons o) -> smooth_goal d' form (c_goal c)) ->
  exists gr, List.length gr = List.length x
    /\ (forall i v, nth_error gr i = Some v -> partial_derivative (objective o tmax eta d) x i v)
    /\ forall epsilon, (0 < epsilon)%R -> exists delta, (0 < delta)%R /\ forall h, h <> 0%R -> (Rabs h < delta)%R ->
         exists ds, Forall2 (fun a b => (Rabs (a - b) < epsilon)%R) ds gr
           /\ forall ys grad, List.length grad = List.length x ->
                snd (grad_finite_differences (optimize_form o tmax eta) h x grad (after_evaluations o tmax eta ys d)) = Ok ds.
Proof.
  intros o tmax eta d x d' form M K ND P L Hr Rd Di Lt Pe U E Nz Ca De Ap G.
  assert (Ud : fst (update_parameters o x d) = d') by now rewrite U.
  assert (D0 : forall i, (i < List.length x)%nat -> moved o d x i 0 = d').
  { intros i Li. unfold moved. rewrite bump_0 by exact Li. now rewrite U. }
  assert (H : forall i, (i < List.length x)%nat -> exists l, partial_derivative (objective o tmax eta d) x i l).
  { intros i Li. rewrite <- (D0 i Li) in *. apply (objective_derivative o d x i) with (form := form); assumption. }
  assert (V : exists y0, objective o tmax eta d x = Ok y0).
  { destruct (same_kind (addressed o) d d') as [_ Sk]; [now apply reachable_wf| |rewrite <- Ud; apply c45_frame|].
    { destruct (evolved_by_hand (addressed o) d d') as (ops&Fo&->); [rewrite <- Ud; apply update_evolved|].
      apply reachable_wf. now destruct (by_hand_ready _ _ Fo d Hr). }
    destruct (evolved_by_hand (addressed o) d d') as (ops&Fo&Eo); [rewrite <- Ud; apply update_evolved|].
    destruct (by_hand_ready _ _ Fo d Hr) as [A1 A2]. rewrite <- Eo in A1, A2. specialize (A2 Rd).
    assert (A3 : direct_only d').
    { assert (Q := c45_frame o x d). rewrite U in Q. cbn [fst] in Q. destruct Q as (_&_&_&_&_&_&_&_&Q&_).
      intros u v I. rewrite Sk in I. rewrite !Q. now apply Di. }
    assert (Sd := sound_of d' form Ca Ap).
    destruct (penalties_of_form d' tmax eta form (dvalues (o_cons o)) A1 A2 A3 E Sd) as (st&Es&Ep).
    { intros c J. unfold dvalues in J. apply in_map_iff in J as ([k c']&<-&J). cbn [snd]. exists form. now apply (G k). }
    unfold objective, optimize_form, ebind. rewrite U. unfold eget. cbn [snd]. rewrite Es. cbn [bind]. rewrite Ep. eauto. }
  destruct (gradient_tends _ x H V) as (gr&A&B&T). exists gr. split; [exact A|]. split; [exact B|].
  intros epsilon Pp. destruct (T epsilon Pp) as (delta&Pd&Hd). exists delta. split; [exact Pd|]. intros h Nh Lh.
  destruct (Hd h Nh Lh) as (ds&Ed&Fd). exists ds. split; [exact Fd|]. intros ys grad Lg. now rewrite c47_objective_gradient.
Qed.
