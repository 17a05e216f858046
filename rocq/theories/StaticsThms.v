(** * Properties of statics, over the real numbers *)

From Coq Require Import String List ZArith Bool Lia Permutation Reals Lra.
From Verif Require Import Py PyFacts Num Diagram DiagramFacts Topology SpecDiagram SpecTopology
  TopologyFacts BuildFacts ChainFacts ChainFacts2 History HistoryFacts DiagramThms TopologyThms SequenceThms
  Equilibrium SpecEquilibrium EqFacts FormFacts ReadyThms TypedFacts EqThms RVec SpecStatics StaticsFacts.
Import ListNotations.
Open Scope Z_scope.

Implicit Types (d f form : diagram R).

(** ** Nodal equilibrium *)

Lemma opp_is u : (-1)%R *v u = v0 -v u. Proof. vring. Qed.

(** node_equilibrium returns the only vector that balances the node. *)
Lemma c25_node_equilibrium : forall d n (t_in : rvec) xyz indirect r,
  node_equilibrium d n t_in xyz indirect = Ok r ->
  exists q direct indirects, node_load d n = Ok q
    /\ connected_direct_deviation_edges d n = Ok direct
    /\ (indirect = true -> connected_indirect_deviation_edges d n = Ok indirects)
    /\ forall r', r' = r <->
         (v0 -v t_in) +v q
           +v vsum (map (fun e => force d e *v direction (value v0 (dgetr xyz (far_end e n)) -v value v0 (dgetr xyz n)))
                        (direct ++ if indirect then indirects else []))
           +v r' = v0.
Proof.
  intros d n t_in xyz indirect r E. unfold node_equilibrium in E.
  apply bind_Ok in E as (q&Eq&E). apply bind_Ok in E as (rd&Ed&E). apply bind_Ok in E as (ri&Ei&E).
  injection E as E.
  assert (P : forall es s, deviation_edges_resultant_vector d n xyz es = Ok s ->
     s = vsum (map (fun e => force d e *v direction (value v0 (dgetr xyz (far_end e n)) -v value v0 (dgetr xyz n))) es)).
  { intros es s Q. unfold deviation_edges_resultant_vector, incoming_edge_vectors in Q.
    apply bind_Ok in Q as (vs&Ev&Q). apply bind_Ok in Q as (fs&Ef&Q). injection Q as <-.
    rewrite fold_left_vsum, vadd_0_l. f_equal. revert vs fs Ev Ef. induction es as [|e es IH]; intros vs fs Ev Ef; cbn in Ev, Ef.
    - injection Ev as <-. injection Ef as <-. reflexivity.
    - apply bind_Ok in Ev as (v&Ev1&Ev). apply bind_Ok in Ev as (vs'&Ev2&Ev). injection Ev as <-.
      apply bind_Ok in Ef as (x&Ef1&Ef). apply bind_Ok in Ef as (fs'&Ef2&Ef). injection Ef as <-.
      cbn [combine map fst snd]. rewrite (IH vs' fs') by auto. f_equal.
      apply bind_Ok in Ev1 as (a&Ea&Ev1). apply bind_Ok in Ev1 as (b&Eb&Ev1). injection Ev1 as <-.
      unfold force. rewrite Ef1. cbn [value]. unfold vector_two_nodes. rewrite direction_unitv, far_other.
      fold (other e n) in Ea. now rewrite Ea, Eb. }
  unfold direct_resultant in Ed. apply bind_Ok in Ed as (es&Ees&Ed). apply P in Ed.
  assert (X : exists esi, (indirect = true -> connected_indirect_deviation_edges d n = Ok esi)
     /\ ri = vsum (map (fun e => force d e *v direction (value v0 (dgetr xyz (far_end e n)) -v value v0 (dgetr xyz n))) (if indirect then esi else []))).
  { destruct indirect.
    - unfold indirect_resultant in Ei. apply bind_Ok in Ei as (esi&Eesi&Ei). apply P in Ei. eauto.
    - exists []. split; [discriminate|]. now injection Ei as <-. }
  destruct X as (esi&Ee&Er). exists q, es, esi. split; auto. split; auto. split; auto.
  intros r'. rewrite map_app, vsum_app, <- Ed, <- Er. subst r. unfold trail_vector_out. cbn [fold_left].
  replace (@nminus1 _ R_ops) with (-1)%R by (unfold nminus1; cbn; ring). split.
  - intros ->. vring.
  - intros Z. assert (Zx := f_equal vx Z). assert (Zy := f_equal vy Z). assert (Zz := f_equal vz Z).
    apply vec_eq; vunf; lra.
Qed.

(** The two ends of a deviation edge receive opposite forces. *)
Lemma c26_opposite_forces : forall d u v xyz a b,
  deviation_edges_resultant_vector (T:=R) d u xyz [(u, v)] = Ok a ->
  deviation_edges_resultant_vector (T:=R) d v xyz [(u, v)] = Ok b ->
  b = v0 -v a.
Proof.
  intros d u v xyz a b. unfold deviation_edges_resultant_vector, incoming_edge_vectors. cbn [map_res fst snd bind].
  rewrite Z.eqb_refl. cbn [negb]. intros A B.
  destruct (dgetr xyz v) as [pv|] eqn:Ev; cbn [bind] in A; [|discriminate].
  destruct (dgetr xyz u) as [pu|] eqn:Eu; cbn [bind] in A, B; [|discriminate].
  destruct (edge_force d (u, v)) as [x|] eqn:Ex; cbn [bind] in A; [|discriminate].
  cbn in A. injection A as A. destruct (Z.eqb_spec u v) as [->|N]; cbn [negb] in B.
  - rewrite Ev in Eu. injection Eu as <-. rewrite Ev in B. cbn [bind] in B. cbn in B. injection B as B. subst a b.
    unfold vector_two_nodes. rewrite vsub_self, unitv_v0. vring.
  - rewrite Eu in B. cbn [bind] in B. cbn in B. injection B as B. subst a b. unfold vector_two_nodes.
    rewrite (unitv_sym pu pv). vring.
Qed.

(** The pulls of any edge of a diagram on its two ends are opposite. *)
Lemma c26_pulls : forall f u v, pull f v (u, v) = v0 -v pull f u (u, v).
Proof. intros f u v. rewrite pull_opposite. vring. Qed.

(** ** Planes *)


(** The intersection length is missing exactly if vector and plane are parallel up
    to the tolerance, and otherwise it is the only one that reaches the plane. *)
Lemma c27_plane_intersection : forall (p v o nrm : rvec) tol, (0 < tol)%R ->
  (trail_length_from_plane p v (o, nrm) tol = None <-> (Rabs (dot nrm (direction v)) < tol)%R)
  /\ forall l, trail_length_from_plane p v (o, nrm) tol = Some l ->
       forall l', on_plane (p +v l' *v direction v) o nrm <-> l' = l.
Proof.
  intros p v o nrm tol Tl. unfold trail_length_from_plane. rewrite direction_unitv. cbn [nltb nabs R_ops].
  destruct (Rltb_spec (Rabs (dot nrm (unitv v))) tol) as [L|L].
  - split; [tauto|discriminate].
  - split; [split; [discriminate|tauto]|]. intros l E l'. apply Some_inj in E. subst l.
    assert (N : dot nrm (unitv v) <> 0%R).
    { intros Z. apply L. rewrite Z, Rabs_R0. auto. }
    unfold on_plane.
    replace (dot nrm (p +v l' *v unitv v -v o)) with (l' * dot nrm (unitv v) - dot nrm (o -v p))%R by (vunf; ring).
    change (ndiv (dot nrm (o -v p)) (dot nrm (unitv v))) with (dot nrm (o -v p) / dot nrm (unitv v))%R.
    set (c := dot nrm (unitv v)) in *. set (b := dot nrm (o -v p)) in *. split; intros Z.
    + apply (Rmult_eq_reg_r c); auto. replace (b / c * c)%R with b by (field; auto). lra.
    + subst l'. field. auto.
Qed.

(** ** Trail edges of the form *)

(** What form finding did at a trail edge. *)
Lemma trail_edge_run d tmax eta verbose form n m : reachable d -> ready d ->
  static_equilibrium d None tmax eta verbose = Ok form -> follows d n m ->
  exists r, let e := trail_edge_key d n m in
    position form m = position form n +v trail_edge_length (ea d e) (position form n) r *v unitv r
    /\ force form e = ncopysign (norm r) (trail_edge_length (ea d e) (position form n) r).
Proof.
  intros Hr R E F. apply reachable_wf in Hr as W.
  destruct (static_run d tmax eta verbose form Hr R E) as (ts&t&s0&st&_&_&_&_&Sw&Fm&_).
  destruct (follows_nodes d n m R F) as [I1 I2].
  destruct (sw_visit _ _ _ _ _ Sw n I1) as (w&_&_&_&_&X). cbn zeta in X.
  assert (Sn : stops d None n = false).
  { unfold stops. rewrite orb_false_r. destruct (is_sup d n) eqn:Q; auto. destruct (sup_not_follows d n m W R Q F). }
  destruct (X m Sn F) as (X1&_&X3&_). exists (rout d n (xg (s_res st) n) w (negb (t =? 0)%nat)). cbn zeta.
  rewrite (fm_position _ _ _ Fm m I2), (fm_position _ _ _ Fm n I1). split; auto.
  destruct (trail_key_edge d n m W R F) as (a&Ea&Ta&_).
  rewrite (fm_force _ _ _ Fm) by (apply In_edges; auto; apply has_edge_find; eauto). now rewrite X3.
Qed.

Lemma edge_between_key d n m e : wf d -> ready d -> follows d n m -> edge_between d n m e -> e = trail_edge_key d n m.
Proof.
  intros W R F [I [->| ->]]; unfold trail_edge_key.
  - assert (X : has_edge d (n, m) = true); [|now rewrite X]. apply In_trail_edges in I as (a&Ea&_); auto. apply has_edge_find; eauto.
  - destruct (has_edge d (n, m)) eqn:Q; auto. exfalso. apply In_edges in Q; auto.
    apply (ch_simple _ _ (rd_chains _ R) n m); auto. apply In_trail_edges in I as (a&Ea&_); auto. apply In_edges; auto. apply has_edge_find; eauto.
Qed.

Lemma span_between d f n m e : edge_between d n m e -> span f e = norm (position f m -v position f n).
Proof.
  intros [_ [->| ->]]; unfold span; cbn [fst snd]; rewrite magnitude_norm; auto. rewrite <- !dist_norm. apply dist_sym.
Qed.

Lemma copysign_nonzero r l : @ncopysign _ R_ops (norm r) l <> 0%R -> r <> v0.
Proof. intros N ->. apply N. rewrite ncopysign_R, norm_v0, Rabs_R0. destruct (Rlt_dec l 0); ring. Qed.

Lemma copysign_neg x l : (0 < x)%R -> (@ncopysign _ R_ops x l < 0 <-> l < 0)%R.
Proof. intros P. rewrite ncopysign_R, Rabs_right by lra. destruct (Rlt_dec l 0); split; lra. Qed.

(** Trail edges with a plane: the far end is on the plane, unless the edge is
    parallel to it up to 1e-6 or its near end is already on it; then the input
    length is kept. *)
Lemma c28_planes : forall d tmax eta verbose form n m e o nrm l, reachable d -> ready d -> nonzero_trails d ->
  static_equilibrium d None tmax eta verbose = Ok form ->
  follows d n m -> edge_between d n m e -> edge_plane d e = Ok (Some (o, nrm)) -> edge_length_2 d e = Ok l ->
  force form e <> 0%R ->
  let u := direction (position form m -v position form n) in
  ((Rabs (dot nrm u) < / 1000000)%R \/ on_plane (position form n) o nrm -> span form e = Rabs l)
  /\ (~ ((Rabs (dot nrm u) < / 1000000)%R \/ on_plane (position form n) o nrm) -> on_plane (position form m) o nrm).
Proof.
  intros d tmax eta verbose form n m e o nrm l Hr R Nz E F B Pl Le Nf. apply reachable_wf in Hr as W. cbn zeta.
  rewrite (span_between d form n m e B).
  assert (El := Nz e l (proj1 B) Le).
  assert (Ke := edge_between_key d n m e W R F B). subst e.
  destruct (trail_edge_run d tmax eta verbose form n m Hr R E F) as (r&X1&X2). rewrite X2 in Nf. apply copysign_nonzero in Nf.
  destruct (trail_key_edge d n m W R F) as (a&Ea&Ta&_). unfold ea in X1. rewrite Ea in X1.
  unfold edge_plane, edge_get in Pl. rewrite Ea in Pl. cbn in Pl. injection Pl as Pl.
  unfold edge_length_2, edge_get in Le. rewrite Ea in Le. cbn in Le. injection Le as Le.
  assert (Nr := norm_unitv r Nf).
  unfold trail_edge_length in X1. rewrite Pl in X1.
  set (p := position form n) in *. set (q := position form m) in *.
  assert (U : forall s, (s <> 0)%R -> q = p +v s *v unitv r -> direction (q -v p) = unitv r \/ direction (q -v p) = (-1)%R *v unitv r).
  { intros s Ns ->. replace (p +v s *v unitv r -v p) with (s *v unitv r) by vring. rewrite direction_unitv.
    destruct (Rlt_dec s 0); [rewrite unitv_neg by auto|rewrite unitv_pos by lra]; rewrite unitv_unitv; auto. }
  assert (Ab : forall s, (s <> 0)%R -> q = p +v s *v unitv r -> Rabs (dot nrm (direction (q -v p))) = Rabs (dot nrm (unitv r))).
  { intros s Ns Q. destruct (U s Ns Q) as [->| ->]; auto.
    replace (dot nrm ((-1)%R *v unitv r)) with (- dot nrm (unitv r))%R by (vunf; ring). apply Rabs_Ropp. }
  assert (Sp : q = p +v l *v unitv r -> norm (q -v p) = Rabs l).
  { intros ->. replace (p +v l *v unitv r -v p) with (l *v unitv r) by vring. rewrite norm_scale, Nr. ring. }
  assert (C := c27_plane_intersection p r o nrm (/ 1000000) ltac:(lra)). rewrite direction_unitv in C.
  change (@neps6 _ R_ops) with (/ 1000000)%R in X1.
  destruct (trail_length_from_plane p r (o, nrm) (/ 1000000)) as [x|] eqn:Ex.
  - unfold ntruthy in X1. cbn [neqb n0 R_ops] in X1. destruct C as [C1 C2].
    assert (Npar : ~ (Rabs (dot nrm (unitv r)) < / 1000000)%R).
    { intros Z. apply C1 in Z. discriminate. }
    assert (On0 : on_plane p o nrm <-> x = 0%R).
    { specialize (C2 x eq_refl 0%R). replace (p +v 0%R *v unitv r) with p in C2 by vring. rewrite C2. split; auto. }
    destruct (Reqb_spec x 0) as [->|Nx]; cbn [negb] in X1.
    + rewrite Le in X1. split; auto. intros Z. exfalso. apply Z. right. now apply On0.
    + split.
      * intros [Z|Z]; [|exfalso; now apply Nx, On0]. rewrite (Ab x Nx X1) in Z. contradiction.
      * intros _. rewrite X1. now apply (C2 x eq_refl).
  - rewrite Le in X1. destruct C as [C1 _]. assert (Z := proj1 C1 eq_refl). split; auto.
    intros Y. exfalso. apply Y. left. now rewrite (Ab l El X1).
Qed.

(** Trail edges without a plane that carry a force keep their signed length, and
    the force has its sign. *)
Lemma c29_lengths_kept : forall d tmax eta verbose form n m e l, reachable d -> ready d ->
  static_equilibrium d None tmax eta verbose = Ok form ->
  follows d n m -> edge_between d n m e -> edge_plane d e = Ok None -> edge_length_2 d e = Ok l ->
  force form e <> 0%R ->
  span form e = Rabs l /\ ((force form e < 0)%R <-> (l < 0)%R) /\ edge_length_2 form e = Ok l.
Proof.
  intros d tmax eta verbose form n m e l Hr R E F B Pl Le Nf. apply reachable_wf in Hr as W.
  assert (Sb := span_between d form n m e B). rewrite Sb.
  assert (Ke := edge_between_key d n m e W R F B). subst e.
  destruct (trail_edge_run d tmax eta verbose form n m Hr R E F) as (r&X1&X2).
  assert (Nr : r <> v0) by (eapply copysign_nonzero; rewrite <- X2; auto).
  destruct (trail_key_edge d n m W R F) as (a&Ea&Ta&_). unfold ea in X1, X2. rewrite Ea in X1, X2.
  unfold edge_plane, edge_get in Pl. rewrite Ea in Pl. cbn in Pl. injection Pl as Pl.
  unfold edge_length_2, edge_get in Le. rewrite Ea in Le. cbn in Le. injection Le as Le.
  unfold trail_edge_length in X1, X2. rewrite Pl, Le in X1, X2.
  assert (S : norm (position form m -v position form n) = Rabs l).
  { rewrite X1. replace (position form n +v l *v unitv r -v position form n) with (l *v unitv r) by vring.
    rewrite norm_scale, norm_unitv by auto. ring. }
  assert (G : (force form (trail_edge_key d n m) < 0)%R <-> (l < 0)%R).
  { rewrite X2. apply copysign_neg. now apply norm_pos. }
  split; auto. split; auto.
  destruct (c40_lengths d None tmax eta verbose form (trail_edge_key d n m) Hr E) as (pu&pv&x&E1&E2&E3&E4).
  { destruct (c37_frame _ _ _ _ _ _ Hr E) as (_&->&_). apply In_edges; auto. apply has_edge_find; eauto. }
  rewrite E4. f_equal. unfold force in G. rewrite E3 in G. cbn [value] in G. rewrite ncopysign_R.
  assert (D : dist pu pv = Rabs l).
  { rewrite <- S, <- Sb. unfold span, position. now rewrite E1, E2. }
  rewrite D, Rabs_Rabsolu. destruct (Rlt_dec x 0) as [L|L].
  - apply G in L. rewrite Rabs_left by auto. ring.
  - rewrite Rabs_right; auto. apply Rnot_lt_ge. tauto.
Qed.

(** A plane keeps the sign of a trail edge exactly if it is reached in the direction
    that the input length prescribes along the force that leaves the near end. *)
Lemma c30_state_partial : forall d tmax eta verbose form n m e o nrm l, reachable d -> ready d -> nonzero_trails d ->
  static_equilibrium d None tmax eta verbose = Ok form ->
  follows d n m -> edge_between d n m e -> edge_plane d e = Ok (Some (o, nrm)) -> edge_length_2 d e = Ok l ->
  force form e <> 0%R ->
  let u := direction (position form m -v position form n) in
  ((Rabs (dot nrm u) < / 1000000)%R \/ on_plane (position form n) o nrm -> (force form e < 0 <-> l < 0)%R)
  /\ (~ ((Rabs (dot nrm u) < / 1000000)%R \/ on_plane (position form n) o nrm) ->
        ((force form e < 0)%R <-> (dot nrm (o -v position form n) * dot nrm (pull form n e) < 0)%R)).
Proof.
  intros d tmax eta verbose form n m e o nrm l Hr R Nz E F B Pl Le Nf. apply reachable_wf in Hr as W. cbn zeta.
  assert (El := Nz e l (proj1 B) Le).
  assert (Ke := edge_between_key d n m e W R F B). subst e.
  destruct (trail_edge_run d tmax eta verbose form n m Hr R E F) as (r&X1&X2).
  assert (Nr : r <> v0) by (eapply copysign_nonzero; rewrite <- X2; auto).
  destruct (trail_key_edge d n m W R F) as (a&Ea&Ta&_). unfold ea in X1, X2. rewrite Ea in X1, X2.
  unfold edge_plane, edge_get in Pl. rewrite Ea in Pl. cbn in Pl. injection Pl as Pl.
  unfold edge_length_2, edge_get in Le. rewrite Ea in Le. cbn in Le. injection Le as Le.
  assert (Pn := norm_pos r Nr). assert (Un := norm_unitv r Nr).
  assert (G := copysign_neg (norm r)). rewrite X2.
  assert (Pull : pull form n (trail_edge_key d n m) = r).
  { unfold pull. destruct (far_key d n m (follows_neq d n m R F)) as [-> _]. rewrite X1, X2, direction_unitv.
    replace (position form n +v trail_edge_length a (position form n) r *v unitv r -v position form n)
      with (trail_edge_length a (position form n) r *v unitv r) by vring. apply copysign_pull.
    unfold trail_edge_length. rewrite Pl. destruct (trail_length_from_plane _ _ _ _) as [x|]; [|now rewrite Le].
    unfold ntruthy. cbn [neqb n0 R_ops]. destruct (Reqb_spec x 0); cbn [negb]; auto. now rewrite Le. }
  rewrite Pull. unfold trail_edge_length in *. rewrite Pl in *.
  set (p := position form n) in *. set (q := position form m) in *.
  assert (U : forall s, (s <> 0)%R -> q = p +v s *v unitv r -> direction (q -v p) = unitv r \/ direction (q -v p) = (-1)%R *v unitv r).
  { intros s Ns ->. replace (p +v s *v unitv r -v p) with (s *v unitv r) by vring. rewrite direction_unitv.
    destruct (Rlt_dec s 0); [rewrite unitv_neg by auto|rewrite unitv_pos by lra]; rewrite unitv_unitv; auto. }
  assert (Ab : forall s, (s <> 0)%R -> q = p +v s *v unitv r -> Rabs (dot nrm (direction (q -v p))) = Rabs (dot nrm (unitv r))).
  { intros s Ns Q. destruct (U s Ns Q) as [->| ->]; auto.
    replace (dot nrm ((-1)%R *v unitv r)) with (- dot nrm (unitv r))%R by (vunf; ring). apply Rabs_Ropp. }
  assert (C := c27_plane_intersection p r o nrm (/ 1000000) ltac:(lra)). rewrite direction_unitv in C.
  change (@neps6 _ R_ops) with (/ 1000000)%R in *.
  destruct (trail_length_from_plane p r (o, nrm) (/ 1000000)) as [x|] eqn:Ex.
  - unfold ntruthy in *. cbn [neqb n0 R_ops] in *. destruct C as [C1 C2].
    assert (Npar : ~ (Rabs (dot nrm (unitv r)) < / 1000000)%R).
    { intros Z. apply C1 in Z. discriminate. }
    assert (On0 : on_plane p o nrm <-> x = 0%R).
    { specialize (C2 x eq_refl 0%R). replace (p +v 0%R *v unitv r) with p in C2 by vring. rewrite C2. split; auto. }
    destruct (Reqb_spec x 0) as [->|Nx]; cbn [negb] in *.
    + rewrite Le in *. split; [intros _; now apply G|]. intros Z. exfalso. apply Z. right. now apply On0.
    + split.
      * intros [Z|Z]; [|exfalso; now apply Nx, On0]. rewrite (Ab x Nx X1) in Z. contradiction.
      * intros _. rewrite (G x Pn). unfold trail_length_from_plane in Ex. cbn [nltb nabs R_ops] in Ex.
        destruct (Rltb_spec (Rabs (dot nrm (unitv r))) (/ 1000000)); [contradiction|]. apply Some_inj in Ex.
        change (dot nrm (o -v p) / dot nrm (unitv r) = x)%R in Ex.
        set (c := dot nrm (unitv r)) in *. set (b := dot nrm (o -v p)) in *.
        assert (Nc : c <> 0%R) by (intros Z; apply Npar; rewrite Z, Rabs_R0; lra).
        replace (dot nrm r) with (norm r * c)%R.
        2:{ unfold c. transitivity (dot nrm (norm r *v unitv r)); [vunf; ring|now rewrite norm_times_unitv]. }
        assert (Eb : b = (x * c)%R) by (rewrite <- Ex; field; auto). rewrite Eb.
        assert (P2 : (0 < norm r * (c * c))%R).
        { apply Rmult_lt_0_compat; auto. destruct (Rlt_dec c 0); [|assert (0 < c)%R by lra; now apply Rmult_lt_0_compat].
          replace (c * c)%R with ((- c) * (- c))%R by ring. apply Rmult_lt_0_compat; lra. }
        replace (x * c * (norm r * c))%R with (x * (norm r * (c * c)))%R by ring. split; intros Z.
        -- replace 0%R with (0 * (norm r * (c * c)))%R by ring. now apply Rmult_lt_compat_r.
        -- apply (Rmult_lt_reg_r (norm r * (c * c))); auto. lra.
  - rewrite Le in *. destruct C as [C1 _]. assert (Z := proj1 C1 eq_refl). split; [intros _; now apply G|].
    intros Y. exfalso. apply Y. left. now rewrite (Ab l El X1).
Qed.

(** ** Static equilibrium *)

Lemma run_unbalanced d tmax eta verbose form : reachable d -> ready d -> nonzero_trails d ->
  static_equilibrium d None tmax eta verbose = Ok form ->
  exists ts t s0 st, trails_sequences d = Ok ts /\ after d ts None t = Ok s0 /\ after d ts None (S t) = Ok st
    /\ formed d st form /\ inv d s0 /\ inv d st
    /\ (2 <= tmax -> (1 <= t)%nat /\ exists x, moves d ts None t x /\ (x <= eta)%R)
    /\ forall n, In n (nodes d) -> exists w,
      (forall m, dget w m = dget (s_xyz st) m \/ dget w m = dget (s_xyz s0) m)
      /\ dget w n = dget (s_xyz st) n
      /\ unbalanced form n = vsum (map (dpull d (s_xyz st) n) (cind d n))
           -v (if negb (t =? 0)%nat then vsum (map (dpull d w n) (cind d n)) else v0).
Proof.
  intros Hr R Nz E. apply reachable_wf in Hr as W.
  destruct (static_run d tmax eta verbose form Hr R E) as (ts&t&s0&st&Ets&Hts&E0&E1&Sw&Fm&I0&I1&Mv).
  exists ts, t, s0, st. split; auto. split; auto. split; auto. split; auto. split; auto. split; auto. split; auto.
  destruct (after_fixed d ts None (S t) st W R Hts E1) as (A&B&C).
  intros n I. eapply unbalanced_form; eauto.
  - intros e Ie Te. apply C. intros p q F _ ->. destruct (trail_key_edge d p q W R F) as (a&Ea&Ta&_).
    unfold tr_b in Te. rewrite Ea, Ta in Te. discriminate.
  - intros p Sp. apply B. unfold stops. now rewrite Sp.
  - intros m Im Nf. apply A; auto. intros p F. destruct (Nf p F).
Qed.

(** Without indirect deviation edges the form is in static equilibrium. *)
Lemma c31_direct_equilibrium : forall d tmax eta verbose form, reachable d -> ready d -> direct_only d -> nonzero_trails d ->
  static_equilibrium d None tmax eta verbose = Ok form -> balanced form.
Proof.
  intros d tmax eta verbose form Hr R Di Nz E n I. apply reachable_wf in Hr as W.
  destruct (run_unbalanced d tmax eta verbose form Hr R Nz E) as (ts&t&s0&st&_&_&_&Fm&_&_&_&U).
  rewrite (fm_nodes _ _ _ Fm) in I. destruct (U n I) as (w&_&_&->). rewrite (direct_no_indirect d n W R Di I).
  cbn [map]. change (vsum []) with v0. destruct (negb (t =? 0)%nat); vring.
Qed.

(** Single displacements are bounded by the residual distance. *)
Lemma residual_sum (b : dict Z rvec) : forall a x acc,
  fold_res (fun acc (kp : Z * rvec) => let* lp := dgetr a (fst kp) in Ok (acc + dist lp (snd kp))%R) b acc = Ok x ->
  x = (acc + rsum (map (fun kp => dist (xg a (fst kp)) (snd kp)) b))%R /\ incl (dkeys b) (dkeys a).
Proof.
  induction b as [|[k p] b IH]; intros a x acc E; cbn [fold_res] in E.
  - injection E as <-. cbn. split; [ring|easy].
  - apply bind_Ok in E as (y&Ey&E). apply bind_Ok in Ey as (lp&El&Ey). apply Ok_inj in Ey. subst y. cbn [fst snd] in *.
    destruct (IH a x _ E) as [-> Inc]. unfold dgetr in El. destruct (dget a k) as [v|] eqn:Q; [|discriminate]. injection El as <-.
    split.
    + assert (Zd : dist (xg a k) p = dist v p) by (unfold xg; now rewrite Q).
      cbn [map fst snd]. unfold rsum at 2. cbn [fold_right]. fold (rsum (map (fun kp : Z * rvec => dist (xg a (fst kp)) (snd kp)) b)). rewrite Zd. ring.
    + intros z [<-|J]; [eapply dget_In_keys; eauto|auto].
Qed.

Lemma residual_distance_sum a b x : NoDup (dkeys b) -> residual_distance (T:=R) a b = Ok x ->
  x = rsum (map (fun n => dist (xg a n) (xg b n)) (dkeys b)).
Proof.
  intros N E. destruct (residual_sum b a x 0%R) as [-> _]; [exact E|]. rewrite Rplus_0_l. unfold dkeys. rewrite map_map.
  f_equal. apply map_ext_in. intros [k p] I. cbn. f_equal. unfold xg. apply In_dget in I; auto. now rewrite I.
Qed.

Lemma rsum_le (l : list Z) (g : Z -> R) n : (forall m, In m l -> (0 <= g m)%R) -> In n l -> (g n <= rsum (map g l))%R.
Proof.
  induction l as [|k l IH]; intros P I; [contradiction|]. cbn [map rsum fold_right]. fold (rsum (map g l)).
  assert (0 <= rsum (map g l))%R.
  { assert (Q : forall m, In m l -> (0 <= g m)%R) by (intros m J; apply P; now right). clear -Q.
    induction l as [|x l IH]; cbn; [lra|]. assert (0 <= g x)%R by (apply Q; now left).
    assert (0 <= rsum (map g l))%R by (apply IH; intros m J; apply Q; now right). unfold rsum in *. lra. }
  destruct I as [->|I]; [lra|]. assert (0 <= g k)%R by (apply P; now left).
  assert (g n <= rsum (map g l))%R by (apply IH; auto; intros m J; apply P; now right). lra.
Qed.

Lemma moves_sum d ts kmax t a b x : wf d -> after d ts kmax t = Ok a -> after d ts kmax (S t) = Ok b ->
  moves d ts kmax t x -> x = rsum (map (fun n => dist (xg (s_xyz a) n) (xg (s_xyz b) n)) (nodes d)).
Proof.
  intros W Ea Eb (a'&b'&Ea'&Eb'&Ex). rewrite Ea in Ea'. injection Ea' as <-. rewrite Eb in Eb'. injection Eb' as <-.
  assert (I := after_inv d ts kmax (S t) b W Eb). assert (K := iv_xyz _ _ I). rewrite <- K.
  apply residual_distance_sum; auto. rewrite K. apply W.
Qed.

(** Success with at least two iterations: the last iteration has moved the nodes by
    at most the threshold, in total. *)
Lemma c36_displacement : forall d kmax tmax eta verbose form, reachable d -> 2 <= tmax ->
  static_equilibrium d kmax tmax eta verbose = Ok form ->
  exists ts t previous, trails_sequences d = Ok ts /\ (1 <= t)%nat /\ Z.of_nat t < tmax
    /\ after d ts kmax t = Ok previous /\ positions_after d ts kmax (S t) form
    /\ (rsum (map (fun n => magnitude (position form n -v value v0 (dgetr (s_xyz previous) n))) (nodes form)) <= eta)%R.
Proof.
  intros d kmax tmax eta verbose form Hr L E. apply reachable_wf in Hr as W.
  destruct (c36_success d kmax tmax eta verbose form Hr L E) as (ts&t&x&Ets&P&B&M&C&_&Pos).
  assert (M' := M). destruct M' as (a&b&Ea&Eb&_). assert (Q := moves_sum d ts kmax t a b x W Ea Eb M).
  exists ts, t, a. split; auto. split; auto. split; auto. split; auto. split; auto.
  destruct (c37_frame _ _ _ _ _ _ Hr E) as (N&_). rewrite N.
  assert (Le : (x <= eta)%R).
  { destruct C as [C|[_ C]]; [change (Rltb x eta = true) in C; destruct (Rltb_spec x eta); [lra|discriminate]|].
    change (Rltb eta x = false) in C. destruct (Rltb_spec eta x); [discriminate|lra]. }
  replace (rsum _) with x; auto. rewrite Q. f_equal. apply map_ext_in. intros n I.
  destruct Pos as (st&Es&Pn). rewrite Eb in Es. injection Es as <-. rewrite <- N in I. destruct (Pn n I) as (p&Ep&Ec).
  assert (P1 : position form n = xg (s_xyz b) n) by (unfold position, xg; now rewrite Ec, Ep).
  assert (P2 : value v0 (dgetr (s_xyz a) n) = xg (s_xyz a) n) by (unfold xg, dgetr; now destruct (dget (s_xyz a) n)).
  rewrite P1, P2. reflexivity.
Qed.

(** On a ready topology the only other outcome is the ValueError, when every
    iteration has moved the nodes by at least the threshold and the last by more. *)
Lemma c36_no_convergence : forall d kmax tmax eta verbose e, reachable d -> ready d -> kmax_ok kmax -> 2 <= tmax ->
  static_equilibrium d kmax tmax eta verbose = Err e ->
  e = ValueError "Over iters" /\
  exists ts, trails_sequences d = Ok ts /\
    (exists x, moves d ts kmax (Z.to_nat tmax - 1) x /\ (eta < x)%R)
    /\ forall t x, (1 <= t)%nat -> Z.of_nat t < tmax -> moves d ts kmax t x -> (eta <= x)%R.
Proof.
  intros d kmax tmax eta verbose e Hr R K L E.
  destruct (c36_failure d kmax tmax eta verbose e Hr R K L E) as (->&ts&x&Ets&[(M&C&F)|(C1&C2)]).
  - split; auto. exists ts. split; auto. split.
    + exists x. split; auto. change (Rltb eta x = true) in C. destruct (Rltb_spec eta x); [auto|discriminate].
    + intros t y Pt Bt My. specialize (F t y Pt Bt My). change (Rltb y eta = false) in F.
      destruct (Rltb_spec y eta); [discriminate|lra].
  - exfalso. change (Rltb eta x = true) in C1. change (Rltb x eta = true) in C2.
    destruct (Rltb_spec eta x); [|discriminate]. destruct (Rltb_spec x eta); [lra|discriminate].
Qed.

(** Direct topologies always succeed, whatever the threshold and iterations. *)
Lemma c35_success : forall d kmax tmax eta verbose, reachable d -> ready d -> direct_only d -> kmax_ok kmax ->
  1 <= tmax -> (0 <= eta)%R -> (verbose = true -> 2 <= tmax) ->
  exists form, static_equilibrium d kmax tmax eta verbose = Ok form
    /\ forall tmax' eta' verbose', 1 <= tmax' -> (0 <= eta')%R -> (verbose' = true -> 2 <= tmax') ->
         static_equilibrium d kmax tmax' eta' verbose' = Ok form.
Proof.
  intros d kmax tmax eta verbose Hr R Di K. apply reachable_wf in Hr as W.
  assert (S : forall tmax eta verbose, 1 <= tmax -> (0 <= eta)%R -> (verbose = true -> 2 <= tmax) ->
    exists form, static_equilibrium d kmax tmax eta verbose = Ok form).
  { clear tmax eta verbose. intros tmax eta verbose L P V. destruct (Z.eq_dec tmax 1) as [->|N].
    - destruct verbose; [specialize (V eq_refl); lia|]. now apply c36_single_iteration.
    - destruct (static_equilibrium d kmax tmax eta verbose) as [form|e] eqn:E; eauto. exfalso.
      destruct (c36_no_convergence d kmax tmax eta verbose e Hr R K ltac:(lia) E) as (_&ts&Ets&(x&M&Lt)&_).
      destruct (ready_ts d W R) as (ts'&Ets'&Hts). rewrite Ets in Ets'. injection Ets' as <-.
      destruct (Z.to_nat tmax - 1)%nat as [|t] eqn:Et; [lia|].
      destruct (after_total d ts kmax W R Hts 1) as (s&Es&_).
      assert (E1 : after d ts kmax (Datatypes.S t) = Ok s) by (now rewrite direct_after).
      assert (E2 : after d ts kmax (Datatypes.S (Datatypes.S t)) = Ok s) by (now rewrite direct_after).
      assert (Q := moves_sum d ts kmax _ s s x W E1 E2 M).
      assert (Z : rsum (map (fun n => dist (xg (s_xyz s) n) (xg (s_xyz s) n)) (nodes d)) = 0%R).
      { clear. induction (nodes d) as [|n l IH]; auto. cbn [map]. unfold rsum in *. cbn [fold_right].
        rewrite IH, dist_self. ring. }
      rewrite Z in Q. lra. }
  intros L P V. destruct (S tmax eta verbose L P V) as (form&E). exists form. split; auto.
  intros tmax' eta' verbose' L' P' V'. destruct (S tmax' eta' verbose' L' P' V') as (form'&E'). rewrite E'. f_equal.
  apply c35_one_iteration with (eta' := eta) in E; auto. apply c35_one_iteration with (eta' := eta) in E'; auto. congruence.
Qed.

Lemma indirect_at_cind d n : wf d -> ready d -> In n (nodes d) -> Permutation (indirect_at d n) (cind d n).
Proof.
  intros W R I. assert (Sq := ready_sequenced d R).
  destruct (cind_spec d n W (ch_simple _ _ (rd_chains _ R)) Sq I) as (_&N&M).
  apply NoDup_Permutation; auto; [now apply NoDup_filter, NoDup_edges|].
  intros e. unfold indirect_at. rewrite filter_In, M, andb_true_iff. fold (at_b n e). rewrite at_b_spec. split.
  - intros (Ie&A&B). split; auto. split; auto. destruct (direct_indirect_Ok d e W Sq Ie) as [_ X]. rewrite X in B. exact B.
  - intros (Ie&B&A). split; auto. split; auto. destruct (direct_indirect_Ok d e W Sq Ie) as [_ X]. now rewrite X.
Qed.

(** The unbalanced force at a node is bounded by the threshold and the indirect
    deviation edges of the node. *)
Lemma c32_residual_bound : forall d tmax eta verbose form n, reachable d -> ready d -> nonzero_trails d -> 2 <= tmax ->
  static_equilibrium d None tmax eta verbose = Ok form -> In n (nodes form) ->
  (forall e, In e (indirect_at d n) -> (0 < span form e)%R) ->
  (magnitude (unbalanced form n)
   <= rsum (map (fun e => 2 * Rabs (force form e) * eta / span form e) (indirect_at d n)))%R.
Proof.
  intros d tmax eta verbose form n Hr R Nz L E I Sp. apply reachable_wf in Hr as W.
  destruct (run_unbalanced d tmax eta verbose form Hr R Nz E) as (ts&t&s0&st&Ets&E0&E1&Fm&I0&I1&Mv&U).
  rewrite (fm_nodes _ _ _ Fm) in I. destruct (U n I) as (w&Aw&Nw&->). destruct (Mv L) as (Pt&x&Mx&Lx).
  assert (X : negb (t =? 0)%nat = true) by (apply negb_true_iff, Nat.eqb_neq; lia). rewrite X.
  replace (vsum (map (dpull d (s_xyz st) n) (cind d n)) -v vsum (map (dpull d w n) (cind d n)))
    with (vsum (map (fun e => dpull d (s_xyz st) n e -v dpull d w n e) (cind d n))).
  2:{ clear. induction (cind d n) as [|e l IH]; cbn [map]; [change (v0 = v0 -v v0); vring|].
      rewrite !vsum_cons, IH. vring. }
  rewrite (vsum_perm _ _ (Permutation_map _ (Permutation_sym (indirect_at_cind d n W R I)))).
  rewrite magnitude_norm. apply norm_vsum. intros e Ie. specialize (Sp e Ie).
  assert (Ic := Permutation_in _ (indirect_at_cind d n W R I) Ie).
  destruct (cind_spec d n W (ch_simple _ _ (rd_chains _ R)) (ready_sequenced d R) I) as (_&_&M).
  apply M in Ic as (Ed&Bi&En). assert (Ed' := Ed). apply In_edges, has_edge_find in Ed' as [a Ea]; auto.
  destruct (wf_eends _ W _ _ Ea) as [J1 J2].
  assert (Io : In (other e n) (nodes d)) by (unfold other; now destruct (negb (fst e =? n))).
  assert (Ef : force form e = fo d e).
  { rewrite (fm_force _ _ _ Fm e Ed). destruct (ready_ts d W R) as (ts'&Ets'&Hts). rewrite Ets in Ets'. injection Ets' as <-.
    destruct (after_fixed d ts None (S t) st W R Hts E1) as (_&_&C). rewrite C; auto.
    intros p q F _ ->. destruct (trail_key_edge d p q W R F) as (b&Eb&Tb&_). unfold indir_b in Bi. rewrite Eb, Tb in Bi. discriminate. }
  rewrite Ef. set (o := other e n) in *. unfold dpull, vector_two_nodes. fold o.
  assert (Xw : xg w n = xg (s_xyz st) n) by (unfold xg; now rewrite Nw). rewrite Xw.
  set (pn := xg (s_xyz st) n). set (po := xg (s_xyz st) o). set (wo := xg w o).
  replace (fo d e *v unitv (po -v pn) -v fo d e *v unitv (wo -v pn)) with (fo d e *v (unitv (po -v pn) -v unitv (wo -v pn))) by vring.
  rewrite norm_scale.
  assert (Es : span form e = norm (po -v pn)).
  { unfold span. rewrite magnitude_norm. rewrite !(fm_position _ _ _ Fm) by auto. unfold pn, po, o, other.
    destruct (Z.eqb_spec (fst e) n) as [<-|N]; cbn [negb]; auto. destruct En as [|En]; [contradiction|]. rewrite <- En.
    rewrite <- !dist_norm. apply dist_sym. }
  rewrite Es in *.
  assert (Nz' : po -v pn <> v0) by (intros Z; rewrite Z, norm_v0 in Sp; lra).
  assert (Cl := unitv_close (po -v pn) (wo -v pn) Nz').
  replace ((po -v pn) -v (wo -v pn)) with (po -v wo) in Cl by vring.
  assert (Dw : (norm (po -v wo) <= eta)%R).
  { apply Rle_trans with x; auto. rewrite (moves_sum d ts None t s0 st x W E0 E1 Mx).
    assert (Nn : forall m, In m (nodes d) -> (0 <= dist (xg (s_xyz s0) m) (xg (s_xyz st) m))%R).
    { intros m _. rewrite dist_norm. apply norm_nonneg. }
    destruct (Aw o) as [A|A].
    - replace (po -v wo) with v0; [rewrite norm_v0|].
      + eapply Rle_trans; [apply (Nn o Io)|]. apply (rsum_le (nodes d) (fun n => dist (xg (s_xyz s0) n) (xg (s_xyz st) n))); auto.
      + unfold po, wo, xg. rewrite A. symmetry. apply vsub_self.
    - replace wo with (xg (s_xyz s0) o) by (unfold wo, xg; now rewrite A). rewrite <- dist_norm.
      apply (rsum_le (nodes d) (fun n => dist (xg (s_xyz s0) n) (xg (s_xyz st) n))); auto. }
  assert (Pf := Rabs_pos (fo d e)).
  replace (2 * Rabs (fo d e) * eta / norm (po -v pn))%R with (Rabs (fo d e) * (2 * eta / norm (po -v pn)))%R by (field; lra).
  apply Rmult_le_compat_l; auto. eapply Rle_trans; [exact Cl|]. unfold Rdiv. apply Rmult_le_compat_r; [left; now apply Rinv_0_lt_compat|lra].
Qed.

(** If the last iteration did not move any node, the equilibrium is exact. *)
Lemma c32_at_rest : forall d tmax eta verbose form, reachable d -> ready d -> nonzero_trails d -> 2 <= tmax -> (eta <= 0)%R ->
  static_equilibrium d None tmax eta verbose = Ok form -> balanced form.
Proof.
  intros d tmax eta verbose form Hr R Nz L Z E n I. apply reachable_wf in Hr as W.
  destruct (run_unbalanced d tmax eta verbose form Hr R Nz E) as (ts&t&s0&st&Ets&E0&E1&Fm&I0&I1&Mv&U).
  rewrite (fm_nodes _ _ _ Fm) in I. destruct (U n I) as (w&Aw&Nw&->). destruct (Mv L) as (Pt&x&Mx&Lx).
  assert (X : negb (t =? 0)%nat = true) by (apply negb_true_iff, Nat.eqb_neq; lia). rewrite X.
  assert (Same : forall m, In m (nodes d) -> xg w m = xg (s_xyz st) m).
  { intros m Im. destruct (Aw m) as [A|A]; [unfold xg; now rewrite A|].
    assert (Nn : forall m, In m (nodes d) -> (0 <= dist (xg (s_xyz s0) m) (xg (s_xyz st) m))%R).
    { intros k _. rewrite dist_norm. apply norm_nonneg. }
    assert (Q := rsum_le (nodes d) (fun n => dist (xg (s_xyz s0) n) (xg (s_xyz st) n)) m Nn Im). cbn beta in Q.
    rewrite <- (moves_sum d ts None t s0 st x W E0 E1 Mx) in Q. specialize (Nn m Im).
    assert (D : dist (xg (s_xyz s0) m) (xg (s_xyz st) m) = 0%R) by lra. rewrite dist_norm in D. apply norm_0_inv in D.
    replace (xg w m) with (xg (s_xyz s0) m) by (unfold xg; now rewrite A).
    assert (Y : xg (s_xyz st) m = xg (s_xyz s0) m +v (xg (s_xyz st) m -v xg (s_xyz s0) m)) by vring.
    rewrite Y, D. vring. }
  replace (map (dpull d w n) (cind d n)) with (map (dpull d (s_xyz st) n) (cind d n)); [apply vsub_self|].
  apply map_ext_in. intros e Ie.
  destruct (cind_spec d n W (ch_simple _ _ (rd_chains _ R)) (ready_sequenced d R) I) as (_&_&M).
  apply M in Ie as (Ed&_&_). apply In_edges, has_edge_find in Ed as [a Ea]; auto. destruct (wf_eends _ W _ _ Ea) as [J1 J2].
  unfold dpull. rewrite !Same; auto. unfold other. now destruct (negb (fst e =? n)).
Qed.

(** ** Global balance *)

(** The pulls of all edges on all nodes cancel. *)
Lemma pulls_cancel f (g : Z -> rvec -> rvec) :
  NoDup (nodes f) -> (forall e, In e (edges f) -> In (fst e) (nodes f) /\ In (snd e) (nodes f)) ->
  (forall n, g n v0 = v0) -> (forall n u w, g n (u +v w) = g n u +v g n w) ->
  (forall e, In e (edges f) -> fst e <> snd e -> g (fst e) (pull f (fst e) e) +v g (snd e) (pull f (snd e) e) = v0) ->
  vsum (map (fun n => g n (vsum (map (pull f n) (incident f n)))) (nodes f)) = v0.
Proof.
  intros N Ends G0 G1 Gc.
  assert (Gs : forall n l, g n (vsum (map (pull f n) l)) = vsum (map (fun e => g n (pull f n e)) l)).
  { intros n l. induction l as [|e l IH]; cbn [map]; [apply G0|]. rewrite !vsum_cons, G1. now rewrite IH. }
  rewrite (map_ext _ (fun n => vsum (map (fun e => if at_b n e then g n (pull f n e) else v0) (edges f)))).
  2:{ intros n. rewrite Gs. unfold incident. now rewrite vsum_filter. }
  rewrite vsum_swap. apply vsum_map_0. intros e Ie. destruct (Ends e Ie) as [I1 I2].
  destruct (Z.eq_dec (fst e) (snd e)) as [Eq|Ne].
  - apply vsum_map_0. intros n _. destruct (at_b n e) eqn:A; auto. apply at_b_spec in A.
    assert (En : fst e = n /\ snd e = n) by (destruct A; split; congruence). destruct En as [E1 E2].
    replace (pull f n e) with v0; [apply G0|]. unfold pull, far_end. rewrite E1, Z.eqb_refl, E2, vsub_self, direction_unitv, unitv_v0.
    symmetry. apply vscale_v0.
  - transitivity (vsum (map (fun n => if fst e =? n then g n (pull f n e) else v0) (nodes f))
                  +v vsum (map (fun n => if snd e =? n then g n (pull f n e) else v0) (nodes f))).
    { rewrite <- vsum_map_add. f_equal. apply map_ext. intros n. unfold at_b.
      destruct (Z.eqb_spec (fst e) n) as [<-|]; cbn [orb].
      - destruct (Z.eqb_spec (snd e) (fst e)); [congruence|]. now rewrite vadd_0_r.
      - now rewrite vadd_0_l. }
    rewrite (vsum_single _ (nodes f) (fst e)), (vsum_single _ (nodes f) (snd e)); auto.
    + rewrite !Z.eqb_refl. auto.
    + intros b _ Nb. destruct (Z.eqb_spec (snd e) b); congruence.
    + intros b _ Nb. destruct (Z.eqb_spec (fst e) b); congruence.
Qed.

Lemma form_graph d kmax tmax eta verbose form : reachable d -> static_equilibrium d kmax tmax eta verbose = Ok form ->
  NoDup (nodes form) /\ (forall e, In e (edges form) -> In (fst e) (nodes form) /\ In (snd e) (nodes form)).
Proof.
  intros Hr E. apply reachable_wf in Hr as W. destruct (c37_frame _ _ _ _ _ _ Hr E) as (->&->&_). split; [apply W|].
  intros e I. apply In_edges, has_edge_find in I as [a Ea]; auto. eapply wf_eends; eauto.
Qed.

(** In a form in static equilibrium, loads and reactions balance. *)
Lemma c33_force_balance : forall d kmax tmax eta verbose form, reachable d ->
  static_equilibrium d kmax tmax eta verbose = Ok form -> balanced form ->
  vsum (map (load form) (nodes form)) +v vsum (map (reaction form) (nodes form)) = v0.
Proof.
  intros d kmax tmax eta verbose form Hr E B. destruct (form_graph _ _ _ _ _ _ Hr E) as [N Ends].
  assert (C := pulls_cancel form (fun _ u => u) N Ends (fun _ => eq_refl) (fun _ _ _ => eq_refl)).
  cbn beta in C. assert (Z : vsum (map (unbalanced form) (nodes form)) = v0) by (now apply vsum_map_0).
  unfold unbalanced in Z. rewrite !vsum_map_add in Z. rewrite C in Z; [|].
  - rewrite <- Z. vring.
  - intros [u v] _ Ne. cbn [fst snd]. rewrite (c26_pulls form u v). vring.
Qed.

Lemma direction_parallel a b : cross (b -v a) (direction (b -v a)) = v0.
Proof. unfold direction. apply vec_eq; vunf; unfold Rdiv; ring. Qed.

(** ... and so do their moments about any point. *)
Lemma c34_moment_balance : forall d kmax tmax eta verbose form o, reachable d ->
  static_equilibrium d kmax tmax eta verbose = Ok form -> balanced form ->
  vsum (map (fun n => moment o (position form n) (load form n)) (nodes form))
  +v vsum (map (fun n => moment o (position form n) (reaction form n)) (nodes form)) = v0.
Proof.
  intros d kmax tmax eta verbose form o Hr E B. destruct (form_graph _ _ _ _ _ _ Hr E) as [N Ends].
  assert (C := pulls_cancel form (fun n u => moment o (position form n) u) N Ends).
  cbn beta in C.
  assert (Z : vsum (map (fun n => moment o (position form n) (unbalanced form n)) (nodes form)) = v0).
  { apply vsum_map_0. intros n I. rewrite (B n I). unfold moment. vring. }
  unfold unbalanced in Z. 
  rewrite (map_ext _ (fun n => moment o (position form n) (load form n) +v moment o (position form n) (reaction form n)
     +v moment o (position form n) (vsum (map (pull form n) (incident form n))))) in Z by (intros n; unfold moment; vring).
  rewrite !vsum_map_add in Z. rewrite C in Z.
  - rewrite <- Z. vring.
  - intros n. unfold moment. vring.
  - intros n u w. unfold moment. vring.
  - intros [u v] _ Ne. cbn [fst snd] in *. rewrite (c26_pulls form u v).
    unfold pull, far_end. cbn [fst snd]. rewrite Z.eqb_refl.
    set (D := direction (position form v -v position form u)). set (pu := position form u) in *. set (pv := position form v) in *.
    set (x := force form (u, v)). unfold moment.
    transitivity ((- x)%R *v cross (pv -v pu) D); [vring|]. unfold D. rewrite direction_parallel. apply vscale_v0.
Qed.

(** Only supports have reactions, so the sums over all nodes are sums over supports. *)
Lemma supports_sum d tmax eta verbose form (g : Z -> rvec -> rvec) : reachable d -> ready d ->
  static_equilibrium d None tmax eta verbose = Ok form -> (forall n, g n v0 = v0) ->
  vsum (map (fun n => g n (reaction form n)) (nodes form)) = vsum (map (fun n => g n (reaction form n)) (support_nodes d)).
Proof.
  intros Hr R E G. apply reachable_wf in Hr as W. destruct (c37_frame _ _ _ _ _ _ Hr E) as (Nf&_). rewrite Nf.
  destruct (c37_inputs _ _ _ _ _ Hr R E) as (_&_&Q).
  assert (S : support_nodes d = filter (is_sup d) (nodes d)).
  { unfold support_nodes, nodes, dkeys.
    assert (X : forall l, (forall n a, In (n, a) l -> dget (d_node d) n = Some a) ->
      map fst (filter (fun na : Z * node_attr _ => opt_is ntype_eqb (na_type (snd na)) TSupport) l) = filter (is_sup d) (map fst l)).
    { induction l as [|[n a] l IH]; intros Hl; auto. specialize (IH (fun n a I => Hl n a (or_intror I))).
      assert (Hn := Hl n a (or_introl eq_refl)). cbn [filter map fst snd].
      assert (Sn : is_sup d n = opt_is ntype_eqb (na_type a) TSupport) by (unfold is_sup, tof; now rewrite Hn).
      rewrite Sn. destruct (opt_is ntype_eqb (na_type a) TSupport); [cbn [map fst]; f_equal|]; exact IH. }
    apply X. intros n a I. apply In_dget; auto. apply W. }
  rewrite S, vsum_filter. f_equal. apply map_ext_in. intros n I. destruct (is_sup d n) eqn:Sn; auto.
  assert (Z : reaction form n = v0).
  { unfold reaction. rewrite Q; auto. rewrite is_node_support_Ok; auto. now rewrite Sn. }
  now rewrite Z.
Qed.

(** Direct topologies: the reactions at the supports balance the loads. *)
Lemma c33_direct : forall d tmax eta verbose form, reachable d -> ready d -> direct_only d -> nonzero_trails d ->
  static_equilibrium d None tmax eta verbose = Ok form ->
  vsum (map (load form) (nodes d)) +v vsum (map (reaction form) (support_nodes d)) = v0.
Proof.
  intros d tmax eta verbose form Hr R Di Nz E.
  assert (B := c31_direct_equilibrium _ _ _ _ _ Hr R Di Nz E).
  assert (X := c33_force_balance _ _ _ _ _ _ Hr E B).
  assert (Y := supports_sum d tmax eta verbose form (fun _ u => u) Hr R E (fun _ => eq_refl)). cbn beta in Y.
  change (fun n : Z => reaction form n) with (reaction form) in Y. rewrite Y in X.
  destruct (c37_frame _ _ _ _ _ _ Hr E) as (Nf&_). now rewrite Nf in X.
Qed.

(** Direct topologies: their moments balance about any point. *)
Lemma c34_direct : forall d tmax eta verbose form o, reachable d -> ready d -> direct_only d -> nonzero_trails d ->
  static_equilibrium d None tmax eta verbose = Ok form ->
  vsum (map (fun n => moment o (position form n) (load form n)) (nodes d))
  +v vsum (map (fun n => moment o (position form n) (reaction form n)) (support_nodes d)) = v0.
Proof.
  intros d tmax eta verbose form o Hr R Di Nz E.
  assert (B := c31_direct_equilibrium _ _ _ _ _ Hr R Di Nz E).
  assert (X := c34_moment_balance _ _ _ _ _ _ o Hr E B).
  assert (Y := supports_sum d tmax eta verbose form (fun n u => moment o (position form n) u) Hr R E). cbn beta in Y.
  rewrite Y in X by (intros n; unfold moment; vring).
  destruct (c37_frame _ _ _ _ _ _ Hr E) as (Nf&_). now rewrite Nf in X.
Qed.

(** Absolute value and sign of the length attributes of the form. *)
Lemma c40_signed_lengths : forall d kmax tmax eta verbose form e, reachable d ->
  static_equilibrium d kmax tmax eta verbose = Ok form -> In e (edges form) ->
  exists l, edge_length_2 form e = Ok l /\ Rabs l = span form e
    /\ ((0 < span form e)%R -> ((l < 0)%R <-> (force form e < 0)%R)).
Proof.
  intros d kmax tmax eta verbose form e Hr E I.
  destruct (c40_lengths d kmax tmax eta verbose form e Hr E I) as (pu&pv&x&E1&E2&E3&E4).
  assert (S : span form e = dist pu pv) by (unfold span, position; now rewrite E1, E2).
  eexists. split; [exact E4|]. rewrite S. unfold force. rewrite E3. cbn [value].
  assert (P : (0 <= dist pu pv)%R) by (rewrite dist_norm; apply norm_nonneg). rewrite ncopysign_R, (Rabs_right (dist pu pv)) by lra.
  destruct (Rlt_dec x 0); (split; [|intros; split; lra]); [rewrite Rabs_Ropp|]; apply Rabs_right; lra.
Qed.

(** For every ready topology some threshold succeeds. *)
Lemma some_threshold d kmax tmax verbose : reachable d -> ready d -> kmax_ok kmax -> 2 <= tmax ->
  exists eta form, (0 < eta)%R /\ static_equilibrium d kmax tmax eta verbose = Ok form.
Proof.
  intros Hr R K L. apply reachable_wf in Hr as W.
  destruct (ready_ts d W R) as (ts&Ets&Hts). destruct (moves_total d ts kmax 1 W R Hts) as (x&M).
  exists (Rabs x + 1)%R. destruct (static_equilibrium d kmax tmax (Rabs x + 1)%R verbose) as [form|e] eqn:E.
  - exists form. split; auto. assert (Q := Rabs_pos x). lra.
  - exfalso. destruct (c36_no_convergence d kmax tmax _ verbose e Hr R K L E) as (_&ts'&Ets'&_&F).
    rewrite Ets in Ets'. injection Ets' as <-. specialize (F 1%nat x ltac:(lia) ltac:(lia) M).
    assert (Q := Rle_abs x). lra.
Qed.
