(** * Facts about closest points and penalties over the real numbers *)

From Coq Require Import List ZArith Bool Reals Lra Lia.
From Verif Require Import Py PyFacts Num Diagram Equilibrium RVec SpecStatics Constraints SpecConstraints.
Import ListNotations.
Open Scope R_scope.

Notation sqrd := (@length_vector_sqrd R R_ops).

Lemma dist_le p q r : sqrd (q -v p) <= sqrd (r -v p) -> dist p q <= dist p r.
Proof. intros L. unfold distance_point_point, length_vector. cbn [nsqrt R_ops]. apply sqrt_le_1; auto using sqrd_nonneg. Qed.

Lemma dist_sq p q : dist p q * dist p q = @distance_point_point_sqrd R R_ops p q.
Proof. unfold distance_point_point, distance_point_point_sqrd. apply norm_sq. Qed.

Lemma sqrd_0 u : sqrd u = 0 -> u = v0.
Proof. intros E. apply norm_0_inv. unfold length_vector. rewrite E. apply sqrt_0. Qed.

Lemma sqrd_v0 : sqrd v0 = 0.
Proof. vunf. ring. Qed.

Lemma dist_0 p q : dist p q = 0 <-> p = q.
Proof.
  split; [|intros ->; apply dist_self]. unfold distance_point_point. intros E. apply norm_0_inv in E.
  destruct p as [x y z], q as [x' y' z']. unfold subtract_vectors, vzero in E. cbn in E. injection E as E1 E2 E3.
  f_equal; lra.
Qed.

(** The square of the distance to a point of a line, from the foot of the perpendicular *)
Lemma pythagoras p a u t s : dot (p -v a) u = t * sqrd u ->
  sqrd (a +v s *v u -v p) = sqrd (a +v t *v u -v p) + (s - t) * (s - t) * sqrd u.
Proof.
  intros E.
  assert (X : forall r, sqrd (a +v r *v u -v p) = r * r * sqrd u - 2 * r * dot (p -v a) u + sqrd (p -v a)) by (intros; vunf; ring).
  rewrite !X, E. ring.
Qed.

Lemma component p a b : exists t, closest_point_on_line p a b = a +v t *v (b -v a)
  /\ dot (p -v a) (b -v a) = t * sqrd (b -v a).
Proof.
  unfold closest_point_on_line, vector_component, ntruthy. cbn [neqb n0 ndiv R_ops].
  destruct (Reqb_spec (sqrd (b -v a)) 0) as [E|E]; cbn [negb].
  - exists 0. rewrite vscale_0. split; auto. apply sqrd_0 in E. rewrite E. vunf. ring.
  - eexists. split; [reflexivity|]. field. exact E.
Qed.

Lemma line_nearest p a b : on_line a b (closest_point_on_line p a b)
  /\ forall q, on_line a b q -> dist p (closest_point_on_line p a b) <= dist p q.
Proof.
  destruct (component p a b) as (t&E&D). rewrite E. split; [now exists t|].
  intros q (s&->). apply dist_le. rewrite (pythagoras p a (b -v a) t s D).
  assert (X := sqrd_nonneg (b -v a)). assert (Y := Rmult_le_pos _ _ (Rle_0_sqr (s - t)) X). unfold Rsqr in Y. lra.
Qed.

Lemma segment_nearest p a b : on_segment a b (closest_point_on_segment p a b)
  /\ forall q, on_segment a b q -> dist p (closest_point_on_segment p a b) <= dist p q.
Proof.
  unfold closest_point_on_segment, distance_point_point_sqrd. cbn [nltb R_ops].
  destruct (component p a b) as (t&E&D). rewrite E.
  set (U := sqrd (b -v a)) in *. assert (U0 : 0 <= U) by apply sqrd_nonneg.
  assert (D1 : sqrd (a +v t *v (b -v a) -v a) = t * t * U) by (subst U; vunf; ring).
  assert (D2 : sqrd (a +v t *v (b -v a) -v b) = (1 - t) * (1 - t) * U) by (subst U; vunf; ring).
  rewrite D1, D2.
  assert (Ea : a = a +v 0 *v (b -v a)) by vring.
  assert (Eb : b = a +v 1 *v (b -v a)) by vring.
  assert (Go : forall r, (forall s, 0 <= s <= 1 -> (r - t) * (r - t) * U <= (s - t) * (s - t) * U) ->
    forall q, on_segment a b q -> dist p (a +v r *v (b -v a)) <= dist p q).
  { intros r L q (s&Hs&->). apply dist_le. rewrite (pythagoras p a _ t s D), (pythagoras p a _ t r D).
    specialize (L s Hs). fold U. lra. }
  assert (Ga := fun L q H => Go 0 L q H). rewrite <- Ea in Ga.
  assert (Gb := fun L q H => Go 1 L q H). rewrite <- Eb in Gb.
  destruct (Req_dec U 0) as [Uz|Uz].
  { assert (Z : b -v a = v0) by (apply sqrd_0; exact Uz).
    assert (X : forall r, a +v r *v (b -v a) = a) by (intros r; rewrite Z, vscale_v0, vadd_0_r; reflexivity).
    assert (Y : b = a) by (rewrite Eb at 1; apply X).
    assert (Q : (if Rltb U (t * t * U) || Rltb U ((1 - t) * (1 - t) * U)
                 then if Rltb (t * t * U) ((1 - t) * (1 - t) * U) then a else b else a +v t *v (b -v a)) = a).
    { rewrite X, Y. destruct (Rltb U (t * t * U) || Rltb U ((1 - t) * (1 - t) * U)); [destruct (Rltb (t * t * U) ((1 - t) * (1 - t) * U))|]; reflexivity. }
    rewrite Q. split; [exists 0; split; [lra|exact Ea]|]. apply Ga. intros. rewrite Uz. lra. }
  assert (Up : 0 < U) by lra.
  assert (M : forall x y, x * U < y * U <-> x < y) by (intros x y; split; intros; nra).
  assert (Le : forall r s, (r - t) * (r - t) <= (s - t) * (s - t) -> (r - t) * (r - t) * U <= (s - t) * (s - t) * U)
    by (intros; apply Rmult_le_compat_r; auto).
  destruct (Rltb_spec U (t * t * U)) as [L1|L1].
  - assert (T1 : 1 < t * t) by (apply M; lra). cbn [orb].
    destruct (Rltb_spec (t * t * U) ((1 - t) * (1 - t) * U)) as [L3|L3].
    + apply M in L3. assert (T : t < 0) by nra.
      split; [exists 0; split; [lra|exact Ea]|]. apply Ga. intros s Hs. apply Le. assert (0 <= s * (s - 2 * t)) by (apply Rmult_le_pos; lra). lra.
    + assert (L4 : ~ t * t < (1 - t) * (1 - t)) by (intros Q; apply L3, M, Q). assert (T : 1 < t) by nra.
      split; [exists 1; split; [lra|exact Eb]|]. apply Gb. intros s Hs. apply Le. assert (0 <= (1 - s) * (2 * t - 1 - s)) by (apply Rmult_le_pos; lra). lra.
  - assert (T1 : ~ 1 < t * t) by (intros Q; apply L1; nra). cbn [orb].
    destruct (Rltb_spec U ((1 - t) * (1 - t) * U)) as [L2|L2].
    + assert (T2 : 1 < (1 - t) * (1 - t)) by (apply M; lra). assert (T : t < 0) by nra.
      destruct (Rltb_spec (t * t * U) ((1 - t) * (1 - t) * U)) as [L3|L3].
      * split; [exists 0; split; [lra|exact Ea]|]. apply Ga. intros s Hs. apply Le. assert (0 <= s * (s - 2 * t)) by (apply Rmult_le_pos; lra). lra.
      * exfalso. apply L3, M. nra.
    + assert (T2 : ~ 1 < (1 - t) * (1 - t)) by (intros Q; apply L2; nra).
      split; [exists t; split; [nra|reflexivity]|]. apply Go. intros s Hs. apply Le. assert (X := Rle_0_sqr (s - t)). unfold Rsqr in X. lra.
Qed.

Lemma plane_nearest p o nrm : nrm <> v0 -> on_plane o nrm (closest_point_on_plane p o nrm)
  /\ forall q, on_plane o nrm q -> dist p (closest_point_on_plane p o nrm) <= dist p q.
Proof.
  intros N. unfold closest_point_on_plane.
  assert (N1 := norm_unitv nrm N). assert (S1 : sqrd (unitv nrm) = 1) by (rewrite <- norm_sq, N1; ring).
  rewrite S1. set (n := unitv nrm) in *. cbn [ndiv nsub nmul R_ops].
  set (k := (dot n p - dot n o) / 1).
  assert (Q : V3 (vx p - k * vx n) (vy p - k * vy n) (vz p - k * vz n) = p +v (- k) *v n) by vring.
  rewrite Q. assert (Sc : nrm = norm nrm *v n) by (symmetry; apply norm_times_unitv).
  assert (P0 := norm_pos nrm N).
  assert (D0 : dot n (p +v (- k) *v n -v o) = 0).
  { replace (dot n (p +v (- k) *v n -v o)) with (dot n p - dot n o - k * sqrd n) by (vunf; ring). rewrite S1. unfold k. field. }
  split.
  - unfold on_plane. rewrite Sc. replace (dot (norm nrm *v n) (p +v - k *v n -v o)) with (norm nrm * dot n (p +v (- k) *v n -v o)) by (vunf; ring).
    rewrite D0. ring.
  - intros q Hq. apply dist_le. assert (Dq : dot n (q -v o) = 0).
    { unfold on_plane in Hq. rewrite Sc in Hq. replace (dot (norm nrm *v n) (q -v o)) with (norm nrm * dot n (q -v o)) in Hq by (vunf; ring). nra. }
    assert (X : sqrd (p +v (- k) *v n -v p) = k * k) by (replace (sqrd (p +v (- k) *v n -v p)) with (k * k * sqrd n) by (vunf; ring); rewrite S1; ring).
    rewrite X.
    assert (Y : dot n (q -v p) = - k).
    { replace (dot n (q -v p)) with (dot n (q -v o) - (dot n p - dot n o)) by (vunf; ring). rewrite Dq. unfold k. field. }
    assert (C := cauchy n (q -v p)). assert (C' := cauchy (-1 *v n) (q -v p)). rewrite norm_scale in C'.
    replace (dot (-1 *v n) (q -v p)) with (- dot n (q -v p)) in C' by (vunf; ring).
    replace (Rabs (-1)) with 1 in C' by (rewrite Rabs_left; lra). rewrite N1, Y in *.
    rewrite <- norm_sq. assert (Z := norm_nonneg (q -v p)). nra.
Qed.

Lemma pairwise_In {A} (l : list A) x y : In (x, y) (pairwise l) <-> exists l1 l2, l = l1 ++ x :: y :: l2.
Proof.
  induction l as [|a l IH]; cbn [pairwise].
  - split; [intros []|]. intros ([|]&l2&E); discriminate E.
  - destruct l as [|b l].
    + split; [intros []|]. intros ([|u [|]]&l2&E); discriminate E.
    + cbn [In]. rewrite IH. split.
      * intros [E|(l1&l2&E)]; [injection E as -> ->; now exists [], l|]. exists (a :: l1), l2. cbn. now rewrite E.
      * intros ([|u l1]&l2&E); [left; cbn in E; congruence|right]. cbn in E. injection E as -> E. now exists l1, l2.
Qed.

Lemma nearest_from_spec p cloud : forall q, In (nearest_from p q cloud) (q :: cloud)
  /\ forall r, In r (q :: cloud) -> dist p (nearest_from p q cloud) <= dist p r.
Proof.
  induction cloud as [|r cloud IH]; intros q; cbn [nearest_from].
  - split; [now left|]. intros r [->|[]]. lra.
  - cbn [nltb R_ops]. destruct (Rltb_spec (dist p r) (dist p q)) as [L|L]; [destruct (IH r) as [I M]|destruct (IH q) as [I M]].
    + split; [destruct I; [right; now left|right; now right]|].
      intros s [<-|[<-|J]]; [|apply M; now left|apply M; now right].
      assert (X := M r (or_introl eq_refl)). lra.
    + split; [destruct I; [now left|right; now right]|].
      intros s [<-|[<-|J]]; [apply M; now left| |apply M; now right].
      assert (X := M q (or_introl eq_refl)). lra.
Qed.

Lemma polyline_nearest p l q : closest_point_on_polyline p l = Ok q ->
  on_polyline l q /\ forall r, on_polyline l r -> dist p q <= dist p r.
Proof.
  unfold closest_point_on_polyline. set (f := fun s : rvec * rvec => closest_point_on_segment p (fst s) (snd s)).
  destruct (map f (pairwise l)) as [|q0 cloud] eqn:E; intros Q; [discriminate Q|]. apply Ok_inj in Q. subst q.
  destruct (nearest_from_spec p cloud q0) as [I M]. rewrite <- E in I, M. split.
  - apply in_map_iff in I as ((a&b)&Ef&I). rewrite <- Ef. unfold f. cbn [fst snd].
    apply pairwise_In in I as (l1&l2&->). exists l1, a, b, l2. split; auto. apply segment_nearest.
  - intros r (l1&a&b&l2&->&S). eapply Rle_trans; [apply M|apply (proj2 (segment_nearest p a b) r S)].
    apply in_map_iff. exists (a, b). split; auto. apply pairwise_In. now exists l1, l2.
Qed.

(** ** Directions *)

Lemma unitized_R v : unitized_vector v = direction v.
Proof. apply vec_eq; unfold unitized_vector, direction, magnitude; vunf; cbn [nsqrt R_ops]; unfold Rdiv; ring. Qed.

Lemma direction_unitv' v : v <> v0 -> direction v = unitv v.
Proof.
  intros N. rewrite unitv_scale by auto. apply vec_eq; unfold direction, magnitude, length_vector; vunf; cbn [nsqrt R_ops]; unfold Rdiv; ring.
Qed.

(** The distances between a unit vector and two opposite unit vectors *)
Lemma unit_dist u w : norm u = 1 -> norm w = 1 -> dist u w * dist u w = 2 - 2 * dot w u.
Proof.
  intros Nu Nw. rewrite dist_sq. unfold distance_point_point_sqrd.
  assert (Su := norm_sq u). assert (Sw := norm_sq w). rewrite Nu in Su. rewrite Nw in Sw.
  replace (sqrd (w -v u)) with (sqrd u + sqrd w - 2 * dot w u) by (vunf; ring). lra.
Qed.

Lemma dist_nonneg u w : 0 <= dist u w.
Proof. apply norm_nonneg. Qed.

Lemma aligned_dist u w : norm u = 1 -> norm w = 1 ->
  dist u (aligned_vector w u) = Rmin (dist u w) (dist u (-1 *v w)).
Proof.
  intros Nu Nw. assert (Nm : norm (-1 *v w) = 1) by (rewrite norm_scale, Nw, Rabs_left by lra; ring).
  assert (A := unit_dist u w Nu Nw). assert (B := unit_dist u (-1 *v w) Nu Nm).
  replace (dot (-1 *v w) u) with (- dot w u) in B by (vunf; ring).
  assert (Pa := dist_nonneg u w). assert (Pb := dist_nonneg u (-1 *v w)).
  unfold aligned_vector. cbn [nltb n0 nopp n1 R_ops]. destruct (Rltb_spec (dot w u) 0) as [L|L].
  - rewrite Rmin_right; [reflexivity|nra].
  - rewrite Rmin_left; [reflexivity|nra].
Qed.

Lemma parallel_unit u w : u <> v0 -> w <> v0 -> parallel u w <-> unitv u = unitv w \/ unitv u = -1 *v unitv w.
Proof.
  intros Nu Nw. split.
  - intros (s&->). destruct (Rtotal_order s 0) as [L|[->|L]].
    + right. now apply unitv_neg.
    + exfalso. apply Nu. apply vscale_0.
    + left. now apply unitv_pos.
  - assert (Pu := norm_pos u Nu). assert (Pw := norm_pos w Nw).
    intros [E|E]; rewrite <- (norm_times_unitv u), E, unitv_scale by auto; rewrite ?vscale_scale; eexists; reflexivity.
Qed.
