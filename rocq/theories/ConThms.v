(** * Properties of constraints over the real numbers *)

From Coq Require Import List ZArith Bool Reals Lra Lia.
From Verif Require Import Py PyFacts Num Diagram Equilibrium RVec SpecStatics Constraints SpecConstraints ConFacts.
Import ListNotations.
Open Scope R_scope.

Implicit Types (st : eqstate R) (c : constraint R).

Lemma dgetr_Ok {K V} `{Eqb K} (d : dict K V) k v : dgetr d k = Ok v <-> dget d k = Some v.
Proof. unfold dgetr. destruct (dget d k); split; intros E; try discriminate E; [apply Ok_inj in E|apply Some_inj in E]; now subst. Qed.

Lemma vector_penalty_R p q w : @vector_penalty R R_ops p q w = w * (dist p q * dist p q).
Proof. unfold vector_penalty. rewrite dist_sq. cbn [nmul R_ops]. ring. Qed.

Lemma float_penalty_R x y w : @float_penalty R R_ops x y w = w * (Rabs (x - y) * Rabs (x - y)).
Proof.
  unfold float_penalty. cbn [nmul nsub R_ops].
  replace (Rabs (x - y) * Rabs (x - y)) with ((x - y) * (x - y)); [ring|].
  unfold Rabs. destruct Rcase_abs; ring.
Qed.

Lemma distance_to_fun S p x y : distance_to S p x -> distance_to S p y -> x = y.
Proof. intros [(q&Sq&Eq) L] [(r&Sr&Er) M]. assert (A := L r Sr). assert (B := M q Sq). lra. Qed.

Lemma distance_to_attained (S : vec R -> Prop) p q : S q -> (forall r, S r -> dist p q <= dist p r) -> distance_to S p (dist p q).
Proof. intros A B. split; eauto. Qed.

Lemma direction_dist p q t : p <> q -> t <> v0 ->
  dist (unitized_vector (q -v p)) (aligned_vector (normalize_vector t) (unitized_vector (q -v p)))
  = Rmin (dist (direction (q -v p)) (direction t)) (dist (direction (q -v p)) (-1 *v direction t)).
Proof.
  intros N Nt. assert (Nq : q -v p <> v0).
  { intros E. apply N. apply dist_0. unfold distance_point_point. rewrite E. apply norm_v0. }
  rewrite unitized_R, !direction_unitv' by auto. apply aligned_dist; now apply norm_unitv.
Qed.

(** The penalty of a constraint is its weight times the square of the deviation
    from its goal. *)
Lemma c48_penalty : forall st c x, has_direction st (c_goal c) ->
  penalty st c = Ok x <-> exists y, deviates st (c_goal c) y /\ x = c_weight c * (y * y).
Proof.
  intros st [g w] x. cbn [c_goal c_weight]. unfold penalty, deviates, has_direction, node_at. cbn [c_goal c_weight].
  destruct g as [n t|n a b|n o nrm|n l|e f|n r|e l|e t]; intros D.
  - split.
    + intros E. apply bind_Ok in E as (p&Ep&E). apply dgetr_Ok in Ep. apply Ok_inj in E. subst x.
      exists (dist p t). split; [eauto|apply vector_penalty_R].
    + intros (y&(p&Ep&->)&->). apply dgetr_Ok in Ep. rewrite Ep. cbn [bind]. now rewrite vector_penalty_R.
  - split.
    + intros E. apply bind_Ok in E as (p&Ep&E). apply dgetr_Ok in Ep. apply Ok_inj in E. subst x.
      destruct (line_nearest p a b) as [L M]. eexists. split; [exists p; split; [exact Ep|apply (distance_to_attained _ _ _ L M)]|apply vector_penalty_R].
    + intros (y&(p&Ep&Dy)&->). apply dgetr_Ok in Ep. rewrite Ep. cbn [bind]. rewrite vector_penalty_R.
      destruct (line_nearest p a b) as [L M]. now rewrite (distance_to_fun _ _ _ _ Dy (distance_to_attained _ _ _ L M)).
  - split.
    + intros E. apply bind_Ok in E as (p&Ep&E). apply dgetr_Ok in Ep. apply Ok_inj in E. subst x.
      destruct (plane_nearest p o nrm D) as [L M]. eexists. split; [exists p; split; [exact Ep|apply (distance_to_attained _ _ _ L M)]|apply vector_penalty_R].
    + intros (y&(p&Ep&Dy)&->). apply dgetr_Ok in Ep. rewrite Ep. cbn [bind]. rewrite vector_penalty_R.
      destruct (plane_nearest p o nrm D) as [L M]. now rewrite (distance_to_fun _ _ _ _ Dy (distance_to_attained _ _ _ L M)).
  - split.
    + intros E. apply bind_Ok in E as (p&Ep&E). apply dgetr_Ok in Ep. apply bind_Ok in E as (q&Eq&E). apply Ok_inj in E. subst x.
      destruct (polyline_nearest p l q Eq) as [L M]. eexists. split; [exists p; split; [exact Ep|apply (distance_to_attained _ _ _ L M)]|apply vector_penalty_R].
    + intros (y&(p&Ep&Dy)&->). apply dgetr_Ok in Ep. rewrite Ep. cbn [bind].
      destruct (closest_point_on_polyline p l) as [q|e] eqn:Eq; cbn [bind].
      * rewrite vector_penalty_R. destruct (polyline_nearest p l q Eq) as [L M].
        now rewrite (distance_to_fun _ _ _ _ Dy (distance_to_attained _ _ _ L M)).
      * exfalso. unfold closest_point_on_polyline in Eq.
        destruct (map (fun s => closest_point_on_segment p (fst s) (snd s)) (pairwise l)) as [|q0 cl] eqn:Em; [|discriminate Eq].
        destruct Dy as [(q&(l1&a&b&l2&El&_)&_) _]. assert (I : In (a, b) (pairwise l)) by (apply pairwise_In; eauto).
        apply map_eq_nil in Em. rewrite Em in I. destruct I.
  - split.
    + intros E. apply bind_Ok in E as (p&Ep&E). apply dgetr_Ok in Ep. apply Ok_inj in E. subst x.
      exists (Rabs (p - f)). split; [eauto|apply float_penalty_R].
    + intros (y&(p&Ep&->)&->). apply dgetr_Ok in Ep. rewrite Ep. cbn [bind]. now rewrite float_penalty_R.
  - split.
    + intros E. apply bind_Ok in E as (p&Ep&E). apply dgetr_Ok in Ep. apply Ok_inj in E. subst x.
      exists (dist p r). split; [eauto|apply vector_penalty_R].
    + intros (y&(p&Ep&->)&->). apply dgetr_Ok in Ep. rewrite Ep. cbn [bind]. now rewrite vector_penalty_R.
  - split.
    + intros E. apply bind_Ok in E as (p&Ep&E). apply bind_Ok in E as (q&Eq&E). apply dgetr_Ok in Ep, Eq. apply Ok_inj in E. subst x.
      exists (Rabs (dist p q - l)). split; [exists p, q; auto|apply float_penalty_R].
    + intros (y&(p&q&Ep&Eq&->)&->). apply dgetr_Ok in Ep, Eq. rewrite Ep, Eq. cbn [bind]. now rewrite float_penalty_R.
  - destruct D as [Dt D]. split.
    + intros E. apply bind_Ok in E as (q&Eq&E). apply bind_Ok in E as (p&Ep&E). apply dgetr_Ok in Ep, Eq. apply Ok_inj in E. subst x.
      eexists. split; [exists p, q; split; [exact Ep|split; [exact Eq|reflexivity]]|].
      rewrite vector_penalty_R, direction_dist; eauto.
    + intros (y&(p&q&Ep&Eq&->)&->). assert (N := D p q Ep Eq). apply dgetr_Ok in Ep, Eq. rewrite Ep, Eq. cbn [bind].
      rewrite vector_penalty_R, direction_dist; auto.
Qed.

Lemma deviates_nonneg st g y : deviates st g y -> 0 <= y.
Proof.
  unfold deviates. destruct g; intros H; repeat match goal with H : exists _, _ |- _ => destruct H end;
    repeat match goal with H : _ /\ _ |- _ => destruct H end; subst; try apply dist_nonneg; try apply Rabs_pos.
  - destruct H0 as [(q&_&<-) _]. apply dist_nonneg.
  - destruct H0 as [(q&_&<-) _]. apply dist_nonneg.
  - destruct H0 as [(q&_&<-) _]. apply dist_nonneg.
  - apply Rmin_glb; apply dist_nonneg.
Qed.

Lemma distance_to_0 (S : vec R -> Prop) p : distance_to S p 0 <-> S p.
Proof.
  split.
  - intros [(q&Sq&E) _]. apply dist_0 in E. now subst.
  - intros Sp. split; [exists p; split; [exact Sp|apply dist_self]|]. intros. apply dist_nonneg.
Qed.

Lemma Rmin_0 x y : 0 <= x -> 0 <= y -> Rmin x y = 0 <-> x = 0 \/ y = 0.
Proof. intros. unfold Rmin. destruct Rle_dec; lra. Qed.

(** No deviation means that the goal is met. *)
Lemma c48_no_deviation : forall st g, has_direction st g -> deviates st g 0 <-> meets st g.
Proof.
  intros st g D. unfold deviates, meets, node_at in *. destruct g as [n t|n a b|n o nrm|n l|e f|n r|e l|e t].
  - split.
    + intros (p&Ep&E). symmetry in E. apply dist_0 in E. now subst.
    + intros E. exists t. split; auto. symmetry. apply dist_self.
  - split; intros (p&Ep&E); exists p; split; auto; now apply distance_to_0.
  - split; intros (p&Ep&E); exists p; split; auto; now apply distance_to_0.
  - split; intros (p&Ep&E); exists p; split; auto; now apply distance_to_0.
  - split.
    + intros (y&Ey&E). rewrite Ey. f_equal. symmetry in E. destruct (Req_dec (y - f) 0) as [Z|Z]; [lra|].
      apply Rabs_no_R0 in Z. contradiction.
    + intros E. exists f. split; auto. replace (f - f) with 0 by ring. symmetry. apply Rabs_R0.
  - split.
    + intros (p&Ep&E). symmetry in E. apply dist_0 in E. now subst.
    + intros E. exists r. split; auto. symmetry. apply dist_self.
  - split; intros (p&q&Ep&Eq&E); exists p, q; (split; [exact Ep|]); (split; [exact Eq|]).
    + symmetry in E. destruct (Req_dec (dist p q - l) 0) as [Z|Z]; [lra|]. apply Rabs_no_R0 in Z. contradiction.
    + rewrite E. replace (l - l) with 0 by ring. symmetry. apply Rabs_R0.
  - destruct D as [Nt D]. split; intros (p&q&Ep&Eq&E); exists p, q; (split; [exact Ep|]); (split; [exact Eq|]).
    + assert (Nq : q -v p <> v0).
      { intros Z. apply (D p q Ep Eq). apply dist_0. unfold distance_point_point. rewrite Z. apply norm_v0. }
      apply parallel_unit; auto. rewrite !direction_unitv' in E by auto. symmetry in E.
      apply Rmin_0 in E; try apply dist_nonneg. destruct E as [E|E]; apply dist_0 in E; auto.
    + assert (Nq : q -v p <> v0).
      { intros Z. apply (D p q Ep Eq). apply dist_0. unfold distance_point_point. rewrite Z. apply norm_v0. }
      apply parallel_unit in E; auto. rewrite !direction_unitv' by auto. symmetry.
      apply Rmin_0; try apply dist_nonneg. destruct E as [E|E]; [left|right]; apply dist_0; exact E.
Qed.

Lemma calculate_penalty_spec st cs : forall acc x,
  fold_res (fun acc c => let* y := penalty st c in Ok (nadd acc y)) cs acc = Ok x <->
  exists ys, Forall2 (fun c y => penalty st c = Ok y) cs ys /\ x = acc + rsum ys.
Proof.
  induction cs as [|c cs IH]; intros acc x; cbn [fold_res].
  - split.
    + intros E. apply Ok_inj in E. subst. exists []. split; [constructor|cbn; ring].
    + intros (ys&F&->). inversion F; subst. cbn. now rewrite Rplus_0_r.
  - split.
    + intros E. apply bind_Ok in E as (acc'&E1&E). apply bind_Ok in E1 as (y&Ey&E1). apply Ok_inj in E1. subst acc'.
      apply IH in E as (ys&F&->). exists (y :: ys). split; [constructor; auto|]. unfold rsum. cbn [fold_right nadd R_ops]. ring.
    + intros (ys&F&->). inversion F as [|? y ? ys' Ey F']; subst. rewrite Ey. cbn [bind]. apply IH.
      exists ys'. split; auto. unfold rsum. cbn [fold_right nadd R_ops]. ring.
Qed.

(** The total penalty is the sum of the weighted squared deviations. *)
Lemma c48_total : forall st cs x, (forall c, In c cs -> has_direction st (c_goal c)) ->
  calculate_penalty cs st = Ok x <->
  exists ys, Forall2 (fun c y => deviates st (c_goal c) y) cs ys
    /\ x = rsum (map (fun cy => c_weight (fst cy) * (snd cy * snd cy)) (combine cs ys)).
Proof.
  intros st cs x D. unfold calculate_penalty. rewrite (calculate_penalty_spec st cs).
  change (@n0 R R_ops) with 0. split.
  - intros (zs&F&->). revert D. induction F as [|c z cs zs E F IH]; intros D.
    + exists []. split; [constructor|cbn; ring].
    + destruct IH as (ys&G&Es); [intros c0 J; apply D; now right|].
      apply c48_penalty in E as (y&Dy&Ey); [|apply D; now left]. exists (y :: ys). split; [constructor; auto|].
      cbn [rsum fold_right map combine fst snd] in *. rewrite Rplus_0_l in *. unfold rsum in Es. rewrite Es. lra.
  - intros (ys&F&->). exists (map (fun cy => c_weight (fst cy) * (snd cy * snd cy)) (combine cs ys)). split; [|now rewrite Rplus_0_l].
    revert D. induction F as [|c y cs ys E F IH]; intros D; [constructor|]. cbn [combine map fst snd]. constructor.
    + apply c48_penalty; [apply D; now left|eauto].
    + apply IH. intros c0 J. apply D. now right.
Qed.

(** With positive weights the total penalty is not negative and vanishes exactly
    when all goals are met. *)
Lemma c48_zero : forall st cs x, (forall c, In c cs -> has_direction st (c_goal c) /\ 0 < c_weight c) ->
  calculate_penalty cs st = Ok x ->
  0 <= x /\ (x = 0 <-> forall c, In c cs -> meets st (c_goal c)).
Proof.
  intros st cs x D E. apply c48_total in E as (ys&F&->); [|intros c I; now apply D].
  induction F as [|c y cs ys Ey F IH]; cbn [combine map rsum fold_right fst snd].
  - split; [lra|]. split; [intros _ c []|auto].
  - destruct IH as [P Z]; [intros c0 J; apply D; now right|]. unfold rsum in P, Z.
    destruct (D c (or_introl eq_refl)) as [Dc Wc]. assert (Y := deviates_nonneg _ _ _ Ey).
    assert (Q : 0 <= c_weight c * (y * y)) by (apply Rmult_le_pos; [lra|nra]). split; [lra|]. split.
    + intros S. assert (y = 0).
      { assert (W : c_weight c * (y * y) = 0) by lra. apply Rmult_integral in W as [W|W]; [lra|].
        apply Rmult_integral in W as [W|W]; exact W. }
      subst y. intros c0 [<-|J]; [now apply c48_no_deviation|]. apply Z; auto. lra.
    + intros M. assert (M0 := M c (or_introl eq_refl)). apply c48_no_deviation in M0; auto.
      assert (y = 0).
      { assert (A : penalty st (mkConstraint (c_goal c) 1) = Ok (1 * (y * y))) by (apply c48_penalty; cbn; eauto).
        assert (B : penalty st (mkConstraint (c_goal c) 1) = Ok (1 * (0 * 0))) by (apply c48_penalty; cbn; eauto).
        rewrite A in B. apply Ok_inj in B. nra. }
      subst y. rewrite (proj2 Z); [ring|]. intros c0 J. apply M. now right.
Qed.

(** A line constraint measures the distance to the nearest point of the line. *)
Lemma c49_line : forall st n a b w p, node_at st n p ->
  exists q, on_line a b q /\ (forall r, on_line a b r -> dist p q <= dist p r)
    /\ penalty st (mkConstraint (LineGoal n a b) w) = Ok (w * (dist p q * dist p q)).
Proof.
  intros st n a b w p Ep. destruct (line_nearest p a b) as [L M]. exists (closest_point_on_line p a b). split; auto. split; auto.
  unfold penalty. cbn [c_goal c_weight]. apply dgetr_Ok in Ep. rewrite Ep. cbn [bind]. now rewrite vector_penalty_R.
Qed.

(** A plane constraint measures the distance to the nearest point of the plane. *)
Lemma c49_plane : forall st n o nrm w p, nrm <> v0 -> node_at st n p ->
  exists q, on_plane o nrm q /\ (forall r, on_plane o nrm r -> dist p q <= dist p r)
    /\ penalty st (mkConstraint (PlaneGoal n o nrm) w) = Ok (w * (dist p q * dist p q)).
Proof.
  intros st n o nrm w p N Ep. destruct (plane_nearest p o nrm N) as [L M]. exists (closest_point_on_plane p o nrm). split; auto. split; auto.
  unfold penalty. cbn [c_goal c_weight]. apply dgetr_Ok in Ep. rewrite Ep. cbn [bind]. now rewrite vector_penalty_R.
Qed.

(** The target on a polyline of two or more points is a point of the polyline and
    no point of the polyline is nearer. *)
Lemma c50_polyline : forall p l, (2 <= length l)%nat ->
  exists q, closest_point_on_polyline p l = Ok q /\ on_polyline l q
    /\ forall r, on_polyline l r -> dist p q <= dist p r.
Proof.
  intros p l L. destruct (closest_point_on_polyline p l) as [q|e] eqn:E.
  - exists q. split; auto. now apply polyline_nearest.
  - exfalso. unfold closest_point_on_polyline in E. destruct l as [|a [|b l]]; cbn in L; [lia|lia|discriminate E].
Qed.

(** The penalty of a polyline constraint is the weighted squared distance to it. *)
Lemma c50_penalty : forall st n l w p, (2 <= length l)%nat -> node_at st n p ->
  exists q, on_polyline l q /\ (forall r, on_polyline l r -> dist p q <= dist p r)
    /\ penalty st (mkConstraint (PolylineGoal n l) w) = Ok (w * (dist p q * dist p q)).
Proof.
  intros st n l w p L Ep. destruct (c50_polyline p l L) as (q&Eq&On&M). exists q. split; auto. split; auto.
  unfold penalty. cbn [c_goal c_weight]. apply dgetr_Ok in Ep. rewrite Ep. cbn [bind]. rewrite Eq. cbn [bind]. now rewrite vector_penalty_R.
Qed.

(** A direction constraint is met exactly by edges parallel to its vector. *)
Lemma c51_parallel : forall st u v t w p q, 0 < w -> t <> v0 -> node_at st u p -> node_at st v q -> p <> q ->
  exists x, penalty st (mkConstraint (DirectionGoal (u, v) t) w) = Ok x /\ (x = 0 <-> parallel (q -v p) t).
Proof.
  intros st u v t w p q W Nt Eu Ev N.
  set (c := mkConstraint (DirectionGoal (u, v) t) w).
  assert (D : has_direction st (c_goal c)).
  { cbn. split; auto. intros p' q' E1 E2. unfold node_at in *. rewrite Eu in E1. rewrite Ev in E2. apply Some_inj in E1, E2. now subst. }
  assert (Ex : exists x, penalty st c = Ok x).
  { unfold penalty. cbn [c c_goal c_weight fst snd]. apply dgetr_Ok in Eu, Ev. rewrite Eu, Ev. cbn [bind]. eauto. }
  destruct Ex as [x E]. exists x. split; auto.
  assert (T : calculate_penalty [c] st = Ok (0 + x)) by (unfold calculate_penalty; cbn [fold_res]; rewrite E; reflexivity).
  apply c48_zero in T as [_ T]; [|intros c' [<-|[]]; auto]. rewrite Rplus_0_l in T. rewrite T. split.
  - intros M. destruct (M c (or_introl eq_refl)) as (p'&q'&E1&E2&Pa). unfold node_at in *. cbn [fst snd] in *.
    rewrite Eu in E1. rewrite Ev in E2. apply Some_inj in E1, E2. now subst.
  - intros Pa c' [<-|[]]. exists p, q. auto.
Qed.

(** Neither the magnitude nor the sense of the vector matters. *)
Lemma c51_scaled : forall st e t w s, s <> 0 ->
  (forall p q, node_at st (fst e) p -> node_at st (snd e) q -> p <> q) -> t <> v0 ->
  penalty st (mkConstraint (DirectionGoal e (s *v t)) w) = penalty st (mkConstraint (DirectionGoal e t) w).
Proof.
  intros st e t w s Ns D Nt. unfold penalty. cbn [c_goal c_weight]. unfold node_at in D.
  destruct (dgetr (s_xyz st) (snd e)) as [q|x] eqn:Eq; cbn [bind]; [|reflexivity].
  destruct (dgetr (s_xyz st) (fst e)) as [p|x] eqn:Ep; cbn [bind]; [|reflexivity].
  apply dgetr_Ok in Ep, Eq. assert (N := D p q Ep Eq).
  assert (Nst : s *v t <> v0) by (intros Z; apply vscale_eq_0 in Z as [Z|Z]; contradiction).
  rewrite !vector_penalty_R, !direction_dist by auto. rewrite !(direction_unitv' t), !(direction_unitv' (s *v t)) by auto.
  destruct (Rtotal_order s 0) as [L|[L|L]]; [|contradiction|].
  - rewrite unitv_neg by auto. rewrite vscale_scale. replace (-1 * -1) with 1 by ring. rewrite vscale_1, Rmin_comm. reflexivity.
  - now rewrite unitv_pos.
Qed.
