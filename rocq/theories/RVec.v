(** * Vectors over the real numbers *)

From Coq Require Import List ZArith Bool Reals Lra Lia Permutation.
From Verif Require Import Py Num.
Import ListNotations.
Open Scope R_scope.

Notation rvec := (vec R).
Notation norm := (@length_vector R R_ops).
Notation dist := (@distance_point_point R R_ops).
Notation dot := (@dot_vectors R R_ops).
Notation unitv := (@normalize_vector R R_ops).
Notation "u +v v" := (@add_vectors R R_ops u v) (at level 50, left associativity).
Notation "u -v v" := (@subtract_vectors R R_ops u v) (at level 50, left associativity).
Notation "s *v v" := (@scale_vector R R_ops v s) (at level 40, left associativity).
Notation v0 := (@vzero R R_ops).

(** Sum of a list of vectors. *)
Definition vsum (l : list rvec) : rvec := fold_right (fun u w => u +v w) v0 l.

(** Cross product (compas.geometry.cross_vectors) *)
Definition cross (u w : rvec) : rvec :=
  V3 (vy u * vz w - vz u * vy w) (vz u * vx w - vx u * vz w) (vx u * vy w - vy u * vx w).

Lemma vec_eq (u w : rvec) : vx u = vx w -> vy u = vy w -> vz u = vz w -> u = w.
Proof. destruct u, w; cbn; congruence. Qed.

Ltac vunf := unfold cross, dot_vectors, length_vector_sqrd, distance_point_point, add_vectors, subtract_vectors, scale_vector, vzero in *;
  cbn [vx vy vz nadd nsub nmul ndiv nopp n0 n1 R_ops] in *.
Ltac vring := apply vec_eq; vunf; ring.

Lemma vadd_comm u w : u +v w = w +v u. Proof. vring. Qed.
Lemma vadd_assoc u w z : u +v (w +v z) = (u +v w) +v z. Proof. vring. Qed.
Lemma vadd_0_l u : v0 +v u = u. Proof. vring. Qed.
Lemma vadd_0_r u : u +v v0 = u. Proof. vring. Qed.
Lemma vscale_0 u : 0 *v u = v0. Proof. vring. Qed.
Lemma vscale_1 u : 1 *v u = u. Proof. vring. Qed.
Lemma vscale_v0 s : s *v v0 = v0. Proof. vring. Qed.
Lemma vscale_scale s t u : s *v (t *v u) = (s * t) *v u. Proof. vring. Qed.
Lemma vscale_add s u w : s *v (u +v w) = s *v u +v s *v w. Proof. vring. Qed.
Lemma vsub_self u : u -v u = v0. Proof. vring. Qed.

Lemma Rltb_spec x y : reflect (x < y) (Rltb x y).
Proof. unfold Rltb. destruct (Rlt_dec x y); constructor; auto. Qed.
Lemma Reqb_spec x y : reflect (x = y) (Reqb x y).
Proof. unfold Reqb. destruct (Req_EM_T x y); constructor; auto. Qed.

(** ** Norm *)

Lemma sqrd_nonneg u : 0 <= @length_vector_sqrd R R_ops u.
Proof. vunf. nra. Qed.

Lemma norm_nonneg u : 0 <= norm u.
Proof. apply sqrt_pos. Qed.

Lemma norm_sq u : norm u * norm u = @length_vector_sqrd R R_ops u.
Proof. apply sqrt_sqrt, sqrd_nonneg. Qed.

Lemma norm_v0 : norm v0 = 0.
Proof.
  unfold length_vector. replace (@length_vector_sqrd R R_ops v0) with 0 by (vunf; ring). apply sqrt_0.
Qed.

Lemma norm_0_inv u : norm u = 0 -> u = v0.
Proof.
  intros E. assert (X := norm_sq u). rewrite E in X. vunf. destruct u as [x y z]; cbn in *.
  assert (x = 0) by nra. assert (y = 0) by nra. assert (z = 0) by nra. subst. reflexivity.
Qed.

Lemma norm_0_iff u : norm u = 0 <-> u = v0.
Proof. split; [apply norm_0_inv|intros ->; apply norm_v0]. Qed.

Lemma norm_pos u : u <> v0 -> 0 < norm u.
Proof. intros N. assert (X := norm_nonneg u). destruct (Req_dec (norm u) 0) as [E|]; [apply norm_0_inv in E; contradiction|lra]. Qed.

Lemma norm_eq_of_sq a b : 0 <= b -> @length_vector_sqrd R R_ops a = b * b -> norm a = b.
Proof. intros P E. unfold length_vector. rewrite E. cbn. apply sqrt_square. auto. Qed.

Lemma norm_scale s u : norm (s *v u) = Rabs s * norm u.
Proof.
  apply norm_eq_of_sq.
  - apply Rmult_le_pos; [apply Rabs_pos|apply norm_nonneg].
  - replace (Rabs s * norm u * (Rabs s * norm u)) with (Rabs s * Rabs s * (norm u * norm u)) by ring.
    rewrite norm_sq, <- Rabs_mult, Rabs_right by nra. vunf. ring.
Qed.

Lemma dist_norm a b : dist a b = norm (b -v a).
Proof. reflexivity. Qed.

Lemma dist_sym a b : dist a b = dist b a.
Proof.
  rewrite !dist_norm. replace (b -v a) with (-1 *v (a -v b)) by vring. rewrite norm_scale.
  replace (Rabs (-1)) with 1 by (unfold Rabs; destruct Rcase_abs; lra). ring.
Qed.

Lemma dist_self a : dist a a = 0.
Proof. rewrite dist_norm, vsub_self. apply norm_v0. Qed.

(** Cauchy-Schwarz and the triangle inequality. *)
Lemma cauchy u w : dot u w <= norm u * norm w.
Proof.
  assert (N := norm_nonneg u). assert (M := norm_nonneg w).
  assert (X : dot u w * dot u w <= (norm u * norm w) * (norm u * norm w)).
  { replace ((norm u * norm w) * (norm u * norm w)) with ((norm u * norm u) * (norm w * norm w)) by ring.
    rewrite !norm_sq. destruct u as [a b c], w as [x y z]. vunf.
    assert (X1 := Rle_0_sqr (a * y - b * x)). assert (X2 := Rle_0_sqr (b * z - c * y)).
    assert (X3 := Rle_0_sqr (a * z - c * x)). unfold Rsqr in *. lra. }
  assert (P : 0 <= norm u * norm w) by now apply Rmult_le_pos.
  destruct (Rle_lt_dec (dot u w) (norm u * norm w)) as [|L]; auto.
  exfalso. assert (norm u * norm w * (norm u * norm w) < dot u w * dot u w); [|lra].
  apply Rmult_le_0_lt_compat; auto.
Qed.

Lemma triangle u w : norm (u +v w) <= norm u + norm w.
Proof.
  assert (N := norm_nonneg u). assert (M := norm_nonneg w). assert (C := cauchy u w).
  assert (S := norm_sq (u +v w)). assert (Su := norm_sq u). assert (Sw := norm_sq w).
  assert (Q : @length_vector_sqrd R R_ops (u +v w)
              = @length_vector_sqrd R R_ops u + 2 * dot u w + @length_vector_sqrd R R_ops w) by (vunf; ring).
  assert (X : norm (u +v w) * norm (u +v w) <= (norm u + norm w) * (norm u + norm w)) by nra.
  assert (P := norm_nonneg (u +v w)).
  destruct (Rle_lt_dec (norm (u +v w)) (norm u + norm w)) as [|L]; auto. exfalso. nra.
Qed.

(** ** Unit vectors *)

Lemma unitv_v0 : unitv v0 = v0.
Proof.
  unfold normalize_vector. unfold ntruthy. cbn [neqb R_ops n0].
  destruct (Reqb_spec (norm v0) 0) as [|N]; cbn; auto. destruct N. apply norm_v0.
Qed.

Lemma unitv_scale u : u <> v0 -> unitv u = (/ norm u) *v u.
Proof.
  intros N. unfold normalize_vector, ntruthy. cbn [neqb R_ops n0].
  destruct (Reqb_spec (norm u) 0) as [E|]; [apply norm_0_inv in E; contradiction|]. cbn [negb].
  apply vec_eq; cbn; unfold Rdiv; ring.
Qed.

Lemma vec_dec (u : rvec) : u = v0 \/ u <> v0.
Proof. destruct (Req_dec (norm u) 0) as [E|E]; [left; now apply norm_0_inv|right; intros ->; now rewrite norm_v0 in E]. Qed.

Lemma norm_unitv u : u <> v0 -> norm (unitv u) = 1.
Proof.
  intros N. rewrite unitv_scale by auto. rewrite norm_scale. assert (P := norm_pos u N).
  rewrite Rabs_right by (left; now apply Rinv_0_lt_compat). field. lra.
Qed.

Lemma norm_unitv_le u : norm (unitv u) <= 1.
Proof. destruct (vec_dec u) as [->|N]; [rewrite unitv_v0, norm_v0; lra|rewrite norm_unitv by auto; lra]. Qed.

Lemma norm_times_unitv u : norm u *v unitv u = u.
Proof.
  destruct (vec_dec u) as [->|N]; [now rewrite unitv_v0, vscale_v0|].
  rewrite unitv_scale by auto. rewrite vscale_scale. assert (P := norm_pos u N).
  replace (norm u * / norm u) with 1 by (field; lra). apply vscale_1.
Qed.

Lemma vscale_eq_0 s u : s *v u = v0 -> s = 0 \/ u = v0.
Proof.
  intros E. destruct (Req_dec s 0) as [|Ns]; auto. right.
  replace u with (/ s *v (s *v u)).
  - rewrite E. apply vscale_v0.
  - rewrite vscale_scale. replace (/ s * s) with 1 by (field; auto). apply vscale_1.
Qed.

Lemma unitv_pos s u : 0 < s -> unitv (s *v u) = unitv u.
Proof.
  intros P. destruct (vec_dec u) as [->|N]; [now rewrite vscale_v0|].
  assert (N' : s *v u <> v0) by (intros E; apply vscale_eq_0 in E as [|]; [lra|auto]).
  rewrite !unitv_scale by auto. rewrite norm_scale, vscale_scale. rewrite Rabs_right by lra.
  assert (Q := norm_pos u N). f_equal. field. lra.
Qed.

Lemma unitv_opp u : unitv (-1 *v u) = -1 *v unitv u.
Proof.
  destruct (vec_dec u) as [->|N]; [now rewrite vscale_v0, unitv_v0, vscale_v0|].
  assert (N' : -1 *v u <> v0) by (intros E; apply vscale_eq_0 in E as [|]; [lra|auto]).
  rewrite !unitv_scale by auto. rewrite norm_scale, !vscale_scale.
  replace (Rabs (-1)) with 1 by (unfold Rabs; destruct Rcase_abs; lra).
  f_equal. assert (Q := norm_pos u N). field. lra.
Qed.

Lemma unitv_neg s u : s < 0 -> unitv (s *v u) = -1 *v unitv u.
Proof.
  intros L. replace (s *v u) with ((- s) *v (-1 *v u)) by (rewrite vscale_scale; f_equal; ring).
  rewrite unitv_pos by lra. apply unitv_opp.
Qed.

Lemma unitv_unitv u : unitv (unitv u) = unitv u.
Proof.
  destruct (vec_dec u) as [->|N]; [now rewrite !unitv_v0|]. rewrite (unitv_scale u) at 1 by auto.
  apply unitv_pos. apply Rinv_0_lt_compat. now apply norm_pos.
Qed.

Lemma unitv_sym a b : unitv (a -v b) = -1 *v unitv (b -v a).
Proof. rewrite <- unitv_opp. f_equal. vring. Qed.

(** Unit vectors of nearby vectors are close. *)
Lemma unitv_close a b : a <> v0 -> norm (unitv a -v unitv b) <= 2 * norm (a -v b) / norm a.
Proof.
  intros N. assert (P := norm_pos a N).
  apply Rmult_le_reg_l with (norm a); auto.
  replace (norm a * (2 * norm (a -v b) / norm a)) with (2 * norm (a -v b)) by (field; lra).
  replace (norm a * norm (unitv a -v unitv b)) with (norm (norm a *v (unitv a -v unitv b))).
  2:{ rewrite norm_scale. rewrite Rabs_right by lra. ring. }
  destruct (vec_dec b) as [->|Nb].
  - rewrite unitv_v0. replace (norm a *v (unitv a -v v0)) with (norm a *v unitv a) by vring.
    rewrite norm_times_unitv. replace (a -v v0) with a by vring. lra.
  - replace (norm a *v (unitv a -v unitv b)) with ((a -v b) +v (norm b - norm a) *v unitv b).
    2:{ replace (norm a *v (unitv a -v unitv b)) with (norm a *v unitv a -v norm a *v unitv b) by vring.
        rewrite norm_times_unitv.
        replace ((norm b - norm a) *v unitv b) with (norm b *v unitv b -v norm a *v unitv b) by vring.
        rewrite norm_times_unitv. vring. }
    eapply Rle_trans; [apply triangle|]. rewrite norm_scale, norm_unitv by auto.
    assert (Rabs (norm b - norm a) <= norm (a -v b)); [|lra].
    assert (T1 := triangle (a -v b) b). replace ((a -v b) +v b) with a in T1 by vring.
    assert (T2 := triangle (b -v a) a). replace ((b -v a) +v a) with b in T2 by vring.
    assert (E : norm (b -v a) = norm (a -v b)) by (rewrite <- !dist_norm; apply dist_sym).
    unfold Rabs. destruct Rcase_abs; lra.
Qed.

(** ** Sums *)

Lemma vsum_app l1 l2 : vsum (l1 ++ l2) = vsum l1 +v vsum l2.
Proof.
  induction l1 as [|u l1 IH]; cbn [app vsum fold_right]; [now rewrite vadd_0_l|].
  fold (vsum (l1 ++ l2)). fold (vsum l1). rewrite IH. apply vadd_assoc.
Qed.

Lemma vsum_cons u l : vsum (u :: l) = u +v vsum l.
Proof. reflexivity. Qed.

Lemma vsum_perm l1 l2 : Permutation l1 l2 -> vsum l1 = vsum l2.
Proof.
  induction 1 as [|u l1 l2 P IH|u w l|l1 l2 l3 P1 IH1 P2 IH2]; auto.
  - now rewrite !vsum_cons, IH.
  - rewrite !vsum_cons, !vadd_assoc. now rewrite (vadd_comm u w).
  - congruence.
Qed.

Lemma fold_left_vsum {A} (f : A -> rvec) l : forall u, fold_left (fun r a => r +v f a) l u = u +v vsum (map f l).
Proof.
  induction l as [|a l IH]; intros u; cbn [fold_left map]; [cbn; now rewrite vadd_0_r|].
  rewrite IH, vsum_cons. now rewrite vadd_assoc.
Qed.

Lemma vsum_map_add {A} (f g : A -> rvec) l : vsum (map (fun a => f a +v g a) l) = vsum (map f l) +v vsum (map g l).
Proof.
  induction l as [|a l IH]; cbn [map]; [cbn; now rewrite vadd_0_l|]. rewrite !vsum_cons, IH. vring.
Qed.

Lemma vsum_map_0 {A} (f : A -> rvec) l : (forall a, In a l -> f a = v0) -> vsum (map f l) = v0.
Proof.
  induction l as [|a l IH]; cbn [map]; intros F; auto. rewrite vsum_cons, IH, F; [apply vadd_0_l|now left|].
  intros x I. apply F. now right.
Qed.

Lemma vsum_map_scale {A} (f : A -> rvec) s l : vsum (map (fun a => s *v f a) l) = s *v vsum (map f l).
Proof.
  induction l as [|a l IH]; cbn [map]; [cbn; now rewrite vscale_v0|]. rewrite !vsum_cons, IH. vring.
Qed.

Lemma norm_vsum {A} (f : A -> rvec) (b : A -> R) l : (forall a, In a l -> norm (f a) <= b a) ->
  norm (vsum (map f l)) <= fold_right Rplus 0 (map b l).
Proof.
  induction l as [|a l IH]; cbn [map fold_right]; intros F; [change (norm v0 <= 0); rewrite norm_v0; lra|].
  rewrite vsum_cons. eapply Rle_trans; [apply triangle|].
  apply Rplus_le_compat; [apply F; now left|apply IH; intros x I; apply F; now right].
Qed.

(** Exchange of two finite sums. *)
Lemma vsum_swap {A B} (f : A -> B -> rvec) l1 l2 :
  vsum (map (fun a => vsum (map (f a) l2)) l1) = vsum (map (fun b => vsum (map (fun a => f a b) l1)) l2).
Proof.
  induction l1 as [|a l1 IH]; cbn [map].
  - symmetry. apply vsum_map_0. intros; reflexivity.
  - rewrite vsum_cons, IH, <- vsum_map_add. f_equal. 
Qed.

Lemma vsum_filter {A} (p : A -> bool) (f : A -> rvec) l :
  vsum (map f (filter p l)) = vsum (map (fun a => if p a then f a else v0) l).
Proof.
  induction l as [|a l IH]; cbn [map filter]; auto. rewrite vsum_cons, <- IH.
  destruct (p a); cbn [map]; [reflexivity|now rewrite vadd_0_l].
Qed.

(** A sum with a single non-zero term. *)
Lemma vsum_single {A} (f : A -> rvec) l a : NoDup l -> In a l ->
  (forall b, In b l -> b <> a -> f b = v0) -> vsum (map f l) = f a.
Proof.
  induction l as [|x l IH]; intros N I Z; [contradiction|]. inversion N as [|? ? Hx N']; subst.
  cbn [map]. rewrite vsum_cons. destruct I as [->|I].
  - rewrite vsum_map_0; [apply vadd_0_r|]. intros b Ib. apply Z; [now right|]. intros ->. auto.
  - rewrite IH; auto.
    + rewrite Z; [apply vadd_0_l|now left|intros ->; auto].
    + intros b Ib. apply Z. now right.
Qed.

(** ** copysign over the reals *)
Lemma ncopysign_R (x y : R) : ncopysign x y = if Rlt_dec y 0 then - Rabs x else Rabs x.
Proof. reflexivity. Qed.
