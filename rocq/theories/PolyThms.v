(** * The distance to a polyline has derivatives where the nearest point is the only one *)

From Coq Require Import List ZArith Bool Reals Lra Lia Psatz.
From Verif Require Import Py PyFacts Num Diagram Equilibrium RVec SpecStatics Constraints SpecConstraints ConFacts ConThms SpecSmooth SpecGradient.
Import ListNotations.
Open Scope R_scope.

Lemma dist_triangle a b c : dist a c <= dist a b + dist b c.
Proof. rewrite !dist_norm. replace (c -v a) with ((b -v a) +v (c -v b)) by vring. apply triangle. Qed.

Lemma segment_middle a b q r : on_segment a b q -> on_segment a b r -> on_segment a b ((/ 2) *v (q +v r)).
Proof.
  intros (t&Ht&->) (u&Hu&->). exists ((t + u) / 2). split; [lra|]. apply vec_eq; vunf; field.
Qed.

(** The nearest point of a segment moves continuously with the point. *)
Lemma segment_close p p' a b : let q := closest_point_on_segment p a b in let q' := closest_point_on_segment p' a b in
  dist q q' * dist q q' <= 8 * dist p p' * (dist p q + dist p p').
Proof.
  cbv zeta. destruct (segment_nearest p a b) as [S N]. destruct (segment_nearest p' a b) as [S' N'].
  set (q := closest_point_on_segment p a b) in *. set (q' := closest_point_on_segment p' a b) in *.
  assert (M := N _ (segment_middle a b q q' S S')). set (m := (/ 2) *v (q +v q')) in *.
  assert (I : dist p m * dist p m = / 2 * (dist p q * dist p q) + / 2 * (dist p q' * dist p q') - / 4 * (dist q q' * dist q q')).
  { rewrite !dist_sq. unfold m, distance_point_point_sqrd. vunf. field. }
  assert (T1 := dist_triangle p p' q'). assert (T2 := N' q S). assert (T3 := dist_triangle p' p q). rewrite (dist_sym p' p) in T3.
  assert (D1 := dist_nonneg p q). assert (D2 := dist_nonneg p m). assert (D3 := dist_nonneg p q'). assert (D4 := dist_nonneg p p').
  assert (B : dist p q' <= dist p q + 2 * dist p p') by lra.
  assert (B1 : dist p q * dist p q <= dist p m * dist p m) by (apply Rmult_le_compat; lra).
  assert (B2 : dist p q' * dist p q' <= (dist p q + 2 * dist p p') * (dist p q + 2 * dist p p')) by (apply Rmult_le_compat; lra).
  nra.
Qed.

Lemma segment_continuous p a b e : 0 < e -> exists eta, 0 < eta /\ forall p', dist p p' < eta ->
  dist (closest_point_on_segment p a b) (closest_point_on_segment p' a b) < e.
Proof.
  intros Pe. set (q := closest_point_on_segment p a b). assert (D := dist_nonneg p q).
  set (k := e * e / (8 * (dist p q + 1))). assert (Pk : 0 < k).
  { unfold k. apply Rdiv_lt_0_compat; [apply Rmult_lt_0_compat; lra|lra]. }
  exists (Rmin 1 k). split; [apply Rmin_pos; lra|]. intros p' L. assert (M1 := Rmin_l 1 k). assert (M2 := Rmin_r 1 k).
  assert (S := segment_close p p' a b). cbv zeta in S. fold q in S. set (q' := closest_point_on_segment p' a b) in *.
  assert (D' := dist_nonneg p p'). assert (Dq := dist_nonneg q q').
  destruct (Rlt_or_le (dist q q') e) as [Y|Y]; [exact Y|]. exfalso.
  assert (X : e * e <= dist q q' * dist q q') by (apply Rmult_le_compat; lra).
  assert (Z : dist p p' * (8 * (dist p q + 1)) < e * e).
  { apply (Rlt_le_trans _ (k * (8 * (dist p q + 1)))); [apply Rmult_lt_compat_r; lra|]. unfold k. right. field. lra. }
  nra.
Qed.

Definition foot (l : list rvec) (p : rvec) : rvec := value v0 (closest_point_on_polyline p l).

Lemma foot_Ok l p : (2 <= length l)%nat -> closest_point_on_polyline p l = Ok (foot l p).
Proof. intros L. unfold foot. destruct (c50_polyline p l L) as (q&->&_). reflexivity. Qed.

Lemma foot_nearest l p : (2 <= length l)%nat -> on_polyline l (foot l p) /\ forall r, on_polyline l r -> dist p (foot l p) <= dist p r.
Proof. intros L. apply polyline_nearest. now apply foot_Ok. Qed.

Lemma foot_segment l p : (2 <= length l)%nat -> exists a b, In (a, b) (pairwise l) /\ foot l p = closest_point_on_segment p a b.
Proof.
  intros L. assert (E := foot_Ok l p L). unfold closest_point_on_polyline in E.
  destruct (map _ (pairwise l)) as [|q0 cloud] eqn:Q; [discriminate E|]. apply Ok_inj in E.
  destruct (nearest_from_spec p cloud q0) as [I _]. rewrite E, <- Q in I. apply in_map_iff in I as ((a&b)&F&I). exists a, b. auto.
Qed.

Lemma segment_of_polyline l a b q : In (a, b) (pairwise l) -> on_segment a b q -> on_polyline l q.
Proof. intros I S. apply pairwise_In in I as (l1&l2&->). now exists l1, a, b, l2. Qed.

(** The nearest point of the polyline moves continuously where it is the only one. *)
Lemma foot_continuous l p e : (2 <= length l)%nat -> one_nearest l p -> 0 < e ->
  exists eta, 0 < eta /\ forall p', dist p p' < eta -> dist (foot l p) (foot l p') < e.
Proof.
  intros L U Pe. destruct (foot_nearest l p L) as [O N].
  assert (Y : forall segs, (forall s, In s segs -> In s (pairwise l)) -> exists eta, 0 < eta /\ forall p', dist p p' < eta ->
    forall a b, In (a, b) segs -> foot l p' = closest_point_on_segment p' a b -> dist (foot l p) (foot l p') < e).
  { induction segs as [|[a b] segs IH]; intros Sub; [exists 1; split; [lra|intros ? _ ? ? []]|].
    destruct (IH (fun s I => Sub s (or_intror I))) as (eta&Pt&H).
    assert (I := Sub (a, b) (or_introl eq_refl)). destruct (segment_nearest p a b) as [S NS].
    set (q := closest_point_on_segment p a b) in *. assert (Oq := segment_of_polyline l a b q I S). assert (Lq := N q Oq).
    assert (K : exists k, 0 < k /\ forall p', dist p p' < k -> foot l p' = closest_point_on_segment p' a b -> dist (foot l p) (foot l p') < e).
    { destruct (Rle_lt_or_eq_dec _ _ Lq) as [G|G].
      - exists ((dist p q - dist p (foot l p)) / 2). split; [lra|]. intros p' Lp Ef. exfalso.
        destruct (foot_nearest l p' L) as [O' N']. assert (A1 := N' _ O). destruct (segment_nearest p' a b) as [S' _]. rewrite <- Ef in S'.
        assert (A2 := NS _ S'). assert (A3 := dist_triangle p p' (foot l p')). assert (A4 := dist_triangle p' p (foot l p)).
        rewrite (dist_sym p' p) in A4. lra.
      - assert (Eq : foot l p = q). { apply U; auto. intros z Hz. rewrite <- G. now apply N. }
        destruct (segment_continuous p a b e Pe) as (k&Pk&Hk). exists k. split; [exact Pk|]. intros p' Lp Ef. rewrite Ef, Eq. now apply Hk. }
    destruct K as (k&Pk&Hk). exists (Rmin eta k). split; [now apply Rmin_pos|]. intros p' Lp. assert (M1 := Rmin_l eta k). assert (M2 := Rmin_r eta k).
    intros a' b' [J|J] Ef; [injection J as <- <-; apply Hk; [lra|exact Ef]|]. apply (H p') with (a := a') (b := b'); auto. lra. }
  destruct (Y (pairwise l) (fun _ I => I)) as (eta&Pt&H). exists eta. split; [exact Pt|]. intros p' Lp.
  destruct (foot_segment l p' L) as (a&b&I&Ef). now apply (H p' Lp a b).
Qed.

Lemma norm_le_sum (u : rvec) : norm u <= Rabs (vx u) + Rabs (vy u) + Rabs (vz u).
Proof.
  assert (A := Rabs_pos (vx u)). assert (B := Rabs_pos (vy u)). assert (D := Rabs_pos (vz u)).
  assert (N := norm_nonneg u). assert (S := norm_sq u).
  assert (Q : @length_vector_sqrd R R_ops u = Rabs (vx u) * Rabs (vx u) + Rabs (vy u) * Rabs (vy u) + Rabs (vz u) * Rabs (vz u)).
  { rewrite <- !Rabs_mult. rewrite !(Rabs_pos_eq (_ * _)) by nra. vunf. ring. }
  destruct (Rle_or_lt (norm u) (Rabs (vx u) + Rabs (vy u) + Rabs (vz u))) as [Y|Y]; [exact Y|]. exfalso. nra.
Qed.

Lemma bounded_quotient g s : has_derivative g s -> exists k, 0 < k /\ exists delta, 0 < delta /\
  forall h, h <> 0 -> Rabs h < delta -> Rabs (g (s + h) - g s) <= k * Rabs h.
Proof.
  intros [l H]. destruct (H 1 Rlt_0_1) as [b Hb]. exists (Rabs l + 1). split; [assert (A := Rabs_pos l); lra|].
  exists b. split; [apply cond_pos|]. intros h Nh Lh. specialize (Hb h Nh Lh).
  replace (g (s + h) - g s) with ((g (s + h) - g s) / h * h) by (field; exact Nh). rewrite Rabs_mult.
  apply Rmult_le_compat_r; [apply Rabs_pos|]. set (z := (g (s + h) - g s) / h) in *. replace z with ((z - l) + l) by ring.
  eapply Rle_trans; [apply Rabs_triang|]. lra.
Qed.

Lemma bounded_move p s : has_derivative_v p s -> exists k, 0 < k /\ exists delta, 0 < delta /\
  forall h, h <> 0 -> Rabs h < delta -> dist (p s) (p (s + h)) <= k * Rabs h.
Proof.
  intros (A&B&D). destruct (bounded_quotient _ _ A) as (k1&P1&d1&Q1&H1). destruct (bounded_quotient _ _ B) as (k2&P2&d2&Q2&H2).
  destruct (bounded_quotient _ _ D) as (k3&P3&d3&Q3&H3). exists (k1 + k2 + k3). split; [lra|].
  exists (Rmin d1 (Rmin d2 d3)). split; [repeat apply Rmin_pos; assumption|]. intros h Nh Lh.
  assert (M1 := Rmin_l d1 (Rmin d2 d3)). assert (M2 := Rmin_r d1 (Rmin d2 d3)). assert (M3 := Rmin_l d2 d3). assert (M4 := Rmin_r d2 d3).
  specialize (H1 h Nh ltac:(lra)). specialize (H2 h Nh ltac:(lra)). specialize (H3 h Nh ltac:(lra)).
  rewrite dist_norm. eapply Rle_trans; [apply norm_le_sum|]. unfold subtract_vectors. cbn [vx vy vz nsub R_ops]. lra.
Qed.

Lemma polyline_derivative l p s : (2 <= length l)%nat -> has_derivative_v p s -> one_nearest l (p s) ->
  has_derivative (fun t => sqrd (p t -v foot l (p s))) s -> has_derivative (fun t => sqrd (p t -v foot l (p t))) s.
Proof.
  intros L V U [d Hd]. exists d. intros e Pe. destruct (bounded_move p s V) as (k&Pk&dk&Qk&Hk).
  set (e' := e / (4 * k)). assert (Pe' : 0 < e') by (apply Rdiv_lt_0_compat; lra).
  destruct (foot_continuous l (p s) e' L U Pe') as (eta&Pt&Ht).
  destruct (Hd (e / 2) ltac:(lra)) as [b Hb].
  set (m := Rmin b (Rmin dk (eta / k))). assert (Pm : 0 < m).
  { repeat apply Rmin_pos; [apply cond_pos|exact Qk|now apply Rdiv_lt_0_compat]. }
  exists (mkposreal m Pm). cbn [pos]. intros h Nh Lh. unfold m in Lh.
  assert (M1 := Rmin_l b (Rmin dk (eta / k))). assert (M2 := Rmin_r b (Rmin dk (eta / k))).
  assert (M3 := Rmin_l dk (eta / k)). assert (M4 := Rmin_r dk (eta / k)).
  specialize (Hb h Nh ltac:(lra)). specialize (Hk h Nh ltac:(lra)).
  assert (Dh : dist (p s) (p (s + h)) < eta).
  { eapply Rle_lt_trans; [exact Hk|]. apply (Rlt_le_trans _ (k * (eta / k))); [apply Rmult_lt_compat_l; lra|]. right. field. lra. }
  specialize (Ht _ Dh). clear Hd. revert Hb Hk Ht. set (u := p s). set (u' := p (s + h)). set (q := foot l u). set (q' := foot l u').
  intros Hb Hk Ht.
  assert (S : forall a c : rvec, sqrd (a -v c) = dist a c * dist a c).
  { intros a c. rewrite dist_sq. unfold distance_point_point_sqrd. vunf. ring. }
  destruct (foot_nearest l u L) as [O N]. destruct (foot_nearest l u' L) as [O' N']. fold q in O, N. fold q' in O', N'.
  (* from above *)
  assert (Up : sqrd (u' -v q') <= sqrd (u' -v q)).
  { rewrite !S. apply Rmult_le_compat; try apply dist_nonneg; now apply N'. }
  (* from below *)
  assert (Lo : sqrd (u -v q) <= sqrd (u -v q')).
  { rewrite !S. apply Rmult_le_compat; try apply dist_nonneg; now apply N. }
  assert (Id : sqrd (u' -v q') - sqrd (u -v q') = sqrd (u' -v q) - sqrd (u -v q) - 2 * dot (u' -v u) (q' -v q)) by (vunf; ring).
  assert (Ca := cauchy (u' -v u) (q' -v q)). rewrite <- (dist_norm u u'), <- (dist_norm q q') in Ca.
  assert (Bd : Rabs ((sqrd (u' -v q') - sqrd (u -v q)) - (sqrd (u' -v q) - sqrd (u -v q))) <= 2 * (k * Rabs h * e')).
  { assert (D1 := dist_nonneg u u'). assert (D2 := dist_nonneg q q').
    assert (X : dist u u' * dist q q' <= k * Rabs h * e') by (apply Rmult_le_compat; lra). apply Rabs_le. split; lra. }
  replace ((sqrd (u' -v q') - sqrd (u -v q)) / h - d)
    with (((sqrd (u' -v q') - sqrd (u -v q)) - (sqrd (u' -v q) - sqrd (u -v q))) / h + ((sqrd (u' -v q) - sqrd (u -v q)) / h - d)) by (field; exact Nh).
  eapply Rle_lt_trans; [apply Rabs_triang|]. assert (Ph := Rabs_pos_lt h Nh).
  assert (Y : Rabs (((sqrd (u' -v q') - sqrd (u -v q)) - (sqrd (u' -v q) - sqrd (u -v q))) / h) <= e / 2).
  { unfold Rdiv. rewrite Rabs_mult, (Rabs_inv h). apply (Rmult_le_reg_r (Rabs h)); [exact Ph|]. rewrite Rmult_assoc, Rinv_l, Rmult_1_r by lra.
    eapply Rle_trans; [exact Bd|]. unfold e'. right. field. lra. }
  lra.
Qed.

Lemma one_nearest_on l p : on_polyline l p -> one_nearest l p.
Proof.
  intros O q r _ _ Nq Nr. specialize (Nq p O). specialize (Nr p O). rewrite dist_self in Nq, Nr.
  assert (A := dist_nonneg p q). assert (B := dist_nonneg p r).
  assert (Q : p = q) by (apply dist_0; lra). assert (Q' : p = r) by (apply dist_0; lra). congruence.
Qed.
