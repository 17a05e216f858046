(** * A concrete instance for virtual work *)

From Coq Require Import String List ZArith Bool Lia Reals Lra.
From Verif Require Import Py PyFacts Num Diagram Topology Equilibrium History HistoryFacts SpecDiagram SpecTopology
  SpecEquilibrium SpecStatics RVec EqThms StaticsFacts StaticsThms SpecSections SectionThms Witness WitnessEq.
Import ListNotations.
Open Scope Z_scope.

(** An edge with a length is stretched by the displacement that is its direction. *)
Lemma stretch (f : diagram R) e : (0 < span f e)%R -> fst e <> snd e ->
  exists w, elongation f w e <> 0%R.
Proof.
  intros L Ne. set (D := direction (position f (snd e) -v position f (fst e))).
  exists (fun n => if n =? snd e then D else v0). unfold elongation. rewrite Z.eqb_refl.
  destruct (Z.eqb_spec (fst e) (snd e)); [congruence|]. fold D.
  assert (Q : norm D = 1%R).
  { unfold D. rewrite direction_unitv. apply norm_unitv. intros Z. unfold span in L. rewrite magnitude_norm, Z, norm_v0 in L. lra. }
  assert (X : dot D (D -v v0) = (norm D * norm D)%R) by (rewrite norm_sq; vunf; ring).
  rewrite X, Q. lra.
Qed.

(** A force acts along an edge only if it has a length. *)
Lemma pull_span (f : diagram R) u v : pull f u (u, v) <> v0 -> (0 < span f (u, v))%R.
Proof.
  intros P. unfold span. rewrite magnitude_norm. apply norm_pos. intros Z. apply P. unfold pull, far_end. cbn [fst snd] in *.
  rewrite Z.eqb_refl, Z, direction_unitv, unitv_v0. apply vscale_v0.
Qed.

Lemma rchain_stretch form : static_equilibrium rchain None 100 (/ 1000000)%R false = Ok form ->
  Rlt 0%R (span form (0, 1)) /\ exists w, elongation form w (0, 1) <> 0%R.
Proof.
  intros E.
  assert (B := c31_direct_equilibrium _ _ _ _ _ rchain_reachable rchain_ready rchain_direct rchain_nonzero E).
  destruct (c37_frame _ _ _ _ _ _ rchain_reachable E) as (Nf&Ef&_&_&Lf&_).
  destruct (c37_inputs _ _ _ _ _ rchain_reachable rchain_ready E) as (_&_&Rf).
  assert (N : nodes rchain = [0; 1; 2; 3]) by (lazy; reflexivity).
  assert (Es : edges rchain = [(0, 1); (1, 2); (2, 3)]) by (lazy; reflexivity).
  assert (I0 : incident form 0 = [(0, 1)]) by (unfold incident; rewrite Ef, Es; reflexivity).
  assert (L0 : load form 0 = V3 (IZR (-1)) (IZR 0) (IZR 0)) by (unfold load; rewrite Lf; lazy; reflexivity).
  assert (R0 : reaction form 0 = v0) by (unfold reaction; rewrite Rf; [reflexivity|rewrite N; left; reflexivity|lazy; reflexivity]).
  assert (B0 : unbalanced form 0 = v0) by (apply B; rewrite Nf, N; left; reflexivity).
  unfold unbalanced in B0. rewrite I0, L0, R0 in B0. cbn [map] in B0. rewrite vsum_cons in B0.
  assert (L : Rlt 0%R (span form (0, 1))).
  { apply pull_span. intros P. rewrite P in B0. apply (f_equal vx) in B0. cbn in B0. lra. }
  split; [exact L|]. apply stretch; [exact L|]. cbn. discriminate.
Qed.
