(** * Coordinates and lengths as binary64 floats (C04, C40) *)

From Coq Require Import String List ZArith Bool Lia Reals Lra Floats SpecFloat FloatAxioms.
From Verif Require Import Py PyFacts Num Diagram DiagramFacts Topology History HistoryFacts SpecDiagram Equilibrium SpecEquilibrium SpecFloats
  DiagramThms WeldFacts EqThms.
Import ListNotations.
Open Scope Z_scope.

(** ** Rounding *)

Lemma div_half_even_spec n d : 0 <= n -> 0 < d ->
  2 * Z.abs (div_half_even n d * d - n) <= d
  /\ (2 * Z.abs (div_half_even n d * d - n) = d -> Z.even (div_half_even n d) = true).
Proof.
  intros N D. unfold div_half_even. assert (E := Z.div_mod n d ltac:(lia)). assert (B := Z.mod_pos_bound n d D).
  set (q := n / d) in *. set (r := n mod d) in *. clearbody q r. subst n.
  destruct (Z.compare_spec (2 * r) d) as [C|C|C].
  - destruct (Z.even q) eqn:Q.
    + replace (q * d - (d * q + r)) with (- r) by ring. rewrite Z.abs_opp, Z.abs_eq by lia. split; [lia|auto].
    + replace ((q + 1) * d - (d * q + r)) with (d - r) by ring. rewrite Z.abs_eq by lia. split; [lia|].
      intros _. rewrite Z.even_add, Q. reflexivity.
  - replace (q * d - (d * q + r)) with (- r) by ring. rewrite Z.abs_opp, Z.abs_eq by lia. split; lia.
  - replace ((q + 1) * d - (d * q + r)) with (d - r) by ring. rewrite Z.abs_eq by lia. split; lia.
Qed.

Open Scope R_scope.

Lemma powerRZ_neg_pos e : powerRZ 2 (Zneg e) = / IZR (2 ^ Zpos e).
Proof.
  cbn [powerRZ]. f_equal. rewrite <- (positive_nat_Z e). rewrite <- (pow_IZR 2 (Pos.to_nat e)). reflexivity.
Qed.

Lemma powerRZ_pos e : powerRZ 2 (Zpos e) = IZR (2 ^ Zpos e).
Proof.
  cbn [powerRZ]. rewrite <- (positive_nat_Z e). rewrite <- (pow_IZR 2 (Pos.to_nat e)). reflexivity.
Qed.

(** The number that is looked up for a coordinate is the nearest multiple of the last decimal, and the even one of two that are equally near. *)
Lemma c04_rounding_float : forall p (x : float) r, number x = Some r ->
  exists k, nround p x = GFin k /\ Rabs (IZR k - r * 10 ^ p) <= / 2 /\ (Rabs (IZR k - r * 10 ^ p) = / 2 -> Z.even k = true).
Proof.
  intros p x r. cbn [nround F_ops]. unfold number, fround. destruct (Prim2SF x) as [s|s| |s m e]; intros E; try discriminate; injection E as <-.
  - exists 0%Z. split; [reflexivity|]. rewrite Rmult_0_l, Rminus_0_r, Rabs_R0. split; [lra|reflexivity].
  - set (n := (Zpos m * 10 ^ Z.of_nat p)%Z).
    assert (N : IZR (Zpos m) * 10 ^ p = IZR n).
    { unfold n. rewrite mult_IZR. f_equal. rewrite <- pow_IZR. reflexivity. }
    assert (N0 : (0 <= n)%Z) by (unfold n; apply Z.mul_nonneg_nonneg; [lia|apply Z.pow_nonneg; lia]).
    set (a := match e with Zneg e' => div_half_even n (2 ^ Zpos e') | _ => (n * 2 ^ e)%Z end).
    assert (A : Rabs (IZR a - IZR n * powerRZ 2 e) <= / 2 /\ (Rabs (IZR a - IZR n * powerRZ 2 e) = / 2 -> Z.even a = true)).
    { unfold a. destruct e as [|e|e].
      - cbn [powerRZ]. rewrite Z.pow_0_r, Z.mul_1_r, Rmult_1_r, Rminus_diag_eq, Rabs_R0 by reflexivity. split; lra.
      - rewrite powerRZ_pos, mult_IZR, Rminus_diag_eq, Rabs_R0 by reflexivity. split; lra.
      - rewrite powerRZ_neg_pos. set (d := (2 ^ Zpos e)%Z). assert (D : (0 < d)%Z) by (apply Z.pow_pos_nonneg; lia).
        assert (D' : 0 < IZR d) by (apply IZR_lt; exact D).
        destruct (div_half_even_spec n d N0 D) as [H1 H2]. set (q := div_half_even n d) in *.
        assert (Q : Rabs (IZR q - IZR n * / IZR d) = IZR (Z.abs (q * d - n)) * / IZR d).
        { rewrite abs_IZR, minus_IZR, mult_IZR. rewrite <- (Rabs_right (/ IZR d)) at 2.
          - rewrite <- Rabs_mult. f_equal. field. lra.
          - apply Rle_ge, Rlt_le, Rinv_0_lt_compat, D'. }
        rewrite Q. split.
        + apply IZR_le in H1. rewrite mult_IZR in H1. apply Rmult_le_reg_r with (IZR d); [exact D'|].
          rewrite Rmult_assoc, Rinv_l by lra. lra.
        + intros E. apply H2. apply eq_IZR. rewrite mult_IZR. apply Rmult_eq_reg_r with (/ IZR d); [|apply Rinv_neq_0_compat; lra].
          rewrite Rmult_assoc, E. rewrite (Rinv_r (IZR d)) by lra. lra. }
    destruct A as [A1 A2]. destruct s.
    + exists (- a)%Z. split; [reflexivity|]. rewrite opp_IZR.
      replace (- IZR a - -1 * IZR (Zpos m) * powerRZ 2 e * 10 ^ p) with (- (IZR a - IZR n * powerRZ 2 e)) by (rewrite <- N; ring).
      rewrite Rabs_Ropp. split; [exact A1|]. intros E. rewrite Z.even_opp. auto.
    + exists a. split; [reflexivity|].
      replace (1 * IZR (Zpos m) * powerRZ 2 e * 10 ^ p) with (IZR n * powerRZ 2 e) by (rewrite <- N; ring). auto.
Qed.

Lemma nround_agree p (x y : float) : nround p x = nround p y -> agree p x y.
Proof.
  intros E. unfold agree. destruct (number x) as [a|] eqn:X, (number y) as [b|] eqn:Y.
  - destruct (c04_rounding_float p x a X) as (k&Kx&Cx&_). destruct (c04_rounding_float p y b Y) as (k'&Ky&Cy&_).
    rewrite Kx, Ky in E. injection E as <-. assert (P : 0 < 10 ^ p) by (apply pow_lt; lra).
    apply Rmult_le_reg_r with (10 ^ p); [exact P|]. rewrite Rinv_l by lra.
    rewrite <- (Rabs_right (10 ^ p)) at 1 by lra. rewrite <- Rabs_mult.
    unfold Rabs in *. repeat destruct Rcase_abs; lra.
  - exfalso. destruct (c04_rounding_float p x a X) as (k&Kx&_). rewrite Kx in E. cbn [nround F_ops] in E. unfold fround in E. unfold number in Y.
    destruct (Prim2SF y) as [s|[]| |s m e]; discriminate.
  - exfalso. destruct (c04_rounding_float p y b Y) as (k&Ky&_). rewrite Ky in E. cbn [nround F_ops] in E. unfold fround in E. unfold number in X.
    destruct (Prim2SF x) as [s|[]| |s m e]; discriminate.
  - cbn [nround F_ops] in E. unfold fround in E. unfold number in X, Y.
    destruct (Prim2SF x) as [s|[]| |s m e]; try discriminate; destruct (Prim2SF y) as [s'|[]| |s' m' e']; try discriminate; reflexivity.
Qed.

(** Over floats: the node found was registered at coordinates that agree with those of the query to the decimals of the diagram. *)
Lemma c04_lookup_float : forall (ops : list (op float)) p k, Forall valid_op ops ->
  node_key (run empty_diagram ops) (RXyz p) = Some k ->
  exists ops1 ops2 p', ops = (ops1 ++ ops2)%list
    /\ node_coordinates (run empty_diagram ops1) k = Ok p'
    /\ agree (d_tol (run empty_diagram ops)) (vx p') (vx p)
    /\ agree (d_tol (run empty_diagram ops)) (vy p') (vy p)
    /\ agree (d_tol (run empty_diagram ops)) (vz p') (vz p).
Proof.
  intros ops p k V E. destruct (c04_lookup ops p k V E) as (_&ops1&ops2&p'&->&A&B).
  exists ops1, ops2, p'. split; auto. split; auto. unfold rounded in B. injection B as Bx By Bz.
  split; [apply nround_agree; exact Bx|]. split; [apply nround_agree; exact By|]. apply nround_agree; exact Bz.
Qed.

(** ** Signs *)

Lemma fsign_negative (x : float) : fsign x = negative x.
Proof.
  unfold fsign, negative. rewrite !ltb_spec, FloatAxioms.eqb_spec, div_spec.
  change (Prim2SF 0) with (S754_zero false). change (Prim2SF 1) with (S754_finite false 4503599627370496 (-52)).
  destruct (Prim2SF x) as [[]|[]| |[] m e]; reflexivity.
Qed.

Lemma copysign_float (x y : float) :
  Prim2SF (ncopysign x y) = match Prim2SF x with
                            | S754_zero _ => S754_zero (negative y)
                            | S754_infinity _ => S754_infinity (negative y)
                            | S754_nan => S754_nan
                            | S754_finite _ m e => S754_finite (negative y) m e
                            end.
Proof.
  cbn [ncopysign F_ops]. unfold fcopysign. rewrite fsign_negative.
  destruct (negative y); rewrite ?opp_spec, abs_spec; destruct (Prim2SF x); reflexivity.
Qed.

(** Over floats: the length attribute of an edge of the form is the distance of its ends, with the sign of its force; a force of minus zero counts as negative. *)
Lemma c40_lengths_float : forall (d : diagram float) kmax tmax eta verbose form e, reachable d ->
  static_equilibrium d kmax tmax eta verbose = Ok form -> In e (edges form) ->
  exists pu pv x l, node_coordinates form (fst e) = Ok pu /\ node_coordinates form (snd e) = Ok pv
    /\ edge_force form e = Ok x /\ edge_length_2 form e = Ok l
    /\ option_map Rabs (number l) = option_map Rabs (number (distance_point_point pu pv))
    /\ (number l <> None -> negative l = negative x).
Proof.
  intros d kmax tmax eta verbose form e Hr E I.
  destruct (c40_lengths d kmax tmax eta verbose form e Hr E I) as (pu&pv&x&E1&E2&E3&E4).
  exists pu, pv, x. eexists. split; [exact E1|]. split; [exact E2|]. split; [exact E3|]. split; [exact E4|].
  assert (C := copysign_float (distance_point_point pu pv) x). set (l := ncopysign (distance_point_point pu pv) x) in *. clearbody l.
  unfold number, negative at 1. rewrite C. split.
  - destruct (Prim2SF (distance_point_point pu pv)) as [s|s| |s m ex]; try reflexivity. cbn [option_map]. f_equal.
    rewrite !Rabs_mult. f_equal. f_equal. destruct s, (negative x); rewrite ?Rabs_R1; try reflexivity;
      unfold Rabs; repeat destruct Rcase_abs; lra.
  - destruct (Prim2SF (distance_point_point pu pv)); intros N; try reflexivity; exfalso; apply N; reflexivity.
Qed.
