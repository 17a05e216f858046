(** * What is left of C65: not-a-number coordinates over binary64 floats

    The axioms of the standard library that specify the primitive floats
    (FloatAxioms) are used here. *)

From Coq Require Import String List ZArith Bool Lia Floats SpecFloat FloatAxioms.
From Verif Require Import Py PyFacts Num Diagram DiagramFacts Topology History HistoryFacts Equilibrium SpecEquilibrium
  EqFacts FormFacts EqThms.
Import ListNotations.
Open Scope Z_scope.

(** [x != x], as Python's float("nan") and nothing else *)
Definition not_a_number (x : float) : Prop := PrimFloat.eqb x x = false.

Lemma nan_SF x : not_a_number x <-> Prim2SF x = S754_nan.
Proof.
  unfold not_a_number. rewrite FloatAxioms.eqb_spec. destruct (Prim2SF x) as [b|b| |b m e]; cbn; split; try congruence;
    try (destruct b; discriminate); intros E; exfalso; revert E; unfold SFeqb, SFcompare;
    destruct b; rewrite ?Z.compare_refl, ?Pos.compare_cont_refl; try discriminate;
    try (destruct e; rewrite ?Pos.compare_refl, ?Z.compare_refl; cbn; rewrite ?Pos.compare_cont_refl; discriminate).
Qed.

Lemma nan_sub_l x y : not_a_number x -> not_a_number (x - y).
Proof. rewrite !nan_SF, sub_spec. now intros ->. Qed.
Lemma nan_mul x : not_a_number x -> not_a_number (x * x).
Proof. rewrite !nan_SF, mul_spec. now intros ->. Qed.
Lemma nan_add_l x y : not_a_number x -> not_a_number (x + y).
Proof. rewrite !nan_SF, add_spec. now intros ->. Qed.
Lemma nan_add_r x y : not_a_number y -> not_a_number (x + y).
Proof. rewrite !nan_SF, add_spec. intros ->. now destruct (Prim2SF x). Qed.
Lemma nan_sqrt x : not_a_number x -> not_a_number (PrimFloat.sqrt x).
Proof. rewrite !nan_SF, sqrt_spec. now intros ->. Qed.
Lemma nan_ltb x y : not_a_number x -> PrimFloat.ltb x y = false.
Proof. rewrite nan_SF, ltb_spec. now intros ->. Qed.

Definition has_nan (p : vec float) : Prop := not_a_number (vx p) \/ not_a_number (vy p) \/ not_a_number (vz p).

Lemma nan_distance p q : has_nan q -> not_a_number (distance_point_point p q).
Proof.
  intros X. unfold distance_point_point, length_vector, length_vector_sqrd, subtract_vectors. cbn.
  apply nan_sqrt. destruct X as [X|[X|X]].
  - apply nan_add_l, nan_add_l, nan_mul, nan_sub_l, X.
  - apply nan_add_l, nan_add_r, nan_mul, nan_sub_l, X.
  - apply nan_add_r, nan_mul, nan_sub_l, X.
Qed.

Lemma nan_residual last now x : residual_distance last now = Ok x ->
  (exists n p, In (n, p) now /\ has_nan p) -> not_a_number x.
Proof.
  unfold residual_distance. intros E (n&p&I&X).
  assert (G : forall now acc, fold_res (fun acc kp => let* lp := dgetr last (fst kp) in
      Ok (nadd acc (distance_point_point lp (snd kp)))) now acc = Ok x ->
      not_a_number acc \/ In (n, p) now -> not_a_number x).
  { clear E I now. induction now as [|[m q] now IH]; cbn [fold_res fst snd]; intros acc E [Y|Y].
    - now injection E as <-.
    - destruct Y.
    - destruct (dgetr last m) as [lp|]; cbn [bind] in E; [|discriminate]. apply (IH _ E). left. now apply nan_add_l.
    - destruct (dgetr last m) as [lp|]; cbn [bind] in E; [|discriminate]. apply (IH _ E).
      destruct Y as [Y|Y]; [|now right]. injection Y as -> ->. left. now apply nan_add_r, nan_distance. }
  eapply G; eauto.
Qed.

(** C65, what holds: a form with a coordinate that is not a number is only returned
    when all the iterations allowed have been used up, and the displacement of the last
    one was not a number either; a form returned earlier has numbers for coordinates. *)
Lemma c65_exhausted_partial : forall (d : diagram float) kmax tmax eta verbose form n p,
  reachable d -> 2 <= tmax -> static_equilibrium d kmax tmax eta verbose = Ok form ->
  node_coordinates form n = Ok p -> has_nan p ->
  exists ts x, trails_sequences d = Ok ts /\ moves d ts kmax (Z.to_nat tmax - 1) x /\ not_a_number x
    /\ forall s y, (1 <= s)%nat -> Z.of_nat s < tmax -> moves d ts kmax s y -> PrimFloat.ltb y eta = false.
Proof.
  intros d kmax tmax eta verbose form n p R L E Ep X.
  destruct (c36_success d kmax tmax eta verbose form R L E) as (ts&t&x&Ets&T1&T2&M&C&F&(st&A&P)).
  exists ts, x. assert (Nx : not_a_number x).
  { destruct M as (a&b&Ea&Eb&Er). rewrite A in Eb. injection Eb as <-. apply (nan_residual _ _ _ Er).
    assert (I : In n (nodes form)).
    { unfold node_coordinates, node_get, dgetr in Ep. destruct (dget (d_node form) n) eqn:Q; [|discriminate].
      apply dget_In_keys in Q. exact Q. }
    destruct (P n I) as (q&Eq&Cq). rewrite Cq in Ep. injection Ep as ->. exists n, p. split; auto. now apply dget_In. }
  assert (Et : t = (Z.to_nat tmax - 1)%nat).
  { destruct C as [C|[C _]]; [|lia]. cbn in C. rewrite nan_ltb in C; auto. discriminate. }
  subst t. split; auto. split; auto. split; auto. intros s y S1 S2 My.
  destruct (Nat.eq_dec s (Z.to_nat tmax - 1)) as [->|Ne].
  - rewrite (moves_fun _ _ _ _ _ _ My M). now apply nan_ltb.
  - apply (F s y); auto. lia.
Qed.
