(** * Forms that change smoothly, and forms that jump *)

From Coq Require Import String List ZArith Bool Lia Permutation Reals Lra.
From Verif Require Import Py PyFacts Num Diagram DiagramFacts Topology Equilibrium History HistoryFacts Fixtures SpecDiagram SpecTopology
  TopologyFacts EqFacts SpecEquilibrium SpecStatics RVec StaticsFacts EqThms ReadyThms StaticsThms SpecUnique UniqueThms SpecSmooth SmoothThms
  Witness WitnessEq WitnessUnique.
Import ListNotations.
Open Scope Z_scope.

(** ** The tension chain, pulled aside *)

(** The load on the first node of the chain, with a component across it *)
Definition aside (x : R) : op R := OpAddLoad (RKey 0) (V3 (-1) x 0)%R.
Definition chain_aside (x : R) : diagram R := fst (call (aside x) rchain).

Lemma chain_aside_0 : chain_aside 0%R = rchain.
Proof. vm_compute. reflexivity. Qed.
Lemma chain_aside_reachable x : reachable (chain_aside x).
Proof. unfold chain_aside, rchain. rewrite <- rmade_snoc. made_reachable. Qed.
Lemma chain_aside_ready x : ready (chain_aside x).
Proof. exact (c61_ready_kept rchain (aside x) rchain_reachable rchain_ready I). Qed.
Lemma chain_aside_direct x : direct_only (chain_aside x).
Proof.
  assert (E : deviation_edges (chain_aside x) = []) by (lazy; reflexivity).
  intros u v I. rewrite E in I. destruct I.
Qed.
Lemma chain_aside_layout x : same_layout rchain (chain_aside x).
Proof.
  assert (N : nodes rchain = [0; 1; 2; 3]) by (lazy; reflexivity).
  assert (Tr1 : trail_edges rchain = [(0, 1); (1, 2); (2, 3)]) by (lazy; reflexivity).
  constructor; [lazy; reflexivity|lazy; reflexivity|lazy; reflexivity|lazy; reflexivity|lazy; reflexivity| | |].
  - intros n I. rewrite N in I. destruct I as [<-|[<-|[<-|[<-|[]]]]]; lazy; reflexivity.
  - intros n I. rewrite N in I. destruct I as [<-|[<-|[<-|[<-|[]]]]]; lazy; reflexivity.
  - intros e I. rewrite Tr1 in I.
    assert (E : edge_plane (chain_aside x) e = edge_plane rchain e) by (destruct I as [<-|[<-|[<-|[]]]]; lazy; reflexivity).
    now rewrite E.
Qed.

(** The form of the chain *)
Definition form_of (d : diagram R) : diagram R := value d (static_equilibrium d None 100 (/ 1000000)%R false).
Lemma form_of_Ok d : reachable d -> ready d -> direct_only d -> static_equilibrium d None 100 (/ 1000000)%R false = Ok (form_of d).
Proof.
  intros H R Di. destruct (c35_success d None 100 (/ 1000000)%R false H R Di I ltac:(lia) ltac:(lra) ltac:(discriminate)) as (f&E&_).
  unfold form_of. rewrite E. reflexivity.
Qed.

Lemma chain_as_written : same_structure rchain hand_chain (form_of rchain).
Proof.
  apply (c94_only rchain 100 (/ 1000000)%R false (form_of rchain) hand_chain rchain_reachable rchain_ready rchain_direct rchain_nonzero).
  - apply form_of_Ok; [apply rchain_reachable|apply rchain_ready|apply rchain_direct].
  - apply hand_structure.
  - apply hand_carrying.
Qed.

Lemma chain_carrying : carrying rchain (form_of rchain).
Proof.
  intros e I. assert (Tr1 : trail_edges rchain = edges rchain) by (lazy; reflexivity).
  assert (J : In e (edges rchain)) by (rewrite <- Tr1; exact I). assert (K := hand_carrying e I).
  rewrite (proj2 chain_as_written e J) in K. exact K.
Qed.

Lemma chain_definite : definite rchain (form_of rchain).
Proof.
  assert (N : nodes rchain = [0; 1; 2; 3]) by (lazy; reflexivity).
  destruct hand_positions as (P0&P1&P2&P3).
  assert (Q : forall n, In n [0; 1; 2; 3] -> position (form_of rchain) n = position hand_chain n).
  { intros n I. rewrite <- N in I. symmetry. apply (proj1 chain_as_written n I). }
  rewrite <- (Q 0) in P0 by (cbn; auto). rewrite <- (Q 1) in P1 by (cbn; auto).
  rewrite <- (Q 2) in P2 by (cbn; auto). rewrite <- (Q 3) in P3 by (cbn; auto). clear Q.
  destruct (along_x 0 (3/2) ltac:(lra)) as (A1&_&_). destruct (along_x (5/2) 4 ltac:(lra)) as (C1&_&_).
  assert (Pl0 : edge_plane rchain (0, 1) = Ok (Some (V3 (3/2) 0 0, V3 1 0 0)%R)) by (lazy; reflexivity).
  assert (Pl1 : edge_plane rchain (1, 2) = Ok None) by (lazy; reflexivity).
  assert (Pl2 : edge_plane rchain (2, 3) = Ok (Some (V3 4 0 0, V3 1 0 0)%R)) by (lazy; reflexivity).
  assert (Tr1 : trail_edges rchain = [(0, 1); (1, 2); (2, 3)]) by (lazy; reflexivity).
  intros n m e o nrm F [It Ee] Pl. rewrite Tr1 in It. right.
  destruct (chain_follows n m F) as [[-> ->]|[[-> ->]|[-> ->]]].
  - assert (e = (0, 1)) by (cbn in It; destruct Ee as [->| ->]; [auto|intuition congruence]). subst e.
    rewrite Pl0 in Pl. apply Ok_inj in Pl. injection Pl as <- <-. unfold on_plane. rewrite P0, P1, A1. vunf.
    replace (1 * 1 + 0 * 0 + 0 * 0)%R with 1%R by ring. rewrite Rabs_R1. lra.
  - assert (e = (1, 2)) by (cbn in It; destruct Ee as [->| ->]; [auto|intuition congruence]). subst e.
    rewrite Pl1 in Pl. discriminate.
  - assert (e = (2, 3)) by (cbn in It; destruct Ee as [->| ->]; [auto|intuition congruence]). subst e.
    rewrite Pl2 in Pl. apply Ok_inj in Pl. injection Pl as <- <-. unfold on_plane. rewrite P2, P3, C1. vunf.
    replace (1 * 1 + 0 * 0 + 0 * 0)%R with 1%R by ring. rewrite Rabs_R1. lra.
Qed.

Lemma chain_apart f : apart rchain f.
Proof. assert (E : deviation_edges rchain = []) by (lazy; reflexivity). intros u v I. rewrite E in I. destruct I. Qed.

Lemma derivative_const (g : R -> R) s : (forall x, g x = g s) -> has_derivative g s.
Proof.
  intros E. apply (ca_ext _ _ _ (differentiability_calculus s) (fun _ => g s)).
  - apply (ca_all _ _ _ (differentiability_calculus s)). intros x. symmetry. apply E.
  - apply (ca_const _ _ _ (differentiability_calculus s)).
Qed.
Lemma derivative_const_v (u : R -> rvec) s : (forall x, u x = u s) -> has_derivative_v u s.
Proof.
  intros E. split; [|split]; apply derivative_const; intros x; now rewrite (E x).
Qed.

Lemma chain_smooth : smooth_inputs chain_aside 0%R.
Proof.
  assert (N : nodes (chain_aside 0%R) = [0; 1; 2; 3]) by (lazy; reflexivity).
  assert (Tr : trails (chain_aside 0%R) = [(0, [0; 1; 2; 3])]) by (lazy; reflexivity).
  assert (De : deviation_edges (chain_aside 0%R) = []) by (lazy; reflexivity).
  assert (Tr1 : trail_edges (chain_aside 0%R) = [(0, 1); (1, 2); (2, 3)]) by (lazy; reflexivity).
  constructor; rewrite ?N, ?Tr, ?De, ?Tr1.
  - intros key tr [E|[]]. injection E as <- <-. apply derivative_const_v. intros x. lazy. reflexivity.
  - intros n [<-|[<-|[<-|[<-|[]]]]]; [|apply derivative_const_v; intros x; lazy; reflexivity..].
    assert (L : forall x, load (chain_aside x) 0 = V3 (-1)%R x 0%R) by (intros x; lazy; reflexivity).
    apply (nicev_ext 0%R _ _ (differentiability_calculus 0) (fun x => V3 (-1)%R x 0%R)).
    + apply (ca_all _ _ _ (differentiability_calculus 0)). intros x. now rewrite L.
    + split; [|split]; cbn [vx vy vz]; [now apply derivative_const| |now apply derivative_const].
      exists 1%R. apply derivable_pt_lim_id.
  - intros e [].
  - intros e [<-|[<-|[<-|[]]]]; apply derivative_const; intros x; lazy; reflexivity.
  - intros e [<-|[<-|[<-|[]]]]; split; apply derivative_const_v; intros x; lazy; reflexivity.
Qed.

(** ** One bar *)

(** A bar of length one that starts at the origin and is loaded there *)
Definition bar (q : rvec) (pl : option (rvec * rvec)) : diagram R :=
  rmade ([ OpAddNode (Some 0) (V3 0 0 0)%R; OpAddNode (Some 1) (V3 1 0 0)%R;
           OpAddEdge (RKey 0) (RKey 1) (TrailEdge 1%R pl); sup 1; OpAddLoad (RKey 0) q ] ++ [build]).

Lemma bar_reachable q pl : reachable (bar q pl).
Proof. made_reachable. Qed.
Lemma bar_ready q pl : ready (bar q pl).
Proof. apply (rmade_ready _ [[0; 1]]); [valid|lazy; reflexivity|lazy; reflexivity|discriminate]. Qed.
Lemma bar_direct q pl : direct_only (bar q pl).
Proof. assert (E : deviation_edges (bar q pl) = []) by (lazy; reflexivity). intros u v I. rewrite E in I. destruct I. Qed.
Lemma bar_apart q pl f : apart (bar q pl) f.
Proof. assert (E : deviation_edges (bar q pl) = []) by (lazy; reflexivity). intros u v I. rewrite E in I. destruct I. Qed.
Lemma bar_nonzero q pl : nonzero_trails (bar q pl).
Proof.
  assert (E : trail_edges (bar q pl) = [(0, 1)]) by (lazy; reflexivity).
  intros e l I El. rewrite E in I. destruct I as [<-|[]]. lazy in El. apply Ok_inj in El. subst l. lra.
Qed.
Lemma bar_forms q pl : static_equilibrium (bar q pl) None 100 (/ 1000000)%R false = Ok (form_of (bar q pl)).
Proof. apply form_of_Ok; [apply bar_reachable|apply bar_ready|apply bar_direct]. Qed.
Lemma bar_structure q pl : structure (bar q pl) (form_of (bar q pl)).
Proof. exact (c94_form _ _ _ _ _ (bar_reachable q pl) (bar_ready q pl) (bar_direct q pl) (bar_nonzero q pl) (bar_forms q pl)). Qed.

Lemma bar_plane q pl : edge_plane (bar q pl) (0, 1) = Ok pl.
Proof. destruct pl as [[o n]|]; lazy; reflexivity. Qed.

Lemma bar_layout q q' pl : same_layout (bar q pl) (bar q' pl).
Proof.
  assert (N : nodes (bar q pl) = [0; 1]) by (lazy; reflexivity).
  constructor; [lazy; reflexivity|lazy; reflexivity|lazy; reflexivity|lazy; reflexivity|lazy; reflexivity| | |].
  { intros n I. rewrite N in I. destruct I as [<-|[<-|[]]]; lazy; reflexivity. }
  { intros n I. rewrite N in I. destruct I as [<-|[<-|[]]]; lazy; reflexivity. }
  intros e I. assert (Tr : trail_edges (bar q pl) = [(0, 1)]) by (lazy; reflexivity). rewrite Tr in I. destruct I as [<-|[]].
  now rewrite !bar_plane.
Qed.

(** Loads that differ by less than [delta] are inputs that do. *)
Lemma bar_similar q q' pl delta : (0 < delta)%R -> near_by_v delta q' q -> similar_inputs delta (bar q pl) (bar q' pl).
Proof.
  intros P Nq. assert (K : forall a, near_by delta a a) by (intros a; unfold near_by; rewrite Rminus_diag_eq, Rabs_R0; auto).
  assert (Kv : forall u, near_by_v delta u u) by (intros u; split; [apply K|split; apply K]).
  assert (N : nodes (bar q pl) = [0; 1]) by (lazy; reflexivity).
  assert (Tr : trails (bar q pl) = [(0, [0; 1])]) by (lazy; reflexivity).
  assert (De : deviation_edges (bar q pl) = []) by (lazy; reflexivity).
  assert (Tr1 : trail_edges (bar q pl) = [(0, 1)]) by (lazy; reflexivity).
  assert (L : forall q, load (bar q pl) 0 = q). { intros [a b c]. lazy. reflexivity. }
  constructor; rewrite ?N, ?Tr, ?De, ?Tr1.
  - intros key tr [E|[]]. injection E as <- <-.
    replace (position (bar q' pl) 0) with (position (bar q pl) 0) by (lazy; reflexivity). apply Kv.
  - intros n [<-|[<-|[]]]; [now rewrite !L|].
    replace (load (bar q' pl) 1) with (load (bar q pl) 1) by (lazy; reflexivity). apply Kv.
  - intros e [].
  - intros e [<-|[]]. replace (given_length (bar q' pl) (0, 1)) with (given_length (bar q pl) (0, 1)) by (lazy; reflexivity). apply K.
  - intros e [<-|[]]. unfold plane_of. rewrite !bar_plane. destruct pl; split; apply Kv.
Qed.

Lemma bar_follows q pl : follows (bar q pl) 0 1.
Proof. assert (Tr : stored (bar q pl) = [[0; 1]]) by (lazy; reflexivity). exists [0; 1]. rewrite Tr. split; [now left|]. exists [], []. reflexivity. Qed.
Lemma bar_between q pl : edge_between (bar q pl) 0 1 (0, 1).
Proof. assert (E : trail_edges (bar q pl) = [(0, 1)]) by (lazy; reflexivity). split; [rewrite E; now left|now left]. Qed.

Lemma minus_v0 (u : rvec) : u -v v0 = u.
Proof. vring. Qed.

(** The bar starts at the origin and pulls against the load. *)
Lemma bar_pulls q pl : position (form_of (bar q pl)) 0 = v0
  /\ force (form_of (bar q pl)) (0, 1) *v direction (position (form_of (bar q pl)) 1 -v v0) = v0 -v q.
Proof.
  assert (S := bar_structure q pl). set (f := form_of (bar q pl)) in *.
  assert (N : nodes (bar q pl) = [0; 1]) by (lazy; reflexivity).
  assert (E : edges (bar q pl) = [(0, 1)]) by (lazy; reflexivity).
  assert (P0 : position f 0 = v0).
  { rewrite (st_origins _ _ S 0 [0; 1]); [lazy; reflexivity|].
    replace (trails (bar q pl)) with [(0, [0; 1])] by (lazy; reflexivity). now left. }
  split; [exact P0|].
  assert (I0 : In 0 (nodes (bar q pl))) by (rewrite N; now left).
  assert (B := st_balanced _ _ S 0). rewrite (st_nodes _ _ S) in B. specialize (B I0). unfold unbalanced in B.
  rewrite (incident_same (bar q pl) f 0 (st_edges _ _ S)), (st_loads _ _ S 0 I0), (st_held _ _ S 0 I0 ltac:(lazy; reflexivity)) in B.
  assert (Inc : incident (bar q pl) 0 = [(0, 1)]) by (unfold incident; rewrite E; reflexivity). rewrite Inc in B.
  cbn [map] in B. rewrite vsum_cons in B. change (vsum []) with v0 in B. unfold pull in B. change (far_end (0, 1) 0) with 1 in B.
  assert (L : load (bar q pl) 0 = q) by (destruct q as [a b c]; lazy; reflexivity). rewrite L, P0 in B.
  set (w := force f (0, 1) *v direction (position f 1 -v v0)) in *.
  replace w with ((q +v v0 +v (w +v v0)) -v q) by vring. now rewrite B.
Qed.

(** A loaded bar is as asked. *)
Lemma bar_asked q pl : q <> v0 -> let f := form_of (bar q pl) in
  as_asked (bar q pl) f 0 1 (0, 1) /\ force f (0, 1) <> 0%R
  /\ position f 1 = (if Rlt_dec (force f (0, 1)) 0 then (- norm (position f 1))%R else norm (position f 1)) *v unitv (v0 -v q).
Proof.
  intros Nq f. destruct (bar_pulls q pl) as [P0 E]. fold f in P0, E.
  assert (Nr : v0 -v q <> v0). { intros Z. apply Nq. replace q with (v0 -v (v0 -v q)) by vring. rewrite Z. vring. }
  destruct (unit_of_pull _ _ _ E Nr) as (_&U&_).
  assert (Nf : force f (0, 1) <> 0%R). { intros Z. apply Nr. rewrite <- E, Z. apply vscale_0. }
  split; [exact (st_trails _ _ (bar_structure q pl) 0 1 (0, 1) (bar_follows q pl) (bar_between q pl) Nf)|].
  split; [exact Nf|]. assert (Z := minus_v0 (position f 1)). rewrite Z in U. exact U.
Qed.

Lemma bar_length q pl : edge_length_2 (bar q pl) (0, 1) = Ok 1%R.
Proof. lazy. reflexivity. Qed.

(** Without a plane, a loaded bar points against the load. *)
Lemma bar_end q : q <> v0 -> position (form_of (bar q None)) 1 = unitv (v0 -v q).
Proof.
  intros Nq. destruct (bar_asked q None Nq) as (A&_&U). set (f := form_of (bar q None)) in *.
  specialize (A _ (bar_length q None)). rewrite bar_plane in A. destruct A as [A1 A2].
  rewrite (span_between (bar q None) f 0 1 (0, 1) (bar_between q None)) in A1.
  destruct (bar_pulls q None) as [P0 _]. fold f in P0. rewrite P0 in A1.
  assert (Z := minus_v0 (position f 1)). rewrite Z, Rabs_R1 in A1.
  rewrite A1 in U. destruct (Rlt_dec (force f (0, 1)) 0) as [L|L]; [apply A2 in L; lra|]. rewrite U, vscale_1. reflexivity.
Qed.

Lemma unitv_x (a : R) : (0 < a)%R -> unitv (V3 a 0 0)%R = (V3 1 0 0)%R /\ unitv (V3 (-a) 0 0)%R = (V3 (-1) 0 0)%R.
Proof.
  intros P. assert (U : unitv (V3 1 0 0)%R = (V3 1 0 0)%R).
  { assert (N := norm_times_unitv (V3 1 0 0)%R).
    assert (M : norm (V3 1 0 0)%R = 1%R). { rewrite <- magnitude_norm. unfold magnitude. vunf. replace (1 * 1 + 0 * 0 + 0 * 0)%R with 1%R by ring. apply sqrt_1. }
    rewrite M, vscale_1 in N. exact N. }
  split.
  - replace (V3 a 0 0)%R with (a *v (V3 1 0 0)%R) by vring. now rewrite unitv_pos, U by lra.
  - replace (V3 (-a) 0 0)%R with ((-a)%R *v (V3 1 0 0)%R) by vring. rewrite unitv_neg, U by lra. vring.
Qed.

(** An unloaded bar: the form jumps however small the load is. *)
Lemma unloaded_jumps : forall delta, (0 < delta)%R -> exists d' form', reachable d' /\ ready d' /\ same_layout (bar v0 None) d'
  /\ similar_inputs delta (bar v0 None) d' /\ static_equilibrium d' None 100 (/ 1000000)%R false = Ok form'
  /\ ~ similar_forms (/ 2) (bar v0 None) (form_of (bar v0 None)) form'.
Proof.
  intros delta P. set (t := (delta / 2)%R). assert (Pt : (0 < t)%R) by (unfold t; lra).
  assert (I1 : In 1 (nodes (bar v0 None))) by (replace (nodes (bar v0 None)) with [0; 1] by (lazy; reflexivity); right; now left).
  assert (K : forall a, Rabs a = t -> near_by_v delta (V3 a 0 0)%R v0).
  { intros a A. split; [|split]; unfold near_by; vunf; rewrite Rminus_0_r; [rewrite A; unfold t; lra| |];
      rewrite Rabs_R0; lra. }
  assert (J : forall a, Rabs a = t -> exists d' form', d' = bar (V3 a 0 0)%R None /\ form' = form_of d' /\ reachable d' /\ ready d'
     /\ same_layout (bar v0 None) d' /\ similar_inputs delta (bar v0 None) d' /\ static_equilibrium d' None 100 (/ 1000000)%R false = Ok form').
  { intros a A. exists (bar (V3 a 0 0)%R None), (form_of (bar (V3 a 0 0)%R None)). split; [reflexivity|]. split; [reflexivity|].
    split; [apply bar_reachable|]. split; [apply bar_ready|]. split; [apply bar_layout|].
    split; [apply bar_similar; [exact P|apply K, A]|apply bar_forms]. }
  destruct (unitv_x t Pt) as [U1 U2].
  destruct (Rlt_dec 0 (vx (position (form_of (bar v0 None)) 1))) as [L|L].
  - destruct (J t ltac:(apply Rabs_right; lra)) as (d'&f'&Ed&Ef&A1&A2&A3&A4&A5). exists d', f'.
    split; [exact A1|]. split; [exact A2|]. split; [exact A3|]. split; [exact A4|]. split; [exact A5|].
    intros [S _ _]. destruct (S 1 I1) as [S1 _]. rewrite Ef, Ed, bar_end in S1.
    2:{ intros Z. apply (f_equal vx) in Z. cbn in Z. lra. }
    replace (v0 -v V3 t 0 0)%R with (V3 (-t) 0 0)%R in S1 by vring. rewrite U2 in S1. unfold near_by in S1. cbn [vx] in S1.
    apply Rabs_def2 in S1. lra.
  - destruct (J (-t)%R ltac:(rewrite Rabs_Ropp; apply Rabs_right; lra)) as (d'&f'&Ed&Ef&A1&A2&A3&A4&A5). exists d', f'.
    split; [exact A1|]. split; [exact A2|]. split; [exact A3|]. split; [exact A4|]. split; [exact A5|].
    intros [S _ _]. destruct (S 1 I1) as [S1 _]. rewrite Ef, Ed, bar_end in S1.
    2:{ intros Z. apply (f_equal vx) in Z. cbn in Z. lra. }
    replace (v0 -v V3 (-t) 0 0)%R with (V3 t 0 0)%R in S1 by vring. rewrite U1 in S1. unfold near_by in S1. cbn [vx] in S1.
    apply Rabs_def2 in S1. lra.
Qed.

(** The unloaded bar meets every other condition. *)
Lemma bar_definite q f : definite (bar q None) f.
Proof.
  assert (E : trail_edges (bar q None) = [(0, 1)]) by (lazy; reflexivity).
  intros n m e o nrm F [I _] Pl. rewrite E in I. destruct I as [<-|[]]. rewrite bar_plane in Pl. discriminate.
Qed.

(** A plane that the bar meets exactly at the tolerance *)
Definition edge_of_tolerance : option (rvec * rvec) := Some ((V3 5 0 0)%R, (V3 (/ 1000000) 0 0)%R).

(** On the plane, the bar ends five units away. *)
Lemma tolerated : vx (position (form_of (bar (V3 (-1) 0 0)%R edge_of_tolerance)) 1) = 5%R.
Proof.
  set (q := (V3 (-1) 0 0)%R). assert (Nq : q <> v0) by (intros Z; apply (f_equal vx) in Z; cbn in Z; lra).
  destruct (bar_asked q edge_of_tolerance Nq) as (A&_&U). destruct (bar_pulls q edge_of_tolerance) as [P0 Pu].
  set (f := form_of (bar q edge_of_tolerance)) in *. clearbody f.
  specialize (A _ (bar_length q edge_of_tolerance)). rewrite bar_plane in A. unfold edge_of_tolerance in A. destruct A as [_ A].
  assert (Er : v0 -v q = (V3 1 0 0)%R) by (unfold q; vring). rewrite Er in U, Pu.
  destruct (unitv_x 1 ltac:(lra)) as [U1 U2]. rewrite U1 in U.
  assert (N1 : (V3 1 0 0)%R <> v0) by (intros Z; apply (f_equal vx) in Z; cbn in Z; lra).
  destruct (unit_of_pull _ _ _ Pu N1) as (Np&_&_). rewrite minus_v0 in Np.
  set (s := if Rlt_dec (force f (0, 1)) 0 then (- norm (position f 1))%R else norm (position f 1)) in *.
  assert (Ns : s <> 0%R). { intros Z. apply Np. rewrite U, Z. apply vscale_0. }
  assert (Un : ~ unfit f 0 1 (V3 5 0 0)%R (V3 (/ 1000000) 0 0)%R).
  { unfold unfit, on_plane. rewrite P0, minus_v0, direction_unitv. intros [X|X].
    - rewrite U in X. destruct (Rlt_dec s 0) as [L|L].
      + rewrite unitv_neg, U1 in X by exact L.
        replace (dot (V3 (/ 1000000) 0 0)%R ((-1)%R *v (V3 1 0 0)%R)) with (- / 1000000)%R in X by (vunf; ring).
        rewrite Rabs_Ropp, Rabs_right in X by lra. lra.
      + rewrite unitv_pos, U1 in X by lra.
        replace (dot (V3 (/ 1000000) 0 0)%R (V3 1 0 0)%R) with (/ 1000000)%R in X by (vunf; ring). rewrite Rabs_right in X by lra. lra.
    - vunf. lra. }
  specialize (A Un). unfold on_plane in A. destruct (position f 1) as [a b c]. vunf. lra.
Qed.

(** Turned a little, it does not reach the plane and ends one unit away. *)
Lemma not_tolerated t : t <> 0%R -> (vx (position (form_of (bar (V3 (-1) t 0)%R edge_of_tolerance)) 1) <= 1)%R.
Proof.
  intros Nt. set (q := (V3 (-1) t 0)%R). assert (Nq : q <> v0) by (intros Z; apply (f_equal vx) in Z; cbn in Z; lra).
  destruct (bar_asked q edge_of_tolerance Nq) as (A&_&U). destruct (bar_pulls q edge_of_tolerance) as [P0 Pu].
  assert (Bw := bar_between q edge_of_tolerance).
  set (f := form_of (bar q edge_of_tolerance)) in *. clearbody f.
  specialize (A _ (bar_length q edge_of_tolerance)). rewrite bar_plane in A. unfold edge_of_tolerance in A. destruct A as [A _].
  assert (Nr : v0 -v q <> v0). { intros Z. apply Nq. replace q with (v0 -v (v0 -v q)) by vring. rewrite Z. vring. }
  destruct (unit_of_pull _ _ _ Pu Nr) as (Np&_&_). rewrite minus_v0 in Np.
  set (s := if Rlt_dec (force f (0, 1)) 0 then (- norm (position f 1))%R else norm (position f 1)) in *.
  set (r := v0 -v q) in *. assert (Ru := norm_times_unitv r). assert (Nu := norm_unitv r Nr). assert (Pn := norm_pos r Nr).
  assert (Sq := norm_sq (unitv r)). rewrite Nu in Sq. set (w := unitv r) in *.
  assert (Rx : (vx r = 1)%R) by (unfold r, q; vunf; lra). assert (Ry : (vy r = - t)%R) by (unfold r, q; vunf; lra).
  assert (Wx : (norm r * vx w = vx r)%R) by (rewrite Rmult_comm; exact (f_equal vx Ru)). assert (Wy : (norm r * vy w = vy r)%R) by (rewrite Rmult_comm; exact (f_equal vy Ru)).
  rewrite Rx in Wx. rewrite Ry in Wy.
  assert (Wy0 : vy w <> 0%R) by (intros Z; rewrite Z in Wy; lra).
  assert (Lx : (Rabs (vx w) < 1)%R).
  { apply Rabs_def1; destruct w as [a b c]; vunf; nra. }
  assert (Un : unfit f 0 1 (V3 5 0 0)%R (V3 (/ 1000000) 0 0)%R).
  { left. rewrite P0, minus_v0, direction_unitv, U.
    assert (Ns : s <> 0%R). { intros Z. apply Np. rewrite U, Z. apply vscale_0. }
    assert (D : Rabs (dot (V3 (/ 1000000) 0 0)%R (unitv (s *v w))) = (/ 1000000 * Rabs (vx w))%R).
    { destruct (Rlt_dec s 0) as [L|L]; [rewrite unitv_neg by exact L|rewrite unitv_pos by lra]; unfold w; rewrite unitv_unitv; fold w.
      - replace (dot (V3 (/ 1000000) 0 0)%R ((-1)%R *v w)) with (- (/ 1000000 * vx w))%R by (destruct w; vunf; ring).
        rewrite Rabs_Ropp, Rabs_mult, (Rabs_right (/ 1000000)) by lra. reflexivity.
      - replace (dot (V3 (/ 1000000) 0 0)%R w) with (/ 1000000 * vx w)%R by (destruct w; vunf; ring).
        rewrite Rabs_mult, (Rabs_right (/ 1000000)) by lra. reflexivity. }
    rewrite D. lra. }
  destruct (A Un) as [A1 _]. rewrite (span_between _ f 0 1 (0, 1) Bw), P0, minus_v0, Rabs_R1 in A1.
  assert (Q := norm_sq (position f 1)). rewrite A1 in Q. destruct (position f 1) as [a b c]. vunf. nra.
Qed.

(** A bar that meets its plane at the tolerance: the form jumps however little the load turns. *)
Lemma tolerance_jumps : forall delta, (0 < delta)%R -> exists d' form', reachable d' /\ ready d'
  /\ same_layout (bar (V3 (-1) 0 0)%R edge_of_tolerance) d' /\ similar_inputs delta (bar (V3 (-1) 0 0)%R edge_of_tolerance) d'
  /\ static_equilibrium d' None 100 (/ 1000000)%R false = Ok form'
  /\ ~ similar_forms (/ 2) (bar (V3 (-1) 0 0)%R edge_of_tolerance) (form_of (bar (V3 (-1) 0 0)%R edge_of_tolerance)) form'.
Proof.
  intros delta P. set (t := (delta / 2)%R). assert (Pt : (0 < t)%R) by (unfold t; lra).
  exists (bar (V3 (-1) t 0)%R edge_of_tolerance), (form_of (bar (V3 (-1) t 0)%R edge_of_tolerance)).
  split; [apply bar_reachable|]. split; [apply bar_ready|]. split; [apply bar_layout|]. split; [|split; [apply bar_forms|]].
  - apply bar_similar; [exact P|]. split; [|split]; unfold near_by; cbn [vx vy vz].
    + rewrite Rminus_diag_eq, Rabs_R0 by reflexivity. exact P.
    + rewrite Rminus_0_r, Rabs_right by lra. unfold t. lra.
    + rewrite Rminus_diag_eq, Rabs_R0 by reflexivity. exact P.
  - intros [S _ _].
    assert (I1 : In 1 (nodes (bar (V3 (-1) 0 0)%R edge_of_tolerance))).
    { replace (nodes (bar (V3 (-1) 0 0)%R edge_of_tolerance)) with [0; 1] by (lazy; reflexivity). right. now left. }
    destruct (S 1 I1) as [S1 _]. assert (Y := not_tolerated t ltac:(lra)). unfold near_by in S1. rewrite tolerated in S1.
    apply Rabs_def2 in S1. lra.
Qed.

Lemma tolerance_carrying : carrying (bar (V3 (-1) 0 0)%R edge_of_tolerance) (form_of (bar (V3 (-1) 0 0)%R edge_of_tolerance)).
Proof.
  assert (E : trail_edges (bar (V3 (-1) 0 0)%R edge_of_tolerance) = [(0, 1)]) by (lazy; reflexivity).
  intros e I. rewrite E in I. destruct I as [<-|[]].
  apply (bar_asked (V3 (-1) 0 0)%R edge_of_tolerance). intros Z. apply (f_equal vx) in Z. cbn in Z. lra.
Qed.

(** ** Where the form jumps *)

(** Without the condition that every trail edge carries a force, the form may jump: some
    topology that meets all other conditions has neighbours as close as one likes whose
    forms are far away. *)
Lemma c102_jump_unloaded : exists d form, reachable d /\ ready d /\ direct_only d /\ nonzero_trails d
  /\ static_equilibrium d None 100 (/ 1000000)%R false = Ok form /\ definite d form /\ apart d form
  /\ forall delta, (0 < delta)%R -> exists d' form', reachable d' /\ ready d' /\ same_layout d d' /\ similar_inputs delta d d'
     /\ static_equilibrium d' None 100 (/ 1000000)%R false = Ok form' /\ ~ similar_forms (/ 2) d form form'.
Proof.
  exists (bar v0 None), (form_of (bar v0 None)).
  split; [apply bar_reachable|]. split; [apply bar_ready|]. split; [apply bar_direct|]. split; [apply bar_nonzero|].
  split; [apply bar_forms|]. split; [apply bar_definite|]. split; [apply bar_apart|]. exact unloaded_jumps.
Qed.

(** The same without the condition that trail edges do not meet their planes at the
    tolerance. *)
Lemma c102_jump_tolerance : exists d form, reachable d /\ ready d /\ direct_only d /\ nonzero_trails d
  /\ static_equilibrium d None 100 (/ 1000000)%R false = Ok form /\ carrying d form /\ apart d form
  /\ forall delta, (0 < delta)%R -> exists d' form', reachable d' /\ ready d' /\ same_layout d d' /\ similar_inputs delta d d'
     /\ static_equilibrium d' None 100 (/ 1000000)%R false = Ok form' /\ ~ similar_forms (/ 2) d form form'.
Proof.
  exists (bar (V3 (-1) 0 0)%R edge_of_tolerance), (form_of (bar (V3 (-1) 0 0)%R edge_of_tolerance)).
  split; [apply bar_reachable|]. split; [apply bar_ready|]. split; [apply bar_direct|]. split; [apply bar_nonzero|].
  split; [apply bar_forms|]. split; [apply tolerance_carrying|]. split; [apply bar_apart|]. exact tolerance_jumps.
Qed.
