(** * Parts of a structure, and virtual work (C97, C98)

    Generated by tools/gen_props.py from the lemmas of SectionThms.v.  The vocabulary is in
    SpecStatics.v and SpecSections.v. *)

From Coq Require Import String List ZArith Bool Lia Reals Lra.
From Verif Require Import Py PyFacts Num Diagram Topology Equilibrium History HistoryFacts Fixtures SpecDiagram SpecTopology
  SpecEquilibrium SpecStatics RVec EqThms StaticsThms SpecSections SectionThms Witness WitnessEq WitnessInfluence WitnessSections.
Import ListNotations.
Open Scope Z_scope.

Implicit Types (f d form : diagram R) (S : list Z) (e : ekey).

(** ** Parts *)

(** Method of sections: loads, reactions and the pulls of the edges that are cut keep a part of the structure in
  balance, and so do their moments about any point, if the nodes of the part are in equilibrium. *)
Theorem C97_section : forall f S, part f S -> (forall n, In n S -> unbalanced f n = v0) ->
  acting_on f S = v0 /\ forall o, moment_on f S o = v0.
Proof. exact c97_section. Qed.
(** Without equilibrium: what acts on a part is not more than what its nodes are out of balance. *)
Theorem C97_error : forall f S, part f S ->
  (magnitude (acting_on f S) <= rsum (map (fun n => magnitude (unbalanced f n)) S))%R.
Proof. exact c97_error. Qed.
(** A part that no edge ties to the rest is in balance by itself. *)
Theorem C97_apart : forall f S, part f S -> (forall n, In n S -> unbalanced f n = v0) ->
  (forall u v, In (u, v) (edges f) -> In u S <-> In v S) ->
  resultant f S = v0 /\ forall o, resultant_moment f S o = v0.
Proof. exact c97_apart. Qed.
(** An edge that alone ties a part to the rest carries the resultant of the loads and reactions of the part, which acts
  along the edge. *)
Theorem C97_single : forall f S e, part f S -> (forall n, In n S -> unbalanced f n = v0) -> cut f S = [e] ->
  resultant f S +v pull f (inner_end S e) e = v0
  /\ ((0 < span f e)%R -> Rabs (force f e) = magnitude (resultant f S))
  /\ resultant_moment f S (position f (fst e)) = v0 /\ resultant_moment f S (position f (snd e)) = v0.
Proof. exact c97_single. Qed.
(** Without indirect deviation edges: all that acts on the nodes with sequences up to any number is carried by
  the trail edges that lead to the next sequence. *)
Theorem C97_levels : forall d tmax eta verbose form k, reachable d -> ready d -> direct_only d -> nonzero_trails d ->
  static_equilibrium d None tmax eta verbose = Ok form ->
  (forall e, In e (cut form (levels_to d k)) <->
     exists n m, edge_between d n m e /\ node_sequence d n = Ok k /\ node_sequence d m = Ok (k + 1))
  /\ (forall e n m, edge_between d n m e -> node_sequence d n = Ok k -> node_sequence d m = Ok (k + 1) -> inner_end (levels_to d k) e = n)
  /\ acting_on form (levels_to d k) = v0 /\ forall o, moment_on form (levels_to d k) o = v0.
Proof. exact c97_levels. Qed.

(** ** Virtual work *)

(** Principle of virtual work: a structure is in equilibrium exactly if for any displacements of its nodes the work of loads and
  reactions is that of the edge forces on the elongations of the edges. *)
Theorem C98_virtual_work : forall f, produced f ->
  (balanced f <-> forall w : Z -> rvec,
     rsum (map (fun n => dot (w n) (load f n +v reaction f n)) (nodes f)) = rsum (map (fun e => force f e * elongation f w e)%R (edges f))).
Proof. exact c98_virtual_work. Qed.
(** Maxwell's theorem: in equilibrium, the sum of force times length over all edges, negative for compression, is the sum of the products of
  loads and reactions with the positions where they act. *)
Theorem C98_maxwell : forall f, produced f -> balanced f ->
  rsum (map (fun e => force f e * span f e)%R (edges f)) = rsum (map (fun n => dot (position f n) (load f n +v reaction f n)) (nodes f)).
Proof. exact c98_maxwell. Qed.
(** Displacements that stretch no edge do no work; translations and rotations are such displacements. *)
Theorem C98_rigid : forall f (w : Z -> rvec), produced f -> balanced f ->
  ((forall e, In e (edges f) -> elongation f w e = 0%R) -> rsum (map (fun n => dot (w n) (load f n +v reaction f n)) (nodes f)) = 0%R)
  /\ (forall t o r e, (forall n, w n = t +v cross r (position f n -v o)) -> elongation f w e = 0%R).
Proof. exact c98_rigid. Qed.
Print Assumptions C97_section.
Print Assumptions C97_error.
Print Assumptions C97_apart.
Print Assumptions C97_single.
Print Assumptions C97_levels.
Print Assumptions C98_virtual_work.
Print Assumptions C98_maxwell.
Print Assumptions C98_rigid.

(** ** The hypotheses can be met *)

Lemma first_two : NoDup [0; 1] /\ incl [0; 1] [0; 1; 2; 3].
Proof. split; [repeat constructor; cbn; intuition discriminate|]. intros n [<-|[<-|[]]]; cbn; tauto. Qed.
Lemma strut_apart : NoDup [20; 21] /\ incl [20; 21] [20; 21; 0; 1; 2; 3] /\ incl [0; 1; 2; 3] [20; 21; 0; 1; 2; 3]
  /\ forall u v : Z, In (u, v) [(20, 21); (0, 1); (1, 2); (2, 3)] -> In u [20; 21] <-> In v [20; 21].
Proof.
  split; [repeat constructor; cbn; intuition discriminate|]. split; [intros n [<-|[<-|[]]]; cbn; tauto|]. split.
  - intros n I. right. right. exact I.
  - intros u v I. destruct I as [I|[I|[I|[I|[]]]]]; injection I as <- <-; cbn; intuition discriminate.
Qed.

(** The upper half of the tension chain: one edge is cut, and it carries a force. *)
Example C97_nonvacuous : exists form, static_equilibrium rchain None 100 (/ 1000000)%R false = Ok form
  /\ reachable rchain /\ ready rchain /\ direct_only rchain /\ nonzero_trails rchain
  /\ part form [0; 1] /\ (forall n, In n [0; 1] -> unbalanced form n = v0)
  /\ cut form [0; 1] = [(1, 2)] /\ force form (1, 2) <> 0%R /\ levels_to rchain 1 = [0; 1].
Proof.
  destruct rchain_forms as (form&E). exists form. split; [exact E|].
  split; [exact rchain_reachable|]. split; [exact rchain_ready|]. split; [exact rchain_direct|]. split; [exact rchain_nonzero|].
  destruct (c37_frame _ _ _ _ _ _ rchain_reachable E) as (Nf&Ef&_).
  assert (N : nodes rchain = [0; 1; 2; 3]) by (lazy; reflexivity).
  assert (Es : edges rchain = [(0, 1); (1, 2); (2, 3)]) by (lazy; reflexivity).
  assert (P : part form [0; 1]).
  { split; [exact (proj1 first_two)|]. rewrite Nf, N. exact (proj2 first_two). }
  split; [exact P|]. split.
  { intros n I. apply (c31_direct_equilibrium _ _ _ _ _ rchain_reachable rchain_ready rchain_direct rchain_nonzero E).
    apply P, I. }
  split; [unfold cut; rewrite Ef, Es; reflexivity|]. split; [exact (proj2 (rchain_forces form E))|]. lazy. reflexivity.
Qed.

(** A strut beside the funicular is a part by itself; and the form is in equilibrium. *)
Example C97_apart_nonvacuous : exists form, static_equilibrium rboth None 100 (/ 1000000)%R false = Ok form
  /\ produced form /\ balanced form /\ part form [20; 21] /\ (forall u v, In (u, v) (edges form) -> In u [20; 21] <-> In v [20; 21])
  /\ incl [0; 1; 2; 3] (nodes form).
Proof.
  destruct rboth_forms as (form&E). exists form. split; [exact E|].
  split; [right; exists rboth, None, 100, (/ 1000000)%R, false; split; [exact rboth_reachable|exact E]|].
  destruct (c37_frame _ _ _ _ _ _ rboth_reachable E) as (Nf&Ef&_).
  assert (N : nodes rboth = [20; 21; 0; 1; 2; 3]) by (lazy; reflexivity).
  assert (Es : edges rboth = [(20, 21); (0, 1); (1, 2); (2, 3)]) by (lazy; reflexivity).
  assert (Nz : nonzero_trails rboth).
  { assert (Q : trail_edges rboth = [(20, 21); (0, 1); (2, 3)]) by (lazy; reflexivity).
    intros e l I El. rewrite Q in I. destruct I as [<-|[<-|[<-|[]]]]; lazy in El; apply Ok_inj in El; subst l; lra. }
  split; [exact (c31_direct_equilibrium _ _ _ _ _ rboth_reachable rboth_ready rboth_direct Nz E)|].
  rewrite Nf, Ef. split; [|split].
  - split; [exact (proj1 strut_apart)|]. rewrite Nf, N. exact (proj1 (proj2 strut_apart)).
  - rewrite Es. exact (proj2 (proj2 (proj2 strut_apart))).
  - rewrite N. exact (proj1 (proj2 (proj2 strut_apart))).
Qed.

(** C98: the tension chain is in equilibrium, and moving one node is a displacement that stretches an edge. *)
Example C98_nonvacuous : exists form, produced form /\ balanced form /\ Rlt 0%R (span form (0, 1))
  /\ exists w, elongation form w (0, 1) <> 0%R.
Proof.
  destruct rchain_forms as (form&E). exists form.
  split; [right; exists rchain, None, 100, (/ 1000000)%R, false; split; [exact rchain_reachable|exact E]|].
  split; [exact (c31_direct_equilibrium _ _ _ _ _ rchain_reachable rchain_ready rchain_direct rchain_nonzero E)|].
  exact (rchain_stretch form E).
Qed.
