(** * Parts of a structure, and virtual work (C97, C98)

    Generated by tools/gen_props.py from the lemmas of SectionThms.v.  The vocabulary is in
    SpecStatics.v and SpecSections.v. *)

From Coq Require Import String List ZArith Bool Lia Reals Lra.
From Verif Require Import Py PyFacts Num Diagram Topology Equilibrium History HistoryFacts Fixtures SpecDiagram SpecTopology
  SpecEquilibrium SpecStatics RVec EqThms StaticsThms SpecSections SectionThms Witness WitnessEq WitnessInfluence WitnessSections.
Import ListNotations.
Open Scope Z_scope.

Implicit Types (f d form : diagram R) (S : list Z) (e : ekey).

(** ** Parts *)

@thm c97_section
@thm c97_error
@thm c97_apart
@thm c97_single
@thm c97_levels

(** ** Virtual work *)

@thm c98_virtual_work
@thm c98_maxwell
@thm c98_rigid
@assume

(** ** The hypotheses can be met *)

Lemma first_two : NoDup [0; 1] /\ incl [0; 1] [0; 1; 2; 3].
Proof. split; [repeat constructor; cbn; intuition discriminate|]. intros n [<-|[<-|[]]]; cbn; tauto. Qed.
Lemma strut_apart : NoDup [20; 21] /\ incl [20; 21] [20; 21; 0; 1; 2; 3] /\ incl [0; 1; 2; 3] [20; 21; 0; 1; 2; 3]
  /\ forall u v : Z, In (u, v) [(20, 21); (0, 1); (1, 2); (2, 3)] -> In u [20; 21] <-> In v [20; 21].
Proof.
  split; [repeat constructor; cbn; intuition discriminate|]. split; [intros n [<-|[<-|[]]]; cbn; tauto|]. split.
  - intros n I. right. right. exact I.
  - intros u v I. destruct I as [I|[I|[I|[I|[]]]]]; injection I as <- <-; cbn; intuition discriminate.
Qed.

(** The upper half of the tension chain: one edge is cut, and it carries a force. *)
Example C97_nonvacuous : exists form, static_equilibrium rchain None 100 (/ 1000000)%R false = Ok form
  /\ reachable rchain /\ ready rchain /\ direct_only rchain /\ nonzero_trails rchain
  /\ part form [0; 1] /\ (forall n, In n [0; 1] -> unbalanced form n = v0)
  /\ cut form [0; 1] = [(1, 2)] /\ force form (1, 2) <> 0%R /\ levels_to rchain 1 = [0; 1].
Proof.
  destruct rchain_forms as (form&E). exists form. split; [exact E|].
  split; [exact rchain_reachable|]. split; [exact rchain_ready|]. split; [exact rchain_direct|]. split; [exact rchain_nonzero|].
  destruct (c37_frame _ _ _ _ _ _ rchain_reachable E) as (Nf&Ef&_).
  assert (N : nodes rchain = [0; 1; 2; 3]) by (lazy; reflexivity).
  assert (Es : edges rchain = [(0, 1); (1, 2); (2, 3)]) by (lazy; reflexivity).
  assert (P : part form [0; 1]).
  { split; [exact (proj1 first_two)|]. rewrite Nf, N. exact (proj2 first_two). }
  split; [exact P|]. split.
  { intros n I. apply (c31_direct_equilibrium _ _ _ _ _ rchain_reachable rchain_ready rchain_direct rchain_nonzero E).
    apply P, I. }
  split; [unfold cut; rewrite Ef, Es; reflexivity|]. split; [exact (proj2 (rchain_forces form E))|]. lazy. reflexivity.
Qed.

(** A strut beside the funicular is a part by itself; and the form is in equilibrium. *)
Example C97_apart_nonvacuous : exists form, static_equilibrium rboth None 100 (/ 1000000)%R false = Ok form
  /\ produced form /\ balanced form /\ part form [20; 21] /\ (forall u v, In (u, v) (edges form) -> In u [20; 21] <-> In v [20; 21])
  /\ incl [0; 1; 2; 3] (nodes form).
Proof.
  destruct rboth_forms as (form&E). exists form. split; [exact E|].
  split; [right; exists rboth, None, 100, (/ 1000000)%R, false; split; [exact rboth_reachable|exact E]|].
  destruct (c37_frame _ _ _ _ _ _ rboth_reachable E) as (Nf&Ef&_).
  assert (N : nodes rboth = [20; 21; 0; 1; 2; 3]) by (lazy; reflexivity).
  assert (Es : edges rboth = [(20, 21); (0, 1); (1, 2); (2, 3)]) by (lazy; reflexivity).
  assert (Nz : nonzero_trails rboth).
  { assert (Q : trail_edges rboth = [(20, 21); (0, 1); (2, 3)]) by (lazy; reflexivity).
    intros e l I El. rewrite Q in I. destruct I as [<-|[<-|[<-|[]]]]; lazy in El; apply Ok_inj in El; subst l; lra. }
  split; [exact (c31_direct_equilibrium _ _ _ _ _ rboth_reachable rboth_ready rboth_direct Nz E)|].
  rewrite Nf, Ef. split; [|split].
  - split; [exact (proj1 strut_apart)|]. rewrite Nf, N. exact (proj1 (proj2 strut_apart)).
  - rewrite Es. exact (proj2 (proj2 (proj2 strut_apart))).
  - rewrite N. exact (proj1 (proj2 (proj2 strut_apart))).
Qed.

(** C98: the tension chain is in equilibrium, and moving one node is a displacement that stretches an edge. *)
Example C98_nonvacuous : exists form, produced form /\ balanced form /\ Rlt 0%R (span form (0, 1))
  /\ exists w, elongation form w (0, 1) <> 0%R.
Proof.
  destruct rchain_forms as (form&E). exists form.
  split; [right; exists rchain, None, 100, (/ 1000000)%R, false; split; [exact rchain_reachable|exact E]|].
  split; [exact (c31_direct_equilibrium _ _ _ _ _ rchain_reachable rchain_ready rchain_direct rchain_nonzero E)|].
  exact (rchain_stretch form E).
Qed.
