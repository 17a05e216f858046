(** * Concrete instances for what form finding says *)

From Coq Require Import String List ZArith Bool Lia Floats Reals Lra.
From Verif Require Import Py PyFacts Num Diagram DiagramFacts Topology Equilibrium Messages History HistoryFacts Fixtures
  SpecDiagram SpecTopology SpecEquilibrium SpecMessages ReadyThms RVec EqThms SpecStatics StaticsFacts StaticsThms MessageThms
  Witness WitnessEq.
Import ListNotations.
Open Scope Z_scope.

(** The hypotheses of C89 and C90 are met: a chain with planes. *)
Lemma messages_example : exists form l o nrm, reachable rchain /\ ready rchain /\ direct_only rchain
  /\ outcome (static_equilibrium_out rchain None 100 (/ 1000000)%R false true) = Ok form
  /\ follows rchain 0 1 /\ edge_between rchain 0 1 (0, 1) /\ edge_length_2 rchain (0, 1) = Ok l /\ (l <> 0)%R
  /\ edge_plane rchain (0, 1) = Ok (Some (o, nrm)) /\ force form (0, 1) <> 0%R.
Proof.
  destruct rchain_forms as (form&E). exists form. eexists. eexists. eexists.
  split; [apply rchain_reachable|]. split; [apply rchain_ready|]. split; [apply rchain_direct|].
  split; [rewrite c89_same; exact E|]. split.
  { assert (S : stored rchain = [[0; 1; 2; 3]]) by (lazy; reflexivity). exists [0; 1; 2; 3]. split; [rewrite S; now left|].
    exists [], [2; 3]. reflexivity. }
  split.
  { assert (S : trail_edges rchain = [(0, 1); (1, 2); (2, 3)]) by (lazy; reflexivity). split; [|left; reflexivity].
    rewrite S. now left. }
  split; [lazy; reflexivity|]. split; [lra|]. split; [lazy; reflexivity|]. apply (rchain_forces form E).
Qed.

(** What is said of a plane that lies behind: in both passes, between the calls of the callback. *)
Lemma messages_behind : said (static_equilibrium_out (made (behind ++ [build])) None 100 0x1.4f8b588e368f1p-17%float true true)
  = [Flipped (0, 1); Called; Flipped (0, 1); Called; Completed 1].
Proof. vm_compute. reflexivity. Qed.

(** Two columns.  The first pass leaves out the tie that goes from the head of the first column to the foot of
    the second, and puts the foot of the first one above its head; with the tie it is below, as it should be. *)
Definition tied : list (op float) :=
  [ node zf 0 0 0 0; node zf 1 0 0 (-1); node zf 3 1 0 (-3); node zf 4 1 0 (-4);
    OpAddEdge (RKey 0) (RKey 1) (TrailEdge (zf (-1)) (Some (fv 0 0 (-1), fv 0 0 1)));
    trail_e zf 3 4 (-1); dev_e zf 0 4 5; sup 1; sup 4; Fixtures.load zf 0 0 0 1; Fixtures.load zf 3 0 0 (-1) ].

(** The warning of the first pass is wrong about the form. *)
Lemma c89_refuted : exists (d form : diagram float) e l f, reachable d
  /\ outcome (static_equilibrium_out d None 100 0x1.4f8b588e368f1p-17%float false false) = Ok form
  /\ In (Flipped e) (said (static_equilibrium_out d None 100 0x1.4f8b588e368f1p-17%float false false))
  /\ edge_length_2 d e = Ok l /\ edge_force form e = Ok f
  /\ PrimFloat.ltb l 0 = true /\ PrimFloat.ltb f 0 = true.
Proof.
  exists (made (tied ++ [build])). eexists. exists (0, 1). eexists. eexists. split; [made_reachable|].
  split; [vm_compute; reflexivity|]. split; [vm_compute; left; reflexivity|]. comps.
Qed.

(** Two passes, four calls; and the message tells of one. *)
Lemma c90_refuted : exists d : diagram float, reachable d
  /\ said (static_equilibrium_out d None 2 0x1.4f8b588e368f1p-17%float true true)
     = [Called; Called; Called; Called; Completed 1].
Proof.
  exists (made (threebar_funicular zf ++ [build])). split; [made_reachable|]. vm_compute. reflexivity.
Qed.
