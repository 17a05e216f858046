(** * Concrete instances for symmetric structures *)

From Coq Require Import String List ZArith Bool Lia Permutation Floats Reals Lra.
From Verif Require Import Py PyFacts Num Diagram DiagramFacts Topology Equilibrium History HistoryFacts Fixtures
  SpecDiagram SpecTopology ChainFacts2 SpecEquilibrium EqFacts ReadyThms RVec EqThms SpecStatics StaticsFacts StaticsThms SpecTransform SpecSymmetry SymmetryThms
  Witness WitnessEq.
Import ListNotations.
Open Scope Z_scope.

(** Three columns that hang side by side, tied to each other at the top, the middle one
    loaded: left and right mirror each other about the plane x = 1. *)
Section Columns.
  Context {T : Type} (z : Z -> T).
  Definition columns : list (op T) :=
    [ node z 0 0 0 0; node z 1 0 (-1) 0; node z 2 1 0 0; node z 3 1 (-1) 0; node z 4 2 0 0; node z 5 2 (-1) 0;
      trail_e z 0 1 1; trail_e z 2 3 1; trail_e z 4 5 1; dev_e z 0 2 2; dev_e z 4 2 2;
      Fixtures.load z 0 0 3 0; Fixtures.load z 2 0 2 0; Fixtures.load z 4 0 3 0; sup 1; sup 3; sup 5 ].
  (** Ties from the tops of the outer columns to the foot of the middle one, and back. *)
  Definition braces : list (op T) := [ dev_e z 0 3 1; dev_e z 4 3 1; dev_e z 2 1 1; dev_e z 2 5 1 ].
End Columns.

Definition rtriple : diagram R := rmade (columns IZR ++ [build]).
Definition across (n : Z) : Z := if n <? 2 then n + 4 else if n <? 4 then n else n - 4.
Definition turned (q : rvec) : rvec := V3 (- vx q)%R (vy q) (vz q).
Definition shifted : rvec := V3 2%R 0%R 0%R.

Lemma turned_isometry : isometry turned.
Proof. constructor; intros; unfold turned; vunf; try (f_equal; ring); ring. Qed.

Lemma rtriple_reachable : reachable rtriple.
Proof. made_reachable. Qed.
Lemma rtriple_ready : ready rtriple.
Proof. apply (rmade_ready _ [[0; 1]; [2; 3]; [4; 5]]); [valid|lazy; reflexivity|lazy; reflexivity|discriminate]. Qed.
Lemma rtriple_direct : direct_only rtriple.
Proof.
  assert (E : deviation_edges rtriple = [(0, 2); (4, 2)]) by (lazy; reflexivity).
  intros u v I. rewrite E in I. destruct I as [I|[I|[]]]; injection I as <- <-; lazy; reflexivity.
Qed.

Lemma rtriple_symmetric : symmetric across (fun p => turned p +v shifted) turned rtriple.
Proof.
  assert (N : nodes rtriple = [0; 1; 2; 3; 4; 5]) by (lazy; reflexivity).
  assert (Es : edges rtriple = [(0, 1); (0, 2); (2, 3); (4, 5); (4, 2)]) by (lazy; reflexivity).
  assert (Tr : stored rtriple = [[0; 1]; [2; 3]; [4; 5]]) by (lazy; reflexivity).
  constructor.
  - rewrite N. apply NoDup_Permutation.
    + repeat constructor; cbn; intuition discriminate.
    + repeat constructor; cbn; intuition discriminate.
    + intros x. cbn. tauto.
  - rewrite Tr. cbn. apply NoDup_Permutation.
    + repeat constructor; cbn; intuition discriminate.
    + repeat constructor; cbn; intuition discriminate.
    + intros x. cbn. tauto.
  - intros n I. rewrite N in I. destruct I as [<-|[<-|[<-|[<-|[<-|[<-|[]]]]]]]; lazy -[Rplus Ropp Rmult]; do 2 f_equal; lra.
  - intros n I. rewrite N in I. destruct I as [<-|[<-|[<-|[<-|[<-|[<-|[]]]]]]]; lazy -[Rplus Ropp Rmult]; do 2 f_equal; lra.
  - intros n I. rewrite N in I. destruct I as [<-|[<-|[<-|[<-|[<-|[<-|[]]]]]]]; lazy -[Rplus Ropp Rmult]; do 2 f_equal; lra.
  - intros n I. rewrite N in I. destruct I as [<-|[<-|[<-|[<-|[<-|[<-|[]]]]]]]; lazy; reflexivity.
  - intros n I. rewrite N in I. destruct I as [<-|[<-|[<-|[<-|[<-|[<-|[]]]]]]]; lazy; reflexivity.
  - intros u v I. rewrite Es in I. rewrite Es. destruct I as [I|[I|[I|[I|[I|[]]]]]]; injection I as <- <-.
    + exists (4, 5). split; [cbn; tauto|]. split; [left; reflexivity|]. repeat split; lazy; reflexivity.
    + exists (4, 2). split; [cbn; tauto|]. split; [left; reflexivity|]. repeat split; lazy; reflexivity.
    + exists (2, 3). split; [cbn; tauto|]. split; [left; reflexivity|]. repeat split; lazy; reflexivity.
    + exists (0, 1). split; [cbn; tauto|]. split; [left; reflexivity|]. repeat split; lazy; reflexivity.
    + exists (0, 2). split; [cbn; tauto|]. split; [left; reflexivity|]. repeat split; lazy; reflexivity.
Qed.

(** The hypotheses of C88 are met, by a structure with a node on the plane of symmetry. *)
Lemma rtriple_form : exists form, static_equilibrium rtriple None 100 (/ 1000000)%R false = Ok form
  /\ symmetric across (fun p => turned p +v shifted) turned form /\ across 0 = 4 /\ across 3 = 3.
Proof.
  destruct (c35_success rtriple None 100 (/ 1000000)%R false rtriple_reachable rtriple_ready
              rtriple_direct I ltac:(lia) ltac:(lra) ltac:(discriminate)) as (f&E&_). exists f. split; auto.
  split; [|split; reflexivity].
  exact (c88_symmetric_partial across turned shifted rtriple _ _ _ f turned_isometry rtriple_reachable rtriple_ready
    rtriple_direct rtriple_symmetric E).
Qed.

(** ** Indirect deviation edges *)

Definition braced : diagram float := made (columns zf ++ braces zf ++ [build]).
Definition turnedf (q : vec float) : vec float := V3 (0 - vx q)%float (vy q) (vz q).
Definition overf (p : vec float) : vec float := V3 (2 - vx p)%float (vy p) (vz p).


Lemma braced_symmetric : symmetric across overf turnedf braced.
Proof.
  assert (N : nodes braced = [0; 1; 2; 3; 4; 5]) by (vm_compute; reflexivity).
  assert (Es : edges braced = [(0, 1); (0, 2); (0, 3); (2, 3); (2, 1); (2, 5); (4, 5); (4, 2); (4, 3)]) by (vm_compute; reflexivity).
  assert (Tr : stored braced = [[0; 1]; [2; 3]; [4; 5]]) by (vm_compute; reflexivity).
  constructor.
  - rewrite N. apply NoDup_Permutation.
    + repeat constructor; cbn; intuition discriminate.
    + repeat constructor; cbn; intuition discriminate.
    + intros x. cbn. tauto.
  - rewrite Tr. cbn. apply NoDup_Permutation.
    + repeat constructor; cbn; intuition discriminate.
    + repeat constructor; cbn; intuition discriminate.
    + intros x. cbn. tauto.
  - intros n I. rewrite N in I. repeat destruct I as [<-|I]; try contradiction; vm_compute; reflexivity.
  - intros n I. rewrite N in I. repeat destruct I as [<-|I]; try contradiction; vm_compute; reflexivity.
  - intros n I. rewrite N in I. repeat destruct I as [<-|I]; try contradiction; vm_compute; reflexivity.
  - intros n I. rewrite N in I. repeat destruct I as [<-|I]; try contradiction; vm_compute; reflexivity.
  - intros n I. rewrite N in I. repeat destruct I as [<-|I]; try contradiction; vm_compute; reflexivity.
  - intros u v I. rewrite Es in I. rewrite Es.
    assert (X : forall e, In e [(4, 5); (4, 2); (4, 3); (2, 3); (2, 5); (2, 1); (0, 1); (0, 2); (0, 3)] ->
      (e = (across u, across v) \/ e = (across v, across u)) ->
      In e [(0, 1); (0, 2); (0, 3); (2, 3); (2, 1); (2, 5); (4, 5); (4, 2); (4, 3)]).
    { intros e J _. cbn in *. tauto. }
    exists (across u, across v). split; [|split; [left; reflexivity|]].
    + apply X; [|left; reflexivity]. repeat destruct I as [I|I]; try contradiction; injection I as <- <-; cbn; tauto.
    + clear X. repeat destruct I as [I|I]; try contradiction; injection I as <- <-; repeat split; vm_compute; reflexivity.
Qed.

(** Braced against each other, the columns are still symmetric.  In every pass the left column is
    placed before the middle one and the right column after it: after two passes the foot of the
    middle column is off the plane of symmetry, which its head is in. *)
Lemma c88_refuted : exists (d form : diagram float) pi P Q n p, reachable d /\ symmetric pi P Q d
  /\ static_equilibrium d None 2 10%float false = Ok form
  /\ pi n = n /\ node_coordinates form n = Ok p /\ PrimFloat.ltb (vx (P p) + 0x1p-4)%float (vx p) = true.
Proof.
  exists braced. eexists. exists across, overf, turnedf, 3. eexists. split; [made_reachable|].
  split; [apply braced_symmetric|]. split; [vm_compute; reflexivity|]. comps.
Qed.
