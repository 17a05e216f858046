(** * Concrete instances for what influences what *)

From Coq Require Import String List ZArith Bool Lia Permutation Floats Reals Lra.
From Verif Require Import Py PyFacts Num Diagram DiagramFacts Topology Equilibrium History HistoryFacts Fixtures
  SpecDiagram SpecTopology ChainFacts2 SpecEquilibrium EqFacts ReadyThms RVec EqThms SpecStatics StaticsFacts StaticsThms SpecInfluence InfluenceThms
  Witness WitnessEq.
Import ListNotations.
Open Scope Z_scope.

(** ** Renaming *)

(** The funicular of three bars with other names, in another order, with the edges turned round. *)
Definition funicular_other : list (op R) :=
  [ OpAddNode (Some 11) (V3 (hf IZR 5) (IZR 0) (IZR 0)); node IZR 13 0 0 0;
    OpAddNode (Some 10) (V3 (hf IZR 7) (IZR 0) (IZR 0)); node IZR 12 1 0 0;
    trail_e IZR 10 11 (-1); dev_e IZR 11 12 (-1); trail_e IZR 12 13 (-1);
    sup 10; sup 13; Fixtures.load IZR 11 0 (-1) 0; Fixtures.load IZR 12 0 (-1) 0 ].
Definition rother : diagram R := rmade (funicular_other ++ [build]).
Definition swap (n : Z) : Z := 13 - n.

Lemma rother_reachable : reachable rother.
Proof. made_reachable. Qed.
Lemma rother_ready : ready rother.
Proof. apply (rmade_ready _ [[11; 10]; [12; 13]]); [valid|lazy; reflexivity|lazy; reflexivity|discriminate]. Qed.

Lemma other_direct : direct_only rother.
Proof.
  assert (E : deviation_edges rother = [(11, 12)]) by (lazy; reflexivity).
  intros u v I. rewrite E in I. destruct I as [I|[]]. injection I as <- <-. lazy. reflexivity.
Qed.
Lemma rother_forms : exists form, static_equilibrium rother None 100 (/ 1000000)%R false = Ok form.
Proof.
  destruct (c35_success rother None 100 (/ 1000000)%R false rother_reachable rother_ready
              other_direct I ltac:(lia) ltac:(lra) ltac:(discriminate)) as (f&E&_). eauto.
Qed.

Lemma rother_renamed : renamed swap funicular rother.
Proof.
  assert (N : nodes funicular = [0; 1; 2; 3]) by (lazy; reflexivity).
  assert (N' : nodes rother = [11; 13; 10; 12]) by (lazy; reflexivity).
  assert (Es : edges funicular = [(0, 1); (1, 2); (2, 3)]) by (lazy; reflexivity).
  assert (Es' : edges rother = [(11, 12); (10, 11); (12, 13)]) by (lazy; reflexivity).
  assert (Tr : stored funicular = [[1; 0]; [2; 3]]) by (lazy; reflexivity).
  assert (Tr' : stored rother = [[12; 13]; [11; 10]]) by (lazy; reflexivity).
  assert (E1 : edge_get rother (12, 13) = edge_get funicular (0, 1)) by (lazy; reflexivity).
  assert (E2 : edge_get rother (11, 12) = edge_get funicular (1, 2)) by (lazy; reflexivity).
  assert (E3 : edge_get rother (10, 11) = edge_get funicular (2, 3)) by (lazy; reflexivity).
  constructor.
  - rewrite N, N'. cbn. repeat (apply NoDup_Permutation || idtac).
    + repeat constructor; cbn; intuition discriminate.
    + repeat constructor; cbn; intuition discriminate.
    + intros x. cbn. tauto.
  - rewrite Tr, Tr'. cbn. reflexivity.
  - intros u v I. rewrite Es in I. rewrite Es'. destruct I as [I|[I|[I|[]]]]; injection I as <- <-.
    + exists (12, 13). rewrite E1. cbn. tauto.
    + exists (11, 12). rewrite E2. cbn. tauto.
    + exists (10, 11). rewrite E3. cbn. tauto.
  - intros e' I. rewrite Es' in I. rewrite Es. destruct I as [I|[I|[I|[]]]]; subst e'.
    + exists 1, 2. rewrite E2. cbn. tauto.
    + exists 2, 3. rewrite E3. cbn. tauto.
    + exists 0, 1. rewrite E1. cbn. tauto.
  - intros n I. rewrite N in I. destruct I as [<-|[<-|[<-|[<-|[]]]]]; repeat split; lazy; reflexivity.
Qed.

(** ** Indirect deviation edges: the order in which the nodes were added matters *)

Definition row_a : list (op float) := [node zf 0 0 0 0; node zf 1 1 0 0; node zf 2 2 0 0].
Definition row_b : list (op float) := [node zf 3 0 3 0; node zf 4 1 3 0; node zf 5 2 3 0].
Definition joined_rows : list (op float) :=
  [ trail_e zf 0 1 1; trail_e zf 1 2 1; trail_e zf 3 4 1; trail_e zf 4 5 1; dev_e zf 1 5 1; dev_e zf 0 4 3;
    Fixtures.load zf 0 (-4) 0 0; Fixtures.load zf 3 (-4) 0 0; sup 2; sup 5; build ].
Definition rows_ab : diagram float := made (row_a ++ row_b ++ joined_rows).
Definition rows_ba : diagram float := made (row_b ++ row_a ++ joined_rows).

Lemma rows_renamed : renamed (fun n => n) rows_ab rows_ba.
Proof.
  assert (N : nodes rows_ab = [0; 1; 2; 3; 4; 5]) by (vm_compute; reflexivity).
  assert (N' : nodes rows_ba = [3; 4; 5; 0; 1; 2]) by (vm_compute; reflexivity).
  assert (Tr : stored rows_ab = [[0; 1; 2]; [3; 4; 5]]) by (vm_compute; reflexivity).
  assert (Tr' : stored rows_ba = [[3; 4; 5]; [0; 1; 2]]) by (vm_compute; reflexivity).
  assert (Es : forall e, In e (edges rows_ba) <-> In e (edges rows_ab)).
  { intros e. vm_compute. tauto. }
  assert (Eg : forall e, In e (edges rows_ab) -> edge_get rows_ba e = edge_get rows_ab e).
  { intros e I. vm_compute in I. repeat destruct I as [<-|I]; try contradiction; vm_compute; reflexivity. }
  constructor.
  - rewrite N, N'. change (Permutation ([3; 4; 5] ++ [0; 1; 2]) ([0; 1; 2] ++ [3; 4; 5])). apply Permutation_app_comm.
  - rewrite Tr, Tr'. cbn. apply perm_swap.
  - intros u v I. exists (u, v). split; [exact (proj2 (Es _) I)|]. split; [left; reflexivity|exact (Eg _ I)].
  - intros [u v] I. exists u, v. assert (J := proj1 (Es _) I). split; [exact J|]. split; [left; reflexivity|exact (Eg _ J)].
  - intros n I. rewrite N in I. repeat destruct I as [<-|I]; try contradiction; repeat split; vm_compute; reflexivity.
Qed.

(** Two rows, each built up from the left: after two passes the right end of the first row is
    elsewhere if the second row was added first. *)
Lemma c74_refuted : exists (d d' form form' : diagram float) n p p', reachable d /\ reachable d'
  /\ renamed (fun n => n) d d'
  /\ static_equilibrium d None 2 10%float false = Ok form
  /\ static_equilibrium d' None 2 10%float false = Ok form'
  /\ node_coordinates form n = Ok p /\ node_coordinates form' n = Ok p'
  /\ PrimFloat.ltb (vx p + 0x1p-8)%float (vx p') = true.
Proof.
  exists rows_ab, rows_ba. do 2 eexists. exists 2. do 2 eexists. split; [made_reachable|]. split; [made_reachable|].
  split; [apply rows_renamed|]. split; [vm_compute; reflexivity|]. split; [vm_compute; reflexivity|]. comps.
Qed.

(** ** Later on the trails *)

(** A load on the second node of the chain, which may only move the third and the fourth. *)
Definition later_load : op R := OpAddLoad (RKey 1) (V3 0 (-1) 0)%R.
Lemma later_load_late : late rchain 1 later_load.
Proof. exists 1, 1. split; [lazy; reflexivity|]. split; [lazy; reflexivity|lia]. Qed.
Definition rloaded : diagram R := fst (call later_load rchain).
Lemma rloaded_is : rloaded = rmade ((tension_chain IZR ++ [build]) ++ [later_load]).
Proof. exact (eq_sym (rmade_snoc (tension_chain IZR ++ [build]) later_load)). Qed.
Lemma rloaded_direct : direct_only rloaded.
Proof.
  assert (E : deviation_edges rloaded = []) by (lazy; reflexivity).
  intros u v I. rewrite E in I. destruct I.
Qed.
Lemma rloaded_reachable : reachable rloaded.
Proof. rewrite rloaded_is. made_reachable. Qed.
Lemma rloaded_ready : ready rloaded.
Proof. apply c61_ready_kept; [apply rchain_reachable|apply rchain_ready|exact I]. Qed.
Lemma rloaded_forms : exists form, static_equilibrium rloaded None 100 (/ 1000000)%R false = Ok form.
Proof.
  destruct (c35_success rloaded None 100 (/ 1000000)%R false rloaded_reachable rloaded_ready
              rloaded_direct I ltac:(lia) ltac:(lra) ltac:(discriminate)) as (f&E&_). eauto.
Qed.

Lemma rloaded_same : upstream rchain (up_to rchain 1) /\ same_upstream (up_to rchain 1) rchain rloaded
  /\ up_to rchain 1 1 /\ node_load rloaded 1 <> node_load rchain 1.
Proof.
  split; [apply up_to_upstream; [apply rchain_direct|apply reachable_wf, rchain_reachable|apply rchain_ready]|].
  split; [apply late_same; [apply rchain_reachable|apply rchain_ready|apply rchain_direct|apply later_load_late]|].
  split; [exists 1; split; [lazy; reflexivity|lia]|].
  intros X. lazy in X. apply Ok_inj in X. apply (f_equal vy) in X. cbn in X. lra.
Qed.

(** ** A part of a larger structure *)

(** The funicular, and beside it a strut. *)
Definition beside : list (op R) :=
  [ node IZR 20 9 0 0; node IZR 21 9 2 0; trail_e IZR 20 21 (-1); sup 20; Fixtures.load IZR 21 0 (-1) 0 ].
Definition rboth : diagram R := rmade ((beside ++ threebar_funicular IZR) ++ [build]).
Lemma rboth_reachable : reachable rboth.
Proof. made_reachable. Qed.
Lemma rboth_ready : ready rboth.
Proof. apply (rmade_ready _ [[21; 20]; [1; 0]; [2; 3]]); [valid|lazy; reflexivity|lazy; reflexivity|discriminate]. Qed.
Lemma rboth_direct : direct_only rboth.
Proof.
  assert (E : deviation_edges rboth = [(1, 2)]) by (lazy; reflexivity).
  intros u v I. rewrite E in I. destruct I as [I|[]]. injection I as <- <-. lazy. reflexivity.
Qed.
Lemma rboth_forms : exists form, static_equilibrium rboth None 100 (/ 1000000)%R false = Ok form.
Proof.
  destruct (c35_success rboth None 100 (/ 1000000)%R false rboth_reachable rboth_ready
              rboth_direct I ltac:(lia) ltac:(lra) ltac:(discriminate)) as (f&E&_). eauto.
Qed.

Lemma two_pairs (tr l1 l2 : list Z) n m : In tr [[1; 0]; [2; 3]] -> tr = l1 ++ n :: m :: l2 ->
  n = 1 /\ m = 0 \/ n = 2 /\ m = 3.
Proof.
  intros It El. destruct It as [It|[It|[]]]; subst tr; destruct l1 as [|x [|y l1]]; injection El as; subst; auto; try discriminate;
    destruct l1; discriminate.
Qed.
Lemma two_edges n m (e e' : ekey) : n = 1 /\ m = 0 \/ n = 2 /\ m = 3 -> e = (n, m) \/ e = (m, n) -> In e [(0, 1); (2, 3)] ->
  e' = (n, m) \/ e' = (m, n) -> In e' [(20, 21); (0, 1); (2, 3)] -> e = (0, 1) /\ e' = (0, 1) \/ e = (2, 3) /\ e' = (2, 3).
Proof.
  intros Q Oe Ie Oe' Ie'. destruct Q as [[-> ->]|[-> ->]]; destruct Oe as [->| ->]; destruct Oe' as [->| ->]; cbn in Ie, Ie'; intuition congruence.
Qed.

Definition itself (n n' : Z) : Prop := n = n' /\ In n [0; 1; 2; 3].
Lemma rboth_matched : matched itself funicular rboth.
Proof.
  assert (N : nodes funicular = [0; 1; 2; 3]) by (lazy; reflexivity).
  assert (N' : nodes rboth = [20; 21; 0; 1; 2; 3]) by (lazy; reflexivity).
  assert (Tr : stored funicular = [[1; 0]; [2; 3]]) by (lazy; reflexivity).
  assert (Tr' : stored rboth = [[21; 20]; [1; 0]; [2; 3]]) by (lazy; reflexivity).
  assert (D : deviation_edges funicular = [(1, 2)]) by (lazy; reflexivity).
  assert (D' : deviation_edges rboth = [(1, 2)]) by (lazy; reflexivity).
  assert (Fd : edge_force rboth (1, 2) = edge_force funicular (1, 2)) by (lazy; reflexivity).
  assert (Te : trail_edges funicular = [(0, 1); (2, 3)]) by (lazy; reflexivity).
  assert (Te' : trail_edges rboth = [(20, 21); (0, 1); (2, 3)]) by (lazy; reflexivity).
  assert (At : forall (x : diagram R) n e, deviation_edges x = [(1, 2)] -> deviation_at x n e <-> e = (1, 2) /\ (n = 1 \/ n = 2)).
  { intros x n e Ed. unfold deviation_at. rewrite Ed. cbn. split; [intros ([<-|[]]&O); cbn in O; intuition|intros (->&O); cbn; intuition]. }
  assert (Dir : forall n, direct_at rboth n) by (intros n [a b] [I _]; exact (rboth_direct a b I)).
  assert (Dir' : forall n, direct_at funicular n) by (intros n [a b] [I _]; exact (proj1 funicular_direct a b I)).
  constructor.
  - intros n a b [<- _] [<- _]. reflexivity.
  - intros a b n [<- _] [<- _]. reflexivity.
  - intros n n' [<- I]. rewrite N, N'. split; [exact I|right; right; exact I].
  - intros n n' [<- I] (tr&It&(r&Sr)). rewrite Tr in It. split.
    + exists tr. split; [rewrite Tr'; right; exact It|exists r; exact Sr].
    + destruct It as [It|[It|[]]]; subst tr; injection Sr as <- _; lazy; reflexivity.
  - intros n m m' [<- I] (tr&It&l1&l2&El). rewrite Tr in It.
    assert (Fo : follows rboth n m) by (exists tr; split; [rewrite Tr'; right; exact It|exists l1, l2; exact El]).
    assert (Q : n = 1 /\ m = 0 \/ n = 2 /\ m = 3).
    { exact (two_pairs tr l1 l2 n m It El). }
    exists n. split; [split; [reflexivity|destruct Q as [[-> _]|[-> _]]; cbn; tauto]|]. split; [exact Fo|]. split; [apply Dir'|]. split; [apply Dir|]. split.
    + constructor.
      * destruct Q as [[-> _]|[-> _]]; lazy; reflexivity.
      * intros e A. destruct (proj1 (At funicular n e D) A) as [-> O]. exists (1, 2).
        split; [exact (proj2 (At rboth _ _ D') (conj eq_refl O))|]. split; [split; [reflexivity|destruct O as [->| ->]; [right; right; left|right; left]; reflexivity]|exact Fd].
      * intros e A. destruct (proj1 (At rboth n e D') A) as [-> O]. exists (1, 2).
        split; [exact (proj2 (At funicular _ _ D) (conj eq_refl O))|]. split; [split; [reflexivity|destruct O as [->| ->]; [right; right; left|right; left]; reflexivity]|exact Fd].
    + assert (L1 : edge_length_2 rboth (0, 1) = edge_length_2 funicular (0, 1)) by (lazy; reflexivity).
      assert (L2 : edge_length_2 rboth (2, 3) = edge_length_2 funicular (2, 3)) by (lazy; reflexivity).
      assert (P1 : edge_plane rboth (0, 1) = edge_plane funicular (0, 1)) by (lazy; reflexivity).
      assert (P2 : edge_plane rboth (2, 3) = edge_plane funicular (2, 3)) by (lazy; reflexivity).
      intros e e' [Ie Oe] [Ie' Oe']. rewrite Te in Ie. rewrite Te' in Ie'.
      assert (X : e = (0, 1) /\ e' = (0, 1) \/ e = (2, 3) /\ e' = (2, 3)).
      { exact (two_edges n m e e' Q Oe Ie Oe' Ie'). }
      destruct X as [[-> ->]|[-> ->]]; split; assumption.
Qed.

(** ** One more pass *)

(** A row of bars with a tie between its ends: the second and the third correction move it by
    the same amount, up to a few thousandths. *)
Definition tied : list (op float) :=
  [ node zf 0 0 0 0; node zf 1 1 0 0; node zf 2 2 0 0; node zf 3 3 0 0;
    trail_e zf 0 1 1; trail_e zf 1 2 1; trail_e zf 2 3 1; dev_e zf 0 3 3;
    Fixtures.load zf 0 (-4) 0 0; Fixtures.load zf 1 0 (-4) 0; Fixtures.load zf 2 0 1 0; sup 3; build ].
(** What the second correction moves it by. *)
Definition tied_step : float := Eval vm_compute in
  match trails_sequences (made tied) with
  | Ok ts => match after (made tied) ts None 2, after (made tied) ts None 3 with
             | Ok a, Ok b => value 0%float (residual_distance (s_xyz a) (s_xyz b))
             | _, _ => 0%float
             end
  | _ => 0%float
  end.
Lemma c76_refuted : exists (d form : diagram float) eta, reachable d
  /\ static_equilibrium d None 3 eta false = Ok form
  /\ static_equilibrium d None 4 eta false = Err (ValueError "Over iters")
  /\ static_equilibrium d None 100 eta false = Err (ValueError "Over iters").
Proof.
  exists (made tied). eexists. exists tied_step. split; [made_reachable|]. split; [vm_compute; reflexivity|].
  split; vm_compute; reflexivity.
Qed.
