(** * A structure written down by hand, and forms at rest *)

From Coq Require Import String List ZArith Bool Lia Permutation Reals Lra.
From Verif Require Import Py PyFacts Num Diagram DiagramFacts Topology Equilibrium History HistoryFacts Fixtures SpecDiagram SpecTopology
  TopologyFacts EqFacts SpecEquilibrium SpecStatics RVec StaticsFacts EqThms StaticsThms SpecUnique UniqueThms RestThms Witness WitnessEq.
Import ListNotations.
Open Scope Z_scope.

(** The tension chain with the nodes at 0, 3/2, 5/2 and 4 of the first axis, all edges
    with a tension of one, and a reaction of one at the support. *)
Definition hand_chain : diagram R :=
  fst (node_set 3 (fun a => set_reac a (V3 1 0 0)%R)
    (rmade [ OpAddNode (Some 0) (V3 0 0 0)%R; OpAddNode (Some 1) (V3 (3/2) 0 0)%R;
             OpAddNode (Some 2) (V3 (5/2) 0 0)%R; OpAddNode (Some 3) (V3 4 0 0)%R;
             trail_e IZR 0 1 1; trail_e IZR 1 2 1; trail_e IZR 2 3 1; sup 3; Fixtures.load IZR 0 (-1) 0 0;
             OpSetForce (0, 1) 1%R; OpSetForce (1, 2) 1%R; OpSetForce (2, 3) 1%R ])).

Lemma along_x (a b : R) : (0 < b - a)%R ->
  direction (V3 b 0 0 -v V3 a 0 0)%R = (V3 1 0 0)%R /\ direction (V3 a 0 0 -v V3 b 0 0)%R = (V3 (-1) 0 0)%R
  /\ magnitude (V3 b 0 0 -v V3 a 0 0)%R = (b - a)%R.
Proof.
  intros P.
  assert (M : magnitude (V3 b 0 0 -v V3 a 0 0)%R = (b - a)%R).
  { unfold magnitude. vunf. replace ((b - a) * (b - a) + (0 - 0) * (0 - 0) + (0 - 0) * (0 - 0))%R with ((b - a) * (b - a))%R by ring.
    apply sqrt_square. lra. }
  assert (M' : magnitude (V3 a 0 0 -v V3 b 0 0)%R = (b - a)%R).
  { unfold magnitude. vunf. replace ((a - b) * (a - b) + (0 - 0) * (0 - 0) + (0 - 0) * (0 - 0))%R with ((b - a) * (b - a))%R by ring.
    apply sqrt_square. lra. }
  split; [|split; auto].
  - unfold direction. rewrite M. vunf. f_equal; field; lra.
  - unfold direction. rewrite M'. vunf. f_equal; field; lra.
Qed.

Lemma hand_positions : position hand_chain 0 = (V3 0 0 0)%R /\ position hand_chain 1 = (V3 (3/2) 0 0)%R
  /\ position hand_chain 2 = (V3 (5/2) 0 0)%R /\ position hand_chain 3 = (V3 4 0 0)%R.
Proof. split; [lazy; reflexivity|]. split; [lazy; reflexivity|]. split; lazy; reflexivity. Qed.
Lemma hand_forces : force hand_chain (0, 1) = 1%R /\ force hand_chain (1, 2) = 1%R /\ force hand_chain (2, 3) = 1%R.
Proof. split; [lazy; reflexivity|]. split; lazy; reflexivity. Qed.

Lemma chain_follows n m : follows rchain n m -> (n = 0 /\ m = 1) \/ (n = 1 /\ m = 2) \/ (n = 2 /\ m = 3).
Proof.
  assert (Tr : stored rchain = [[0; 1; 2; 3]]) by (lazy; reflexivity).
  intros (tr&I&l&r&E). rewrite Tr in I. destruct I as [<-|[]].
  destruct l as [|a [|b [|c [|x l]]]]; cbn in E.
  - injection E as <- <- _. auto.
  - injection E as _ <- <- _. auto.
  - injection E as _ _ <- <- _. auto.
  - discriminate.
  - injection E as _ _ _ _ E. destruct l; discriminate.
Qed.

Lemma hand_structure : structure rchain hand_chain.
Proof.
  assert (N : nodes rchain = [0; 1; 2; 3]) by (lazy; reflexivity).
  assert (Nh : nodes hand_chain = [0; 1; 2; 3]) by (lazy; reflexivity).
  assert (Es : edges rchain = [(0, 1); (1, 2); (2, 3)]) by (lazy; reflexivity).
  assert (Eh : edges hand_chain = [(0, 1); (1, 2); (2, 3)]) by (lazy; reflexivity).
  assert (Tr : trails rchain = [(0, [0; 1; 2; 3])]) by (lazy; reflexivity).
  assert (Tr1 : trail_edges rchain = [(0, 1); (1, 2); (2, 3)]) by (lazy; reflexivity).
  assert (De : deviation_edges rchain = []) by (lazy; reflexivity).
  destruct hand_positions as (P0&P1&P2&P3). destruct hand_forces as (F0&F1&F2).
  destruct (along_x 0 (3/2) ltac:(lra)) as (A1&A2&A3). destruct (along_x (3/2) (5/2) ltac:(lra)) as (B1&B2&B3).
  destruct (along_x (5/2) 4 ltac:(lra)) as (C1&C2&C3).
  assert (Pl0 : edge_plane rchain (0, 1) = Ok (Some (V3 (3/2) 0 0, V3 1 0 0)%R)) by (lazy; reflexivity).
  assert (Pl1 : edge_plane rchain (1, 2) = Ok None) by (lazy; reflexivity).
  assert (Pl2 : edge_plane rchain (2, 3) = Ok (Some (V3 4 0 0, V3 1 0 0)%R)) by (lazy; reflexivity).
  constructor; rewrite ?N, ?Nh, ?Es, ?Eh, ?Tr, ?De; auto.
  - intros n [<-|[<-|[<-|[<-|[]]]]]; lazy; reflexivity.
  - intros key tr [E|[]]. injection E as <- <-. lazy. reflexivity.
  - intros e [].
  - intros n [<-|[<-|[<-|[<-|[]]]]]; [lazy; reflexivity|lazy; reflexivity|lazy; reflexivity|]. intros X. lazy in X. discriminate.
  - intros n m e F [It Ee] _ l Le. rewrite Tr1 in It.
    destruct (chain_follows n m F) as [[-> ->]|[[-> ->]|[-> ->]]].
    + assert (e = (0, 1)) by (cbn in It; destruct Ee as [->| ->]; [auto|intuition congruence]). subst e. rewrite Pl0.
      assert (U : ~ unfit hand_chain 0 1 (V3 (3/2) 0 0)%R (V3 1 0 0)%R).
      { unfold unfit, on_plane. rewrite P0, P1, A1. intros [X|X]; vunf; [|lra].
        replace (1 * 1 + 0 * 0 + 0 * 0)%R with 1%R in X by ring. rewrite Rabs_R1 in X. lra. }
      split; [contradiction|]. intros _. unfold on_plane. rewrite P1. vunf. lra.
    + assert (e = (1, 2)) by (cbn in It; destruct Ee as [->| ->]; [auto|intuition congruence]). subst e. rewrite Pl1.
      assert (E1 : edge_length_2 rchain (1, 2) = Ok 1%R) by (lazy; reflexivity). rewrite E1 in Le. injection Le as <-.
      split; [|rewrite F1; split; lra]. unfold span. cbn [fst snd]. rewrite P1, P2, B3, Rabs_R1. lra.
    + assert (e = (2, 3)) by (cbn in It; destruct Ee as [->| ->]; [auto|intuition congruence]). subst e. rewrite Pl2.
      assert (U : ~ unfit hand_chain 2 3 (V3 4 0 0)%R (V3 1 0 0)%R).
      { unfold unfit, on_plane. rewrite P2, P3, C1. intros [X|X]; vunf; [|lra].
        replace (1 * 1 + 0 * 0 + 0 * 0)%R with 1%R in X by ring. rewrite Rabs_R1 in X. lra. }
      split; [contradiction|]. intros _. unfold on_plane. rewrite P3. vunf. lra.
  - intros n I. rewrite Nh in I.
    assert (I0 : incident hand_chain 0 = [(0, 1)]) by (unfold incident; rewrite Eh; reflexivity).
    assert (I1 : incident hand_chain 1 = [(0, 1); (1, 2)]) by (unfold incident; rewrite Eh; reflexivity).
    assert (I2 : incident hand_chain 2 = [(1, 2); (2, 3)]) by (unfold incident; rewrite Eh; reflexivity).
    assert (I3 : incident hand_chain 3 = [(2, 3)]) by (unfold incident; rewrite Eh; reflexivity).
    assert (L0 : load hand_chain 0 = (V3 (-1) 0 0)%R) by (lazy; reflexivity).
    assert (L1 : load hand_chain 1 = v0) by (lazy; reflexivity).
    assert (L2 : load hand_chain 2 = v0) by (lazy; reflexivity).
    assert (L3 : load hand_chain 3 = v0) by (lazy; reflexivity).
    assert (R0 : reaction hand_chain 0 = v0) by (lazy; reflexivity).
    assert (R1 : reaction hand_chain 1 = v0) by (lazy; reflexivity).
    assert (R2 : reaction hand_chain 2 = v0) by (lazy; reflexivity).
    assert (R3 : reaction hand_chain 3 = (V3 1 0 0)%R) by (lazy; reflexivity).
    unfold unbalanced, pull. destruct I as [<-|[<-|[<-|[<-|[]]]]].
    + rewrite I0, L0, R0. cbn [map]. rewrite vsum_cons. change (vsum []) with v0.
      change (far_end (0, 1) 0) with 1. rewrite P0, P1, F0, A1. vring.
    + rewrite I1, L1, R1. cbn [map]. rewrite !vsum_cons. change (vsum []) with v0.
      change (far_end (0, 1) 1) with 0. change (far_end (1, 2) 1) with 2. rewrite P0, P1, P2, F0, F1, A2, B1. vring.
    + rewrite I2, L2, R2. cbn [map]. rewrite !vsum_cons. change (vsum []) with v0.
      change (far_end (1, 2) 2) with 1. change (far_end (2, 3) 2) with 3. rewrite P1, P2, P3, F1, F2, B2, C1. vring.
    + rewrite I3, L3, R3. cbn [map]. rewrite !vsum_cons. change (vsum []) with v0.
      change (far_end (2, 3) 3) with 2. rewrite P2, P3, F2, C2. vring.
Qed.

Lemma hand_carrying : carrying rchain hand_chain.
Proof.
  assert (Tr1 : trail_edges rchain = [(0, 1); (1, 2); (2, 3)]) by (lazy; reflexivity).
  destruct hand_forces as (F0&F1&F2).
  intros e I. rewrite Tr1 in I. destruct I as [<-|[<-|[<-|[]]]]; rewrite ?F0, ?F1, ?F2; lra.
Qed.

(** The two columns, whose indirect deviation edge joins nodes that do not move, are in equilibrium. *)
Lemma rcolumns_balanced eta form : static_equilibrium rcolumns None 100 eta false = Ok form -> balanced form.
Proof.
  intros E n I. assert (W : wf rcolumns) by (apply reachable_wf, rcolumns_reachable).
  destruct (run_unbalanced rcolumns 100 eta false form rcolumns_reachable rcolumns_ready rcolumns_nonzero E)
    as (ts&t&s0&st&Ets&E0&E1&Fm&_&_&Mv&U).
  destruct (ready_ts rcolumns W rcolumns_ready) as (ts'&Ets'&Hts). rewrite Ets in Ets'. injection Ets' as <-.
  rewrite (fm_nodes _ _ _ Fm) in I. destruct (U n I) as (w&Aw&Nw&->). destruct (Mv ltac:(lia)) as [Pt _].
  assert (X : negb (t =? 0)%nat = true) by (apply negb_true_iff, Nat.eqb_neq; lia). rewrite X.
  destruct (after_fixed rcolumns ts None t s0 W rcolumns_ready Hts E0) as (A0&_).
  destruct (after_fixed rcolumns ts None (S t) st W rcolumns_ready Hts E1) as (A1&_).
  assert (N : nodes rcolumns = [0; 1; 2; 3]) by (lazy; reflexivity).
  assert (T : trails rcolumns = [(1, [1; 0]); (3, [3; 2])]) by (lazy; reflexivity).
  assert (K1 : In (1, [1; 0]) (trails rcolumns)) by (rewrite T; left; reflexivity).
  assert (K3 : In (3, [3; 2]) (trails rcolumns)) by (rewrite T; right; left; reflexivity).
  assert (Og : forall m, m = 1 \/ m = 3 -> dget w m = dget (s_xyz st) m).
  { intros m Hm. assert (Im : In m (nodes rcolumns)) by (rewrite N; cbn; lia).
    assert (Nf : forall p, follows rcolumns p m -> stops rcolumns None p = true).
    { intros p F. exfalso. destruct Hm as [->| ->].
      - exact (first_not_follows rcolumns 1 [1; 0] p rcolumns_ready K1 F).
      - exact (first_not_follows rcolumns 3 [3; 2] p rcolumns_ready K3 F). }
    destruct (Aw m) as [Q|Q]; rewrite Q; [reflexivity|]. exact (eq_trans (proj1 (A0 m Im Nf)) (eq_sym (proj1 (A1 m Im Nf)))). }
  assert (Di : cind rcolumns n = [] \/ (cind rcolumns n = [(1, 3)] /\ (n = 1 \/ n = 3))).
  { rewrite N in I. destruct I as [<-|[<-|[<-|[<-|[]]]]].
    - left. lazy. reflexivity.
    - right. split; [lazy; reflexivity|left; reflexivity].
    - left. lazy. reflexivity.
    - right. split; [lazy; reflexivity|right; reflexivity]. }
  destruct Di as [->|[-> Hn]]; cbn [map]; [change (vsum []) with v0; vring|].
  replace (dpull rcolumns w n (1, 3)) with (dpull rcolumns (s_xyz st) n (1, 3)); [vring|].
  assert (Ho : other (1, 3) n = 1 \/ other (1, 3) n = 3) by (destruct Hn as [->| ->]; [right|left]; reflexivity).
  unfold dpull, xg. rewrite (Og n Hn), (Og (other (1, 3) n) Ho). reflexivity.
Qed.
