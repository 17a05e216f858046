(** * Concrete instances for form finding

    Over the reals the combinatorial part of the hypotheses is computed, and the
    numerical part follows from the theorems themselves; counterexamples are
    computed over binary64 floats. *)

From Coq Require Import String List ZArith Bool Lia Permutation Floats Reals Lra.
From Verif Require Import Py PyFacts Num Diagram DiagramFacts Topology Equilibrium History HistoryFacts Fixtures
  SpecDiagram SpecTopology ChainFacts2 SpecEquilibrium EqFacts ReadyThms RVec EqThms SpecStatics StaticsFacts StaticsThms SpecTransform
  FloatThms Witness.
Import ListNotations.
Open Scope Z_scope.

(** ** Real topologies *)

Definition rmade (ops : list (op R)) : diagram R := run empty_diagram ops.

Lemma run_app {T} `{NumOps T} (d : diagram T) ops ops' : run d (ops ++ ops') = run (run d ops) ops'.
Proof. unfold run. apply fold_left_app. Qed.

Lemma run_snoc {T} `{NumOps T} (d : diagram T) ops o : run d (ops ++ [o]) = fst (call o (run d ops)).
Proof. now rewrite run_app. Qed.

Lemma rmade_snoc ops o : rmade (ops ++ [o]) = fst (call o (rmade ops)).
Proof. apply run_snoc. Qed.

Lemma rmade_ready ops P : Forall valid_op ops -> chains_b (rmade ops) P = true ->
  subset_b (nodes (rmade ops)) (concat P) = true -> P <> [] -> ready (rmade (ops ++ [build])).
Proof.
  intros V C S N. assert (Hr : reachable (rmade ops)) by (exists ops; auto).
  apply chains_b_ok in C. apply covers_b_ok in S.
  destruct (c61_built_ready (rmade ops) id_order P Hr id_order_same C S N) as (d'&Hb&R).
  unfold rmade in *. rewrite run_snoc. unfold build. cbn [call]. now rewrite Hb.
Qed.

(** The funicular of three bars: no indirect deviation edges. *)
Definition funicular : diagram R := rmade (threebar_funicular IZR ++ [build]).
(** A chain of three trail edges, two of them with planes. *)
Definition rchain : diagram R := rmade (tension_chain IZR ++ [build]).
(** The braced tower: direct and indirect deviation edges. *)
Definition rtower : diagram R := rmade (braced_tower_2d IZR ++ [build]).

Lemma funicular_reachable : reachable funicular.
Proof. made_reachable. Qed.
Lemma rchain_reachable : reachable rchain.
Proof. made_reachable. Qed.
Lemma rtower_reachable : reachable rtower.
Proof. made_reachable. Qed.

Lemma funicular_ready : ready funicular.
Proof. apply (rmade_ready _ [[1; 0]; [2; 3]]); [valid|lazy; reflexivity|lazy; reflexivity|discriminate]. Qed.
Lemma rchain_ready : ready rchain.
Proof. apply (rmade_ready _ [[0; 1; 2; 3]]); [valid|lazy; reflexivity|lazy; reflexivity|discriminate]. Qed.
Lemma rtower_ready : ready rtower.
Proof. apply (rmade_ready _ [[2; 1; 0]; [5; 4; 3]]); [valid|lazy; reflexivity|lazy; reflexivity|discriminate]. Qed.

Lemma funicular_direct : direct_only funicular /\ deviation_edges funicular = [(1, 2)].
Proof.
  assert (E : deviation_edges funicular = [(1, 2)]) by (lazy; reflexivity).
  split; auto. intros u v I. rewrite E in I. destruct I as [I|[]]. injection I as <- <-. lazy. reflexivity.
Qed.
Lemma rchain_direct : direct_only rchain.
Proof.
  assert (E : deviation_edges rchain = []) by (lazy; reflexivity).
  intros u v I. rewrite E in I. destruct I.
Qed.

Lemma funicular_nonzero : nonzero_trails funicular.
Proof.
  assert (E : trail_edges funicular = [(0, 1); (2, 3)]) by (lazy; reflexivity).
  intros e l I El. rewrite E in I. destruct I as [<-|[<-|[]]]; lazy in El; apply Ok_inj in El; subst l; lra.
Qed.
Lemma rchain_nonzero : nonzero_trails rchain.
Proof.
  assert (E : trail_edges rchain = [(0, 1); (1, 2); (2, 3)]) by (lazy; reflexivity).
  intros e l I El. rewrite E in I. destruct I as [<-|[<-|[<-|[]]]]; lazy in El; apply Ok_inj in El; subst l; lra.
Qed.
Lemma rtower_nonzero : nonzero_trails rtower.
Proof.
  assert (E : trail_edges rtower = [(0, 1); (1, 2); (3, 4); (4, 5)]) by (lazy; reflexivity).
  intros e l I El. rewrite E in I. destruct I as [<-|[<-|[<-|[<-|[]]]]]; lazy in El; apply Ok_inj in El; subst l; lra.
Qed.

Lemma funicular_forms : exists form, static_equilibrium funicular None 100 (/ 1000000)%R false = Ok form.
Proof.
  destruct (c35_success funicular None 100 (/ 1000000)%R false funicular_reachable funicular_ready
              (proj1 funicular_direct) I ltac:(lia) ltac:(lra) ltac:(discriminate)) as (f&E&_). eauto.
Qed.
Lemma rchain_forms : exists form, static_equilibrium rchain None 100 (/ 1000000)%R false = Ok form.
Proof.
  destruct (c35_success rchain None 100 (/ 1000000)%R false rchain_reachable rchain_ready
              rchain_direct I ltac:(lia) ltac:(lra) ltac:(discriminate)) as (f&E&_). eauto.
Qed.

(** The edges of the chain carry forces. *)
Lemma rchain_forces form : static_equilibrium rchain None 100 (/ 1000000)%R false = Ok form ->
  force form (0, 1) <> 0%R /\ force form (1, 2) <> 0%R.
Proof.
  intros E.
  assert (B := c31_direct_equilibrium _ _ _ _ _ rchain_reachable rchain_ready rchain_direct rchain_nonzero E).
  destruct (c37_frame _ _ _ _ _ _ rchain_reachable E) as (Nf&Ef&_&_&Lf&_).
  destruct (c37_inputs _ _ _ _ _ rchain_reachable rchain_ready E) as (_&_&Rf).
  assert (N : nodes rchain = [0; 1; 2; 3]) by (lazy; reflexivity).
  assert (Es : edges rchain = [(0, 1); (1, 2); (2, 3)]) by (lazy; reflexivity).
  assert (I0 : incident form 0 = [(0, 1)]) by (unfold incident; rewrite Ef, Es; reflexivity).
  assert (I1 : incident form 1 = [(0, 1); (1, 2)]) by (unfold incident; rewrite Ef, Es; reflexivity).
  assert (B0 := B 0 ltac:(rewrite Nf, N; cbn; auto)). assert (B1 := B 1 ltac:(rewrite Nf, N; cbn; auto)).
  unfold unbalanced in B0, B1. rewrite I0 in B0. rewrite I1 in B1. cbn [map] in B0, B1. rewrite !vsum_cons in B0. rewrite !vsum_cons in B1.
  change (vsum []) with v0 in *.
  assert (L0 : load form 0 = V3 (IZR (-1)) (IZR 0) (IZR 0)) by (unfold load; rewrite Lf; lazy; reflexivity).
  assert (L1 : load form 1 = v0) by (unfold load; rewrite Lf; lazy; reflexivity).
  assert (R0 : reaction form 0 = v0) by (unfold reaction; rewrite Rf; [reflexivity|rewrite N; cbn; auto|lazy; reflexivity]).
  assert (R1 : reaction form 1 = v0) by (unfold reaction; rewrite Rf; [reflexivity|rewrite N; cbn; auto|lazy; reflexivity]).
  rewrite L0, R0 in B0. rewrite L1, R1 in B1.
  assert (O := c26_pulls form 0 1). rewrite O in B1.
  assert (X0 := f_equal vx B0). assert (X1 := f_equal vx B1).
  unfold pull in X0, X1. vunf. split; intros Z; rewrite Z in *; lra.
Qed.

(** ** Two columns joined by an indirect deviation edge between their tops *)

Definition columns : list (op R) :=
  [ node IZR 0 0 0 0; node IZR 1 0 0 1; node IZR 2 1 0 0; node IZR 3 1 0 1;
    trail_e IZR 0 1 (-1); trail_e IZR 2 3 (-1); dev_e IZR 1 3 1; sup 0; sup 2;
    Fixtures.load IZR 1 0 0 (-1); Fixtures.load IZR 3 0 0 (-1) ].
Definition rcolumns : diagram R := rmade ((columns ++ [build]) ++ [OpShiftTrail 3 1]).

Lemma rcolumns_reachable : reachable rcolumns.
Proof. made_reachable. Qed.
Lemma rcolumns_ready : ready rcolumns.
Proof.
  unfold rcolumns. rewrite rmade_snoc.
  apply (c61_ready_kept (rmade (columns ++ [build])) (OpShiftTrail 3 1)).
  - made_reachable.
  - apply (rmade_ready _ [[1; 0]; [3; 2]]); [valid|lazy; reflexivity|lazy; reflexivity|discriminate].
  - cbn. lia.
Qed.
Lemma rcolumns_nonzero : nonzero_trails rcolumns.
Proof.
  assert (E : trail_edges rcolumns = [(0, 1); (2, 3)]) by (lazy; reflexivity).
  intros e l I El. rewrite E in I. destruct I as [<-|[<-|[]]]; lazy in El; apply Ok_inj in El; subst l; lra.
Qed.
Lemma rcolumns_indirect : indirect_at rcolumns 1 = [(1, 3)].
Proof. lazy. reflexivity. Qed.
Lemma rcolumns_forms : exists eta form, (0 < eta)%R /\ static_equilibrium rcolumns None 100 eta false = Ok form.
Proof. apply some_threshold; [apply rcolumns_reachable|apply rcolumns_ready|exact I|lia]. Qed.
Lemma rcolumns_span eta form : static_equilibrium rcolumns None 100 eta false = Ok form ->
  forall e, In e (indirect_at rcolumns 1) -> (0 < span form e)%R.
Proof.
  intros E e Ie. rewrite rcolumns_indirect in Ie. destruct Ie as [<-|[]].
  destruct (c37_inputs _ _ _ _ _ rcolumns_reachable rcolumns_ready E) as (Fx&_).
  assert (T : trails rcolumns = [(1, [1; 0]); (3, [3; 2])]) by (lazy; reflexivity).
  unfold span, position. cbn [fst snd].
  rewrite (Fx 1 [1; 0]) by (rewrite T; cbn; auto). rewrite (Fx 3 [3; 2]) by (rewrite T; cbn; auto).
  assert (C1 : node_coordinates rcolumns 1 = Ok (V3 (IZR 0) (IZR 0) (IZR 1))) by (lazy; reflexivity).
  assert (C3 : node_coordinates rcolumns 3 = Ok (V3 (IZR 1) (IZR 0) (IZR 1))) by (lazy; reflexivity).
  rewrite C1, C3. cbn [value]. unfold magnitude. vunf. apply sqrt_lt_R0. lra.
Qed.

(** ** Counterexamples over floats *)

(** A plane behind a node in tension puts the trail edge in compression. *)
Definition behind : list (op float) :=
  [ node zf 0 0 0 0; node zf 1 1 0 0;
    OpAddEdge (RKey 0) (RKey 1) (TrailEdge (zf 1) (Some (fv (-1) 0 0, fv 1 0 0)));
    sup 1; Fixtures.load zf 0 (-1) 0 0 ].
Lemma c30_refuted : exists (d form : diagram float) e l f, reachable d
  /\ static_equilibrium d None 100 0x1.4f8b588e368f1p-17%float false = Ok form
  /\ In e (trail_edges d) /\ edge_length_2 d e = Ok l /\ edge_force form e = Ok f
  /\ PrimFloat.ltb 0 l = true /\ PrimFloat.ltb f 0 = true.
Proof.
  exists (made (behind ++ [build])). eexists. exists (0, 1). eexists. eexists. split; [made_reachable|].
  split; [vm_compute; reflexivity|]. comps.
Qed.

(** kmax = 0 on a chain of four nodes: the node on sequence 2 is moved. *)
Definition four : list (op float) :=
  [ node zf 0 0 0 0; node zf 1 1 0 0; node zf 2 2 0 0; node zf 3 3 0 0;
    trail_e zf 0 1 2; trail_e zf 1 2 2; trail_e zf 2 3 2; sup 3; Fixtures.load zf 0 (-1) 0 0; Fixtures.load zf 1 (-1) 0 0 ].
Lemma c39_refuted : exists (d form : diagram float) n k, reachable d
  /\ static_equilibrium d (Some 0) 100 0x1.4f8b588e368f1p-17%float false = Ok form
  /\ node_sequence d n = Ok k /\ 0 < k /\ node_coordinates form n <> node_coordinates d n.
Proof.
  exists (made (four ++ [build])). eexists. exists 2, 2. split; [made_reachable|].
  split; [vm_compute; reflexivity|]. split; [comp|]. split; [lia|]. vm_compute.
  intros E. injection E as E. apply (f_equal (fun x => PrimFloat.eqb x 2%float)) in E. vm_compute in E. discriminate E.
Qed.

(** The node at the foot of a strut is not found where the form has it. *)
Lemma c58_refuted : exists (d form : diagram float) n p, reachable d
  /\ static_equilibrium d None 100 0x1.4f8b588e368f1p-17%float false = Ok form
  /\ node_coordinates form n = Ok p /\ node_key form (RXyz p) = None.
Proof.
  exists (made (compression_strut zf ++ [build])). eexists. exists 0. eexists. split; [made_reachable|].
  split; [vm_compute; reflexivity|]. comps.
Qed.

Lemma coordinates_node {T} `{NumOps T} (d : diagram T) n p : node_coordinates d n = Ok p -> In n (nodes d).
Proof.
  unfold node_coordinates, node_get, dgetr. destruct (dget (d_node d) n) eqn:Q; [|discriminate].
  apply dget_In_keys in Q. auto.
Qed.

Lemma load_node {T} `{NumOps T} (d : diagram T) n p : node_load d n = Ok p -> In n (nodes d).
Proof.
  unfold node_load, node_get, dgetr. destruct (dget (d_node d) n) eqn:Q; [|discriminate].
  apply dget_In_keys in Q. auto.
Qed.
Lemma reaction_node {T} `{NumOps T} (d : diagram T) n p : reaction_force d n = Ok p -> In n (nodes d).
Proof.
  unfold reaction_force, node_get, dgetr. destruct (dget (d_node d) n) eqn:Q; [|discriminate].
  apply dget_In_keys in Q. auto.
Qed.
Lemma length_edge {T} `{NumOps T} (d : diagram T) e l : wf d -> edge_length_2 d e = Ok l -> In e (edges d).
Proof.
  intros W. unfold edge_length_2, edge_get. destruct (edge_find d e) eqn:Q; [|discriminate]. intros _.
  apply edges_has; eauto.
Qed.
Lemma plane_edge {T} `{NumOps T} (d : diagram T) e l : wf d -> edge_plane d e = Ok l -> In e (edges d).
Proof.
  intros W. unfold edge_plane, edge_get. destruct (edge_find d e) eqn:Q; [|discriminate]. intros _.
  apply edges_has; eauto.
Qed.
(** Setting the coordinates of one node. *)
Lemma moved_same {T} `{NumOps T} (d : diagram T) n p : In n (nodes d) ->
  let d' := fst (node_set n (fun a => set_xyz a p) d) in
  same_but_coordinates d d'
  /\ forall m, node_coordinates d' m = if Z.eqb m n then Ok p else node_coordinates d m.
Proof.
  intros I d'. apply In_keys_dget in I as [a Ea].
  assert (D : d' = with_node d (dset (d_node d) n (set_xyz a p))).
  { unfold d', node_set. rewrite Ea. reflexivity. }
  assert (G : forall m, dget (d_node d') m = if Z.eqb m n then Some (set_xyz a p) else dget (d_node d) m).
  { intros m. rewrite D. cbn [with_node d_node]. rewrite dget_dset. reflexivity. }
  assert (Q : forall (A : Type) (g : node_attr T -> A), g (set_xyz a p) = g a ->
    forall m, (let* a := dgetr (d_node d') m in Ok (g a)) = (let* a := dgetr (d_node d) m in Ok (g a))).
  { intros A g Eg m. unfold dgetr. rewrite G. destruct (Z.eqb_spec m n) as [->|Ne]; auto. rewrite Ea. cbn. now rewrite Eg. }
  split.
  - constructor.
    + unfold nodes. rewrite D. cbn [with_node d_node]. apply dkeys_dset_in. eapply dget_In_keys; eauto.
    + now rewrite D.
    + now rewrite D.
    + intros m. now rewrite D.
    + intros m. apply (Q _ (fun a => opt_is ntype_eqb (na_type a) TSupport)). reflexivity.
    + intros m. apply (Q _ na_load). reflexivity.
    + intros m. apply (Q _ na_reac). reflexivity.
    + intros m. unfold node_sequence, node_get. unfold dgetr. rewrite G. destruct (Z.eqb_spec m n) as [->|Ne]; auto.
      rewrite Ea. reflexivity.
    + intros e. now rewrite D.
  - intros m. unfold node_coordinates, node_get, dgetr. rewrite G. now destruct (Z.eqb m n).
Qed.

(** Two finite loads whose sum overflows: static_equilibrium returns a form with a
    coordinate that is not a number, and reports convergence. *)
Definition huge : float := 0x1p1023%float.
Definition overflow : list (op float) :=
  [ node zf 0 0 0 0; node zf 1 1 0 0; node zf 2 2 0 0; trail_e zf 0 1 1; trail_e zf 1 2 1; sup 2;
    OpAddLoad (RKey 0) (V3 huge 0 0)%float; OpAddLoad (RKey 1) (V3 huge 0 0)%float ].
Definition finite (p : vec float) : Prop :=
  PrimFloat.ltb (PrimFloat.abs (vx p)) infinity = true /\ PrimFloat.ltb (PrimFloat.abs (vy p)) infinity = true
  /\ PrimFloat.ltb (PrimFloat.abs (vz p)) infinity = true.
Lemma c65_refuted : exists (d form : diagram float) n p, reachable d
  /\ static_equilibrium d None 100 0x1.4f8b588e368f1p-17%float false = Ok form
  /\ (forall m q w, node_coordinates d m = Ok q -> node_load d m = Ok w -> finite q /\ finite w)
  /\ (forall e l f, edge_length_2 d e = Ok l -> edge_force d e = Ok f -> l = 1%float /\ f = 0%float)
  /\ node_coordinates form n = Ok p /\ has_nan p.
Proof.
  exists (made (overflow ++ [build])). eexists. exists 2. eexists. split; [made_reachable|].
  split; [vm_compute; reflexivity|]. split; [|split; [|split; [comp|left; comp]]].
  - intros m q w. destruct (in_dec Z.eq_dec m [0; 1; 2]) as [I|I].
    + destruct I as [<-|[<-|[<-|[]]]]; intros E1 E2; vm_compute in E1, E2; apply Ok_inj in E1, E2; subst;
        (split; split; [comp|split; comp|comp|split; comp]).
    + intros E1. exfalso. apply I. assert (N : nodes (made (overflow ++ [build])) = [0; 1; 2]) by (vm_compute; reflexivity).
      rewrite <- N. eapply coordinates_node; eauto.
  - intros e l f E1 E2. assert (W : wf (made (overflow ++ [build]))) by (apply reachable_wf; made_reachable).
    assert (I := length_edge _ e l W E1).
    assert (N : edges (made (overflow ++ [build])) = [(0, 1); (1, 2)]) by (vm_compute; reflexivity).
    rewrite N in I. destruct I as [<-|[<-|[]]]; vm_compute in E1, E2; apply Ok_inj in E1, E2; subst; auto.
Qed.

(** ** More instances *)

Definition float_tower : diagram float := made (braced_tower_2d zf ++ [build]).
Lemma float_tower_reachable : reachable float_tower.
Proof. made_reachable. Qed.

Lemma funicular_flat : flat funicular.
Proof.
  assert (N : nodes funicular = [0; 1; 2; 3]) by (lazy; reflexivity).
  assert (G : forall n (P : Prop), In n (nodes funicular) ->
    (n = 0 -> P) -> (n = 1 -> P) -> (n = 2 -> P) -> (n = 3 -> P) -> P).
  { intros n P I. rewrite N in I. destruct I as [I|[I|[I|[I|[]]]]]; symmetry in I; auto. }
  constructor.
  - intros n p E. apply (G n); [eapply coordinates_node; eauto|..]; intros ->; lazy in E; apply Ok_inj in E; subst p; reflexivity.
  - intros n p E. apply (G n); [eapply load_node; eauto|..]; intros ->; lazy in E; apply Ok_inj in E; subst p; reflexivity.
  - intros n p E. rewrite (reachable_reaction funicular n funicular_reachable) in E by (eapply reaction_node; eauto).
    apply Ok_inj in E. subst p. reflexivity.
  - intros e o nrm E. exfalso.
    assert (W : wf funicular) by (apply reachable_wf, funicular_reachable).
    assert (I := plane_edge _ e _ W E).
    assert (Es : edges funicular = [(0, 1); (1, 2); (2, 3)]) by (lazy; reflexivity).
    assert (P1 : edge_plane funicular (0, 1) = Ok None) by (lazy; reflexivity).
    assert (P2 : edge_plane funicular (1, 2) = Ok None) by (lazy; reflexivity).
    assert (P3 : edge_plane funicular (2, 3) = Ok None) by (lazy; reflexivity).
    rewrite Es in I. clear Es W. destruct I as [I|[I|[I|[]]]].
    + rewrite <- I, P1 in E. discriminate E.
    + rewrite <- I, P2 in E. discriminate E.
    + rewrite <- I, P3 in E. discriminate E.
Qed.

(** The funicular with one of its supports placed elsewhere. *)
Definition funicular_elsewhere : diagram R := rmade ((threebar_funicular IZR ++ [build]) ++ [OpSetCoords 0 (V3 9 9 9)%R]).
Lemma funicular_elsewhere_ok : reachable funicular_elsewhere
  /\ same_but_coordinates funicular funicular_elsewhere
  /\ (forall key tr, In (key, tr) (trails funicular) -> node_coordinates funicular_elsewhere key = node_coordinates funicular key)
  /\ trails funicular = [(1, [1; 0]); (2, [2; 3])]
  /\ node_coordinates funicular_elsewhere 0 <> node_coordinates funicular 0.
Proof.
  assert (E : funicular_elsewhere = fst (node_set 0 (fun a => set_xyz a (V3 9 9 9)%R) funicular)) by (unfold funicular_elsewhere, funicular; rewrite rmade_snoc; cbn [call]; reflexivity).
  assert (Tr : trails funicular = [(1, [1; 0]); (2, [2; 3])]) by (lazy; reflexivity).
  assert (N : In 0 (nodes funicular)) by (replace (nodes funicular) with [0; 1; 2; 3] by (lazy; reflexivity); cbn; auto).
  split; [made_reachable|]. rewrite E. destruct (moved_same funicular 0 (V3 9 9 9)%R N) as (S&C).
  split; [exact S|]. split.
  - intros key tr I. rewrite C. rewrite Tr in I. destruct I as [I|[I|[]]]; injection I as <- _; reflexivity.
  - split; [exact Tr|]. rewrite C. cbn [Z.eqb]. intros X. lazy in X. apply Ok_inj in X. apply (f_equal vx) in X. cbn in X. lra.
Qed.
