(** * Solving leaves a topology that could have been edited by hand (C92) *)

From Coq Require Import String List ZArith Bool Lia.
From Verif Require Import Py PyFacts Num Diagram DiagramFacts Topology History HistoryFacts SpecDiagram SpecTopology SpecEquilibrium Equilibrium EquilibriumNp
  Constraints Optimizer SpecOptimizer SpecHand TopologyFacts SequenceThms EqFacts ReadyThms OptFacts OptThms SolveThms.
Import ListNotations.
Open Scope Z_scope.

Section Hand.
  Context {T : Type} `{NumOps T}.
  Implicit Types (d : diagram T) (o : optimizer T).

  Lemma write_by_hand S s v d : In s S -> exists ops : list (op T), Forall (sets S) ops /\ write s v d = run d ops.
  Proof.
    intros I. unfold write. destruct s as [n a|e a]; cbn [slot_set].
    - unfold node_set. destruct (dget (d_node d) n) as [x|] eqn:E; [|now exists []].
      destruct a; cbn [nattr_set].
      1-3: eexists [OpSetCoords n _]; (split; [repeat constructor; eexists; split; [|exact I]; cbn; auto|]);
           unfold run; cbn [fold_left History.call]; unfold node_set; rewrite E; reflexivity.
      1-3: eexists [OpAddLoad (RKey n) _]; (split; [repeat constructor; eexists; split; [|exact I]; cbn; auto|]);
           unfold run; cbn [fold_left History.call]; unfold add_load, node_key, node_set; rewrite E; reflexivity.
    - destruct a; [exists [OpSetForce e v]|exists [OpSetLength e v]]; (split; [repeat constructor; exact I|reflexivity]).
  Qed.

  Lemma evolved_by_hand S d d' : evolved S d d' -> exists ops : list (op T), Forall (sets S) ops /\ d' = run d ops.
  Proof.
    intros (ws&I&->). revert d. induction ws as [|[s v] ws IH]; intros d; [now exists []|].
    destruct (write_by_hand S s v d) as (ops&F&E); [apply I; now left|].
    destruct (IH ltac:(intros z J; apply I; now right) (write s v d)) as (ops'&F'&E').
    exists (ops ++ ops'). split; [apply Forall_app; auto|]. unfold writes in *. cbn [fold_left fst snd]. rewrite E', E.
    unfold run. now rewrite fold_left_app.
  Qed.

  Lemma sets_soft S c : sets S c -> valid_op c /\ forall d, soft d c.
  Proof. destruct c; cbn; try contradiction; auto. Qed.

  Lemma solve_evolved ad solver algorithm grad h iters eps kappa tmax eta o d :
    evolved (addressed o) d (snd (fst (solve ad solver algorithm grad h iters eps kappa tmax eta (o, d)))).
  Proof.
    unfold solve. destruct (prepare _ _ _ _ _ _ _ _ _ _ _) as [[[gf x] pr]|e]; [|apply evolved_refl].
    cbn zeta. set (f := objective_function_numpy (optimize_form o tmax eta) gf) in *. set (s := solver pr x) in *.
    assert (P := run_points o tmax eta gf s d d d (evolved_refl _ _)). cbn zeta in P. fold f in P.
    destruct (run_strategy f s (d, d)) as [[d1 c1] r] eqn:R. cbn [fst snd] in *.
    assert (E : evolved (addressed o) d d1) by (rewrite P; apply evaluations_evolved).
    destruct r as [[x1 loss evals result|loss evals result|]|e]; cbn [fst snd]; auto.
    - destruct (nlopt_status result) as [status|e]; cbn [fst snd]; auto. now destruct (gf _ _ c1) as [c2 [g2|e2]].
    - destruct (optimization_parameters o d1) as [x1|e]; cbn [fst snd]; auto. destruct (nlopt_status result) as [status|e]; cbn [fst snd]; auto.
      now destruct (gf _ _ c1) as [c2 [g2|e2]].
  Qed.

  (** However solving ends, the topology is what a history of calls that set the
      parameters' quantities by hand would have made of it. *)
  Lemma c92_by_hand : forall ad solver algorithm grad h iters eps kappa tmax eta o d o' d' r,
    solve ad solver algorithm grad h iters eps kappa tmax eta (o, d) = ((o', d'), r) ->
    exists ops, Forall (sets (addressed o)) ops /\ d' = run d ops.
  Proof.
    intros ad solver algorithm grad h iters eps kappa tmax eta o d o' d' r E. apply evolved_by_hand.
    assert (X := solve_evolved ad solver algorithm grad h iters eps kappa tmax eta o d). now rewrite E in X.
  Qed.

  (** Likewise for a single evaluation of the objective. *)
  Lemma c92_evaluation : forall o tmax eta x d, exists ops, Forall (sets (addressed o)) ops /\ fst (optimize_form o tmax eta x d) = run d ops.
  Proof. intros. apply evolved_by_hand. apply (evaluations_evolved o tmax eta [x] d). Qed.

  Lemma by_hand_ready S ops : Forall (sets S) ops -> forall d, reachable d ->
    reachable (run d ops) /\ (ready d -> ready (run d ops)).
  Proof.
    induction 1 as [|c ops Sc _ IH]; intros d Hr; [auto|]. destruct (sets_soft S c Sc) as (V&So).
    unfold run. cbn [fold_left]. change (fold_left _ ops (fst (History.call c d))) with (run (fst (History.call c d)) ops).
    assert (Hr' : reachable (fst (History.call c d))).
    { destruct Hr as (p&Fp&->). exists (p ++ [c]). split; [apply Forall_app; auto|]. unfold run. now rewrite fold_left_app. }
    destruct (IH _ Hr') as (A&B). split; [exact A|]. intros R. apply B, c61_ready_kept; auto.
  Qed.

  (** A topology built by calls of the API is one afterwards, is ready for form finding
      if it was, and its deviation edges are direct if they were. *)
  Lemma c92_still_built : forall ad solver algorithm grad h iters eps kappa tmax eta o d o' d' r, reachable d ->
    solve ad solver algorithm grad h iters eps kappa tmax eta (o, d) = ((o', d'), r) ->
    reachable d' /\ (ready d -> ready d') /\ (direct_only d -> direct_only d').
  Proof.
    intros ad solver algorithm grad h iters eps kappa tmax eta o d o' d' r Hr E.
    destruct (c92_by_hand _ _ _ _ _ _ _ _ _ _ _ _ _ _ _ E) as (ops&F&->). destruct (by_hand_ready _ _ F d Hr) as (A&B).
    split; [exact A|]. split; [exact B|].
    assert (X := solve_evolved ad solver algorithm grad h iters eps kappa tmax eta o d). rewrite E in X. cbn [fst snd] in X.
    apply evolved_same_except in X as (_&Xe&_&_&_&_&_&_&Xs&_&_&Xd&_). intros D u v I. rewrite !Xs. apply D.
    assert (W := reachable_wf _ Hr). assert (W' := reachable_wf _ A).
    apply In_deviation_edges in I as (a&Ea&Ta); auto. apply In_deviation_edges; auto. specialize (Xd (u, v)).
    unfold is_deviation_edge, edge_get in Xd. rewrite Ea in Xd. cbn [bind] in Xd. rewrite Ta in Xd.
    destruct (edge_find d (u, v)) as [b|]; [|discriminate Xd]. exists b. split; [reflexivity|]. cbn [bind] in Xd.
    destruct (ea_type b) as [[]|]; try discriminate Xd; reflexivity.
  Qed.

  (** ** C105 *)

  (** However solving ends, every location finds what it found before. *)
  Lemma c105_lookup_partial : forall ad solver algorithm grad h iters eps kappa tmax eta o d o' d' r,
    solve ad solver algorithm grad h iters eps kappa tmax eta (o, d) = ((o', d'), r) ->
    forall p, node_key d' (RXyz p) = node_key d (RXyz p).
  Proof.
    intros ad solver algorithm grad h iters eps kappa tmax eta o d o' d' r E p.
    assert (X := solve_evolved ad solver algorithm grad h iters eps kappa tmax eta o d). rewrite E in X. cbn [fst snd] in X.
    apply evolved_same_except in X as (_&_&_&Xk&_). apply Xk.
  Qed.

  (** A node whose coordinates are no parameters stays where it is and is found there if it was. *)
  Lemma c105_still_partial : forall ad solver algorithm grad h iters eps kappa tmax eta o d o' d' r n p,
    solve ad solver algorithm grad h iters eps kappa tmax eta (o, d) = ((o', d'), r) ->
    (forall a, In a [AX; AY; AZ] -> ~ In (NodeSlot n a) (addressed o)) ->
    node_coordinates d n = Ok p -> node_key d (RXyz p) = Some n ->
    node_coordinates d' n = Ok p /\ node_key d' (RXyz p) = Some n.
  Proof.
    intros ad solver algorithm grad h iters eps kappa tmax eta o d o' d' r n p E A P K.
    assert (X := solve_evolved ad solver algorithm grad h iters eps kappa tmax eta o d). rewrite E in X. cbn [fst snd] in X.
    apply evolved_same_except in X as (_&_&_&Xk&_&_&_&_&_&_&_&_&_&Xq). split; [|now rewrite Xk].
    assert (Q1 := Xq _ (A AX (or_introl eq_refl))). assert (Q2 := Xq _ (A AY (or_intror (or_introl eq_refl)))).
    assert (Q3 := Xq _ (A AZ (or_intror (or_intror (or_introl eq_refl))))). cbn [quantity] in Q1, Q2, Q3. rewrite P in Q1, Q2, Q3. cbn [bind] in Q1, Q2, Q3.
    destruct (node_coordinates d' n) as [[x y z]|e]; [|discriminate Q1]. cbn [bind vx vy vz] in Q1, Q2, Q3.
    injection Q1 as ->. injection Q2 as ->. injection Q3 as ->. now destruct p.
  Qed.
End Hand.
