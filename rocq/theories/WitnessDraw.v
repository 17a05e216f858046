(** * Concrete instances for drawing *)

From Coq Require Import String List ZArith Bool Lia Permutation Floats Reals Lra.
From Verif Require Import Py PyFacts Num Diagram DiagramFacts Topology Equilibrium History HistoryFacts Fixtures
  SpecDiagram SpecTopology SpecEquilibrium FormFacts RVec EqThms SpecStatics StaticsFacts StaticsThms
  Artists SpecArtists ArtistThms Witness WitnessEq.
Import ListNotations.
Open Scope Z_scope.

(** A strut with a deviation edge that carries no force, and a node apart *)
Definition idle : diagram float :=
  made [node zf 0 0 0 0; node zf 1 0 2 0; node zf 2 1 2 0; node zf 3 5 5 5;
        trail_e zf 0 1 (-1); dev_e zf 1 2 0; sup 0; Fixtures.load zf 1 0 (-1) 0].

Lemma idle_reachable : reachable idle.
Proof. made_reachable. Qed.

(** The tower without trails, found in the plotter with a width for all edges *)
Definition uniform : dict ekey float := width_all (edges tower) 2%float.

(** In the plotter a pair of widths is not used if there are widths: the edges of the
    tower have different forces and the same width. *)
Lemma c57_plotter_refuted : exists (d : diagram float) w e e' f f' x, reachable d /\ In e (edges d) /\ In e' (edges d)
  /\ plotter_set_width d (edges d) (Some w) (WRange 1 5)%float = Ok (Some w)
  /\ edge_force d e = Ok f /\ edge_force d e' = Ok f' /\ PrimFloat.eqb (PrimFloat.abs f) (PrimFloat.abs f') = false
  /\ dget w e = Some x /\ dget w e' = Some x.
Proof.
  exists tower, uniform, (0, 1), (1, 4), 0%float, (-1)%float, 2%float.
  split; [apply tower_reachable|]. split; [vm_compute; tauto|]. split; [vm_compute; tauto|].
  repeat split; vm_compute; reflexivity.
Qed.

(** An edge without force is gray in the plotter and drawn as in tension in the viewer. *)
Lemma c71_refuted : exists (d : diagram float) e, reachable d /\ In e (edges d) /\ edge_force d e = Ok 0%float
  /\ plotter_form_edge d e = Ok gray /\ viewer_form_edge d e = Ok red.
Proof.
  exists idle, (1, 2). split; [apply idle_reachable|]. split; [vm_compute; tauto|]. repeat split; vm_compute; reflexivity.
Qed.

(** Asking for the supports of a selection without supports draws all nodes. *)
Lemma c72_refuted : exists (d : diagram float) ns l, reachable d /\ ns <> [] /\ (forall n, In n ns -> In n (nodes d))
  /\ (forall n, In n ns -> ~ In n (support_nodes d))
  /\ gh_draw_supports d (Some ns) = Ok l /\ List.length l = List.length (nodes d) /\ l <> [].
Proof.
  exists tower, [1; 2]. eexists. split; [apply tower_reachable|]. split; [discriminate|].
  split; [vm_compute; tauto|]. split; [vm_compute; intuition congruence|].
  split; [vm_compute; reflexivity|]. split; [reflexivity|discriminate].
Qed.

(** A node without edges keeps the plotter from drawing any reaction. *)
Lemma c70_refuted : exists (d : diagram float) n, reachable d /\ In n (support_nodes d)
  /\ (exists e, connected_edges d n = Ok [e])
  /\ plotter_reactions d [n] (fun _ => Ok 1%float) 1%float 0%float = Err (ValueError "max() arg is an empty sequence").
Proof.
  exists idle, 0. split; [apply idle_reachable|]. split; [vm_compute; tauto|].
  split; [eexists; vm_compute; reflexivity|]. vm_compute. reflexivity.
Qed.

(** ** The chain of three bars *)

Lemma rchain_connected form : static_equilibrium rchain None 100 (/ 1000000)%R false = Ok form ->
  connected_edges form 3 = Ok [(2, 3)] /\ held_by_edges form (nodes form).
Proof.
  intros E. assert (Pf : produced form) by (right; do 5 eexists; split; [apply rchain_reachable|exact E]).
  assert (W := produced_wf _ Pf).
  destruct (c37_frame _ _ _ _ _ _ rchain_reachable E) as (Nf&Ef&Nb&_).
  assert (N : nodes rchain = [0; 1; 2; 3]) by (lazy; reflexivity).
  assert (Es : edges rchain = [(0, 1); (1, 2); (2, 3)]) by (lazy; reflexivity).
  assert (H : forall u v, has_edge form (u, v) = @memb ekey _ (u, v) [(0, 1); (1, 2); (2, 3)]).
  { intros u v. destruct (@memb ekey _ (u, v) [(0, 1); (1, 2); (2, 3)]) eqn:M.
    - apply (@memb_In ekey _) in M. apply In_edges; auto. now rewrite Ef, Es.
    - apply (@memb_nIn ekey _) in M. destruct (has_edge form (u, v)) eqn:B; auto. exfalso. apply M.
      apply In_edges in B; auto. now rewrite Ef, Es in B. }
  assert (C : forall n nb, In n [0; 1; 2; 3] -> neighbors rchain n = Ok nb ->
    connected_edges form n = Ok (map (fun m => if @memb ekey _ (n, m) [(0, 1); (1, 2); (2, 3)] then (n, m) else (m, n)) nb)).
  { intros n nb I En. unfold connected_edges. rewrite Nb, En. cbn [bind].
    destruct (dget (d_edge form) n) as [out|] eqn:Eo.
    - apply dgetr_Ok in Eo as Eo'. rewrite Eo'. cbn [bind]. f_equal. apply map_ext. intros m.
      rewrite <- H. unfold has_edge, edge_find. cbn [fst snd]. rewrite Eo. unfold dmem. now destruct (dget out m).
    - exfalso. apply dget_None in Eo. apply Eo. rewrite (wf_ekeys _ W), Nf, N. exact I. }
  split.
  - rewrite (C 3 [2]); [reflexivity|cbn; auto|lazy; reflexivity].
  - intros n I. split; auto. rewrite Nf, N in I.
    assert (G : forall nb, neighbors rchain n = Ok nb -> nb <> [] ->
      forallb (fun m => @memb ekey _ (if @memb ekey _ (n, m) [(0, 1); (1, 2); (2, 3)] then (n, m) else (m, n)) [(0, 1); (1, 2); (2, 3)]) nb = true ->
      exists es, connected_edges form n = Ok es /\ es <> [] /\ forces_known form es).
    { intros nb En Ne B. eexists. split; [apply (C n nb I En)|]. split; [destruct nb; [congruence|discriminate]|].
      apply forces_known_all; auto. intros e J. apply in_map_iff in J as (m&<-&J). rewrite forallb_forall in B. apply B in J.
      apply (@memb_In ekey _) in J. now rewrite Ef, Es. }
    destruct I as [<-|[<-|[<-|[<-|[]]]]]; (eapply G; [lazy; reflexivity|discriminate|reflexivity]).
Qed.

(** The support of the chain has one edge, no load and is in equilibrium. *)
Lemma rchain_support : exists form, static_equilibrium rchain None 100 (/ 1000000)%R false = Ok form
  /\ held_by_edges form (nodes form) /\ In 3 (nodes form)
  /\ connected_edges form 3 = Ok [(2, 3)] /\ incident form 3 = [(2, 3)] /\ load form 3 = v0 /\ unbalanced form 3 = v0.
Proof.
  destruct rchain_forms as (form&E). exists form. split; auto.
  destruct (rchain_connected form E) as [C3 Ca].
  destruct (c37_frame _ _ _ _ _ _ rchain_reachable E) as (Nf&Ef&_&_&Lf&_).
  assert (B := c31_direct_equilibrium _ _ _ _ _ rchain_reachable rchain_ready rchain_direct rchain_nonzero E).
  assert (N : nodes rchain = [0; 1; 2; 3]) by (lazy; reflexivity).
  assert (Es : edges rchain = [(0, 1); (1, 2); (2, 3)]) by (lazy; reflexivity).
  assert (I3 : In 3 (nodes form)) by (rewrite Nf, N; cbn; auto).
  split; auto. split; auto. split; auto. split; [unfold incident; rewrite Ef, Es; reflexivity|].
  split; [unfold load; rewrite Lf; lazy; reflexivity|]. now apply B.
Qed.
