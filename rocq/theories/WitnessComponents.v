(** * Concrete instances for the Grasshopper components and the counters *)

From Coq Require Import String List ZArith Bool Lia Permutation Floats.
From Verif Require Import Py PyFacts Num Diagram DiagramFacts Topology TopologyFacts Equilibrium Constraints History HistoryFacts Fixtures
  SpecDiagram SpecTopology SpecEquilibrium ReadyThms BuildFacts Witness Components SpecComponents Artists ComponentThms.
Import ListNotations.
Open Scope Z_scope.

(** ** An arch of three bars with an input that is not connected *)

Definition arch_trails : list (option (line (T:=float))) :=
  [Some (fv 1 0 0, fv 0 0 0, TrailEdge (-1)%float None); None; Some (fv 2 0 0, fv 3 0 0, TrailEdge (-1)%float None)].
Definition arch_deviations : list (option (line (T:=float))) := [Some (fv 2 0 0, fv 1 0 0, DeviationEdge (-1)%float)].
Definition arch_loads : list (option (vec float * vec float)) := [Some (fv 1 0 0, fv 0 (-1) 0); Some (fv 2 0 0, fv 0 (-1) 0); None].
Definition arch_supports : list (option (vec float)) := [Some (fv 0 0 0); Some (fv 3 0 0)].
Definition arch_lines := connected arch_trails ++ connected arch_deviations.
Definition arch_chains : list (list Z) := [[0; 1]; [2; 3]].

Lemma arch_loads_meet : forall p q, In (p, q) (connected arch_loads) -> meets arch_lines p.
Proof.
  intros p q [E|[E|[]]]; injection E as <- <-; [exists (fv 1 0 0)|exists (fv 2 0 0)]; (split; [vm_compute; tauto|reflexivity]).
Qed.
Lemma arch_supports_meet : forall p, In p (connected arch_supports) -> meets arch_lines p.
Proof.
  intros p [<-|[<-|[]]]; [exists (fv 0 0 0)|exists (fv 3 0 0)]; (split; [vm_compute; tauto|reflexivity]).
Qed.

(** Whatever is drawn from these inputs has the two chains. *)
Lemma arch_drawn d : reachable d -> drawn_from arch_lines (connected arch_loads) (connected arch_supports) d ->
  chains d arch_chains /\ covers d arch_chains.
Proof.
  intros R D. assert (W := reachable_wf d R).
  assert (Ra : reachable (assemble 3 arch_lines)) by apply reachable_assemble. assert (Wa := reachable_wf _ Ra).
  assert (Nd : nodes d = [0; 1; 2; 3]) by (rewrite (df_nodes _ _ _ _ D); vm_compute; reflexivity).
  destruct (df_edges _ _ _ _ D) as (Ee&Eg&_).
  assert (Es : edges d = edges (assemble 3 arch_lines)) by exact Ee.
  assert (Et := trail_edges_same _ _ Ee Eg Wa W).
  assert (Tv : trail_edges (assemble 3 arch_lines) = [(0, 1); (2, 3)]) by (vm_compute; reflexivity).
  assert (Ev : edges (assemble 3 arch_lines) = [(0, 1); (2, 3); (2, 0)]) by (vm_compute; reflexivity).
  assert (Cs : Forall (fun n => exists p, node_coordinates (assemble 3 arch_lines) n = Ok p
     /\ ((exists p', In p' (connected arch_supports) /\ rounded 3 p' = rounded 3 p) /\ (n = 1 \/ n = 3)
         \/ (forall p', In p' (connected arch_supports) -> rounded 3 p' <> rounded 3 p) /\ (n = 0 \/ n = 2))) [0; 1; 2; 3]).
  { repeat constructor; eexists; (split; [vm_compute; reflexivity|]).
    - right. split; [|auto]. intros p' [<-|[<-|[]]]; vm_compute; discriminate.
    - left. split; [|auto]. exists (fv 0 0 0). split; [vm_compute; tauto|vm_compute; reflexivity].
    - right. split; [|auto]. intros p' [<-|[<-|[]]]; vm_compute; discriminate.
    - left. split; [|auto]. exists (fv 3 0 0). split; [vm_compute; tauto|vm_compute; reflexivity]. }
  rewrite Forall_forall in Cs.
  assert (Su : forall n, In n (support_nodes d) <-> n = 1 \/ n = 3).
  { intros n. rewrite In_support_is by exact W. split.
    - intros Sn. assert (I : In n (nodes d)).
      { unfold is_node_support, node_get, dgetr in Sn. destruct (dget (d_node d) n) eqn:F; [|discriminate Sn]. eapply dget_In_keys; eauto. }
      destruct (df_each _ _ _ _ D n I) as (p&q&t&En&Ec&_&_&_&Nt). rewrite Nd in I. destruct (Cs n I) as (p'&Ec'&[[_ X]|[X _]]); [exact X|].
      rewrite Ec in Ec'. injection Ec' as <-. unfold is_node_support in Sn. rewrite En in Sn. cbn in Sn. rewrite (Nt X) in Sn. discriminate Sn.
    - intros X. assert (I : In n [0; 1; 2; 3]) by (destruct X as [-> | ->]; cbn; auto).
      destruct (Cs n I) as (p'&Ec'&[[Y _]|[_ Y]]); [|lia]. rewrite <- Nd in I.
      destruct (df_each _ _ _ _ D n I) as (p&q&t&En&Ec&_&_&Ts&_). rewrite Ec in Ec'. injection Ec' as <-.
      unfold is_node_support. rewrite En. cbn. now rewrite (Ts Y). }
  split.
  - constructor.
    + intros u v I J. rewrite Es, Ev in I, J. cbn in I, J. repeat destruct I as [I|I]; repeat destruct J as [J|J]; try contradiction; congruence.
    + intros p [<-|[<-|[]]]; cbn; lia.
    + cbn. repeat constructor; cbn; intuition congruence.
    + intros n I. rewrite Nd. exact I.
    + intros a b. unfold trail_joined. rewrite !Et, Tv. split.
      * intros [[X|[X|[]]]|[X|[X|[]]]]; injection X as <- <-;
          [exists [0; 1]|exists [2; 3]|exists [0; 1]|exists [2; 3]]; (split; [cbn; auto|]); [left|left|right|right]; exists [], []; reflexivity.
      * intros (p&[<-|[<-|[]]]&[([|x [|y l]]&r&E)|([|x [|y l]]&r&E)]); cbn in E; try (injection E; intros; subst; cbn; tauto); try discriminate E;
          destruct l; discriminate E.
    + intros n. rewrite Su. split.
      * intros [->| ->]; [exists [0; 1]|exists [2; 3]]; (split; [cbn; auto|]); [exists [0]|exists [2]]; reflexivity.
      * intros (p&[<-|[<-|[]]]&l&E); destruct l as [|x [|y l]]; cbn in E; try discriminate E; injection E; intros; subst; auto; destruct l; discriminate.
  - intros n I. rewrite Nd in I. exact I.
Qed.

(** ** Counterexamples *)

(** A moved origin is found where it was, and not where it is. *)
Lemma c78_refuted : exists (d d' : diagram float) k p q, reachable d /\ is_node_origin d k = Ok true
  /\ node_coordinates d k = Ok q /\ gh_move_origins (Some d) [k] [p] = Some (Ok d')
  /\ node_coordinates d' k = Ok p /\ gh_search_node d' p = Err KeyError /\ gh_search_node d' q = Ok k.
Proof.
  exists tower_built. eexists. exists 2, (fv 7 7 7). eexists. split; [apply tower_built_reachable|].
  split; [vm_compute; reflexivity|]. split; [vm_compute; reflexivity|]. split; [vm_compute; reflexivity|]. repeat split; vm_compute; reflexivity.
Qed.

(** A line that runs along an edge the other way finds a key that is not an edge and has no force; so does a line
    between two nodes that no edge joins. *)
Lemma c79_refuted : exists (d : diagram float) u v p q a b x y, reachable d /\ In (u, v) (edges d)
  /\ node_coordinates d u = Ok p /\ node_coordinates d v = Ok q
  /\ gh_search_edge d q p = Ok (v, u) /\ ~ In (v, u) (edges d) /\ edge_force d (v, u) = Err KeyError
  /\ node_coordinates d a = Ok x /\ node_coordinates d b = Ok y
  /\ gh_search_edge d x y = Ok (a, b) /\ ~ In (a, b) (edges d) /\ ~ In (b, a) (edges d).
Proof.
  exists tower_built, 0, 1. do 2 eexists. exists 0, 5. do 2 eexists. split; [apply tower_built_reachable|].
  split; [vm_compute; tauto|]. split; [vm_compute; reflexivity|]. split; [vm_compute; reflexivity|].
  split; [vm_compute; reflexivity|]. split; [vm_compute; intuition congruence|]. split; [vm_compute; reflexivity|].
  split; [vm_compute; reflexivity|]. split; [vm_compute; reflexivity|].
  split; [vm_compute; reflexivity|]. split; vm_compute; intuition congruence.
Qed.

(** A weight of zero becomes one, and a limit of no passes becomes a hundred. *)
Lemma c80_refuted :
  (exists c : constraint float, gh_point_constraint (Some 0) (Some (fv 0 0 0)) (Some 0%float) = Some c /\ c_weight c = 1%float)
  /\ exists (d form : diagram float), reachable d /\ gh_form_finding d None (Some 0) None = Ok form
     /\ static_equilibrium d None 0 neps6 false = Err UnboundLocalError.
Proof.
  split; [eexists; split; [reflexivity|reflexivity]|]. exists tower_built. eexists. split; [apply tower_built_reachable|].
  split; vm_compute; reflexivity.
Qed.

(** On keys, node_exists is true of every integer. *)
Lemma c81_refuted : exists (d : diagram float) k, reachable d /\ ~ In k (nodes d) /\ node_exists d (RKey k) = true.
Proof. exists tower, 99. split; [apply tower_reachable|]. split; [vm_compute; intuition congruence|reflexivity]. Qed.

(** A topology that was drawn without supports cannot be disassembled. *)
Lemma c83_refuted : exists (tes : list (option (line (T:=float)))) d, gh_topology id_order tes [] [] [] None = Ok d
  /\ nodes d <> [] /\ trail_edges d <> [] /\ gh_disassemble_topology d = Err TypeError.
Proof.
  exists arch_trails. eexists. split; [vm_compute; reflexivity|]. split; [vm_compute; discriminate|].
  split; [vm_compute; discriminate|]. vm_compute. reflexivity.
Qed.

(** If no selected node is a support all nodes are drawn as supports; a scale of zero is a scale of one. *)
Lemma c84_refuted : exists (d : diagram float) ns es e3 gap,
  (exists pts org sup ls tl dl trs lds, reachable d /\ gh_artist_topology e3 gap d ns es None None = Ok (pts, org, sup, ls, tl, dl, trs, lds)
     /\ (forall n, In n ns -> In n (nodes d) /\ ~ In n (support_nodes d)) /\ List.length sup = List.length (nodes d) /\ sup <> [])
  /\ gh_artist_topology e3 gap d ns es None (Some 0%float) = gh_artist_topology e3 gap d ns es None (Some 1%float)
  /\ exists n a, gh_loads d (Some ns) 1%float gap e3 = Ok [(n, a)].
Proof.
  exists tower_built, [1; 2], [(0, 1); (1, 4)], 0.001%float, 0%float. split; [|split].
  - do 8 eexists. split; [apply tower_built_reachable|]. split; [vm_compute; reflexivity|]. split; [|split; [vm_compute; reflexivity|discriminate]].
    intros n I. vm_compute in I |- *. split; [tauto|]. intros J. repeat destruct I as [<-|I]; repeat destruct J as [J|J]; try contradiction; discriminate J.
  - vm_compute. reflexivity.
  - do 2 eexists. vm_compute. reflexivity.
Qed.
