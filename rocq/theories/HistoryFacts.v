(** * Histories of calls, and the effect of each construction call *)

From Coq Require Import String List ZArith Bool Lia Permutation.
From Verif Require Import Py PyFacts Num Diagram DiagramFacts Topology SpecDiagram SpecTopology TopologyFacts BuildFacts History.
Import ListNotations.
Open Scope Z_scope.

Section Facts.
  Context {T : Type} `{NumOps T}.
  Implicit Types (d : diagram T).

  Lemma wf_call o : valid_op o -> preserves (wf (T:=T)) (call o).
  Proof.
    intros V. destruct o; cbn [call].
    - apply preserves_ebind; [apply wf_add_node|intros; apply preserves_eret].
    - apply preserves_ebind; [apply wf_add_edge|intros; apply preserves_eret].
    - apply wf_add_support.
    - apply wf_add_load.
    - apply wf_update_node_xyz.
    - apply wf_node_set.
    - apply wf_edge_set. auto.
    - apply wf_edge_set. auto.
    - intros d W. destruct W. constructor; auto.
    - intros d W. destruct W. constructor; auto.
    - intros d W. destruct W. constructor; auto.
    - now apply wf_build_trails.
    - apply wf_shift_trail.
  Qed.

  Lemma wf_run ops : Forall valid_op ops -> forall d, wf d -> wf (run d ops).
  Proof.
    induction 1 as [|o ops V F IH]; intros d W; cbn; auto. apply IH. now apply wf_call.
  Qed.

  Lemma reachable_wf d : reachable d -> wf d.
  Proof. intros (ops&V&->). apply wf_run; auto. apply wf_empty. Qed.

  Lemma run_app d ops1 ops2 : run d (ops1 ++ ops2) = run (run d ops1) ops2.
  Proof. unfold run. apply fold_left_app. Qed.

  Lemma reachable_step d o : reachable d -> valid_op o -> reachable (fst (call o d)).
  Proof.
    intros (ops&V&->) Vo. exists (ops ++ [o]). split.
    - apply Forall_app. auto.
    - rewrite run_app. reflexivity.
  Qed.

  Lemma script_run ops : forall d d', script d ops = Ok d' -> run d ops = d'.
  Proof.
    induction ops as [|o ops IH]; cbn; intros d d' E; [congruence|].
    destruct (call o d) as [d1 [[]|e]]; [|discriminate]. now apply IH.
  Qed.

  Lemma reachable_script ops d : Forall valid_op ops -> script empty_diagram ops = Ok d -> reachable d.
  Proof. intros V E. exists ops. split; auto. symmetry. now apply script_run. Qed.

  Lemma wf_well_formed d : wf d -> well_formed d.
  Proof.
    intros W. constructor.
    - apply W.
    - now apply NoDup_edges.
    - intros u v I. apply In_edges, has_edge_find in I as [a I]; auto. now apply (wf_eends _ W) in I.
    - intros n I. destruct (wf_adj_dict d n W I) as [l El]. exists l. unfold neighbors, dgetr.
      rewrite El. split; auto. split; [now apply (wf_anodup _ W n)|].
      intros m. rewrite !In_edges by auto. now apply (wf_adj _ W).
    - intros g k I. apply (wf_gkey _ W g k). apply In_dget; auto. apply W.
    - apply W.
    - intros key tr n I. apply (wf_trails _ W key tr n). apply In_dget; auto. apply W.
  Qed.

  (** ** add_node *)

  Lemma node_get_Ok d n a : node_get d n = Ok a <-> dget (d_node d) n = Some a.
  Proof. apply dgetr_Ok. Qed.

  Lemma node_get_ext d d' n : dget (d_node d') n = dget (d_node d) n -> same_node d d' n.
  Proof. unfold same_node, node_get, dgetr. now intros ->. Qed.

  Lemma edges_new_node d d' k :
    ~ In k (dkeys (d_edge d)) -> d_edge d' = dset (d_edge d) k [] -> edges d' = edges d.
  Proof.
    intros N E. unfold edges. rewrite E, dset_new by auto. rewrite flat_map_app. cbn.
    now rewrite app_nil_r.
  Qed.

  Lemma add_node_new d key p k : wf d ->
    k = match key with Some k => k | None => d_max d + 1 end -> ~ In k (nodes d) ->
    exists d', add_node key p d = (d', Ok k)
      /\ nodes d' = nodes d ++ [k]
      /\ node_get d' k = Ok (fresh_node p)
      /\ (forall n, n <> k -> dget (d_node d') n = dget (d_node d) n)
      /\ same_edges d d' /\ neighbors d' k = Ok [] /\ same_settings d d'
      /\ d_gkey d' = dset (d_gkey d) (gkey d p) k
      /\ d_max d' = Z.max (d_max d) k.
  Proof.
    intros W -> N. rewrite add_node_eq. eexists. split; [reflexivity|].
    remember (match key with Some k => k | None => d_max d + 1 end) as k eqn:Ek.
    assert (E : dget (d_node d) k = None) by (now apply dget_None).
    rewrite (graph_add_node_new d k key p Ek E).
    split; [unfold nodes; cbn; now rewrite dkeys_dset_new|].
    split; [unfold node_get, dgetr; cbn; now rewrite dget_dset_same|].
    split; [intros n Hn; cbn; now rewrite dget_dset_other|].
    split.
    { split; [|split].
      - apply (edges_new_node d _ k); [now rewrite (wf_ekeys _ W)|reflexivity].
      - intros e. unfold edge_get. now rewrite (edge_find_new_node d k) by auto.
      - intros n I. unfold neighbors, dgetr. cbn. rewrite dget_dset_other; auto.
        intros ->. contradiction. }
    split; [unfold neighbors, dgetr; cbn; now rewrite dget_dset_same|].
    split; [repeat split|]. split; [reflexivity|]. cbn. destruct (Z.ltb_spec (d_max d) k); lia.
  Qed.

  Lemma add_node_old d k p a : dget (d_node d) k = Some a ->
    exists d', add_node (Some k) p d = (d', Ok k)
      /\ nodes d' = nodes d
      /\ node_get d' k = Ok (set_xyz a p)
      /\ (forall n, n <> k -> dget (d_node d') n = dget (d_node d) n)
      /\ d_edge d' = d_edge d /\ d_adj d' = d_adj d /\ same_settings d d'
      /\ d_gkey d' = dset (d_gkey d) (gkey d p) k.
  Proof.
    intros E. rewrite add_node_eq. eexists. split; [reflexivity|].
    rewrite (graph_add_node_old d k (Some k) p a eq_refl E).
    split; [unfold nodes; cbn; apply dkeys_dset_in; eapply dget_In_keys; eauto|].
    split; [unfold node_get, dgetr; cbn; now rewrite dget_dset_same|].
    split; [intros n Hn; cbn; now rewrite dget_dset_other|].
    repeat split.
  Qed.

  Lemma node_key_set d d' p k :
    d_gkey d' = dset (d_gkey d) (gkey d p) k -> d_tol d' = d_tol d -> node_key d' (RXyz p) = Some k.
  Proof. intros E Et. cbn. unfold gkey in *. rewrite Et, E. apply dget_dset_same. Qed.

  (** ** Ends of edges *)

  Definition end_new d (r : nref T) : option (vec T) :=
    match r with
    | RKey _ => None
    | RXyz p => match node_key d r with Some _ => None | None => Some p end
    end.

  Lemma resolve_end_old d r k : node_key d r = Some k -> resolve_end r d = (d, Ok k).
  Proof. intros E. unfold resolve_end. now rewrite E. Qed.

  Lemma resolve_end_new d p : node_key d (RXyz p) = None -> resolve_end (RXyz p) d = add_node None p d.
  Proof. intros E. unfold resolve_end. now rewrite E. Qed.

  Lemma auto_fresh d : wf d -> ~ In (d_max d + 1) (nodes d).
  Proof. intros W I. apply (wf_max _ W) in I. lia. Qed.
End Facts.
