(** * Every edge of a diagram is a trail edge or a deviation edge *)

From Coq Require Import String List ZArith Bool Lia Permutation.
From Verif Require Import Py PyFacts Num Diagram DiagramFacts Topology SpecDiagram SpecTopology
  TopologyFacts BuildFacts History HistoryFacts SequenceThms TopologyThms ReadyThms.
Import ListNotations.
Open Scope Z_scope.

Section Typed.
  Context {T : Type} `{NumOps T}.
  Implicit Types (d : diagram T).

  Definition typed d : Prop := forall e a, edge_find d e = Some a -> ea_type a <> None.

  Lemma typed_edge d d' : d_edge d' = d_edge d -> typed d -> typed d'.
  Proof. unfold typed, edge_find. now intros ->. Qed.

  Lemma typed_node_set n f : preserves typed (node_set (T:=T) n f).
  Proof. intros d U. unfold node_set. destruct (dget (d_node d) n); cbn; auto. Qed.

  Lemma typed_edge_set e f : (forall a, ea_type (f a) = ea_type a) -> preserves typed (edge_set (T:=T) e f).
  Proof.
    intros Hf d U. unfold edge_set. destruct (dget (d_edge d) (fst e)) as [nb|] eqn:E1; cbn; auto.
    destruct (dget nb (snd e)) as [a|] eqn:E2; cbn; auto.
    intros [u v] b. unfold edge_find. cbn. rewrite dget_dset. destruct (eqb_spec u (fst e)) as [->|].
    - rewrite dget_dset. destruct (eqb_spec v (snd e)) as [->|].
      + injection 1 as <-. rewrite Hf. apply (U e a). unfold edge_find. now rewrite E1.
      + intros E. apply (U (fst e, v) b). unfold edge_find. cbn. now rewrite E1.
    - intros E. apply (U (u, v) b). exact E.
  Qed.

  Lemma typed_add_node key p : preserves typed (add_node (T:=T) key p).
  Proof.
    intros d U. unfold add_node, graph_add_node. cbn.
    set (k := match key with Some k => k | None => d_max d + 1 end).
    destruct (dget (d_node d) k) as [a|] eqn:E; cbn; [exact U|].
    intros [u v] b. unfold edge_find. cbn. rewrite dget_dset. destruct (eqb_spec u k) as [->|]; [discriminate|].
    apply (U (u, v) b).
  Qed.

  Lemma d_edge_adj_add d u v : d_edge (adj_add d u v) = d_edge d.
  Proof. unfold adj_add. destruct (dget (d_adj d) u) as [l|]; auto. destruct (memb v l); auto. Qed.

  Lemma typed_graph_add_edge u v el : preserves typed (graph_add_edge (T:=T) u v el).
  Proof.
    intros d U. unfold graph_add_edge. destruct (has_node d u); cbn; auto. destruct (has_node d v); cbn; auto.
    intros [x y] b. unfold edge_find. rewrite !d_edge_adj_add. cbn. rewrite dget_dset.
    destruct (eqb_spec x u) as [->|]; [|apply (U (x, y) b)].
    rewrite dget_dset. destruct (eqb_spec y v) as [->|].
    - injection 1 as <-. destruct el; discriminate.
    - destruct (dget (d_edge d) u) eqn:E; [|discriminate]. intros Q. apply (U (u, y) b). unfold edge_find. cbn. now rewrite E.
  Qed.

  Lemma typed_resolve r : preserves typed (resolve_end (T:=T) r).
  Proof.
    intros d U. unfold resolve_end. destruct (node_key d r); cbn; auto. destruct r; cbn; auto.
    now apply typed_add_node.
  Qed.

  Lemma typed_add_edge ru rv el : preserves typed (add_edge (T:=T) ru rv el).
  Proof.
    unfold add_edge. apply preserves_ebind; [apply typed_resolve|]. intros u.
    apply preserves_ebind; [apply typed_resolve|]. intros v. apply typed_graph_add_edge.
  Qed.

  Lemma typed_add_support r : preserves typed (add_support (T:=T) r).
  Proof. intros d U. unfold add_support. destruct (node_key d r); cbn; auto. apply typed_node_set; auto. Qed.

  Lemma typed_set_sequences l : forall s, preserves typed (set_sequences (T:=T) s l).
  Proof.
    induction l as [|n l IH]; intros s; cbn; [apply preserves_eret|].
    apply preserves_ebind; [apply typed_node_set; auto|]. intros. apply IH.
  Qed.

  Lemma typed_search ord : preserves typed (build_search (T:=T) ord).
  Proof.
    unfold build_search. apply preserves_ebind; [apply preserves_eget|]. intros ns.
    apply preserves_ebind.
    - apply preserves_eloop. intros acc s _. unfold build_body.
      apply preserves_ebind; [apply preserves_eget|]. intros []; cbn; [|apply preserves_eret].
      apply preserves_ebind; [apply preserves_eget|]. intros [[tr vis] o].
      apply preserves_ebind; [apply typed_node_set; auto|]. intros _.
      apply preserves_ebind; [apply typed_set_sequences|]. intros _. apply preserves_eret.
    - intros acc. apply preserves_ebind; [apply preserves_eget|]. intros ns'. apply preserves_eret.
  Qed.

  Lemma typed_plain ord : preserves typed (build_trails_plain (T:=T) ord).
  Proof.
    unfold build_trails_plain. apply preserves_ebind; [apply typed_search|].
    intros r. unfold build_finish. apply preserves_ebind; [apply preserves_eget|]. intros ne.
    destruct (Nat.eqb ne 0); [apply preserves_eraise|].
    apply preserves_ebind; [apply preserves_eget|]. intros ns.
    destruct (Nat.eqb ns 0); [apply preserves_eraise|]. destruct (negb _); [apply preserves_eraise|].
    intros d U. exact U.
  Qed.

  Lemma typed_build ord aux : preserves typed (build_trails (T:=T) ord aux).
  Proof.
    unfold build_trails. destruct aux; [|apply typed_plain].
    apply preserves_ebind; [apply typed_search|].
    intros r. apply preserves_ebind; [apply preserves_eget|]. intros dir.
    apply preserves_ebind.
    - apply preserves_eloop. intros acc n _. unfold aux_body.
      apply preserves_ebind; [apply preserves_eget|]. intros len.
      apply preserves_ebind; [apply preserves_eget|]. intros xyz.
      apply preserves_ebind; [apply typed_add_node|]. intros k.
      apply preserves_ebind; [apply typed_add_support|]. intros _.
      apply preserves_ebind; [apply typed_add_edge|]. intros e. apply preserves_eret.
    - intros aux. apply preserves_ebind; [intros d U; exact U|]. intros _. apply typed_plain.
  Qed.

  Lemma typed_call o : preserves typed (call (T:=T) o).
  Proof.
    destruct o; cbn [call].
    - apply preserves_ebind; [apply typed_add_node|intros; apply preserves_eret].
    - apply preserves_ebind; [apply typed_add_edge|intros; apply preserves_eret].
    - apply typed_add_support.
    - intros d U. unfold add_load. destruct (node_key d r); cbn; auto. apply typed_node_set; auto.
    - intros d U. unfold update_node_xyz.
      apply (preserves_ebind typed (add_node (Some k) p)); [apply typed_add_node|intros; apply preserves_eret|].
      destruct (dmem _ _); auto.
    - apply typed_node_set; auto.
    - apply typed_edge_set; auto.
    - apply typed_edge_set; auto.
    - intros d U. exact U.
    - intros d U. exact U.
    - intros d U. exact U.
    - apply typed_build.
    - unfold shift_trail. apply preserves_ebind; [apply preserves_eget|]. intros [].
      + apply preserves_ebind; [apply preserves_eget|]. intros [].
        * apply preserves_ebind; [apply preserves_eget|]. intros tr. apply typed_set_sequences.
        * apply preserves_eraise.
      + apply preserves_eraise.
  Qed.

  Lemma reachable_typed d : reachable d -> typed d.
  Proof.
    intros (ops&_&->). unfold run. assert (U : typed (empty_diagram (T:=T))) by (intros e a E; discriminate).
    revert U. generalize (empty_diagram (T:=T)). induction ops as [|o ops IH]; cbn; auto.
    intros d U. apply IH. now apply typed_call.
  Qed.

  (** trail_edges and deviation_edges split the edges. *)
  Lemma edge_types d e : wf d -> In e (edges d) ->
    (In e (trail_edges d) /\ ~ In e (deviation_edges d)) \/ (In e (deviation_edges d) /\ ~ In e (trail_edges d)).
  Proof.
    intros W I. rewrite In_trail_edges, In_deviation_edges by auto.
    apply In_edges, has_edge_find in I as [a Ea]; auto. assert (X := wf_etype d W e a Ea).
    destruct (ea_type a) as [[]|] eqn:Q; [left|right|congruence]; (split; [eauto|intros (b&Eb&Tb); congruence]).
  Qed.
End Typed.
