(** * Listings and predicates agree (C67) *)

From Coq Require Import String List ZArith Bool Lia Permutation Reals Lra.
From Verif Require Import Py PyFacts Num Diagram DiagramFacts Topology SpecDiagram SpecTopology
  TopologyFacts BuildFacts History HistoryFacts DiagramThms SequenceThms TopologyThms ReadyThms TypedFacts RVec
  Equilibrium SpecEquilibrium FormFacts.
Import ListNotations.
Open Scope Z_scope.

Section Queries.
  Context {T : Type} `{NumOps T}.
  Implicit Types (d : diagram T).

  Lemma NoDup_map_filter {A B} (f : A -> B) p l : NoDup (map f l) -> NoDup (map f (filter p l)).
  Proof.
    induction l as [|a l IH]; cbn; auto. intros N. inversion N as [|? ? Ha N']; subst.
    destruct (p a); cbn; auto. constructor; auto.
    intros I. apply Ha. apply in_map_iff in I as (b&E&I). apply filter_In in I as [I _]. rewrite <- E. now apply in_map.
  Qed.

  Lemma listed d t n : wf d ->
    (In n (map fst (filter (fun na => opt_is ntype_eqb (na_type (snd na)) t) (d_node d)))
     <-> exists a, node_get d n = Ok a /\ na_type a = Some t).
  Proof.
    intros W. rewrite in_map_iff. split.
    - intros ([m a]&E&I). cbn in E. subst. apply filter_In in I as [I E]. exists a. split.
      + apply node_get_Ok. apply In_dget; auto. apply (wf_nodup _ W).
      + cbn [snd] in E. destruct (na_type a) as [x|]; [destruct x, t; (reflexivity || discriminate E)|discriminate E].
    - intros (a&E&Et). exists (n, a). split; auto. apply filter_In. split.
      + apply dget_In. now apply node_get_Ok.
      + cbn. rewrite Et. now destruct t.
  Qed.

  (** support_nodes and origin_nodes list exactly the nodes of that kind, once each,
      and the predicates answer accordingly. *)
  Lemma c67_nodes : forall d, produced d ->
    NoDup (support_nodes d) /\ NoDup (origin_nodes d)
    /\ (forall n, In n (support_nodes d) -> In n (nodes d) /\ ~ In n (origin_nodes d))
    /\ (forall n, In n (origin_nodes d) -> In n (nodes d))
    /\ (forall n, In n (nodes d) -> exists a, node_get d n = Ok a
          /\ (In n (support_nodes d) <-> na_type a = Some TSupport)
          /\ (In n (origin_nodes d) <-> na_type a = Some TOrigin)
          /\ (is_node_support d n = Ok true <-> na_type a = Some TSupport)
          /\ (is_node_support d n = Ok false <-> na_type a <> Some TSupport)
          /\ (is_node_origin d n = Ok true <-> na_type a = Some TOrigin)
          /\ (is_node_origin d n = Ok false <-> na_type a <> Some TOrigin)).
  Proof.
    intros d Hr. assert (W := produced_wf d Hr). unfold support_nodes, origin_nodes.
    assert (ND : NoDup (map fst (d_node d))) by apply (wf_nodup _ W).
    split; [now apply NoDup_map_filter|]. split; [now apply NoDup_map_filter|].
    assert (Nn : forall n a, node_get d n = Ok a -> In n (nodes d)).
    { intros n a E. apply node_get_Ok in E. eapply dget_In_keys; eauto. }
    split.
    { intros n I. apply listed in I as (a&E&Et); auto. split; [eauto|]. intros J.
      apply listed in J as (b&E'&Et'); auto. congruence. }
    split; [intros n I; apply listed in I as (a&E&Et); eauto|].
    intros n I. destruct (node_find d n I) as [a Ea]. apply node_get_Ok in Ea. exists a. split; auto.
    rewrite !listed by auto. unfold is_node_support, is_node_origin. rewrite Ea. cbn [bind].
    assert (L : forall t, (exists b, Ok a = Ok b /\ na_type b = Some t) <-> na_type a = Some t).
    { intros t. split; [intros (b&E&Et); congruence|eauto]. }
    rewrite Ea || idtac.
    split; [split; [intros (b&E&Et); congruence|intros; exists a; auto]|].
    split; [split; [intros (b&E&Et); congruence|intros; exists a; auto]|].
    destruct (na_type a) as [[]|]; cbn; repeat split; try congruence; intros X; try (exfalso; apply X); congruence.
  Qed.

  (** loaded_nodes lists exactly the nodes whose load is larger than the threshold. *)
  Lemma c67_loaded : forall d m, produced d ->
    exists l, loaded_nodes d m = Ok l /\ NoDup l
      /\ forall n, In n l <-> exists q, node_load d n = Ok q /\ nltb m (length_vector q) = true.
  Proof.
    intros d m Hr. assert (W := produced_wf d Hr). unfold loaded_nodes.
    set (f := fun n => match node_load d n with Ok q => nltb m (length_vector q) | Err _ => false end).
    assert (Hf : forall n, In n (nodes d) -> is_node_loaded d n m = Ok (f n)).
    { intros n I. unfold is_node_loaded, f. destruct (node_find d n I) as [a Ea]. apply node_get_Ok in Ea.
      unfold node_load. now rewrite Ea. }
    rewrite (filter_res_Ok _ f) by auto. eexists. split; auto. split; [apply NoDup_filter, (wf_nodup _ W)|].
    intros n. rewrite filter_In. unfold f. split.
    - intros [I E]. destruct (node_load d n) as [q|]; [eauto|discriminate].
    - intros (q&E&L). rewrite E. split; auto. unfold node_load in E.
      destruct (node_get d n) as [a|] eqn:Ea; [|discriminate]. apply node_get_Ok in Ea. eapply dget_In_keys; eauto.
  Qed.

  (** An edge between existing nodes is supported when one of its ends is a support. *)
  Lemma c67_supported : forall d u v, produced d -> In u (nodes d) -> In v (nodes d) ->
    exists b, is_edge_supported d (u, v) = Ok b
      /\ (b = true <-> In u (support_nodes d) \/ In v (support_nodes d)).
  Proof.
    intros d u v Hr Iu Iv. destruct (c67_nodes d Hr) as (_&_&_&_&K).
    destruct (K u Iu) as (a&Ea&Su&_&_). destruct (K v Iv) as (b&Eb&Sv&_&_).
    unfold is_edge_supported, is_node_support. cbn [fst snd]. rewrite Ea, Eb. cbn [bind].
    eexists. split; [reflexivity|]. rewrite Su, Sv, orb_true_iff.
    destruct (na_type a) as [[]|], (na_type b) as [[]|]; cbn; intuition congruence.
  Qed.

  (** Every edge is a trail edge or a deviation edge, and not both. *)
  Lemma c67_edges : forall d, produced d ->
    Permutation (edges d) (trail_edges d ++ deviation_edges d)
    /\ NoDup (edges d)
    /\ (forall e, In e (edges d) ->
          is_trail_edge d e = Ok true /\ is_deviation_edge d e = Ok false /\ In e (trail_edges d)
          \/ is_trail_edge d e = Ok false /\ is_deviation_edge d e = Ok true /\ In e (deviation_edges d))
    /\ (forall e, ~ In e (edges d) -> is_trail_edge d e = Err KeyError /\ is_deviation_edge d e = Err KeyError).
  Proof.
    intros d Hr. assert (W := produced_wf d Hr). assert (NE := NoDup_edges d W).
    assert (In1 : forall t e, In e (edges_of_type d t) -> In e (edges d)).
    { intros t e I. apply In_edges_of_type in I as (a&E&_); auto. apply In_edges; auto. apply has_edge_find. eauto. }
    split.
    { apply NoDup_Permutation; auto.
      - apply NoDup_app_intro; [apply NoDup_edges_of_type; auto|apply NoDup_edges_of_type; auto|].
        intros e I J. apply In1 in I as K. destruct (edge_types d e W K) as [[]|[]]; auto.
      - intros e. rewrite in_app_iff. split; [|intros [I|I]; eapply In1; eauto].
        intros I. destruct (edge_types d e W I) as [[]|[]]; auto. }
    split; auto. split.
    - intros e I. assert (I' := I). apply In_edges, has_edge_find in I' as [a Ea]; auto.
      assert (X := wf_etype d W e a Ea).
      unfold trail_edges, deviation_edges. rewrite !In_edges_of_type by auto.
      unfold is_trail_edge, is_deviation_edge, edge_get. rewrite Ea. cbn [bind].
      destruct (ea_type a) as [[]|] eqn:Q; [left|right|congruence]; repeat split; eauto.
    - intros e N. unfold is_trail_edge, is_deviation_edge, edge_get.
      destruct (edge_find d e) as [a|] eqn:Ea; auto. exfalso. apply N, In_edges; auto. apply has_edge_find. eauto.
  Qed.

  (** ** Auxiliary trails *)

  (** Every registered auxiliary trail is an edge of the diagram, registered once under its first node. *)
  Definition registered d : Prop := (forall k e, In (k, e) (d_aux d) -> edge_find d e <> None)
    /\ exists ps, d_aux d = map (fun nk => (fst nk, nk)) ps /\ NoDup ps.

  (** Edges and registered trails are kept. *)
  Definition keeps d d' : Prop := wf d ->
    wf d' /\ d_aux d' = d_aux d /\ forall e, edge_find d e <> None -> edge_find d' e <> None.

  Lemma keeps_refl d : keeps d d.
  Proof. intros W. auto. Qed.

  Lemma keeps_trans d1 d2 d3 : keeps d1 d2 -> keeps d2 d3 -> keeps d1 d3.
  Proof.
    intros G1 G2 W. destruct (G1 W) as (W2&A2&E2). destruct (G2 W2) as (W3&A3&E3).
    split; auto. split; [congruence|auto].
  Qed.

  Lemma keeps_edge d d' : (wf d -> wf d') -> d_aux d' = d_aux d -> d_edge d' = d_edge d -> keeps d d'.
  Proof. intros Hw A E W. split; auto. split; auto. intros e. unfold edge_find. now rewrite E. Qed.

  Lemma keeps_registered d d' : wf d -> keeps d d' -> registered d -> registered d'.
  Proof.
    intros W G [U V]. destruct (G W) as (_&A&E). unfold registered. rewrite A. split; [|exact V].
    intros k e I. apply E. eapply U; eauto.
  Qed.

  Lemma keeps_node_set n f : steps keeps (node_set (T:=T) n f).
  Proof.
    intros d. apply keeps_edge; [intros W; now apply wf_node_set| |]; unfold node_set;
      destruct (dget (d_node d) n); reflexivity.
  Qed.

  Lemma keeps_edge_set e f : (forall a, ea_type (f a) = ea_type a) -> steps keeps (edge_set (T:=T) e f).
  Proof.
    intros Hf d W. split; [apply wf_edge_set; auto; intros a; now rewrite Hf|]. unfold edge_set.
    destruct (dget (d_edge d) (fst e)) as [nb|] eqn:E1; cbn; auto.
    destruct (dget nb (snd e)) as [a|] eqn:E2; cbn; auto. split; auto.
    intros [u v]. unfold edge_find. cbn. rewrite dget_dset. destruct (eqb_spec u (fst e)) as [->|]; auto.
    rewrite E1, dget_dset. destruct (eqb_spec v (snd e)); auto. discriminate.
  Qed.

  Lemma keeps_add_node key p : steps keeps (add_node (T:=T) key p).
  Proof.
    intros d W. split; [now apply wf_add_node|]. unfold add_node, graph_add_node. cbn.
    set (k := match key with Some k => k | None => d_max d + 1 end).
    destruct (dget (d_node d) k) as [a|] eqn:E; cbn; auto. split; auto.
    intros [u v]. unfold edge_find. cbn. rewrite dget_dset. destruct (eqb_spec u k) as [->|]; auto.
    destruct (dget (d_edge d) k) as [nb|] eqn:Eb; [|congruence]. intros _. exfalso.
    apply dget_In_keys in Eb. rewrite (wf_ekeys _ W) in Eb. now apply dget_None in E.
  Qed.

  Lemma d_aux_adj_add d u v : d_aux (adj_add d u v) = d_aux d.
  Proof. unfold adj_add. destruct (dget (d_adj d) u) as [l|]; auto. destruct (memb v l); auto. Qed.

  Lemma keeps_graph_add_edge u v el : steps keeps (graph_add_edge (T:=T) u v el).
  Proof.
    intros d W. split; [now apply wf_graph_add_edge|]. unfold graph_add_edge.
    destruct (has_node d u); cbn [negb fst]; auto. destruct (has_node d v); cbn [negb fst]; auto.
    split; [now rewrite !d_aux_adj_add|].
    intros [x y]. unfold edge_find. rewrite !d_edge_adj_add. cbn. rewrite dget_dset.
    destruct (eqb_spec x u) as [->|]; auto. rewrite dget_dset. destruct (eqb_spec y v) as [->|]; [discriminate|].
    now destruct (dget (d_edge d) u).
  Qed.

  Ltac keep :=
    lazymatch goal with
    | |- steps _ (ebind _ _) => apply steps_ebind; [apply keeps_trans| |intros]; keep
    | |- steps _ (eget _) => apply steps_eget; apply keeps_refl
    | |- steps _ (eret _) => apply steps_eret; apply keeps_refl
    | |- steps _ (eraise _) => apply steps_eraise; apply keeps_refl
    | |- steps _ (match ?b with _ => _ end) => destruct b; keep
    | |- steps _ (eloop _ _ _) => apply steps_eloop; [apply keeps_refl|apply keeps_trans|intros]; keep
    | |- _ => idtac
    end.

  Lemma keeps_resolve r : steps keeps (resolve_end (T:=T) r).
  Proof.
    intros d. unfold resolve_end. destruct (node_key d r); [apply keeps_refl|].
    destruct r; [apply keeps_refl|apply keeps_add_node].
  Qed.

  Lemma keeps_add_edge ru rv el : steps keeps (add_edge (T:=T) ru rv el).
  Proof. unfold add_edge. keep; [apply keeps_resolve|apply keeps_resolve|apply keeps_graph_add_edge]. Qed.

  Lemma keeps_set_sequences l : forall s, steps keeps (set_sequences (T:=T) s l).
  Proof. induction l as [|n l IH]; intros s; cbn; keep; [apply keeps_node_set|apply IH]. Qed.

  Lemma build_plain_kept ord d : same_set_order ord -> wf d ->
    d_aux (fst (build_trails_plain ord d)) = d_aux d /\ d_edge (fst (build_trails_plain ord d)) = d_edge d.
  Proof.
    intros Ho W. destruct (build_plain_cases ord d W Ho) as (ds&acc&r&Hb&Hi&_&C). rewrite Hb.
    destruct (si_frame _ _ _ Hi) as [E _].
    assert (X : d_aux ds = d_aux d /\ d_edge ds = d_edge d) by (rewrite E; auto).
    destruct C as [(_&->)|[(_&_&->)|[(_&_&_&->)|(_&_&_&->)]]]; cbn [fst]; auto.
  Qed.

  Lemma registered_build ord aux d : same_set_order ord -> wf d -> registered d ->
    registered (fst (build_trails ord aux d)).
  Proof.
    intros Ho W U. destruct aux.
    - destruct (build_aux_cases ord d W Ho) as (ds&acc&d2&ax&Hi&_&Ha&W3&->).
      destruct (build_plain_kept ord (with_aux d2 ax) Ho W3) as [A E].
      assert (Wd : wf ds) by (eapply frame_wf; [apply Hi|auto]).
      assert (Nd := frame_nodes _ _ (si_frame _ _ _ Hi)).
      set (un := ord (unassigned d (snd acc))) in *.
      assert (IU : incl un (nodes ds)).
      { intros x Hx. apply (Permutation_in _ (Ho _)) in Hx. rewrite Nd. apply filter_In in Hx. tauto. }
      assert (NU : NoDup un).
      { eapply Permutation_NoDup; [apply Permutation_sym, Ho|]. apply NoDup_filter, (wf_nodup _ W). }
      destruct (aux_loop_Ok (normalize_vector (d_aux_vector d)) un [] ds Wd IU)
        as (d2'&aux'&Hl'&W2&_&_&_&Ed&_&_&_&_&_&Hx).
      rewrite Ha in Hl'. injection Hl' as <- <-. specialize (Hx NU (fun n _ F => F)). cbn [app] in Hx.
      split; [|exists (aux_pairs (d_max ds) un); rewrite A; split; [exact Hx|]; apply (NoDup_map_inv fst); rewrite aux_pairs_fst; exact NU].
      intros k e. rewrite A. unfold edge_find. rewrite E. cbn [d_aux with_aux d_edge]. rewrite Hx. intros I.
      apply in_map_iff in I as (nk&X&I). injection X as _ <-. fold (edge_find d2 nk). rewrite Ed.
      apply (@memb_In ekey _) in I. now rewrite I.
    - destruct (build_plain_kept ord d Ho W) as [A E]. unfold registered. cbn [build_trails]. rewrite A.
      split; [|apply U]. intros k e. unfold edge_find. rewrite E. apply U.
  Qed.

  Lemma registered_call o d : valid_op o -> wf d -> registered d -> registered (fst (call o d)).
  Proof.
    intros V W U. assert (K : forall m : eff (diagram T) unit, steps keeps m -> registered (fst (m d))).
    { intros m G. eapply keeps_registered; eauto. }
    destruct o; cbn [call]; try exact U;
      lazymatch goal with |- registered (fst (build_trails _ _ _)) => idtac | _ => apply K end.
    - unfold ignore. keep. apply keeps_add_node.
    - unfold ignore. keep. apply keeps_add_edge.
    - intros x. unfold add_support. destruct (node_key x r); [apply keeps_node_set|apply keeps_refl].
    - intros x. unfold add_load. destruct (node_key x r); [apply keeps_node_set|apply keeps_refl].
    - intros x. unfold update_node_xyz. cbv zeta.
      assert (X : steps keeps (do* _ := add_node (T:=T) (Some k) p in eret tt)) by (keep; apply keeps_add_node).
      destruct (dmem (d_gkey x) (gkey x p)) eqn:M; [|apply X].
      eapply keeps_trans; [|apply X]. apply keeps_edge; auto. intros Wx. apply wf_with_gkey; auto.
      + intros g n E. apply (wf_gkey _ Wx g n). destruct (eqb_spec g (gkey x p)) as [->|N].
        * rewrite dget_ddel_same in E by apply Wx. discriminate.
        * now rewrite dget_ddel_other in E.
      + apply NoDup_ddel, Wx.
    - apply keeps_node_set.
    - now apply keeps_edge_set.
    - now apply keeps_edge_set.
    - now apply registered_build.
    - unfold shift_trail. keep. apply keeps_set_sequences.
  Qed.

  Lemma reachable_registered d : reachable d -> registered d.
  Proof.
    intros (ops&V&->). unfold run.
    assert (U : registered (empty_diagram (T:=T))) by (split; [intros k e []|exists []; split; [reflexivity|constructor]]).
    assert (W := wf_empty (T:=T)). revert U W. generalize (empty_diagram (T:=T)).
    induction V as [|o ops Vo V IH]; cbn; auto.
    intros d U W. apply IH; [now apply registered_call|now apply wf_call].
  Qed.

  (** Every registered auxiliary trail is an edge, and auxiliary_trail_edges lists
      exactly the registered ones, once each. *)
  Lemma c67_auxiliary : forall d, reachable d ->
    NoDup (auxiliary_trail_edges d)
    /\ (forall e, In e (auxiliary_trail_edges d) <-> exists key, In (key, e) (auxiliary_trails d))
    /\ (forall e, is_auxiliary_trail_edge d e = true <-> exists key, In (key, e) (auxiliary_trails d))
    /\ (forall key e, In (key, e) (auxiliary_trails d) -> In e (edges d)).
  Proof.
    intros d Hr. apply reachable_wf in Hr as W. assert (U := reachable_registered d Hr).
    assert (A : forall e, is_auxiliary_trail_edge d e = true <-> exists key, In (key, e) (auxiliary_trails d)).
    { intros e. unfold is_auxiliary_trail_edge. rewrite (@memb_In ekey _). unfold dvalues. rewrite in_map_iff. split.
      - intros ([k e']&E&I). cbn in E. subst. eauto.
      - intros (k&I). exists (k, e). auto. }
    assert (E : forall key e, In (key, e) (auxiliary_trails d) -> In e (edges d)).
    { intros key e I. apply (proj1 U) in I. apply In_edges; auto. apply has_edge_find. destruct (edge_find d e); [eauto|easy]. }
    split; [apply NoDup_filter, NoDup_edges; auto|]. split; [|auto].
    intros e. unfold auxiliary_trail_edges. rewrite filter_In, A. split; [tauto|]. intros (k&I). eauto.
  Qed.
End Queries.

(** Over the reals: a node is listed as loaded when its load vector is longer than the threshold. *)
Lemma c67_loaded_length : forall (d : diagram R) m l, produced d -> loaded_nodes d m = Ok l ->
  forall n, In n l <-> exists q, node_load d n = Ok q
    /\ (m < sqrt (vx q * vx q + vy q * vy q + vz q * vz q))%R.
Proof.
  intros d m l Hr E n. destruct (c67_loaded d m Hr) as (l'&E'&_&K). rewrite E in E'. apply Ok_inj in E' as <-.
  rewrite K. change (nltb (T:=R)) with Rltb. split; intros (q&Eq&L); exists q; split; auto.
  - destruct (Rltb_spec m (length_vector q)) as [X|]; [exact X|discriminate].
  - destruct (Rltb_spec m (length_vector q)) as [X|X]; auto.
Qed.
