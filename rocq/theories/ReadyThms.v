(** * Which topologies are ready for form finding *)

From Coq Require Import String List ZArith Bool Lia Permutation.
From Verif Require Import Py PyFacts Num Diagram DiagramFacts Topology SpecDiagram SpecTopology
  TopologyFacts BuildFacts ChainFacts ChainFacts2 History HistoryFacts DiagramThms TopologyThms SequenceThms
  Equilibrium SpecEquilibrium EqFacts.
Import ListNotations.
Open Scope Z_scope.

Section Thms.
  Context {T : Type} `{NumOps T}.
  Implicit Types (d : diagram T).

  (** ** No call of a TopologyDiagram sets a reaction force *)

  Definition unreacted d : Prop := forall n a, dget (d_node d) n = Some a -> na_reac a = vzero.

  Lemma unreacted_node d d' : d_node d' = d_node d -> unreacted d -> unreacted d'.
  Proof. unfold unreacted. now intros ->. Qed.

  Lemma unreacted_node_set n f : (forall a, na_reac (f a) = na_reac a) -> preserves unreacted (node_set (T:=T) n f).
  Proof.
    intros Hf d U. unfold node_set. destruct (dget (d_node d) n) as [a|] eqn:E; cbn; auto.
    intros m b. cbn. rewrite dget_dset. destruct (eqb_spec m n) as [->|]; [|apply U].
    injection 1 as <-. rewrite Hf. eauto.
  Qed.

  Lemma unreacted_edge_set e f : preserves unreacted (edge_set (T:=T) e f).
  Proof.
    intros d U. unfold edge_set. destruct (dget (d_edge d) (fst e)) as [nb|]; cbn; auto.
    destruct (dget nb (snd e)); cbn; auto.
  Qed.

  Lemma unreacted_add_node key p : preserves unreacted (add_node (T:=T) key p).
  Proof.
    intros d U. unfold add_node, graph_add_node. cbn.
    set (k := match key with Some k => k | None => d_max d + 1 end).
    destruct (dget (d_node d) k) as [a|] eqn:E; cbn; intros m b; cbn; rewrite dget_dset;
      destruct (eqb_spec m k) as [->|]; try apply U; injection 1 as <-; cbn; auto. eauto.
  Qed.

  Lemma d_node_adj_add d u v : d_node (adj_add d u v) = d_node d.
  Proof. unfold adj_add. destruct (dget (d_adj d) u) as [l|]; auto. destruct (memb v l); auto. Qed.

  Lemma unreacted_graph_add_edge u v el : preserves unreacted (graph_add_edge (T:=T) u v el).
  Proof.
    intros d U. unfold graph_add_edge. destruct (has_node d u); cbn; auto. destruct (has_node d v); cbn; auto.
    apply (unreacted_node d); auto. now rewrite !d_node_adj_add.
  Qed.

  Lemma unreacted_resolve r : preserves unreacted (resolve_end (T:=T) r).
  Proof.
    intros d U. unfold resolve_end. destruct (node_key d r); cbn; auto. destruct r; cbn; auto.
    now apply unreacted_add_node.
  Qed.

  Lemma unreacted_add_edge ru rv el : preserves unreacted (add_edge (T:=T) ru rv el).
  Proof.
    unfold add_edge. apply preserves_ebind; [apply unreacted_resolve|]. intros u.
    apply preserves_ebind; [apply unreacted_resolve|]. intros v. apply unreacted_graph_add_edge.
  Qed.

  Lemma unreacted_add_support r : preserves unreacted (add_support (T:=T) r).
  Proof.
    intros d U. unfold add_support. destruct (node_key d r); cbn; auto. apply unreacted_node_set; auto.
  Qed.

  Lemma unreacted_set_sequences l : forall s, preserves unreacted (set_sequences (T:=T) s l).
  Proof.
    induction l as [|n l IH]; intros s; cbn; [apply preserves_eret|].
    apply preserves_ebind; [apply unreacted_node_set; auto|]. intros. apply IH.
  Qed.

  Lemma unreacted_plain ord : preserves unreacted (build_trails_plain (T:=T) ord).
  Proof.
    unfold build_trails_plain. apply preserves_ebind.
    - unfold build_search. apply preserves_ebind; [apply preserves_eget|]. intros ns.
      apply preserves_ebind.
      + apply preserves_eloop. intros acc s _. unfold build_body.
        apply preserves_ebind; [apply preserves_eget|]. intros []; cbn; [|apply preserves_eret].
        apply preserves_ebind; [apply preserves_eget|]. intros [[tr vis] o].
        apply preserves_ebind; [apply unreacted_node_set; auto|]. intros _.
        apply preserves_ebind; [apply unreacted_set_sequences|]. intros _. apply preserves_eret.
      + intros acc. apply preserves_ebind; [apply preserves_eget|]. intros ns'. apply preserves_eret.
    - intros r. unfold build_finish. apply preserves_ebind; [apply preserves_eget|]. intros ne.
      destruct (Nat.eqb ne 0); [apply preserves_eraise|].
      apply preserves_ebind; [apply preserves_eget|]. intros ns.
      destruct (Nat.eqb ns 0); [apply preserves_eraise|]. destruct (negb _); [apply preserves_eraise|].
      intros d U. exact U.
  Qed.

  Lemma unreacted_build ord aux : preserves unreacted (build_trails (T:=T) ord aux).
  Proof.
    unfold build_trails. destruct aux; [|apply unreacted_plain].
    apply preserves_ebind.
    - unfold build_search. apply preserves_ebind; [apply preserves_eget|]. intros ns.
      apply preserves_ebind.
      + apply preserves_eloop. intros acc s _. unfold build_body.
        apply preserves_ebind; [apply preserves_eget|]. intros []; cbn; [|apply preserves_eret].
        apply preserves_ebind; [apply preserves_eget|]. intros [[tr vis] o].
        apply preserves_ebind; [apply unreacted_node_set; auto|]. intros _.
        apply preserves_ebind; [apply unreacted_set_sequences|]. intros _. apply preserves_eret.
      + intros acc. apply preserves_ebind; [apply preserves_eget|]. intros ns'. apply preserves_eret.
    - intros r. apply preserves_ebind; [apply preserves_eget|]. intros dir.
      apply preserves_ebind.
      + apply preserves_eloop. intros acc n _. unfold aux_body.
        apply preserves_ebind; [apply preserves_eget|]. intros len.
        apply preserves_ebind; [apply preserves_eget|]. intros xyz.
        apply preserves_ebind; [apply unreacted_add_node|]. intros k.
        apply preserves_ebind; [apply unreacted_add_support|]. intros _.
        apply preserves_ebind; [apply unreacted_add_edge|]. intros e. apply preserves_eret.
      + intros aux. apply preserves_ebind; [intros d U; exact U|]. intros _. apply unreacted_plain.
  Qed.

  Lemma unreacted_call o : preserves unreacted (call (T:=T) o).
  Proof.
    destruct o; cbn [call].
    - apply preserves_ebind; [apply unreacted_add_node|intros; apply preserves_eret].
    - apply preserves_ebind; [apply unreacted_add_edge|intros; apply preserves_eret].
    - apply unreacted_add_support.
    - intros d U. unfold add_load. destruct (node_key d r); cbn; auto. apply unreacted_node_set; auto.
    - intros d U. unfold update_node_xyz.
      apply (preserves_ebind unreacted (add_node (Some k) p)); [apply unreacted_add_node|intros; apply preserves_eret|].
      destruct (dmem _ _); auto.
    - apply unreacted_node_set; auto.
    - apply unreacted_edge_set.
    - apply unreacted_edge_set.
    - intros d U. exact U.
    - intros d U. exact U.
    - intros d U. exact U.
    - apply unreacted_build.
    - unfold shift_trail. apply preserves_ebind; [apply preserves_eget|]. intros [].
      + apply preserves_ebind; [apply preserves_eget|]. intros [].
        * apply preserves_ebind; [apply preserves_eget|]. intros tr. apply unreacted_set_sequences.
        * apply preserves_eraise.
      + apply preserves_eraise.
  Qed.

  Lemma reachable_unreacted d : reachable d -> unreacted d.
  Proof.
    intros (ops&_&->). unfold run. assert (U : unreacted (empty_diagram (T:=T))) by (intros n a E; discriminate).
    revert U. generalize (empty_diagram (T:=T)). induction ops as [|o ops IH]; cbn; auto.
    intros d U. apply IH. now apply unreacted_call.
  Qed.

  Lemma reachable_reaction d n : reachable d -> In n (nodes d) -> reaction_force d n = Ok vzero.
  Proof.
    intros R I. apply In_keys_dget in I as [a Ea]. unfold reaction_force, node_get, dgetr. rewrite Ea. cbn.
    now rewrite (reachable_unreacted d R n a Ea).
  Qed.

  (** ** After build_trails *)

  Lemma chains_permutation d P Q : Permutation P Q -> chains d P -> chains d Q.
  Proof.
    intros Pm C. assert (X : forall p, In p Q <-> In p P).
    { intros p. split; apply Permutation_in; [now apply Permutation_sym|auto]. }
    assert (Pc : Permutation (concat P) (concat Q)).
    { clear -Pm. induction Pm; cbn; auto.
      - now apply Permutation_app_head.
      - rewrite !app_assoc. apply Permutation_app_tail, Permutation_app_comm.
      - eapply perm_trans; eauto. }
    destruct C. constructor; auto.
    - intros p I. apply X in I. auto.
    - eapply Permutation_NoDup; eauto.
    - intros n I. apply ch_nodes. eapply Permutation_in; [apply Permutation_sym|]; eauto.
    - intros a b. rewrite ch_edges. split; intros (p&I&J); exists p; split; auto; now apply X.
    - intros n. rewrite ch_supports. split; intros (p&I&J); exists p; split; auto; now apply X.
  Qed.

  Lemma ready_of d P : reachable d -> chains d P -> covers d P -> P <> [] ->
    Permutation (trails d) (map (fun p => (hd 0 p, p)) P) ->
    (forall p i n, In p P -> nth_error p i = Some n -> node_sequence d n = Ok (Z.of_nat i)) ->
    ready d.
  Proof.
    intros R C Cov NE Pm K.
    assert (Ps : Permutation (stored d) P).
    { unfold stored. apply (Permutation_map snd) in Pm. rewrite map_map in Pm. cbn in Pm. now rewrite map_id in Pm. }
    constructor.
    - intros E. rewrite E in Pm. apply Permutation_nil in Pm. destruct P; [auto|discriminate].
    - intros key tr I. apply (Permutation_in _ Pm), in_map_iff in I as (p&E&Ip). injection E as <- <-.
      assert (L := ch_length _ _ C p Ip). destruct p as [|x p]; cbn in L; [lia|]. now exists p.
    - eapply chains_permutation; [apply Permutation_sym|]; eauto.
    - intros n I. apply Cov in I. apply in_concat in I as (p&Ip&J). apply in_concat. exists p. split; auto.
      eapply Permutation_in; [apply Permutation_sym|]; eauto.
    - intros tr I. apply (Permutation_in _ Ps) in I. exists 0. split; [lia|]. intros i n E. cbn. eauto.
    - intros n I. now apply reachable_reaction.
  Qed.

  Lemma In_support_is d n : wf d -> (In n (support_nodes d) <-> is_node_support d n = Ok true).
  Proof. intros W. rewrite In_support_nodes by auto. rewrite is_sup_tof. symmetry. apply support_tof. Qed.

  Lemma trail_edges_same d d' : edges d' = edges d -> (forall e, edge_get d' e = edge_get d e) -> wf d -> wf d' ->
    forall e, In e (trail_edges d') <-> In e (trail_edges d).
  Proof.
    intros E1 E2 W W' e. rewrite !In_trail_edges by auto.
    assert (X : edge_find d' e = edge_find d e).
    { specialize (E2 e). unfold edge_get in E2. destruct (edge_find d' e), (edge_find d e); congruence. }
    now rewrite X.
  Qed.

  Lemma chains_same d d' P : wf d -> wf d' -> same_but_types_and_sequences d d' ->
    (forall n, is_node_support d' n = Ok true <-> is_node_support d n = Ok true) ->
    chains d P -> chains d' P.
  Proof.
    intros W W' (S1&S2&_&_&_&_&S7&_) Sup C.
    assert (X := trail_edges_same d d' S2 S7 W W'). destruct C. constructor; auto.
    - intros u v. rewrite S2. apply ch_simple.
    - intros n I. rewrite S1. auto.
    - intros a b. rewrite <- ch_edges. unfold trail_joined. now rewrite !X.
    - intros n. rewrite <- ch_supports. rewrite !In_support_is by auto. apply Sup.
  Qed.

  (** A topology whose trail edges form chains that cover all nodes is ready for
      form finding after build_trails. *)
  Lemma c61_built_ready : forall d ord P, reachable d -> same_set_order ord ->
    chains d P -> covers d P -> P <> [] ->
    exists d', build_trails ord false d = (d', Ok tt) /\ ready d'.
  Proof.
    intros d ord P R Ho C Cov NE.
    destruct (c14_chains_recovered d ord P R Ho C Cov NE) as (d'&Hb&Pm&_&Sup&K&Sm).
    exists d'. split; auto. assert (R' : reachable d').
    { assert (X := reachable_build d ord false R Ho). now rewrite Hb in X. }
    apply (ready_of d' P); auto.
    - eapply chains_same; eauto; now apply reachable_wf.
    - intros n I. destruct Sm as (S1&_). rewrite S1 in I. auto.
  Qed.

  Lemma filter_all {A} (f : A -> bool) l : (forall a, In a l -> f a = true) -> filter f l = l.
  Proof.
    induction l as [|a l IH]; cbn; auto. intros F. rewrite F by auto. f_equal. auto.
  Qed.

  (** Any topology whose trail edges form chains, whether or not they cover all
      nodes, is ready for form finding after build_trails(True). *)
  Lemma c61_built_auxiliary_ready : forall d ord P, reachable d -> same_set_order ord ->
    chains d P -> nodes d <> [] ->
    exists d', build_trails ord true d = (d', Ok tt) /\ ready d'.
  Proof.
    intros d ord P R Ho C NE.
    destruct (c17_auxiliary_trails d ord P R Ho C NE)
      as (d'&ps&Hb&Pf&Nd&_&_&_&_&_&_&_&_&Pm&C'&Cov'&K).
    exists d'. split; auto. assert (R' : reachable d').
    { assert (X := reachable_build d ord true R Ho). now rewrite Hb in X. }
    apply (ready_of d' _ R' C' Cov'); auto.
    intros E. apply app_eq_nil in E as [-> E]. apply map_eq_nil in E. subst ps. cbn in Pf.
    apply Permutation_nil in Pf. rewrite filter_all in Pf by auto. auto.
  Qed.

  (** ** Calls that keep a topology ready *)

  Lemma ready_same d d' : wf d -> wf d' -> ready d ->
    nodes d' = nodes d -> edges d' = edges d ->
    (forall e, In e (trail_edges d') <-> In e (trail_edges d)) ->
    (forall n, is_node_support d' n = is_node_support d n) ->
    trails d' = trails d ->
    (forall tr, In tr (stored d) -> exists s, 0 <= s
      /\ forall i n, nth_error tr i = Some n -> node_sequence d' n = Ok (s + Z.of_nat i)) ->
    (forall n, In n (nodes d) -> reaction_force d' n = Ok vzero) ->
    ready d'.
  Proof.
    intros W W' R S1 S2 S3 S4 S5 S6 S7. assert (Q : stored d' = stored d) by (unfold stored; now rewrite S5).
    destruct R as [R1 R2 R3 R4 R5 R6]. constructor; rewrite ?S5, ?Q; auto.
    - destruct R3. constructor; auto.
      + intros u v. rewrite S2. apply ch_simple.
      + intros n I. rewrite S1. auto.
      + intros a b. rewrite <- ch_edges. unfold trail_joined. now rewrite !S3.
      + intros n. rewrite <- ch_supports. rewrite !In_support_is by auto. now rewrite S4.
    - intros n. rewrite S1. apply R4.
    - intros n. rewrite S1. auto.
  Qed.

  Lemma trail_edges_types d d' : wf d -> wf d' ->
    (forall e, match edge_find d e, edge_find d' e with
               | Some a, Some a' => ea_type a' = ea_type a | None, None => True | _, _ => False end) ->
    forall e, In e (trail_edges d') <-> In e (trail_edges d).
  Proof.
    intros W W' E e. rewrite !In_trail_edges by auto. specialize (E e).
    destruct (edge_find d e) as [a|], (edge_find d' e) as [a'|]; try tauto.
    - split; intros (b&Eb&Tb); injection Eb as <-; eexists; split; eauto; congruence.
  Qed.

  Lemma ready_nodes d x : wf d -> wf (with_node d x) -> ready d -> unreacted (with_node d x) ->
    dkeys x = nodes d ->
    (forall n a, dget (d_node d) n = Some a -> exists a', dget x n = Some a' /\ na_k a' = na_k a /\ na_type a' = na_type a) ->
    ready (with_node d x).
  Proof.
    intros W W' R U K X.
    assert (Nx : forall n, dget (d_node d) n = None -> dget x n = None).
    { intros n E. apply dget_None. rewrite K. now apply dget_None in E. }
    apply (ready_same d); auto; try reflexivity.
    - intros n. unfold is_node_support, node_get, dgetr. cbn. destruct (dget (d_node d) n) as [a|] eqn:E.
      + destruct (X n a E) as (a'&->&_&E2). cbn. now rewrite E2.
      + now rewrite (Nx n E).
    - intros tr I. destruct (rd_sequences _ R tr I) as (s&P&Es). exists s. split; auto. intros i n En.
      specialize (Es i n En). unfold node_sequence, node_get, dgetr in *. cbn.
      destruct (dget (d_node d) n) as [a|] eqn:E; [|discriminate].
      destruct (X n a E) as (a'&->&E1&_). cbn in *. now rewrite E1.
    - intros n I. assert (I' : In n (dkeys x)) by now rewrite K. apply In_keys_dget in I' as [a Ea].
      unfold reaction_force, node_get, dgetr. cbn. rewrite Ea. cbn. now rewrite (U n a Ea).
  Qed.

  Lemma ready_settings d d' : d_node d' = d_node d -> d_edge d' = d_edge d -> d_trails d' = d_trails d ->
    ready d -> ready d'.
  Proof.
    intros E1 E2 E3 [R1 R2 R3 R4 R5 R6].
    assert (S3 : stored d' = stored d) by (unfold stored, trails; now rewrite E3).
    assert (S1 : nodes d' = nodes d) by (unfold nodes; now rewrite E1).
    assert (S2 : edges d' = edges d) by (unfold edges; now rewrite E2).
    assert (Te : trail_edges d' = trail_edges d).
    { unfold trail_edges, edges_of_type, edges, edge_find. now rewrite E2. }
    constructor; rewrite ?S3; auto.
    - unfold trails. now rewrite E3.
    - unfold trails. now rewrite E3.
    - destruct R3. constructor; auto.
      + intros u v. rewrite S2. apply ch_simple.
      + rewrite S1. auto.
      + intros a b. rewrite <- ch_edges. unfold trail_joined. now rewrite !Te.
      + intros n. rewrite <- ch_supports. unfold support_nodes. now rewrite E1.
    - intros n. rewrite S1. apply R4.
    - intros tr I. destruct (R5 tr I) as (s&P&E). exists s. split; auto. intros i n En. rewrite <- (E i n En).
      unfold node_sequence, node_get. now rewrite E1.
    - intros n. rewrite S1. intros I. rewrite <- (R6 n I). unfold reaction_force, node_get. now rewrite E1.
  Qed.

  (** Changing coordinates, loads, lengths, forces and settings, and shifting trails
      to non-negative sequences, keep a topology ready, whether or not a call raises. *)
  Lemma c61_ready_kept : forall d o, reachable d -> ready d -> soft d o -> ready (fst (call o d)).
  Proof.
    intros d o Hr R S. apply reachable_wf in Hr as W.
    assert (V : valid_op o) by (destruct o; cbn in *; auto; contradiction).
    assert (W' := wf_call o V d W). assert (U' := unreacted_call o d (reachable_unreacted d Hr)).
    assert (Hns : forall n f, (forall a, na_k (f a) = na_k a /\ na_type (f a) = na_type a) ->
        wf (fst (node_set n f d)) -> unreacted (fst (node_set n f d)) -> ready (fst (node_set n f d))).
    { intros n f Hf. unfold node_set. destruct (dget (d_node d) n) as [a|] eqn:E; cbn; auto.
      intros Wf Uf. apply ready_nodes; auto.
      - apply dkeys_dset_in. eapply dget_In_keys; eauto.
      - intros m b Eb. rewrite dget_dset. destruct (eqb_spec m n) as [->|]; eauto.
        rewrite E in Eb. injection Eb as <-. exists (f a). destruct (Hf a). auto. }
    assert (Hes : forall e f, (forall a, ea_type (f a) = ea_type a) ->
        wf (fst (edge_set e f d)) -> ready (fst (edge_set e f d))).
    { intros e f Hf. destruct (edge_find d e) as [a|] eqn:E.
      - destruct (edge_set_find d e f a E) as (d'&Eq&F&_&_&Eq').
        assert (Ed : edges d' = edges d).
        { destruct e as [u v]. unfold edge_set, edge_find in *. cbn in *.
          destruct (dget (d_edge d) u) as [nb|] eqn:Eu; [|discriminate]. rewrite E in Eq. injection Eq as <-.
          unfold edges. cbn [d_edge with_edge].
          assert (Kn : dkeys (dset nb v (f a)) = dkeys nb) by (apply dkeys_dset_in; eapply dget_In_keys; eauto).
          clear -Eu Kn. revert Kn. generalize (dset nb v (f a)). intros nb' K.
          assert (G : forall (w : Z) (x : dict Z (edge_attr T)), map (fun va : Z * edge_attr T => (w, fst va)) x = map (pair w) (dkeys x)).
          { intros w x. unfold dkeys. now rewrite map_map. }
          induction (d_edge d) as [|[w x] l IH]; unfold dget, dset in *; cbn in Eu |- *; [discriminate|].
          destruct (Z.eqb_spec u w) as [->|]; cbn.
          + injection Eu as ->. rewrite !G, K. reflexivity.
          + f_equal. now apply IH. }
        rewrite Eq. cbn. intros Wd.
        assert (Sn : d_node d' = d_node d) by (rewrite Eq'; auto).
        apply (ready_same d); auto.
        + unfold nodes. now rewrite Sn.
        + apply trail_edges_types; auto. intros e'. rewrite F. destruct (@eqb_spec ekey _ e' e) as [->|].
          * rewrite E. auto.
          * destruct (edge_find d e'); auto.
        + intros n. unfold is_node_support, node_get. now rewrite Sn.
        + rewrite Eq'. reflexivity.
        + intros tr I. destruct (rd_sequences _ R tr I) as (s&P&Es). exists s. split; auto. intros i n En.
          rewrite <- (Es i n En). unfold node_sequence, node_get. now rewrite Sn.
        + intros n I. rewrite <- (rd_reactions _ R n I). unfold reaction_force, node_get. now rewrite Sn.
      - rewrite edge_set_Err by auto. auto. }
    destruct o; cbn [call soft] in *; try contradiction.
    - unfold add_load in *. destruct (node_key d r) as [n|]; auto.
    - (* update_node_xyz of an existing node *)
      apply In_keys_dget in S as [a Ea]. unfold update_node_xyz in *. cbn zeta in *.
      set (d0 := if dmem (d_gkey d) (gkey d p) then with_gkey d (ddel (d_gkey d) (gkey d p)) else d) in *.
      assert (E0 : d_node d0 = d_node d /\ d_edge d0 = d_edge d /\ d_trails d0 = d_trails d).
      { unfold d0. destruct (dmem _ _); auto. }
      destruct E0 as (E1&E2&E3).
      unfold ebind, add_node, graph_add_node, eret in *. cbn zeta in *. cbn [d_node with_max] in *.
      rewrite E1 in *. rewrite Ea in *. cbn [fst] in *.
      set (d2 := with_node d (dset (d_node d) k (set_xyz a p))).
      apply (ready_settings d2); try (unfold d2; cbn; auto; fail).
      apply ready_nodes; auto.
      + apply wf_with_node; auto. apply dkeys_dset_in. eapply dget_In_keys; eauto.
      + apply dkeys_dset_in. eapply dget_In_keys; eauto.
      + intros m b Eb. rewrite dget_dset. destruct (eqb_spec m k) as [->|]; eauto.
        rewrite Ea in Eb. injection Eb as <-. exists (set_xyz a p). auto.
    - apply Hns; auto.
    - apply Hes; auto.
    - apply Hes; auto.
    - apply (ready_settings d); auto.
    - apply (ready_settings d); auto.
    - apply (ready_settings d); auto.
    - (* shift_trail *)
      destruct (is_node_origin d key) as [[]|e] eqn:Eo.
      + destruct (dget (d_trails d) key) as [tr|] eqn:Et.
        * assert (It : In (key, tr) (trails d)) by now apply dget_In.
          assert (Is : In tr (stored d)) by (apply In_stored; eauto).
          destruct (c20_shift_trail d key sequence tr Hr Eo It (stored_nodup d tr R Is))
            as (d'&Es&(S1&S2&_&_&S5&_&S7&_)&(Q&_)&Ty&K1&K2&_).
          rewrite Es in *. cbn [fst] in *. apply (ready_same d); auto.
          -- apply trail_edges_same; auto.
          -- intros n. apply Ty.
          -- intros tr' It'. destruct (list_eq_dec Z.eq_dec tr' tr) as [->|Hne]; [eauto|].
             destruct (rd_sequences _ R tr' It') as (s&P&E). exists s. split; auto. intros i n En.
             rewrite K2; auto. intros J. apply Hne. eapply same_trail; eauto. eapply nth_error_In; eauto.
          -- intros n I. rewrite S5. now apply (rd_reactions _ R).
        * unfold shift_trail, ebind, eget. rewrite Eo. cbn. destruct (has_trails d); cbn; auto.
          unfold trail, dgetr. rewrite Et. auto.
      + unfold shift_trail, ebind, eget. rewrite Eo. auto.
      + unfold shift_trail, ebind, eget. rewrite Eo. auto.
  Qed.
End Thms.
