(** * Trail construction: outcomes, chains and auxiliary trails *)

From Coq Require Import String List ZArith Bool Lia Permutation.
From Verif Require Import Py PyFacts Num Diagram DiagramFacts Topology SpecTopology TopologyFacts.
Import ListNotations.
Open Scope Z_scope.

Section Facts.
  Context {T : Type} `{NumOps T}.
  Implicit Types (d : diagram T).

  (** ** Edges of a type *)

  Lemma In_edges_of_type d t e : wf d ->
    (In e (edges_of_type d t) <-> exists a, edge_find d e = Some a /\ ea_type a = Some t).
  Proof.
    intros W. destruct e as [u v]. unfold edges_of_type. rewrite in_flat_map.
    assert (ND : NoDup (dkeys (d_edge d))) by (rewrite (wf_ekeys _ W); apply (wf_nodup _ W)).
    split.
    - intros [[u' nb] [I1 I2]]. cbn in I2. apply in_map_iff in I2 as [[v' a] [E I2]].
      cbn in E. injection E as -> ->. apply filter_In in I2 as [I2 Ht]. cbn in Ht.
      apply In_dget in I1; auto. exists a. split.
      + rewrite (edge_find_dict d u v nb I1). apply In_dget; auto. eapply (wf_enodup _ W); eauto.
      + destruct (ea_type a) as [[]|]; destruct t; cbn in Ht; congruence.
    - intros [a [Ha Ht]]. unfold edge_find in Ha. cbn in Ha.
      destruct (dget (d_edge d) u) as [nb|] eqn:E; [|discriminate].
      exists (u, nb). split; [now apply dget_In|]. cbn. apply in_map_iff. exists (v, a). split; auto.
      apply filter_In. split; [now apply dget_In|]. cbn. rewrite Ht. now destruct t.
  Qed.

  Lemma In_trail_edges d e : wf d ->
    (In e (trail_edges d) <-> exists a, edge_find d e = Some a /\ ea_type a = Some ETrail).
  Proof. apply In_edges_of_type. Qed.

  Lemma opt_is_trail (o : option etype) : opt_is etype_eqb o ETrail = true <-> o = Some ETrail.
  Proof. destruct o as [[]|]; cbn; split; congruence. Qed.

  Lemma tjoin_joined d a b : wf d -> tj d a b -> trail_joined d a b.
  Proof.
    intros W. unfold tj, tjoin, trail_joined. rewrite !In_trail_edges by auto.
    destruct (edge_find d (a, b)) as [x|] eqn:E1.
    - rewrite opt_is_trail. eauto.
    - destruct (edge_find d (b, a)) as [x|] eqn:E2; [|discriminate]. rewrite opt_is_trail. eauto.
  Qed.

  Lemma joined_tjoin d a b : wf d -> simple_graph d -> trail_joined d a b -> tj d a b.
  Proof.
    intros W S. unfold tj, tjoin, trail_joined. rewrite !In_trail_edges by auto.
    intros [[x [Ex Hx]]|[x [Ex Hx]]].
    - rewrite Ex. now apply opt_is_trail.
    - destruct (edge_find d (a, b)) as [y|] eqn:E.
      + exfalso. apply (S a b); apply In_edges; auto; apply has_edge_find; eauto.
      + rewrite Ex. now apply opt_is_trail.
  Qed.

  Lemma tj_sym d a b : wf d -> simple_graph d -> tj d a b -> tj d b a.
  Proof.
    intros W S J. apply joined_tjoin; auto. apply tjoin_joined in J; auto.
    unfold trail_joined in *. tauto.
  Qed.

  Lemma tj_irrefl d a : wf d -> simple_graph d -> ~ tj d a a.
  Proof.
    intros W S J. apply tjoin_joined in J; auto.
    assert (X : In (a, a) (trail_edges d)) by (unfold trail_joined in J; tauto).
    apply In_trail_edges in X as [x [Ex _]]; auto.
    apply (S a a); apply In_edges; auto; apply has_edge_find; eauto.
  Qed.

  Lemma In_support_nodes d n : wf d -> (In n (support_nodes d) <-> is_sup d n = true).
  Proof.
    intros W. unfold support_nodes. rewrite in_map_iff. unfold is_sup, tof. split.
    - intros [[n' a] [E I]]. cbn in E. subst. apply filter_In in I as [I Ht]. cbn in Ht.
      apply In_dget in I; [|apply (wf_nodup _ W)]. now rewrite I.
    - destruct (dget (d_node d) n) as [a|] eqn:E; [|discriminate]. intros Ht.
      exists (n, a). split; auto. apply filter_In. split; auto. now apply dget_In.
  Qed.

  Lemma is_sup_nodes d n : is_sup d n = true -> In n (nodes d).
  Proof.
    unfold is_sup, tof. destruct (dget (d_node d) n) eqn:E; [|discriminate].
    intros _. eapply dget_In_keys; eauto.
  Qed.

  (** ** Outcomes of build_trails() *)


  Lemma build_plain_cases ord d : wf d -> same_set_order ord ->
    exists ds acc r, build_trails_plain ord d = r /\ search_inv d acc ds
      /\ eloop build_body (nodes d) ([], []) d = (ds, Ok acc)
      /\ (   trail_edges d = [] /\ r = (ds, Err (AssertionError "No trail edges defined!"))
          \/ trail_edges d <> [] /\ support_nodes ds = [] /\ r = (ds, Err (AssertionError "No supports assigned!"))
          \/ trail_edges d <> [] /\ support_nodes ds <> []
             /\ (exists n, In n (nodes d) /\ ~ In n (snd acc))
             /\ r = (ds, Err (AssertionError "Nodes haven't been assigned to a trail."))
          \/ trail_edges d <> [] /\ support_nodes ds <> []
             /\ (forall n, In n (nodes d) -> In n (snd acc))
             /\ r = (with_trails ds (fst acc), Ok tt)).
  Proof.
    intros W Ho. destruct (build_search_total ord d W) as (ds&acc&Hs&Hi&Hl).
    exists ds, acc, (build_trails_plain ord d). split; auto. split; auto. split; auto.
    assert (Ep : build_trails_plain ord d = build_finish (fst acc) (ord (unassigned d (snd acc))) ds).
    { unfold build_trails_plain, ebind. now rewrite Hs. }
    rewrite Ep. clear Ep Hs.
    assert (Et : trail_edges ds = trail_edges d).
    { unfold trail_edges, edges_of_type. now rewrite (frame_edge d ds (si_frame _ _ _ Hi)). }
    unfold build_finish, ebind, eget, eraise. rewrite Et.
    destruct (trail_edges d) as [|e0 es]; cbn [List.length Nat.eqb]; [left; auto|right].
    destruct (support_nodes ds) as [|s0 ss]; cbn [List.length Nat.eqb];
      [left; split; [discriminate|]; auto|right].
    assert (P := Permutation_length (Ho (unassigned d (snd acc)))). rewrite P.
    destruct (unassigned d (snd acc)) as [|u us] eqn:Eu; cbn [List.length Nat.eqb negb].
    - right. split; [discriminate|]. split; [discriminate|]. split; auto.
      intros n Hn. destruct (memb n (snd acc)) eqn:M; [now apply memb_In|].
      exfalso. assert (X : In n (unassigned d (snd acc))) by (apply filter_In; now rewrite M).
      rewrite Eu in X. contradiction.
    - left. split; [discriminate|]. split; [discriminate|]. split; auto.
      exists u. assert (X : In u (unassigned d (snd acc))) by (rewrite Eu; now left).
      apply filter_In in X as [X Y]. split; auto. apply negb_true_iff, memb_nIn in Y. auto.
  Qed.

  Lemma wf_with_trails d trs :
    NoDup (dkeys trs) -> (forall k tr n, dget trs k = Some tr -> In n tr -> In n (nodes d)) ->
    wf d -> wf (with_trails d trs).
  Proof. intros A B W. destruct W. constructor; auto. Qed.

  Lemma search_trails_nodes d acc ds k tr n :
    search_inv d acc ds -> dget (fst acc) k = Some tr -> In n tr -> In n (nodes d).
  Proof.
    intros Hs E I. destruct (si_trails _ _ _ Hs k tr E) as [s [Wk _]].
    apply (wk_nodes _ _ _ _ Wk). now apply in_rev in I.
  Qed.

  Lemma wf_build_plain ord : same_set_order ord -> preserves (wf (T:=T)) (build_trails_plain ord).
  Proof.
    intros Ho d W. destruct (build_plain_cases ord d W Ho) as (ds&acc&r&->&Hs&_&C).
    assert (Wd : wf ds) by (eapply frame_wf; [apply Hs|auto]).
    destruct C as [[_ ->]|[[_ [_ ->]]|[[_ [_ [_ ->]]]|[_ [_ [_ ->]]]]]]; cbn; auto.
    apply wf_with_trails; auto; [apply Hs|].
    intros k tr n E I. rewrite (frame_nodes d ds (si_frame _ _ _ Hs)).
    eapply search_trails_nodes; eauto.
  Qed.

  (** ** Auxiliary trails *)

  Definition aux_node_attr (dir : vec T) (len : T) (xyz : vec T) : node_attr T :=
    mkNode (add_vectors xyz (scale_vector dir len)) vzero vzero None (Some TSupport).
  Definition aux_edge_attr (len : T) : edge_attr T := mkEdge (Some ETrail) len n0 None.

  Lemma aux_body_Ok dir acc n d a : wf d -> dget (d_node d) n = Some a ->
    let k := d_max d + 1 in
    exists d', aux_body dir acc n d = (d', Ok (dset acc n (n, k))) /\ wf d'
      /\ nodes d' = nodes d ++ [k] /\ ~ In k (nodes d) /\ d_max d' = k
      /\ dget (d_node d') k = Some (aux_node_attr dir (d_aux_length d) (na_xyz a))
      /\ (forall m, m <> k -> dget (d_node d') m = dget (d_node d) m)
      /\ (forall e, edge_find d' e = if eqb e (n, k) then Some (aux_edge_attr (d_aux_length d)) else edge_find d e)
      /\ d_aux_length d' = d_aux_length d /\ d_aux_vector d' = d_aux_vector d
      /\ d_trails d' = d_trails d /\ d_aux d' = d_aux d /\ d_tol d' = d_tol d.
  Proof.
    intros W Ha k.
    assert (Hk : ~ In k (nodes d)) by (intros I; apply (wf_max _ W) in I; unfold k in *; lia).
    assert (Hn : In n (nodes d)) by (eapply dget_In_keys; eauto).
    assert (Hnk : n <> k) by (intros ->; auto).
    set (p := add_vectors (na_xyz a) (scale_vector dir (d_aux_length d))).
    unfold aux_body. unfold ebind at 1, eget at 1. unfold ebind at 1, eget at 1.
    unfold node_coordinates at 1, node_get, dgetr. rewrite Ha. cbn [bind].
    fold p. unfold ebind at 1.
    assert (W1 := wf_add_node None p d W).
    rewrite add_node_eq in *. cbn [fst] in W1. fold k in W1 |- *.
    assert (E : dget (d_node d) k = None) by (now apply dget_None).
    rewrite (graph_add_node_new d k None p eq_refl E) in *.
    match type of W1 with wf ?x => set (d1 := x) in * end.
    assert (E1 : dget (d_node d1) k = Some (set_xyz default_node p)) by (cbn; apply dget_dset_same).
    unfold ebind at 1. unfold add_support. cbn [node_key].
    assert (W2 := wf_node_set k (fun a => set_type a TSupport) d1 W1).
    rewrite (node_set_Ok d1 k _ _ E1) in *. cbn [fst] in W2.
    match type of W2 with wf ?x => set (d2 := x) in * end.
    assert (N2 : nodes d2 = nodes d ++ [k]).
    { unfold d2. rewrite nodes_dset by (eapply dget_In_keys; eauto).
      unfold nodes, d1. cbn. now rewrite dkeys_dset_new. }
    unfold ebind at 1, add_edge, ebind at 1, resolve_end at 1. cbn [node_key].
    unfold ebind at 1, resolve_end at 1. cbn [node_key].
    destruct (graph_add_edge_Ok d2 n k (TrailEdge (d_aux_length d) None)) as
      (d3&Hg&X1&X2&X3&X4&X5&X6&X7&X8&X9&W3); auto.
    { rewrite N2. apply in_or_app. now left. }
    { rewrite N2. apply in_or_app. right. now left. }
    rewrite Hg. unfold eret. exists d3. split; [reflexivity|]. split; auto.
    split; [unfold nodes; rewrite X1; exact N2|]. split; auto.
    split; [rewrite X2; unfold d2, d1; cbn; destruct (Z.ltb_spec (d_max d) k); unfold k in *; lia|].
    split; [rewrite X1; unfold d2; cbn; rewrite dget_dset_same; reflexivity|].
    split.
    { intros m Hm. rewrite X1. unfold d2, d1. cbn. rewrite !dget_dset_other; auto. }
    split.
    { assert (F2 : forall e, edge_find d2 e = edge_find d e)
        by (apply (edge_find_new_node d k); auto).
      intros e. rewrite X9. destruct (eqb_spec e (n, k)) as [->|Hne]; [|apply F2].
      unfold edge_old. rewrite F2.
      destruct (edge_find d (n, k)) as [y|] eqn:Ey; [|reflexivity].
      apply (wf_eends _ W) in Ey. cbn in Ey. tauto. }
    rewrite X4, X5, X6, X7, X8. cbn. auto.
  Qed.

  (** The keys given to the auxiliary nodes of [l]. *)
  Fixpoint aux_pairs (base : Z) (l : list Z) : list ekey :=
    match l with
    | [] => []
    | n :: l => (n, base + 1) :: aux_pairs (base + 1) l
    end.

  Lemma aux_pairs_fst b l : map fst (aux_pairs b l) = l.
  Proof. revert b. induction l as [|n l IH]; cbn; intros b; auto. now rewrite IH. Qed.

  Lemma aux_pairs_snd_gt b l n k : In (n, k) (aux_pairs b l) -> b < k.
  Proof.
    revert b. induction l as [|m l IH]; cbn; intros b; [contradiction|].
    intros [E|I]; [injection E; lia|]. apply IH in I. lia.
  Qed.

  Lemma aux_pairs_snd_nodup b l : NoDup (map snd (aux_pairs b l)).
  Proof.
    revert b. induction l as [|m l IH]; cbn; intros b; constructor; auto.
    rewrite in_map_iff. intros [[n k] [E I]]. cbn in E. subst. apply aux_pairs_snd_gt in I. lia.
  Qed.

  Lemma aux_loop_Ok dir : forall l acc d, wf d -> incl l (nodes d) ->
    let ps := aux_pairs (d_max d) l in
    exists d' acc', eloop (aux_body dir) l acc d = (d', Ok acc') /\ wf d'
      /\ nodes d' = nodes d ++ map snd ps
      /\ (forall n k, In (n, k) ps -> ~ In k (nodes d) /\ exists a, dget (d_node d) n = Some a
            /\ dget (d_node d') k = Some (aux_node_attr dir (d_aux_length d) (na_xyz a)))
      /\ (forall m, In m (nodes d) -> dget (d_node d') m = dget (d_node d) m)
      /\ (forall e, edge_find d' e = if memb e ps then Some (aux_edge_attr (d_aux_length d)) else edge_find d e)
      /\ d_aux_length d' = d_aux_length d /\ d_aux_vector d' = d_aux_vector d
      /\ d_trails d' = d_trails d /\ d_aux d' = d_aux d /\ d_tol d' = d_tol d
      /\ (NoDup l -> (forall n, In n l -> ~ In n (dkeys acc)) ->
            acc' = acc ++ map (fun nk => (fst nk, nk)) ps).
  Proof.
    induction l as [|n l IH]; intros acc d W I ps.
    - exists d, acc. cbn. rewrite !app_nil_r. split; auto. split; auto. split; auto.
      split; [contradiction|]. repeat (split; [auto|]). auto.
    - cbn [eloop]. unfold ebind.
      destruct (In_dec_nodes d n (I n (or_introl eq_refl))) as [a Ha].
      destruct (aux_body_Ok dir acc n d a W Ha) as (d1&Hb&W1&N1&K1&M1&A1&A2&E1&L1&V1&T1&X1&Y1).
      rewrite Hb.
      destruct (IH (dset acc n (n, d_max d + 1)) d1 W1) as
        (d2&acc2&Hl&W2&N2&A3&A4&E2&L2&V2&T2&X2&Y2&Hacc).
      { intros x Hx. rewrite N1. apply in_or_app. left. apply I. now right. }
      exists d2, acc2. rewrite M1 in *. cbn [aux_pairs] in ps. subst ps.
      split; auto. split; auto. split.
      { rewrite N2, N1, <- app_assoc. reflexivity. }
      split; [|split; [|split]].
      + intros m k [E|Im].
        * injection E as <- <-. split; auto. exists a. split; auto.
          rewrite A4; [|rewrite N1; apply in_or_app; right; now left]. exact A1.
        * destruct (A3 m k Im) as [B1 [b [B2 B3]]]. split.
          { intros Hk. apply B1. rewrite N1. apply in_or_app. now left. }
          assert (Hmk : m <> d_max d + 1).
          { intros ->. assert (Hl' : In (d_max d + 1) l).
            { rewrite <- (aux_pairs_fst (d_max d + 1) l).
              change (d_max d + 1) with (fst (d_max d + 1, k)) at 1. now apply in_map. }
            apply K1. apply I. now right. }
          rewrite A2 in B2 by auto. exists b. split; auto. rewrite <- L1. auto.
      + intros m Hm. rewrite A4 by (rewrite N1; apply in_or_app; now left).
        apply A2. intros ->. auto.
      + intros e. rewrite E2, L1, E1. cbn [memb existsb].
        change (existsb (eqb e) (aux_pairs (d_max d + 1) l)) with (memb e (aux_pairs (d_max d + 1) l)).
        destruct (memb e (aux_pairs (d_max d + 1) l)); rewrite ?orb_true_r, ?orb_false_r; auto.
      + split; [congruence|]. split; [congruence|]. split; [congruence|]. split; [congruence|].
        split; [congruence|].
        intros ND Hdis. inversion ND as [|? ? Hni ND']; subst.
        rewrite Hacc; auto.
        * rewrite dset_new by (apply Hdis; now left). cbn. now rewrite <- app_assoc.
        * intros m Hm. rewrite In_dkeys_dset. intros [->|X]; [contradiction|].
          apply (Hdis m); auto. now right.
  Qed.

  Lemma wf_with_aux d x : wf d -> wf (with_aux d x).
  Proof. intros W. destruct W. constructor; auto. Qed.

  (** build_trails(True): the search, the auxiliary trails and a second search. *)
  Lemma build_aux_cases ord d : wf d -> same_set_order ord ->
    exists ds acc d2 aux, search_inv d acc ds
      /\ eloop build_body (nodes d) ([], []) d = (ds, Ok acc)
      /\ eloop (aux_body (normalize_vector (d_aux_vector d))) (ord (unassigned d (snd acc))) [] ds = (d2, Ok aux)
      /\ wf (with_aux d2 aux)
      /\ build_trails ord true d = build_trails_plain ord (with_aux d2 aux).
  Proof.
    intros W Ho. destruct (build_search_total ord d W) as (ds&acc&Hs&Hi&Hl).
    assert (Wd : wf ds) by (eapply frame_wf; [apply Hi|auto]).
    assert (Hincl : incl (ord (unassigned d (snd acc))) (nodes ds)).
    { intros x Hx. apply (Permutation_in _ (Ho _)) in Hx. apply filter_In in Hx as [Hx _].
      now rewrite (frame_nodes d ds (si_frame _ _ _ Hi)). }
    destruct (aux_loop_Ok (normalize_vector (d_aux_vector d)) _ [] ds Wd Hincl) as (d2&aux&Ha&W2&_).
    exists ds, acc, d2, aux. split; auto. split; auto. split; auto. split; [now apply wf_with_aux|].
    unfold build_trails. unfold ebind at 1. rewrite Hs. unfold ebind at 1, eget. cbn [fst snd].
    assert (V : d_aux_vector ds = d_aux_vector d) by (destruct (si_frame _ _ _ Hi) as [E _]; now rewrite E).
    rewrite V. unfold ebind at 1. rewrite Ha. reflexivity.
  Qed.

  Lemma wf_build_trails ord aux : same_set_order ord -> preserves (wf (T:=T)) (build_trails ord aux).
  Proof.
    intros Ho d W. destruct aux; [|now apply wf_build_plain].
    destruct (build_aux_cases ord d W Ho) as (ds&acc&d2&ax&_&_&_&W2&->). now apply wf_build_plain.
  Qed.

  Lemma wf_set_sequences l : forall s, preserves (wf (T:=T)) (set_sequences s l).
  Proof.
    intros s d W. eapply frame_wf; [apply set_sequences_frame|auto].
  Qed.

  Lemma wf_shift_trail k s : preserves (wf (T:=T)) (shift_trail k s).
  Proof.
    unfold shift_trail. apply preserves_ebind; [apply preserves_eget|]. intros [].
    - apply preserves_ebind; [apply preserves_eget|]. intros [].
      + apply preserves_ebind; [apply preserves_eget|]. intros tr. apply wf_set_sequences.
      + apply preserves_eraise.
    - apply preserves_eraise.
  Qed.
End Facts.
