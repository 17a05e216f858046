(** * Topology properties: proofs of C11 - C20 *)

From Coq Require Import String List ZArith Bool Lia Permutation.
From Verif Require Import Py PyFacts Num Diagram DiagramFacts Topology SpecDiagram SpecTopology
  TopologyFacts BuildFacts ChainFacts ChainFacts2 History HistoryFacts DiagramThms.
Import ListNotations.
Open Scope Z_scope.

Section Thms.
  Context {T : Type} `{NumOps T}.
  Implicit Types (d : diagram T).

  (** ** Public queries and their projections *)

  Lemma seq_kof d n k : node_sequence d n = Ok k <-> kof d n = Some k.
  Proof.
    unfold node_sequence, node_get, dgetr, kof. destruct (dget (d_node d) n) as [a|]; cbn; [|split; discriminate].
    destruct (na_k a); split; congruence.
  Qed.

  Lemma origin_tof d n : is_node_origin d n = Ok true <-> tof d n = Some TOrigin.
  Proof.
    unfold is_node_origin, node_get, dgetr, tof. destruct (dget (d_node d) n) as [a|]; cbn; [|split; discriminate].
    destruct (na_type a) as [[]|]; cbn; split; congruence.
  Qed.

  Lemma support_tof d n : is_node_support d n = Ok true <-> tof d n = Some TSupport.
  Proof.
    unfold is_node_support, node_get, dgetr, tof. destruct (dget (d_node d) n) as [a|]; cbn; [|split; discriminate].
    destruct (na_type a) as [[]|]; cbn; split; congruence.
  Qed.

  Lemma is_sup_tof d n : is_sup d n = true <-> tof d n = Some TSupport.
  Proof. unfold is_sup. destruct (tof d n) as [[]|]; cbn; split; congruence. Qed.

  Lemma frame_same d d' : frame d d' -> same_but_types_and_sequences d d'.
  Proof.
    intros (E&N&A). split; auto. split; [unfold edges; now rewrite E|].
    assert (X : forall B (g : node_attr T -> B), (forall a a', na_xyz a' = na_xyz a -> na_load a' = na_load a ->
      na_reac a' = na_reac a -> g a' = g a) -> forall n,
      bind (node_get d' n) (fun a => Ok (g a)) = bind (node_get d n) (fun a => Ok (g a))).
    { intros B g Hg n. unfold node_get, dgetr. destruct (dget (d_node d) n) as [a|] eqn:Ea.
      - destruct (A n a Ea) as (a'&->&X1&X2&X3). cbn. now rewrite (Hg a a').
      - replace (dget (d_node d') n) with (@None (node_attr T)); auto. symmetry. apply dget_None.
        fold (nodes d'). rewrite N. now apply dget_None in Ea. }
    split; [apply X; auto|]. split; [apply X; auto|]. split; [apply X; auto|].
    split; [intros n; unfold neighbors; now rewrite E|].
    split; [intros e; unfold edge_get, edge_find; now rewrite E|].
    intros [k|p]; cbn; auto. rewrite E. reflexivity.
  Qed.

  (** ** C11 *)

  (** build_trails returns or raises AssertionError: in particular it terminates
      (the model's loop bound is never hit). *)
  Lemma c11_build_trails_total : forall d ord aux, reachable d -> same_set_order ord ->
    snd (build_trails ord aux d) = Ok tt
    \/ exists msg, snd (build_trails ord aux d) = Err (AssertionError msg).
  Proof.
    intros d ord aux Hr Ho. apply reachable_wf in Hr as W.
    assert (P : forall d0, wf d0 -> snd (build_trails_plain ord d0) = Ok tt
      \/ exists msg, snd (build_trails_plain ord d0) = Err (AssertionError msg)).
    { intros d0 W0. destruct (build_plain_cases ord d0 W0 Ho) as (ds&acc&r&->&_&_&C).
      destruct C as [[_ ->]|[[_ [_ ->]]|[[_ [_ [_ ->]]]|[_ [_ [_ ->]]]]]]; cbn; eauto. }
    destruct aux; [|now apply P].
    destruct (build_aux_cases ord d W Ho) as (ds&acc&d2&ax&_&_&_&W2&->). now apply P.
  Qed.

  Lemma walk_mono : forall fuel d tr vis n r,
    walk fuel d tr vis n = Ok r -> walk (S fuel) d tr vis n = Ok r.
  Proof.
    induction fuel as [|fuel IH]; intros d tr vis n r E; [discriminate|].
    cbn [walk] in E. remember (S fuel) as f. cbn [walk].
    destruct (neighbors d n) as [nb|]; [|discriminate]. cbn in *.
    destruct (pick_next d vis n (rev nb)) as [[m|]|]; cbn in *; try discriminate; auto.
    destruct (n =? m); subst; auto.
  Qed.

  (** A trail search from a node needs no more steps than the diagram has nodes,
      plus one: the number of steps it is allowed does not matter beyond that. *)
  Lemma c11_search_bound : forall d s, reachable d -> In s (nodes d) ->
    exists tr vis o, (List.length tr <= S (List.length (nodes d)))%nat
      /\ forall fuel, (List.length (nodes d) < fuel)%nat -> walk fuel d [] [] s = Ok (tr, vis, o).
  Proof.
    intros d s Hr Is. apply reachable_wf in Hr as W.
    destruct (walk_walked d s W Is) as (tr&o&Hw&Wk). exists tr, (rev tr), o. split.
    - destruct (wk_end _ _ _ _ Wk) as [[ND _]|(l&E&ND&_)].
      + apply le_S. apply NoDup_incl_length; auto. apply Wk.
      + rewrite E, app_length. cbn. assert (L : (List.length (l ++ [o]) <= List.length (nodes d))%nat).
        { apply NoDup_incl_length; auto. intros x I. apply (wk_nodes _ _ _ _ Wk). rewrite E.
          apply in_app_iff in I as [I|[<-|[]]]; apply in_or_app; cbn; auto. }
        rewrite app_length in L. cbn in L. lia.
    - intros fuel Hf. unfold walk_fuel in Hw. unfold nodes, dkeys in Hf. rewrite map_length in Hf.
      replace fuel with ((fuel - S (List.length (d_node d))) + S (List.length (d_node d)))%nat by lia.
      induction (fuel - S (List.length (d_node d)))%nat as [|k IH]; auto. now apply walk_mono.
  Qed.

  (** ** C12 *)

  Lemma trail_joined_edge d d' a b : d_edge d' = d_edge d -> trail_joined d' a b <-> trail_joined d a b.
  Proof. intros E. unfold trail_joined, trail_edges, edges_of_type. rewrite E. tauto. Qed.

  Lemma rev_last {A} (l : list A) o r : rev l = r ++ [o] -> l = o :: rev r.
  Proof.
    intros E. rewrite <- (rev_involutive l), E, rev_app_distr. reflexivity.
  Qed.
  Lemma rev_first {A} (l : list A) o r : rev l = o :: r -> l = rev r ++ [o].
  Proof. intros E. rewrite <- (rev_involutive l), E. reflexivity. Qed.

  Lemma plain_trails d ord d' : wf d -> same_set_order ord -> simple_graph d ->
    build_trails_plain ord d = (d', Ok tt) ->
    d_edge d' = d_edge d /\ nodes d' = nodes d /\
    forall key tr, In (key, tr) (trails d') ->
      starts_with tr key /\ is_node_origin d' key = Ok true
      /\ (forall a b, consecutive tr a b -> trail_joined d a b)
      /\ NoDup tr /\ (exists s, ends_in tr s /\ In s (support_nodes d))
      /\ (forall m, trail_joined d key m -> In m tr).
  Proof.
    intros W Ho Sg Hb.
    destruct (build_plain_cases ord d W Ho) as (ds&acc&r&Hr&Hs&_&C). rewrite Hb in Hr. subst r.
    destruct C as [[_ E]|[[_ [_ E]]|[[_ [_ [_ E]]]|[_ [_ [_ E]]]]]]; try discriminate E.
    injection E as ->. assert (F := si_frame _ _ _ Hs).
    split; [apply (frame_edge _ _ F)|]. split; [apply (frame_nodes _ _ F)|].
    intros key tr I. cbn in I. apply In_dget in I; [|apply Hs].
    destruct (si_trails _ _ _ Hs key tr I) as (s&Wk&Su).
    assert (Or := si_origin _ _ _ Hs key tr I).
    destruct Wk as [[r Hh] [r' Hl] Hn Hc He].
    split; [exists (rev r'); now apply rev_last|].
    split; [apply origin_tof; exact Or|].
    split.
    { intros a b Cab. apply consecutive_rev in Cab. apply consecutive_nth in Cab as (i&Ea&Eb).
      rewrite ?rev_involutive in *. assert (J := chained_nth _ _ _ _ _ Hc Ea Eb).
      apply tjoin_joined in J; auto. unfold trail_joined in *. tauto. }
    destruct He as [[ND Mx]|(l&El&_&J)].
    - split; [rewrite <- (rev_involutive tr); now apply NoDup_rev|].
      split; [exists s; split; [exists (rev r); now apply rev_first|now apply In_support_nodes]|].
      intros m J. apply in_rev. apply Mx. now apply joined_tjoin.
    - exfalso. eapply tj_irrefl; eauto.
  Qed.

  Lemma In_keys_ps (ps : list ekey) n k : In (n, k) ps -> In n (map fst ps) /\ In k (map snd ps).
  Proof. intros I. split; apply in_map_iff; exists (n, k); auto. Qed.

  (** The diagram on which build_trails(True) runs its second search. *)
  Lemma aux_stage d ord : wf d -> same_set_order ord ->
    exists d3 ps, build_trails ord true d = build_trails_plain ord d3 /\ wf d3
      /\ nodes d3 = nodes d ++ map snd ps
      /\ (forall n k, In (n, k) ps -> ~ In k (nodes d) /\ In n (nodes d))
      /\ (forall m a, dget (d_node d) m = Some a -> exists a', dget (d_node d3) m = Some a'
            /\ na_xyz a' = na_xyz a /\ na_load a' = na_load a /\ na_reac a' = na_reac a)
      /\ (forall e, edge_find d3 e = if @memb ekey _ e ps then Some (aux_edge_attr (d_aux_length d)) else edge_find d e)
      /\ (forall n, tof d3 n = Some TSupport -> tof d n = Some TSupport \/ ~ In n (nodes d))
      /\ d_trails d3 = d_trails d /\ d_tol d3 = d_tol d.
  Proof.
    intros W Ho. destruct (build_aux_cases ord d W Ho) as (ds&acc&d2&aux&Hi&Hl&Ha&W3&Hb).
    assert (F := si_frame _ _ _ Hi).
    assert (Wd : wf ds) by (eapply frame_wf; eauto).
    assert (Nd := frame_nodes _ _ F).
    set (U := unassigned d (snd acc)) in *.
    assert (IU : incl (ord U) (nodes ds)).
    { intros x Hx. apply (Permutation_in _ (Ho U)) in Hx. rewrite Nd. apply filter_In in Hx. tauto. }
    destruct (aux_loop_Ok (normalize_vector (d_aux_vector d)) (ord U) [] ds Wd IU)
      as (d2'&aux'&Hl'&W2&N2&New&Old&Ed&Al&Av&Tr&Ax&Tl&_).
    rewrite Ha in Hl'. injection Hl' as <- <-.
    set (ps := aux_pairs (d_max ds) (ord U)) in *.
    exists (with_aux d2 aux), ps. split; auto. split; auto.
    assert (Fe : forall e, edge_find ds e = edge_find d e).
    { intros e. unfold edge_find. now rewrite (frame_edge _ _ F). }
    destruct F as (FE&FN&FA).
    split; [change (nodes (with_aux d2 aux)) with (nodes d2); now rewrite N2, Nd|].
    split.
    { intros n k I. destruct (New n k I) as (X&a&Ea&_). rewrite Nd in X. split; auto.
      rewrite <- Nd. eapply dget_In_keys; eauto. }
    split.
    { intros m a Ea. destruct (FA m a Ea) as (a'&Ea'&X). exists a'. split; auto.
      change (dget (d_node d2) m = Some a'). rewrite Old; auto. eapply dget_In_keys; eauto. }
    split.
    { intros e. change (edge_find (with_aux d2 aux) e) with (edge_find d2 e). rewrite Ed, Fe.
      assert (El : d_aux_length ds = d_aux_length d) by (rewrite FE; reflexivity). now rewrite El. }
    split.
    { intros n Hn. destruct (in_dec Z.eq_dec n (nodes d)) as [I|I]; auto. left.
      assert (En : tof (with_aux d2 aux) n = tof ds n).
      { unfold tof. cbn. rewrite Old; auto. now rewrite Nd. }
      rewrite En in Hn. destruct (si_types _ _ _ Hi n) as [X|[X _]]; congruence. }
    split; cbn; [rewrite Tr|rewrite Tl]; rewrite FE; reflexivity.
  Qed.

  Lemma aux_simple d d3 ps : wf d -> wf d3 ->
    (forall n k, In (n, k) ps -> ~ In k (nodes d) /\ In n (nodes d)) ->
    (forall e, edge_find d3 e = if @memb ekey _ e ps then Some (aux_edge_attr (d_aux_length d)) else edge_find d e) ->
    simple_graph d -> simple_graph d3.
  Proof.
    intros W W3 Hps Ed Sg u v I1 I2.
    apply In_edges, has_edge_find in I1 as [a1 E1]; auto.
    apply In_edges, has_edge_find in I2 as [a2 E2]; auto. rewrite Ed in E1, E2.
    destruct (@memb ekey _ (u, v) ps) eqn:M1; destruct (@memb ekey _ (v, u) ps) eqn:M2.
    - apply (@memb_In ekey _) in M1, M2. apply Hps in M1, M2. tauto.
    - apply (@memb_In ekey _) in M1. apply Hps in M1 as [M1 _].
      destruct (wf_eends _ W _ _ E2); cbn in *; tauto.
    - apply (@memb_In ekey _) in M2. apply Hps in M2 as [M2 _].
      destruct (wf_eends _ W _ _ E1); cbn in *; tauto.
    - apply (Sg u v); apply In_edges; auto; apply has_edge_find; eauto.
  Qed.

  (** Every stored trail is a simple chain of trail edges from an origin node with
      no trail edge leaving the trail, to a node that was a support when the call
      started (or that the call itself added as the end of an auxiliary trail). *)
  Lemma c12_trail_structure : forall d ord aux d', reachable d -> same_set_order ord -> simple_graph d ->
    build_trails ord aux d = (d', Ok tt) ->
    forall key tr, In (key, tr) (trails d') ->
      starts_with tr key
      /\ is_node_origin d' key = Ok true
      /\ (forall a b, consecutive tr a b -> trail_joined d' a b)
      /\ NoDup tr
      /\ (exists s, ends_in tr s /\ (In s (support_nodes d) \/ aux = true /\ ~ In s (nodes d)))
      /\ (forall m, trail_joined d' key m -> In m tr).
  Proof.
    intros d ord aux d' Hr Ho Sg Hb. apply reachable_wf in Hr as W.
    destruct aux.
    - destruct (aux_stage d ord W Ho) as (d3&ps&Hb3&W3&N3&Hps&_&Ed&Ty&_). rewrite Hb3 in Hb.
      assert (S3 : simple_graph d3) by (exact (aux_simple d d3 ps W W3 Hps Ed Sg)).
      destruct (plain_trails d3 ord d' W3 Ho S3 Hb) as (Ee&Nn&X).
      intros key tr I. destruct (X key tr I) as (A1&A2&A3&A4&(s&E1&E2)&A6).
      split; auto. split; auto. split; [intros a b C; apply (trail_joined_edge d3 d'); auto|].
      split; auto. split; [|intros m C; apply A6; now apply (trail_joined_edge d3 d') in C].
      exists s. split; auto. apply In_support_nodes, is_sup_tof in E2; auto.
      destruct (Ty s E2) as [E|E]; [left; now apply In_support_nodes, is_sup_tof|right; auto].
    - destruct (plain_trails d ord d' W Ho Sg Hb) as (Ee&Nn&X).
      intros key tr I. destruct (X key tr I) as (A1&A2&A3&A4&(s&E1&E2)&A6).
      split; auto. split; auto. split; [intros a b C; apply (trail_joined_edge d d'); auto|].
      split; auto. split; [eauto|intros m C; apply A6; now apply (trail_joined_edge d d') in C].
  Qed.

  (** ** C13 *)

  Lemma chained_connected d l : wf d -> chained (tj d) l -> forall s r n, l = s :: r -> In n l -> trail_connected d s n.
  Proof.
    intros W. induction l as [|x l IH] using rev_ind; intros Hc s r n E I; [discriminate|].
    destruct l as [|y l']; cbn in E.
    - injection E as <- <-. destruct I as [<-|[]]. constructor.
    - injection E as <- <-. set (l := y :: l') in *.
      assert (Hc' : chained (tj d) l).
      { clear -Hc. revert Hc. generalize l. clear. induction l as [|a l IH]; cbn; auto.
        destruct l as [|b l]; auto. cbn in *. tauto. }
      apply in_app_iff in I as [I|[<-|[]]]; [eapply IH; eauto; reflexivity|].
      destruct (exists_last (l := l)) as (l0&z&El); [discriminate|].
      apply tc_step with z; [eapply IH; eauto; [reflexivity|rewrite El; apply in_or_app; cbn; auto]|].
      apply tjoin_joined; auto. rewrite El in Hc. clear -Hc.
      rewrite <- app_assoc in Hc. cbn in Hc. induction l0 as [|a l0 IH]; cbn in *; [tauto|].
      destruct l0; cbn in *; tauto.
  Qed.

  (** build_trails() succeeds only on complete topologies; each failure says which
      condition is violated; a failing call keeps the stored trails. *)
  Lemma c13_no_incomplete_trails : forall d ord, reachable d -> same_set_order ord ->
    let '(d', r) := build_trails ord false d in
    (r = Ok tt /\ trail_edges d <> [] /\ support_nodes d' <> []
       /\ forall n, In n (nodes d) ->
            (exists s, In s (support_nodes d) /\ trail_connected d s n)
            /\ exists k, node_sequence d' n = Ok k /\ 0 <= k)
    \/ (trails d' = trails d
        /\ ((r = Err (AssertionError "No trail edges defined!") /\ trail_edges d = [])
            \/ (r = Err (AssertionError "No supports assigned!") /\ support_nodes d' = [])
            \/ (r = Err (AssertionError "Nodes haven't been assigned to a trail.")
                /\ exists n, In n (nodes d) /\ forall k, node_sequence d' n = Ok k -> node_sequence d n = Ok k))).
  Proof.
    intros d ord Hr Ho. apply reachable_wf in Hr as W. cbn [build_trails].
    destruct (build_plain_cases ord d W Ho) as (ds&acc&r&->&Hs&_&C).
    assert (Tr : trails ds = trails d) by (apply (frame_trails _ _ (si_frame _ _ _ Hs))).
    destruct C as [[C1 ->]|[[C1 [C2 ->]]|[[C1 [C2 [(n&In1&Hn) ->]]]|[C1 [C2 [C3 ->]]]]]].
    - right. auto.
    - right. auto.
    - right. split; auto. right. right. split; auto. exists n. split; auto.
      intros k. rewrite !seq_kof. now rewrite (si_k_out _ _ _ Hs n Hn).
    - left. split; auto. split; auto. split; [exact C2|]. intros n In1. specialize (C3 n In1). split.
      + destruct (si_visited _ _ _ Hs n C3) as (s&tr&o&Wk&Su&It). exists s.
        split; [now apply In_support_nodes|]. destruct (wk_head _ _ _ _ Wk) as [r0 E0].
        eapply chained_connected; eauto. apply Wk.
      + destruct (si_k_in _ _ _ Hs n C3) as (k&Ek&Hk). exists k. split; auto. now apply seq_kof.
  Qed.

  (** The same for auxiliary trails: a failing call keeps the stored trails. *)
  Lemma c13_auxiliary_failure_keeps_trails : forall d ord d' e, reachable d -> same_set_order ord ->
    build_trails ord true d = (d', Err e) -> trails d' = trails d.
  Proof.
    intros d ord d' e Hr Ho Hb. apply reachable_wf in Hr as W.
    destruct (aux_stage d ord W Ho) as (d3&ps&Hb3&W3&_&_&_&_&_&Tr&_). rewrite Hb3 in Hb.
    destruct (build_plain_cases ord d3 W3 Ho) as (ds&acc&r&Hr'&Hs&_&C). rewrite Hb in Hr'. subst r.
    assert (Tr' : trails ds = trails d).
    { unfold trails. rewrite (frame_trails _ _ (si_frame _ _ _ Hs)). exact Tr. }
    destruct C as [[_ E]|[[_ [_ E]]|[[_ [_ [_ E]]]|[_ [_ [_ E]]]]]]; try discriminate E; now injection E as -> _.
  Qed.

  (** ** C14 *)

  (** A topology whose trail edges form disjoint chains covering all nodes, each
      with exactly one support at its end: build_trails stores exactly the chains. *)
  Lemma c14_chains_recovered : forall d ord P, reachable d -> same_set_order ord ->
    chains d P -> covers d P -> P <> [] ->
    exists d', build_trails ord false d = (d', Ok tt)
      /\ Permutation (trails d') (map (fun p => (hd 0 p, p)) P)
      /\ (forall n, is_node_origin d' n = Ok true <-> In n (map (hd 0) P) \/ is_node_origin d n = Ok true)
      /\ (forall n, is_node_support d' n = Ok true <-> is_node_support d n = Ok true)
      /\ (forall p i n, In p P -> nth_error p i = Some n -> node_sequence d' n = Ok (Z.of_nat i))
      /\ same_but_types_and_sequences d d'.
  Proof.
    intros d ord P Hr Ho C Cov NE. apply reachable_wf in Hr as W.
    destruct (build_chains ord d P W Ho C Cov NE) as (d'&Hb&F&Y&K). exists d'. split; auto.
    split.
    { unfold trails. rewrite (frame_trails _ _ F). cbn. unfold trails_of. apply Permutation_map.
      eapply Permutation_chains_at; eauto. }
    split.
    { intros n. rewrite !origin_tof, Y. destruct (memb n (map (hd 0) P)) eqn:M.
      - apply memb_In in M. tauto.
      - apply memb_nIn in M. tauto. }
    split.
    { intros n. rewrite !support_tof, Y. destruct (memb n (map (hd 0) P)) eqn:M; [|tauto].
      split; [discriminate|]. intros E. exfalso. apply is_sup_tof, In_support_nodes in E; auto.
      apply (ch_supports _ _ C) in E as (p&Ip&Ep). apply (head_not_end d P p n C Ip) in Ep. congruence. }
    split; [intros p i n Ip En; apply seq_kof; eapply K; eauto|].
    exact (frame_same _ _ F).
  Qed.

  (** ** C59 *)

  (** On well-posed chains build_trails keeps every support and adds none. *)
  Lemma c59_supports_kept_partial : forall d ord P d', reachable d -> same_set_order ord ->
    chains d P -> covers d P -> P <> [] -> build_trails ord false d = (d', Ok tt) ->
    forall n, is_node_support d' n = Ok true <-> is_node_support d n = Ok true.
  Proof.
    intros d ord P d' Hr Ho C Cov NE Hb.
    destruct (c14_chains_recovered d ord P Hr Ho C Cov NE) as (d2&Hb2&_&_&S&_).
    rewrite Hb in Hb2. now injection Hb2 as <-.
  Qed.

  (** ** C15, C16 *)

  (** Under the hypotheses of C14 every node lies on exactly one stored trail. *)
  Lemma c15_one_trail_partial : forall d ord P d', reachable d -> same_set_order ord ->
    chains d P -> covers d P -> P <> [] -> build_trails ord false d = (d', Ok tt) ->
    forall n, In n (nodes d') -> exists key tr, In (key, tr) (trails d') /\ In n tr
      /\ forall key' tr', In (key', tr') (trails d') -> In n tr' -> key' = key /\ tr' = tr.
  Proof.
    intros d ord P d' Hr Ho C Cov NE Hb n In1.
    destruct (c14_chains_recovered d ord P Hr Ho C Cov NE) as (d2&Hb2&Pm&_&_&_&Sm).
    rewrite Hb in Hb2. injection Hb2 as <-.
    destruct Sm as (Nn&_). rewrite Nn in In1. specialize (Cov n In1).
    apply in_concat in Cov as (p&Ip&Inp).
    exists (hd 0 p), p. split.
    - apply (Permutation_in _ (Permutation_sym Pm)), in_map_iff. eauto.
    - split; auto. intros key' tr' I' In'. apply (Permutation_in _ Pm), in_map_iff in I' as (q&E&Iq).
      injection E as <- <-. assert (q = p) by (eapply concat_disjoint; eauto; apply C). subst. auto.
  Qed.

  (** Under the hypotheses of C14 rebuilding changes nothing at all. *)
  Lemma c16_rebuild_partial : forall d ord ord' P d', reachable d -> same_set_order ord -> same_set_order ord' ->
    chains d P -> covers d P -> P <> [] -> build_trails ord false d = (d', Ok tt) ->
    build_trails ord' false d' = (d', Ok tt).
  Proof.
    intros d ord ord' P d' Hr Ho Ho' C Cov NE Hb. apply reachable_wf in Hr as W.
    destruct (rebuild_chains ord ord' d P W Ho Ho' C Cov NE) as (d2&H1&H2). cbn [build_trails] in *.
    rewrite Hb in H1. injection H1 as <-. exact H2.
  Qed.

  (** ** C17, C18 *)

  (** build_trails(True) adds one support and one trail edge per uncovered node. *)
  Lemma c17_auxiliary_trails : forall d ord P, reachable d -> same_set_order ord ->
    chains d P -> nodes d <> [] ->
    exists d' (ps : list ekey), build_trails ord true d = (d', Ok tt)
      (* one pair (n, new) per node that is not on a chain *)
      /\ Permutation (map fst ps) (filter (fun n => negb (memb n (concat P))) (nodes d))
      /\ nodes d' = nodes d ++ map snd ps
      /\ NoDup (nodes d')
      (* the new nodes *)
      /\ (forall n k, In (n, k) ps -> exists p, node_coordinates d n = Ok p
            /\ node_coordinates d' k
                 = Ok (add_vectors p (scale_vector (normalize_vector (d_aux_vector d)) (d_aux_length d)))
            /\ node_load d' k = Ok vzero /\ is_node_support d' k = Ok true)
      (* the old nodes *)
      /\ (forall n, In n (nodes d) -> node_coordinates d' n = node_coordinates d n
            /\ node_load d' n = node_load d n /\ reaction_force d' n = reaction_force d n)
      (* the edges *)
      /\ (forall e, In e (edges d') <-> In e (edges d) \/ In e ps)
      /\ (forall e, In e (edges d) -> edge_get d' e = edge_get d e)
      /\ (forall e, In e ps -> is_trail_edge d' e = Ok true
            /\ edge_length_2 d' e = Ok (d_aux_length d) /\ edge_plane d' e = Ok None)
      (* the trails *)
      /\ auxiliary_trails d' = map (fun nk => (fst nk, nk)) ps
      /\ (forall e, In e (auxiliary_trail_edges d') <-> In e ps)
      /\ Permutation (trails d') (map (fun p => (hd 0 p, p)) (P ++ map (fun nk => [fst nk; snd nk]) ps))
      /\ chains d' (P ++ map (fun nk => [fst nk; snd nk]) ps)
      /\ covers d' (P ++ map (fun nk => [fst nk; snd nk]) ps)
      /\ (forall p i n, In p (P ++ map (fun nk => [fst nk; snd nk]) ps) -> nth_error p i = Some n ->
            node_sequence d' n = Ok (Z.of_nat i)).
  Proof.
    intros d ord P Hr Ho C NE. apply reachable_wf in Hr as W.
    destruct (build_aux_chains ord d P W Ho C NE)
      as (d'&ps&Hb&W'&Pm&N'&Nd&Hps&Ax&Tr&C'&Cov'&Old&New&Ed&Ty&K).
    change (map two ps) with (map (fun nk : Z * Z => [fst nk; snd nk]) ps) in *.
    exists d', ps. split; auto. split; auto. split; auto. split; [apply (wf_nodup _ W')|].
    split.
    { intros n k I. destruct (Hps n k I) as [Nk In1]. destruct (node_find d n In1) as [a Ea].
      destruct (New n k a I Ea) as (a'&Ea'&X1&X2&X3). exists (na_xyz a).
      apply node_get_Ok in Ea, Ea'. unfold node_coordinates, node_load. rewrite Ea, Ea'. cbn.
      rewrite X1, X2. split; auto. split; auto. split; auto. apply support_tof. rewrite Ty.
      assert (Ik := proj2 (In_keys_ps ps n k I)).
      destruct (memb k (map (hd 0) (P ++ map (fun nk : Z * Z => [fst nk; snd nk]) ps))) eqn:M.
      - exfalso. apply memb_In in M. rewrite map_app, map_map in M. apply in_app_iff in M as [M|M].
        + apply in_map_iff in M as (p&E&Ip). apply Nk. apply (ch_nodes _ _ C). apply in_concat.
          exists p. split; auto. rewrite <- E. apply hd_In. now apply (ch_length _ _ C).
        + apply in_map_iff in M as ([n1 k1]&E&I1). cbn in E. subst n1.
          destruct (Hps k k1 I1) as [_ X]. auto.
      - now apply memb_In in Ik as ->. }
    split.
    { intros n In1. destruct (node_find d n In1) as [a Ea]. destruct (Old n a Ea) as (a'&Ea'&X1&X2&X3).
      apply node_get_Ok in Ea, Ea'. unfold node_coordinates, node_load, reaction_force.
      rewrite Ea, Ea'. cbn. rewrite X1, X2, X3. auto. }
    assert (Dj : forall e, In e (edges d) -> @memb ekey _ e ps = false).
    { intros [u v] I. apply (@memb_nIn ekey _). intros I'. apply Hps in I' as [I' _].
      apply In_edges, has_edge_find in I as [a Ea]; auto. apply (wf_eends _ W) in Ea. tauto. }
    split.
    { intros e. rewrite !In_edges, !has_edge_find by auto. rewrite Ed.
      destruct (@memb ekey _ e ps) eqn:M.
      - apply (@memb_In ekey _) in M. split; eauto.
      - apply (@memb_nIn ekey _) in M. tauto. }
    split; [intros e I; unfold edge_get; rewrite Ed; rewrite (Dj e I); auto|].
    split.
    { intros e I. apply (@memb_In ekey _) in I.
      unfold is_trail_edge, edge_length_2, edge_plane, edge_get. rewrite Ed, I. auto. }
    split; auto. split; [|split; [|split; auto; split; auto]].
    - intros e. unfold auxiliary_trail_edges, is_auxiliary_trail_edge. rewrite filter_In, (@memb_In ekey _), Ax.
      unfold dvalues. rewrite map_map. cbn [snd]. rewrite map_id. split; [tauto|]. intros I. split; auto.
      apply In_edges; auto. apply has_edge_find. rewrite Ed. apply (@memb_In ekey _) in I. rewrite I. eauto.
    - unfold trails. rewrite Tr. apply Permutation_map. eapply Permutation_chains_at; eauto.
    - intros p i n Ip En. apply seq_kof. eapply K; eauto.
  Qed.

  Lemma reachable_build d ord aux : reachable d -> same_set_order ord -> reachable (fst (build_trails ord aux d)).
  Proof. intros Hr Ho. apply (reachable_step d (OpBuildTrails ord aux)); auto. Qed.

  (** What really happens to the register: on chains that cover all the nodes (in
      particular after a successful call) build_trails(True) keeps the diagram and
      the trails but forgets every auxiliary trail. *)
  Lemma c18_register_is_cleared : forall d ord ord' P d', reachable d -> same_set_order ord -> same_set_order ord' ->
    chains d P -> nodes d <> [] -> build_trails ord true d = (d', Ok tt) ->
    exists d'', build_trails ord' true d' = (d'', Ok tt)
      /\ nodes d'' = nodes d' /\ (forall e, In e (edges d'') <-> In e (edges d'))
      /\ Permutation (trails d'') (trails d')
      /\ auxiliary_trails d'' = [].
  Proof.
    intros d ord ord' P d' Hr Ho Ho' C NE Hb.
    destruct (c17_auxiliary_trails d ord P Hr Ho C NE)
      as (d1&ps&Hb1&_&N1&_&_&_&_&_&_&_&_&Tr1&C1&Cov1&_).
    rewrite Hb in Hb1. injection Hb1 as <-.
    assert (Hr' : reachable d') by (assert (X := reachable_build d ord true Hr Ho); now rewrite Hb in X).
    assert (NE' : nodes d' <> []).
    { rewrite N1. intros E. apply app_eq_nil in E as [E _]. auto. }
    destruct (c17_auxiliary_trails d' ord' _ Hr' Ho' C1 NE')
      as (d''&qs&Hb2&Pm&N2&_&_&_&E2&_&_&Ax2&_&Tr2&_).
    assert (Q : qs = []).
    { assert (X : filter (fun n => negb (memb n (concat (P ++ map (fun nk => [fst nk; snd nk]) ps)))) (nodes d') = []).
      { apply Bool.not_true_iff_false || idtac.
        destruct (filter _ _) as [|x l] eqn:E; auto. exfalso.
        assert (I : In x (x :: l)) by now left. rewrite <- E in I. apply filter_In in I as [I J].
        apply Cov1, memb_In in I. rewrite I in J. discriminate. }
      rewrite X in Pm. apply Permutation_sym, Permutation_nil in Pm. destruct qs; [auto|discriminate]. }
    subst qs. exists d''. split; auto. cbn in *. rewrite app_nil_r in *.
    split; auto. split; [intros e; rewrite E2; tauto|]. split; auto.
    eapply Permutation_trans; [exact Tr2|]. now apply Permutation_sym.
  Qed.

  (** ** C19 *)

  (** build_trails() changes node types and sequences only (and, on success, the
      stored trails), whatever happens. *)
  Lemma c19_build_frame : forall d ord, reachable d -> same_set_order ord ->
    let d' := fst (build_trails ord false d) in
    same_but_types_and_sequences d d' /\ auxiliary_trails d' = auxiliary_trails d
    /\ d_tol d' = d_tol d /\ d_aux_length d' = d_aux_length d /\ d_aux_vector d' = d_aux_vector d
    /\ (snd (build_trails ord false d) <> Ok tt -> trails d' = trails d).
  Proof.
    intros d ord Hr Ho. apply reachable_wf in Hr as W. cbn [build_trails].
    destruct (build_plain_cases ord d W Ho) as (ds&acc&r&->&Hs&_&C).
    assert (F := si_frame _ _ _ Hs). assert (Sm := frame_same d ds F). destruct F as (FE&_).
    destruct C as [[_ ->]|[[_ [_ ->]]|[[_ [_ [_ ->]]]|[_ [_ [_ ->]]]]]]; cbn [fst snd];
      (split; [exact Sm|]); unfold auxiliary_trails, trails; rewrite FE; cbn;
      repeat (split; [reflexivity|]); auto. congruence.
  Qed.

  (** build_trails(True) only adds nodes and edges. *)
  Lemma c19_build_auxiliary_frame : forall d ord, reachable d -> same_set_order ord ->
    let d' := fst (build_trails ord true d) in
    (exists new, nodes d' = nodes d ++ new)
    /\ (forall n, In n (nodes d) -> node_coordinates d' n = node_coordinates d n
          /\ node_load d' n = node_load d n /\ reaction_force d' n = reaction_force d n)
    /\ (forall e, In e (edges d) -> In e (edges d') /\ edge_get d' e = edge_get d e)
    /\ (forall u v, In (u, v) (edges d') -> ~ In (u, v) (edges d) -> In u (nodes d) /\ ~ In v (nodes d))
    /\ d_tol d' = d_tol d.
  Proof.
    intros d ord Hr Ho. apply reachable_wf in Hr as W.
    destruct (aux_stage d ord W Ho) as (d3&ps&Hb3&W3&N3&Hps&Old&Ed&Ty&Tr&Tl). rewrite Hb3.
    destruct (build_plain_cases ord d3 W3 Ho) as (ds&acc&r&->&Hs&_&C).
    assert (F := si_frame _ _ _ Hs). assert (Sm := frame_same d3 ds F).
    assert (Wd : wf ds) by (eapply frame_wf; eauto). destruct F as (FE&_).
    set (d' := fst r).
    assert (Sm' : same_but_types_and_sequences d3 d' /\ d_tol d' = d_tol d3 /\ wf d').
    { unfold d'. assert (X := wf_build_plain ord Ho d3 W3).
      destruct C as [[_ ->]|[[_ [_ ->]]|[[_ [_ [_ ->]]]|[_ [_ [_ ->]]]]]]; cbn [fst];
        (split; [exact Sm|]); (split; [rewrite FE; reflexivity|]); auto.
      apply wf_with_trails; auto; [apply Hs|].
      intros k tr n E I. rewrite (frame_nodes _ _ (si_frame _ _ _ Hs)). eapply search_trails_nodes; eauto. }
    destruct Sm' as ((S1&S2&S3&S4&S5&S6&S7&S8)&St&W').
    split; [exists (map snd ps); congruence|].
    split.
    { intros n In1. rewrite S3, S4, S5. destruct (node_find d n In1) as [a Ea].
      destruct (Old n a Ea) as (a'&Ea'&X1&X2&X3).
      apply node_get_Ok in Ea, Ea'. unfold node_coordinates, node_load, reaction_force.
      rewrite Ea, Ea'. cbn. rewrite X1, X2, X3. auto. }
    assert (Dj : forall e, In e (edges d) -> @memb ekey _ e ps = false).
    { intros [u v] I. apply (@memb_nIn ekey _). intros I'. apply Hps in I' as [I' _].
      apply In_edges, has_edge_find in I as [a Ea]; auto. apply (wf_eends _ W) in Ea. tauto. }
    split; [|split; [|congruence]].
    - intros e I. rewrite S2, S7. split.
      + apply In_edges, has_edge_find; auto. rewrite Ed, (Dj e I). now apply has_edge_find, In_edges.
      + unfold edge_get. now rewrite Ed, (Dj e I).
    - intros u v I Nn. rewrite S2 in I. apply In_edges, has_edge_find in I as [a Ea]; auto. rewrite Ed in Ea.
      destruct (@memb ekey _ (u, v) ps) eqn:M.
      + apply (@memb_In ekey _) in M. apply Hps in M. tauto.
      + exfalso. apply Nn, In_edges; auto. apply has_edge_find. eauto.
  Qed.

  (** ** C20 *)

  Lemma trail_sequences_spec d key tr : dget (d_trails d) key = Some tr ->
    (forall n, In n tr -> exists k, kof d n = Some k) ->
    exists m, trail_sequences d key = Ok m
      /\ (forall k n, dget m k = Some n -> In n tr /\ kof d n = Some k)
      /\ (forall n k, In n tr -> kof d n = Some k -> exists n', dget m k = Some n')
      /\ NoDup (dkeys m).
  Proof.
    intros Et Hk. unfold trail_sequences, trail, dgetr. rewrite Et. cbn.
    assert (Gen : forall done m0 rest, tr = done ++ rest ->
      (forall k n, dget m0 k = Some n -> In n done /\ kof d n = Some k) ->
      (forall n k, In n done -> kof d n = Some k -> exists n', dget m0 k = Some n') ->
      NoDup (dkeys m0) ->
      exists m, fold_res (fun m n => let* k := node_sequence d n in Ok (dset m k n)) rest m0 = Ok m
        /\ (forall k n, dget m k = Some n -> In n tr /\ kof d n = Some k)
        /\ (forall n k, In n tr -> kof d n = Some k -> exists n', dget m k = Some n')
        /\ NoDup (dkeys m)).
    { intros done m0 rest. revert done m0. induction rest as [|x rest IH]; intros done m0 E H1 H2 H3.
      - rewrite app_nil_r in E. subst done. exists m0. cbn. auto.
      - cbn. destruct (Hk x) as [k Ek]; [rewrite E; apply in_or_app; cbn; auto|].
        assert (Es := proj2 (seq_kof d x k) Ek). rewrite Es. cbn.
        apply (IH (done ++ [x])); [now rewrite <- app_assoc| | |now apply NoDup_dset].
        + intros k' n. rewrite dget_dset. cbn. rewrite in_app_iff.
          destruct (Z.eqb_spec k' k) as [->|]; [injection 1 as <-; cbn; auto|].
          intros X. apply H1 in X. tauto.
        + intros n k' I En. rewrite dget_dset. cbn. destruct (Z.eqb_spec k' k) as [->|Hne]; [eauto|].
          apply in_app_iff in I as [I|[<-|[]]]; [eauto|congruence]. }
    apply (Gen [] []); cbn; auto; try discriminate; try contradiction. constructor.
  Qed.

  (** shift_trail renumbers exactly the nodes of one trail. *)
  Lemma c20_shift_trail : forall d key s tr, reachable d ->
    is_node_origin d key = Ok true -> In (key, tr) (trails d) -> NoDup tr ->
    exists d', shift_trail key s d = (d', Ok tt)
      /\ same_but_types_and_sequences d d'
      /\ same_settings d d'
      /\ (forall n, is_node_origin d' n = is_node_origin d n /\ is_node_support d' n = is_node_support d n)
      /\ (forall i n, nth_error tr i = Some n -> node_sequence d' n = Ok (s + Z.of_nat i))
      /\ (forall n, ~ In n tr -> node_sequence d' n = node_sequence d n)
      /\ (exists m, trail_sequences d' key = Ok m
            /\ forall k n, dget m k = Some n <-> exists i, nth_error tr i = Some n /\ k = s + Z.of_nat i).
  Proof.
    intros d key s tr Hr Or It ND. apply reachable_wf in Hr as W.
    assert (Et : dget (d_trails d) key = Some tr) by (apply In_dget; auto; apply (wf_tnodup _ W)).
    assert (Inc : incl tr (nodes d)) by (intros n I; eapply (wf_trails _ W); eauto).
    assert (Hh : has_trails d = true).
    { unfold has_trails, number_of_trails. apply Z.ltb_lt. destruct (d_trails d); [discriminate|cbn; lia]. }
    assert (E : shift_trail key s d = set_sequences s tr d).
    { unfold shift_trail, ebind, eget. rewrite Or. cbn. rewrite Hh. cbn. unfold trail, dgetr. now rewrite Et. }
    rewrite E. assert (Tt := set_sequences_total tr s d Inc). assert (F := set_sequences_frame tr s d).
    assert (Ki := set_sequences_kof_in tr s d). assert (Ko := set_sequences_kof_out tr s d).
    assert (Ty := set_sequences_tof tr s d).
    destruct (set_sequences s tr d) as [d' r]; cbn in *. subst r. exists d'. split; auto.
    assert (Hi : forall i n, nth_error tr i = Some n -> kof d' n = Some (s + Z.of_nat i)).
    { intros i n En. destruct (Ki n Inc) as (j&Ej&Ek); [eapply nth_error_In; eauto|].
      rewrite Ek. do 2 f_equal. f_equal. eapply NoDup_nth_error_inj; eauto. }
    assert (Sm := frame_same d d' F). split; auto.
    destruct F as (FE&FN&FA).
    split; [unfold same_settings, trails, auxiliary_trails; rewrite FE; cbn; auto|].
    split.
    { intros n. destruct (in_dec Z.eq_dec n (nodes d)) as [I|I].
      - destruct (node_find d n I) as [a Ea]. destruct (FA n a Ea) as (a'&Ea'&_).
        assert (Y := Ty n). unfold tof in Y. rewrite Ea, Ea' in Y.
        apply node_get_Ok in Ea, Ea'. unfold is_node_origin, is_node_support. rewrite Ea, Ea'. cbn. now rewrite Y.
      - assert (Ea : dget (d_node d) n = None) by (now apply dget_None).
        assert (Ea' : dget (d_node d') n = None) by (apply dget_None; fold (nodes d'); now rewrite FN).
        unfold is_node_origin, is_node_support, node_get, dgetr. now rewrite Ea, Ea'. }
    split; [intros i n En; now apply seq_kof, Hi|].
    split.
    { intros n Hn. assert (K := Ko n Hn). unfold node_sequence, node_get, dgetr, kof in *.
      destruct (dget (d_node d) n) as [a|] eqn:Ea.
      - destruct (FA n a Ea) as (a'&Ea'&_). rewrite Ea' in *. cbn. now rewrite K.
      - assert (Ea' : dget (d_node d') n = None).
        { apply dget_None. fold (nodes d'). rewrite FN. now apply dget_None in Ea. }
        now rewrite Ea'. }
    destruct (trail_sequences_spec d' key tr) as (m&Em&M1&M2&_).
    { rewrite FE. exact Et. }
    { intros n I. apply In_nth_error in I as [i Ei]. eauto. }
    exists m. split; auto. intros k n. split.
    - intros X. apply M1 in X as [I Ek]. apply In_nth_error in I as [i Ei]. exists i. split; auto.
      rewrite (Hi i n Ei) in Ek. congruence.
    - intros (i&Ei&->). destruct (M2 n (s + Z.of_nat i)) as (n'&En'); [eapply nth_error_In; eauto|eauto|].
      rewrite En'. apply M1 in En' as [I' Ek']. apply In_nth_error in I' as [j Ej].
      rewrite (Hi j n' Ej) in Ek'. injection Ek' as Ek'. assert (j = i) by lia. congruence.
  Qed.

  (** shift_trail on a node that is not an origin raises and changes nothing. *)
  Lemma c20_shift_rejects : forall d key s, is_node_origin d key = Ok false ->
    shift_trail key s d = (d, Err (AssertionError "That is not an origin node!")).
  Proof. intros d key s E. unfold shift_trail, ebind, eget. now rewrite E. Qed.
End Thms.
