(** * Only the coordinates of the first nodes of trails matter *)

From Coq Require Import String List ZArith Bool Lia Permutation.
From Verif Require Import Py PyFacts Num Diagram DiagramFacts Topology SpecDiagram SpecTopology
  TopologyFacts BuildFacts ChainFacts ChainFacts2 History HistoryFacts DiagramThms TopologyThms SequenceThms
  Equilibrium SpecEquilibrium EqFacts FormFacts ReadyThms EqThms.
Import ListNotations.
Open Scope Z_scope.

Lemma dict_ext_keys {K V} `{Eqb K} (m m' : dict K V) : dkeys m' = dkeys m -> NoDup (dkeys m) ->
  (forall k, In k (dkeys m) -> dget m' k = dget m k) -> m' = m.
Proof.
  intros E N G. apply dict_ext; auto. intros k. destruct (dget m k) as [v|] eqn:Q.
  - rewrite <- Q. apply G. eapply dget_In_keys; eauto.
  - apply dget_None in Q. apply dget_None. now rewrite E.
Qed.

Section Coords.
  Context {T : Type} `{NumOps T}.
  Implicit Types (d : diagram T).
  Context (d d' : diagram T) (W : wf d) (W' : wf d') (Sb : same_but_coordinates d d') (Rd : ready d).

  Lemma sb_find e : edge_find d' e = edge_find d e.
  Proof.
    assert (E := sb_edge _ _ Sb e). unfold edge_get in E. destruct (edge_find d' e), (edge_find d e); congruence.
  Qed.

  Lemma sb_kof n : kof d' n = kof d n.
  Proof.
    assert (E := sb_sequence _ _ Sb n). unfold node_sequence, node_get, dgetr in E. unfold kof.
    assert (N : In n (nodes d') <-> In n (nodes d)) by now rewrite (sb_nodes _ _ Sb).
    destruct (dget (d_node d') n) as [a'|] eqn:E1, (dget (d_node d) n) as [a|] eqn:E2; cbn in *; auto.
    - destruct (na_k a'), (na_k a); congruence.
    - exfalso. apply dget_In_keys in E1. apply N, In_keys_dget in E1 as [x Ex]. congruence.
    - exfalso. apply dget_In_keys in E2. apply N, In_keys_dget in E2 as [x Ex]. congruence.
  Qed.

  Lemma sb_is_sup n : In n (nodes d) -> is_sup d' n = is_sup d n.
  Proof.
    intros I. assert (I' : In n (nodes d')) by now rewrite (sb_nodes _ _ Sb).
    assert (E := sb_support _ _ Sb n). rewrite !is_node_support_Ok in E by auto. congruence.
  Qed.

  Lemma sb_ready : ready d'.
  Proof.
    apply (ready_same d); auto; try apply Sb.
    - intros e. rewrite !In_trail_edges by auto. now rewrite sb_find.
    - intros tr I. destruct (rd_sequences _ Rd tr I) as (s&P&E). exists s. split; auto.
      intros i n En. rewrite (sb_sequence _ _ Sb). eauto.
    - intros n I. rewrite (sb_reaction _ _ Sb). now apply (rd_reactions _ Rd).
  Qed.

  Lemma sb_follows n m : follows d' n m <-> follows d n m.
  Proof. unfold follows, stored. now rewrite (sb_trails _ _ Sb). Qed.

  Lemma sb_has e : has_edge d' e = has_edge d e.
  Proof. unfold has_edge. now rewrite sb_find. Qed.

  Lemma sb_key n m : trail_edge_key d' n m = trail_edge_key d n m.
  Proof. unfold trail_edge_key. now rewrite sb_has. Qed.

  Lemma sb_connected n : connected_edges d' n = connected_edges d n.
  Proof.
    unfold connected_edges. rewrite (sb_neighbors _ _ Sb). destruct (neighbors d n) as [nb|e] eqn:En; cbn [bind]; auto.
    unfold neighbors, dgetr in En. destruct (dget (d_adj d) n) as [x|] eqn:Q; [|discriminate]. apply dget_In_keys in Q.
    rewrite (wf_akeys _ W) in Q. assert (Q' : In n (nodes d')) by now rewrite (sb_nodes _ _ Sb).
    destruct (wf_edge_dict d n W Q) as [out Eo]. destruct (wf_edge_dict d' n W' Q') as [out' Eo'].
    unfold dgetr. rewrite Eo, Eo'. cbn [bind]. f_equal. apply map_ext. intros m.
    assert (X : dmem out' m = dmem out m).
    { assert (Y := sb_find (n, m)). rewrite (edge_find_dict d n m out), (edge_find_dict d' n m out') in Y by auto.
      unfold dmem. now rewrite Y. }
    now rewrite X.
  Qed.

  Lemma filter_res_same {A} (p q : A -> res bool) l : (forall a, p a = q a) -> filter_res p l = filter_res q l.
  Proof. intros E. induction l as [|a l IH]; cbn; auto. now rewrite E, IH. Qed.

  Lemma sb_deviation e : is_deviation_edge d' e = is_deviation_edge d e.
  Proof. unfold is_deviation_edge. now rewrite (sb_edge _ _ Sb). Qed.

  Lemma sb_eseq e : edge_sequence d' e = edge_sequence d e.
  Proof. unfold edge_sequence. now rewrite !(sb_sequence _ _ Sb). Qed.

  Lemma sb_cdir n : cdir d' n = cdir d n.
  Proof.
    unfold cdir, connected_direct_deviation_edges, connected_edges_predicate. rewrite sb_connected.
    destruct (connected_edges d n) as [l|]; cbn [bind]; auto.
    rewrite (filter_res_same _ (is_direct_deviation_edge d)); auto. intros e.
    unfold is_direct_deviation_edge, is_deviation_edge_predicate. now rewrite sb_deviation, sb_eseq.
  Qed.

  Lemma sb_cind n : cind d' n = cind d n.
  Proof.
    unfold cind, connected_indirect_deviation_edges, connected_edges_predicate. rewrite sb_connected.
    destruct (connected_edges d n) as [l|]; cbn [bind]; auto.
    rewrite (filter_res_same _ (is_indirect_deviation_edge d)); auto. intros e.
    unfold is_indirect_deviation_edge, is_deviation_edge_predicate. now rewrite sb_deviation, sb_eseq.
  Qed.

  Lemma sb_fo e : fo d' e = fo d e.
  Proof. unfold fo. now rewrite sb_find. Qed.

  Lemma sb_qo n : In n (nodes d) -> qo d' n = qo d n.
  Proof.
    intros I. assert (I' : In n (nodes d')) by now rewrite (sb_nodes _ _ Sb).
    assert (E := sb_load _ _ Sb n). unfold node_load, node_get, dgetr in E. unfold qo.
    apply In_keys_dget in I as [a Ea]. apply In_keys_dget in I' as [a' Ea']. rewrite Ea, Ea' in *. cbn in E. congruence.
  Qed.

  Lemma sb_rout n rin xyz ind : In n (nodes d) -> rout d' n rin xyz ind = rout d n rin xyz ind.
  Proof.
    intros I. unfold rout. rewrite sb_qo, sb_cdir, sb_cind by auto.
    assert (E : forall es, dev_sum d' xyz n es = dev_sum d xyz n es).
    { intros es. unfold dev_sum. generalize (@vzero T _). induction es as [|e es IH]; intros r; cbn [fold_left]; auto.
      rewrite IH. unfold dpull. now rewrite sb_fo. }
    now rewrite !E.
  Qed.

  Lemma sb_lout n m p r : lout d' n m p r = lout d n m p r.
  Proof. unfold lout, ea. now rewrite sb_key, sb_find. Qed.

  Lemma sb_stops kmax n : In n (nodes d) -> stops d' kmax n = stops d kmax n.
  Proof. intros I. unfold stops. now rewrite sb_is_sup, sb_kof. Qed.

  Lemma sb_vstep kmax ind n st st' : In n (nodes d) -> vstep d' kmax ind n st st' -> vstep d kmax ind n st st'.
  Proof.
    intros I S. destruct S as [Sn|m Sn F].
    - rewrite sb_stops in Sn by auto. replace (put_reaction d' ind n st) with (put_reaction d ind n st); [now constructor|].
      unfold put_reaction. now rewrite sb_rout.
    - rewrite sb_stops in Sn by auto. apply sb_follows in F.
      replace (put_next d' ind n m st) with (put_next d ind n m st); [now constructor|].
      unfold put_next. now rewrite sb_rout, sb_lout, sb_key.
  Qed.

  Lemma sb_vsteps kmax ind l st st' : vsteps d' kmax ind l st st' -> vsteps d kmax ind l st st'.
  Proof.
    induction 1 as [|n l st st1 st' I [D1 D2] S V IH]; [constructor|]. rewrite (sb_nodes _ _ Sb) in I, D1, D2.
    econstructor; eauto; [split; auto|]. now apply sb_vstep.
  Qed.

  Lemma sb_ts : trails_sequences d' = trails_sequences d.
  Proof.
    unfold trails_sequences, trail_sequences, trail. assert (E := sb_trails _ _ Sb). unfold trails in *. rewrite E.
    assert (X : forall A S (f g : S -> A -> res S) l, (forall x a, f x a = g x a) -> forall x, fold_res f l x = fold_res g l x).
    { intros A S f g l Q. induction l as [|a l IH]; intros x; cbn; auto. rewrite Q. destruct (g x a); cbn; auto. }
    apply X. intros m kt. destruct (dgetr (d_trails d) (fst kt)); cbn [bind]; auto.
    rewrite (X _ _ _ (fun m n => let* k := node_sequence d n in Ok (dset m k n))); auto.
    intros y a0. now rewrite (sb_sequence _ _ Sb).
  Qed.

  Lemma sb_last kl : sequence_last d = Ok kl -> sequence_last d' = Ok kl.
  Proof.
    intros E. destruct (ready_last d W Rd) as (k&Ek&_&_).
    assert (NE : nodes d <> []).
    { intros Q. unfold sequence_last in E. unfold nodes in Q. destruct (d_node d); [discriminate|discriminate]. }
    assert (NE' : nodes d' <> []) by now rewrite (sb_nodes _ _ Sb).
    destruct (sequence_last_spec d W (ready_sequenced d Rd) NE) as (k1&E1&M1&n1&I1&S1).
    destruct (sequence_last_spec d' W' (ready_sequenced d' sb_ready) NE') as (k2&E2&M2&n2&I2&S2).
    rewrite E2. f_equal. rewrite E in E1. injection E1 as <-. rewrite (sb_sequence _ _ Sb) in S2.
    apply M1 in S2. rewrite <- (sb_sequence _ _ Sb) in S1. apply M2 in S1. lia.
  Qed.

  Lemma sb_schedule ts K : schedule d' ts K = schedule d ts K.
  Proof. unfold schedule. now rewrite (sb_trails _ _ Sb). Qed.

  Lemma sb_ts_ok ts : ts_ok d ts -> ts_ok d' ts.
  Proof.
    intros Hts key tr I. rewrite (sb_trails _ _ Sb) in I. destruct (Hts key tr I) as (m&Em&M). exists m. split; auto.
    intros n k. rewrite sb_kof. apply M.
  Qed.

  (** Iterations of the two diagrams agree on the same containers. *)
  Lemma sb_sweep ts kmax ind st : ts_ok d ts -> dom d st -> sweep d' ts kmax ind st = sweep d ts kmax ind st.
  Proof.
    intros Hts D. destruct (ready_last d W Rd) as (kl&Ekl&_). assert (Ekl' := sb_last kl Ekl).
    destruct (sweep_steps d ts kmax ind kl st W Rd Hts Ekl D) as (s1&E1&V1&_).
    assert (D' : dom d' st) by (destruct D; split; rewrite (sb_nodes _ _ Sb); auto).
    destruct (sweep_steps d' ts kmax ind kl st W' sb_ready (sb_ts_ok ts Hts) Ekl' D') as (s2&E2&V2&_).
    rewrite E1, E2. f_equal. rewrite sb_schedule in V2. apply sb_vsteps in V2. eapply vsteps_fun; eauto.
  Qed.

  (** ** The first iteration *)

  Definition first m : Prop := exists tr, In (m, tr) (trails d).

  (** Containers that agree except for the positions of the nodes that have not been
      reached yet. *)
  Record sim (l : list Z) (st st' : eqstate T) : Prop := {
    si_keys : dkeys (s_xyz st') = dkeys (s_xyz st);
    si_xyz : forall m, first m \/ (exists n, In n l /\ follows d n m) -> dget (s_xyz st') m = dget (s_xyz st) m;
    si_res : s_res st' = s_res st;
    si_reac : s_reac st' = s_reac st;
    si_tforce : s_tforce st' = s_tforce st;
    si_tdir : s_tdir st' = s_tdir st
  }.

  Lemma sim_step l n st st' s s' : In n (nodes d) ->
    (forall m k j, kof d n = Some k -> kof d m = Some j -> j <= k -> dget (s_xyz st') m = dget (s_xyz st) m) ->
    sim l st st' -> vstep d None false n st s -> vstep d None false n st' s' -> sim (l ++ [n]) s s'.
  Proof.
    intros I A [K X E1 E2 E3 E4] V V'. destruct (ready_kof d n Rd I) as (k&Ek&_).
    assert (Ex : xg (s_xyz st') n = xg (s_xyz st) n) by (unfold xg; rewrite (A n k k); auto; lia).
    assert (Er : rout d n (xg (s_res st') n) (s_xyz st') false = rout d n (xg (s_res st) n) (s_xyz st) false).
    { unfold rout. rewrite E1. rewrite (direct_final d n (s_xyz st') (s_xyz st)); auto. }
    rewrite E1 in Er. destruct V as [Sn|m Sn F], V' as [Sn'|m' Sn' F']; try congruence.
    - constructor; unfold put_reaction; cbn; rewrite ?E1, ?E2, ?Er; auto. intros m [Fm|(n'&J&F)]; [apply X; auto|].
      apply in_app_iff in J as [J|[<-|[]]]; [apply X; eauto|]. exfalso. unfold stops in Sn. rewrite orb_false_r in Sn.
      exact (sup_not_follows d n m W Rd Sn F).
    - assert (m' = m) by (eapply follows_fun; eauto). subst m'.
      constructor; cbn; auto; rewrite ?E1, ?E3, ?E4, ?Er, ?Ex; auto.
      + destruct (in_dec Z.eq_dec m (dkeys (s_xyz st))) as [Im|Im].
        * rewrite !dkeys_dset_in; auto; rewrite K; auto.
        * rewrite !dkeys_dset_new; auto; rewrite K; auto.
      + intros m1 Q. rewrite !dget_dset. destruct (eqb_spec m1 m) as [->|Ne]; auto. apply X.
        destruct Q as [Q|(n'&J&F1)]; auto. apply in_app_iff in J as [J|[<-|[]]]; eauto.
        exfalso. apply Ne. eapply follows_fun; eauto.
  Qed.

  Lemma sim_steps ts kl : ts_ok d ts -> sequence_last d = Ok kl -> forall l2 l1 st st' s s',
    schedule d ts (kl + 1) = l1 ++ l2 -> sim l1 st st' ->
    vsteps d None false l2 st s -> vsteps d None false l2 st' s' -> sim (l1 ++ l2) s s'.
  Proof.
    intros Hts Ekl. induction l2 as [|n l2 IH]; intros l1 st st' s s' E S V V'.
    - inversion V; subst. inversion V'; subst. now rewrite app_nil_r.
    - inversion V as [|? ? ? sa ? I D St V1]; subst. inversion V' as [|? ? ? sb ? _ D' St' V1']; subst.
      replace (l1 ++ n :: l2) with ((l1 ++ [n]) ++ l2) in * by now rewrite <- app_assoc.
      apply (IH (l1 ++ [n]) sa sb); auto. apply (sim_step l1 n st st'); auto.
      intros m k j Ek Ej L. destruct S as [K X _ _ _ _]. apply X.
      assert (Im : In m (nodes d)) by (unfold kof in Ej; destruct (dget (d_node d) m) eqn:Q; [|discriminate]; apply dget_In_keys in Q; exact Q).
      destruct (first_or_follows d m Rd Im) as [(key&tr&It&->)|[n' F]]; [left; exists tr; auto|right].
      exists n'. split; auto. destruct (follows_nodes d n' m Rd F) as [In' _].
      destruct (ready_kof d n' Rd In') as (i&Ei&Pi). assert (j = i + 1) by (apply (follows_kof d n' m i Rd F) in Ei; congruence).
      destruct (ready_last d W Rd) as (kl'&Ekl'&_&Mx). rewrite Ekl in Ekl'. injection Ekl' as <-.
      assert (J : In n' (schedule d ts (kl + 1))).
      { apply In_schedule; auto. split; auto. exists i. split; auto. assert (i <= kl) by (eapply Mx; eauto). lia. }
      rewrite E, <- app_assoc in J. cbn in J. apply in_app_iff in J as [J|[<-|J]]; auto.
      + exfalso. rewrite Ek in Ei. injection Ei as <-. lia.
      + exfalso. rewrite <- app_assoc in E. cbn in E.
        assert (Y := schedule_sorted d ts (kl + 1) l1 n l2 n' k i W Rd Hts E J Ek Ei). lia.
  Qed.

  Context (Same : forall key tr, In (key, tr) (trails d) -> node_coordinates d' key = node_coordinates d key).

  Lemma init_sim : sim [] (init_state d) (init_state d').
  Proof.
    assert (N := sb_nodes _ _ Sb). assert (Nd := wf_nodup _ W).
    assert (At : forall n, In n (nodes d) -> exists a a', dget (d_node d) n = Some a /\ dget (d_node d') n = Some a').
    { intros n I. assert (I' : In n (nodes d')) by now rewrite N. apply In_keys_dget in I as [a Ea].
      apply In_keys_dget in I' as [a' Ea']. eauto. }
    constructor; cbn; auto.
    - now rewrite !dkeys_map.
    - intros m [[tr Fm]|(n&[]&_)]. rewrite !dget_map. assert (X := Same m tr Fm).
      unfold node_coordinates, node_get, dgetr in X.
      destruct (dget (d_node d) m), (dget (d_node d') m); cbn in *; congruence.
    - apply dict_ext_keys; rewrite !dkeys_map; auto. intros n I. rewrite !dget_map.
      destruct (At n I) as (a&a'&Ea&Ea'). assert (X := sb_reaction _ _ Sb n). unfold reaction_force, node_get, dgetr in X.
      rewrite Ea, Ea' in *. cbn in *. congruence.
  Qed.

  Lemma first_sweep ts : ts_ok d ts -> after d' ts None 1 = after d ts None 1.
  Proof.
    intros Hts. destruct (ready_last d W Rd) as (kl&Ekl&_). cbn [after bind Nat.eqb negb].
    destruct (sweep_steps d ts None false kl (init_state d) W Rd Hts Ekl (inv_dom _ _ (inv_init d))) as (s1&E1&V1&D1).
    destruct (sweep_steps d' ts None false kl (init_state d') W' sb_ready (sb_ts_ok ts Hts) (sb_last kl Ekl) (inv_dom _ _ (inv_init d')))
      as (s2&E2&V2&_).
    rewrite E1, E2. f_equal. rewrite sb_schedule in V2. apply sb_vsteps in V2.
    assert (S := sim_steps ts kl Hts Ekl (schedule d ts (kl + 1)) [] _ _ _ _ eq_refl init_sim V1 V2).
    destruct S as [K X R1 R2 R3 R4]. destruct s1, s2; cbn in *. subst. f_equal.
    destruct D1 as [Dx _]. cbn in Dx. apply dict_ext_keys; auto; [rewrite Dx; apply W|].
    intros m Im. apply X. rewrite Dx in Im.
    destruct (first_or_follows d m Rd Im) as [(key&tr&It&->)|[n' F]]; [left; exists tr; auto|right].
    exists n'. split; auto. destruct (follows_nodes d n' m Rd F) as [In' _].
    apply In_schedule; auto. split; auto. destruct (ready_kof d n' Rd In') as (i&Ei&Pi). exists i. split; auto.
    destruct (ready_last d W Rd) as (kl'&Ekl'&_&Mx). rewrite Ekl in Ekl'. injection Ekl' as <-. specialize (Mx n' i Ei). lia.
  Qed.

  Lemma same_iterate ts eta : ts_ok d ts -> forall n t od st, (1 <= t)%nat -> inv d st ->
    iterate d' ts None eta n t od st = iterate d ts None eta n t od st.
  Proof.
    intros Hts. induction n as [|n IH]; intros t od st P I; cbn [iterate]; auto.
    rewrite sb_sweep by (auto; now apply inv_dom).
    destruct (sweep d ts None (negb (t =? 0)%nat) st) as [s|] eqn:Es; cbn [bind]; auto.
    assert (Is : inv d s) by (eapply sweep_inv; eauto).
    destruct (Nat.eqb t 0); [apply IH; auto; lia|]. destruct (residual_distance _ _); cbn [bind]; auto.
    destruct (nltb _ eta); auto.
  Qed.

  Lemma same_state tmax eta verbose : equilibrium_state d' None tmax eta verbose = equilibrium_state d None tmax eta verbose.
  Proof.
    destruct (ready_ts d W Rd) as (ts&Ets&Hts).
    rewrite (equilibrium_state_unfold d None tmax eta verbose ts) by (auto; exact I).
    rewrite (equilibrium_state_unfold d' None tmax eta verbose ts) by (first [exact I | now rewrite sb_ts | auto using sb_ready]).
    destruct (Z.to_nat tmax) as [|n]; [reflexivity|]. cbn [iterate].
    assert (F := first_sweep ts Hts). cbn [after bind Nat.eqb negb] in F. cbn [Nat.eqb negb]. rewrite F.
    destruct (sweep d ts None false (init_state d)) as [s|] eqn:Es; cbn [bind]; auto.
    rewrite same_iterate; auto. eapply sweep_inv; eauto. apply inv_init.
  Qed.
End Coords.

Section Theorem66.
  Context {T : Type} `{NumOps T}.
  Implicit Types (d : diagram T).

  (** C66: the coordinates a topology gives to the nodes that are not first on a trail have
      no effect on form finding: two topologies that differ in them at most have the same
      outcome, the same error or the same form. *)
  Lemma c66_origins_only : forall d d' tmax eta verbose, reachable d -> ready d -> reachable d' ->
    same_but_coordinates d d' ->
    (forall key tr, In (key, tr) (trails d) -> node_coordinates d' key = node_coordinates d key) ->
    match static_equilibrium d None tmax eta verbose, static_equilibrium d' None tmax eta verbose with
    | Ok form, Ok form' => same_but_coordinates form form'
        /\ forall n, node_coordinates form' n = node_coordinates form n
    | Err e, Err e' => e' = e
    | _, _ => False
    end.
  Proof.
    intros d d' tmax eta verbose R Rd R' Sb Same. assert (W := reachable_wf d R). assert (W' := reachable_wf d' R').
    assert (E := same_state d d' W W' Sb Rd Same tmax eta verbose).
    destruct (static_equilibrium d None tmax eta verbose) as [form|e] eqn:E1.
    - destruct (static_Ok d None tmax eta verbose form W E1) as (st&Es&Is&N&Ed&Hn&He&Ha&_&_&_&Ht).
      assert (Es' : equilibrium_state d' None tmax eta verbose = Ok st) by congruence.
      destruct (static_of_state d' None tmax eta verbose st W' Es') as [form' E2]. rewrite E2.
      destruct (static_Ok d' None tmax eta verbose form' W' E2) as (st2&Es2&_&N'&Ed'&Hn'&He'&Ha'&_&_&_&Ht').
      assert (st2 = st) by congruence. subst st2.
      assert (Q : forall n, match dget (d_node d) n, dget (d_node d') n with
        | Some a, Some a' => na_load a' = na_load a /\ na_reac a' = na_reac a /\ opt_is ntype_eqb (na_type a') TSupport = opt_is ntype_eqb (na_type a) TSupport /\ na_k a' = na_k a
        | None, None => True | _, _ => False end).
      { intros n. assert (I : In n (nodes d') <-> In n (nodes d)) by now rewrite (sb_nodes _ _ Sb).
        assert (L := sb_load _ _ Sb n). assert (Re := sb_reaction _ _ Sb n). assert (Ty := sb_support _ _ Sb n).
        assert (K := sb_kof d d' Sb n). unfold kof in K. unfold is_node_support, node_load, reaction_force, node_get, dgetr in *.
        destruct (dget (d_node d) n) as [a|], (dget (d_node d') n) as [a'|]; cbn in *; try discriminate; auto.
        repeat split; congruence. }
      assert (G : forall n, match dget (d_node form) n, dget (d_node form') n with
        | Some a, Some a' => na_load a' = na_load a /\ na_reac a' = na_reac a
            /\ opt_is ntype_eqb (na_type a') TSupport = opt_is ntype_eqb (na_type a) TSupport /\ na_k a' = na_k a
            /\ (In n (nodes d) -> na_xyz a' = na_xyz a)
        | None, None => True | _, _ => False end).
      { intros n. rewrite Hn, Hn'. specialize (Q n). destruct (dget (d_node d) n) as [a|], (dget (d_node d') n) as [a'|]; auto.
        destruct Q as (Q1&Q2&Q3&Q4). unfold node_after. repeat split;
        try solve [destruct (dget (s_xyz st) n), (dget (s_reac st) n); cbn; auto].
        intros I. rewrite <- (iv_xyz _ _ Is) in I. apply In_keys_dget in I as [p Ep]. rewrite Ep.
        destruct (dget (s_reac st) n); reflexivity. }
      assert (GN : forall n, dget (d_node form) n <> None -> In n (nodes d)).
      { intros n X. rewrite Hn in X. destruct (dget (d_node d) n) eqn:Y; [|congruence]. apply dget_In_keys in Y. exact Y. }
      split.
      + assert (GE : forall e, edge_find form' e = edge_find form e).
        { intros e. rewrite He, He'. now rewrite (sb_find d d' Sb). }
        constructor.
        * rewrite N', N. apply Sb.
        * rewrite Ed', Ed. apply Sb.
        * unfold trails. now rewrite Ht, Ht'.
        * intros n. assert (X := sb_neighbors _ _ Sb n). unfold neighbors in *. now rewrite Ha, Ha'.
        * intros n. specialize (G n). unfold is_node_support, node_get, dgetr.
          destruct (dget (d_node form) n), (dget (d_node form') n); cbn; try contradiction; auto. f_equal. apply G.
        * intros n. specialize (G n). unfold node_load, node_get, dgetr.
          destruct (dget (d_node form) n), (dget (d_node form') n); cbn; try contradiction; auto. f_equal. apply G.
        * intros n. specialize (G n). unfold reaction_force, node_get, dgetr.
          destruct (dget (d_node form) n), (dget (d_node form') n); cbn; try contradiction; auto. f_equal. apply G.
        * intros n. specialize (G n). unfold node_sequence, node_get, dgetr.
          destruct (dget (d_node form) n), (dget (d_node form') n); cbn; try contradiction; auto.
          destruct G as (_&_&_&->&_). reflexivity.
        * intros e. unfold edge_get. now rewrite GE.
      + intros n. specialize (G n). specialize (GN n). unfold node_coordinates, node_get, dgetr.
        destruct (dget (d_node form) n), (dget (d_node form') n); cbn; try contradiction; auto. f_equal. apply G.
        apply GN. discriminate.
    - destruct (equilibrium_state d None tmax eta verbose) as [st|e0] eqn:Es.
      { destruct (static_of_state d None tmax eta verbose st W Es) as [f Ef]. congruence. }
      unfold static_equilibrium in *. rewrite Es in E1. rewrite E. cbn in *. congruence.
  Qed.
End Theorem66.
