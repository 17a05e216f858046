(** * What influences what *)

From Coq Require Import String List ZArith Bool Lia Permutation Reals Lra.
From Verif Require Import Py PyFacts Num Diagram DiagramFacts Topology SpecDiagram SpecTopology
  TopologyFacts BuildFacts ChainFacts ChainFacts2 History HistoryFacts DiagramThms TopologyThms SequenceThms
  Equilibrium SpecEquilibrium EqFacts FormFacts ReadyThms RVec EqThms CoordsThms SpecStatics TypedFacts StaticsFacts SpecInfluence.
Import ListNotations.
Open Scope Z_scope.

Section Core.
  Context {T : Type} `{NumOps T}.
  Implicit Types (d : diagram T).

  Lemma begins_first d n : ready d -> (begins d n <-> exists tr, In (n, tr) (trails d)).
  Proof.
    intros R. split.
    - intros (tr&I&[r E]). apply In_stored in I as [key I]. destruct (rd_keys _ R key tr I) as [r' E'].
      exists tr. assert (key = n) by congruence. now subst.
    - intros [tr I]. exists tr. split; [apply In_stored; eauto|]. now apply (rd_keys _ R).
  Qed.

  Lemma begins_or_follows d n : ready d -> In n (nodes d) -> begins d n \/ exists m, follows d m n.
  Proof.
    intros R I. destruct (first_or_follows d n R I) as [(key&tr&J&->)|J]; [left|now right].
    apply begins_first; eauto.
  Qed.

  Lemma begins_not_follows d n m : ready d -> begins d n -> ~ follows d m n.
  Proof. intros R B. apply begins_first in B as [tr B]; auto. eapply first_not_follows; eauto. Qed.

  Lemma begins_in d n : ready d -> begins d n -> In n (nodes d).
  Proof. intros R (tr&I&[r E]). apply (trail_node d tr); auto. rewrite E. now left. Qed.

  (** Membership of the deviation edges of a node. *)
  Lemma direct_cind d n : wf d -> ready d -> In n (nodes d) -> direct_at d n -> cind d n = [].
  Proof.
    intros W R I Di. destruct (cind_spec d n W (ch_simple _ _ (rd_chains _ R)) (ready_sequenced d R) I) as (_&_&M).
    destruct (cind d n) as [|e l]; auto. exfalso. destruct (proj1 (M e) (or_introl eq_refl)) as (Ie&B&En).
    unfold indir_b in B. apply In_edges, has_edge_find in Ie as [a Ea]; auto. rewrite Ea in B.
    assert (X : deviation_at d n e).
    { split; auto. apply In_deviation_edges; auto. exists a. split; auto. apply opt_is_dev. now apply andb_true_iff in B as [B _]. }
    specialize (Di e X). apply andb_true_iff in B as [_ B].
    destruct (wf_eends _ W _ _ Ea) as [I1 I2].
    destruct (ready_kof d _ R I1) as (j&Ej&_). destruct (ready_kof d _ R I2) as (k&Ek&_).
    assert (Y : node_sequence d (fst e) = Ok j) by now apply seq_kof.
    assert (Y' : node_sequence d (snd e) = Ok k) by now apply seq_kof.
    rewrite Ej, Ek in B. rewrite Y, Y' in Di. injection Di as ->. rewrite Z.eqb_refl in B. discriminate.
  Qed.

  Lemma cdir_In d n e : wf d -> ready d -> In n (nodes d) -> direct_at d n -> (In e (cdir d n) <-> deviation_at d n e).
  Proof.
    intros W R I Di. destruct (cdir_spec d n W (ch_simple _ _ (rd_chains _ R)) (ready_sequenced d R) I) as (_&_&M).
    rewrite M. unfold deviation_at, dir_b. split.
    - intros (Ie&B&En). split; auto. apply In_edges, has_edge_find in Ie as [a Ea]; auto. rewrite Ea in B.
      apply In_deviation_edges; auto. exists a. split; auto. apply opt_is_dev. now apply andb_true_iff in B as [B _].
    - intros (Ie&En). assert (X := Di e (conj Ie En)). apply In_deviation_edges in Ie as (a&Ea&Ta); auto. split; [|split; auto].
      + apply In_edges, has_edge_find; eauto.
      + rewrite Ea. apply andb_true_iff. split; [now apply opt_is_dev|].
        destruct (wf_eends _ W _ _ Ea) as [I1 I2].
        destruct (ready_kof d _ R I1) as (j&Ej&_). destruct (ready_kof d _ R I2) as (k&Ek&_).
        rewrite (proj2 (seq_kof d _ j) Ej), (proj2 (seq_kof d _ k) Ek) in X. injection X as ->.
        rewrite Ej, Ek. apply Z.eqb_refl.
  Qed.

  (** ** Two computations that agree on corresponding nodes *)

  Context (d d' : diagram T) (W : wf d) (W' : wf d') (Rd : ready d) (Rd' : ready d').
  Context (ind ind' : bool) (s0 s0' st st' : eqstate T).
  Context (Sw : swept d None ind s0 st) (Sw' : swept d' None ind' s0' st').
  Context (M : Z -> Z -> Prop).

  (** What [n] and [n'] put out is the same if the positions of corresponding nodes of the same
      sequence are. *)
  Definition alike (n n' : Z) : Prop :=
    qo d' n' = qo d n /\ cind d n = [] /\ cind d' n' = []
    /\ forall X X', (forall x x', M x x' -> kof d x = kof d n -> xg X' x' = xg X x) ->
         dev_sum d' X' n' (cdir d' n') = dev_sum d X n (cdir d n).

  Lemma alike_rout n n' rin w w' i i' : In n (nodes d) -> In n' (nodes d') -> alike n n' ->
    (forall m k j, kof d n = Some k -> kof d m = Some j -> j <= k -> dget w m = dget (s_xyz st) m) ->
    (forall m k j, kof d' n' = Some k -> kof d' m = Some j -> j <= k -> dget w' m = dget (s_xyz st') m) ->
    (forall x x', M x x' -> kof d x = kof d n -> xg (s_xyz st') x' = xg (s_xyz st) x) ->
    rout d' n' rin w' i' = rout d n rin w i.
  Proof.
    intros I I' (Q&C&C'&D) A A' X. unfold rout. rewrite C, C', Q.
    rewrite (direct_final d n w (s_xyz st)), (direct_final d' n' w' (s_xyz st')) by auto.
    rewrite (D (s_xyz st) (s_xyz st')) by auto. now destruct i, i'.
  Qed.

  Context (Mn : forall n n', M n n' -> In n (nodes d) /\ In n' (nodes d')).
  Context (Mb : forall n n', M n n' -> begins d n ->
    xg (s_xyz st') n' = xg (s_xyz st) n /\ xg (s_res st') n' = xg (s_res st) n).
  Context (Mf : forall n m m', M m m' -> follows d n m -> exists n', M n n' /\ follows d' n' m' /\ alike n n'
    /\ ea_length (ea d' (trail_edge_key d' n' m')) = ea_length (ea d (trail_edge_key d n m))
    /\ ea_plane (ea d' (trail_edge_key d' n' m')) = ea_plane (ea d (trail_edge_key d n m))).

  Lemma follows_goes e n m : wf e -> ready (T:=T) e -> follows e n m -> stops e None n = false.
  Proof.
    intros We Re F. unfold stops. rewrite orb_false_r. destruct (is_sup e n) eqn:S; auto.
    exfalso. exact (sup_not_follows e n m We Re S F).
  Qed.

  Lemma core : forall m m', M m m' ->
    xg (s_xyz st') m' = xg (s_xyz st) m /\ xg (s_res st') m' = xg (s_res st) m.
  Proof.
    assert (Q : forall k m m', M m m' -> kof d m = Some (Z.of_nat k) ->
      xg (s_xyz st') m' = xg (s_xyz st) m /\ xg (s_res st') m' = xg (s_res st) m).
    { induction k as [k IH] using (well_founded_induction Wf_nat.lt_wf). intros m m' Mm Ek.
      destruct (Mn m m' Mm) as [I I']. destruct (begins_or_follows d m Rd I) as [B|[n F]]; [now apply Mb|].
      destruct (Mf n m m' Mm F) as (n'&Mn'&F'&Al&El&Ep). destruct (Mn n n' Mn') as [J J'].
      destruct (ready_kof d n Rd J) as (j&Ej&Pj). assert (E1 := proj1 (follows_kof d n m j Rd F) Ej).
      rewrite Ek in E1. injection E1 as E1.
      assert (IH' : forall x x', M x x' -> kof d x = kof d n ->
        xg (s_xyz st') x' = xg (s_xyz st) x /\ xg (s_res st') x' = xg (s_res st) x).
      { intros x x' Mx Ex. apply (IH (Z.to_nat j)); auto; [lia|]. rewrite Ex, Ej. f_equal. lia. }
      destruct (IH' n n' Mn' eq_refl) as [P1 P2].
      destruct (sw_visit _ _ _ _ _ Sw n J) as (w&_&_&A&V). destruct (sw_visit _ _ _ _ _ Sw' n' J') as (w'&_&_&A'&V').
      cbn zeta in V, V'. destruct V as [_ V]. destruct V' as [_ V'].
      destruct (V m (follows_goes d n m W Rd F) F) as (X1&X2&_).
      destruct (V' m' (follows_goes d' n' m' W' Rd' F') F') as (Y1&Y2&_).
      assert (Er : rout d' n' (xg (s_res st') n') w' ind' = rout d n (xg (s_res st) n) w ind).
      { rewrite P2. apply alike_rout; auto. intros x x' Mx Ex. now apply IH'. }
      rewrite X1, X2, Y1, Y2, Er, P1. split; auto. do 2 f_equal. unfold lout, trail_edge_length. now rewrite El, Ep. }
    intros m m' Mm. destruct (Mn m m' Mm) as [I _]. destruct (ready_kof d m Rd I) as (k&Ek&Pk).
    apply (Q (Z.to_nat k)); auto. now rewrite Z2Nat.id.
  Qed.

  Lemma core_force n m m' : M m m' -> follows d n m -> exists n', M n n' /\ follows d' n' m'
    /\ dget (s_tforce st') (trail_edge_key d' n' m') = dget (s_tforce st) (trail_edge_key d n m).
  Proof.
    intros Mm F. destruct (Mf n m m' Mm F) as (n'&Mn'&F'&Al&El&Ep). exists n'. split; auto. split; auto.
    destruct (Mn n n' Mn') as [J J']. destruct (core n n' Mn') as [P1 P2].
    destruct (sw_visit _ _ _ _ _ Sw n J) as (w&_&_&A&V). destruct (sw_visit _ _ _ _ _ Sw' n' J') as (w'&_&_&A'&V').
    cbn zeta in V, V'. destruct V as [_ V]. destruct V' as [_ V'].
    destruct (V m (follows_goes d n m W Rd F) F) as (_&_&X&_).
    destruct (V' m' (follows_goes d' n' m' W' Rd' F') F') as (_&_&Y&_).
    assert (Er : rout d' n' (xg (s_res st') n') w' ind' = rout d n (xg (s_res st) n) w ind).
    { rewrite P2. apply alike_rout; auto. intros x x' Mx _. now apply core. }
    rewrite X, Y, Er, P1. do 2 f_equal. unfold lout, trail_edge_length. now rewrite El, Ep.
  Qed.

  Lemma core_reaction n n' : M n n' -> alike n n' -> is_sup d n = true -> is_sup d' n' = true ->
    dget (s_reac st') n' = dget (s_reac st) n.
  Proof.
    intros Mn' Al S S'. destruct (Mn n n' Mn') as [J J']. destruct (core n n' Mn') as [P1 P2].
    destruct (sw_visit _ _ _ _ _ Sw n J) as (w&_&_&A&V). destruct (sw_visit _ _ _ _ _ Sw' n' J') as (w'&_&_&A'&V').
    cbn zeta in V, V'. destruct V as [V _]. destruct V' as [V' _].
    rewrite V, V' by (unfold stops; now rewrite ?S, ?S'). f_equal. rewrite P2. apply alike_rout; auto.
    intros x x' Mx _. now apply core.
  Qed.
End Core.

Section Run.
  Context {T : Type} `{NumOps T}.
  Implicit Types (d : diagram T).

  (** The queries of a form in terms of the containers of the last iteration. *)
  Record found d (st : eqstate T) (form : diagram T) : Prop := {
    fd_nodes : nodes form = nodes d;
    fd_edges : edges form = edges d;
    fd_position : forall n, In n (nodes d) -> node_coordinates form n = Ok (xg (s_xyz st) n);
    fd_reaction : forall n, In n (nodes d) -> reaction_force form n = Ok (xg (s_reac st) n);
    fd_force : forall e, In e (edges d) ->
      edge_force form e = Ok (match dget (s_tforce st) e with Some x => x | None => fo d e end);
    fd_begins : forall n, begins d n -> node_coordinates d n = Ok (xg (s_xyz st) n) /\ xg (s_res st) n = vzero;
    fd_idle : forall n, is_sup d n = false -> dget (s_reac st) n = None
  }.

  Lemma static_found d tmax eta verbose form : wf d -> ready d ->
    static_equilibrium d None tmax eta verbose = Ok form ->
    exists ind s0 st, swept d None ind s0 st /\ found d st form.
  Proof.
    intros W R E. destruct (static_Ok d None tmax eta verbose form W E) as (st&Es&I&N&Ed&An&Ae&_).
    apply equilibrium_state_Ok in Es as (ts&t&Ets&_&A&B&_).
    destruct (ready_ts d W R) as (ts'&Ets'&Hts). rewrite Ets in Ets'. injection Ets' as <-.
    destruct t as [|t]; [lia|]. destruct (after_total d ts None W R Hts t) as (s0&E0&I0).
    exists (negb (t =? 0)%nat), s0, st. split; [eapply after_swept; eauto|].
    destruct (after_fixed d ts None (S t) st W R Hts A) as (Fx&Fr&_).
    constructor; auto.
    - intros n J. unfold node_coordinates, node_get, dgetr. rewrite An. assert (J' := J).
      apply In_keys_dget in J' as [a Ea]. rewrite Ea. cbn. unfold node_after, xg.
      rewrite <- (iv_xyz _ _ I) in J. apply In_keys_dget in J as [p Ep]. rewrite Ep. now destruct (dget (s_reac st) n).
    - intros n J. assert (Q := rd_reactions _ R n J). unfold reaction_force, node_get, dgetr in *. rewrite An.
      apply In_keys_dget in J as [a Ea]. rewrite Ea in *. cbn in *. unfold node_after, xg.
      injection Q as Q. destruct (dget (s_xyz st) n), (dget (s_reac st) n); cbn; congruence.
    - intros e J. unfold edge_force, edge_get, fo. rewrite Ae. apply In_edges, has_edge_find in J as [a Ea]; auto.
      rewrite Ea. cbn. unfold force_after. now destruct (dget (s_tforce st) e).
    - intros n Bn. assert (J := begins_in d n R Bn).
      destruct (Fx n J) as [X Y]; [intros m F; destruct (begins_not_follows d n m R Bn F)|].
      unfold xg. rewrite X, Y. split; auto. cbn. rewrite dget_map. apply In_keys_dget in J as [a Ea].
      unfold node_coordinates, node_get, dgetr. now rewrite Ea.
    - intros n Sn. apply Fr. unfold stops. now rewrite Sn.
  Qed.

  Lemma segment_attrs d d' n m n' m' : wf d -> wf d' -> ready d -> ready d' -> follows d n m -> follows d' n' m' ->
    same_segment d d' n m n' m' ->
    ea_length (ea d' (trail_edge_key d' n' m')) = ea_length (ea d (trail_edge_key d n m))
    /\ ea_plane (ea d' (trail_edge_key d' n' m')) = ea_plane (ea d (trail_edge_key d n m)).
  Proof.
    intros W W' R R' F F' S. destruct (trail_key_edge d n m W R F) as (a&Ea&_&B).
    destruct (trail_key_edge d' n' m' W' R' F') as (a'&Ea'&_&B').
    destruct (S _ _ B B') as [E1 E2]. unfold edge_length_2, edge_plane, edge_get in E1, E2. rewrite Ea, Ea' in *. cbn in *.
    unfold ea. rewrite Ea, Ea'. split; congruence.
  Qed.

  Lemma load_qo d d' n n' : In n (nodes d) -> In n' (nodes d') -> node_load d' n' = node_load d n -> qo d' n' = qo d n.
  Proof.
    intros I I' E. unfold node_load, node_get, dgetr in E. unfold qo. apply In_keys_dget in I as [a Ea].
    apply In_keys_dget in I' as [a' Ea']. rewrite Ea, Ea' in *. cbn in E. congruence.
  Qed.

  Lemma force_fo d d' e e' : wf d -> wf d' -> In e (edges d) -> In e' (edges d') -> edge_force d' e' = edge_force d e ->
    fo d' e' = fo d e.
  Proof.
    intros W W' I I' E. unfold edge_force, edge_get in E. unfold fo. apply In_edges, has_edge_find in I as [a Ea]; auto.
    apply In_edges, has_edge_find in I' as [a' Ea']; auto. rewrite Ea, Ea' in *. cbn in E. congruence.
  Qed.

  Lemma deviation_at_edge d n e : wf d -> deviation_at d n e -> In e (edges d).
  Proof.
    intros W [I _]. apply In_deviation_edges in I as (a&Ea&_); auto. apply In_edges, has_edge_find; eauto.
  Qed.

  (** ** The same structure with other data downstream *)

  Section Upstream.
    Context (d d' : diagram T) (W : wf d) (W' : wf d') (Rd : ready d) (Rd' : ready d') (S : Z -> Prop).
    Context (Su : same_upstream S d d').

    Lemma su_has e : has_edge d' e = has_edge d e.
    Proof.
      destruct (has_edge d e) eqn:E, (has_edge d' e) eqn:E'; auto; exfalso.
      - apply (In_edges d e W) in E. rewrite <- (su_edges _ _ _ Su) in E. apply In_edges in E; auto. congruence.
      - apply (In_edges d' e W') in E'. rewrite (su_edges _ _ _ Su) in E'. apply In_edges in E'; auto. congruence.
    Qed.

    Lemma su_connected n : connected_edges d' n = connected_edges d n.
    Proof.
      unfold connected_edges. rewrite (su_neighbors _ _ _ Su). destruct (neighbors d n) as [nb|e] eqn:En; cbn [bind]; auto.
      unfold neighbors, dgetr in En. destruct (dget (d_adj d) n) as [x|] eqn:Q; [|discriminate]. apply dget_In_keys in Q.
      rewrite (wf_akeys _ W) in Q. assert (Q' : In n (nodes d')) by now rewrite (su_nodes _ _ _ Su).
      destruct (wf_edge_dict d n W Q) as [out Eo]. destruct (wf_edge_dict d' n W' Q') as [out' Eo'].
      unfold dgetr. rewrite Eo, Eo'. cbn [bind]. f_equal. apply map_ext. intros m.
      assert (X : dmem out' m = dmem out m).
      { assert (Y := su_has (n, m)). unfold has_edge in Y.
        rewrite (edge_find_dict d n m out), (edge_find_dict d' n m out') in Y by auto.
        unfold dmem. destruct (dget out m), (dget out' m); auto. }
      now rewrite X.
    Qed.

    Lemma su_cdir n : cdir d' n = cdir d n.
    Proof.
      unfold cdir, connected_direct_deviation_edges, connected_edges_predicate. rewrite su_connected.
      destruct (connected_edges d n) as [l|]; cbn [bind]; auto.
      rewrite (filter_res_same _ (is_direct_deviation_edge d)); auto. intros e.
      unfold is_direct_deviation_edge, is_deviation_edge_predicate, edge_sequence.
      now rewrite (su_deviation _ _ _ Su), !(su_sequence _ _ _ Su).
    Qed.

    Lemma su_dev e : In e (deviation_edges d') <-> In e (deviation_edges d).
    Proof.
      assert (Q : forall x y : diagram T, wf x -> wf y -> (forall e, is_deviation_edge (T:=T) x e = is_deviation_edge y e) ->
        In e (deviation_edges x) -> In e (deviation_edges y)).
      { intros x y Wx Wy E I. apply In_deviation_edges in I as (a&Ea&Ta); auto. specialize (E e).
        unfold is_deviation_edge, edge_get in E. rewrite Ea in E. cbn [bind] in E. rewrite Ta in E. cbn in E.
        destruct (edge_find y e) as [b|] eqn:Eb; [|discriminate]. cbn in E.
        apply In_deviation_edges; auto. exists b. split; auto. apply opt_is_dev. congruence. }
      split; apply Q; auto; intros x; rewrite (su_deviation _ _ _ Su); auto.
    Qed.

    Lemma su_tr e : In e (trail_edges d') <-> In e (trail_edges d).
    Proof.
      assert (Q : forall x y : diagram T, wf x -> wf y -> (forall e, is_trail_edge (T:=T) x e = is_trail_edge y e) ->
        In e (trail_edges x) -> In e (trail_edges y)).
      { intros x y Wx Wy E I. apply In_trail_edges in I as (a&Ea&Ta); auto. specialize (E e).
        unfold is_trail_edge, edge_get in E. rewrite Ea in E. cbn [bind] in E. rewrite Ta in E. cbn in E.
        destruct (edge_find y e) as [b|] eqn:Eb; [|discriminate]. cbn in E.
        apply In_trail_edges; auto. exists b. split; auto. destruct (ea_type b) as [[]|]; cbn in E; congruence. }
      split; apply Q; auto; intros x; rewrite (su_trail _ _ _ Su); auto.
    Qed.

    Lemma su_follows n m : follows d' n m <-> follows d n m.
    Proof. unfold follows, stored. now rewrite (su_trails _ _ _ Su). Qed.

    Lemma su_deviation_at n e : deviation_at d' n e <-> deviation_at d n e.
    Proof. unfold deviation_at. now rewrite su_dev. Qed.

    Lemma su_direct_at n : direct_at d n -> direct_at d' n.
    Proof. intros D e I. apply su_deviation_at in I. rewrite !(su_sequence _ _ _ Su). now apply D. Qed.

    Lemma su_between n m e : edge_between d' n m e <-> edge_between d n m e.
    Proof. unfold edge_between. now rewrite su_tr. Qed.

    Lemma su_alike n m : upstream d S -> follows d n m -> S m ->
      alike d d' (fun x y => x = y /\ S x /\ In x (nodes d)) n n.
    Proof.
      intros U F Sm. destruct (U n m F Sm) as (Sn&Di&Fa). destruct (follows_nodes d n m Rd F) as [I _].
      assert (I' : In n (nodes d')) by now rewrite (su_nodes _ _ _ Su).
      split; [apply load_qo; auto; now apply (su_load _ _ _ Su n m)|].
      split; [apply direct_cind; auto|]. split; [apply direct_cind; auto; now apply su_direct_at|].
      intros X X' E. rewrite su_cdir. destruct (ready_kof d n Rd I) as (k&Ek&_).
      assert (En : xg X' n = xg X n) by (apply E; auto).
      assert (Q : forall e, In e (cdir d n) -> dpull d' X' n e = dpull d X n e).
      { intros e Ie. assert (De : deviation_at d n e) by (apply cdir_In; auto). unfold dpull. rewrite En.
        assert (Ex := deviation_at_edge d n e W De). assert (Ex' : In e (edges d')) by now rewrite (su_edges _ _ _ Su).
        rewrite (force_fo d d' e e) by (auto; apply (su_force _ _ _ Su n m); auto).
        rewrite (E (other e n) (other e n)); auto.
        - split; auto. rewrite <- far_other. split; auto.
          apply In_edges, has_edge_find in Ex as [a Ea]; auto. destruct (wf_eends _ W _ _ Ea) as [I1 I2].
          unfold far_end. now destruct (fst e =? n).
        - destruct (cdir_kof d n e k W Rd I Ie Ek) as [K1 K2]. unfold other. rewrite Ek. now destruct (negb (fst e =? n)). }
      unfold dev_sum. generalize (@vzero T _). revert Q. generalize (cdir d n). induction l as [|e l IH]; intros Q r; cbn [fold_left]; auto.
      rewrite (Q e) by now left. apply IH. intros x J. apply Q. now right.
    Qed.
  End Upstream.

  (** C75: what comes later on the trails, or is not connected, has no influence.  If two
      topologies agree on a set of nodes that is closed under predecessors and the deviation
      edges of these, form finding puts the nodes of the set in the same places, with the
      same forces in the trail edges that lead to them, whatever the rest. *)
  Lemma c75_upstream : forall d d' (S : Z -> Prop) tmax eta verbose tmax' eta' verbose' form form',
    reachable d -> ready d -> reachable d' -> ready d' -> upstream d S -> same_upstream S d d' ->
    static_equilibrium d None tmax eta verbose = Ok form ->
    static_equilibrium d' None tmax' eta' verbose' = Ok form' ->
    (forall n, In n (nodes d) -> S n -> node_coordinates form' n = node_coordinates form n)
    /\ (forall n m e, follows d n m -> S m -> edge_between d n m e -> edge_force form' e = edge_force form e).
  Proof.
    intros d d' S tmax eta verbose tmax' eta' verbose' form form' Hr R Hr' R' U Su E E'.
    assert (W := reachable_wf d Hr). assert (W' := reachable_wf d' Hr').
    destruct (static_found d tmax eta verbose form W R E) as (ind&s0&st&Sw&Fd).
    destruct (static_found d' tmax' eta' verbose' form' W' R' E') as (ind'&s0'&st'&Sw'&Fd').
    set (M := fun x y : Z => x = y /\ S x /\ In x (nodes d)).
    assert (Mn : forall n n', M n n' -> In n (nodes d) /\ In n' (nodes d')).
    { intros n n' (->&_&I). rewrite (su_nodes _ _ _ Su). auto. }
    assert (Mb : forall n n', M n n' -> begins d n ->
      xg (s_xyz st') n' = xg (s_xyz st) n /\ xg (s_res st') n' = xg (s_res st) n).
    { intros n n' (<-&Sn&I) B. destruct (fd_begins _ _ _ Fd n B) as [X Y].
      assert (B' : begins d' n) by (unfold begins, stored in *; rewrite (su_trails _ _ _ Su); exact B).
      destruct (fd_begins _ _ _ Fd' n B') as [X' Y'].
      rewrite (su_origin _ _ _ Su n Sn B) in X'. split; congruence. }
    assert (Seg : forall n m, follows d n m -> S m -> same_segment d d' n m n m).
    { intros n m F Sm e e' Be Be'. assert (Se := su_segment _ _ _ Su n m e F Sm Be).
      apply (su_between d d' W W' S Su) in Be'.
      assert (e' = e); [|subst; auto]. destruct Be as [Ie Oe]. destruct Be' as [Ie' Oe'].
      assert (Sg := ch_simple _ _ (rd_chains _ R)).
      apply In_trail_edges in Ie as (a&Ea&_); auto. apply In_trail_edges in Ie' as (a'&Ea'&_); auto.
      assert (X : In e (edges d)) by (apply In_edges, has_edge_find; eauto).
      assert (X' : In e' (edges d)) by (apply In_edges, has_edge_find; eauto).
      destruct Oe as [->| ->], Oe' as [->| ->]; auto; exfalso; eapply Sg; eauto. }
    assert (Mf : forall n m m', M m m' -> follows d n m -> exists n', M n n' /\ follows d' n' m' /\ alike d d' M n n'
      /\ ea_length (ea d' (trail_edge_key d' n' m')) = ea_length (ea d (trail_edge_key d n m))
      /\ ea_plane (ea d' (trail_edge_key d' n' m')) = ea_plane (ea d (trail_edge_key d n m))).
    { intros n m m' (<-&Sm&Im) F. destruct (U n m F Sm) as (Sn&_&_). destruct (follows_nodes d n m R F) as [In1 _].
      assert (F' : follows d' n m) by now apply (su_follows d d' S Su).
      exists n. split; [split; auto|]. split; auto. split; [eapply su_alike; eauto|].
      apply segment_attrs; auto. }
    split.
    - intros n I Sn. assert (Mm : M n n) by (split; auto).
      destruct (core d d' W W' R R' ind ind' s0 s0' st st' Sw Sw' M Mn Mb Mf n n Mm) as [X _].
      rewrite (fd_position _ _ _ Fd n I), (fd_position _ _ _ Fd' n) by now rewrite (su_nodes _ _ _ Su). now rewrite X.
    - intros n m e F Sm Be. destruct (follows_nodes d n m R F) as [In1 Im]. assert (Mm : M m m) by (split; auto).
      destruct (core_force d d' W W' R R' ind ind' s0 s0' st st' Sw Sw' M Mn Mb Mf n m m Mm F) as (n'&(<-&_&_)&F'&X).
      assert (Ek : e = trail_edge_key d n m).
      { destruct (trail_key_edge d n m W R F) as (a&Ea&_&[_ Bk]). destruct Be as [Ie Oe].
        apply In_trail_edges in Ie as (b&Eb&_); auto. assert (Sg := ch_simple _ _ (rd_chains _ R)).
        assert (X1 : In e (edges d)) by (apply In_edges, has_edge_find; eauto).
        assert (X2 : In (trail_edge_key d n m) (edges d)) by (apply In_edges, has_edge_find; eauto).
        destruct Oe as [->| ->], Bk as [Q|Q]; rewrite Q in *; auto; exfalso; eapply Sg; eauto. }
      assert (Ek' : trail_edge_key d' n m = trail_edge_key d n m)
        by (unfold trail_edge_key; now rewrite (su_has d d' W W' S Su)).
      destruct (trail_key_edge d n m W R F) as (a&Ea&_). assert (Ie : In e (edges d)) by (rewrite Ek; apply In_edges, has_edge_find; eauto).
      assert (Ie' : In e (edges d')) by now rewrite (su_edges _ _ _ Su).
      rewrite (fd_force _ _ _ Fd e Ie), (fd_force _ _ _ Fd' e Ie'). rewrite Ek' in X. rewrite Ek, X.
      destruct (sw_visit _ _ _ _ _ Sw n In1) as (w&_&_&_&V). cbn zeta in V. destruct V as [_ V].
      destruct (V m (follows_goes d n m W R F) F) as (_&_&Y&_). now rewrite Y.
  Qed.

  Lemma up_to_upstream d k : direct_only d -> wf d -> ready d -> upstream d (up_to d k).
  Proof.
    intros Di W R n m F (j&Ej&L). destruct (follows_nodes d n m R F) as [I _].
    destruct (ready_kof d n R I) as (i&Ei&_). assert (Em := proj1 (follows_kof d n m i R F) Ei). apply seq_kof in Em.
    assert (j = i + 1) by congruence. subst j. apply seq_kof in Ei.
    assert (Da : direct_at d n) by (intros [u v] [Ie _]; now apply Di).
    split; [exists i; split; auto; lia|]. split; auto. intros e De. specialize (Da e De). destruct De as [_ Oe].
    exists i. split; [|lia]. unfold far_end. destruct (Z.eqb_spec (fst e) n) as [Q|Q]; [congruence|].
    destruct Oe; [congruence|]. congruence.
  Qed.

  Lemma late_same d k o : reachable d -> ready d -> direct_only d -> late d k o -> same_upstream (up_to d k) d (fst (call o d)).
  Proof.
    intros Hr R Di L. assert (W := reachable_wf d Hr).
    assert (Refl : same_upstream (up_to d k) d d) by (constructor; auto).
    assert (Seq : forall n m, follows d n m -> up_to d k m -> exists i, node_sequence d n = Ok i /\ i < k).
    { intros n m F (j&Ej&Lj). destruct (follows_nodes d n m R F) as [I _].
      destruct (ready_kof d n R I) as (i&Ei&_). assert (Em := proj1 (follows_kof d n m i R F) Ei). apply seq_kof in Em.
      apply seq_kof in Ei. exists i. split; auto. assert (j = i + 1) by congruence. lia. }
    destruct o; cbn [late call] in *; try contradiction.
    - (* load *)
      destruct L as (n&j&Ek&Ej&Lj). unfold add_load. rewrite Ek. unfold node_set.
      destruct (dget (d_node d) n) as [a|] eqn:Ea; cbn [fst]; auto.
      assert (Q : forall m, m <> n -> node_get (with_node d (dset (d_node d) n (set_load a q))) m = node_get d m).
      { intros m Ne. unfold node_get, dgetr. cbn [d_node with_node]. rewrite dget_dset. now destruct (eqb_spec m n). }
      assert (Q1 : node_get (with_node d (dset (d_node d) n (set_load a q))) n = Ok (set_load a q)).
      { unfold node_get, dgetr. cbn [d_node with_node]. now rewrite dget_dset_same. }
      assert (Q2 : node_get d n = Ok a) by (unfold node_get, dgetr; now rewrite Ea).
      constructor; auto.
      + unfold nodes. cbn [d_node with_node]. apply dkeys_dset_in. eapply dget_In_keys; eauto.
      + intros m. unfold is_node_support. destruct (Z.eq_dec m n) as [->|Ne]; [now rewrite Q1, Q2|now rewrite Q].
      + intros m. unfold node_sequence. destruct (Z.eq_dec m n) as [->|Ne]; [now rewrite Q1, Q2|now rewrite Q].
      + intros m _ _. unfold node_coordinates. destruct (Z.eq_dec m n) as [->|Ne]; [now rewrite Q1, Q2|now rewrite Q].
      + intros m m' F U. unfold node_load. destruct (Z.eq_dec m n) as [->|Ne]; [|now rewrite Q].
        destruct (Seq n m' F U) as (i&Ei&Li). assert (i = j) by congruence. lia.
    - (* length *)
      destruct L as [Ie Le]. assert (Ie' := Ie). apply In_trail_edges in Ie' as (a&Ea&Ta); auto.
      destruct (edge_set_full d e (fun x => set_length x l) a Ea) as (x&Ex&Ed&Fe). rewrite Ex. cbn [fst].
      assert (Q : forall e' (A : Type) (g : edge_attr T -> A), (e' = e -> g (set_length a l) = g a) ->
        (let* b := edge_get (with_edge d x) e' in Ok (g b)) = (let* b := edge_get d e' in Ok (g b))).
      { intros e' A g G. unfold edge_get. rewrite Fe. destruct (@eqb_spec ekey _ e' e) as [->|Ne]; auto.
        rewrite Ea. cbn. now rewrite G. }
      constructor; auto; cbn [edges with_edge].
      + intros e'. apply Q. auto.
      + intros e'. apply Q. auto.
      + intros n m e' F U De. apply Q. auto.
      + intros n m e' F U Be. destruct (Seq n m F U) as (i&Ei&Li).
        assert (Ne : e' <> e).
        { intros ->. destruct Be as [_ [->| ->]]; cbn in Le; specialize (Le n i); cbn in Le; specialize (Le ltac:(auto) Ei); lia. }
        split; apply Q; congruence.
    - (* force *)
      destruct L as [Ie (j&Ej&Lj)]. assert (Ie' := Ie). apply In_deviation_edges in Ie' as (a&Ea&Ta); auto.
      destruct (edge_set_full d e (fun x => set_force x f) a Ea) as (x&Ex&Ed&Fe). rewrite Ex. cbn [fst].
      assert (Q : forall e' (A : Type) (g : edge_attr T -> A), (e' = e -> g (set_force a f) = g a) ->
        (let* b := edge_get (with_edge d x) e' in Ok (g b)) = (let* b := edge_get d e' in Ok (g b))).
      { intros e' A g G. unfold edge_get. rewrite Fe. destruct (@eqb_spec ekey _ e' e) as [->|Ne]; auto.
        rewrite Ea. cbn. now rewrite G. }
      constructor; auto; cbn [edges with_edge].
      + intros e'. apply Q. auto.
      + intros e'. apply Q. auto.
      + intros n m e' F U De. apply Q. intros ->. exfalso. destruct (Seq n m F U) as (i&Ei&Li).
        destruct De as [Id Oe]. destruct e as [u v]. assert (X := Di u v Id). cbn in Oe, Ej.
        assert (i = j) by (destruct Oe as [<-|<-]; congruence). lia.
      + intros n m e' F U Be. split; apply Q; auto.
  Qed.

  (** On a topology without indirect deviation edges, changing loads, deviation forces and
      trail lengths on sequence [k] or later does not move the nodes up to sequence [k]. *)
  Lemma c75_later : forall d k o tmax eta verbose tmax' eta' verbose' form form',
    reachable d -> ready d -> direct_only d -> late d k o ->
    static_equilibrium d None tmax eta verbose = Ok form ->
    static_equilibrium (fst (call o d)) None tmax' eta' verbose' = Ok form' ->
    forall n j, node_sequence d n = Ok j -> j <= k -> node_coordinates form' n = node_coordinates form n.
  Proof.
    intros d k o tmax eta verbose tmax' eta' verbose' form form' Hr R Di L E E' n j Ej Lj.
    assert (W := reachable_wf d Hr).
    assert (V : valid_op o) by (destruct o; cbn in *; auto; contradiction).
    assert (Hr' : reachable (fst (call o d))) by now apply reachable_step.
    assert (R' : ready (fst (call o d))) by (apply c61_ready_kept; auto; destruct o; cbn in *; auto; contradiction).
    destruct (c75_upstream d (fst (call o d)) (up_to d k) tmax eta verbose tmax' eta' verbose' form form' Hr R Hr' R'
      (up_to_upstream d k Di W R) (late_same d k o Hr R Di L) E E') as [X _].
    apply X; [|exists j; auto].
    apply seq_kof in Ej. unfold kof in Ej. destruct (dget (d_node d) n) eqn:Q; [|discriminate]. apply dget_In_keys in Q. exact Q.
  Qed.
End Run.

(** ** Sums over nodes that correspond, over the real numbers *)

Open Scope R_scope.

Lemma vsum_matched {A B} (M : A -> B -> Prop) (g : A -> rvec) (g' : B -> rvec) :
  (forall a b b', M a b -> M a b' -> b = b') -> (forall a a' b, M a b -> M a' b -> a = a') ->
  (forall a b, M a b -> g' b = g a) -> forall l l', NoDup l -> NoDup l' ->
  (forall a, In a l -> exists b, In b l' /\ M a b) -> (forall b, In b l' -> exists a, In a l /\ M a b) ->
  vsum (map g' l') = vsum (map g l).
Proof.
  intros Fn Ij E. induction l as [|a l IH]; intros l' N N' T B0.
  - destruct l' as [|b l']; auto. destruct (B0 b) as (a&[]&_). now left.
  - destruct (T a) as (b&Ib&Mb); [now left|]. apply in_split in Ib as (l1&l2&->).
    inversion N as [|? ? Na N1]; subst. apply NoDup_remove in N' as [N2 Nb].
    assert (P : Permutation (map g' (l1 ++ b :: l2)) (g' b :: map g' (l1 ++ l2))).
    { rewrite !map_app. cbn [map]. symmetry. apply Permutation_middle. }
    rewrite (vsum_perm _ _ P). cbn [map]. rewrite !vsum_cons, (E a b Mb). f_equal. apply IH; auto.
    + intros x Ix. destruct (T x) as (y&Iy&My); [now right|]. exists y. split; auto.
      apply in_app_iff in Iy as [Iy|[<-|Iy]]; apply in_app_iff; auto. exfalso. apply Na. now rewrite (Ij a x b Mb My).
    + intros y Iy. destruct (B0 y) as (x&Ix&Mx); [apply in_app_iff in Iy as [Iy|Iy]; apply in_app_iff; cbn; auto|].
      destruct Ix as [<-|Ix]; [|eauto]. exfalso. apply Nb. now rewrite (Fn a b y Mb Mx).
Qed.

Section Matched.
  Implicit Types (d : diagram R).

  (** The deviation edges of a node have different far ends. *)
  Lemma far_inj d n e e' : wf d -> ready d -> deviation_at d n e -> deviation_at d n e' -> far_end e n = far_end e' n -> e = e'.
  Proof.
    intros W R De De' E. assert (Sg := ch_simple _ _ (rd_chains _ R)).
    assert (I := deviation_at_edge d n e W De). assert (I' := deviation_at_edge d n e' W De').
    destruct De as [_ O], De' as [_ O']. destruct e as [u v], e' as [u' v']. unfold far_end in E. cbn [fst snd] in *.
    destruct (Z.eqb_spec u n) as [->|N], (Z.eqb_spec u' n) as [->|N'].
    - congruence.
    - destruct O' as [|<-]; [congruence|]. subst v. exfalso. eapply Sg; eauto.
    - destruct O as [|<-]; [congruence|]. subst v'. exfalso. eapply Sg; eauto.
    - destruct O as [|<-]; [congruence|]. destruct O' as [|<-]; [congruence|]. congruence.
  Qed.

  Lemma matched_alike (M : Z -> Z -> Prop) d d' n n' : wf d -> wf d' -> ready d -> ready d' ->
    (forall n a b, M n a -> M n b -> a = b) -> (forall a b n, M a n -> M b n -> a = b) ->
    In n (nodes d) -> In n' (nodes d') -> direct_at d n -> direct_at d' n' -> M n n' -> same_loading M d d' n n' ->
    alike d d' M n n'.
  Proof.
    intros W W' R R' Fn Ij I I' Di Di' Mn [Lo Th Ba].
    split; [now apply load_qo|]. split; [now apply direct_cind|]. split; [now apply direct_cind|].
    intros X X' E. rewrite !dev_sum_vsum.
    destruct (ready_kof d n R I) as (k&Ek&_).
    assert (En : xg X' n' = xg X n) by (apply E; auto).
    set (K := fun e e' : ekey => deviation_at d n e /\ deviation_at d' n' e' /\ M (far_end e n) (far_end e' n')).
    assert (Same : forall e e', K e e' -> edge_force d' e' = edge_force d e).
    { intros e e' (De&De'&Me). destruct (Th e De) as (e2&De2&Me2&F2).
      assert (e2 = e') by (apply (far_inj d' n'); eauto). now subst. }
    apply (vsum_matched K).
    - intros e a b (De&Da&Ma) (_&Db&Mb). apply (far_inj d' n'); eauto.
    - intros a b e (Da&De&Ma) (Db&_&Mb). apply (far_inj d n); eauto.
    - intros e e' Ke. assert (F := Same e e' Ke). destruct Ke as (De&De'&Me). unfold dpull. rewrite En.
      rewrite (force_fo d d' e e') by (auto; eapply deviation_at_edge; eauto).
      rewrite <- !far_other. rewrite (E _ _ Me); auto.
      assert (J : In e (cdir d n)) by (apply cdir_In; auto). destruct (cdir_kof d n e k W R I J Ek) as [K1 K2].
      unfold far_end. rewrite Ek. now destruct (fst e =? n)%Z.
    - apply (cdir_spec d n W (ch_simple _ _ (rd_chains _ R)) (ready_sequenced d R) I).
    - apply (cdir_spec d' n' W' (ch_simple _ _ (rd_chains _ R')) (ready_sequenced d' R') I').
    - intros e Ie. apply cdir_In in Ie; auto. destruct (Th e Ie) as (e'&De'&Me&_). exists e'.
      split; [now apply cdir_In|]. split; auto.
    - intros e' Ie'. apply cdir_In in Ie'; auto. destruct (Ba e' Ie') as (e&De&Me&_). exists e.
      split; [now apply cdir_In|]. split; auto.
  Qed.

  Lemma between_key d n m e : wf d -> ready d -> follows d n m -> edge_between d n m e -> e = trail_edge_key d n m.
  Proof.
    intros W R F Be. destruct (trail_key_edge d n m W R F) as (a&Ea&_&[_ Bk]). destruct Be as [Ie Oe].
    apply In_trail_edges in Ie as (b&Eb&_); auto. assert (Sg := ch_simple _ _ (rd_chains _ R)).
    assert (X1 : In e (edges d)) by (apply In_edges, has_edge_find; eauto).
    assert (X2 : In (trail_edge_key d n m) (edges d)) by (apply In_edges, has_edge_find; eauto).
    destruct Oe as [->| ->], Bk as [Q|Q]; rewrite Q in *; auto; exfalso; eapply Sg; eauto.
  Qed.

  Lemma matched_wf : forall (d d' : diagram R) (M : Z -> Z -> Prop) tmax eta verbose tmax' eta' verbose' form form',
    wf d -> ready d -> wf d' -> ready d' -> matched M d d' ->
    static_equilibrium d None tmax eta verbose = Ok form ->
    static_equilibrium d' None tmax' eta' verbose' = Ok form' ->
    (forall n n', M n n' -> node_coordinates form' n' = node_coordinates form n)
    /\ (forall n m n' m' e e', M m m' -> follows d n m -> follows d' n' m' -> edge_between d n m e -> edge_between d' n' m' e' ->
          edge_force form' e' = edge_force form e)
    /\ (forall n n', M n n' -> is_node_support d n = Ok true -> is_node_support d' n' = Ok true ->
          direct_at d n -> direct_at d' n' -> same_loading M d d' n n' -> reaction_force form' n' = reaction_force form n).
  Proof.
    intros d d' M tmax eta verbose tmax' eta' verbose' form form' W Rd W' Rd' Mt E E'.
    destruct Mt as [Fn Ij Mn Mo Mp].
    destruct (static_found d tmax eta verbose form W Rd E) as (ind&s0&st&Sw&Fd).
    destruct (static_found d' tmax' eta' verbose' form' W' Rd' E') as (ind'&s0'&st'&Sw'&Fd').
    assert (Mb : forall n n', M n n' -> begins d n ->
      xg (s_xyz st') n' = xg (s_xyz st) n /\ xg (s_res st') n' = xg (s_res st) n).
    { intros n n' Mm B. destruct (Mo n n' Mm B) as [B' C]. destruct (fd_begins _ _ _ Fd n B) as [X Y].
      destruct (fd_begins _ _ _ Fd' n' B') as [X' Y']. rewrite C in X'. split; congruence. }
    assert (Mf : forall n m m', M m m' -> follows d n m -> exists n', M n n' /\ follows d' n' m' /\ alike d d' M n n'
      /\ ea_length (ea d' (trail_edge_key d' n' m')) = ea_length (ea d (trail_edge_key d n m))
      /\ ea_plane (ea d' (trail_edge_key d' n' m')) = ea_plane (ea d (trail_edge_key d n m))).
    { intros n m m' Mm F. destruct (Mp n m m' Mm F) as (n'&Mn'&F'&Di&Di'&Sl&Sg). destruct (Mn n n' Mn') as [I I'].
      exists n'. split; auto. split; auto. split; [now apply matched_alike|]. now apply segment_attrs. }
    split; [|split].
    - intros n n' Mm. destruct (Mn n n' Mm) as [I I'].
      destruct (core d d' W W' Rd Rd' ind ind' s0 s0' st st' Sw Sw' M Mn Mb Mf n n' Mm) as [X _].
      now rewrite (fd_position _ _ _ Fd n I), (fd_position _ _ _ Fd' n' I'), X.
    - intros n m n' m' e e' Mm F F' Be Be'.
      destruct (core_force d d' W W' Rd Rd' ind ind' s0 s0' st st' Sw Sw' M Mn Mb Mf n m m' Mm F) as (n2&_&F2&X).
      assert (n2 = n') by (eapply (follows_inj d'); eauto). subst n2.
      rewrite (between_key d n m e W Rd F Be), (between_key d' n' m' e' W' Rd' F' Be').
      destruct (trail_key_edge d n m W Rd F) as (a&Ea&_). destruct (trail_key_edge d' n' m' W' Rd' F') as (a'&Ea'&_).
      rewrite (fd_force _ _ _ Fd), (fd_force _ _ _ Fd') by (apply In_edges, has_edge_find; eauto). rewrite X.
      destruct (follows_nodes d n m Rd F) as [In1 _].
      destruct (sw_visit _ _ _ _ _ Sw n In1) as (w&_&_&_&V). cbn zeta in V. destruct V as [_ V].
      destruct (V m (follows_goes d n m W Rd F) F) as (_&_&Y&_). now rewrite Y.
    - intros n n' Mm S S' Di Di' Sl. destruct (Mn n n' Mm) as [I I'].
      rewrite is_node_support_Ok in S, S' by auto. injection S as S. injection S' as S'.
      assert (X := core_reaction d d' W W' Rd Rd' ind ind' s0 s0' st st' Sw Sw' M Mn Mb Mf n n' Mm
        (matched_alike M d d' n n' W W' Rd Rd' Fn Ij I I' Di Di' Mm Sl) S S').
      rewrite (fd_reaction _ _ _ Fd n I), (fd_reaction _ _ _ Fd' n' I'). unfold xg. now rewrite X.
  Qed.

  (** C75, for two different structures: where the structures correspond, up to names of nodes
      and orders and directions of edges, so do the positions, the trail forces and the
      reactions of their forms. *)
  Lemma c75_matched : forall (d d' : diagram R) (M : Z -> Z -> Prop) tmax eta verbose tmax' eta' verbose' form form',
    reachable d -> ready d -> reachable d' -> ready d' -> matched M d d' ->
    static_equilibrium d None tmax eta verbose = Ok form ->
    static_equilibrium d' None tmax' eta' verbose' = Ok form' ->
    (forall n n', M n n' -> node_coordinates form' n' = node_coordinates form n)
    /\ (forall n m n' m' e e', M m m' -> follows d n m -> follows d' n' m' -> edge_between d n m e -> edge_between d' n' m' e' ->
          edge_force form' e' = edge_force form e)
    /\ (forall n n', M n n' -> is_node_support d n = Ok true -> is_node_support d' n' = Ok true ->
          direct_at d n -> direct_at d' n' -> same_loading M d d' n n' -> reaction_force form' n' = reaction_force form n).
  Proof.
    intros d d' M tmax eta verbose tmax' eta' verbose' form form' Hr Rd Hr' Rd'.
    apply matched_wf; auto; now apply reachable_wf.
  Qed.
End Matched.

Section Renamed.
  Implicit Types (d : diagram R).
  Context (pi : Z -> Z) (d d' : diagram R) (W : wf d) (W' : wf d') (Rd : ready d) (Rd' : ready d').
  Context (Rn : renamed pi d d') (Di : direct_only d).

  Lemma rn_in n : In n (nodes d) -> In (pi n) (nodes d').
  Proof. intros I. eapply Permutation_in; [apply Permutation_sym, (rn_nodes _ _ _ Rn)|]. now apply in_map. Qed.

  Lemma rn_from n' : In n' (nodes d') -> exists n, In n (nodes d) /\ n' = pi n.
  Proof.
    intros I. eapply Permutation_in in I; [|apply (rn_nodes _ _ _ Rn)]. apply in_map_iff in I as (n&<-&I). eauto.
  Qed.

  Lemma rn_inj a b : In a (nodes d) -> In b (nodes d) -> pi a = pi b -> a = b.
  Proof.
    intros Ia Ib E. assert (N : NoDup (map pi (nodes d))).
    { eapply Permutation_NoDup; [apply (rn_nodes _ _ _ Rn)|]. apply W'. }
    clear -Ia Ib E N. induction (nodes d) as [|x l IH]; [destruct Ia|]. cbn in N. inversion N as [|? ? Nx N1]; subst.
    destruct Ia as [->|Ia], Ib as [->|Ib]; auto; exfalso; apply Nx.
    - rewrite E. now apply in_map.
    - rewrite <- E. now apply in_map.
  Qed.

  Lemma rn_stored tr' : In tr' (stored d') <-> exists tr, In tr (stored d) /\ tr' = map pi tr.
  Proof.
    split.
    - intros I. eapply Permutation_in in I; [|apply (rn_trails _ _ _ Rn)]. apply in_map_iff in I as (tr&<-&I). eauto.
    - intros (tr&I&->). eapply Permutation_in; [apply Permutation_sym, (rn_trails _ _ _ Rn)|]. now apply in_map.
  Qed.

  Lemma rn_follows n m : follows d n m -> follows d' (pi n) (pi m).
  Proof.
    intros (tr&I&(l&r&E)). exists (map pi tr). split; [apply rn_stored; eauto|].
    exists (map pi l), (map pi r). rewrite E, map_app. reflexivity.
  Qed.

  Lemma rn_begins n : begins d n -> begins d' (pi n).
  Proof.
    intros (tr&I&(r&E)). exists (map pi tr). split; [apply rn_stored; eauto|]. exists (map pi r). now rewrite E.
  Qed.

  Lemma rn_type e e' : edge_get d' e' = edge_get d e ->
    (In e' (deviation_edges d') <-> In e (deviation_edges d)) /\ (In e' (trail_edges d') <-> In e (trail_edges d)).
  Proof.
    intros E. unfold edge_get in E. rewrite !In_deviation_edges, !In_trail_edges by auto.
    destruct (edge_find d e) as [a|], (edge_find d' e') as [a'|]; try discriminate.
    - injection E as ->. tauto.
    - split; split; intros (x&X&_); discriminate.
  Qed.

  Lemma rn_edge e : In e (edges d) -> exists e', In e' (edges d')
    /\ (e' = (pi (fst e), pi (snd e)) \/ e' = (pi (snd e), pi (fst e))) /\ edge_get d' e' = edge_get d e.
  Proof. destruct e as [u v]. intros I. exact (rn_there _ _ _ Rn u v I). Qed.

  Lemma ends_in_nodes e : In e (edges d) -> In (fst e) (nodes d) /\ In (snd e) (nodes d).
  Proof. intros I. apply In_edges, has_edge_find in I as [a Ea]; auto. exact (wf_eends _ W _ _ Ea). Qed.

  Definition image_node (n n' : Z) : Prop := In n (nodes d) /\ n' = pi n.

  (** An edge at [n] and its image at [pi n]. *)
  Lemma rn_ends e e' n : In e (edges d) -> In n (nodes d) ->
    e' = (pi (fst e), pi (snd e)) \/ e' = (pi (snd e), pi (fst e)) ->
    (fst e = n \/ snd e = n <-> fst e' = pi n \/ snd e' = pi n)
    /\ (fst e = n \/ snd e = n -> far_end e' (pi n) = pi (far_end e n) /\ In (far_end e n) (nodes d)).
  Proof.
    intros I In1 O. destruct (ends_in_nodes e I) as [I1 I2].
    assert (Ne : fst e <> snd e).
    { intros Q. destruct e as [u v]. cbn in Q. subst v. exact (ch_simple _ _ (rd_chains _ Rd) u u I I). }
    assert (A : fst e = n <-> pi (fst e) = pi n) by (split; [congruence|intros; now apply rn_inj]).
    assert (B : snd e = n <-> pi (snd e) = pi n) by (split; [congruence|intros; now apply rn_inj]).
    assert (C : pi (fst e) <> pi (snd e)) by (intros Q; apply Ne; now apply rn_inj).
    split; [destruct O as [->| ->]; cbn [fst snd]; tauto|]. intros At.
    unfold far_end. destruct (Z.eqb_spec (fst e) n) as [Q|Q].
    - destruct O as [->| ->]; cbn [fst snd]; subst n.
      + rewrite Z.eqb_refl. auto.
      + destruct (Z.eqb_spec (pi (snd e)) (pi (fst e))); [congruence|auto].
    - destruct At as [|<-]; [congruence|]. destruct O as [->| ->]; cbn [fst snd].
      + destruct (Z.eqb_spec (pi (fst e)) (pi (snd e))); [congruence|auto].
      + rewrite Z.eqb_refl. auto.
  Qed.

  Lemma rn_direct : direct_only d'.
  Proof.
    intros u' v' I. assert (Ie : In (u', v') (edges d')).
    { apply In_deviation_edges in I as (a&Ea&_); auto. apply In_edges, has_edge_find; eauto. }
    destruct (rn_back _ _ _ Rn _ Ie) as (u&v&Iu&O&Q). destruct (ends_in_nodes _ Iu) as [I1 I2]. cbn [fst snd] in *.
    apply (proj1 (rn_type _ _ Q)) in I. specialize (Di u v I).
    destruct (rn_node _ _ _ Rn u I1) as (_&_&_&_&Su). destruct (rn_node _ _ _ Rn v I2) as (_&_&_&_&Sv).
    destruct O as [O|O]; injection O as -> ->; congruence.
  Qed.

  Lemma direct_only_at (x : diagram R) n : direct_only x -> direct_at x n.
  Proof. intros D [u v] [I _]. now apply D. Qed.

  Lemma rn_loading n : In n (nodes d) -> same_loading image_node d d' n (pi n).
  Proof.
    intros I. constructor.
    - apply (rn_node _ _ _ Rn n I).
    - intros e De. assert (Ie := deviation_at_edge d n e W De). destruct (rn_edge e Ie) as (e'&Ie'&O&Q).
      destruct (rn_ends e e' n Ie I O) as [A B]. destruct De as [Id At]. exists e'. split; [|split].
      + split; [now apply (rn_type e e' Q)|now apply A].
      + destruct (B At) as [-> J]. split; auto.
      + unfold edge_force. now rewrite Q.
    - intros e' De'. assert (Ie' := deviation_at_edge d' (pi n) e' W' De').
      destruct (rn_back _ _ _ Rn e' Ie') as (u&v&Ie&O&Q). destruct (rn_ends (u, v) e' n Ie I O) as [A B].
      destruct De' as [Id At]. apply A in At. exists (u, v). split; [|split].
      + split; auto. now apply (rn_type (u, v) e' Q).
      + destruct (B At) as [-> J]. split; auto.
      + unfold edge_force. now rewrite Q.
  Qed.

  Lemma rn_between n m e' : In n (nodes d) -> In m (nodes d) -> edge_between d' (pi n) (pi m) e' ->
    exists e, edge_between d n m e /\ edge_get d' e' = edge_get d e.
  Proof.
    intros In1 Im [It O]. assert (Ie' : In e' (edges d')).
    { apply In_trail_edges in It as (a&Ea&_); auto. apply In_edges, has_edge_find; eauto. }
    destruct (rn_back _ _ _ Rn e' Ie') as (u&v&Ie&O'&Q). destruct (ends_in_nodes _ Ie) as [I1 I2]. cbn [fst snd] in *.
    exists (u, v). split; auto. split; [now apply (rn_type (u, v) e' Q)|].
    destruct O as [->| ->], O' as [O'|O']; injection O' as X Y; apply rn_inj in X; apply rn_inj in Y; auto; subst; auto.
  Qed.

  Lemma between_unique (x : diagram R) n m e e2 : wf x -> ready x -> edge_between x n m e -> edge_between x n m e2 -> e = e2.
  Proof.
    intros Wx Rx [I O] [I2 O2]. assert (Sg := ch_simple _ _ (rd_chains _ Rx)).
    apply In_trail_edges in I as (a&Ea&_); auto. apply In_trail_edges in I2 as (b&Eb&_); auto.
    assert (X1 : In e (edges x)) by (apply In_edges, has_edge_find; eauto).
    assert (X2 : In e2 (edges x)) by (apply In_edges, has_edge_find; eauto).
    destruct O as [->| ->], O2 as [->| ->]; auto; exfalso; eapply Sg; eauto.
  Qed.

  Lemma rn_matched : matched image_node d d'.
  Proof.
    constructor.
    - intros n a b [_ ->] [_ ->]. auto.
    - intros a b n [Ia ->] [Ib E]. now apply rn_inj.
    - intros n n' [I ->]. split; auto. now apply rn_in.
    - intros n n' [I ->] B. split; [now apply rn_begins|]. apply (rn_node _ _ _ Rn n I).
    - intros n m m' [Im ->] F. destruct (follows_nodes d n m Rd F) as [In1 _]. exists (pi n).
      split; [split; auto|]. split; [now apply rn_follows|]. split; [now apply direct_only_at|].
      split; [apply direct_only_at, rn_direct|]. split; [now apply rn_loading|].
      intros e e' Be Be'. destruct (rn_between n m e' In1 Im Be') as (e2&Be2&Q).
      rewrite <- (between_unique d n m e e2) in Q by auto. unfold edge_length_2, edge_plane. now rewrite Q.
  Qed.
End Renamed.

Lemma renamed_wf : forall pi (d d' : diagram R) tmax eta verbose tmax' eta' verbose' form form',
  wf d -> ready d -> wf d' -> ready d' -> direct_only d -> renamed pi d d' ->
  static_equilibrium d None tmax eta verbose = Ok form ->
  static_equilibrium d' None tmax' eta' verbose' = Ok form' ->
  renamed pi form form'.
Proof.
  intros pi d d' tmax eta verbose tmax' eta' verbose' form form' W Rd W' Rd' Di Rn E E'.
  assert (Di' := rn_direct pi d d' W W' Rn Di).
  destruct (matched_wf d d' (image_node pi d) tmax eta verbose tmax' eta' verbose' form form' W Rd W' Rd'
    (rn_matched pi d d' W W' Rd Rn Di) E E') as (P&F&Re).
  destruct (static_Ok d None tmax eta verbose form W E) as (st&_&_&N&Ed&_&Ae&_&_&_&_&Tr).
  destruct (static_Ok d' None tmax' eta' verbose' form' W' E') as (st'&_&_&N'&Ed'&_&Ae'&_&_&_&_&Tr').
  destruct (frame_wf d None tmax eta verbose form W E) as (_&_&_&Fs&Fl&Fq&_).
  destruct (frame_wf d' None tmax' eta' verbose' form' W' E') as (_&_&_&Fs'&Fl'&Fq'&_).
  destruct (inputs_wf d tmax eta verbose form W Rd E) as (_&Fd&Fz).
  destruct (inputs_wf d' tmax' eta' verbose' form' W' Rd' E') as (_&Fd'&Fz').
  (* edges *)
  assert (Edge : forall e e', In e (edges d) -> In e' (edges d') ->
    (e' = (pi (fst e), pi (snd e)) \/ e' = (pi (snd e), pi (fst e))) -> edge_get d' e' = edge_get d e ->
    edge_get form' e' = edge_get form e).
  { intros e e' I I' O Q. destruct (ends_in_nodes d W e I) as [I1 I2].
    assert (Ef : edge_force form' e' = edge_force form e).
    { assert (I2' := I). apply In_edges, has_edge_find in I2' as [a Ea]; auto.
      assert (Ty := wf_etype d W e a Ea).
      assert (Cs : In e (trail_edges d) \/ In e (deviation_edges d)).
      { rewrite In_trail_edges, In_deviation_edges by auto. destruct (ea_type a) as [[]|] eqn:Q0; [left|right|congruence]; eauto. }
      destruct (rn_type d d' W W' e e' Q) as [T1 T2]. destruct Cs as [Cs|Cs].
      - apply T2 in Cs as Cs'. assert (J : trail_joined d (fst e) (snd e)) by (left; now destruct e).
        assert (Aux : forall n m, follows d n m -> e = (n, m) \/ e = (m, n) -> edge_force form' e' = edge_force form e).
        { intros n m Fo Oe. destruct (follows_nodes d n m Rd Fo) as [In1 Im].
          apply (F n m (pi n) (pi m)); auto; [split; auto|now apply (rn_follows pi d d' Rn)|split; auto|].
          split; auto. destruct Oe as [->| ->]; cbn [fst snd] in O; tauto. }
        destruct (joined_follows d _ _ Rd J) as [Fo|Fo]; eapply Aux; eauto; destruct e; auto.
      - apply T1 in Cs as Cs'. rewrite (Fd e Cs), (Fd' e' Cs'). unfold edge_force. now rewrite Q. }
    assert (El : edge_length_2 form' e' = edge_length_2 form e).
    { destruct (lengths_wf d None tmax eta verbose form e W E) as (pu&pv&f&E1&E2&E3&E4); [now rewrite Ed|].
      destruct (lengths_wf d' None tmax' eta' verbose' form' e' W' E') as (pu'&pv'&f'&E1'&E2'&E3'&E4'); [now rewrite Ed'|].
      rewrite E4, E4'. assert (f' = f) by congruence. subst f'.
      assert (Q1 := P (fst e) (pi (fst e)) (conj I1 eq_refl)). assert (Q2 := P (snd e) (pi (snd e)) (conj I2 eq_refl)).
      destruct O as [->| ->]; cbn [fst snd] in *.
      - assert (pu' = pu) by congruence. assert (pv' = pv) by congruence. now subst.
      - assert (pu' = pv) by congruence. assert (pv' = pu) by congruence. subst. now rewrite dist_sym. }
    unfold edge_force, edge_length_2, edge_get in *. rewrite Ae, Ae' in *.
    apply In_edges, has_edge_find in I as [a Ea]; auto. apply In_edges, has_edge_find in I' as [a' Ea']; auto.
    rewrite Ea, Ea' in *. injection Q as ->. cbn [bind] in Ef, El. apply Ok_inj in Ef. apply Ok_inj in El. f_equal.
    clear -Ef El. unfold force_after in *.
    destruct (dget (s_tforce st) e), (dget (s_tforce st') e'); destruct a; cbn in *; subst; unfold set_length; cbn; rewrite El; reflexivity. }
  constructor.
  - rewrite N, N'. apply Rn.
  - unfold stored, trails. rewrite Tr, Tr'. constructor.
  - intros u v I. rewrite Ed in I. destruct (rn_there _ _ _ Rn u v I) as (e'&I'&O&Q). exists e'. rewrite Ed'.
    split; auto.
  - intros e' I'. rewrite Ed' in I'. destruct (rn_back _ _ _ Rn e' I') as (u&v&I&O&Q). exists u, v. rewrite Ed.
    split; auto.
  - intros n I. rewrite N in I. assert (Im : image_node pi d n (pi n)) by (split; auto).
    destruct (rn_node _ _ _ Rn n I) as (_&Ln&_&Sn&Qn). assert (I' := rn_in pi d d' Rn n I).
    split; [now apply P|]. split; [now rewrite Fl, Fl'|]. split; [|split; [now rewrite Fs, Fs'|now rewrite Fq, Fq']].
    destruct (is_sup d n) eqn:S.
    + apply Re; auto; rewrite ?Sn, ?is_node_support_Ok by auto; try (now rewrite S).
      * now apply direct_only_at.
      * now apply direct_only_at.
      * now apply (rn_loading pi d d' W W' Rd Rn).
    + rewrite Fz, Fz'; auto; rewrite ?Sn, is_node_support_Ok by auto; now rewrite S.
Qed.

(** C74: the form does not depend on the names of the nodes, on the order in which nodes,
    edges and trails were added or on the direction in which edges were given, if there are
    no indirect deviation edges. *)
Lemma c74_renamed_partial : forall pi (d d' : diagram R) tmax eta verbose tmax' eta' verbose' form form',
  reachable d -> ready d -> reachable d' -> ready d' -> direct_only d -> renamed pi d d' ->
  static_equilibrium d None tmax eta verbose = Ok form ->
  static_equilibrium d' None tmax' eta' verbose' = Ok form' ->
  renamed pi form form'.
Proof.
  intros pi d d' tmax eta verbose tmax' eta' verbose' form form' Hr Rd Hr' Rd'.
  apply renamed_wf; auto; now apply reachable_wf.
Qed.
