(** * Properties of form finding for any scalars *)

From Coq Require Import String List ZArith Bool Lia Permutation.
From Verif Require Import Py PyFacts Num Diagram DiagramFacts Topology SpecDiagram SpecTopology
  TopologyFacts BuildFacts ChainFacts ChainFacts2 History HistoryFacts DiagramThms TopologyThms SequenceThms
  Equilibrium SpecEquilibrium EqFacts FormFacts ReadyThms.
Import ListNotations.
Open Scope Z_scope.

Section Thms.
  Context {T : Type} `{NumOps T}.
  Implicit Types (d : diagram T).

  Lemma ready_last d : wf d -> ready d -> exists kl, sequence_last d = Ok kl /\ 0 <= kl
    /\ forall n k, kof d n = Some k -> k <= kl.
  Proof.
    intros W R. assert (Sq := ready_sequenced d R).
    destruct (trails d) as [|[key tr] l] eqn:Et; [destruct (rd_some _ R Et)|].
    assert (I : In (key, tr) (trails d)) by (rewrite Et; now left).
    assert (Is : In tr (stored d)) by (apply In_stored; eauto).
    assert (K := rd_keys _ R key tr I). destruct K as [r ->].
    assert (In1 : In key (nodes d)) by (eapply trail_node; eauto; now left).
    destruct (sequence_last_spec d W Sq) as (kl&Ekl&Mx&_); [intros E; now rewrite E in In1|].
    exists kl. split; auto. assert (Mx' : forall n k, kof d n = Some k -> k <= kl) by (intros n k E; apply (Mx n), seq_kof; auto).
    split; auto. destruct (ready_kof d key R In1) as (k&Ek&P). specialize (Mx' key k Ek). lia.
  Qed.

  (** Iterations on a ready topology never fail. *)
  Lemma after_total d ts kmax : wf d -> ready d -> ts_ok d ts ->
    forall t, exists st, after d ts kmax t = Ok st /\ inv d st.
  Proof.
    intros W R Hts. destruct (ready_last d W R) as (kl&Ekl&_). induction t as [|t (st&E&I)].
    - exists (init_state d). split; auto. apply inv_init.
    - destruct (sweep_swept d ts kmax (negb (t =? 0)%nat) kl st W R Hts Ekl (inv_dom _ _ I)) as (st'&E'&_).
      exists st'. cbn. rewrite E. cbn. split; auto. eapply sweep_inv; eauto.
  Qed.

  Lemma after_swept d ts kmax t st st' : wf d -> ready d -> ts_ok d ts ->
    after d ts kmax t = Ok st -> after d ts kmax (S t) = Ok st' -> swept d kmax (negb (t =? 0)%nat) st st'.
  Proof.
    intros W R Hts E E'. destruct (ready_last d W R) as (kl&Ekl&_). cbn in E'. rewrite E in E'. cbn in E'.
    assert (I := after_inv d ts kmax t st W E).
    destruct (sweep_swept d ts kmax (negb (t =? 0)%nat) kl st W R Hts Ekl (inv_dom _ _ I)) as (s&Es&Sw).
    rewrite E' in Es. now injection Es as <-.
  Qed.

  (** What never changes. *)
  Lemma after_fixed d ts kmax t st : wf d -> ready d -> ts_ok d ts -> after d ts kmax t = Ok st ->
    (forall m, In m (nodes d) -> (forall n, follows d n m -> stops d kmax n = true) ->
       dget (s_xyz st) m = dget (s_xyz (init_state d)) m /\ dget (s_res st) m = Some vzero)
    /\ (forall n, stops d kmax n = false -> dget (s_reac st) n = None)
    /\ (forall e, (forall n m, follows d n m -> stops d kmax n = false -> e <> trail_edge_key d n m) ->
         dget (s_tforce st) e = None).
  Proof.
    intros W R Hts. revert st. induction t as [|t IH]; intros st E.
    - cbn in E. injection E as <-. split; [|split; auto]. intros m I _. split; auto.
      cbn. rewrite dget_map. apply (rd_reactions _ R) in I. unfold reaction_force, node_get, dgetr in I.
      destruct (dget (d_node d) m); [|discriminate]. cbn in *. congruence.
    - destruct (after_total d ts kmax W R Hts t) as (s0&E0&I0).
      assert (Sw := after_swept d ts kmax t s0 st W R Hts E0 E). destruct (IH s0 E0) as (A&B&C).
      split; [|split].
      + intros m I F. destruct (sw_fixed _ _ _ _ _ Sw m F) as [-> ->]. auto.
      + intros n S. rewrite (sw_reac _ _ _ _ _ Sw n S). auto.
      + intros e F. rewrite (sw_other _ _ _ _ _ Sw e F). auto.
  Qed.

  (** ** Direct topologies: one iteration is enough *)

  Lemma direct_no_indirect d n : wf d -> ready d -> direct_only d -> In n (nodes d) -> cind d n = [].
  Proof.
    intros W R Di I. destruct (cind_spec d n W (ch_simple _ _ (rd_chains _ R)) (ready_sequenced d R) I) as (_&_&M).
    destruct (cind d n) as [|e l]; auto. exfalso. destruct (proj1 (M e) (or_introl eq_refl)) as (Ie&B&_).
    unfold indir_b in B. apply In_edges, has_edge_find in Ie as [a Ea]; auto. rewrite Ea in B.
    destruct e as [u v]. assert (X : In (u, v) (deviation_edges d)).
    { apply In_deviation_edges; auto. exists a. split; auto. apply opt_is_dev. now apply andb_true_iff in B as [B _]. }
    specialize (Di u v X). apply andb_true_iff in B as [_ B]. cbn in B.
    assert (Y : kof d u = kof d v).
    { unfold node_sequence, node_get, dgetr, kof in *. destruct (wf_eends _ W _ _ Ea) as [I1 I2]. cbn in I1, I2.
      apply In_keys_dget in I1 as [au Eu]. apply In_keys_dget in I2 as [av Ev]. rewrite Eu, Ev in *. cbn in Di.
      destruct (na_k au), (na_k av); congruence. }
    rewrite Y in B. destruct (kof d v); [|discriminate]. rewrite Z.eqb_refl in B. discriminate.
  Qed.

  Lemma dev_sum_ext d w w' n es : (forall e, In e es -> dget w (fst e) = dget w' (fst e) /\ dget w (snd e) = dget w' (snd e)) ->
    dget w n = dget w' n -> dev_sum d w n es = dev_sum d w' n es.
  Proof.
    intros E En. unfold dev_sum. generalize (@vzero T _). induction es as [|e es IH]; intros r; cbn [fold_left]; auto.
    rewrite IH by (intros x I; apply E; now right). do 2 f_equal. unfold dpull.
    destruct (E e (or_introl eq_refl)) as [E1 E2].
    assert (X : xg w (other e n) = xg w' (other e n)) by (unfold xg, other; destruct (negb (fst e =? n)); [now rewrite E1|now rewrite E2]).
    assert (Y : xg w n = xg w' n) by (unfold xg; now rewrite En). now rewrite X, Y.
  Qed.

  (** Direct edges join nodes of the same sequence. *)
  Lemma cdir_kof d n e k : wf d -> ready d -> In n (nodes d) -> In e (cdir d n) -> kof d n = Some k ->
    kof d (fst e) = Some k /\ kof d (snd e) = Some k.
  Proof.
    intros W R I Ie Ek.
    destruct (cdir_spec d n W (ch_simple _ _ (rd_chains _ R)) (ready_sequenced d R) I) as (_&_&M).
    apply M in Ie as (_&B&En). unfold dir_b in B. destruct (edge_find d e); [|discriminate].
    apply andb_true_iff in B as [_ B]. destruct (kof d (fst e)) as [a|] eqn:E1; [|discriminate].
    destruct (kof d (snd e)) as [b|] eqn:E2; [|discriminate]. apply Z.eqb_eq in B. subst b.
    destruct En as [<-|<-]; split; congruence.
  Qed.

  (** The direct resultant seen at the visit is the final one. *)
  Lemma direct_final d n (w X : dict Z (vec T)) : wf d -> ready d -> In n (nodes d) ->
    (forall m k j, kof d n = Some k -> kof d m = Some j -> j <= k -> dget w m = dget X m) ->
    dev_sum d w n (cdir d n) = dev_sum d X n (cdir d n).
  Proof.
    intros W R I A. destruct (ready_kof d n R I) as (k&Ek&_). apply dev_sum_ext.
    - intros e Ie. destruct (cdir_kof d n e k W R I Ie Ek). split; eapply A; eauto; lia.
    - eapply A; eauto; lia.
  Qed.

  Lemma direct_rout d n rin w X ind ind' : wf d -> ready d -> direct_only d -> In n (nodes d) ->
    (forall m k j, kof d n = Some k -> kof d m = Some j -> j <= k -> dget w m = dget X m) ->
    rout d n rin w ind = rout d n rin X ind'.
  Proof.
    intros W R Di I A. unfold rout. rewrite (direct_final d n w X) by auto.
    rewrite (direct_no_indirect d n W R Di I). destruct ind, ind'; reflexivity.
  Qed.

  Lemma dset_xg (m : dict Z (vec T)) n v : In n (dkeys m) -> xg m n = v -> dset m n v = m.
  Proof.
    intros I E. apply dset_same. apply In_keys_dget in I as [p Ep]. unfold xg in E. rewrite Ep in *. congruence.
  Qed.

  (** A second iteration on a direct topology changes nothing at all. *)
  Lemma direct_idempotent d kmax ind ind' st st1 l s : wf d -> ready d -> direct_only d ->
    swept d kmax ind st st1 -> vsteps d kmax ind' l st1 s -> s = st1.
  Proof.
    intros W R Di Sw V. assert (Q : forall s0 s, vsteps d kmax ind' l s0 s -> s0 = st1 -> s = st1).
    { clear V s. induction 1 as [s0|n l s0 sa s' I D S V IH]; auto. intros ->. apply IH.
      destruct (sw_visit _ _ _ _ _ Sw n I) as (w&_&_&A&X). cbn zeta in X. destruct X as [X1 X2].
      assert (Er : forall i, rout d n (xg (s_res st1) n) (s_xyz st1) i = rout d n (xg (s_res st1) n) w ind).
      { intros i. symmetry. now apply direct_rout. }
      destruct (sw_dom _ _ _ _ _ Sw) as [D1 D2].
      destruct S as [Sn|m Sn F].
      - unfold put_reaction. rewrite Er. rewrite dset_same by (now apply X1). now destruct st1.
      - unfold put_next. cbn zeta. rewrite Er. destruct (X2 m Sn F) as (Y1&Y2&Y3&Y4).
        destruct (follows_nodes d n m R F) as [_ Im].
        rewrite dset_xg by (auto; now rewrite D1). rewrite dset_xg by (auto; now rewrite D2).
        rewrite !dset_same by auto. now destruct st1. }
    eapply Q; eauto.
  Qed.

  Lemma direct_after d ts kmax t : wf d -> ready d -> ts_ok d ts -> direct_only d ->
    after d ts kmax (S t) = after d ts kmax 1.
  Proof.
    intros W R Hts Di. destruct (ready_last d W R) as (kl&Ekl&_).
    destruct (after_total d ts kmax W R Hts 0) as (s0&E0&_).
    destruct (after_total d ts kmax W R Hts 1) as (s1&E1&I1). rewrite E1.
    assert (Sw := after_swept d ts kmax 0 s0 s1 W R Hts E0 E1).
    induction t as [|t IH]; auto.
    change (after d ts kmax (S (S t))) with (let* st := after d ts kmax (S t) in sweep d ts kmax true st).
    rewrite IH. cbn [bind].
    destruct (sweep_steps d ts kmax true kl s1 W R Hts Ekl (inv_dom _ _ I1)) as (s2&E2&V&_). rewrite E2. f_equal.
    eapply direct_idempotent; eauto.
  Qed.

  (** ** Outcomes of form finding on a ready topology *)

  Lemma residual_total d a b : dkeys a = nodes d -> dkeys b = nodes d -> NoDup (nodes d) ->
    exists x, residual_distance (T:=T) a b = Ok x.
  Proof.
    intros A B N. unfold residual_distance. rewrite <- B in A, N. clear B. generalize (@n0 T _).
    assert (Inc : incl (dkeys b) (dkeys a)) by (rewrite A; apply incl_refl). clear A N.
    induction b as [|[k p] b IH]; intros acc; cbn [fold_res fst snd]; [eauto|].
    assert (I : In k (dkeys a)) by (apply Inc; now left). apply In_keys_dget in I as [q Eq].
    unfold dgetr. rewrite Eq. cbn [bind]. apply IH. intros x J. apply Inc. now right.
  Qed.

  Lemma moves_total d ts kmax t : wf d -> ready d -> ts_ok d ts -> exists x, moves d ts kmax t x.
  Proof.
    intros W R Hts. destruct (after_total d ts kmax W R Hts t) as (a&Ea&Ia).
    destruct (after_total d ts kmax W R Hts (S t)) as (b&Eb&Ib).
    destruct (residual_total d (s_xyz a) (s_xyz b)) as (x&Ex); [apply Ia|apply Ib|apply W|].
    exists x, a, b. auto.
  Qed.

  Lemma iterate_total d ts kmax eta : wf d -> ready d -> ts_ok d ts ->
    forall n t dist0 st, after d ts kmax t = Ok st -> exists r, iterate d ts kmax eta n t dist0 st = Ok r.
  Proof.
    intros W R Hts. induction n as [|n IH]; intros t dist0 st E; cbn [iterate]; [eauto|].
    destruct (after_total d ts kmax W R Hts (S t)) as (s1&E1&I1).
    assert (E2 : sweep d ts kmax (negb (t =? 0)%nat) st = Ok s1) by (cbn in E1; rewrite E in E1; exact E1).
    rewrite E2. cbn [bind]. destruct (Nat.eqb t 0); [apply IH; auto|].
    destruct (residual_total d (s_xyz st) (s_xyz s1)) as (x&Ex);
      [apply (after_inv d ts kmax t st W E)|apply I1|apply W|]. rewrite Ex. cbn [bind].
    destruct (nltb x eta); [eauto|]. apply IH; auto.
  Qed.

  Lemma equilibrium_state_unfold d kmax tmax eta verbose ts : wf d -> ready d -> kmax_ok kmax ->
    trails_sequences d = Ok ts ->
    equilibrium_state d kmax tmax eta verbose =
      let* r := iterate d ts kmax eta (Z.to_nat tmax) 0 None (init_state d) in
        let '(st, t, distance) := r in
        match t with
        | None => Err UnboundLocalError
        | Some t =>
            if negb (Nat.eqb t 0) then
              match distance with
              | None => Err UnboundLocalError
              | Some dist =>
                  if nltb eta dist then Err (ValueError "Over iters") else Ok st
              end
            else if verbose && match distance with None => true | Some _ => false end
                 then Err UnboundLocalError
                 else Ok st
        end.
  Proof.
    intros W R K Ets. unfold equilibrium_state. destruct (ready_last d W R) as (kl&Ekl&_). rewrite Ets, Ekl. cbn [bind].
    assert (X : (0 <? number_of_trails d) = true).
    { apply Z.ltb_lt. unfold number_of_trails. assert (Y := rd_some _ R). unfold trails in Y.
      destruct (d_trails d); [congruence|cbn; lia]. }
    rewrite X. cbn [negb]. destruct kmax as [km|]; auto. cbn in K.
    destruct (Z.ltb_spec km 0); [lia|]. reflexivity.
  Qed.

  Lemma one_iteration d kmax eta ts : wf d -> ready d -> kmax_ok kmax -> trails_sequences d = Ok ts ->
    equilibrium_state d kmax 1 eta false = after d ts kmax 1.
  Proof.
    intros W R K Ets. rewrite (equilibrium_state_unfold d kmax 1 eta false ts) by auto.
    change (Z.to_nat 1) with 1%nat. cbn [iterate Nat.eqb negb after bind].
    destruct (sweep d ts kmax false (init_state d)); reflexivity.
  Qed.

  (** Without indirect deviation edges the form does not depend on the number of
      iterations and on the threshold. *)
  Lemma c35_one_iteration : forall d kmax tmax eta eta' verbose form, reachable d -> ready d -> direct_only d ->
    static_equilibrium d kmax tmax eta verbose = Ok form ->
    static_equilibrium d kmax 1 eta' false = Ok form.
  Proof.
    intros d kmax tmax eta eta' verbose form Hr R Di E. apply reachable_wf in Hr as W.
    unfold static_equilibrium in *. apply bind_Ok in E as (st&Es&E).
    assert (K : kmax_ok kmax).
    { unfold equilibrium_state in Es. destruct (negb _); [discriminate|]. apply bind_Ok in Es as (?&_&Es).
      apply bind_Ok in Es as (?&_&Es). destruct kmax as [km|]; cbn; auto. destruct (Z.ltb_spec km 0); [discriminate|auto]. }
    destruct (ready_ts d W R) as (ts&Ets&Hts).
    rewrite (one_iteration d kmax eta' ts W R K Ets).
    apply equilibrium_state_Ok in Es as (ts'&t&Ets'&_&A&B&_). rewrite Ets in Ets'. injection Ets' as <-.
    destruct t as [|t]; [lia|]. rewrite (direct_after d ts kmax t W R Hts Di) in A. rewrite A. cbn [bind]. exact E.
  Qed.

  (** ** C36 *)

  (** Success means that the last two iterations are within the threshold, or that
      the allowed iterations are used up at a displacement not above it. *)
  Lemma c36_success : forall d kmax tmax eta verbose form, reachable d -> 2 <= tmax ->
    static_equilibrium d kmax tmax eta verbose = Ok form ->
    exists ts t x, trails_sequences d = Ok ts /\ (1 <= t)%nat /\ Z.of_nat t < tmax
      /\ moves d ts kmax t x
      /\ (nltb x eta = true \/ Z.of_nat t = tmax - 1 /\ nltb eta x = false)
      /\ (forall s y, (1 <= s < t)%nat -> moves d ts kmax s y -> nltb y eta = false)
      /\ positions_after d ts kmax (S t) form.
  Proof.
    intros d kmax tmax eta verbose form Hr L E. apply reachable_wf in Hr as W.
    apply static_Ok in E as (st&Es&I&N&_&An&_); auto.
    apply equilibrium_state_Ok in Es as (ts&t&Ets&_&A&B&T1&F&X). destruct (X L) as (x&M&C).
    assert (t <> 1%nat) by (intros ->; specialize (T1 eq_refl); lia).
    exists ts, (t - 1)%nat, x. split; auto. split; [lia|]. split; [lia|]. split; auto. split.
    { destruct C as [C|(C1&C2&C3)]; auto. right. split; auto. lia. }
    split.
    { intros s y Bs Ms. apply (F s y); auto; lia. }
    exists st. replace (S (t - 1))%nat with t by lia. split; auto. intros n In1. rewrite N in In1.
    assert (J := In1). rewrite <- (iv_xyz _ _ I) in J. apply In_keys_dget in J as [p Ep]. exists p. split; auto.
    unfold node_coordinates, node_get, dgetr. rewrite An. apply In_keys_dget in In1 as [a Ea]. rewrite Ea. cbn.
    unfold node_after. rewrite Ep. now destruct (dget (s_reac st) n).
  Qed.

  (** On a ready topology the only other outcome is a ValueError, and then no
      iteration came within the threshold and the last one was above it. *)
  Lemma c36_failure : forall d kmax tmax eta verbose e, reachable d -> ready d -> kmax_ok kmax -> 2 <= tmax ->
    static_equilibrium d kmax tmax eta verbose = Err e ->
    e = ValueError "Over iters" /\
    exists ts x, trails_sequences d = Ok ts /\
      ((moves d ts kmax (Z.to_nat tmax - 1) x /\ nltb eta x = true
        /\ forall s y, (1 <= s)%nat -> Z.of_nat s < tmax -> moves d ts kmax s y -> nltb y eta = false)
       \/ (nltb eta x = true /\ nltb x eta = true)).
  Proof.
    intros d kmax tmax eta verbose e Hr R K L E. apply reachable_wf in Hr as W.
    destruct (ready_ts d W R) as (ts&Ets&Hts).
    assert (E' : equilibrium_state d kmax tmax eta verbose = Err e).
    { destruct (equilibrium_state d kmax tmax eta verbose) as [st|e'] eqn:Q.
      - destruct (static_of_state d kmax tmax eta verbose st W Q) as (f&Ef). congruence.
      - unfold static_equilibrium in E. rewrite Q in E. cbn in E. congruence. }
    rewrite (equilibrium_state_unfold d kmax tmax eta verbose ts) in E' by auto.
    destruct (iterate_total d ts kmax eta W R Hts (Z.to_nat tmax) 0 None (init_state d) eq_refl) as (r&Er).
    rewrite Er in E'. cbn [bind] in E'. destruct r as [[st ot] od]. apply iterate_spec in Er; [|reflexivity].
    destruct Er as [(s&x&B&P&M&L'&F&A'&->&->)|(F&A'&->&O2)].
    - assert (X : (s =? 0)%nat = false) by (apply Nat.eqb_neq; lia). rewrite X in E'. cbn [negb] in E'.
      destruct (nltb eta x) eqn:Q; [|discriminate]. injection E' as <-. split; auto. exists ts, x. auto.
    - cbn [Nat.add] in *. destruct (Z.to_nat tmax) as [|n] eqn:En; [lia|].
      assert (X : (n =? 0)%nat = false) by (apply Nat.eqb_neq; lia). rewrite X in E'. cbn [negb] in E'.
      cbn [Nat.eqb orb] in O2. rewrite X in O2. destruct O2 as (x&->&M).
      destruct (nltb eta x) eqn:Q; [|discriminate]. injection E' as <-. split; auto. exists ts, x. split; auto.
      left. split; auto. split; auto. intros s y Ps Bs Ms. destruct (F s) as (y'&My&Ly); [lia|lia|].
      now rewrite (moves_fun _ _ _ _ _ _ Ms My).
  Qed.

  (** The other arguments. *)
  Lemma c36_no_iterations : forall d kmax tmax eta verbose, reachable d -> ready d -> kmax_ok kmax -> tmax <= 0 ->
    static_equilibrium d kmax tmax eta verbose = Err UnboundLocalError.
  Proof.
    intros d kmax tmax eta verbose Hr R K L. apply reachable_wf in Hr as W.
    destruct (ready_ts d W R) as (ts&Ets&Hts). unfold static_equilibrium.
    rewrite (equilibrium_state_unfold d kmax tmax eta verbose ts) by auto.
    replace (Z.to_nat tmax) with 0%nat by lia. reflexivity.
  Qed.

  (** A single iteration is returned unchecked, but raises if verbose. *)
  Lemma c36_single_iteration : forall d kmax eta, reachable d -> ready d -> kmax_ok kmax ->
    (exists form, static_equilibrium d kmax 1 eta false = Ok form)
    /\ static_equilibrium d kmax 1 eta true = Err UnboundLocalError.
  Proof.
    intros d kmax eta Hr R K. apply reachable_wf in Hr as W.
    destruct (ready_ts d W R) as (ts&Ets&Hts). destruct (after_total d ts kmax W R Hts 1) as (s1&E1&I1). split.
    - apply (static_of_state d kmax 1 eta false s1 W). rewrite (one_iteration d kmax eta ts); auto.
    - unfold static_equilibrium. rewrite (equilibrium_state_unfold d kmax 1 eta true ts) by auto.
      change (Z.to_nat 1) with 1%nat. cbn [iterate Nat.eqb negb bind]. cbn [after bind] in E1.
      change (negb (0 =? 0)%nat) with false in E1. rewrite E1. reflexivity.
  Qed.

  (** ** C37, C40 *)

  Lemma frame_wf : forall d kmax tmax eta verbose form, wf d ->
    static_equilibrium d kmax tmax eta verbose = Ok form ->
    nodes form = nodes d /\ edges form = edges d
    /\ (forall n, neighbors form n = neighbors d n)
    /\ (forall n, is_node_support form n = is_node_support d n)
    /\ (forall n, node_load form n = node_load d n)
    /\ (forall n, node_sequence form n = node_sequence d n)
    /\ (forall e, is_trail_edge form e = is_trail_edge d e)
    /\ (forall e, is_deviation_edge form e = is_deviation_edge d e)
    /\ (forall e, edge_plane form e = edge_plane d e)
    /\ (forall r, node_key form r = node_key d r).
  Proof.
    intros d kmax tmax eta verbose form W E.
    apply static_Ok in E as (st&_&_&N&Ed&An&Ae&Ad&_&G&Tl&_); auto.
    split; auto. split; auto. split; [intros n; unfold neighbors; now rewrite Ad|].
    assert (Q : forall n a, na_load (node_after st n a) = na_load a /\ na_type (node_after st n a) = na_type a
                /\ na_k (node_after st n a) = na_k a).
    { intros n a. unfold node_after. destruct (dget (s_xyz st) n), (dget (s_reac st) n); auto. }
    split. { intros n. unfold is_node_support, node_get, dgetr. rewrite An. destruct (dget (d_node d) n); auto. cbn.
      now destruct (Q n n0) as (_&->&_). }
    split. { intros n. unfold node_load, node_get, dgetr. rewrite An. destruct (dget (d_node d) n); auto. cbn.
      now destruct (Q n n0) as (->&_&_). }
    split. { intros n. unfold node_sequence, node_get, dgetr. rewrite An. destruct (dget (d_node d) n); auto. cbn.
      now destruct (Q n n0) as (_&_&->). }
    assert (Q' : forall e a, ea_type (force_after st e a) = ea_type a /\ ea_plane (force_after st e a) = ea_plane a).
    { intros e a. unfold force_after. destruct (dget (s_tforce st) e); auto. }
    split. { intros e. unfold is_trail_edge, edge_get. rewrite Ae. destruct (edge_find d e) as [a|]; auto. cbn.
      now destruct (Q' e a) as [-> _]. }
    split. { intros e. unfold is_deviation_edge, edge_get. rewrite Ae. destruct (edge_find d e) as [a|]; auto. cbn.
      now destruct (Q' e a) as [-> _]. }
    split. { intros e. unfold edge_plane, edge_get. rewrite Ae. destruct (edge_find d e) as [a|]; auto. cbn.
      now destruct (Q' e a) as [_ ->]. }
    intros []; cbn; auto. unfold gkey. now rewrite G, Tl.
  Qed.

  (** The form has the nodes, edges, adjacency, supports, loads, types and planes of
      the topology. *)
  Lemma c37_frame : forall d kmax tmax eta verbose form, reachable d ->
    static_equilibrium d kmax tmax eta verbose = Ok form ->
    nodes form = nodes d /\ edges form = edges d
    /\ (forall n, neighbors form n = neighbors d n)
    /\ (forall n, is_node_support form n = is_node_support d n)
    /\ (forall n, node_load form n = node_load d n)
    /\ (forall n, node_sequence form n = node_sequence d n)
    /\ (forall e, is_trail_edge form e = is_trail_edge d e)
    /\ (forall e, is_deviation_edge form e = is_deviation_edge d e)
    /\ (forall e, edge_plane form e = edge_plane d e)
    /\ (forall r, node_key form r = node_key d r).
  Proof. intros d * Hr. apply frame_wf, reachable_wf, Hr. Qed.

  Lemma inputs_wf : forall d tmax eta verbose form, wf d -> ready d ->
    static_equilibrium d None tmax eta verbose = Ok form ->
    (forall key tr, In (key, tr) (trails d) -> node_coordinates form key = node_coordinates d key)
    /\ (forall e, In e (deviation_edges d) -> edge_force form e = edge_force d e)
    /\ (forall n, In n (nodes d) -> is_node_support d n = Ok false -> reaction_force form n = Ok vzero).
  Proof.
    intros d tmax eta verbose form W R E.
    apply static_Ok in E as (st&Es&I&N&Ed&An&Ae&_); auto.
    apply equilibrium_state_Ok in Es as (ts&t&Ets&_&A&_).
    destruct (ready_ts d W R) as (ts'&Ets'&Hts). rewrite Ets in Ets'. injection Ets' as <-.
    destruct (after_fixed d ts None t st W R Hts A) as (F1&F2&F3).
    split; [|split].
    - intros key tr It. assert (Ik : In key (nodes d)).
      { eapply trail_node; eauto; [apply In_stored; eauto|]. apply (rd_keys _ R) in It as [r ->]. now left. }
      destruct (F1 key Ik) as [X _].
      { intros n F. exfalso. eapply first_not_follows; eauto. }
      unfold node_coordinates, node_get, dgetr. rewrite An. apply In_keys_dget in Ik as [a Ea]. rewrite Ea. cbn.
      unfold node_after. rewrite X. cbn. rewrite dget_map, Ea. cbn. now destruct (dget (s_reac st) key).
    - intros e Ie. apply In_deviation_edges in Ie as (a&Ea&Ta); auto.
      unfold edge_force, edge_get. rewrite Ae, Ea. cbn. unfold force_after. rewrite F3; auto.
      intros n m F _ ->. destruct (trail_key_edge d n m W R F) as (b&Eb&Tb&_). congruence.
    - intros n In1 S. assert (Sn : stops d None n = false).
      { unfold stops. rewrite orb_false_r. rewrite is_node_support_Ok in S by auto. congruence. }
      unfold reaction_force, node_get, dgetr. rewrite An.
      assert (X := rd_reactions _ R n In1). unfold reaction_force, node_get, dgetr in X.
      apply In_keys_dget in In1 as [a Ea]. rewrite Ea in *. cbn in *.
      unfold node_after. rewrite F2 by auto. destruct (dget (s_xyz st) n); cbn; auto.
  Qed.

  (** On a ready topology the first node of every trail stays where it is, forces of
      deviation edges are the prescribed ones and only supports get reactions. *)
  Lemma c37_inputs : forall d tmax eta verbose form, reachable d -> ready d ->
    static_equilibrium d None tmax eta verbose = Ok form ->
    (forall key tr, In (key, tr) (trails d) -> node_coordinates form key = node_coordinates d key)
    /\ (forall e, In e (deviation_edges d) -> edge_force form e = edge_force d e)
    /\ (forall n, In n (nodes d) -> is_node_support d n = Ok false -> reaction_force form n = Ok vzero).
  Proof. intros d * Hr. apply inputs_wf, reachable_wf, Hr. Qed.

  Lemma lengths_wf : forall d kmax tmax eta verbose form e, wf d ->
    static_equilibrium d kmax tmax eta verbose = Ok form -> In e (edges form) ->
    exists pu pv f, node_coordinates form (fst e) = Ok pu /\ node_coordinates form (snd e) = Ok pv
      /\ edge_force form e = Ok f
      /\ edge_length_2 form e = Ok (ncopysign (distance_point_point pu pv) f).
  Proof.
    intros d kmax tmax eta verbose form e W E Ie.
    apply static_Ok in E as (st&Es&I&N&Ed&An&Ae&_); auto. rewrite Ed in Ie.
    apply In_edges, has_edge_find in Ie as [a Ea]; auto. destruct (wf_eends _ W _ _ Ea) as [I1 I2].
    assert (C : forall n, In n (nodes d) -> node_coordinates form n = Ok (xg (s_xyz st) n)).
    { intros n J. unfold node_coordinates, node_get, dgetr. rewrite An. assert (J' := J).
      apply In_keys_dget in J' as [b Eb]. rewrite Eb. cbn. unfold node_after, xg.
      rewrite <- (iv_xyz _ _ I) in J. apply In_keys_dget in J as [p Ep]. rewrite Ep.
      now destruct (dget (s_reac st) n). }
    exists (xg (s_xyz st) (fst e)), (xg (s_xyz st) (snd e)), (ea_force (force_after st e a)).
    split; auto. split; auto. unfold edge_force, edge_length_2, edge_get. rewrite Ae, Ea. cbn. auto.
  Qed.

  (** Edge lengths of the form are measured on its geometry and signed by the force. *)
  Lemma c40_lengths : forall d kmax tmax eta verbose form e, reachable d ->
    static_equilibrium d kmax tmax eta verbose = Ok form -> In e (edges form) ->
    exists pu pv f, node_coordinates form (fst e) = Ok pu /\ node_coordinates form (snd e) = Ok pv
      /\ edge_force form e = Ok f
      /\ edge_length_2 form e = Ok (ncopysign (distance_point_point pu pv) f).
  Proof. intros d * Hr. apply lengths_wf, reachable_wf, Hr. Qed.

  (** ** C38, C39 *)

  Lemma vsteps_fun d kmax ind l : ready d -> forall st s1 s2,
    vsteps d kmax ind l st s1 -> vsteps d kmax ind l st s2 -> s1 = s2.
  Proof.
    intros R. induction l as [|n l IH]; intros st s1 s2 V1 V2; inversion V1 as [|? ? ? a1 ? I1 D1 S1 W1]; subst;
      inversion V2 as [|? ? ? a2 ? I2 D2 S2 W2]; subst; auto.
    assert (a1 = a2).
    { destruct S1 as [S1|m1 S1 F1], S2 as [S2|m2 S2 F2]; try congruence. now rewrite (follows_fun d n m1 m2 R F1 F2). }
    subst a2. eauto.
  Qed.

  Lemma vsteps_kmax d kmax kmax' ind l st s : (forall n, In n (nodes d) -> stops d kmax n = stops d kmax' n) ->
    vsteps d kmax ind l st s -> vsteps d kmax' ind l st s.
  Proof.
    intros E V. induction V as [st|n l st st1 st' I D S V IH]; [constructor|]. econstructor; eauto.
    destruct S as [S|m S F]; [apply vs_stop|apply vs_next; auto]; now rewrite <- E.
  Qed.

  Lemma stops_beyond d km kl n : wf d -> ready d -> sequence_last d = Ok kl -> kl <= km -> In n (nodes d) ->
    stops d (Some km) n = stops d None n.
  Proof.
    intros W R Ekl L I. unfold stops. destruct (is_sup d n) eqn:S; auto. cbn [orb].
    destruct (ready_kof d n R I) as (k&Ek&_). rewrite Ek. apply Z.eqb_neq. intros ->.
    destruct (not_sup_follows d n W R I S) as [m F].
    destruct (ready_last d W R) as (kl'&Ekl'&_&Mx). rewrite Ekl in Ekl'. injection Ekl' as <-.
    apply (follows_kof d n m km R F) in Ek. specialize (Mx m _ Ek). lia.
  Qed.

  (** A kmax at or beyond the last sequence has no effect. *)
  Lemma c38_kmax_beyond : forall d km kl tmax eta verbose, reachable d -> ready d ->
    sequence_last d = Ok kl -> kl <= km ->
    static_equilibrium d (Some km) tmax eta verbose = static_equilibrium d None tmax eta verbose.
  Proof.
    intros d km kl tmax eta verbose Hr R Ekl L. apply reachable_wf in Hr as W.
    destruct (ready_ts d W R) as (ts&Ets&Hts).
    destruct (ready_last d W R) as (kl'&Ekl'&P&_). rewrite Ekl in Ekl'. injection Ekl' as <-.
    assert (Q : forall ind st, dom d st -> sweep d ts (Some km) ind st = sweep d ts None ind st).
    { intros ind st D. destruct (sweep_steps d ts (Some km) ind kl st W R Hts Ekl D) as (s1&E1&V1&_).
      destruct (sweep_steps d ts None ind kl st W R Hts Ekl D) as (s2&E2&V2&_). rewrite E1, E2. f_equal.
      apply (vsteps_fun d None ind (schedule d ts (kl + 1)) R st); auto. apply (vsteps_kmax d (Some km) None); auto.
      intros n I. eapply stops_beyond; eauto. }
    assert (Q' : forall n t od st, inv d st -> iterate d ts (Some km) eta n t od st = iterate d ts None eta n t od st).
    { induction n as [|n IH]; intros t od st I; cbn [iterate]; auto. rewrite Q by now apply inv_dom.
      destruct (sweep d ts None (negb (t =? 0)%nat) st) as [s|] eqn:Es; cbn [bind]; auto.
      assert (Is : inv d s) by (eapply sweep_inv; eauto).
      destruct (Nat.eqb t 0); auto. destruct (residual_distance _ _) as [x|]; cbn [bind]; auto.
      destruct (nltb x eta); auto. }
    unfold static_equilibrium. rewrite !(equilibrium_state_unfold d _ tmax eta verbose ts W R) by (cbn; auto; lia).
    rewrite Q' by apply inv_init. reflexivity.
  Qed.

  (** A negative kmax is rejected. *)
  Lemma c38_negative : forall d km tmax eta verbose, reachable d -> ready d -> km < 0 ->
    static_equilibrium d (Some km) tmax eta verbose = Err (AssertionError "Kmax must be a non-negative number!").
  Proof.
    intros d km tmax eta verbose Hr R L. apply reachable_wf in Hr as W.
    destruct (ready_ts d W R) as (ts&Ets&Hts). destruct (ready_last d W R) as (kl&Ekl&_).
    unfold static_equilibrium, equilibrium_state. rewrite Ets, Ekl. cbn [bind].
    assert (X : (0 <? number_of_trails d) = true).
    { apply Z.ltb_lt. unfold number_of_trails. assert (Y := rd_some _ R). unfold trails in Y.
      destruct (d_trails d); [congruence|cbn; lia]. }
    rewrite X. cbn [negb]. apply Z.ltb_lt in L. now rewrite L.
  Qed.

  Lemma dget_xg (m m' : dict Z (vec T)) n : In n (dkeys m) -> In n (dkeys m') -> xg m n = xg m' n -> dget m n = dget m' n.
  Proof.
    intros I I' E. apply In_keys_dget in I as [p Ep]. apply In_keys_dget in I' as [p' Ep'].
    unfold xg in E. rewrite Ep, Ep' in *. congruence.
  Qed.

  (** Agreement of two computations of a direct topology up to the sequence at which
      the first of them stops. *)
  Lemma direct_agree d kmax kmax' ind ind' st st' s s' (K : Z) : wf d -> ready d -> direct_only d ->
    swept d kmax ind st st' -> swept d kmax' ind' s s' ->
    (forall n k, kof d n = Some k -> k < K -> is_sup d n = false -> stops d kmax n = false /\ stops d kmax' n = false) ->
    (forall key tr, In (key, tr) (trails d) ->
       dget (s_xyz st') key = dget (s_xyz s') key /\ dget (s_res st') key = dget (s_res s') key) ->
    forall m k, In m (nodes d) -> kof d m = Some k -> k <= K ->
      dget (s_xyz st') m = dget (s_xyz s') m /\ dget (s_res st') m = dget (s_res s') m.
  Proof.
    intros W R Di Sw Sw' St First m k I Ek L.
    destruct (ready_kof d m R I) as (k'&Ek'&P). rewrite Ek in Ek'. injection Ek' as <-.
    remember (Z.to_nat k) as N eqn:EN. revert m k EN I Ek L P.
    induction N as [N IH] using lt_wf_ind. intros m k EN I Ek L P.
    destruct (first_or_follows d m R I) as [(key&tr&It&->)|[n F]]; [eauto|].
    destruct (follows_nodes d n m R F) as [In1 _]. destruct (ready_kof d n R In1) as (j&Ej&Pj).
    assert (Ej' := proj1 (follows_kof d n m j R F) Ej). assert (k = j + 1) by congruence. subst k.
    assert (Sn : is_sup d n = false).
    { destruct (is_sup d n) eqn:Q; auto. destruct (sup_not_follows d n m W R Q F). }
    destruct (St n j Ej ltac:(lia) Sn) as [S1 S2].
    destruct (sw_visit _ _ _ _ _ Sw n In1) as (w&_&_&A&_&X). cbn zeta in X. destruct (X m S1 F) as (X1&X2&_).
    destruct (sw_visit _ _ _ _ _ Sw' n In1) as (w'&_&_&A'&_&X'). cbn zeta in X'. destruct (X' m S2 F) as (X1'&X2'&_).
    destruct (sw_dom _ _ _ _ _ Sw) as [D1 D2]. destruct (sw_dom _ _ _ _ _ Sw') as [D1' D2'].
    assert (Low : forall m k, In m (nodes d) -> kof d m = Some k -> k <= j ->
      dget (s_xyz st') m = dget (s_xyz s') m /\ dget (s_res st') m = dget (s_res s') m).
    { intros m0 k0 I0 E0 L0. destruct (ready_kof d m0 R I0) as (k1&E1&P1). assert (k1 = k0) by congruence. subst k1.
      eapply (IH (Z.to_nat k0)); eauto; lia. }
    assert (Er : rout d n (xg (s_res st') n) w ind = rout d n (xg (s_res s') n) w' ind').
    { transitivity (rout d n (xg (s_res st') n) (s_xyz st') ind); [apply direct_rout; auto|].
      replace (xg (s_res st') n) with (xg (s_res s') n) by (unfold xg; now rewrite (proj2 (Low n j In1 Ej (Z.le_refl _)))).
      symmetry. apply direct_rout; auto. intros m0 k0 j0 E0 F0 L0. rewrite (A' m0 k0 j0); auto.
      symmetry. assert (k0 = j) by congruence. subst. apply (Low m0 j0); auto.
      unfold kof in F0. destruct (dget (d_node d) m0) eqn:Q; [|discriminate]. apply dget_In_keys in Q; exact Q. }
    assert (Ex : xg (s_xyz st') n = xg (s_xyz s') n) by (unfold xg; now rewrite (proj1 (Low n j In1 Ej (Z.le_refl _)))).
    split; apply dget_xg; try congruence.
  Qed.

  (** Nodes on the sequence after kmax keep their position, and on a direct topology
      the positions up to kmax are those of the unrestricted computation. *)
  Lemma c39_kmax_partial : forall d km tmax tmax' eta eta' verbose verbose' form full,
    reachable d -> ready d ->
    static_equilibrium d (Some km) tmax eta verbose = Ok form ->
    static_equilibrium d None tmax' eta' verbose' = Ok full ->
    (forall n, node_sequence d n = Ok (km + 1) -> node_coordinates form n = node_coordinates d n)
    /\ (direct_only d -> forall n k, node_sequence d n = Ok k -> k <= km ->
          node_coordinates form n = node_coordinates full n).
  Proof.
    intros d km tmax tmax' eta eta' verbose verbose' form full Hr R E E'. apply reachable_wf in Hr as W.
    destruct (ready_ts d W R) as (ts&Ets&Hts).
    assert (Seq : forall n k, node_sequence d n = Ok k -> In n (nodes d) /\ kof d n = Some k).
    { intros n k Ek. split; [|now apply seq_kof].
      unfold node_sequence, node_get, dgetr in Ek. destruct (dget (d_node d) n) eqn:Q; [|discriminate].
      apply dget_In_keys in Q. exact Q. }
    split.
    - intros n Ek. destruct (Seq n _ Ek) as [I Kn].
      apply static_Ok in E as (st&Es&Iv&N&Ed&An&Ae&_); auto.
      apply equilibrium_state_Ok in Es as (ts1&t&Ets1&_&A&_). rewrite Ets in Ets1. injection Ets1 as <-.
      destruct (after_fixed d ts (Some km) t st W R Hts A) as (F1&_).
      destruct (F1 n I) as [X _].
      { intros m F. assert (Km := proj2 (follows_kof d m n km R F) Kn). unfold stops. rewrite Km, Z.eqb_refl. apply orb_true_r. }
      unfold node_coordinates, node_get, dgetr. rewrite An. apply In_keys_dget in I as [a Ea]. rewrite Ea. cbn.
      unfold node_after. rewrite X. cbn. rewrite dget_map, Ea. cbn. now destruct (dget (s_reac st) n).
    - intros Di n k Ek L. destruct (Seq n _ Ek) as [I Kn].
      apply c35_one_iteration with (eta' := eta) in E; auto. apply c35_one_iteration with (eta' := eta) in E'; auto.
      apply static_Ok in E as (st&Es&Iv&N&Ed&An&Ae&_); auto.
      apply static_Ok in E' as (st'&Es'&Iv'&N'&Ed'&An'&Ae'&_); auto.
      apply equilibrium_state_Ok in Es as (ts1&t&Ets1&_&A&B&_). rewrite Ets in Ets1. injection Ets1 as <-.
      apply equilibrium_state_Ok in Es' as (ts1&t'&Ets1&_&A'&B'&_). rewrite Ets in Ets1. injection Ets1 as <-.
      assert (t = 1%nat) by lia. assert (t' = 1%nat) by lia. subst t t'.
      assert (Sw := after_swept d ts (Some km) 0 _ _ W R Hts eq_refl A).
      assert (Sw' := after_swept d ts None 0 _ _ W R Hts eq_refl A').
      destruct (direct_agree d _ _ _ _ _ _ _ _ km W R Di Sw Sw') with (m := n) (k := k) as [X _]; auto.
      + intros m j Ej Lj Sm. unfold stops. rewrite Sm, Ej. cbn. split; auto. apply Z.eqb_neq. lia.
      + intros key tr It. assert (Ik : In key (nodes d)).
        { eapply trail_node; eauto; [apply In_stored; eauto|]. apply (rd_keys _ R) in It as [r ->]. now left. }
        destruct (after_fixed d ts (Some km) 1 st W R Hts A) as (F1&_).
        destruct (after_fixed d ts None 1 st' W R Hts A') as (F1'&_).
        destruct (F1 key Ik) as [-> ->]; [intros m F; destruct (first_not_follows d key tr m R It F)|].
        destruct (F1' key Ik) as [-> ->]; [intros m F; destruct (first_not_follows d key tr m R It F)|]. auto.
      + unfold node_coordinates, node_get, dgetr. rewrite An, An'. apply In_keys_dget in I as [a Ea]. rewrite Ea. cbn.
        unfold node_after. rewrite X. destruct (dget (s_xyz st') n), (dget (s_reac st) n), (dget (s_reac st') n); auto.
  Qed.

  (** ** C58 *)

  (** Lookup by coordinates answers as in the topology, so the first nodes of trails,
      which stay in place, are still found. *)
  Lemma c58_origins_partial : forall d tmax eta verbose form, reachable d -> ready d ->
    static_equilibrium d None tmax eta verbose = Ok form ->
    (forall p, node_key form (RXyz p) = node_key d (RXyz p))
    /\ forall key tr p, In (key, tr) (trails d) -> node_coordinates d key = Ok p -> node_key d (RXyz p) = Some key ->
         node_coordinates form key = Ok p /\ node_key form (RXyz p) = Some key.
  Proof.
    intros d tmax eta verbose form Hr R E.
    assert (Q : forall p, node_key form (RXyz p) = node_key d (RXyz p)).
    { intros p. now rewrite (proj2 (proj2 (proj2 (proj2 (proj2 (proj2 (proj2 (proj2 (proj2 (c37_frame _ _ _ _ _ _ Hr E)))))))))). }
    split; auto. intros key tr p It Ec Ek. rewrite Q. split; auto.
    rewrite <- Ec. eapply (c37_inputs d); eauto.
  Qed.
End Thms.
