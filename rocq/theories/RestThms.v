(** * A form in equilibrium is at rest *)

From Coq Require Import String List ZArith Bool Lia Permutation Reals Lra.
From Verif Require Import Py PyFacts Num Diagram DiagramFacts Topology SpecDiagram SpecTopology
  TopologyFacts BuildFacts ChainFacts ChainFacts2 History HistoryFacts DiagramThms TopologyThms SequenceThms
  Equilibrium SpecEquilibrium EqFacts FormFacts ReadyThms TypedFacts EqThms RVec SpecStatics StaticsFacts StaticsThms.
Import ListNotations.
Open Scope Z_scope.

Implicit Types (d f g form : diagram R).

Lemma vsteps_rest d l st : (forall n s, In n (nodes d) -> vstep d None true n st s -> s = st) ->
  forall st', vsteps d None true l st st' -> st' = st.
Proof.
  intros H. induction l as [|n l IH]; intros st' V; inversion V as [|? ? ? s1 ? I D S V']; subst; auto.
  apply H in S; auto. subst s1. auto.
Qed.

(** If the form is in equilibrium, the next iteration leaves the containers as they are. *)
Lemma balanced_rest d ts t s0 st form : reachable d -> ready d -> nonzero_trails d -> ts_ok d ts ->
  after d ts None t = Ok s0 -> after d ts None (S t) = Ok st -> formed d st form -> balanced form ->
  sweep d ts None true st = Ok st.
Proof.
  intros Hr R Nz Hts E0 E1 Fm Ba. apply reachable_wf in Hr as W.
  assert (Sw := after_swept d ts None t s0 st W R Hts E0 E1).
  destruct (after_fixed d ts None (S t) st W R Hts E1) as (A&B&C).
  assert (V : forall n s, In n (nodes d) -> vstep d None true n st s -> s = st).
  { intros n s I St.
    destruct (unbalanced_visit d _ s0 st form n Hr R Nz Sw Fm) as (w&_&_&U&Bw&X1&X2); auto.
    - intros e Ie Te. apply C. intros p q F _ ->. destruct (trail_key_edge d p q W R F) as (a&Ea&Ta&_).
      unfold tr_b in Te. rewrite Ea, Ta in Te. discriminate.
    - intros p Sp. apply B. unfold stops. now rewrite Sp.
    - intros m Im Nf. apply A; auto. intros p F. destruct (Nf p F).
    - assert (Bn := Ba n). rewrite (fm_nodes _ _ _ Fm) in Bn. rewrite (Bn I) in U.
      assert (Rv : rout d n (xg (s_res st) n) (s_xyz st) true
                   = rout d n (xg (s_res st) n) w (negb (t =? 0)%nat)).
      { unfold rout.
        rewrite (direct_final d n w (s_xyz st) W R I) by (intros; eapply Bw; eauto). f_equal.
        rewrite dev_sum_vsum. set (c := vsum (map (dpull d (s_xyz st) n) (cind d n))) in *.
        assert (Q : forall c', v0 = c -v c' -> c = c') by (intros c' Q; replace c with (c' +v (c -v c')) by vring; rewrite <- Q; vring).
        destruct (negb (t =? 0)%nat); [rewrite dev_sum_vsum|]; now apply Q. }
      rewrite <- Rv in X1, X2. destruct St as [Sn|m Sn F].
      + unfold put_reaction. rewrite dset_same by auto. now destruct st.
      + destruct (X2 m Sn F) as (Y1&Y2&Y3&Y4). destruct (follows_nodes d n m R F) as [_ Im].
        assert (Iv := after_inv d ts None _ _ W E1).
        unfold put_next. rewrite !dset_same; auto.
        * now destruct st.
        * rewrite <- Y2. unfold xg. assert (Q := Im). rewrite <- (iv_res _ _ Iv) in Q. apply In_keys_dget in Q as [p Ep]. now rewrite Ep.
        * rewrite <- Y1. unfold xg. assert (Q := Im). rewrite <- (iv_xyz _ _ Iv) in Q. apply In_keys_dget in Q as [p Ep]. now rewrite Ep. }
  destruct (ready_last d W R) as (kl&Ekl&_).
  destruct (sweep_steps d ts None true kl st W R Hts Ekl (inv_dom _ _ (after_inv d ts None _ _ W E1))) as (st'&E&Vs&_).
  rewrite E. f_equal. eapply vsteps_rest; eauto.
Qed.

Lemma after_rest d ts t st : after d ts None (S t) = Ok st -> sweep d ts None true st = Ok st ->
  forall j, (S t <= j)%nat -> after d ts None j = Ok st.
Proof.
  intros E Sw j L. induction L as [|j L IH]; auto. cbn [after]. rewrite IH. cbn [bind].
  assert (X : negb (j =? 0)%nat = true) by (apply negb_true_iff, Nat.eqb_neq; lia). now rewrite X.
Qed.

(** A form in static equilibrium is final: with more iterations and a tighter
    threshold form finding returns the very same form. *)
Lemma c95_final : forall d tmax eta verbose form tmax' eta' verbose', reachable d -> ready d -> nonzero_trails d ->
  static_equilibrium d None tmax eta verbose = Ok form -> balanced form ->
  tmax < tmax' -> (0 <= eta' <= eta)%R ->
  static_equilibrium d None tmax' eta' verbose' = Ok form.
Proof.
  intros d tmax eta verbose form tmax' eta' verbose' Hr R Nz E Ba L He. apply reachable_wf in Hr as W.
  destruct (static_formed d None tmax eta verbose form W R E) as (st&Es&Fm).
  assert (Es' : equilibrium_state d None tmax' eta' verbose' = Ok st).
  2:{ unfold static_equilibrium in *. rewrite Es in E. rewrite Es'. exact E. }
  destruct (equilibrium_state_Ok d None tmax eta verbose st Es) as (ts&t&Ets&_&At&Bt&T1&F&X).
  destruct (ready_ts d W R) as (ts'&Ets'&Hts). rewrite Ets in Ets'. injection Ets' as <-.
  destruct t as [|t]; [lia|]. destruct (after_total d ts None W R Hts t) as (s0&E0&_).
  assert (Sw := balanced_rest d ts t s0 st form Hr R Nz Hts E0 At Fm Ba).
  assert (Rest := after_rest d ts t st At Sw).
  rewrite (equilibrium_state_unfold d None tmax' eta' verbose' ts W R I Ets).
  destruct (iterate_total d ts None eta' W R Hts (Z.to_nat tmax') 0 None (init_state d) eq_refl) as (r&Er).
  rewrite Er. cbn [bind]. destruct r as [[st' ot] od]. apply iterate_spec in Er; [|reflexivity].
  assert (Zero : forall j x, (S t <= j)%nat -> moves d ts None j x -> x = 0%R).
  { intros j x Lj M. rewrite (moves_sum d ts None j st st x W (Rest j Lj) (Rest (S j) ltac:(lia)) M).
    clear. induction (nodes d) as [|n l IH]; auto. cbn [map]. unfold rsum in *. cbn [fold_right]. rewrite IH, dist_self. ring. }
  destruct Er as [(s&x&Bs&P&M&Lx&Fx&A'&->&->)|(Fx&A'&->&O2)].
  - assert (Xs : (s =? 0)%nat = false) by (apply Nat.eqb_neq; lia). rewrite Xs. cbn [negb].
    change (nltb x eta') with (Rltb x eta') in Lx. change (nltb eta' x) with (Rltb eta' x).
    destruct (Rltb_spec x eta') as [Lx'|]; [|discriminate]. destruct (Rltb_spec eta' x); [lra|].
    assert (Ls : (t <= s)%nat).
    { destruct (le_lt_dec t s); auto. exfalso. assert (Y := F s x P ltac:(lia) M).
      change (nltb x eta) with (Rltb x eta) in Y. destruct (Rltb_spec x eta); [discriminate|lra]. }
    rewrite (Rest (S s)) in A' by lia. now injection A' as <-.
  - cbn [Nat.add] in *. destruct (Z.to_nat tmax') as [|n] eqn:En; [lia|].
    rewrite (Rest (S n)) in A' by lia. injection A' as <-.
    assert (Xn : (n =? 0)%nat = false) by (apply Nat.eqb_neq; lia). rewrite Xn. cbn [negb].
    assert (Y : (S n =? 0)%nat || (S n =? 1)%nat = false) by (apply orb_false_iff; split; apply Nat.eqb_neq; lia).
    rewrite Y in O2. destruct O2 as (x&->&M). replace (S n - 1)%nat with n in M by lia.
    rewrite (Zero n x) by (auto; lia). change (nltb eta' 0%R) with (Rltb eta' 0%R). destruct (Rltb_spec eta' 0); [lra|auto].
Qed.

(** Being in static equilibrium and being at rest under further iterations are the same. *)
Lemma c95_rest : forall d tmax eta verbose form, reachable d -> ready d -> nonzero_trails d -> 1 <= tmax -> (0 <= eta)%R ->
  static_equilibrium d None tmax eta verbose = Ok form ->
  (balanced form <-> static_equilibrium d None (tmax + 1) 0%R false = Ok form).
Proof.
  intros d tmax eta verbose form Hr R Nz L P E. split.
  - intros B. apply (c95_final d tmax eta verbose form (tmax + 1) 0%R false); auto; [lia|lra].
  - intros E'. eapply c32_at_rest; eauto; [lia|lra].
Qed.
