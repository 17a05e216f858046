(** * Balance of forces in the form, over the real numbers *)

From Coq Require Import String List ZArith Bool Lia Permutation Reals Lra.
From Verif Require Import Py PyFacts Num Diagram DiagramFacts Topology SpecDiagram SpecTopology
  TopologyFacts BuildFacts ChainFacts ChainFacts2 History HistoryFacts DiagramThms TopologyThms SequenceThms
  Equilibrium SpecEquilibrium EqFacts FormFacts ReadyThms TypedFacts EqThms RVec SpecStatics.
Import ListNotations.
Open Scope Z_scope.

Implicit Types (d f form : diagram R).

Lemma magnitude_norm u : magnitude u = norm u.
Proof. reflexivity. Qed.

Lemma direction_unitv u : direction u = unitv u.
Proof.
  unfold direction. rewrite magnitude_norm. destruct (vec_dec u) as [->|N].
  - rewrite unitv_v0, norm_v0. apply vec_eq; cbn; unfold Rdiv; ring.
  - rewrite unitv_scale by auto. apply vec_eq; cbn; unfold Rdiv; ring.
Qed.

Lemma far_other e n : far_end e n = other e n.
Proof. unfold far_end, other. now destruct (fst e =? n). Qed.

(** An edge pulls its two ends in opposite directions. *)
Lemma pull_opposite f u v : pull f v (u, v) = (-1)%R *v pull f u (u, v).
Proof.
  unfold pull, far_end. cbn [fst snd]. rewrite Z.eqb_refl. destruct (Z.eqb_spec u v) as [->|N].
  - rewrite vsub_self, direction_unitv, unitv_v0, !vscale_v0. reflexivity.
  - rewrite !direction_unitv, (unitv_sym (position f u)). rewrite !vscale_scale. f_equal; ring.
Qed.

(** ** The queries of a form found by static_equilibrium *)

Record formed d (st : eqstate R) form : Prop := {
  fm_nodes : nodes form = nodes d;
  fm_edges : edges form = edges d;
  fm_position : forall n, In n (nodes d) -> position form n = xg (s_xyz st) n;
  fm_load : forall n, In n (nodes d) -> load form n = qo d n;
  fm_reaction : forall n, In n (nodes d) -> reaction form n = xg (s_reac st) n;
  fm_force : forall e, In e (edges d) ->
    force form e = match dget (s_tforce st) e with Some x => x | None => fo d e end
}.

Lemma static_formed d kmax tmax eta verbose form : wf d -> ready d ->
  static_equilibrium d kmax tmax eta verbose = Ok form ->
  exists st, equilibrium_state d kmax tmax eta verbose = Ok st /\ formed d st form.
Proof.
  intros W R E. apply static_Ok in E as (st&Es&I&N&Ed&An&Ae&_); auto. exists st. split; auto.
  constructor; auto.
  - intros n J. unfold position, node_coordinates, node_get, dgetr. rewrite An. assert (J' := J).
    apply In_keys_dget in J' as [a Ea]. rewrite Ea. cbn. unfold node_after, xg.
    rewrite <- (iv_xyz _ _ I) in J. apply In_keys_dget in J as [p Ep]. rewrite Ep. now destruct (dget (s_reac st) n).
  - intros n J. unfold load, node_load, node_get, dgetr, qo. rewrite An.
    apply In_keys_dget in J as [a Ea]. rewrite Ea. cbn. unfold node_after.
    now destruct (dget (s_xyz st) n), (dget (s_reac st) n).
  - intros n J. assert (Q := rd_reactions _ R n J). unfold reaction, reaction_force, node_get, dgetr in *. rewrite An.
    apply In_keys_dget in J as [a Ea]. rewrite Ea in *. cbn in *. unfold node_after, xg.
    injection Q as Q. now destruct (dget (s_xyz st) n), (dget (s_reac st) n); cbn.
  - intros e J. unfold force, edge_force, edge_get, fo. rewrite Ae. apply In_edges, has_edge_find in J as [a Ea]; auto.
    rewrite Ea. cbn. unfold force_after. now destruct (dget (s_tforce st) e).
Qed.

(** Everything about a successful run without kmax. *)
Lemma static_run d tmax eta verbose form : reachable d -> ready d ->
  static_equilibrium d None tmax eta verbose = Ok form ->
  exists ts t s0 st, trails_sequences d = Ok ts /\ ts_ok d ts
    /\ after d ts None t = Ok s0 /\ after d ts None (S t) = Ok st
    /\ swept d None (negb (t =? 0)%nat) s0 st /\ formed d st form /\ inv d s0 /\ inv d st
    /\ (2 <= tmax -> (1 <= t)%nat /\ exists x, moves d ts None t x /\ (x <= eta)%R).
Proof.
  intros Hr R E. apply reachable_wf in Hr as W. destruct (static_formed d None tmax eta verbose form W R E) as (st&Es&F).
  apply equilibrium_state_Ok in Es as (ts&t&Ets&_&A&B&T1&Fa&X).
  destruct (ready_ts d W R) as (ts'&Ets'&Hts). rewrite Ets in Ets'. injection Ets' as <-.
  destruct t as [|t]; [lia|].
  destruct (after_total d ts None W R Hts t) as (s0&E0&I0). exists ts, t, s0, st.
  split; auto. split; auto. split; auto. split; auto. split; [eapply after_swept; eauto|].
  split; auto. split; auto. split; [eapply after_inv; eauto|].
  intros L. destruct (X L) as (x&M&C). replace (S t - 1)%nat with t in * by lia.
  split; [destruct t; [specialize (T1 eq_refl); lia|lia]|]. exists x. split; auto.
  change (nltb x eta) with (Rltb x eta) in C. change (nltb eta x) with (Rltb eta x) in C.
  destruct C as [C|(_&_&C)].
  - destruct (Rltb_spec x eta); [lra|discriminate].
  - destruct (Rltb_spec eta x); [discriminate|lra].
Qed.

(** ** Trail edges *)

Lemma far_key d n m : n <> m -> far_end (trail_edge_key d n m) n = m /\ far_end (trail_edge_key d n m) m = n.
Proof.
  intros N. unfold far_end, trail_edge_key. destruct (has_edge d (n, m)); cbn [fst snd]; rewrite ?Z.eqb_refl.
  - destruct (Z.eqb_spec n m); [congruence|auto].
  - destruct (Z.eqb_spec m n); [congruence|auto].
Qed.

Lemma follows_neq d n m : ready d -> follows d n m -> n <> m.
Proof.
  intros R F ->. destruct (follows_nodes d m m R F) as [I _]. destruct (ready_kof d m R I) as (k&Ek&_).
  assert (X := proj1 (follows_kof d m m k R F) Ek). rewrite Ek in X. injection X. lia.
Qed.

Lemma pull_key_opposite d f n m : n <> m ->
  pull f m (trail_edge_key d n m) = (-1)%R *v pull f n (trail_edge_key d n m).
Proof.
  intros N. destruct (far_key d n m N) as [A B]. unfold pull. rewrite A, B, !direction_unitv, (unitv_sym (position f n)).
  rewrite !vscale_scale. f_equal; ring.
Qed.

Lemma copysign_pull l r : (l <> 0)%R ->
  @ncopysign R _ (norm r) l *v unitv (l *v unitv r) = r.
Proof.
  intros N. rewrite ncopysign_R, Rabs_right by (apply Rle_ge, norm_nonneg). destruct (Rlt_dec l 0) as [L|L].
  - rewrite unitv_neg by auto. rewrite unitv_unitv, vscale_scale.
    replace (- norm r * -1)%R with (norm r) by ring. apply norm_times_unitv.
  - rewrite unitv_pos by lra. rewrite unitv_unitv. apply norm_times_unitv.
Qed.

Lemma lout_nonzero d n m pos r : wf d -> ready d -> nonzero_trails d -> follows d n m -> lout d n m pos r <> 0%R.
Proof.
  intros W R Nz F. destruct (trail_key_edge d n m W R F) as (a&Ea&Ta&_).
  assert (L : ea_length a <> 0%R).
  { apply (Nz (trail_edge_key d n m)); [apply In_trail_edges; eauto|]. unfold edge_length_2, edge_get. now rewrite Ea. }
  unfold lout, ea. rewrite Ea. unfold trail_edge_length. destruct (ea_plane a) as [pl|]; auto.
  destruct (trail_length_from_plane pos r pl neps6) as [x|]; auto.
  unfold ntruthy. cbn [neqb n0 R_ops]. destruct (Reqb_spec x 0); cbn [negb]; auto.
Qed.

(** A trail edge pulls its near end with the outgoing vector. *)
Lemma trail_pull d ind s0 st form n m w : wf d -> ready d -> nonzero_trails d -> swept d None ind s0 st -> formed d st form ->
  follows d n m ->
  let rv := rout d n (xg (s_res st) n) w ind in
  xg (s_xyz st) m = xg (s_xyz st) n +v lout d n m (xg (s_xyz st) n) rv *v unitv rv ->
  dget (s_tforce st) (trail_edge_key d n m) = Some (ncopysign (norm rv) (lout d n m (xg (s_xyz st) n) rv)) ->
  pull form n (trail_edge_key d n m) = rv.
Proof.
  intros W R Nz Sw Fm F rv X1 X3. destruct (follows_nodes d n m R F) as [I1 I2].
  destruct (trail_key_edge d n m W R F) as (a&Ea&Ta&_).
  destruct (far_key d n m (follows_neq d n m R F)) as [Fe _]. unfold pull. rewrite Fe.
  rewrite (fm_position _ _ _ Fm m I2), (fm_position _ _ _ Fm n I1), X1.
  rewrite (fm_force _ _ _ Fm), X3 by (apply In_edges; auto; apply has_edge_find; eauto).
  rewrite direction_unitv.
  replace (xg (s_xyz st) n +v lout d n m (xg (s_xyz st) n) rv *v unitv rv -v xg (s_xyz st) n)
    with (lout d n m (xg (s_xyz st) n) rv *v unitv rv) by vring.
  apply copysign_pull. now apply lout_nonzero.
Qed.

(** ** Splitting the incident edges *)

Definition tr_b d (e : ekey) : bool := match edge_find d e with Some a => opt_is etype_eqb (ea_type a) ETrail | None => false end.
Definition at_b (n : Z) (e : ekey) : bool := (fst e =? n) || (snd e =? n).

Lemma at_b_spec n e : at_b n e = true <-> fst e = n \/ snd e = n.
Proof. unfold at_b. rewrite orb_true_iff, !Z.eqb_eq. tauto. Qed.

Lemma vsum_split {A} (p q r s : A -> bool) (g : A -> rvec) l :
  (forall a, In a l -> p a = true -> (q a = true /\ r a = false /\ s a = false)
     \/ (q a = false /\ r a = true /\ s a = false) \/ (q a = false /\ r a = false /\ s a = true)) ->
  vsum (map g (filter p l)) = vsum (map g (filter (fun a => p a && q a) l))
    +v vsum (map g (filter (fun a => p a && r a) l)) +v vsum (map g (filter (fun a => p a && s a) l)).
Proof.
  induction l as [|a l IH]; intros Hp; cbn [filter map].
  - change (v0 = v0 +v v0 +v v0). vring.
  - assert (Ha := Hp a (or_introl eq_refl)). specialize (IH (fun b I => Hp b (or_intror I))).
    destruct (p a); cbn [andb]; auto.
    destruct (Ha eq_refl) as [(->&->&->)|[(->&->&->)|(->&->&->)]]; cbn [map]; rewrite !vsum_cons, IH; vring.
Qed.

Lemma edge_cases d e : reachable d -> ready d -> In e (edges d) ->
  (tr_b d e = true /\ dir_b d e = false /\ indir_b d e = false)
  \/ (tr_b d e = false /\ dir_b d e = true /\ indir_b d e = false)
  \/ (tr_b d e = false /\ dir_b d e = false /\ indir_b d e = true).
Proof.
  intros Hr R I. apply reachable_wf in Hr as W. apply In_edges, has_edge_find in I as [a Ea]; auto.
  assert (X := reachable_typed d Hr e a Ea). unfold tr_b, dir_b, indir_b. rewrite Ea.
  destruct (wf_eends _ W _ _ Ea) as [I1 I2].
  destruct (ready_kof d _ R I1) as (j&->&_). destruct (ready_kof d _ R I2) as (k&->&_).
  destruct (ea_type a) as [[]|]; cbn; [tauto| |congruence]. destruct (j =? k); cbn; tauto.
Qed.

Lemma at_trail d n e : wf d -> ready d -> In e (edges d) -> (at_b n e && tr_b d e = true <->
  (exists m, follows d n m /\ e = trail_edge_key d n m) \/ (exists p, follows d p n /\ e = trail_edge_key d p n)).
Proof.
  intros W R I. rewrite andb_true_iff, at_b_spec. split.
  - intros [A B]. unfold tr_b in B. destruct (edge_find d e) as [a|] eqn:Ea; [|discriminate].
    assert (Ta : ea_type a = Some ETrail) by (destruct (ea_type a) as [[]|]; cbn in B; congruence).
    assert (It : In e (trail_edges d)) by (apply In_trail_edges; eauto).
    assert (Sg := ch_simple _ _ (rd_chains _ R)). destruct e as [u v]. cbn [fst snd] in A.
    assert (K1 : trail_edge_key d u v = (u, v)).
    { unfold trail_edge_key. assert (has_edge d (u, v) = true) by (apply has_edge_find; eauto). now rewrite H. }
    assert (K2 : trail_edge_key d v u = (u, v)).
    { unfold trail_edge_key. destruct (has_edge d (v, u)) eqn:Q; auto. exfalso. apply In_edges in Q; auto. apply (Sg u v); auto. }
    destruct (joined_follows d u v R) as [F|F]; [now left| |].
    + destruct A as [->| ->]; [left; exists v|right; exists u]; auto.
    + destruct A as [->| ->]; [right; exists v|left; exists u]; auto.
  - intros [(m&F&->)|(p&F&->)].
    + destruct (trail_key_edge d n m W R F) as (a&Ea&Ta&_). unfold tr_b. rewrite Ea, Ta. split; auto.
      unfold trail_edge_key. destruct (has_edge d (n, m)); cbn; auto.
    + destruct (trail_key_edge d p n W R F) as (a&Ea&Ta&_). unfold tr_b. rewrite Ea, Ta. split; auto.
      unfold trail_edge_key. destruct (has_edge d (p, n)); cbn; auto.
Qed.

Lemma trail_sum d n (g : ekey -> rvec) : wf d -> ready d ->
  forall (gin gout : rvec),
  (forall p, follows d p n -> g (trail_edge_key d p n) = gin) -> ((forall p, ~ follows d p n) -> gin = v0) ->
  (forall m, follows d n m -> g (trail_edge_key d n m) = gout) -> ((forall m, ~ follows d n m) -> gout = v0) ->
  In n (nodes d) ->
  vsum (map g (filter (fun e => at_b n e && tr_b d e) (edges d))) = gin +v gout.
Proof.
  intros W R gin gout G1 G2 G3 G4 I.
  set (l := filter (fun e => at_b n e && tr_b d e) (edges d)).
  assert (N : NoDup l) by (apply NoDup_filter, NoDup_edges; auto).
  assert (M : forall e, In e l <-> (exists m, follows d n m /\ e = trail_edge_key d n m)
                       \/ (exists p, follows d p n /\ e = trail_edge_key d p n)).
  { intros e. unfold l. rewrite filter_In. split; [intros [J B]; now apply at_trail|].
    intros B. assert (J : In e (edges d)).
    { destruct B as [(m&F&->)|(p&F&->)]; [destruct (trail_key_edge d n m W R F) as (a&Ea&_)|destruct (trail_key_edge d p n W R F) as (a&Ea&_)];
        (apply In_edges; auto; apply has_edge_find; eauto). }
    split; auto. now apply at_trail. }
  assert (P : (exists p, follows d p n) \/ (forall p, ~ follows d p n)).
  { destruct (first_or_follows d n R I) as [(key&tr&It&->)|F]; auto. right. intros p. eapply first_not_follows; eauto. }
  assert (Q : (exists m, follows d n m) \/ (forall m, ~ follows d n m)).
  { destruct (is_sup d n) eqn:S; [right; intros m; now apply sup_not_follows|left; now apply not_sup_follows]. }
  assert (Pm : exists l', Permutation l l' /\ vsum (map g l') = gin +v gout).
  { destruct P as [[p Fp]|Np], Q as [[m Fm]|Nm].
    - exists [trail_edge_key d p n; trail_edge_key d n m]. split.
      + apply NoDup_Permutation; auto.
        * constructor; [|constructor; [easy|constructor]]. intros [E|[]].
          apply (trail_key_inj d n m p n R) in E as [<- _]; auto. now apply (follows_neq d n n R Fp).
        * intros e. rewrite M. cbn. split.
          -- intros [(m'&F&->)|(p'&F&->)]; [rewrite (follows_fun d n m' m R F Fm)|rewrite (follows_inj d p' p n R F Fp)]; auto.
          -- intros [<-|[<-|[]]]; eauto.
      + cbn [map]. rewrite (G1 p Fp), (G3 m Fm). rewrite !vsum_cons. change (vsum []) with v0. vring.
    - exists [trail_edge_key d p n]. split.
      + apply NoDup_Permutation; auto; [constructor; [easy|constructor]|].
        intros e. rewrite M. cbn. split.
        * intros [(m'&F&->)|(p'&F&->)]; [destruct (Nm m' F)|rewrite (follows_inj d p' p n R F Fp)]; auto.
        * intros [<-|[]]; eauto.
      + cbn [map]. rewrite (G1 p Fp), (G4 Nm), vsum_cons. change (vsum []) with v0. vring.
    - exists [trail_edge_key d n m]. split.
      + apply NoDup_Permutation; auto; [constructor; [easy|constructor]|].
        intros e. rewrite M. cbn. split.
        * intros [(m'&F&->)|(p'&F&->)]; [rewrite (follows_fun d n m' m R F Fm)|destruct (Np p' F)]; auto.
        * intros [<-|[]]; eauto.
      + cbn [map]. rewrite (G2 Np), (G3 m Fm), vsum_cons. change (vsum []) with v0. vring.
    - exists []. split.
      + destruct l as [|e l]; auto. exfalso. destruct (proj1 (M e) (or_introl eq_refl)) as [(m&F&_)|(p&F&_)]; [apply (Nm m F)|apply (Np p F)].
      + rewrite (G2 Np), (G4 Nm). change (v0 = v0 +v v0). vring. }
  destruct Pm as (l'&Pm&<-). apply vsum_perm. now apply Permutation_map.
Qed.

Lemma dev_sum_vsum d w n es : dev_sum d w n es = vsum (map (dpull d w n) es).
Proof. unfold dev_sum. rewrite fold_left_vsum. apply vadd_0_l. Qed.

(** The unbalanced force at a node is the change of its indirect deviation forces
    between the visit of the node and the end of the iteration. *)
Lemma unbalanced_visit d ind s0 st form n : reachable d -> ready d -> nonzero_trails d ->
  swept d None ind s0 st -> formed d st form ->
  (forall e, In e (edges d) -> tr_b d e = false -> dget (s_tforce st) e = None) ->
  (forall n, is_sup d n = false -> dget (s_reac st) n = None) ->
  (forall m, In m (nodes d) -> (forall n, ~ follows d n m) -> dget (s_res st) m = Some v0) ->
  In n (nodes d) -> exists w,
    (forall m, dget w m = dget (s_xyz st) m \/ dget w m = dget (s_xyz s0) m)
    /\ dget w n = dget (s_xyz st) n
    /\ unbalanced form n = vsum (map (dpull d (s_xyz st) n) (cind d n))
         -v (if ind then vsum (map (dpull d w n) (cind d n)) else v0)
    /\ (forall m k j, kof d n = Some k -> kof d m = Some j -> j <= k -> dget w m = dget (s_xyz st) m)
    /\ let rv := rout d n (xg (s_res st) n) w ind in
       (stops d None n = true -> dget (s_reac st) n = Some rv)
       /\ (forall m, stops d None n = false -> follows d n m ->
             let l := lout d n m (xg (s_xyz st) n) rv in
             let e := trail_edge_key d n m in
             xg (s_xyz st) m = xg (s_xyz st) n +v l *v unitv rv
             /\ xg (s_res st) m = rv
             /\ dget (s_tforce st) e = Some (ncopysign (norm rv) l)
             /\ dget (s_tdir st) e = Some (unitv rv)).
Proof.
  intros Hr R Nz Sw Fm Tf Rc Rs I. apply reachable_wf in Hr as W.
  assert (Sg := ch_simple _ _ (rd_chains _ R)). assert (Sq := ready_sequenced d R).
  destruct (sw_visit _ _ _ _ _ Sw n I) as (w&Kw&Aw&Bw&X). cbn zeta in X. destruct X as [X1 X2].
  destruct (ready_kof d n R I) as (k&Ek&_).
  exists w. split; auto. split; [eapply Bw; eauto; lia|].
  cbn zeta. split; [|auto].
  set (rv := rout d n (xg (s_res st) n) w ind) in *.
  (* the pulls *)
  assert (Dev : forall e, In e (edges d) -> tr_b d e = false -> fst e = n \/ snd e = n ->
      pull form n e = dpull d (s_xyz st) n e).
  { intros e Ie Te En. unfold pull, dpull, vector_two_nodes. rewrite far_other, direction_unitv.
    rewrite (fm_force _ _ _ Fm), Tf by auto. apply In_edges, has_edge_find in Ie as [a Ea]; auto.
    destruct (wf_eends _ W _ _ Ea) as [I1 I2].
    rewrite (fm_position _ _ _ Fm n I), (fm_position _ _ _ Fm (other e n)); auto.
    unfold other. now destruct (negb (fst e =? n)). }
  unfold unbalanced. rewrite (fm_load _ _ _ Fm n I), (fm_reaction _ _ _ Fm n I).
  unfold incident. rewrite (fm_edges _ _ _ Fm). change (fun e : ekey => (fst e =? n) || (snd e =? n)) with (at_b n).
  rewrite (vsum_split (at_b n) (tr_b d) (dir_b d) (indir_b d)) by (intros e Ie _; now apply edge_cases).
  (* trail edges *)
  rewrite (trail_sum d n (pull form n) W R ((-1)%R *v xg (s_res st) n) (if is_sup d n then v0 else rv)); auto.
  2:{ intros p F. rewrite (pull_key_opposite d form p n) by (eapply follows_neq; eauto). f_equal.
      destruct (follows_nodes d p n R F) as [Ip _].
      destruct (sw_visit _ _ _ _ _ Sw p Ip) as (w'&_&_&_&_&Y2). cbn zeta in Y2.
      assert (Sp : stops d None p = false).
      { unfold stops. rewrite orb_false_r. destruct (is_sup d p) eqn:Q; auto. destruct (sup_not_follows d p n W R Q F). }
      destruct (Y2 n Sp F) as (Z1&Z2&Z3&_). rewrite Z2. eapply trail_pull; eauto. }
  2:{ intros Np. unfold xg. rewrite Rs by auto. apply vscale_v0. }
  2:{ intros m F. destruct (is_sup d n) eqn:Q; [destruct (sup_not_follows d n m W R Q F)|].
      destruct (X2 m) as (Z1&Z2&Z3&_); auto; [unfold stops; now rewrite Q|]. eapply trail_pull; eauto. }
  2:{ intros Nm. destruct (is_sup d n) eqn:Q; auto. destruct (not_sup_follows d n W R I Q) as [m F]. destruct (Nm m F). }
  (* reaction *)
  assert (Er : xg (s_reac st) n = if is_sup d n then rv else v0).
  { unfold xg. destruct (is_sup d n) eqn:Q; [rewrite X1|rewrite Rc]; auto. unfold stops. now rewrite Q. }
  rewrite Er.
  (* deviation edges *)
  assert (Pd : Permutation (filter (fun e => at_b n e && dir_b d e) (edges d)) (cdir d n)).
  { destruct (cdir_spec d n W Sg Sq I) as (_&N&M). apply NoDup_Permutation; auto; [now apply NoDup_filter, NoDup_edges|].
    intros e. rewrite filter_In, andb_true_iff, at_b_spec, M. tauto. }
  assert (Pi : Permutation (filter (fun e => at_b n e && indir_b d e) (edges d)) (cind d n)).
  { destruct (cind_spec d n W Sg Sq I) as (_&N&M). apply NoDup_Permutation; auto; [now apply NoDup_filter, NoDup_edges|].
    intros e. rewrite filter_In, andb_true_iff, at_b_spec, M. tauto. }
  rewrite (vsum_perm _ _ (Permutation_map _ Pd)), (vsum_perm _ _ (Permutation_map _ Pi)).
  assert (Dd : map (pull form n) (cdir d n) = map (dpull d (s_xyz st) n) (cdir d n)).
  { apply map_ext_in. intros e Ie. destruct (cdir_spec d n W Sg Sq I) as (_&_&M). apply M in Ie as (Ie&B&C).
    apply Dev; auto. destruct (edge_cases d e Hr R Ie) as [(?&?&?)|[(?&?&?)|(?&?&?)]]; congruence. }
  assert (Di : map (pull form n) (cind d n) = map (dpull d (s_xyz st) n) (cind d n)).
  { apply map_ext_in. intros e Ie. destruct (cind_spec d n W Sg Sq I) as (_&_&M). apply M in Ie as (Ie&B&C).
    apply Dev; auto. destruct (edge_cases d e Hr R Ie) as [(?&?&?)|[(?&?&?)|(?&?&?)]]; congruence. }
  rewrite Dd, Di. rewrite <- (dev_sum_vsum d (s_xyz st) n (cdir d n)).
  rewrite <- (direct_final d n w (s_xyz st) W R I) by (intros; eapply Bw; eauto).
  assert (Rv : rv = (-1)%R *v ((-1)%R *v xg (s_res st) n +v qo d n +v dev_sum d w n (cdir d n)
                 +v (if ind then vsum (map (dpull d w n) (cind d n)) else v0))).
  { unfold rv, rout, trail_vector_out. cbn [fold_left]. rewrite dev_sum_vsum.
    replace (if ind then dev_sum d w n (cind d n) else vzero) with (if ind then vsum (map (dpull d w n) (cind d n)) else v0)
      by (destruct ind; auto; now rewrite dev_sum_vsum).
    replace (@nminus1 _ R_ops) with (-1)%R by (unfold nminus1; cbn; ring).
    f_equal. rewrite vadd_0_l. reflexivity. }
  assert (Z : (if is_sup d n then rv else v0) +v (if is_sup d n then v0 else rv) = rv) by (destruct (is_sup d n); vring).
  set (A := dev_sum d w n (cdir d n)) in *. set (B := vsum (map (dpull d (s_xyz st) n) (cind d n))).
  set (C := if ind then vsum (map (dpull d w n) (cind d n)) else v0) in *.
  set (r1 := if is_sup d n then rv else v0) in *. set (r2 := if is_sup d n then v0 else rv) in *.
  transitivity (qo d n +v (r1 +v r2) +v (-1)%R *v xg (s_res st) n +v A +v B); [vring|]. rewrite Z, Rv. vring.
Qed.

Lemma unbalanced_form d ind s0 st form n : reachable d -> ready d -> nonzero_trails d ->
  swept d None ind s0 st -> formed d st form ->
  (forall e, In e (edges d) -> tr_b d e = false -> dget (s_tforce st) e = None) ->
  (forall n, is_sup d n = false -> dget (s_reac st) n = None) ->
  (forall m, In m (nodes d) -> (forall n, ~ follows d n m) -> dget (s_res st) m = Some v0) ->
  In n (nodes d) -> exists w,
    (forall m, dget w m = dget (s_xyz st) m \/ dget w m = dget (s_xyz s0) m)
    /\ dget w n = dget (s_xyz st) n
    /\ unbalanced form n = vsum (map (dpull d (s_xyz st) n) (cind d n))
         -v (if ind then vsum (map (dpull d w n) (cind d n)) else v0).
Proof.
  intros Hr R Nz Sw Fm Tf Rc Rs I.
  destruct (unbalanced_visit d ind s0 st form n Hr R Nz Sw Fm Tf Rc Rs I) as (w&A&B&C&_). eauto.
Qed.
