(** * The form is the only structure that the topology asks for *)

From Coq Require Import String List ZArith Bool Lia Permutation Reals Lra.
From Verif Require Import Py PyFacts Num Diagram DiagramFacts Topology SpecDiagram SpecTopology
  TopologyFacts BuildFacts ChainFacts ChainFacts2 History HistoryFacts DiagramThms TopologyThms SequenceThms
  Equilibrium SpecEquilibrium EqFacts FormFacts ReadyThms TypedFacts EqThms RVec SpecStatics StaticsFacts StaticsThms SpecUnique.
Import ListNotations.
Open Scope Z_scope.

Implicit Types (d f g form : diagram R).

Lemma vsum_but_one (p q : ekey -> rvec) e : forall es, NoDup es -> In e es ->
  (forall x, In x es -> x <> e -> p x = q x) ->
  vsum (map p es) -v p e = vsum (map q es) -v q e.
Proof.
  induction es as [|x es IH]; intros N I H; [easy|]. inversion N as [|? ? Nx N']; subst. cbn [map vsum fold_right].
  fold (vsum (map p es)). fold (vsum (map q es)). destruct I as [->|I].
  - replace (map p es) with (map q es); [vring|]. apply map_ext_in. intros y Iy. symmetry. apply H; [now right|congruence].
  - rewrite (H x); [|now left|congruence]. assert (X := IH N' I (fun y Iy => H y (or_intror Iy))).
    replace (q x +v vsum (map p es) -v p e) with (q x +v (vsum (map p es) -v p e)) by vring. rewrite X. vring.
Qed.

(** ** One trail edge *)

Lemma unit_of_pull (x : R) (u r : rvec) : (x *v direction u = r)%R -> r <> v0 ->
  u <> v0 /\ u = (if Rlt_dec x 0 then (- norm u)%R else norm u) *v unitv r
  /\ x = if Rlt_dec x 0 then (- norm r)%R else norm r.
Proof.
  intros E N. rewrite direction_unitv in E.
  assert (Nu : u <> v0). { intros ->. apply N. rewrite <- E, unitv_v0. apply vscale_v0. }
  assert (Nx : x <> 0%R). { intros ->. apply N. now rewrite <- E, vscale_0. }
  split; auto. assert (Ru := norm_times_unitv u).
  destruct (Rlt_dec x 0) as [L|L].
  - rewrite <- E, unitv_neg, unitv_unitv, norm_scale, norm_unitv by auto. split.
    + rewrite <- Ru at 1. vring.
    + rewrite Rabs_left by auto. ring.
  - rewrite <- E, unitv_pos, unitv_unitv, norm_scale, norm_unitv by (auto; lra). split.
    + now rewrite Ru.
    + rewrite Rabs_right by lra. ring.
Qed.

(** A trail edge that carries a force and is as asked is determined by its near end
    and by the pull on it. *)
Lemma edge_determined d g g' n m e : follows d n m -> edge_between d n m e -> (exists l, edge_length_2 d e = Ok l) ->
  as_asked d g n m e -> as_asked d g' n m e -> n <> m ->
  pull g n e <> v0 -> pull g n e = pull g' n e -> position g n = position g' n ->
  position g m = position g' m /\ force g e = force g' e.
Proof.
  intros F B [l Le] A A' Nm Np Ep En.
  assert (Fe : far_end e n = m).
  { unfold far_end. destruct B as [_ [->| ->]]; cbn [fst snd]; [now rewrite Z.eqb_refl|].
    destruct (Z.eqb_spec m n); congruence. }
  unfold pull in *. rewrite Fe in *. set (r := force g e *v direction (position g m -v position g n)) in *.
  symmetry in Ep. destruct (unit_of_pull _ _ r eq_refl Np) as (U1&U2&U3).
  destruct (unit_of_pull _ _ r Ep Np) as (V1&V2&V3). rewrite <- En in *.
  set (p := position g n) in *. set (a := position g m) in *. set (b := position g' m) in *.
  assert (Pr := norm_pos r Np). assert (Pa := norm_pos _ U1). assert (Pb := norm_pos _ V1).
  assert (Un := norm_unitv r Np).
  assert (G : as_given g e l -> as_given g' e l -> a = b /\ force g e = force g' e).
  { intros [L1 L2] [L3 L4]. rewrite (span_between d g n m e B) in L1. rewrite (span_between d g' n m e B) in L3.
    fold p a in L1. rewrite <- En in L3. fold p b in L3. rewrite L1 in *. rewrite L3 in *.
    assert (X : (force g e < 0 <-> force g' e < 0)%R) by tauto.
    assert (Y : (if Rlt_dec (force g e) 0 then (- Rabs l)%R else Rabs l) = (if Rlt_dec (force g' e) 0 then (- Rabs l)%R else Rabs l)).
    { destruct (Rlt_dec (force g e) 0), (Rlt_dec (force g' e) 0); tauto || reflexivity. }
    split.
    - replace a with (p +v (a -v p)) by vring. replace b with (p +v (b -v p)) by vring. now rewrite U2, V2, Y.
    - rewrite U3, V3. destruct (Rlt_dec (force g e) 0), (Rlt_dec (force g' e) 0); tauto || reflexivity. }
  specialize (A l Le). specialize (A' l Le).
  destruct (edge_plane d e) as [[[o nrm]|]|] eqn:Pl; auto.
  assert (D : forall u x, u <> v0 -> u = x *v unitv r -> Rabs (dot nrm (direction u)) = Rabs (dot nrm (unitv r))).
  { intros u x Nu E. rewrite direction_unitv.
    assert (Nx : x <> 0%R) by (intros ->; apply Nu; rewrite E; apply vscale_0).
    rewrite E. destruct (Rlt_dec x 0); [rewrite unitv_neg by auto|rewrite unitv_pos by lra]; rewrite unitv_unitv; auto.
    replace (dot nrm ((-1)%R *v unitv r)) with (- dot nrm (unitv r))%R by (vunf; ring). apply Rabs_Ropp. }
  assert (Ua : unfit g n m o nrm <-> (Rabs (dot nrm (unitv r)) < / 1000000)%R \/ on_plane p o nrm).
  { unfold unfit. fold p a. now rewrite (D _ _ U1 U2). }
  assert (Ub : unfit g' n m o nrm <-> (Rabs (dot nrm (unitv r)) < / 1000000)%R \/ on_plane p o nrm).
  { unfold unfit. rewrite <- En. fold p b. now rewrite (D _ _ V1 V2). }
  destruct A as [A1 A2], A' as [A1' A2'].
  assert (Dec : unfit g n m o nrm \/ ~ unfit g n m o nrm).
  { rewrite Ua. unfold on_plane.
    destruct (Rlt_dec (Rabs (dot nrm (unitv r))) (/ 1000000)); [tauto|]. destruct (Req_EM_T (dot nrm (p -v o)) 0); tauto. }
  destruct Dec as [Y|Y].
  - apply G; [auto|]. apply A1', Ub, Ua, Y.
  - assert (Y' : ~ unfit g' n m o nrm) by (rewrite Ub; now rewrite Ua in Y).
    specialize (A2 Y). specialize (A2' Y'). rewrite Ua in Y. fold a in A2. fold b in A2'. unfold on_plane in A2, A2'.
    set (x := if Rlt_dec (force g e) 0 then (- norm (a -v p))%R else norm (a -v p)) in *.
    set (y := if Rlt_dec (force g' e) 0 then (- norm (b -v p))%R else norm (b -v p)) in *.
    set (c := dot nrm (unitv r)) in *.
    assert (Nc : c <> 0%R). { intros Z. apply Y. left. rewrite Z, Rabs_R0. lra. }
    assert (Xa : (dot nrm (p -v o) + x * c = 0)%R).
    { rewrite <- A2. replace (a -v o) with ((p -v o) +v (a -v p)) by vring. rewrite U2. unfold c. vunf. ring. }
    assert (Xb : (dot nrm (p -v o) + y * c = 0)%R).
    { rewrite <- A2'. replace (b -v o) with ((p -v o) +v (b -v p)) by vring. rewrite V2. unfold c. vunf. ring. }
    assert (Exy : x = y). { apply (Rmult_eq_reg_r c); auto. lra. }
    split.
    + replace a with (p +v (a -v p)) by vring. replace b with (p +v (b -v p)) by vring. now rewrite U2, V2, Exy.
    + rewrite U3, V3. unfold x, y in Exy.
      destruct (Rlt_dec (force g e) 0), (Rlt_dec (force g' e) 0); lra.
Qed.

(** ** Sequence after sequence *)

Lemma incident_same d g n : edges g = edges d -> incident g n = incident d n.
Proof. intros E. unfold incident. now rewrite E. Qed.

Lemma In_incident d n e : In e (incident d n) <-> In e (edges d) /\ (fst e = n \/ snd e = n).
Proof. unfold incident. now rewrite filter_In, orb_true_iff, !Z.eqb_eq. Qed.

Lemma edges_typed d e : reachable d -> In e (edges d) -> In e (trail_edges d) \/ In e (deviation_edges d).
Proof.
  intros Hr I. apply reachable_wf in Hr as W. apply In_edges, has_edge_find in I as [a Ea]; auto.
  assert (X := reachable_typed d Hr e a Ea).
  destruct (ea_type a) as [[]|] eqn:Q; [left|right|congruence].
  - apply In_trail_edges; eauto.
  - apply In_deviation_edges; eauto.
Qed.

(** The edges at a node: deviation edges to nodes of the same sequence, and the trail
    edges to the next and from the previous node. *)
Lemma incident_cases d n e : reachable d -> ready d -> direct_only d -> In e (incident d n) ->
  (In e (deviation_edges d) /\ In (far_end e n) (nodes d) /\ kof d (far_end e n) = kof d n)
  \/ (exists m, follows d n m /\ e = trail_edge_key d n m) \/ (exists m, follows d m n /\ e = trail_edge_key d m n).
Proof.
  intros Hr R Di I. apply reachable_wf in Hr as W. apply In_incident in I as [I M]. destruct e as [u v]. cbn [fst snd] in M.
  destruct (edges_typed d (u, v) Hr I) as [Q|Q].
  - right. assert (Q' := Q). assert (J : trail_joined d u v) by (left; exact Q).
    assert (K : forall a b, follows d a b -> (u, v) = (a, b) \/ (u, v) = (b, a) -> (u, v) = trail_edge_key d a b).
    { intros a b F X. apply edge_between_key; auto. split; auto. }
    destruct (joined_follows d u v R J) as [F|F]; destruct M as [->| ->].
    + left. exists v. split; auto.
    + right. exists u. split; auto.
    + right. exists v. split; auto.
    + left. exists u. split; auto.
  - left. split; auto. specialize (Di u v Q). apply In_deviation_edges in Q as (a&Ea&_); auto.
    destruct (wf_eends _ W _ _ Ea) as [I1 I2]. cbn in I1, I2.
    assert (Y : kof d u = kof d v).
    { unfold node_sequence, node_get, dgetr, kof in *.
      apply In_keys_dget in I1 as [au Eu]. apply In_keys_dget in I2 as [av Ev]. rewrite Eu, Ev in *. cbn in Di.
      destruct (na_k au), (na_k av); congruence. }
    unfold far_end. cbn [fst snd]. destruct (Z.eqb_spec u n) as [->|N].
    + split; auto.
    + destruct M as [->| ->]; [congruence|]. split; auto.
Qed.

(** The ends of a trail edge that is as asked are apart. *)
Lemma ends_apart d g n m e : nonzero_trails d -> edge_between d n m e -> (exists l, edge_length_2 d e = Ok l) -> as_asked d g n m e ->
  position g m <> position g n.
Proof.
  intros Nz B [l Le] A E. specialize (A l Le). assert (Nl := Nz e l (proj1 B) Le).
  assert (G : ~ as_given g e l).
  { intros [L _]. rewrite (span_between d g n m e B), E, vsub_self, norm_v0 in L.
    apply (Rabs_no_R0 l Nl). now symmetry. }
  destruct (edge_plane d e) as [[[o nrm]|]|]; [|contradiction|contradiction]. destruct A as [A1 A2].
  assert (U : ~ unfit g n m o nrm) by auto. apply U. right. rewrite <- E. auto.
Qed.

Lemma unit_apart u : u <> v0 -> direction u <> v0.
Proof.
  intros N E. rewrite direction_unitv in E. apply N. rewrite <- (norm_times_unitv u), E. apply vscale_v0.
Qed.

Lemma vscale_nonzero s u : s <> 0%R -> u <> v0 -> s *v u <> v0.
Proof.
  intros Ns Nu E. apply Nu. replace u with ((/ s) *v (s *v u)); [rewrite E; apply vscale_v0|].
  rewrite vscale_scale, Rinv_l by auto. apply vscale_1.
Qed.

Section Two.
  Context (d g g' : diagram R) (Hr : reachable d) (R0 : ready d) (Di : direct_only d) (Nz : nonzero_trails d)
    (S : structure d g) (S' : structure d g') (Ca : carrying d g).

  Local Definition agreed (k : Z) : Prop := forall n, In n (nodes d) -> kof d n = Some k ->
    position g n = position g' n /\ forall m, follows d m n -> force g (trail_edge_key d m n) = force g' (trail_edge_key d m n).

  Lemma pull_agreed n e : position g n = position g' n -> position g (far_end e n) = position g' (far_end e n) ->
    force g e = force g' e -> pull g n e = pull g' n e.
  Proof using. unfold pull. now intros -> -> ->. Qed.

  Lemma other_pulls k n e : agreed k -> (forall j, j < k -> agreed j) -> In n (nodes d) -> kof d n = Some k ->
    In e (incident d n) -> (forall m, follows d n m -> e <> trail_edge_key d n m) -> pull g n e = pull g' n e.
  Proof using Hr R0 Di S S'.
    intros Ak Aj I Ek Ie No. destruct (incident_cases d n e Hr R0 Di Ie) as [(D&If&Ef)|[(m&F&->)|(m&F&->)]].
    - apply pull_agreed.
      + apply (Ak n); auto.
      + apply (Ak (far_end e n)); auto. now rewrite Ef.
      + now rewrite (st_deviations _ _ S e D), (st_deviations _ _ S' e D).
    - destruct (No m F eq_refl).
    - apply pull_agreed.
      + apply (Ak n); auto.
      + destruct (far_key d m n (follows_neq d m n R0 F)) as [_ ->].
        destruct (follows_nodes d m n R0 F) as [Im _]. destruct (ready_kof d m R0 Im) as (j&Ej&_).
        assert (X := proj1 (follows_kof d m n j R0 F) Ej). rewrite Ek in X. injection X as X.
        apply (Aj j) with (n := m); auto. lia.
      + apply (Ak n I Ek); auto.
  Qed.

  Lemma sequence_agreed k : (forall j, j < k -> agreed j) -> agreed k.
  Proof using Hr R0 Di Nz S S' Ca.
    intros Aj n I Ek. apply reachable_wf in Hr as W.
    destruct (first_or_follows d n R0 I) as [(key&tr&It&->)|(m&F)].
    - split; [now rewrite (st_origins _ _ S _ _ It), (st_origins _ _ S' _ _ It)|].
      intros m F. destruct (first_not_follows d n tr m R0 It F).
    - destruct (follows_nodes d m n R0 F) as [Im _]. destruct (ready_kof d m R0 Im) as (j&Ej&_).
      assert (X := proj1 (follows_kof d m n j R0 F) Ej). rewrite Ek in X. injection X as X.
      assert (Lj : j < k) by lia. assert (Am := Aj j Lj). destruct (Am m Im Ej) as [Pm _].
      destruct (trail_key_edge d m n W R0 F) as (a&Ea&Ta&B). set (e := trail_edge_key d m n) in *.
      assert (Nm := follows_neq d m n R0 F). destruct (far_key d m n Nm) as [Fm _]. fold e in Fm.
      assert (Ie : In e (incident d m)).
      { apply In_incident. split; [apply In_edges; auto; apply has_edge_find; eauto|].
        destruct B as [_ [E|E]]; rewrite E; cbn [fst snd]; auto. }
      assert (Sm : is_node_support d m = Ok false).
      { rewrite is_node_support_Ok by auto. destruct (is_sup d m) eqn:Q; auto. destruct (sup_not_follows d m n W R0 Q F). }
      assert (Bg := st_balanced _ _ S m). rewrite (st_nodes _ _ S) in Bg. specialize (Bg Im).
      assert (Bg' := st_balanced _ _ S' m). rewrite (st_nodes _ _ S') in Bg'. specialize (Bg' Im).
      unfold unbalanced in Bg, Bg'.
      rewrite (incident_same d g m (st_edges _ _ S)), (st_loads _ _ S m Im), (st_held _ _ S m Im Sm) in Bg.
      rewrite (incident_same d g' m (st_edges _ _ S')), (st_loads _ _ S' m Im), (st_held _ _ S' m Im Sm) in Bg'.
      assert (Ep : pull g m e = pull g' m e).
      { assert (Y := vsum_but_one (pull g m) (pull g' m) e (incident d m)
                       (NoDup_filter _ (NoDup_edges d W)) Ie).
        assert (Z : forall x, In x (incident d m) -> x <> e -> pull g m x = pull g' m x).
        { intros x Ix Nx. apply (other_pulls j m x); auto.
          - intros i Li. apply Aj. lia.
          - intros q Fq ->. apply Nx. now rewrite (follows_fun d m q n R0 Fq F). }
        specialize (Y Z). set (s := vsum (map (pull g m) (incident d m))) in *.
        set (s' := vsum (map (pull g' m) (incident d m))) in *.
        assert (Es : s = s').
        { replace s with ((load d m +v v0 +v s) -v load d m) by vring. rewrite Bg, <- Bg'. vring. }
        rewrite Es in Y. replace (pull g m e) with (s' -v (s' -v pull g m e)) by vring. rewrite Y. vring. }
      assert (Le : exists l, edge_length_2 d e = Ok l).
      { unfold edge_length_2, edge_get. rewrite Ea. cbn. eauto. }
      assert (Nf := Ca e (proj1 B)).
      assert (As := st_trails _ _ S m n e F B Nf).
      assert (Np : pull g m e <> v0).
      { unfold pull. rewrite Fm. apply vscale_nonzero; auto. apply unit_apart. intros E.
        apply (ends_apart d g m n e Nz B Le As).
        replace (position g n) with (position g m +v (position g n -v position g m)) by vring. rewrite E. vring. }
      assert (Nf' : force g' e <> 0%R).
      { intros Z. apply Np. rewrite Ep. unfold pull. rewrite Z. apply vscale_0. }
      assert (As' := st_trails _ _ S' m n e F B Nf').
      destruct (edge_determined d g g' m n e F B Le As As' Nm Np Ep Pm) as [Pn Fe].
      split; auto. intros q Fq. now rewrite (follows_inj d q m n R0 Fq F).
  Qed.

  Lemma all_agreed k : agreed k.
  Proof using Hr R0 Di Nz S S' Ca.
    destruct (Z_lt_le_dec k 0) as [L|L].
    - intros n I Ek. destruct (ready_kof d n R0 I) as (j&Ej&P). rewrite Ek in Ej. injection Ej as ->. lia.
    - revert k L. intros k L. rewrite <- (Z2Nat.id k L). generalize (Z.to_nat k) as i.
      assert (X : forall i j, j < Z.of_nat i -> agreed j).
      { induction i as [|i IH]; intros j Lj.
        - intros n I Ek. destruct (ready_kof d n R0 I) as (k'&Ej&P). rewrite Ek in Ej. injection Ej as ->. lia.
        - apply sequence_agreed. intros j' L'. apply IH. lia. }
      intros i. apply (X (Datatypes.S i)). lia.
  Qed.

  Lemma two_structures : same_structure d g g'.
  Proof using Hr R0 Di Nz S S' Ca.
    apply reachable_wf in Hr as W.
    assert (P : forall n, In n (nodes d) -> position g n = position g' n).
    { intros n I. destruct (ready_kof d n R0 I) as (k&Ek&_). now apply (all_agreed k n I Ek). }
    assert (Q : forall e, In e (edges d) -> force g e = force g' e).
    { intros e I. destruct (edges_typed d e Hr I) as [T|T].
      - destruct e as [u v]. assert (J : trail_joined d u v) by (left; exact T).
        assert (K : forall a b, follows d a b -> (u, v) = (a, b) \/ (u, v) = (b, a) -> force g (u, v) = force g' (u, v)).
        { intros a b F Y. rewrite (edge_between_key d a b (u, v) W R0 F (conj T Y)).
          destruct (follows_nodes d a b R0 F) as [_ Ib]. destruct (ready_kof d b R0 Ib) as (k&Ek&_).
          now apply (all_agreed k b Ib Ek). }
        destruct (joined_follows d u v R0 J) as [F|F]; [apply (K u v F)|apply (K v u F)]; auto.
      - now rewrite (st_deviations _ _ S e T), (st_deviations _ _ S' e T). }
    split; auto. intros n I. split; auto.
    assert (Bg := st_balanced _ _ S n). rewrite (st_nodes _ _ S) in Bg. specialize (Bg I).
    assert (Bg' := st_balanced _ _ S' n). rewrite (st_nodes _ _ S') in Bg'. specialize (Bg' I).
    unfold unbalanced in Bg, Bg'.
    rewrite (incident_same d g n (st_edges _ _ S)), (st_loads _ _ S n I) in Bg.
    rewrite (incident_same d g' n (st_edges _ _ S')), (st_loads _ _ S' n I) in Bg'.
    assert (E : map (pull g n) (incident d n) = map (pull g' n) (incident d n)).
    { apply map_ext_in. intros e Ie. apply In_incident in Ie as [Ie _]. apply pull_agreed; auto. apply P.
      apply In_edges, has_edge_find in Ie as [a Ea]; auto. destruct (wf_eends _ W _ _ Ea) as [I1 I2].
      unfold far_end. destruct (fst e =? n); auto. }
    rewrite E in Bg. set (s := vsum (map (pull g' n) (incident d n))) in *.
    replace (reaction g n) with ((load d n +v reaction g n +v s) -v (load d n +v s)) by vring.
    rewrite Bg, <- Bg'. vring.
  Qed.
End Two.

(** ** The theorems *)

(** A direct topology asks for at most one structure whose trail edges carry forces. *)
Lemma c94_at_most_one : forall d g g', reachable d -> ready d -> direct_only d -> nonzero_trails d ->
  structure d g -> structure d g' -> carrying d g -> same_structure d g g'.
Proof. intros. now apply two_structures. Qed.

(** The form that form finding returns is such a structure. *)
Lemma c94_form : forall d tmax eta verbose form, reachable d -> ready d -> direct_only d -> nonzero_trails d ->
  static_equilibrium d None tmax eta verbose = Ok form -> structure d form.
Proof.
  intros d tmax eta verbose form Hr R Di Nz E. apply reachable_wf in Hr as W.
  destruct (c37_frame _ _ _ _ _ _ Hr E) as (N&Ed&_&_&L&_). destruct (c37_inputs _ _ _ _ _ Hr R E) as (O&D&H).
  constructor; auto.
  - intros n I. unfold load. now rewrite L.
  - intros key tr I. unfold position. now rewrite (O key tr I).
  - intros e I. unfold force. now rewrite D.
  - intros n I S. unfold reaction. now rewrite (H n I S).
  - intros n m e F B Nf l Le.
    assert (Pl : exists p, edge_plane d e = Ok p).
    { unfold edge_plane, edge_length_2 in *. destruct (edge_get d e); [|discriminate]. cbn. eauto. }
    destruct Pl as [[[o nrm]|] Pl]; rewrite Pl.
    + assert (C := c28_planes d tmax eta verbose form n m e o nrm l Hr R Nz E F B Pl Le Nf). cbn zeta in C.
      assert (C' := c30_state_partial d tmax eta verbose form n m e o nrm l Hr R Nz E F B Pl Le Nf). cbn zeta in C'.
      unfold unfit, as_given. tauto.
    + destruct (c29_lengths_kept d tmax eta verbose form n m e l Hr R E F B Pl Le Nf) as (C1&C2&_). split; auto.
  - eapply c31_direct_equilibrium; eauto.
Qed.

(** Every structure whose trail edges carry forces and that is as the topology asks
    has the positions, forces and reactions of the form. *)
Lemma c94_only : forall d tmax eta verbose form g, reachable d -> ready d -> direct_only d -> nonzero_trails d ->
  static_equilibrium d None tmax eta verbose = Ok form ->
  structure d g -> carrying d g -> same_structure d g form.
Proof. intros. eapply c94_at_most_one; eauto. eapply c94_form; eauto. Qed.
