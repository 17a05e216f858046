(** * Concrete instances for form finding with arrays *)

From Coq Require Import String List ZArith Bool Lia Permutation Floats Reals Lra.
From Verif Require Import Py PyFacts Num Diagram DiagramFacts Topology Equilibrium History HistoryFacts Fixtures
  SpecDiagram SpecTopology BuildFacts SequenceThms ChainFacts2 SpecEquilibrium EqFacts FormFacts ReadyThms RVec EqThms EquilibriumNp SpecNumpy NpFacts NpThms
  SpecStatics StaticsFacts StaticsThms SpecTransform FloatThms Witness WitnessEq.
Import ListNotations.
Open Scope Z_scope.

(** ** The funicular: positions and forces after one iteration *)

Lemma funicular_sound : exists form, static_equilibrium funicular None 1 (/ 1000000)%R false = Ok form
  /\ form_is_sound funicular form.
Proof.
  destruct funicular_forms as [form E]. apply (c35_one_iteration _ _ _ _ (/ 1000000)%R) in E;
    [|apply funicular_reachable|apply funicular_ready|apply funicular_direct].
  exists form. split; [exact E|].
  destruct (c37_frame _ _ _ _ _ _ funicular_reachable E) as (Nf&Ef&_&_&Lf&_).
  destruct (c37_inputs _ _ _ _ _ funicular_reachable funicular_ready E) as (Fx&_&Rf).
  assert (N : nodes funicular = [0; 1; 2; 3]) by (lazy; reflexivity).
  assert (Es : edges funicular = [(0, 1); (1, 2); (2, 3)]) by (lazy; reflexivity).
  assert (T : trails funicular = [(1, [1; 0]); (2, [2; 3])]) by (lazy; reflexivity).
  assert (Te : trail_edges funicular = [(0, 1); (2, 3)]) by (lazy; reflexivity).
  assert (P1 : node_coordinates form 1 = Ok (V3 (IZR 1) (IZR 0) (IZR 0))).
  { rewrite (Fx 1 [1; 0]) by (rewrite T; cbn; auto). lazy. reflexivity. }
  assert (P2 : node_coordinates form 2 = Ok (V3 (IZR 5 / IZR 2) (IZR 0) (IZR 0))%R).
  { rewrite (Fx 2 [2; 3]) by (rewrite T; cbn; auto). lazy. reflexivity. }
  split.
  - intros u v p q I. rewrite (proj2 funicular_direct) in I. destruct I as [I|[]]. injection I as <- <-.
    rewrite P1, P2. intros Q1 Q2 Q. apply Ok_inj in Q1, Q2. subst p q. apply (f_equal vx) in Q. cbn in Q. lra.
  - assert (B := c31_direct_equilibrium _ _ _ _ _ funicular_reachable funicular_ready (proj1 funicular_direct) funicular_nonzero E).
    assert (I1 : incident form 1 = [(0, 1); (1, 2)]) by (unfold incident; rewrite Ef, Es; reflexivity).
    assert (I2 : incident form 2 = [(1, 2); (2, 3)]) by (unfold incident; rewrite Ef, Es; reflexivity).
    assert (B1 := B 1 ltac:(rewrite Nf, N; cbn; auto)). assert (B2 := B 2 ltac:(rewrite Nf, N; cbn; auto)).
    unfold unbalanced in B1, B2. rewrite I1 in B1. rewrite I2 in B2. cbn [map] in B1, B2. rewrite !vsum_cons in B1. rewrite !vsum_cons in B2.
    change (vsum []) with v0 in *.
    assert (L1 : load form 1 = V3 (IZR 0) (IZR (-1)) (IZR 0)) by (unfold load; rewrite Lf; lazy; reflexivity).
    assert (L2 : load form 2 = V3 (IZR 0) (IZR (-1)) (IZR 0)) by (unfold load; rewrite Lf; lazy; reflexivity).
    assert (R1 : reaction form 1 = v0) by (unfold reaction; rewrite Rf; [reflexivity|rewrite N; cbn; auto|lazy; reflexivity]).
    assert (R2 : reaction form 2 = v0) by (unfold reaction; rewrite Rf; [reflexivity|rewrite N; cbn; auto|lazy; reflexivity]).
    rewrite L1, R1 in B1. rewrite L2, R2 in B2.
    assert (Y1 := f_equal vy B1). assert (Y2 := f_equal vy B2).
    assert (D1 : vy (pull form 1 (1, 2)) = 0%R /\ vy (pull form 2 (1, 2)) = 0%R).
    { unfold pull, direction, position, far_end. cbn [fst snd Z.eqb Pos.eqb]. rewrite P1, P2. cbn [value].
      split; vunf; cbn; unfold Rdiv; ring. }
    destruct D1 as [D1 D2].
    intros e f I Ff. rewrite Te in I. intros ->. destruct I as [<-|[<-|[]]].
    + assert (F : force form (0, 1) = 0%R) by (unfold force; rewrite Ff; reflexivity).
      assert (D0 : vy (pull form 1 (0, 1)) = 0%R) by (unfold pull; rewrite F; vunf; ring).
      vunf. rewrite D0, D1 in Y1. lra.
    + assert (F : force form (2, 3) = 0%R) by (unfold force; rewrite Ff; reflexivity).
      assert (D0 : vy (pull form 2 (2, 3)) = 0%R) by (unfold pull; rewrite F; vunf; ring).
      vunf. rewrite D0, D2 in Y2. lra.
Qed.

(** ** Two columns joined by an indirect deviation edge: no iteration divides by zero *)

Lemma consecutive_2 (x y n m : Z) : consecutive [x; y] n m -> n = x /\ m = y.
Proof.
  intros (l1&l2&E). destruct l1 as [|a [|b [|]]]; cbn in E; try discriminate E.
  now injection E as -> -> _.
Qed.

Lemma unitv_flat (u : rvec) : vz u = 0%R -> vz (unitv u) = 0%R.
Proof.
  intros Z. destruct (Req_dec (norm u) 0) as [E|E].
  - apply norm_0_inv in E. subst u. rewrite unitv_v0. reflexivity.
  - rewrite unitv_scale by (intros ->; apply E, norm_v0). vunf. rewrite Z. ring.
Qed.

Lemma rcolumns_follows n m : follows rcolumns n m -> n = 1 /\ m = 0 \/ n = 3 /\ m = 2.
Proof.
  intros (tr&I&C). assert (T : stored rcolumns = [[1; 0]; [3; 2]]) by (lazy; reflexivity).
  rewrite T in I. destruct I as [<-|[<-|[]]]; apply consecutive_2 in C; auto.
Qed.

Lemma rcolumns_top_force a b t w n : n = 1 \/ n = 3 ->
  (forall m, dget w m = dget (s_xyz b) m \/ dget w m = dget (s_xyz a) m) ->
  (forall m, m = 1 \/ m = 3 -> dget (s_xyz a) m = dget (s_xyz (init_state rcolumns)) m
    /\ dget (s_xyz b) m = dget (s_xyz (init_state rcolumns)) m) ->
  vz (rout rcolumns n v0 w t) = 1%R.
Proof.
  intros Hn Hw Hab.
  assert (P1 : dget (s_xyz (init_state rcolumns)) 1 = Some (V3 (IZR 0) (IZR 0) (IZR 1))) by (lazy; reflexivity).
  assert (P3 : dget (s_xyz (init_state rcolumns)) 3 = Some (V3 (IZR 1) (IZR 0) (IZR 1))) by (lazy; reflexivity).
  assert (X : forall m, m = 1 \/ m = 3 -> vz (xg w m) = 1%R).
  { intros m Hm. destruct (Hab m Hm) as [A B]. unfold xg.
    assert (E : dget w m = dget (s_xyz (init_state rcolumns)) m) by (destruct (Hw m); congruence).
    rewrite E. destruct Hm as [->| ->]; [rewrite P1|rewrite P3]; reflexivity. }
  assert (F : forall m m', m = 1 \/ m = 3 -> m' = 1 \/ m' = 3 -> vz (vector_two_nodes (xg w m) (xg w m')) = 0%R).
  { intros m m' H1 H2. unfold vector_two_nodes. apply unitv_flat. unfold subtract_vectors. cbn [vz nsub R_ops].
    rewrite (X m H1), (X m' H2). ring. }
  assert (C1 : cdir rcolumns 1 = []) by (lazy; reflexivity). assert (C3 : cdir rcolumns 3 = []) by (lazy; reflexivity).
  assert (I1 : cind rcolumns 1 = [(1, 3)]) by (lazy; reflexivity). assert (I3 : cind rcolumns 3 = [(1, 3)]) by (lazy; reflexivity).
  assert (Q1 : qo rcolumns 1 = V3 (IZR 0) (IZR 0) (IZR (-1))) by (lazy; reflexivity).
  assert (Q3 : qo rcolumns 3 = V3 (IZR 0) (IZR 0) (IZR (-1))) by (lazy; reflexivity).
  unfold rout, trail_vector_out.
  destruct Hn as [->| ->]; rewrite ?C1, ?C3, ?I1, ?I3, ?Q1, ?Q3; unfold dev_sum, dpull; cbn [fold_left].
  - change (other (1, 3) 1) with 3. specialize (F 3 1 (or_intror eq_refl) (or_introl eq_refl)).
    destruct t; vunf; rewrite ?F; unfold nminus1; cbn [nopp n1 R_ops]; ring.
  - change (other (1, 3) 3) with 1. specialize (F 1 3 (or_introl eq_refl) (or_intror eq_refl)).
    destruct t; vunf; rewrite ?F; unfold nminus1; cbn [nopp n1 R_ops]; ring.
Qed.

Lemma rcolumns_safe ts n : trails_sequences rcolumns = Ok ts -> runs_safely rcolumns ts n.
Proof.
  intros Ets t a b _ Ea Eb. assert (W := reachable_wf _ rcolumns_reachable). assert (Rd := rcolumns_ready).
  destruct (ready_ts _ W Rd) as (ts'&Ets'&Hts). rewrite Ets in Ets'. apply Ok_inj in Ets'. subst ts'.
  assert (Sw := after_swept rcolumns ts None t a b W Rd Hts Ea Eb).
  assert (N : nodes rcolumns = [0; 1; 2; 3]) by (lazy; reflexivity).
  assert (De : deviation_edges rcolumns = [(1, 3)]) by (lazy; reflexivity).
  assert (P1 : dget (s_xyz (init_state rcolumns)) 1 = Some (V3 (IZR 0) (IZR 0) (IZR 1))) by (lazy; reflexivity).
  assert (P3 : dget (s_xyz (init_state rcolumns)) 3 = Some (V3 (IZR 1) (IZR 0) (IZR 1))) by (lazy; reflexivity).
  assert (Hab : forall m, m = 1 \/ m = 3 -> dget (s_xyz a) m = dget (s_xyz (init_state rcolumns)) m
    /\ dget (s_xyz b) m = dget (s_xyz (init_state rcolumns)) m /\ dget (s_res b) m = Some vzero).
  { intros m Hm. assert (Im : In m (nodes rcolumns)) by (rewrite N; destruct Hm as [->| ->]; cbn; auto).
    assert (Fm : forall n, follows rcolumns n m -> stops rcolumns None n = true).
    { intros k F. apply rcolumns_follows in F as [[_ ->]|[_ ->]]; destruct Hm as [Hm|Hm]; discriminate Hm. }
    destruct (after_fixed _ _ _ _ _ W Rd Hts Ea) as [A _]. destruct (after_fixed _ _ _ _ _ W Rd Hts Eb) as [B _].
    split; [apply (A m Im Fm)|apply (B m Im Fm)]. }
  assert (At : forall u v, u = 1 /\ v = 3 \/ u = 3 /\ v = 1 -> forall p q,
    at_position b u p -> at_position a v q \/ at_position b v q -> p <> q).
  { unfold at_position. intros u v Huv p q Hu Hv.
    destruct (Hab 1 (or_introl eq_refl)) as (A1&B1&_). destruct (Hab 3 (or_intror eq_refl)) as (A3&B3&_).
    rewrite P1 in A1, B1. rewrite P3 in A3, B3.
    destruct Huv as [[-> ->]|[-> ->]]; destruct Hv as [Hv|Hv]; rewrite ?A1, ?A3, ?B1, ?B3 in *;
      apply Some_inj in Hu, Hv; subst p q; intros Q; apply (f_equal vx) in Q; cbn in Q; lra. }
  constructor.
  - intros u v p q I _ Hu Hv. rewrite De in I. destruct I as [I|[]]. injection I as <- <-.
    apply (At 1 3); auto.
  - intros u v p q _ I _ Hu Hv. apply (At u v); auto. rewrite De in I.
    destruct I as [[I|[]]|[I|[]]]; injection I as <- <-; auto.
  - assert (Tf : forall n m, n = 1 \/ n = 3 -> stops rcolumns None n = false -> follows rcolumns n m ->
      forall f, dget (s_tforce b) (trail_edge_key rcolumns n m) = Some f -> f <> 0%R).
    { intros k m Hk Sk F f Ef. assert (Ik : In k (nodes rcolumns)) by (rewrite N; destruct Hk as [->| ->]; cbn; auto).
      destruct (sw_visit _ _ _ _ _ Sw k Ik) as (w&_&Hw&_&_&V). destruct (V m Sk F) as (_&_&V3&_).
      destruct (Hab k Hk) as (_&_&Rk). unfold xg at 1 in V3. rewrite Rk in V3. rewrite Ef in V3. apply Some_inj in V3. subst f.
      assert (Z : vz (rout rcolumns k v0 w (negb (t =? 0)%nat)) = 1%R).
      { refine (rcolumns_top_force a b _ w k Hk Hw _). intros j Hj. destruct (Hab j Hj) as (A&B&_). exact (conj A B). }
      assert (Np : (0 < norm (rout rcolumns k v0 w (negb (t =? 0)%nat)))%R).
      { apply norm_pos. intros Q. rewrite Q in Z. cbn in Z. lra. }
      change (vzero) with v0. intros Q. rewrite ncopysign_R in Q. change length_vector with norm in Q.
      rewrite Rabs_right in Q by lra. destruct Rlt_dec; lra. }
    intros e f Ef. destruct (after_fixed _ _ _ _ _ W Rd Hts Eb) as (_&_&C).
    destruct (@eqb_spec ekey _ e (0, 1)) as [->|N1].
    { apply (Tf 1 0 (or_introl eq_refl)); [lazy; reflexivity|exists [1; 0]; split; [lazy; auto|exists [], []; reflexivity]|exact Ef]. }
    destruct (@eqb_spec ekey _ e (2, 3)) as [->|N2].
    { apply (Tf 3 2 (or_intror eq_refl)); [lazy; reflexivity|exists [3; 2]; split; [lazy; auto|exists [], []; reflexivity]|exact Ef]. }
    rewrite C in Ef; [discriminate Ef|]. intros k m F _.
    apply rcolumns_follows in F as [[-> ->]|[-> ->]].
    + change (trail_edge_key rcolumns 1 0) with (0, 1). exact N1.
    + change (trail_edge_key rcolumns 3 2) with (2, 3). exact N2.
Qed.

(** ** Where the two programs differ, over floats *)

Definition twins : list (op float) :=
  [ node zf 0 0 0 0; node zf 1 0 0 1; node zf 2 1 0 0; node zf 3 0 0 1;
    trail_e zf 0 1 (-1); trail_e zf 2 3 (-1); dev_e zf 1 3 1; sup 0; sup 2;
    Fixtures.load zf 1 0 0 (-1); Fixtures.load zf 3 0 0 (-1) ].

(** A deviation edge without length: the reference program ignores it, the other one
    returns not-a-number coordinates, without an error. *)
Lemma c41_zero_length_differs : exists (d form form' : diagram float) n p p', reachable d
  /\ static_equilibrium d None 100 0x1.4f8b588e368f1p-17%float false = Ok form
  /\ static_equilibrium_numpy d 100 0x1.4f8b588e368f1p-17%float false = Ok form'
  /\ node_coordinates form n = Ok p /\ finite p /\ node_coordinates form' n = Ok p' /\ has_nan p'.
Proof.
  exists (made (twins ++ [build])). eexists. eexists. exists 0. eexists. eexists. split; [made_reachable|].
  split; [vm_compute; reflexivity|]. split; [vm_compute; reflexivity|].
  split; [comp|]. split; [split; [comp|split; comp]|]. split; [comp|left; comp].
Qed.

(** The programs measure the displacement differently: on the braced tower, for one
    threshold one succeeds and the other reports that the iterations are exhausted;
    for another threshold both succeed with different positions. *)
Lemma c41_threshold_differs : exists d : diagram float, reachable d
  /\ (exists form, static_equilibrium_numpy d 2 3%float false = Ok form)
  /\ static_equilibrium d None 2 3%float false = Err (ValueError "Over iters")
  /\ exists form form' n, static_equilibrium d None 100 0x1.2p-1%float false = Ok form
       /\ static_equilibrium_numpy d 100 0x1.2p-1%float false = Ok form'
       /\ node_coordinates form' n <> node_coordinates form n.
Proof.
  exists float_tower. split; [apply float_tower_reachable|]. split; [eexists; vm_compute; reflexivity|].
  split; [vm_compute; reflexivity|].
  eexists. eexists. exists 0. split; [vm_compute; reflexivity|]. split; [vm_compute; reflexivity|].
  intros E.
  apply (f_equal (fun r => match r with Ok p => PrimFloat.ltb (vx p) 0x1p-3 | Err _ => true end)) in E.
  vm_compute in E. discriminate E.
Qed.
