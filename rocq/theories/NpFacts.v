(** * The two form finding programs perform the same iterations *)

From Coq Require Import String List ZArith Bool Lia Permutation Reals Lra.
From Verif Require Import Py PyFacts Num Diagram DiagramFacts Topology SpecDiagram SpecTopology
  TopologyFacts BuildFacts ChainFacts ChainFacts2 History HistoryFacts DiagramThms TopologyThms SequenceThms
  Equilibrium EquilibriumNp SpecEquilibrium EqFacts FormFacts ReadyThms RVec EqThms SpecNumpy.
Import ListNotations.
Open Scope Z_scope.

Section Generic.
  Context {T : Type} `{NumOps T}.
  Implicit Types (d : diagram T).

  (** ** The containers *)

  Lemma dict_of_pure {K V} `{Eqb K} (f : K -> res V) (g : K -> V) l : (forall x, In x l -> f x = Ok (g x)) ->
    exists m, dict_of f l = Ok m /\ forall x, In x l -> dget m x = Some (g x).
  Proof.
    unfold dict_of. intros F.
    assert (G : forall l m0, (forall x, In x l -> f x = Ok (g x)) -> exists m,
      fold_res (fun m x => let* v := f x in Ok (dset m x v)) l m0 = Ok m
      /\ forall x, dget m x = if memb x l then Some (g x) else dget m0 x).
    { clear F l. induction l as [|x l IH]; intros m0 F; cbn [fold_res].
      - exists m0. auto.
      - rewrite (F x) by now left. cbn [bind]. destruct (IH (dset m0 x (g x))) as (m&E&X); [intros y J; apply F; now right|].
        exists m. split; auto. intros y. rewrite X, dget_dset. change (memb y (x :: l)) with (eqb y x || memb y l).
        destruct (eqb_spec y x) as [->|]; cbn [orb]; auto. now destruct (memb x l). }
    destruct (G l [] F) as (m&E&X). exists m. split; auto. intros x I. rewrite X.
    assert (M : memb x l = true) by now apply memb_In. now rewrite M.
  Qed.

  Record env_ok d (env : np_env T) : Prop := {
    en_forces : forall e, In e (edges d) -> dget (np_forces env) e = Some (fo d e);
    en_lengths : forall e, In e (edges d) -> dget (np_lengths env) e = Some (ea_length (ea d e));
    en_loads : forall n, In n (nodes d) -> dget (np_loads env) n = Some (qo d n);
    en_direct : forall n, In n (nodes d) -> dget (np_direct env) n = Some (cdir d n);
    en_indirect : forall n, In n (nodes d) -> dget (np_indirect env) n = Some (cind d n);
    en_planes : forall e, In e (trail_edges d) -> dget (np_planes env) e = ea_plane (ea d e)
  }.

  Lemma planes_of_pure d : wf d -> exists m, planes_of d = Ok m
    /\ forall e, In e (trail_edges d) -> dget m e = ea_plane (ea d e).
  Proof.
    intros W. unfold planes_of.
    assert (G : forall l m0, NoDup l -> incl l (trail_edges d) -> exists m,
      fold_res (fun m e => let* p := edge_plane d e in
        match p with None => Ok m | Some p => Ok (dset m e p) end) l m0 = Ok m
      /\ forall e, dget m e = if memb e l then match ea_plane (ea d e) with Some p => Some p | None => dget m0 e end
                              else dget m0 e).
    { induction l as [|x l IH]; intros m0 N Inc; cbn [fold_res]; [exists m0; auto|].
      inversion N as [|? ? Nx N']; subst.
      assert (Ix : In x (trail_edges d)) by (apply Inc; now left). apply In_trail_edges in Ix as (a&Ea&_); auto.
      assert (Ep : edge_plane d x = Ok (ea_plane a)) by (unfold edge_plane, edge_get; now rewrite Ea).
      assert (Ee : ea d x = a) by (unfold ea; now rewrite Ea).
      rewrite Ep. cbn [bind]. destruct (IH (match ea_plane a with None => m0 | Some p => dset m0 x p end)) as (m&E&X); auto.
      { intros y J. apply Inc. now right. }
      exists m. split; [destruct (ea_plane a); auto|].
      intros y. rewrite X. change (memb y (x :: l)) with (@eqb ekey _ y x || memb y l).
      destruct (@eqb_spec ekey _ y x) as [->|Ny]; cbn [orb].
      - assert (M : memb x l = false) by now apply memb_nIn. rewrite M, Ee.
        destruct (ea_plane a); auto. apply dget_dset_same.
      - destruct (memb y l); destruct (ea_plane a); auto; rewrite dget_dset;
          destruct (@eqb_spec ekey _ y x); congruence. }
    destruct (G (trail_edges d) []) as (m&E&X); [|apply incl_refl|].
    - now apply NoDup_edges_of_type.
    - exists m. split; auto. intros e I. rewrite X. assert (M : memb e (trail_edges d) = true) by now apply memb_In.
      rewrite M. now destruct (ea_plane (ea d e)).
  Qed.

  Lemma containers_ok d : wf d -> ready d -> exists env, np_containers d = Ok env /\ env_ok d env.
  Proof.
    intros W R. assert (S := ch_simple _ _ (rd_chains _ R)). assert (Sq := ready_sequenced d R). unfold np_containers.
    destruct (dict_of_pure (edge_force d) (fo d) (edges d)) as (fs&E1&X1).
    { intros e I. apply In_edges, has_edge_find in I as [a Ea]; auto. unfold edge_force, edge_get, fo. now rewrite Ea. }
    destruct (dict_of_pure (edge_length_2 d) (fun e => ea_length (ea d e)) (edges d)) as (ls&E2&X2).
    { intros e I. apply In_edges, has_edge_find in I as [a Ea]; auto. unfold edge_length_2, edge_get, ea. now rewrite Ea. }
    destruct (dict_of_pure (node_load d) (qo d) (nodes d)) as (qs&E3&X3).
    { intros n I. apply In_keys_dget in I as [a Ea]. unfold node_load, node_get, dgetr, qo. now rewrite Ea. }
    destruct (dict_of_pure (connected_direct_deviation_edges d) (cdir d) (nodes d)) as (ds&E4&X4).
    { intros n I. now apply cdir_spec. }
    destruct (dict_of_pure (connected_indirect_deviation_edges d) (cind d) (nodes d)) as (is&E5&X5).
    { intros n I. now apply cind_spec. }
    destruct (planes_of_pure d W) as (ps&E6&X6).
    rewrite E1, E2, E3, E4, E5, E6. cbn [bind]. eexists. split; [reflexivity|]. constructor; auto.
  Qed.

  (** ** Deterministic visits *)
  Lemma vstep_fun d kmax ind n st s1 s2 : ready d -> vstep d kmax ind n st s1 -> vstep d kmax ind n st s2 -> s1 = s2.
  Proof.
    intros R S1 S2. destruct S1 as [S1|m1 S1 F1], S2 as [S2|m2 S2 F2]; try congruence.
    now rewrite (follows_fun d n m1 m2 R F1 F2).
  Qed.
End Generic.

Open Scope R_scope.

(** ** One visit *)

Lemma normalize_numpy_R (v : rvec) : v <> v0 -> normalize_vector_numpy v = unitv v.
Proof.
  intros N. unfold normalize_vector_numpy, normalize_vector, ntruthy. cbn [neqb R_ops n0].
  destruct (Reqb_spec (norm v) 0) as [E|]; [apply norm_0_inv in E; contradiction|]. reflexivity.
Qed.

Lemma node_equilibrium_numpy_R (t q rd ri : rvec) :
  node_equilibrium_numpy t q rd ri = trail_vector_out (scale_vector t nminus1) q rd ri.
Proof.
  unfold node_equilibrium_numpy, trail_vector_out, nminus1. cbn [fold_left]. vring.
Qed.

Lemma trail_length_numpy_R (p v : rvec) plane tol : v <> v0 ->
  trail_length_numpy p v plane tol = trail_length_from_plane p v plane tol.
Proof.
  intros N. destruct plane as [o n]. unfold trail_length_numpy, trail_length_from_plane.
  now rewrite normalize_numpy_R.
Qed.

Lemma nisnan_R (x : R) : nisnan x = false.
Proof. unfold nisnan. cbn [neqb R_ops]. destruct (Reqb_spec x x); [reflexivity|congruence]. Qed.

Lemma flipped_sign_R (f l : R) : 0 < f ->
  (if nltb (nmul f l) n0 then nmul f nminus1 else f) = ncopysign f l.
Proof.
  intros P. rewrite ncopysign_R. unfold nminus1. cbn [nltb nmul n0 n1 nopp R_ops]. rewrite Rabs_right by lra.
  destruct (Rltb_spec (f * l) 0) as [L|L]; destruct (Rlt_dec l 0) as [M|M]; nra.
Qed.

(** The visit of a node divides by zero nowhere. *)
Definition safe_at (d : diagram R) (ind : bool) (n : Z) (st : eqstate R) : Prop :=
  (forall e, In e (cdir d n) -> xg (s_xyz st) (other e n) <> xg (s_xyz st) n)
  /\ (ind = true -> forall e, In e (cind d n) -> xg (s_xyz st) (other e n) <> xg (s_xyz st) n)
  /\ (is_sup d n = false -> rout d n (xg (s_res st) n) (s_xyz st) ind <> v0).

Lemma vsub_neq0 (a b : rvec) : a <> b -> a -v b <> v0.
Proof.
  intros N E. apply N. destruct a as [x y z], b as [x' y' z']. unfold subtract_vectors, vzero in E. cbn in E.
  injection E as E1 E2 E3. f_equal; lra.
Qed.

Lemma resultant_numpy_R (d : diagram R) env n xyz es : wf d -> env_ok d env -> In n (nodes d) ->
  incl (nodes d) (dkeys xyz) -> incl es (edges d) ->
  (forall e, In e es -> xg xyz (other e n) <> xg xyz n) ->
  resultant_numpy env n xyz es = Ok (dev_sum d xyz n es).
Proof.
  intros W En I D Inc Sf. unfold resultant_numpy, dev_sum.
  assert (X : forall m, In m (nodes d) -> dgetr xyz m = Ok (xg xyz m)).
  { intros m Im. apply D, In_keys_dget in Im as [p Ep]. unfold dgetr, xg. now rewrite Ep. }
  generalize v0. induction es as [|e es IH]; intros r; cbn [fold_res fold_left]; auto.
  assert (Ie : In e (edges d)) by (apply Inc; now left).
  unfold dgetr at 1. rewrite (en_forces _ _ En e Ie). cbn [bind].
  assert (Ie' := Ie). apply In_edges, has_edge_find in Ie' as [a Ea]; auto.
  destruct (wf_eends _ W e a Ea) as [I1 I2]. fold (other e n). rewrite X.
  2:{ unfold other. now destruct (negb (fst e =? n)%Z). }
  cbn [bind]. rewrite (X n I) in IH |- *. cbn [bind] in IH |- *.
  rewrite normalize_numpy_R by (apply vsub_neq0, Sf; now left).
  apply IH; [intros x J; apply Inc; now right|]. intros x J. apply Sf. now right.
Qed.

Lemma visit_numpy_R (d : diagram R) env ts ind k st key tr : wf d -> ready d -> ts_ok d ts -> env_ok d env -> dom d st ->
  In (key, tr) (trails d) -> (forall n, lookup_ts ts key k = Some n -> safe_at d ind n st) ->
  visit_numpy d env ts ind k st key = visit d ts None ind k st key.
Proof.
  intros W Rd Hts En [D1 D2] I Sf. destruct (Hts key tr I) as (m&Em&M). unfold visit, visit_numpy, dgetr. rewrite Em. cbn [bind].
  unfold lookup_ts in Sf. rewrite Em in Sf.
  destruct (dget m k) as [n|] eqn:E; [|reflexivity]. destruct (Sf n eq_refl) as (S1&S2&S3).
  apply M in E as [J Ek]. assert (Is : In tr (stored d)) by (apply In_stored; eauto).
  assert (In1 : In n (nodes d)) by (eapply trail_node; eauto).
  assert (Sq := ready_sequenced d Rd). assert (Sg := ch_simple _ _ (rd_chains _ Rd)).
  assert (X1 : dget (s_xyz st) n = Some (xg (s_xyz st) n)).
  { assert (J1 := In1). rewrite <- D1 in J1. apply In_keys_dget in J1 as [p Ep]. unfold xg. now rewrite Ep. }
  assert (X2 : dget (s_res st) n = Some (xg (s_res st) n)).
  { assert (J1 := In1). rewrite <- D2 in J1. apply In_keys_dget in J1 as [p Ep]. unfold xg. now rewrite Ep. }
  rewrite X1, X2. cbn [bind].
  rewrite (node_equilibrium_pure d n _ _ ind W Sg Sq In1) by (rewrite D1; apply incl_refl). cbn [bind].
  rewrite (en_loads _ _ En n In1), (en_direct _ _ En n In1), (en_indirect _ _ En n In1). cbn [bind].
  destruct (cdir_spec d n W Sg Sq In1) as (_&_&M1). destruct (cind_spec d n W Sg Sq In1) as (_&_&M2).
  rewrite (resultant_numpy_R d env n (s_xyz st) (cdir d n)); auto;
    [|rewrite D1; apply incl_refl|intros e Ie; now apply M1]. cbn [bind].
  assert (Ei : (if ind then resultant_numpy env n (s_xyz st) (cind d n) else Ok v0)
             = Ok (if ind then dev_sum d (s_xyz st) n (cind d n) else v0)).
  { destruct ind; auto. apply resultant_numpy_R; auto; [rewrite D1; apply incl_refl|intros e Ie; now apply M2]. }
  rewrite Ei. cbn [bind]. rewrite node_equilibrium_numpy_R.
  fold (rout d n (xg (s_res st) n) (s_xyz st) ind). set (rv := rout d n (xg (s_res st) n) (s_xyz st) ind) in *.
  rewrite is_node_support_Ok by auto. cbn [bind]. rewrite orb_false_r.
  destruct (is_sup d n) eqn:Sn; [reflexivity|]. specialize (S3 eq_refl).
  destruct (not_sup_follows d n W Rd In1 Sn) as [nx F].
  assert (Ex : dget m (k + 1)%Z = Some nx).
  { apply M. split; [|now apply (follows_kof d n nx)].
    destruct F as (tr'&It'&(l&r&Et)). assert (Q : tr = tr').
    { apply (same_trail d tr tr' n Rd); auto. rewrite Et. apply in_or_app. right. now left. }
    rewrite Q, Et. apply in_or_app. right. right. now left. }
  rewrite Ex. cbn [bind]. destruct (trail_key_edge d n nx W Rd F) as (a&Ea&Ta&(Ie&_)).
  set (e := trail_edge_key d n nx) in *.
  assert (Iee : In e (edges d)) by (apply In_edges, has_edge_find; eauto).
  rewrite (en_lengths _ _ En e Iee). cbn [bind]. unfold edge_get. rewrite Ea. cbn [bind].
  rewrite (en_planes _ _ En e Ie). assert (Ee : ea d e = a) by (unfold ea; now rewrite Ea). rewrite Ee.
  rewrite nisnan_R. fold (normalize_vector_numpy rv). rewrite normalize_numpy_R by auto.
  assert (El : match ea_plane a with
     | Some plane => match trail_length_numpy (xg (s_xyz st) n) rv plane neps6 with
                     | Some plength => if ntruthy plength then plength else ea_length a
                     | None => ea_length a end
     | None => ea_length a end = trail_edge_length a (xg (s_xyz st) n) rv).
  { unfold trail_edge_length. destruct (ea_plane a) as [pl|]; auto. now rewrite trail_length_numpy_R. }
  rewrite El. rewrite flipped_sign_R by now apply norm_pos. reflexivity.
Qed.

(** ** One iteration *)

Inductive safe_steps (d : diagram R) (ind : bool) : list Z -> eqstate R -> eqstate R -> Prop :=
| ss_nil : forall st, safe_steps d ind [] st st
| ss_cons : forall n l st st1 st', In n (nodes d) -> dom d st -> vstep d None ind n st st1 -> safe_at d ind n st ->
    safe_steps d ind l st1 st' -> safe_steps d ind (n :: l) st st'.

Lemma safe_steps_app d ind l1 l2 st st' :
  safe_steps d ind (l1 ++ l2) st st' -> exists st1, safe_steps d ind l1 st st1 /\ safe_steps d ind l2 st1 st'.
Proof.
  revert st. induction l1 as [|n l1 IH]; cbn [app]; intros st V.
  - exists st. split; auto. constructor.
  - inversion V as [|? ? ? sa ? I D S Sf V']; subst. apply IH in V' as (sb&Va&Vb).
    exists sb. split; auto. econstructor; eauto.
Qed.

Lemma vsteps_safe d ind l st st' : vsteps d None ind l st st' ->
  (forall l1 n l2 sa, l = l1 ++ n :: l2 -> vsteps d None ind l1 st sa -> vsteps d None ind (n :: l2) sa st' -> safe_at d ind n sa) ->
  safe_steps d ind l st st'.
Proof.
  induction 1 as [st|n l st st1 st' I D S V IH]; intros Sf; [constructor|].
  econstructor; eauto.
  - apply (Sf [] n l st); auto; [constructor|]. econstructor; eauto.
  - apply IH. intros l1 n' l2 sa E V1 V2. apply (Sf (n :: l1) n' l2 sa); auto; [now rewrite E|]. econstructor; eauto.
Qed.

Lemma sweep_numpy_R (d : diagram R) env ts ind kl st st' : wf d -> ready d -> ts_ok d ts -> env_ok d env ->
  sequence_last d = Ok kl -> dom d st -> safe_steps d ind (schedule d ts (kl + 1)%Z) st st' ->
  sweep_numpy d env ts ind st = Ok st'.
Proof.
  intros W Rd Hts En Ek. unfold sweep_numpy, number_of_sequences, schedule. rewrite Ek. cbn [bind].
  generalize (zrange (kl + 1)%Z). intros ks. revert st. induction ks as [|k ks IH]; intros st D V.
  - inversion V; subst. reflexivity.
  - cbn [fold_res flat_map] in *. apply safe_steps_app in V as (sm&V1&V2).
    assert (Inner : forall l st sm, incl l (trails d) -> dom d st ->
        safe_steps d ind (flat_map (fun key => match lookup_ts ts key k with Some n => [n] | None => [] end) (dkeys l)) st sm ->
        fold_res (visit_numpy d env ts ind k) (dkeys l) st = Ok sm /\ dom d sm).
    { clear st sm D IH V1 V2. induction l as [|[key tr] l IH]; intros st sm Inc D V.
      - inversion V; subst. auto.
      - change (dkeys ((key, tr) :: l)) with (key :: dkeys l) in *. cbn [fold_res flat_map] in *.
        assert (Ik : In (key, tr) (trails d)) by (apply Inc; now left).
        assert (Inc' : incl l (trails d)) by (intros x Ix; apply Inc; now right).
        destruct (visit_spec d ts None ind k st key tr W Rd Hts D Ik) as [[E1 E2]|(n&s1&E1&In1&E2&S)].
        + rewrite E1 in V. rewrite (visit_numpy_R d env ts ind k st key tr) by (auto; rewrite E1; intros n X; discriminate X).
          rewrite E2. cbn [bind]. now apply IH.
        + rewrite E1 in V. cbn [app] in V. inversion V as [|? ? ? sa ? I0 D0 S0 Sf V']; subst.
          rewrite (visit_numpy_R d env ts ind k st key tr); auto.
          2:{ rewrite E1. intros n' X. apply Some_inj in X. now subst. }
          rewrite E2. cbn [bind]. assert (s1 = sa) by (eapply vstep_fun; eauto). subst sa.
          apply IH; auto. eapply dom_vstep; eauto. }
    destruct (Inner (trails d) st sm (incl_refl _) D V1) as [F1 D1]. rewrite F1. cbn [bind]. now apply IH.
Qed.

Lemma xg_at (st : eqstate R) (d : diagram R) n : dom d st -> In n (nodes d) -> at_position st n (xg (s_xyz st) n).
Proof.
  intros [D _] I. rewrite <- D in I. apply In_keys_dget in I as [p E]. unfold at_position, xg. now rewrite E.
Qed.

(** An iteration that divides by zero nowhere is the same in both programs. *)
Lemma sweep_same (d : diagram R) env ts ind a b : wf d -> ready d -> ts_ok d ts -> env_ok d env -> dom d a ->
  sweep d ts None ind a = Ok b -> divides_safely d ind a b -> sweep_numpy d env ts ind a = Ok b.
Proof.
  intros W Rd Hts En D E Sf. destruct (ready_last d W Rd) as (kl&Ekl&_).
  destruct (sweep_steps d ts None ind kl a W Rd Hts Ekl D) as (b'&E'&V&D'). rewrite E in E'. apply Ok_inj in E'. subst b'.
  assert (Sq := ready_sequenced d Rd). assert (Sg := ch_simple _ _ (rd_chains _ Rd)).
  apply (sweep_numpy_R d env ts ind kl); auto. apply vsteps_safe; auto.
  intros l1 n l2 sa El V1 V2. assert (V' := V). rewrite El in V'.
  destruct (visits_at d ts None ind (kl + 1)%Z l1 n l2 a b W Rd Hts El V' sa V1 V2) as (Da&Old&Fin&X). cbn zeta in X.
  destruct X as [_ X]. assert (In1 : In n (nodes d)) by (inversion V2; auto).
  destruct (ready_kof d n Rd In1) as (k&Ek&_).
  assert (Pn : at_position b n (xg (s_xyz sa) n)).
  { unfold at_position. destruct (Fin n k k Ek Ek (Z.le_refl _)) as [<- _]. now apply (xg_at sa d). }
  assert (Seq : forall u, In u (nodes d) -> exists j, node_sequence d u = Ok j /\ kof d u = Some j).
  { intros u Iu. destruct (ready_kof d u Rd Iu) as (j&Ej&_). exists j. split; auto. now apply seq_kof. }
  split; [|split].
  - intros e Ie. destruct (cdir_spec d n W Sg Sq In1) as (_&_&M). apply M in Ie as (Ie&B&Hn).
    assert (Ie' := Ie). apply In_edges, has_edge_find in Ie' as [at' Ea]; auto. destruct e as [u v].
    destruct (wf_eends _ W _ _ Ea) as [Iu Iv]. cbn [fst snd] in *.
    unfold dir_b in B. rewrite Ea in B. apply andb_true_iff in B as [B1 B2]. cbn [fst snd] in B2.
    destruct (Seq u Iu) as (ku&Su&Ku). destruct (Seq v Iv) as (kv&Sv&Kv). rewrite Ku, Kv in B2.
    apply Z.eqb_eq in B2. subst kv.
    assert (Dv : In (u, v) (deviation_edges d)).
    { apply In_deviation_edges; auto. exists at'. split; auto. now apply opt_is_dev. }
    assert (Same : forall m, In m (nodes d) -> kof d m = Some k -> at_position b m (xg (s_xyz sa) m)).
    { intros m Im Km. unfold at_position. destruct (Fin m k k Ek Km (Z.le_refl _)) as [<- _]. now apply (xg_at sa d). }
    assert (ku = k) by (destruct Hn as [<-|<-]; congruence). subst ku.
    assert (Q : xg (s_xyz sa) u <> xg (s_xyz sa) v).
    { apply (ds_direct _ _ _ _ Sf u v); auto. congruence. }
    unfold other. cbn [fst snd]. destruct (Z.eqb_spec u n) as [->|]; cbn [negb]; [congruence|].
    destruct Hn as [|<-]; congruence.
  - intros -> e Ie. destruct (cind_spec d n W Sg Sq In1) as (_&_&M). apply M in Ie as (Ie&B&Hn).
    assert (Ie' := Ie). apply In_edges, has_edge_find in Ie' as [at' Ea]; auto. destruct e as [u v].
    destruct (wf_eends _ W _ _ Ea) as [Iu Iv]. cbn [fst snd] in *.
    unfold indir_b in B. rewrite Ea in B. apply andb_true_iff in B as [B1 B2]. cbn [fst snd] in B2.
    destruct (Seq u Iu) as (ku&Su&Ku). destruct (Seq v Iv) as (kv&Sv&Kv). rewrite Ku, Kv in B2.
    apply negb_true_iff, Z.eqb_neq in B2.
    assert (Dv : In (u, v) (deviation_edges d)).
    { apply In_deviation_edges; auto. exists at'. split; auto. now apply opt_is_dev. }
    assert (Either : forall m, In m (nodes d) -> at_position a m (xg (s_xyz sa) m) \/ at_position b m (xg (s_xyz sa) m)).
    { intros m Im. unfold at_position. assert (Y := xg_at sa d m Da Im). unfold at_position in Y. rewrite <- Y.
      destruct (Old m) as [<-|<-]; auto. }
    assert (Ns : node_sequence d u <> node_sequence d v).
    { rewrite Su, Sv. intros Q. apply Ok_inj in Q. auto. }
    unfold other. cbn [fst snd]. destruct (Z.eqb_spec u n) as [->|Nu]; cbn [negb].
    + intros Q. apply (ds_indirect _ _ _ _ Sf n v (xg (s_xyz sa) n) (xg (s_xyz sa) v)); auto.
    + destruct Hn as [Hn|Hn]; [congruence|]. subst v. intros Q.
      apply (ds_indirect _ _ _ _ Sf n u (xg (s_xyz sa) n) (xg (s_xyz sa) u)); auto.
  - intros Sn Q. destruct (not_sup_follows d n W Rd In1 Sn) as [m F].
    destruct (X m) as (_&_&Fo&_); [unfold stops; now rewrite Sn|auto|].
    apply (ds_force _ _ _ _ Sf _ _ Fo). rewrite Q, norm_v0, ncopysign_R, Rabs_R0. destruct Rlt_dec; lra.
Qed.
