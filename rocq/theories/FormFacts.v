(** * Containers, iterations and the form built from them *)

From Coq Require Import String List ZArith Bool Lia Permutation.
From Verif Require Import Py PyFacts Num Diagram DiagramFacts Topology SpecDiagram SpecTopology
  TopologyFacts BuildFacts History HistoryFacts DiagramThms TopologyThms SequenceThms
  Equilibrium SpecEquilibrium EqFacts.
Import ListNotations.
Open Scope Z_scope.

Section Facts.
  Context {T : Type} `{NumOps T}.
  Implicit Types (d : diagram T).

  (** ** Invariant of the containers, on any well-formed diagram *)

  Record inv d (st : eqstate T) : Prop := {
    iv_xyz : dkeys (s_xyz st) = nodes d;
    iv_res : dkeys (s_res st) = nodes d;
    iv_reac : NoDup (dkeys (s_reac st));
    iv_reac_in : incl (dkeys (s_reac st)) (nodes d);
    iv_tforce : NoDup (dkeys (s_tforce st));
    iv_tforce_in : incl (dkeys (s_tforce st)) (edges d)
  }.

  Lemma inv_dom d st : inv d st -> dom d st.
  Proof. intros []. split; auto. Qed.

  Lemma inv_init d : inv d (init_state d).
  Proof.
    constructor; cbn; try (now rewrite dkeys_map); try constructor; intros x [].
  Qed.

  Lemma visit_inv d ts kmax ind k st key st' : wf d -> inv d st ->
    visit d ts kmax ind k st key = Ok st' -> inv d st'.
  Proof.
    intros W I. unfold visit. intros E. apply bind_Ok in E as (m&Em&E).
    destruct (dget m k) as [n|]; [|injection E as <-; auto].
    apply bind_Ok in E as (pos&Epos&E). apply bind_Ok in E as (rin&Erin&E).
    apply bind_Ok in E as (rvec&Ervec&E). apply bind_Ok in E as (sup&Esup&E).
    assert (Hn : In n (nodes d)).
    { rewrite <- (iv_xyz _ _ I). apply dgetr_Ok in Epos. eapply dget_In_keys; eauto. }
    destruct (sup || _).
    - injection E as <-. destruct I. constructor; cbn; auto.
      + now apply NoDup_dset.
      + intros x J. apply In_dkeys_dset in J as [->|J]; auto.
    - apply bind_Ok in E as (nx&Enx&E). apply bind_Ok in E as (a&Ea&E). injection E as <-.
      assert (Ha : edge_find d (trail_edge_key d n nx) = Some a).
      { unfold edge_get in Ea. destruct (edge_find d (trail_edge_key d n nx)); congruence. }
      assert (Hx : In nx (nodes d)).
      { destruct (wf_eends _ W _ _ Ha) as [H1 H2]. unfold trail_edge_key in H1, H2. now destruct (has_edge d (n, nx)). }
      destruct I. constructor; cbn; auto.
      + rewrite dkeys_dset_in; auto. congruence.
      + rewrite dkeys_dset_in; auto. congruence.
      + now apply NoDup_dset.
      + intros x J. apply In_dkeys_dset in J as [->|J]; auto. apply In_edges, has_edge_find; eauto.
  Qed.

  Lemma sweep_inv d ts kmax ind st st' : wf d -> inv d st -> sweep d ts kmax ind st = Ok st' -> inv d st'.
  Proof.
    intros W I E. unfold sweep in E. apply bind_Ok in E as (n&En&E). revert E.
    apply fold_res_inv; auto. intros s k s' Hs. apply fold_res_inv; auto.
    intros s1 key s2 H1. now apply visit_inv.
  Qed.

  (** ** Iterations *)

  Lemma after_inv d ts kmax t st : wf d -> after d ts kmax t = Ok st -> inv d st.
  Proof.
    intros W. revert st. induction t as [|t IH]; cbn; intros st E.
    - injection E as <-. apply inv_init.
    - apply bind_Ok in E as (s&Es&E). eapply sweep_inv; eauto.
  Qed.

  Lemma moves_fun d ts kmax t x y : moves d ts kmax t x -> moves d ts kmax t y -> x = y.
  Proof. intros (a&b&A&B&C) (a'&b'&A'&B'&C'). congruence. Qed.

  Lemma iterate_spec d ts kmax eta : forall n t dist0 st st' ot od,
    after d ts kmax t = Ok st -> iterate d ts kmax eta n t dist0 st = Ok (st', ot, od) ->
    (exists s x, (t <= s < t + n)%nat /\ (1 <= s)%nat /\ moves d ts kmax s x /\ nltb x eta = true
        /\ (forall j y, (t <= j < s)%nat -> (1 <= j)%nat -> moves d ts kmax j y -> nltb y eta = false)
        /\ after d ts kmax (S s) = Ok st' /\ ot = Some s /\ od = Some x)
    \/ ((forall j, (t <= j < t + n)%nat -> (1 <= j)%nat -> exists y, moves d ts kmax j y /\ nltb y eta = false)
        /\ after d ts kmax (t + n) = Ok st' /\ ot = match (t + n)%nat with O => None | S j => Some j end
        /\ if (n =? 0)%nat || (t + n =? 1)%nat then od = dist0
           else exists x, od = Some x /\ moves d ts kmax (t + n - 1) x).
  Proof.
    induction n as [|n IH]; intros t dist0 st st' ot od A E.
    - right. cbn in E. injection E as <- <- <-. rewrite Nat.add_0_r. split; [intros; lia|]. split; [auto|]. split; [auto|]. reflexivity.
    - cbn [iterate] in E. apply bind_Ok in E as (s1&Es&E).
      assert (A1 : after d ts kmax (S t) = Ok s1) by (cbn; rewrite A; exact Es).
      destruct (Nat.eqb_spec t 0) as [->|Ht].
      + apply IH in E; auto. destruct E as [(s&x&B&P&M&L&F&A'&O1&O2)|(F&A'&O1&O2)].
        * left. exists s, x. split; [lia|]. split; auto. split; auto. split; auto. split; auto.
          intros j y Bj Pj. apply F; lia.
        * right. split; [intros j Bj Pj; apply F; lia|]. replace (0 + S n)%nat with (1 + n)%nat by lia.
          split; auto. split; auto. cbn. destruct n; cbn in *; auto.
      + apply bind_Ok in E as (x&Ex&E).
        assert (M : moves d ts kmax t x) by (exists st, s1; auto).
        destruct (nltb x eta) eqn:L.
        * injection E as <- <- <-. left. exists t, x. split; [lia|]. split; [lia|]. split; auto. split; auto.
          split; [intros; lia|]. auto.
        * apply IH in E; auto. destruct E as [(s&x'&B&P&M'&L'&F&A'&O1&O2)|(F&A'&O1&O2)].
          -- left. exists s, x'. split; [lia|]. split; auto. split; auto. split; auto. split; auto.
             intros j y Bj Pj Mj. destruct (Nat.eq_dec j t) as [->|]; [|apply (F j); auto; lia].
             now rewrite (moves_fun _ _ _ _ _ _ Mj M).
          -- right. split.
             { intros j Bj Pj. destruct (Nat.eq_dec j t) as [->|]; [eauto|]. apply F; lia. }
             replace (t + S n)%nat with (S t + n)%nat by lia. split; auto. split; auto.
             cbn [Nat.eqb orb]. assert (X : (S t + n =? 1)%nat = false) by (apply Nat.eqb_neq; lia). rewrite X in *.
             destruct n as [|n]; cbn [Nat.eqb orb] in O2.
             ++ exists x. split; auto. replace (S t + 0 - 1)%nat with t by lia. auto.
             ++ auto.
  Qed.

  (** What success of equilibrium_state means. *)
  Lemma equilibrium_state_Ok d kmax tmax eta verbose st :
    equilibrium_state d kmax tmax eta verbose = Ok st ->
    exists ts t, trails_sequences d = Ok ts /\ trails d <> []
      /\ after d ts kmax t = Ok st /\ (1 <= t <= Z.to_nat tmax)%nat
      /\ (t = 1%nat -> tmax = 1)
      /\ (forall j y, (1 <= j)%nat -> (S j < t)%nat -> moves d ts kmax j y -> nltb y eta = false)
      /\ (2 <= tmax -> exists x, moves d ts kmax (t - 1) x
            /\ (nltb x eta = true \/ Z.of_nat t = tmax /\ nltb x eta = false /\ nltb eta x = false)).
  Proof.
    unfold equilibrium_state. destruct (Z.ltb_spec 0 (number_of_trails d)) as [Ht|]; cbn [negb]; [|discriminate].
    intros E. apply bind_Ok in E as (ts&Ets&E). apply bind_Ok in E as (kl&Ekl&E).
    destruct (match kmax with Some km => km <? 0 | None => false end); [discriminate|].
    apply bind_Ok in E as ([[st1 ot] od]&Ei&E). exists ts.
    assert (NE : trails d <> []) by (intros X; unfold number_of_trails, trails in *; rewrite X in Ht; cbn in Ht; lia).
    apply iterate_spec in Ei; [|reflexivity].
    destruct Ei as [(s&x&B&P&M&L&F&A'&->&->)|(F&A'&->&O2)].
    - assert (X : (s =? 0)%nat = false) by (apply Nat.eqb_neq; lia). rewrite X in E. cbn in E.
      destruct (nltb eta x); [discriminate|]. injection E as ->.
      exists (S s). split; auto. split; auto. split; auto. split; [lia|]. split; [lia|]. split.
      { intros j y Pj Bj. apply F; auto. lia. }
      intros _. exists x. replace (S s - 1)%nat with s by lia. auto.
    - cbn [Nat.add] in *. destruct (Z.to_nat tmax) as [|n] eqn:En; [discriminate|].
      destruct (Nat.eqb_spec n 0) as [->|Hn]; cbn [negb] in E.
      + assert (st1 = st).
        { destruct (verbose && match od with Some _ => false | None => true end); congruence. }
        subst st1. exists 1%nat. split; auto. split; auto. split; auto. split; [lia|]. split; [lia|].
        split; [intros; lia|]. intros. lia.
      + assert (X : (n =? 0)%nat = false) by (apply Nat.eqb_neq; lia). cbn [Nat.eqb orb] in O2. rewrite X in O2.
        destruct O2 as (x&->&M). destruct (nltb eta x) eqn:L; [discriminate|]. injection E as ->.
        exists (S n). split; auto. split; auto. split; auto. split; [lia|]. split; [lia|]. split.
        { intros j y Pj Bj Mj. destruct (F j) as (y'&Mj'&Ly); [lia|lia|]. now rewrite (moves_fun _ _ _ _ _ _ Mj Mj'). }
        intros _. exists x. split; auto. replace (S n - 1)%nat with n in M by lia.
        destruct (F n) as (y&My&Ly); [lia|lia|]. rewrite (moves_fun _ _ _ _ _ _ My M) in Ly.
        right. split; [lia|auto].
  Qed.

  (** ** The form *)

  (** Coordinates and reactions of a form, by container. *)
  Definition node_after (st : eqstate T) (n : Z) (a : node_attr T) : node_attr T :=
    let a := match dget (s_xyz st) n with Some p => set_xyz a p | None => a end in
    match dget (s_reac st) n with Some r => set_reac a r | None => a end.
  Definition force_after (st : eqstate T) (e : ekey) (a : edge_attr T) : edge_attr T :=
    match dget (s_tforce st) e with Some f => set_force a f | None => a end.

  Lemma node_loop {V} (g : V -> node_attr T -> node_attr T) (kvs : dict Z V) : forall d,
    NoDup (dkeys kvs) -> incl (dkeys kvs) (nodes d) ->
    exists x, eloop (fun _ kv => node_set (fst kv) (g (snd kv))) kvs tt d = (with_node d x, Ok tt)
      /\ dkeys x = nodes d
      /\ forall n, dget x n = match dget (d_node d) n with
                              | Some a => Some (match dget kvs n with Some v => g v a | None => a end)
                              | None => None end.
  Proof.
    induction kvs as [|[k v] kvs IH]; intros d N Inc.
    - exists (d_node d). split; [destruct d; reflexivity|]. split; auto. intros n. now destruct (dget (d_node d) n).
    - inversion N as [|? ? Hk N']; subst. cbn [eloop fst snd].
      assert (Ik : In k (nodes d)) by (apply Inc; now left). apply In_keys_dget in Ik as [a Ea].
      unfold ebind. rewrite (node_set_Ok d k (g v) a Ea).
      destruct (IH (with_node d (dset (d_node d) k (g v a)))) as (x&E&K&X); auto.
      { rewrite nodes_dset by (eapply dget_In_keys; eauto). intros y J. apply Inc. now right. }
      exists x. split; [exact E|]. rewrite nodes_dset in K by (eapply dget_In_keys; eauto). split; auto.
      intros n. rewrite X. cbn [d_node with_node]. rewrite dget_dset.
      change (dget ((k, v) :: kvs) n) with (if eqb n k then Some v else dget kvs n).
      destruct (eqb_spec n k) as [->|]; auto. rewrite Ea. assert (X' : dget kvs k = None) by now apply dget_None.
      now rewrite X'.
  Qed.

  Lemma edges_dset (l : dict Z (dict Z (edge_attr T))) u nb nb' :
    dget l u = Some nb -> dkeys nb' = dkeys nb ->
    flat_map (fun ue => map (fun va => (fst ue, fst va)) (snd ue)) (dset l u nb')
    = flat_map (fun ue : Z * dict Z (edge_attr T) => map (fun va : Z * edge_attr T => (fst ue, fst va)) (snd ue)) l.
  Proof.
    intros E K. assert (G : forall (w : Z) (x : dict Z (edge_attr T)), map (fun va : Z * edge_attr T => (w, fst va)) x = map (pair w) (dkeys x)).
    { intros w x. unfold dkeys. now rewrite map_map. }
    unfold dget, dset in *. induction l as [|[w x] l IH]; cbn in E |- *; [discriminate|].
    destruct (Z.eqb_spec u w) as [->|]; cbn.
    - injection E as ->. rewrite !G, K. reflexivity.
    - f_equal. now apply IH.
  Qed.

  Lemma edge_set_full d e f a : edge_find d e = Some a ->
    exists x, edge_set e f d = (with_edge d x, Ok tt)
      /\ edges (with_edge d x) = edges d
      /\ forall e', edge_find (with_edge d x) e' = if eqb e' e then Some (f a) else edge_find d e'.
  Proof.
    intros E. destruct (edge_set_find d e f a E) as (d'&E1&F&_&_&Eq).
    exists (d_edge d'). rewrite <- Eq. split; auto. split; auto.
    destruct e as [u v]. unfold edge_set, edge_find in *. cbn in *.
    destruct (dget (d_edge d) u) as [nb|] eqn:Eu; [|discriminate]. rewrite E in E1. injection E1 as <-.
    unfold edges. cbn [d_edge with_edge]. apply edges_dset with (nb := nb); auto.
    apply dkeys_dset_in. eapply dget_In_keys; eauto.
  Qed.

  Lemma edge_loop {V} (g : V -> edge_attr T -> edge_attr T) (kvs : dict ekey V) : forall d,
    NoDup (dkeys kvs) -> (forall e, In e (dkeys kvs) -> exists a, edge_find d e = Some a) ->
    exists x, eloop (fun _ kv => edge_set (fst kv) (g (snd kv))) kvs tt d = (with_edge d x, Ok tt)
      /\ edges (with_edge d x) = edges d
      /\ forall e, edge_find (with_edge d x) e = match edge_find d e with
                              | Some a => Some (match dget kvs e with Some v => g v a | None => a end)
                              | None => None end.
  Proof.
    induction kvs as [|[k v] kvs IH]; intros d N Inc.
    - exists (d_edge d). replace (with_edge d (d_edge d)) with d by now destruct d.
      split; [reflexivity|]. split; auto. intros n. now destruct (edge_find d n).
    - inversion N as [|? ? Hk N']; subst. cbn [eloop fst snd].
      assert (Ik : exists a, edge_find d k = Some a) by (apply Inc; now left). destruct Ik as [a Ea].
      unfold ebind. destruct (edge_set_full d k (g v) a Ea) as (x1&E1&Ed1&F1). rewrite E1.
      destruct (IH (with_edge d x1)) as (x&E&K&X); auto.
      { intros e J. rewrite F1. destruct (@eqb_spec ekey _ e k); eauto. apply Inc. now right. }
      exists x. split; [exact E|]. split.
      + rewrite <- Ed1. exact K.
      + intros e. change (edge_find (with_edge d x) e) with (edge_find (with_edge (with_edge d x1) x) e).
        rewrite X, F1.
        change (dget ((k, v) :: kvs) e) with (if @eqb ekey _ e k then Some v else dget kvs e).
        destruct (@eqb_spec ekey _ e k) as [->|]; auto. rewrite Ea.
        assert (X' : dget kvs k = None) by now apply dget_None. now rewrite X'.
  Qed.

  Definition measured d (e : ekey) (a : edge_attr T) : edge_attr T :=
    set_length a (ncopysign (distance_point_point (xg (map (fun na => (fst na, na_xyz (snd na))) (d_node d)) (fst e))
                                                  (xg (map (fun na => (fst na, na_xyz (snd na))) (d_node d)) (snd e))) (ea_force a)).

  Lemma coords_xg d n : In n (nodes d) ->
    node_coordinates d n = Ok (xg (map (fun na => (fst na, na_xyz (snd na))) (d_node d)) n).
  Proof.
    intros I. apply In_keys_dget in I as [a Ea]. unfold node_coordinates, node_get, dgetr, xg.
    rewrite dget_map, Ea. reflexivity.
  Qed.

  Lemma measure_loop (es : list ekey) : forall d, NoDup es ->
    (forall e, In e es -> exists a, edge_find d e = Some a /\ In (fst e) (nodes d) /\ In (snd e) (nodes d)) ->
    exists x, eloop (fun _ (e : ekey) =>
      do* pu := eget (fun d => node_coordinates d (fst e)) in
      do* pv := eget (fun d => node_coordinates d (snd e)) in
      let length := distance_point_point pu pv in
      do* force := eget (fun d => edge_force d e) in
      edge_set e (fun a => set_length a (ncopysign length force))) es tt d = (with_edge d x, Ok tt)
      /\ edges (with_edge d x) = edges d
      /\ forall e, edge_find (with_edge d x) e = match edge_find d e with
                              | Some a => Some (if memb e es then measured d e a else a)
                              | None => None end.
  Proof.
    induction es as [|k es IH]; intros d N Inc.
    - exists (d_edge d). replace (with_edge d (d_edge d)) with d by now destruct d.
      split; [reflexivity|]. split; auto. intros n. now destruct (edge_find d n).
    - inversion N as [|? ? Hk N']; subst. cbn [eloop].
      destruct (Inc k (or_introl eq_refl)) as (a&Ea&I1&I2).
      unfold ebind at 1 2 3 4. unfold eget. rewrite !coords_xg by auto.
      unfold edge_force at 1, edge_get at 1. rewrite Ea. cbn [bind].
      match goal with |- context [edge_set k ?g d] => destruct (edge_set_full d k g a Ea) as (x1&E1&Ed1&F1) end.
      rewrite E1. destruct (IH (with_edge d x1)) as (x&E&K&X); auto.
      { intros e J. destruct (Inc e (or_intror J)) as (ae&Hae&J1&J2). rewrite F1.
        destruct (@eqb_spec ekey _ e k); eauto. }
      exists x. split; [exact E|]. split.
      + rewrite <- Ed1. exact K.
      + intros e. change (edge_find (with_edge d x) e) with (edge_find (with_edge (with_edge d x1) x) e).
        rewrite X, F1. change (memb e (k :: es)) with (@eqb ekey _ e k || memb e es).
        destruct (@eqb_spec ekey _ e k) as [->|]; cbn [orb].
        * rewrite Ea. assert (X' : memb k es = false) by now apply memb_nIn. rewrite X'. reflexivity.
        * destruct (edge_find d e); auto.
  Qed.

  Lemma wf_form d : wf d -> wf (form_of_topology d).
  Proof.
    intros W. destruct W. constructor; auto.
    - constructor.
    - intros k tr n E. discriminate.
  Qed.

  Lemma wf_form_update st : preserves (wf (T:=T)) (form_update st).
  Proof.
    unfold form_update.
    apply preserves_ebind; [apply preserves_eloop; intros; apply wf_node_set|intros _].
    apply preserves_ebind; [apply preserves_eloop; intros; apply wf_edge_set; auto|intros _].
    apply preserves_ebind; [apply preserves_eloop; intros; apply wf_node_set|intros _].
    apply preserves_ebind; [apply preserves_eget|intros es].
    apply preserves_eloop. intros x e _.
    apply preserves_ebind; [apply preserves_eget|intros pu].
    apply preserves_ebind; [apply preserves_eget|intros pv].
    apply preserves_ebind; [apply preserves_eget|intros force]. apply wf_edge_set; auto.
  Qed.

  Lemma wf_static d kmax tmax eta verbose form : wf d -> static_equilibrium d kmax tmax eta verbose = Ok form -> wf form.
  Proof.
    intros W E. unfold static_equilibrium in E. apply bind_Ok in E as (st&_&E).
    assert (X := wf_form_update st (form_of_topology d) (wf_form d W)).
    destruct (form_update st (form_of_topology d)) as [f [[]|]]; [|discriminate]. apply Ok_inj in E. now subst.
  Qed.

  Lemma produced_wf d : produced d -> wf d.
  Proof.
    intros [Hr|(t&kmax&tmax&eta&verbose&Hr&E)]; [now apply reachable_wf|]. apply reachable_wf in Hr. eapply wf_static; eauto.
  Qed.

  Lemma form_update_spec d st : wf d -> inv d st ->
    exists form, form_update st (form_of_topology d) = (form, Ok tt)
      /\ nodes form = nodes d /\ edges form = edges d
      /\ (forall n, dget (d_node form) n = match dget (d_node d) n with Some a => Some (node_after st n a) | None => None end)
      /\ (forall e, edge_find form e = match edge_find d e with
            | Some a => Some (let a := force_after st e a in
                set_length a (ncopysign (distance_point_point (xg (s_xyz st) (fst e)) (xg (s_xyz st) (snd e))) (ea_force a)))
            | None => None end)
      /\ d_adj form = d_adj d /\ d_max form = d_max d /\ d_gkey form = d_gkey d /\ d_tol form = d_tol d
      /\ d_trails form = [].
  Proof.
    intros W I. unfold form_update. set (f0 := form_of_topology d).
    destruct (node_loop (fun p a => set_xyz a p) (s_xyz st) f0) as (x1&E1&K1&X1).
    { rewrite (iv_xyz _ _ I). apply (wf_nodup _ W). }
    { rewrite (iv_xyz _ _ I). apply incl_refl. }
    unfold ebind at 1. rewrite E1. set (f1 := with_node f0 x1) in *.
    destruct (edge_loop (fun f a => set_force a f) (s_tforce st) f1) as (x2&E2&K2&X2).
    { apply (iv_tforce _ _ I). }
    { intros e J. apply (iv_tforce_in _ _ I), In_edges, has_edge_find in J; auto. }
    unfold ebind at 1. rewrite E2. set (f2 := with_edge f1 x2) in *.
    assert (N2 : nodes f2 = nodes d) by exact K1.
    destruct (node_loop (fun p a => set_reac a p) (s_reac st) f2) as (x3&E3&K3&X3).
    { apply (iv_reac _ _ I). }
    { rewrite N2. apply (iv_reac_in _ _ I). }
    unfold ebind at 1. rewrite E3. set (f3 := with_node f2 x3) in *.
    assert (N3 : nodes f3 = nodes d) by (rewrite <- N2; exact K3).
    assert (F3 : forall e, edge_find f3 e = match edge_find d e with Some a => Some (force_after st e a) | None => None end).
    { intros e. change (edge_find f3 e) with (edge_find f2 e). rewrite X2. reflexivity. }
    assert (E3' : edges f3 = edges d) by (change (edges f3) with (edges f2); rewrite K2; reflexivity).
    unfold ebind at 1. unfold eget at 1. cbv beta iota.
    destruct (measure_loop (edges f3) f3) as (x4&E4&K4&X4).
    { rewrite E3'. now apply NoDup_edges. }
    { intros e J. rewrite E3' in J. apply In_edges, has_edge_find in J as [a Ea]; auto.
      rewrite F3, Ea, N3. destruct (wf_eends _ W _ _ Ea). eauto. }
    cbv zeta in E4. rewrite E4. eexists. split; [reflexivity|].
    assert (A3 : forall n, dget (d_node f3) n = match dget (d_node d) n with Some a => Some (node_after st n a) | None => None end).
    { intros n. change (d_node f3) with x3. rewrite X3. change (d_node f2) with x1. rewrite X1.
      change (d_node f0) with (d_node d). unfold node_after. destruct (dget (d_node d) n); auto. }
    split; [exact N3|]. split; [rewrite K4; auto|]. split; [exact A3|]. split.
    { intros e. rewrite X4, F3. destruct (edge_find d e) as [a|] eqn:Ea; auto.
      assert (Me : memb e (edges f3) = true).
      { apply (@memb_In ekey _). rewrite E3'. apply In_edges, has_edge_find; eauto. }
      rewrite Me. f_equal. cbn zeta. unfold measured.
      assert (Q : forall n, In n (nodes d) -> xg (map (fun na => (fst na, na_xyz (snd na))) (d_node f3)) n = xg (s_xyz st) n).
      { intros n J. unfold xg. rewrite dget_map, A3. assert (J' := J). apply In_keys_dget in J' as [b Eb]. rewrite Eb.
        rewrite <- (iv_xyz _ _ I) in J. apply In_keys_dget in J as [p Ep]. rewrite Ep. unfold node_after. rewrite Ep.
        now destruct (dget (s_reac st) n). }
      destruct (wf_eends _ W _ _ Ea). now rewrite !Q by auto. }
    repeat split.
  Qed.

  (** Success of static_equilibrium, unfolded. *)
  Lemma static_Ok d kmax tmax eta verbose form : wf d ->
    static_equilibrium d kmax tmax eta verbose = Ok form ->
    exists st, equilibrium_state d kmax tmax eta verbose = Ok st /\ inv d st
      /\ nodes form = nodes d /\ edges form = edges d
      /\ (forall n, dget (d_node form) n = match dget (d_node d) n with Some a => Some (node_after st n a) | None => None end)
      /\ (forall e, edge_find form e = match edge_find d e with
            | Some a => Some (let a := force_after st e a in
                set_length a (ncopysign (distance_point_point (xg (s_xyz st) (fst e)) (xg (s_xyz st) (snd e))) (ea_force a)))
            | None => None end)
      /\ d_adj form = d_adj d /\ d_max form = d_max d /\ d_gkey form = d_gkey d /\ d_tol form = d_tol d
      /\ d_trails form = [].
  Proof.
    intros W E. unfold static_equilibrium in E. apply bind_Ok in E as (st&Es&E).
    assert (I : inv d st).
    { apply equilibrium_state_Ok in Es as (ts&t&_&_&A&_). eapply after_inv; eauto. }
    destruct (form_update_spec d st W I) as (f&Ef&R). rewrite Ef in E. injection E as <-. eauto.
  Qed.

  Lemma static_of_state d kmax tmax eta verbose st : wf d ->
    equilibrium_state d kmax tmax eta verbose = Ok st ->
    exists form, static_equilibrium d kmax tmax eta verbose = Ok form.
  Proof.
    intros W Es. assert (I : inv d st).
    { apply equilibrium_state_Ok in Es as (ts&t&_&_&A&_). eapply after_inv; eauto. }
    destruct (form_update_spec d st W I) as (f&Ef&R). exists f. unfold static_equilibrium. rewrite Es. cbn.
    now rewrite Ef.
  Qed.
End Facts.
