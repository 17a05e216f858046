(** * One iteration of form finding: schedule, frame, and what it establishes *)

From Coq Require Import String List ZArith Bool Lia Permutation Sorted.
From Verif Require Import Py PyFacts Num Diagram DiagramFacts Topology SpecDiagram SpecTopology
  TopologyFacts BuildFacts ChainFacts ChainFacts2 History HistoryFacts DiagramThms TopologyThms SequenceThms
  Equilibrium SpecEquilibrium.
Import ListNotations.
Open Scope Z_scope.

Section Facts.
  Context {T : Type} `{NumOps T}.
  Implicit Types (d : diagram T).

  (** ** Trails of a ready topology *)

  Lemma In_stored d tr : In tr (stored d) <-> exists key, In (key, tr) (trails d).
  Proof.
    unfold stored. rewrite in_map_iff. split.
    - intros ([key t]&<-&I). eauto.
    - intros [key I]. exists (key, tr). auto.
  Qed.

  Lemma stored_nodup d tr : ready d -> In tr (stored d) -> NoDup tr.
  Proof. intros R I. eapply NoDup_concat_In; eauto. apply (ch_disjoint _ _ (rd_chains _ R)). Qed.

  Lemma same_trail d tr tr' n : ready d -> In tr (stored d) -> In tr' (stored d) ->
    In n tr -> In n tr' -> tr = tr'.
  Proof. intros R. apply concat_disjoint, (ch_disjoint _ _ (rd_chains _ R)). Qed.

  Lemma node_on_trail d n : ready d -> In n (nodes d) -> exists tr, In tr (stored d) /\ In n tr.
  Proof. intros R I. apply (rd_covers _ R) in I. apply in_concat in I as (tr&I&J). eauto. Qed.

  Lemma trail_node d tr n : ready d -> In tr (stored d) -> In n tr -> In n (nodes d).
  Proof. intros R I J. apply (ch_nodes _ _ (rd_chains _ R)). apply in_concat. eauto. Qed.

  Lemma trail_kof d tr : ready d -> In tr (stored d) -> exists s, 0 <= s
      /\ forall i n, nth_error tr i = Some n -> kof d n = Some (s + Z.of_nat i).
  Proof.
    intros R I. destruct (rd_sequences _ R tr I) as (s&P&E). exists s. split; auto.
    intros i n X. apply seq_kof. auto.
  Qed.

  Lemma ready_sequenced d : ready d -> sequenced d.
  Proof.
    intros R n I. destruct (node_on_trail d n R I) as (tr&It&In1).
    destruct (rd_sequences _ R tr It) as (s&P&E). apply In_nth_error in In1 as [i Ei]. eauto.
  Qed.

  Lemma ready_kof d n : ready d -> In n (nodes d) -> exists k, kof d n = Some k /\ 0 <= k.
  Proof.
    intros R I. destruct (node_on_trail d n R I) as (tr&It&In1).
    destruct (trail_kof d tr R It) as (s&P&E). apply In_nth_error in In1 as [i Ei].
    exists (s + Z.of_nat i). split; auto. lia.
  Qed.

  Lemma kof_inj d tr n m k : ready d -> In tr (stored d) -> In n tr -> In m tr ->
    kof d n = Some k -> kof d m = Some k -> n = m.
  Proof.
    intros R I In1 Im En Em. destruct (trail_kof d tr R I) as (s&P&E).
    apply In_nth_error in In1 as [i Ei]. apply In_nth_error in Im as [j Ej].
    rewrite (E i n Ei) in En. rewrite (E j m Ej) in Em. injection En as <-. injection Em as Em.
    assert (i = j) by lia. congruence.
  Qed.

  Lemma follows_nodes d n m : ready d -> follows d n m -> In n (nodes d) /\ In m (nodes d).
  Proof.
    intros R (tr&I&(l&r&E)). split; eapply trail_node; eauto; rewrite E; apply in_or_app; right; cbn; auto.
  Qed.

  Lemma follows_kof d n m k : ready d -> follows d n m -> (kof d n = Some k <-> kof d m = Some (k + 1)).
  Proof.
    intros R (tr&I&C). apply consecutive_nth in C as (i&En&Em).
    destruct (trail_kof d tr R I) as (s&P&E). rewrite (E i n En), (E _ m Em).
    split; intros X; f_equal; injection X; lia.
  Qed.

  Lemma follows_fun d n m m' : ready d -> follows d n m -> follows d n m' -> m = m'.
  Proof.
    intros R (tr&I&C) (tr'&I'&C').
    assert (J : In n tr) by (destruct C as (l&r&->); apply in_or_app; right; now left).
    assert (J' : In n tr') by (destruct C' as (l&r&->); apply in_or_app; right; now left).
    assert (tr = tr') by (eapply same_trail; eauto). subst tr'.
    apply consecutive_nth in C as (i&En&Em). apply consecutive_nth in C' as (j&En'&Em').
    assert (i = j) by (eapply NoDup_nth_error_inj; eauto; eapply stored_nodup; eauto). congruence.
  Qed.

  Lemma follows_inj d n n' m : ready d -> follows d n m -> follows d n' m -> n = n'.
  Proof.
    intros R (tr&I&C) (tr'&I'&C').
    assert (J : In m tr) by (destruct C as (l&r&->); apply in_or_app; right; right; now left).
    assert (J' : In m tr') by (destruct C' as (l&r&->); apply in_or_app; right; right; now left).
    assert (tr = tr') by (eapply same_trail; eauto). subst tr'.
    apply consecutive_nth in C as (i&En&Em). apply consecutive_nth in C' as (j&En'&Em').
    assert (S i = S j) by (eapply NoDup_nth_error_inj; eauto; eapply stored_nodup; eauto). congruence.
  Qed.


  Lemma is_sup_ends d n : wf d -> ready d -> (is_sup d n = true <-> exists tr, In tr (stored d) /\ ends_in tr n).
  Proof.
    intros W R. rewrite <- (ch_supports _ _ (rd_chains _ R) n). symmetry. now apply In_support_nodes.
  Qed.

  Lemma not_sup_follows d n : wf d -> ready d -> In n (nodes d) -> is_sup d n = false -> exists m, follows d n m.
  Proof.
    intros W R I E. destruct (node_on_trail d n R I) as (tr&It&J).
    apply in_split in J as (l&r&->). destruct r as [|m r].
    - assert (X : is_sup d n = true); [|congruence]. apply is_sup_ends; auto. exists (l ++ [n]). split; auto. now exists l.
    - exists m. exists (l ++ n :: m :: r). split; auto. now exists l, r.
  Qed.

  Lemma sup_not_follows d n m : wf d -> ready d -> is_sup d n = true -> ~ follows d n m.
  Proof.
    intros W R E (tr&It&(l&r&->)). apply is_sup_ends in E as (tr'&It'&(l'&E)); auto.
    assert (tr' = l ++ n :: m :: r).
    { eapply same_trail with (n := n); eauto; [rewrite E|]; apply in_or_app; right; now left. }
    assert (N := stored_nodup d _ R It). rewrite <- H0, E in N.
    rewrite H0 in E. clear -E N.
    assert (X : nth_error (l' ++ [n]) (List.length l) = Some n).
    { rewrite <- E, nth_error_app2, Nat.sub_diag by lia. reflexivity. }
    assert (Y : nth_error (l' ++ [n]) (List.length l') = Some n).
    { rewrite nth_error_app2, Nat.sub_diag by lia. reflexivity. }
    assert (Z := NoDup_nth_error_inj _ _ _ _ N X Y). apply (f_equal (@List.length _)) in E.
    rewrite !app_length in E. cbn in E. lia.
  Qed.

  (** Either the first node of a trail or preceded by another one. *)
  Lemma first_or_follows d m : ready d -> In m (nodes d) ->
    (exists key tr, In (key, tr) (trails d) /\ key = m) \/ exists n, follows d n m.
  Proof.
    intros R I. destruct (node_on_trail d m R I) as (tr&It&J).
    apply in_split in J as (l&r&->). destruct l as [|n l] using rev_ind.
    - left. apply In_stored in It as [key It]. exists key, (m :: r). split; auto.
      apply (rd_keys _ R) in It as [r' E]. cbn in E. congruence.
    - right. exists n. exists ((l ++ [n]) ++ m :: r). split; auto. exists l, r. now rewrite <- app_assoc.
  Qed.

  Lemma first_not_follows d key tr n : ready d -> In (key, tr) (trails d) -> ~ follows d n key.
  Proof.
    intros R I (tr'&It&(l&r&E)). assert (Is : In tr (stored d)) by (apply In_stored; eauto).
    apply (rd_keys _ R) in I as [r' ->].
    assert (tr' = key :: r').
    { eapply same_trail with (n := key); eauto; [rewrite E; apply in_or_app; right; cbn; auto|now left]. }
    assert (N := stored_nodup d _ R Is). rewrite <- H0 in N.
    assert (X : nth_error tr' 0 = Some key) by (rewrite H0; reflexivity).
    assert (Y : nth_error tr' (S (List.length l)) = Some key).
    { rewrite E, nth_error_app2 by lia. replace (S (List.length l) - List.length l)%nat with 1%nat by lia. reflexivity. }
    assert (Z := NoDup_nth_error_inj _ _ _ _ N X Y). lia.
  Qed.

  Lemma follows_joined d n m : ready d -> follows d n m -> trail_joined d n m.
  Proof. intros R (tr&I&C). apply (ch_edges _ _ (rd_chains _ R)). exists tr. auto. Qed.

  Lemma joined_follows d n m : ready d -> trail_joined d n m -> follows d n m \/ follows d m n.
  Proof. intros R J. apply (ch_edges _ _ (rd_chains _ R)) in J as (tr&I&[C|C]); [left|right]; exists tr; auto. Qed.

  Lemma trail_key_edge d n m : wf d -> ready d -> follows d n m ->
    exists a, edge_find d (trail_edge_key d n m) = Some a /\ ea_type a = Some ETrail
      /\ edge_between d n m (trail_edge_key d n m).
  Proof.
    intros W R F. apply follows_joined in F as J; auto.
    assert (S := ch_simple _ _ (rd_chains _ R)). unfold trail_edge_key, edge_between.
    destruct (has_edge d (n, m)) eqn:E.
    - destruct J as [J|J].
      + assert (J' := J). apply In_trail_edges in J' as (a&Ea&Ta); auto. exists a. auto.
      + apply In_edges in E; auto. apply In_trail_edges in J as (a&Ea&Ta); auto.
        exfalso. apply (S n m); auto. apply In_edges; auto. apply has_edge_find. eauto.
    - destruct J as [J|J].
      + apply In_trail_edges in J as (a&Ea&Ta); auto.
        assert (X : has_edge d (n, m) = true) by (apply has_edge_find; eauto). congruence.
      + assert (J' := J). apply In_trail_edges in J' as (a&Ea&Ta); auto. exists a. auto.
  Qed.

  Lemma trail_key_inj d n m n' m' : ready d -> follows d n m -> follows d n' m' ->
    trail_edge_key d n m = trail_edge_key d n' m' -> n = n' /\ m = m'.
  Proof.
    intros R F F' E. assert (X : (n = n' /\ m = m') \/ (n = m' /\ m = n')).
    { unfold trail_edge_key in E. destruct (has_edge d (n, m)), (has_edge d (n', m')); injection E; auto. }
    destruct X as [|[-> ->]]; auto. exfalso.
    destruct (follows_nodes _ _ _ R F) as [I _]. destruct (ready_kof d _ R I) as (k&Ek&_).
    apply (follows_kof _ _ _ _ R F) in Ek as Ek'. apply (follows_kof _ _ _ _ R F') in Ek'.
    rewrite Ek in Ek'. injection Ek'. lia.
  Qed.

  (** ** Equilibrium of one node as a pure function *)

  Definition other (e : ekey) (n : Z) : Z := if negb (Z.eqb (fst e) n) then fst e else snd e.
  Definition xg (xyz : dict Z (vec T)) (m : Z) : vec T := match dget xyz m with Some p => p | None => vzero end.
  Definition fo d (e : ekey) : T := match edge_find d e with Some a => ea_force a | None => n0 end.
  Definition qo d (n : Z) : vec T := match dget (d_node d) n with Some a => na_load a | None => vzero end.
  Definition dpull d (xyz : dict Z (vec T)) (n : Z) (e : ekey) : vec T :=
    scale_vector (vector_two_nodes (xg xyz (other e n)) (xg xyz n)) (fo d e).
  Definition dev_sum d xyz n (es : list ekey) : vec T :=
    fold_left (fun r e => add_vectors r (dpull d xyz n e)) es vzero.
  Definition cdir d n : list ekey := match connected_direct_deviation_edges d n with Ok l => l | Err _ => [] end.
  Definition cind d n : list ekey := match connected_indirect_deviation_edges d n with Ok l => l | Err _ => [] end.

  (** The outgoing vector of node [n]. *)
  Definition rout d n (rin : vec T) xyz (ind : bool) : vec T :=
    trail_vector_out (scale_vector rin nminus1) (qo d n) (dev_sum d xyz n (cdir d n))
      (if ind then dev_sum d xyz n (cind d n) else vzero).

  Lemma connected_gen d n (p : ekey -> res bool) (q : ekey -> bool) : wf d -> simple_graph d -> In n (nodes d) ->
    (forall e, In e (edges d) -> p e = Ok (q e)) ->
    exists l, connected_edges_predicate d n p = Ok l /\ NoDup l
      /\ forall e, In e l <-> In e (edges d) /\ q e = true /\ (fst e = n \/ snd e = n).
  Proof.
    intros W Sg In1 Hp. destruct (wf_adj_dict d n W In1) as [nb Enb].
    destruct (wf_edge_dict d n W In1) as [out Eout].
    set (es := map (fun m => if dmem out m then (n, m) else (m, n)) nb).
    assert (Hes : forall e, In e es <-> In e (edges d) /\ (fst e = n \/ snd e = n)).
    { assert (Adj : forall m, In m nb <-> In (n, m) (edges d) \/ In (m, n) (edges d)).
      { intros m. rewrite (wf_adj _ W n nb m Enb). rewrite !In_edges by auto. tauto. }
      assert (Hm : forall m, dmem out m = true <-> In (n, m) (edges d)).
      { intros m. rewrite In_edges by auto. unfold has_edge. rewrite (edge_find_dict d n m out Eout).
        unfold dmem. destruct (dget out m); tauto. }
      intros [u v]. unfold es. rewrite in_map_iff. split.
      - intros (m&E&I). destruct (dmem out m) eqn:M.
        + injection E as <- <-. apply Hm in M. cbn. auto.
        + injection E as <- <-. apply Adj in I as [I|I]; [apply Hm in I; congruence|]. cbn. auto.
      - cbn. intros [I [->| ->]].
        + exists v. split; [|apply Adj; auto]. apply Hm in I. now rewrite I.
        + exists u. split; [|apply Adj; auto].
          destruct (dmem out u) eqn:M; auto. apply Hm in M. exfalso. apply (Sg u n); auto. }
    assert (ND : NoDup es).
    { unfold es. assert (Nb := wf_anodup _ W n nb Enb).
      apply NoDup_map_inj; auto. intros x y Ix Iy E.
      destruct (dmem out x), (dmem out y); injection E; congruence. }
    exists (filter q es). split; [|split].
    - unfold connected_edges_predicate, connected_edges, neighbors, dgetr. rewrite Enb, Eout. cbn [bind].
      fold es. apply filter_res_Ok. intros e I. apply Hes in I as [I _]. auto.
    - now apply NoDup_filter.
    - intros e. rewrite filter_In, Hes. tauto.
  Qed.

  Lemma cdir_spec d n : wf d -> simple_graph d -> sequenced d -> In n (nodes d) ->
    connected_direct_deviation_edges d n = Ok (cdir d n) /\ NoDup (cdir d n)
    /\ forall e, In e (cdir d n) <-> In e (edges d) /\ dir_b d e = true /\ (fst e = n \/ snd e = n).
  Proof.
    intros W S Sq I. unfold cdir.
    destruct (connected_gen d n (is_direct_deviation_edge d) (dir_b d) W S I) as (l&E&N&M).
    { intros e Ie. now apply direct_indirect_Ok. }
    unfold connected_direct_deviation_edges. rewrite E. auto.
  Qed.

  Lemma cind_spec d n : wf d -> simple_graph d -> sequenced d -> In n (nodes d) ->
    connected_indirect_deviation_edges d n = Ok (cind d n) /\ NoDup (cind d n)
    /\ forall e, In e (cind d n) <-> In e (edges d) /\ indir_b d e = true /\ (fst e = n \/ snd e = n).
  Proof.
    intros W S Sq I. unfold cind.
    destruct (connected_gen d n (is_indirect_deviation_edge d) (indir_b d) W S I) as (l&E&N&M).
    { intros e Ie. now apply direct_indirect_Ok. }
    unfold connected_indirect_deviation_edges. rewrite E. auto.
  Qed.

  Lemma fold_combine {A} (f : A -> T) (g : A -> vec T) es : forall r,
    fold_left (fun r (fv : T * vec T) => add_vectors r (scale_vector (snd fv) (fst fv)))
      (combine (map f es) (map g es)) r
    = fold_left (fun r e => add_vectors r (scale_vector (g e) (f e))) es r.
  Proof. induction es as [|e es IH]; cbn; auto. Qed.

  Lemma map_res_pure {A B} (f : A -> res B) (g : A -> B) l :
    (forall a, In a l -> f a = Ok (g a)) -> map_res f l = Ok (map g l).
  Proof.
    induction l as [|a l IH]; cbn; auto. intros E. rewrite (E a) by auto. cbn. rewrite IH; auto.
  Qed.

  Lemma resultant_pure d n xyz es : wf d -> In n (nodes d) -> incl (nodes d) (dkeys xyz) -> incl es (edges d) ->
    deviation_edges_resultant_vector d n xyz es = Ok (dev_sum d xyz n es).
  Proof.
    intros W I D Inc. unfold deviation_edges_resultant_vector, incoming_edge_vectors.
    assert (X : forall m, In m (nodes d) -> dgetr xyz m = Ok (xg xyz m)).
    { intros m Im. apply D, In_keys_dget in Im as [p Ep]. unfold dgetr, xg. now rewrite Ep. }
    rewrite (map_res_pure _ (fun e => vector_two_nodes (xg xyz (other e n)) (xg xyz n))).
    - cbn [bind]. rewrite (map_res_pure _ (fo d)).
      + cbn [bind]. unfold dev_sum, dpull. now rewrite fold_combine.
      + intros e Ie. apply Inc, In_edges, has_edge_find in Ie as [a Ea]; auto.
        unfold edge_force, edge_get, fo. now rewrite Ea.
    - intros e Ie. apply Inc, In_edges, has_edge_find in Ie as [a Ea]; auto.
      destruct (wf_eends _ W e a Ea) as [I1 I2]. fold (other e n). rewrite X.
      + cbn [bind]. rewrite X by auto. reflexivity.
      + unfold other. now destruct (negb (fst e =? n)).
  Qed.

  Lemma node_equilibrium_pure d n rin xyz ind : wf d -> simple_graph d -> sequenced d -> In n (nodes d) ->
    incl (nodes d) (dkeys xyz) -> node_equilibrium d n rin xyz ind = Ok (rout d n rin xyz ind).
  Proof.
    intros W S Sq I D. unfold node_equilibrium, rout, direct_resultant, indirect_resultant.
    destruct (cdir_spec d n W S Sq I) as (E1&_&M1). destruct (cind_spec d n W S Sq I) as (E2&_&M2).
    assert (I' := I). apply In_keys_dget in I' as [a Ea].
    unfold node_load, node_get, dgetr, qo. rewrite Ea. cbn [bind].
    rewrite E1. cbn [bind]. rewrite resultant_pure; auto; [|intros e Ie; now apply M1]. cbn [bind].
    destruct ind; cbn [bind]; auto. rewrite E2. cbn [bind].
    rewrite resultant_pure; auto. intros e Ie; now apply M2.
  Qed.

  (** ** Visits *)

  (** Form finding stops propagating at [n]. *)
  Definition stops d (kmax : option Z) (n : Z) : bool :=
    is_sup d n || match kmax, kof d n with Some km, Some k => Z.eqb k km | _, _ => false end.

  (** The containers cover exactly the nodes. *)
  Definition dom d (st : eqstate T) : Prop := dkeys (s_xyz st) = nodes d /\ dkeys (s_res st) = nodes d.

  Definition ea d (e : ekey) : edge_attr T := match edge_find d e with Some a => a | None => default_edge end.

  (** The signed length assigned to the outgoing trail edge. *)
  Definition lout d n m (pos rvec : vec T) : T := trail_edge_length (ea d (trail_edge_key d n m)) pos rvec.

  (** State after visiting a node that stops, and a node followed by [m]. *)
  Definition put_reaction d ind n (st : eqstate T) : eqstate T :=
    mkEq (s_xyz st) (s_res st) (dset (s_reac st) n (rout d n (xg (s_res st) n) (s_xyz st) ind)) (s_tforce st) (s_tdir st).
  Definition put_next d ind n m (st : eqstate T) : eqstate T :=
    let rvec := rout d n (xg (s_res st) n) (s_xyz st) ind in
    let l := lout d n m (xg (s_xyz st) n) rvec in
    let e := trail_edge_key d n m in
    mkEq (dset (s_xyz st) m (add_vectors (xg (s_xyz st) n) (scale_vector (normalize_vector rvec) l)))
         (dset (s_res st) m rvec) (s_reac st)
         (dset (s_tforce st) e (ncopysign (length_vector rvec) l))
         (dset (s_tdir st) e (normalize_vector rvec)).

  Inductive vstep d kmax ind n (st : eqstate T) : eqstate T -> Prop :=
  | vs_stop : stops d kmax n = true -> vstep d kmax ind n st (put_reaction d ind n st)
  | vs_next : forall m, stops d kmax n = false -> follows d n m -> vstep d kmax ind n st (put_next d ind n m st).

  Inductive vsteps d kmax ind : list Z -> eqstate T -> eqstate T -> Prop :=
  | vss_nil : forall st, vsteps d kmax ind [] st st
  | vss_cons : forall n l st st1 st', In n (nodes d) -> dom d st -> vstep d kmax ind n st st1 ->
      vsteps d kmax ind l st1 st' -> vsteps d kmax ind (n :: l) st st'.

  Lemma dom_vstep d kmax ind n st st' : ready d -> dom d st -> vstep d kmax ind n st st' -> dom d st'.
  Proof.
    intros R [D1 D2] S. destruct S as [_|m _ F]; split; cbn; auto.
    - rewrite dkeys_dset_in; auto. rewrite D1. now apply (follows_nodes d n m).
    - rewrite dkeys_dset_in; auto. rewrite D2. now apply (follows_nodes d n m).
  Qed.

  Lemma vsteps_app d kmax ind l1 l2 st st' :
    vsteps d kmax ind (l1 ++ l2) st st' <-> exists st1, vsteps d kmax ind l1 st st1 /\ vsteps d kmax ind l2 st1 st'.
  Proof.
    revert st. induction l1 as [|n l1 IH]; cbn; intros st.
    - split; [intros V; exists st; split; auto; constructor|]. intros (st1&V&V'). inversion V; subst. auto.
    - split.
      + intros V. inversion V as [|? ? ? sa ? I D S V']; subst. apply IH in V' as (sb&Va&Vb).
        exists sb. split; auto. econstructor; eauto.
      + intros (st1&V&V'). inversion V as [|? ? ? sa ? I D S V'']; subst. econstructor; eauto. apply IH. eauto.
  Qed.

  (** The dictionary from trails and sequences to nodes. *)
  Definition ts_ok d (ts : dict Z (dict Z Z)) : Prop :=
    forall key tr, In (key, tr) (trails d) -> exists m, dget ts key = Some m
      /\ forall n k, dget m k = Some n <-> In n tr /\ kof d n = Some k.

  Lemma ready_ts d : wf d -> ready d -> exists ts, trails_sequences d = Ok ts /\ ts_ok d ts.
  Proof.
    intros W R.
    assert (Hk : forall key tr n, In (key, tr) (trails d) -> In n tr -> exists k, node_sequence d n = Ok k).
    { intros key tr n I J. apply (ready_sequenced d R), (trail_node d tr n R); auto. apply In_stored; eauto. }
    assert (ND := wf_tnodup _ W).
    (* as in c24_trails_sequences, from wf *)
    assert (Gen : forall l ts0, incl l (d_trails d) ->
      exists ts, fold_res (fun m kt => let* s := trail_sequences d (fst kt) in Ok (dset m (fst kt) s)) l ts0 = Ok ts
        /\ (forall key, dget ts key = if memb key (dkeys l) then
               match trail_sequences d key with Ok m => Some m | Err _ => None end else dget ts0 key)).
    { induction l as [|[key tr] l IH]; intros ts0 Inc.
      - exists ts0. split; auto.
      - destruct (trail_sequences_spec d key tr) as (m&Em&_).
        + apply In_dget; auto. apply Inc. now left.
        + intros n I. destruct (Hk key tr n) as [k Ek]; auto; [apply Inc; now left|]. exists k. now apply seq_kof.
        + cbn [fold_res fst]. rewrite Em. cbn [bind].
          destruct (IH (dset ts0 key m)) as (ts&E1&E2); [intros x I; apply Inc; now right|].
          exists ts. split; auto. intros key'. rewrite E2, dget_dset. unfold dkeys. cbn.
          destruct (Z.eqb_spec key' key) as [->|Hne]; cbn; auto. rewrite Em. now destruct (memb key (map fst l)). }
    destruct (Gen (d_trails d) [] (incl_refl _)) as (ts&E1&E2). exists ts. split; [exact E1|].
    intros key tr I. assert (I' := I). apply In_dget in I'; auto.
    destruct (trail_sequences_spec d key tr I') as (m&Em&M1&M2&_).
    { intros n X. destruct (Hk key tr n I X) as [k Ek]. exists k. now apply seq_kof. }
    exists m. split.
    - rewrite E2, Em. assert (M : memb key (dkeys (d_trails d)) = true) by (apply memb_In; eapply dget_In_keys; eauto).
      now rewrite M.
    - assert (Is : In tr (stored d)) by (apply In_stored; eauto).
      intros n k. split; [apply M1|]. intros [X Y]. destruct (M2 n k X Y) as [n' En']. rewrite En'. f_equal.
      apply M1 in En' as [X2 Y2]. eapply kof_inj; eauto.
  Qed.

  Lemma visit_spec d ts kmax ind k st key tr : wf d -> ready d -> ts_ok d ts -> dom d st -> In (key, tr) (trails d) ->
    (lookup_ts ts key k = None /\ visit d ts kmax ind k st key = Ok st)
    \/ exists n st', lookup_ts ts key k = Some n /\ In n (nodes d)
         /\ visit d ts kmax ind k st key = Ok st' /\ vstep d kmax ind n st st'.
  Proof.
    intros W R Hts [D1 D2] I. destruct (Hts key tr I) as (m&Em&M). unfold visit, lookup_ts, dgetr. rewrite Em. cbn [bind].
    destruct (dget m k) as [n|] eqn:En; [right|left; auto].
    apply M in En as [J Ek]. assert (Is : In tr (stored d)) by (apply In_stored; eauto).
    assert (In1 : In n (nodes d)) by (eapply trail_node; eauto).
    assert (X1 : dget (s_xyz st) n = Some (xg (s_xyz st) n)).
    { rewrite <- D1 in In1. apply In_keys_dget in In1 as [p Ep]. unfold xg. now rewrite Ep. }
    assert (X2 : dget (s_res st) n = Some (xg (s_res st) n)).
    { rewrite <- D2 in In1. apply In_keys_dget in In1 as [p Ep]. unfold xg. now rewrite Ep. }
    rewrite X1, X2. cbn [bind].
    rewrite node_equilibrium_pure; auto;
      [|apply (ch_simple _ _ (rd_chains _ R))|now apply ready_sequenced|rewrite D1; apply incl_refl].
    cbn [bind]. rewrite is_node_support_Ok by auto. cbn [bind].
    assert (Est : is_sup d n || match kmax with Some km => k =? km | None => false end = stops d kmax n).
    { unfold stops. now rewrite Ek. }
    rewrite Est. destruct (stops d kmax n) eqn:St.
    - exists n. eexists. split; auto. split; auto. split; [reflexivity|]. now apply vs_stop.
    - assert (Sn : is_sup d n = false) by (unfold stops in St; now apply orb_false_iff in St as [? _]).
      destruct (not_sup_follows d n W R In1 Sn) as [nx F].
      assert (Ex : dget m (k + 1) = Some nx).
      { apply M. split; [|now apply (follows_kof d n nx)].
        destruct F as (tr'&It'&(l&r&Et)). assert (Q : tr = tr').
        { eapply same_trail with (n := n); eauto. rewrite Et. apply in_or_app. right. now left. }
        rewrite Q, Et. apply in_or_app. right. right. now left. }
      rewrite Ex. cbn [bind]. destruct (trail_key_edge d n nx W R F) as (a&Ea&_).
      unfold edge_get. rewrite Ea. cbn [bind].
      exists n. eexists. split; auto. split; auto. split; [reflexivity|].
      assert (Z := vs_next d kmax ind n st nx St F). unfold put_next, lout, ea in Z. rewrite Ea in Z. exact Z.
  Qed.

  (** The nodes in the order they are visited. *)
  Definition schedule d (ts : dict Z (dict Z Z)) (K : Z) : list Z :=
    flat_map (fun k => flat_map (fun key => match lookup_ts ts key k with Some n => [n] | None => [] end)
                         (dkeys (trails d))) (zrange K).

  Lemma sweep_steps d ts kmax ind kl st : wf d -> ready d -> ts_ok d ts -> sequence_last d = Ok kl -> dom d st ->
    exists st', sweep d ts kmax ind st = Ok st' /\ vsteps d kmax ind (schedule d ts (kl + 1)) st st' /\ dom d st'.
  Proof.
    intros W R Hts Ek. unfold sweep, number_of_sequences, schedule. rewrite Ek. cbn [bind].
    generalize (zrange (kl + 1)). intros ks. revert st. induction ks as [|k ks IH]; intros st D.
    - exists st. split; auto. split; auto. constructor.
    - cbn [fold_res flat_map].
      assert (Inner : forall l st, incl l (trails d) -> dom d st -> exists st',
        fold_res (visit d ts kmax ind k) (dkeys l) st = Ok st'
        /\ vsteps d kmax ind (flat_map (fun key => match lookup_ts ts key k with Some n => [n] | None => [] end) (dkeys l)) st st'
        /\ dom d st').
      { clear st D IH. induction l as [|[key tr] l IH]; intros st Inc D.
        - exists st. split; auto. split; auto. constructor.
        - change (dkeys ((key, tr) :: l)) with (key :: dkeys l). cbn [fold_res flat_map].
          destruct (visit_spec d ts kmax ind k st key tr W R Hts D (Inc _ (or_introl eq_refl)))
            as [[E1 E2]|(n&st1&E1&In1&E2&S)].
          + rewrite E1, E2. cbn [bind]. apply IH; auto. intros x Ix. apply Inc. now right.
          + rewrite E1, E2. cbn [bind]. destruct (IH st1) as (st'&F1&F2&F3).
            * intros x Ix. apply Inc. now right.
            * eapply dom_vstep; eauto.
            * exists st'. split; auto. split; auto. econstructor; eauto. }
      destruct (Inner (trails d) st (incl_refl _) D) as (st1&F1&F2&D1). rewrite F1. cbn [bind].
      destruct (IH st1 D1) as (st'&G1&G2&D2). exists st'. split; auto. split; auto.
      apply vsteps_app. eauto.
  Qed.

  (** ** Properties of the schedule *)

  Lemma In_schedule d ts K n : wf d -> ready d -> ts_ok d ts ->
    (In n (schedule d ts K) <-> In n (nodes d) /\ exists k, kof d n = Some k /\ 0 <= k < K).
  Proof.
    intros W R Hts. unfold schedule. rewrite in_flat_map. split.
    - intros (k&Ik&J). apply In_zrange in Ik. apply in_flat_map in J as (key&Ikey&J).
      apply in_map_iff in Ikey as ([key' tr]&E&I). cbn in E. subst key'.
      destruct (Hts key tr I) as (m&Em&M). unfold lookup_ts in J. rewrite Em in J.
      destruct (dget m k) as [n'|] eqn:En; [|contradiction]. destruct J as [<-|[]].
      apply M in En as [J Ek]. split; [|eauto]. eapply trail_node; eauto. apply In_stored. eauto.
    - intros (I&k&Ek&B). exists k. split; [now apply In_zrange|]. apply in_flat_map.
      destruct (node_on_trail d n R I) as (tr&It&J). apply In_stored in It as [key It].
      exists key. split; [apply in_map_iff; exists (key, tr); auto|].
      destruct (Hts key tr It) as (m&Em&M). unfold lookup_ts. rewrite Em.
      assert (X : dget m k = Some n) by (apply M; auto). rewrite X. now left.
  Qed.

  Lemma NoDup_flat_map {A B} (f : A -> list B) l : NoDup l -> (forall a, In a l -> NoDup (f a)) ->
    (forall a b x, In a l -> In b l -> In x (f a) -> In x (f b) -> a = b) -> NoDup (flat_map f l).
  Proof.
    induction l as [|a l IH]; cbn; intros N F D; [constructor|]. inversion N as [|? ? Hn N']; subst.
    apply NoDup_app_intro; auto.
    - apply IH; auto. intros x y z Ix Iy. apply D; auto.
    - intros x I J. apply in_flat_map in J as (b&Ib&J). assert (a = b) by (eapply D; eauto). congruence.
  Qed.

  Lemma NoDup_schedule d ts K : wf d -> ready d -> ts_ok d ts -> NoDup (schedule d ts K).
  Proof.
    intros W R Hts. unfold schedule.
    assert (Mem : forall k key n, In key (dkeys (trails d)) ->
      In n (match lookup_ts ts key k with Some n => [n] | None => [] end) ->
      kof d n = Some k /\ exists tr, In (key, tr) (trails d) /\ In n tr).
    { intros k key n Ikey J. apply in_map_iff in Ikey as ([key' tr]&E&I). cbn in E. subst key'.
      destruct (Hts key tr I) as (m&Em&M). unfold lookup_ts in J. rewrite Em in J.
      destruct (dget m k) as [n'|] eqn:En; [|contradiction]. destruct J as [<-|[]].
      apply M in En as [J Ek]. split; eauto. }
    apply NoDup_flat_map; [apply NoDup_zrange| |].
    - intros k _. apply NoDup_flat_map; [apply (wf_tnodup _ W)| |].
      + intros key _. destruct (lookup_ts ts key k); [constructor; [tauto|constructor]|constructor].
      + intros a b x Ia Ib Xa Xb. apply Mem in Xa as (_&tr&Ta&Ja); auto. apply Mem in Xb as (_&tr'&Tb&Jb); auto.
        assert (tr = tr').
        { eapply same_trail with (n := x); eauto; apply In_stored; eauto. }
        subst tr'. apply (rd_keys _ R) in Ta as [r ->]. apply (rd_keys _ R) in Tb as [r' E]. congruence.
    - intros a b x Ia Ib Xa Xb. apply in_flat_map in Xa as (ka&Ka&Xa). apply in_flat_map in Xb as (kb&Kb&Xb).
      apply Mem in Xa as (Ea&_); auto. apply Mem in Xb as (Eb&_); auto. congruence.
  Qed.

  (** Nodes are visited by increasing sequence. *)
  Lemma schedule_sorted d ts K l1 n l2 m k j : wf d -> ready d -> ts_ok d ts ->
    schedule d ts K = l1 ++ n :: l2 -> In m l2 -> kof d n = Some k -> kof d m = Some j -> k <= j.
  Proof.
    intros W R Hts E I En Em.
    assert (G : StronglySorted (fun a b => match kof d a, kof d b with Some x, Some y => x <= y | _, _ => True end)
                  (schedule d ts K)).
    { clear E. unfold schedule, zrange. generalize 0%nat as b. induction (Z.to_nat K) as [|N IH]; intros b; cbn.
      - constructor.
      - set (f := fun k : Z => flat_map (fun key => match lookup_ts ts key k with Some n => [n] | None => [] end)
                         (dkeys (trails d))).
        assert (Mem : forall k n, In n (f k) -> kof d n = Some k).
        { intros k' n' J. apply in_flat_map in J as (key&Ikey&J).
          apply in_map_iff in Ikey as ([key' tr]&E'&I'). cbn in E'. subst key'.
          destruct (Hts key tr I') as (mm&Em'&M). unfold lookup_ts in J. rewrite Em' in J.
          destruct (dget mm k') as [n''|] eqn:En'; [|contradiction]. destruct J as [<-|[]]. now apply M in En'. }
        assert (App : forall k0 l l', (forall x, In x l -> kof d x = Some k0) ->
          (forall y, In y l' -> exists j, kof d y = Some j /\ k0 <= j) ->
          StronglySorted (fun a b => match kof d a, kof d b with Some x, Some y => x <= y | _, _ => True end) l' ->
          StronglySorted (fun a b => match kof d a, kof d b with Some x, Some y => x <= y | _, _ => True end) (l ++ l')).
        { clear. intros k0 l l' A B S. induction l as [|x l IH]; cbn; auto. constructor.
          - apply IH. intros y J. apply A. now right.
          - apply Forall_forall. intros y J. rewrite (A x) by now left. apply in_app_iff in J as [J|J].
            + rewrite (A y) by now right. lia.
            + destruct (B y J) as (j&Ej&L). now rewrite Ej. }
        apply (App (Z.of_nat b)); [intros x J; now apply Mem| |apply IH].
        intros y J. apply in_flat_map in J as (k'&Ik'&J). apply Mem in J. exists k'. split; auto.
        apply in_map_iff in Ik' as (i&<-&Ii). apply in_seq in Ii. lia. }
    rewrite E in G. clear E. induction l1 as [|x l1 IH]; cbn in G.
    - apply StronglySorted_inv in G as [_ G]. rewrite Forall_forall in G. apply G in I. now rewrite En, Em in I.
    - apply StronglySorted_inv in G as [G _]. auto.
  Qed.

  (** ** Frame of a sequence of visits *)

  Lemma xg_dset xyz m p m' : xg (dset xyz m p) m' = if Z.eqb m' m then p else xg xyz m'.
  Proof. unfold xg. rewrite dget_dset. cbn. destruct (Z.eqb m' m); auto. Qed.

  Lemma vsteps_frame d kmax ind l st st' : ready d -> vsteps d kmax ind l st st' ->
    (forall m, (forall n, In n l -> stops d kmax n = false -> ~ follows d n m) ->
       dget (s_xyz st') m = dget (s_xyz st) m /\ dget (s_res st') m = dget (s_res st) m)
    /\ (forall n, ~ In n l \/ stops d kmax n = false -> dget (s_reac st') n = dget (s_reac st) n)
    /\ (forall e, (forall n m, In n l -> stops d kmax n = false -> follows d n m -> e <> trail_edge_key d n m) ->
         dget (s_tforce st') e = dget (s_tforce st) e /\ dget (s_tdir st') e = dget (s_tdir st) e).
  Proof.
    intros R V. induction V as [st|n l st st1 st' I D S V IH]; [auto|].
    destruct IH as (A&B&C). split; [|split].
    - intros m F. destruct (A m) as [A1 A2]; [intros n' J; apply F; now right|]. rewrite A1, A2.
      destruct S as [_|m' Sn Fn]; cbn; auto. rewrite !dget_dset.
      destruct (eqb_spec m m') as [->|]; auto. exfalso. apply (F n); auto. now left.
    - intros n' F. rewrite B by (destruct F as [F|F]; auto; left; intros J; apply F; now right).
      destruct S as [Sn|m' Sn Fn]; cbn; auto. rewrite dget_dset. destruct (eqb_spec n' n) as [->|]; auto.
      exfalso. destruct F as [F|F]; [apply F; now left|congruence].
    - intros e F. destruct (C e) as [C1 C2]; [intros n' m' J; apply F; now right|]. rewrite C1, C2.
      destruct S as [_|m' Sn Fn]; cbn; auto. rewrite !dget_dset.
      destruct (@eqb_spec ekey _ e (trail_edge_key d n m')) as [->|]; auto.
      exfalso. apply (F n m'); auto. now left.
  Qed.

  (** Every node is visited: what the state satisfies after an iteration. *)
  Record swept d kmax ind (st st' : eqstate T) : Prop := {
    sw_dom : dom d st';
    (* nodes without a propagating predecessor stay *)
    sw_fixed : forall m, (forall n, follows d n m -> stops d kmax n = true) ->
      dget (s_xyz st') m = dget (s_xyz st) m /\ dget (s_res st') m = dget (s_res st) m;
    (* the positions seen at the visit of a node *)
    sw_visit : forall n, In n (nodes d) -> exists w,
      dkeys w = nodes d
      /\ (forall m, dget w m = dget (s_xyz st') m \/ dget w m = dget (s_xyz st) m)
      /\ (forall m k j, kof d n = Some k -> kof d m = Some j -> j <= k -> dget w m = dget (s_xyz st') m)
      /\ let rvec := rout d n (xg (s_res st') n) w ind in
         (stops d kmax n = true -> dget (s_reac st') n = Some rvec)
         /\ (forall m, stops d kmax n = false -> follows d n m ->
               let l := lout d n m (xg (s_xyz st') n) rvec in
               let e := trail_edge_key d n m in
               xg (s_xyz st') m = add_vectors (xg (s_xyz st') n) (scale_vector (normalize_vector rvec) l)
               /\ xg (s_res st') m = rvec
               /\ dget (s_tforce st') e = Some (ncopysign (length_vector rvec) l)
               /\ dget (s_tdir st') e = Some (normalize_vector rvec));
    (* nothing else is written *)
    sw_reac : forall n, stops d kmax n = false -> dget (s_reac st') n = dget (s_reac st) n;
    sw_other : forall e, (forall n m, follows d n m -> stops d kmax n = false -> e <> trail_edge_key d n m) ->
      dget (s_tforce st') e = dget (s_tforce st) e
  }.

  (** The state [sa] in which node [n] is visited. *)
  Lemma visits_at d ts kmax ind K l1 n l2 st st' : wf d -> ready d -> ts_ok d ts ->
    schedule d ts K = l1 ++ n :: l2 -> vsteps d kmax ind (l1 ++ n :: l2) st st' ->
    forall sa, vsteps d kmax ind l1 st sa -> vsteps d kmax ind (n :: l2) sa st' ->
      dom d sa
      /\ (forall m, dget (s_xyz sa) m = dget (s_xyz st') m \/ dget (s_xyz sa) m = dget (s_xyz st) m)
      /\ (forall m k j, kof d n = Some k -> kof d m = Some j -> j <= k ->
            dget (s_xyz sa) m = dget (s_xyz st') m /\ dget (s_res sa) m = dget (s_res st') m)
      /\ let rvec := rout d n (xg (s_res sa) n) (s_xyz sa) ind in
         (stops d kmax n = true -> dget (s_reac st') n = Some rvec)
         /\ (forall m, stops d kmax n = false -> follows d n m ->
               let l := lout d n m (xg (s_xyz sa) n) rvec in
               let e := trail_edge_key d n m in
               xg (s_xyz st') m = add_vectors (xg (s_xyz sa) n) (scale_vector (normalize_vector rvec) l)
               /\ xg (s_res st') m = rvec
               /\ dget (s_tforce st') e = Some (ncopysign (length_vector rvec) l)
               /\ dget (s_tdir st') e = Some (normalize_vector rvec)).
  Proof.
    intros W R Hts E V sa V1 V2. assert (ND := NoDup_schedule d ts K W R Hts). rewrite E in ND.
    inversion V2 as [|? ? ? sb ? In1 Da S V3]; subst.
    destruct (vsteps_frame _ _ _ _ _ _ R V1) as (A1&B1&C1).
    destruct (vsteps_frame _ _ _ _ _ _ R V2) as (A2&B2&C2).
    destruct (vsteps_frame _ _ _ _ _ _ R V3) as (A3&B3&C3).
    (* positions and incoming vectors of nodes that are not beyond n are final *)
    assert (Fin : forall m k j, kof d n = Some k -> kof d m = Some j -> j <= k ->
      dget (s_xyz sa) m = dget (s_xyz st') m /\ dget (s_res sa) m = dget (s_res st') m).
    { intros m k j Ek Ej L. assert (X := A2 m). destruct X as [X1 X2]; [|split; congruence].
      intros n' J' _ F. apply (follows_kof d n' m (j - 1) R) in F. replace (j - 1 + 1) with j in F by lia.
      apply F in Ej. destruct J' as [<-|J'].
      - rewrite Ek in Ej. injection Ej. lia.
      - assert (Y := schedule_sorted d ts K l1 n l2 n' k (j - 1) W R Hts E J' Ek Ej). lia. }
    assert (Nn : ~ In n l2).
    { apply NoDup_app_r in ND. now inversion ND. }
    split; auto. split; [|split; [exact Fin|]].
    { intros m. destruct (in_dec Z.eq_dec m (nodes d)) as [Im|Im].
      - destruct (first_or_follows d m R Im) as [(key&tr&It&<-)|[n' F]].
        + left. symmetry. apply A2. intros n' _ _ F. eapply first_not_follows; eauto.
        + destruct (in_dec Z.eq_dec n' l1) as [I1|I1].
          * left. symmetry. apply A2. intros n'' J'' _ F''. assert (n'' = n') by (eapply follows_inj; eauto). subst.
            eapply (NoDup_app_disj l1 (n :: l2)); eauto.
          * right. apply A1. intros n'' J'' _ F''. assert (n'' = n') by (eapply follows_inj; eauto). now subst.
      - right. apply A1. intros n' _ _ F. now apply follows_nodes in F. }
    cbn zeta. split.
    + intros Sn. destruct S as [_|m Sn' F]; [|congruence]. rewrite B3 by auto. cbn. apply dget_dset_same.
    + intros m Sn F. destruct S as [Sn'|m' Sn' F']; [congruence|].
      assert (m' = m) by (eapply follows_fun; eauto). subst m'.
      destruct (A3 m) as [Y1 Y2].
      { intros n' J' _ F''. assert (n' = n) by (eapply follows_inj; eauto). congruence. }
      destruct (C3 (trail_edge_key d n m)) as [Y3 Y4].
      { intros n' m' J' _ F'' Ee. apply (trail_key_inj d n m n' m' R) in Ee as [-> _]; auto. }
      assert (Z1 : xg (s_xyz st') m = xg (s_xyz (put_next d ind n m sa)) m) by (unfold xg; now rewrite Y1).
      assert (Z2 : xg (s_res st') m = xg (s_res (put_next d ind n m sa)) m) by (unfold xg; now rewrite Y2).
      rewrite Z1, Z2, Y3, Y4. cbn. rewrite !xg_dset, !dget_dset_same, Z.eqb_refl. auto.
  Qed.

  Lemma schedule_all d ts kl n : wf d -> ready d -> ts_ok d ts -> sequence_last d = Ok kl ->
    In n (nodes d) -> In n (schedule d ts (kl + 1)).
  Proof.
    intros W R Hts Ekl I. assert (Sq := ready_sequenced d R).
    assert (NE : nodes d <> []) by (intros E; rewrite E in I; contradiction).
    destruct (sequence_last_spec d W Sq NE) as (kl'&Ekl'&Mx&_). rewrite Ekl in Ekl'. injection Ekl' as <-.
    apply In_schedule; auto. split; auto. destruct (ready_kof d n R I) as (k&Ek&Pk).
    exists k. split; auto. assert (k <= kl); [|lia]. apply (Mx n). now apply seq_kof.
  Qed.

  Lemma visits_swept d ts kmax ind kl st st' : wf d -> ready d -> ts_ok d ts ->
    sequence_last d = Ok kl -> dom d st -> dom d st' ->
    vsteps d kmax ind (schedule d ts (kl + 1)) st st' -> swept d kmax ind st st'.
  Proof.
    intros W R Hts Ekl D D' V.
    destruct (vsteps_frame _ _ _ _ _ _ R V) as (A&B&C).
    assert (All := fun n => schedule_all d ts kl n W R Hts Ekl).
    constructor; auto.
    - intros m F. apply A. intros n _ Sn Fn. rewrite (F n Fn) in Sn. discriminate.
    - intros n I. apply All in I as J. apply in_split in J as (l1&l2&E). rewrite E in V.
      assert (V' := V). apply vsteps_app in V' as (sa&V1&V2).
      destruct (visits_at d ts kmax ind (kl + 1) l1 n l2 st st' W R Hts E V sa V1 V2) as (Da&X1&X2&X3).
      destruct (ready_kof d n R I) as (kn&Ekn&_).
      destruct (X2 n kn kn Ekn Ekn (Z.le_refl _)) as [Px Pr].
      assert (Ex : xg (s_xyz sa) n = xg (s_xyz st') n) by (unfold xg; now rewrite Px).
      assert (Er : xg (s_res sa) n = xg (s_res st') n) by (unfold xg; now rewrite Pr).
      exists (s_xyz sa). split; [apply Da|]. split; auto. split; [intros m k j Ek Ej L; now apply (X2 m k j)|].
      cbn zeta. rewrite <- Er, <- Ex. exact X3.
    - intros e F. apply C. intros n m _ Sn Fn. now apply F.
  Qed.

  (** One iteration on a ready topology. *)
  Lemma sweep_swept d ts kmax ind kl st : wf d -> ready d -> ts_ok d ts -> sequence_last d = Ok kl -> dom d st ->
    exists st', sweep d ts kmax ind st = Ok st' /\ swept d kmax ind st st'.
  Proof.
    intros W R Hts Ek D. destruct (sweep_steps d ts kmax ind kl st W R Hts Ek D) as (st'&E&V&D').
    exists st'. split; auto. eapply visits_swept; eauto.
  Qed.
End Facts.
