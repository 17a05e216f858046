(** * Sequences and edge queries: proofs of C21 - C24 *)

From Coq Require Import String List ZArith Bool Lia Permutation.
From Verif Require Import Py PyFacts Num Diagram DiagramFacts Topology SpecDiagram SpecTopology
  TopologyFacts BuildFacts ChainFacts ChainFacts2 History HistoryFacts DiagramThms TopologyThms.
Import ListNotations.
Open Scope Z_scope.

Section Thms.
  Context {T : Type} `{NumOps T}.
  Implicit Types (d : diagram T).

  (** ** C21 *)

  Lemma In_zrange n k : In k (zrange n) <-> 0 <= k < n.
  Proof.
    unfold zrange. rewrite in_map_iff. split.
    - intros (i&<-&I). apply in_seq in I. lia.
    - intros B. exists (Z.to_nat k). split; [lia|]. apply in_seq. lia.
  Qed.

  Lemma NoDup_zrange n : NoDup (zrange n).
  Proof. unfold zrange. apply FinFun.Injective_map_NoDup; [intros x y; lia|apply seq_NoDup]. Qed.

  Lemma fold_max ks : forall k, let m := fold_left Z.max ks k in
    k <= m /\ (forall x, In x ks -> x <= m) /\ (m = k \/ In m ks).
  Proof.
    induction ks as [|x ks IH]; cbn; intros k; [split; [lia|split; [tauto|auto]]|].
    destruct (IH (Z.max k x)) as (A&B&C). split; [lia|]. split; [intros y [<-|I]; [lia|auto]|].
    destruct C as [->|C]; auto. destruct (Z.max_spec k x) as [[_ ->]|[_ ->]]; auto.
  Qed.

  Lemma sequence_last_spec d : wf d -> sequenced d -> nodes d <> [] ->
    exists k, sequence_last d = Ok k
      /\ (forall n j, node_sequence d n = Ok j -> j <= k)
      /\ exists n, In n (nodes d) /\ node_sequence d n = Ok k.
  Proof.
    intros W Sq NE. unfold sequence_last.
    destruct (map_res_total (fun na : Z * node_attr T => match na_k (snd na) with Some k => Ok k | None => Err TypeError end) (d_node d))
      as [ks Eks].
    { intros [n a] I. cbn. assert (In1 : In n (nodes d)) by (apply in_map_iff; exists (n, a); auto).
      destruct (Sq n In1) as [k Ek]. apply seq_kof in Ek. unfold kof in Ek.
      apply In_dget in I; [|apply (wf_nodup _ W)]. rewrite I in Ek. rewrite Ek. eauto. }
    rewrite Eks. cbn. apply map_res_Ok in Eks.
    assert (V : forall n j, node_sequence d n = Ok j -> In j ks).
    { intros n j E. apply seq_kof in E. unfold kof in E. destruct (dget (d_node d) n) as [a|] eqn:Ea; [|discriminate].
      apply dget_In in Ea. clear -Eks Ea E. induction Eks as [|[m b] k l ks Hb _ IH]; [contradiction|].
      destruct Ea as [Eq|I]; [injection Eq as -> ->; cbn in Hb; rewrite E in Hb; left; congruence|right; auto]. }
    assert (V' : forall j, In j ks -> exists n, In n (nodes d) /\ node_sequence d n = Ok j).
    { intros j I. assert (X : exists n a, In (n, a) (d_node d) /\ na_k a = Some j).
      { clear -Eks I. induction Eks as [|[m b] k l ks Hb _ IH]; [contradiction|].
        destruct I as [->|I].
        - exists m, b. split; [now left|]. cbn in Hb. destruct (na_k b); congruence.
        - destruct (IH I) as (n&a&I'&E). exists n, a. split; auto. now right. }
      destruct X as (n&a&I'&E). exists n. split; [apply in_map_iff; exists (n, a); auto|].
      apply seq_kof. unfold kof. apply In_dget in I'; [|apply (wf_nodup _ W)]. now rewrite I'. }
    destruct ks as [|k ks].
    { exfalso. inversion Eks as [E0|]. apply NE. unfold nodes, dkeys. now rewrite <- E0. }
    destruct (fold_max ks k) as (A&B&C). eexists. split; [reflexivity|]. split.
    - intros n j E. apply V in E as [<-|I]; auto.
    - apply V'. destruct C as [->|C]; [now left|now right].
  Qed.

  Lemma map_res_pair {A B} (f : A -> res B) l gs :
    map_res (fun k => let* s := f k in Ok (k, s)) l = Ok gs ->
    map fst gs = l /\ forall k g, In (k, g) gs -> In k l /\ f k = Ok g.
  Proof.
    revert gs. induction l as [|k l IH]; cbn; intros gs E.
    - injection E as <-. split; auto. intros k g [].
    - apply bind_Ok in E as [b [Eb E]]. apply bind_Ok in Eb as [s [Es Eb]].
      apply bind_Ok in E as [gs' [Eg E]]. injection Eb as <-. injection E as <-.
      destruct (IH _ Eg) as [I1 I2]. cbn. split; [now rewrite I1|].
      intros k' g [X|X]; [injection X as <- <-; auto|]. apply I2 in X. tauto.
  Qed.

  (** sequences() partitions the nodes. *)
  Lemma c21_sequences : forall d, reachable d -> nodes d <> [] ->
    (forall n, In n (nodes d) -> exists k, node_sequence d n = Ok k /\ 0 <= k) ->
    exists ss num, sequences d = Ok ss /\ number_of_sequences d = Ok num
      (* the groups are 0, 1, ..., num - 1 *)
      /\ map fst ss = zrange num
      (* group k holds exactly the nodes with sequence k *)
      /\ (forall k g, In (k, g) ss -> NoDup g
            /\ forall n, In n g <-> In n (nodes d) /\ node_sequence d n = Ok k)
      (* every node is in exactly one group, once *)
      /\ Permutation (concat (map snd ss)) (nodes d)
      (* num is one more than the largest sequence *)
      /\ (forall n k, node_sequence d n = Ok k -> k < num)
      /\ (exists n, In n (nodes d) /\ node_sequence d n = Ok (num - 1)).
  Proof.
    intros d Hr NE Hk. apply reachable_wf in Hr as W.
    assert (Sq : sequenced d) by (intros n I; destruct (Hk n I) as (k&E&_); eauto).
    destruct (sequence_last_spec d W Sq NE) as (kl&El&Mx&nl&Inl&Enl).
    set (f := fun k => filter_res (fun m => let* km := node_sequence d m in Ok (km =? k)) (nodes d)).
    assert (Hf : forall k, exists g, f k = Ok g /\ NoDup g
              /\ forall n, In n g <-> In n (nodes d) /\ node_sequence d n = Ok k).
    { intros k. unfold f.
      set (q := fun m => match node_sequence d m with Ok km => km =? k | Err _ => false end).
      exists (filter q (nodes d)). split; [|split].
      - apply filter_res_Ok. intros m I. destruct (Sq m I) as [km Ekm]. unfold q. rewrite Ekm. reflexivity.
      - apply NoDup_filter, (wf_nodup _ W).
      - intros n. rewrite filter_In. unfold q. split; intros [I E]; split; auto.
        + destruct (node_sequence d n); [|discriminate]. apply Z.eqb_eq in E. congruence.
        + rewrite E. apply Z.eqb_refl. }
    destruct (map_res_total (fun k => let* s := f k in Ok (k, s)) (zrange (kl + 1))) as [ss Ess].
    { intros k _. destruct (Hf k) as (g&Eg&_). rewrite Eg. cbn. eauto. }
    exists ss, (kl + 1). unfold sequences, number_of_sequences. rewrite El. cbn [bind].
    split; [exact Ess|]. split; auto.
    apply map_res_pair in Ess as [Ef Eg].
    assert (Hg : forall k g, In (k, g) ss -> NoDup g
            /\ forall n, In n g <-> In n (nodes d) /\ node_sequence d n = Ok k).
    { intros k g I. apply Eg in I as [_ E]. destruct (Hf k) as (g'&E'&A&B).
      rewrite E' in E. injection E as <-. auto. }
    split; auto. split; auto. split; [|split].
    - apply NoDup_Permutation; [|apply (wf_nodup _ W)|].
      + assert (ND : NoDup (map fst ss)) by (rewrite Ef; apply NoDup_zrange).
        clear -Hg ND. induction ss as [|[k g] ss IH]; cbn; [constructor|]. inversion ND as [|? ? Hn ND']; subst.
        apply NoDup_app_intro.
        * apply (Hg k g). now left.
        * apply IH; auto. intros k' g' I. apply Hg. now right.
        * intros n I1 I2. apply in_concat in I2 as (g'&I2&I3). apply in_map_iff in I2 as ([k' g2]&E&I2).
          cbn in E. subst g2. apply (Hg k g) in I1 as [_ E1]; [|now left].
          apply (Hg k' g') in I3 as [_ E2]; [|now right]. rewrite E1 in E2. injection E2 as <-.
          apply Hn. apply in_map_iff. exists (k, g'). auto.
      + intros n. rewrite in_concat. split.
        * intros (g&I1&I2). apply in_map_iff in I1 as ([k g']&E&I1). cbn in E. subst g'.
          now apply (Hg k g) in I2.
        * intros I. destruct (Hk n I) as (k&Ek&Pk). assert (Lk := Mx n k Ek).
          assert (Ik : In k (map fst ss)) by (rewrite Ef; apply In_zrange; lia).
          apply in_map_iff in Ik as ([k' g]&E&Ik). cbn in E. subst k'. exists g.
          split; [apply in_map_iff; exists (k, g); auto|]. apply (Hg k g Ik). auto.
    - intros n k E. apply Mx in E. lia.
    - exists nl. split; auto. replace (kl + 1 - 1) with kl by lia. auto.
  Qed.

  (** ** C22 *)

  Lemma In_deviation_edges d e : wf d ->
    (In e (deviation_edges d) <-> exists a, edge_find d e = Some a /\ ea_type a = Some EDeviation).
  Proof. apply In_edges_of_type. Qed.

  Lemma NoDup_edges_of_type d t : wf d -> NoDup (edges_of_type d t).
  Proof.
    intros W. assert (N := NoDup_edges d W). unfold edges, edges_of_type in *.
    induction (d_edge d) as [|[u nb] l IH]; cbn in *; [constructor|].
    assert (Sub : forall x, In x (map (fun va : Z * edge_attr T => (u, fst va))
      (filter (fun va => opt_is etype_eqb (ea_type (snd va)) t) nb)) ->
      In x (map (fun va => (u, fst va)) nb)).
    { intros x. rewrite !in_map_iff. intros (y&E&I). apply filter_In in I. exists y. tauto. }
    apply NoDup_app_intro.
    - apply NoDup_app_l in N. clear -N. induction nb as [|y nb IH]; cbn in *; [constructor|].
      inversion N as [|? ? Hn N']; subst. destruct (opt_is _ _ _); cbn; auto. constructor; auto.
      intros I. apply Hn. apply in_map_iff in I as (x&E&I). apply filter_In in I as [I _].
      apply in_map_iff. eauto.
    - apply IH. now apply NoDup_app_r in N.
    - intros x I1 I2. apply Sub in I1. apply (NoDup_app_disj _ _ x N I1).
      apply in_flat_map in I2 as (y&I2&I3). apply in_flat_map. exists y. split; auto.
      apply in_map_iff in I3 as (z&E&I). apply filter_In in I as [I _]. apply in_map_iff. eauto.
  Qed.

  Definition dir_b d (e : ekey) : bool :=
    match edge_find d e with
    | Some a => opt_is etype_eqb (ea_type a) EDeviation &&
        match kof d (fst e), kof d (snd e) with Some a, Some b => a =? b | _, _ => false end
    | None => false
    end.
  Definition indir_b d (e : ekey) : bool :=
    match edge_find d e with
    | Some a => opt_is etype_eqb (ea_type a) EDeviation &&
        match kof d (fst e), kof d (snd e) with Some a, Some b => negb (a =? b) | _, _ => false end
    | None => false
    end.

  Lemma opt_is_dev (o : option etype) : opt_is etype_eqb o EDeviation = true <-> o = Some EDeviation.
  Proof. destruct o as [[]|]; cbn; split; congruence. Qed.

  Lemma direct_indirect_Ok d e : wf d -> sequenced d -> In e (edges d) ->
    is_direct_deviation_edge d e = Ok (dir_b d e) /\ is_indirect_deviation_edge d e = Ok (indir_b d e).
  Proof.
    intros W Sq I. apply In_edges, has_edge_find in I as [a Ea]; auto.
    destruct (wf_eends _ W e a Ea) as [I1 I2].
    destruct (Sq _ I1) as [k1 E1]. destruct (Sq _ I2) as [k2 E2].
    unfold is_direct_deviation_edge, is_indirect_deviation_edge, is_deviation_edge_predicate,
      is_deviation_edge, edge_get, edge_sequence, dir_b, indir_b. rewrite Ea. cbn. rewrite E1, E2.
    apply seq_kof in E1, E2. rewrite E1, E2. cbn.
    destruct (opt_is etype_eqb (ea_type a) EDeviation); cbn; auto.
  Qed.

  (** Direct and indirect deviation edges partition the deviation edges. *)
  Lemma c22_direct_indirect : forall d, reachable d -> sequenced d ->
    exists ds is, direct_deviation_edges d = Ok ds /\ indirect_deviation_edges d = Ok is
      /\ (forall u v, In (u, v) ds <-> In (u, v) (deviation_edges d)
            /\ exists k, node_sequence d u = Ok k /\ node_sequence d v = Ok k)
      /\ (forall u v, In (u, v) is <-> In (u, v) (deviation_edges d)
            /\ exists j k, node_sequence d u = Ok j /\ node_sequence d v = Ok k /\ j <> k)
      /\ Permutation (ds ++ is) (deviation_edges d)
      /\ NoDup (deviation_edges d)
      /\ (forall e, In e (trail_edges d) -> ~ In e ds /\ ~ In e is).
  Proof.
    intros d Hr Sq. apply reachable_wf in Hr as W.
    exists (filter (dir_b d) (edges d)), (filter (indir_b d) (edges d)).
    split; [apply filter_res_Ok; intros e I; now apply direct_indirect_Ok|].
    split; [apply filter_res_Ok; intros e I; now apply direct_indirect_Ok|].
    assert (D : forall u v, In (u, v) (filter (dir_b d) (edges d)) <-> In (u, v) (deviation_edges d)
            /\ exists k, node_sequence d u = Ok k /\ node_sequence d v = Ok k).
    { intros u v. rewrite filter_In, In_deviation_edges, In_edges, has_edge_find by auto.
      unfold dir_b. cbn [fst snd]. split.
      - intros [[a Ea] E]. rewrite Ea in E. apply andb_prop in E as [E1 E2]. apply opt_is_dev in E1.
        split; eauto. destruct (kof d u) as [j|] eqn:Ej; [|discriminate].
        destruct (kof d v) as [k|] eqn:Ek; [|discriminate]. apply Z.eqb_eq in E2. subst.
        exists k. rewrite !seq_kof. auto.
      - intros [(a&Ea&Ht) (k&E1&E2)]. apply seq_kof in E1, E2. rewrite Ea, E1, E2.
        apply opt_is_dev in Ht. rewrite Ht. cbn. split; eauto. apply Z.eqb_refl. }
    assert (I : forall u v, In (u, v) (filter (indir_b d) (edges d)) <-> In (u, v) (deviation_edges d)
            /\ exists j k, node_sequence d u = Ok j /\ node_sequence d v = Ok k /\ j <> k).
    { intros u v. rewrite filter_In, In_deviation_edges, In_edges, has_edge_find by auto.
      unfold indir_b. cbn [fst snd]. split.
      - intros [[a Ea] E]. rewrite Ea in E. apply andb_prop in E as [E1 E2]. apply opt_is_dev in E1.
        split; eauto. destruct (kof d u) as [j|] eqn:Ej; [|discriminate].
        destruct (kof d v) as [k|] eqn:Ek; [|discriminate]. apply negb_true_iff, Z.eqb_neq in E2.
        exists j, k. rewrite !seq_kof. auto.
      - intros [(a&Ea&Ht) (j&k&E1&E2&Hne)]. apply seq_kof in E1, E2. rewrite Ea, E1, E2.
        apply opt_is_dev in Ht. rewrite Ht. cbn. split; eauto. now apply negb_true_iff, Z.eqb_neq. }
    split; auto. split; auto. split; [|split; [now apply NoDup_edges_of_type|]].
    - apply NoDup_Permutation; [|now apply NoDup_edges_of_type|].
      + apply NoDup_app_intro; [apply NoDup_filter; now apply NoDup_edges| apply NoDup_filter; now apply NoDup_edges|].
        intros [u v] I1 I2. apply D in I1 as [_ (k&A&B)]. apply I in I2 as [_ (j&k'&A'&B'&Hne)].
        rewrite A in A'. rewrite B in B'. congruence.
      + intros [u v]. rewrite in_app_iff, D, I. split; [tauto|]. intros X.
        assert (X' := X). apply In_deviation_edges in X' as (a&Ea&_); auto.
        destruct (wf_eends _ W (u, v) a Ea) as [I1 I2]. cbn in *.
        destruct (Sq _ I1) as [j Ej]. destruct (Sq _ I2) as [k Ek].
        destruct (Z.eq_dec j k) as [->|Hne]; [left|right]; split; eauto.
    - intros [u v] It. apply In_trail_edges in It as (a&Ea&Ht); auto.
      rewrite D, I, !In_deviation_edges by auto. split; intros [(a'&Ea'&Ht') _]; congruence.
  Qed.

  Lemma NoDup_map_inj {A B} (f : A -> B) l : NoDup l ->
    (forall x y, In x l -> In y l -> f x = f y -> x = y) -> NoDup (map f l).
  Proof.
    induction l as [|x l IH]; cbn; intros N I; [constructor|]. inversion N as [|? ? Hn N']; subst. constructor.
    - rewrite in_map_iff. intros (y&E&Iy). apply I in E; auto. congruence.
    - apply IH; auto.
  Qed.

  (** ** C23 *)

  Lemma connected_spec d n t (p : ekey -> res bool) : wf d -> simple_graph d -> In n (nodes d) ->
    (forall e a, edge_find d e = Some a -> p e = Ok (opt_is etype_eqb (ea_type a) t)) ->
    exists l, connected_edges_predicate d n p = Ok l /\ NoDup l
      /\ forall e, In e l <-> In e (edges_of_type d t) /\ (fst e = n \/ snd e = n).
  Proof.
    intros W Sg In1 Hp. destruct (wf_adj_dict d n W In1) as [nb Enb].
    destruct (wf_edge_dict d n W In1) as [out Eout].
    set (es := map (fun m => if dmem out m then (n, m) else (m, n)) nb).
    assert (Hes : forall e, In e es <-> In e (edges d) /\ (fst e = n \/ snd e = n)).
    { assert (Adj : forall m, In m nb <-> In (n, m) (edges d) \/ In (m, n) (edges d)).
      { intros m. rewrite (wf_adj _ W n nb m Enb). rewrite !In_edges by auto. tauto. }
      assert (Hm : forall m, dmem out m = true <-> In (n, m) (edges d)).
      { intros m. rewrite In_edges by auto. unfold has_edge. rewrite (edge_find_dict d n m out Eout).
        unfold dmem. destruct (dget out m); tauto. }
      intros [u v]. unfold es. rewrite in_map_iff. split.
      - intros (m&E&I). destruct (dmem out m) eqn:M.
        + injection E as <- <-. apply Hm in M. cbn. auto.
        + injection E as <- <-. apply Adj in I as [I|I]; [apply Hm in I; congruence|]. cbn. auto.
      - cbn. intros [I [->| ->]].
        + exists v. split; [|apply Adj; auto]. apply Hm in I. now rewrite I.
        + exists u. split; [|apply Adj; auto].
          destruct (dmem out u) eqn:M; auto. apply Hm in M. exfalso. apply (Sg u n); auto. }
    assert (ND : NoDup es).
    { unfold es. assert (Nb := wf_anodup _ W n nb Enb).
      apply NoDup_map_inj; auto. intros x y Ix Iy E.
      destruct (dmem out x), (dmem out y); injection E; congruence. }
    set (q := fun e : ekey => match edge_find d e with Some a => opt_is etype_eqb (ea_type a) t | None => false end).
    exists (filter q es). split; [|split].
    - unfold connected_edges_predicate, connected_edges, neighbors, dgetr. rewrite Enb, Eout. cbn [bind].
      fold es. apply filter_res_Ok. intros e I. apply Hes in I as [I _].
      apply In_edges, has_edge_find in I as [a Ea]; auto. unfold q. rewrite Ea. eauto.
    - now apply NoDup_filter.
    - intros e. rewrite filter_In, Hes, In_edges, has_edge_find, In_edges_of_type by auto. unfold q. split.
      + intros [[[a Ea] I] Q]. rewrite Ea in Q. split; auto. exists a. split; auto.
        destruct (ea_type a) as [[]|], t; cbn in Q; congruence.
      + intros [(a&Ea&Ht) I]. split; eauto. rewrite Ea, Ht. destruct t; reflexivity.
  Qed.

  (** The connected-edge queries return exactly the incident edges of the type, in
      their stored orientation, once each. *)
  Lemma c23_connected_edges : forall d n, reachable d -> simple_graph d -> In n (nodes d) ->
    (exists l, connected_trail_edges d n = Ok l /\ NoDup l
       /\ forall e, In e l <-> In e (trail_edges d) /\ (fst e = n \/ snd e = n))
    /\ (exists l, connected_deviation_edges d n = Ok l /\ NoDup l
       /\ forall e, In e l <-> In e (deviation_edges d) /\ (fst e = n \/ snd e = n)).
  Proof.
    intros d n Hr Sg I. apply reachable_wf in Hr as W. split; apply connected_spec; auto.
    - intros e a Ea. unfold is_trail_edge, edge_get. now rewrite Ea.
    - intros e a Ea. unfold is_deviation_edge, edge_get. now rewrite Ea.
  Qed.

  (** ** C24 *)

  (** trails_sequences() inverts node_sequence on every stored trail. *)
  Lemma c24_trails_sequences : forall d, reachable d ->
    (forall key tr n, In (key, tr) (trails d) -> In n tr -> exists k, node_sequence d n = Ok k) ->
    exists ts, trails_sequences d = Ok ts
      /\ (forall key k n, lookup_ts ts key k = Some n ->
            exists tr, In (key, tr) (trails d) /\ In n tr /\ node_sequence d n = Ok k)
      /\ (forall key tr, In (key, tr) (trails d) ->
            (forall n n' k, In n tr -> In n' tr -> node_sequence d n = Ok k -> node_sequence d n' = Ok k -> n = n') ->
            forall n k, (In n tr /\ node_sequence d n = Ok k) <-> lookup_ts ts key k = Some n).
  Proof.
    intros d Hr Hk. apply reachable_wf in Hr as W.
    assert (ND := wf_tnodup _ W).
    assert (Gen : forall l ts0, incl l (d_trails d) ->
      exists ts, fold_res (fun m kt => let* s := trail_sequences d (fst kt) in Ok (dset m (fst kt) s)) l ts0 = Ok ts
        /\ (forall key, dget ts key = if memb key (dkeys l) then
               match trail_sequences d key with Ok m => Some m | Err _ => None end else dget ts0 key)).
    { induction l as [|[key tr] l IH]; intros ts0 Inc.
      - exists ts0. split; auto.
      - destruct (trail_sequences_spec d key tr) as (m&Em&_).
        + apply In_dget; auto. apply Inc. now left.
        + intros n I. destruct (Hk key tr n) as [k Ek]; auto; [apply Inc; now left|]. exists k. now apply seq_kof.
        + cbn [fold_res fst]. rewrite Em. cbn [bind].
          destruct (IH (dset ts0 key m)) as (ts&E1&E2); [intros x I; apply Inc; now right|].
          exists ts. split; auto. intros key'. rewrite E2, dget_dset. unfold dkeys. cbn.
          destruct (Z.eqb_spec key' key) as [->|Hne]; cbn; auto. rewrite Em. now destruct (memb key (map fst l)). }
    destruct (Gen (d_trails d) [] (incl_refl _)) as (ts&E1&E2). exists ts. split; [exact E1|].
    assert (L : forall key tr, In (key, tr) (d_trails d) -> exists m, dget ts key = Some m
      /\ (forall k n, dget m k = Some n -> In n tr /\ kof d n = Some k)
      /\ (forall n k, In n tr -> kof d n = Some k -> exists n', dget m k = Some n')).
    { intros key tr I. assert (I' := I). apply In_dget in I'; auto.
      destruct (trail_sequences_spec d key tr I') as (m&Em&M1&M2&_).
      { intros n X. destruct (Hk key tr n I X) as [k Ek]. exists k. now apply seq_kof. }
      exists m. split; auto. rewrite E2, Em.
      assert (M : memb key (dkeys (d_trails d)) = true) by (apply memb_In; eapply dget_In_keys; eauto).
      now rewrite M. }
    split.
    - intros key k n X. unfold lookup_ts in X. destruct (dget ts key) as [m|] eqn:Et; [|discriminate].
      assert (Ik : In key (dkeys (d_trails d))).
      { rewrite E2 in Et. destruct (memb key (dkeys (d_trails d))) eqn:M; [now apply memb_In in M|discriminate]. }
      apply in_map_iff in Ik as ([key' tr]&Ek&I). cbn in Ek. subst key'.
      destruct (L key tr I) as (m'&Em'&M1&_). rewrite Et in Em'. injection Em' as <-.
      exists tr. split; auto. rewrite seq_kof. eauto.
    - intros key tr I Inj n k. destruct (L key tr I) as (m&Em&M1&M2). unfold lookup_ts. rewrite Em. split.
      + intros [X Y]. apply seq_kof in Y as Y'. destruct (M2 n k X Y') as [n' En']. rewrite En'. f_equal.
        apply M1 in En' as [X2 Y2]. apply (Inj n' n k); auto. now apply seq_kof.
      + intros X. rewrite seq_kof. now apply M1.
  Qed.

  (** After building a well-posed topology, entry i of a trail is its i-th node. *)
  Lemma c24_after_build : forall d ord P d', reachable d -> same_set_order ord ->
    chains d P -> covers d P -> P <> [] -> build_trails ord false d = (d', Ok tt) ->
    exists ts, trails_sequences d' = Ok ts
      /\ forall p, In p P -> forall k n, lookup_ts ts (hd 0 p) k = Some n
           <-> exists i, nth_error p i = Some n /\ k = Z.of_nat i.
  Proof.
    intros d ord P d' Hr Ho C Cov NE Hb.
    destruct (c14_chains_recovered d ord P Hr Ho C Cov NE) as (d2&Hb2&Pm&_&_&K&_).
    rewrite Hb in Hb2. injection Hb2 as <-.
    assert (Hr' : reachable d') by (assert (X := reachable_build d ord false Hr Ho); now rewrite Hb in X).
    assert (It : forall key tr, In (key, tr) (trails d') <-> key = hd 0 tr /\ In tr P).
    { intros key tr. split.
      - intros I. apply (Permutation_in _ Pm), in_map_iff in I as (p&E&Ip). injection E as <- <-. auto.
      - intros [-> Ip]. apply (Permutation_in _ (Permutation_sym Pm)), in_map_iff. eauto. }
    destruct (c24_trails_sequences d' Hr') as (ts&E&_&X).
    { intros key tr n I In1. apply It in I as [_ Ip]. apply In_nth_error in In1 as [i Ei]. eauto. }
    exists ts. split; auto. intros p Ip k n. rewrite <- (X (hd 0 p) p).
    - split.
      + intros [In1 Ek]. apply In_nth_error in In1 as [i Ei]. exists i. split; auto.
        rewrite (K p i n Ip Ei) in Ek. congruence.
      + intros (i&Ei&->). split; [eapply nth_error_In; eauto|]. now apply (K p).
    - apply It. auto.
    - intros a b j Ia Ib Ea Eb. apply In_nth_error in Ia as [i Hi]. apply In_nth_error in Ib as [i' Hi'].
      rewrite (K p i a Ip Hi) in Ea. rewrite (K p i' b Ip Hi') in Eb.
      injection Ea as <-. injection Eb as Eb. assert (i = i') by lia. congruence.
  Qed.
End Thms.
