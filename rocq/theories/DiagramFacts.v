(** * Well-formed diagrams and the effect of the construction calls *)

From Coq Require Import List ZArith Bool Lia Permutation.
From Verif Require Import Py PyFacts Num Diagram.
Import ListNotations.
Open Scope Z_scope.

Global Arguments dkeys : simpl never.
Global Arguments dset : simpl never.
Global Arguments dget : simpl never.

Section Facts.
  Context {T : Type} `{NumOps T}.
  Implicit Types (d : diagram T).

  Record wf (d : diagram T) : Prop := {
    wf_nodup : NoDup (nodes d);
    wf_ekeys : dkeys (d_edge d) = nodes d;
    wf_akeys : dkeys (d_adj d) = nodes d;
    wf_enodup : forall u nb, dget (d_edge d) u = Some nb -> NoDup (dkeys nb);
    wf_eends : forall e a, edge_find d e = Some a -> In (fst e) (nodes d) /\ In (snd e) (nodes d);
    wf_anodup : forall u l, dget (d_adj d) u = Some l -> NoDup l;
    wf_adj : forall u l v, dget (d_adj d) u = Some l ->
               (In v l <-> has_edge d (u, v) = true \/ has_edge d (v, u) = true);
    wf_max : forall n, In n (nodes d) -> n <= d_max d;
    wf_gkey : forall g n, dget (d_gkey d) g = Some n -> In n (nodes d);
    wf_gnodup : NoDup (dkeys (d_gkey d));
    wf_etype : forall e a, edge_find d e = Some a -> ea_type a <> None;
    wf_tnodup : NoDup (dkeys (d_trails d));
    wf_trails : forall k tr n, dget (d_trails d) k = Some tr -> In n tr -> In n (nodes d)
  }.

  Lemma wf_empty : wf empty_diagram.
  Proof.
    constructor; unfold has_edge, edge_find, nodes, dkeys, dget; cbn;
      first [discriminate|intros; contradiction|reflexivity|constructor].
  Qed.

  (** ** Reading *)

  Lemma has_node_In d n : has_node d n = true <-> In n (nodes d).
  Proof. apply dmem_In. Qed.

  Lemma node_find d n : In n (nodes d) -> exists a, dget (d_node d) n = Some a.
  Proof. apply In_keys_dget. Qed.

  Lemma has_edge_find d e : has_edge d e = true <-> exists a, edge_find d e = Some a.
  Proof.
    unfold has_edge. destruct (edge_find d e); split; eauto; try discriminate.
    intros [a Ha]. discriminate.
  Qed.

  Lemma wf_edge_dict d u : wf d -> In u (nodes d) -> exists nb, dget (d_edge d) u = Some nb.
  Proof. intros W I. apply In_keys_dget. now rewrite (wf_ekeys _ W). Qed.

  Lemma wf_adj_dict d u : wf d -> In u (nodes d) -> exists l, dget (d_adj d) u = Some l.
  Proof. intros W I. apply In_keys_dget. now rewrite (wf_akeys _ W). Qed.

  Lemma edge_find_dict d u v nb :
    dget (d_edge d) u = Some nb -> edge_find d (u, v) = dget nb v.
  Proof. intros E. unfold edge_find. cbn. now rewrite E. Qed.

  Lemma In_edges_aux (l : dict Z (dict Z (edge_attr T))) u v :
    In (u, v) (flat_map (fun ue => map (fun va => (fst ue, fst va)) (snd ue)) l)
    <-> exists nb, In (u, nb) l /\ In v (dkeys nb).
  Proof.
    rewrite in_flat_map. split.
    - intros [[u' nb] [I1 I2]]. cbn in I2. apply in_map_iff in I2 as [[v' a] [E I2]].
      cbn in E. injection E as -> ->. exists nb. split; auto. unfold dkeys.
      change v with (fst (v, a)). now apply in_map.
    - intros [nb [I1 I2]]. exists (u, nb). split; auto. cbn.
      unfold dkeys in I2. apply in_map_iff in I2 as [[v' a] [E I2]]. cbn in E. subst.
      apply in_map_iff. now exists (v, a).
  Qed.

  Lemma In_edges d e : wf d -> (In e (edges d) <-> has_edge d e = true).
  Proof.
    intros W. destruct e as [u v]. unfold edges. rewrite In_edges_aux, has_edge_find.
    unfold edge_find. cbn. split.
    - intros [nb [I1 I2]]. apply In_dget in I1.
      + rewrite I1. now apply In_keys_dget.
      + rewrite (wf_ekeys _ W). apply (wf_nodup _ W).
    - intros [a Ha]. destruct (dget (d_edge d) u) as [nb|] eqn:E; [|discriminate].
      exists nb. split; [now apply dget_In|]. eapply dget_In_keys; eauto.
  Qed.

  Lemma NoDup_pairs {A B} (u : A) (l : list B) :
    NoDup l -> NoDup (map (fun v => (u, v)) l).
  Proof.
    induction 1; cbn; constructor; auto.
    rewrite in_map_iff. intros [y [E I]]. congruence.
  Qed.

  Lemma NoDup_app_intro {A} (l1 l2 : list A) :
    NoDup l1 -> NoDup l2 -> (forall x, In x l1 -> ~ In x l2) -> NoDup (l1 ++ l2).
  Proof.
    induction 1; cbn; auto. intros N Hd. constructor.
    - rewrite in_app_iff. intros [I|I]; [tauto|]. apply (Hd x); auto.
    - apply IHNoDup; auto. 
  Qed.

  Lemma NoDup_edges d : wf d -> NoDup (edges d).
  Proof.
    intros W. unfold edges.
    assert (N : NoDup (dkeys (d_edge d))) by (rewrite (wf_ekeys _ W); apply (wf_nodup _ W)).
    assert (Hnb : forall u nb, In (u, nb) (d_edge d) -> NoDup (dkeys nb)).
    { intros u nb I. apply (wf_enodup _ W u). now apply In_dget. }
    revert N Hnb. generalize (d_edge d). induction d0 as [|[u nb] l IH]; cbn; intros N Hnb.
    - constructor.
    - inversion N as [|? ? Hni Hnd]; subst. apply NoDup_app_intro.
      + rewrite <- map_map with (f := fst) (g := fun v => (u, v)).
        apply NoDup_pairs. apply (Hnb u). now left.
      + apply IH; auto. intros u' nb' I. apply (Hnb u'). now right.
      + intros [u' v'] I1 I2. apply in_map_iff in I1 as [[v1 a1] [E _]]. cbn in E.
        injection E as -> ->. apply In_edges_aux in I2 as [nb' [I2 _]].
        apply Hni. change u' with (fst (u', nb')). now apply in_map.
  Qed.

  (** ** node_set *)

  Lemma node_set_Ok d n f a :
    dget (d_node d) n = Some a ->
    node_set n f d = (with_node d (dset (d_node d) n (f a)), Ok tt).
  Proof. intros E. unfold node_set. now rewrite E. Qed.

  Lemma node_set_Err d n f :
    dget (d_node d) n = None -> node_set n f d = (d, Err KeyError).
  Proof. intros E. unfold node_set. now rewrite E. Qed.

  Lemma nodes_dset d n x :
    In n (nodes d) -> nodes (with_node d (dset (d_node d) n x)) = nodes d.
  Proof. intros I. unfold nodes. cbn. now apply dkeys_dset_in. Qed.

  Lemma wf_with_node d x :
    dkeys x = nodes d -> wf d -> wf (with_node d x).
  Proof.
    intros E W. assert (En : nodes (with_node d x) = nodes d) by exact E.
    destruct W. constructor; rewrite ?En; auto.
  Qed.

  Lemma wf_node_set n f : preserves wf (node_set (T:=T) n f).
  Proof.
    intros d W. unfold node_set. destruct (dget (d_node d) n) eqn:E; cbn; auto.
    apply wf_with_node; auto. apply dkeys_dset_in. eapply dget_In_keys; eauto.
  Qed.

  (** ** edge_set *)

  Lemma edge_set_find d e f a :
    edge_find d e = Some a ->
    exists d', edge_set e f d = (d', Ok tt)
      /\ (forall e', edge_find d' e' = if eqb e' e then Some (f a) else edge_find d e')
      /\ dkeys (d_edge d') = dkeys (d_edge d)
      /\ (forall u nb', dget (d_edge d') u = Some nb' ->
            exists nb, dget (d_edge d) u = Some nb /\ dkeys nb' = dkeys nb)
      /\ d' = with_edge d (d_edge d').
  Proof.
    destruct e as [u v]. unfold edge_find, edge_set. cbn.
    destruct (dget (d_edge d) u) as [nb|] eqn:Eu; [|discriminate].
    intros Ev. rewrite Ev. eexists. split; [reflexivity|]. cbn. split; [|split; [|split]]; auto.
    - intros [u' v']. cbn. rewrite dget_dset. cbn.
      destruct (Z.eqb_spec u' u) as [->|n]; cbn.
      + rewrite dget_dset. cbn. rewrite Eu. reflexivity.
      + reflexivity.
    - apply dkeys_dset_in. eapply dget_In_keys; eauto.
    - intros u' nb'. rewrite dget_dset. cbn. destruct (Z.eqb_spec u' u) as [->|n].
      + injection 1 as <-. exists nb. split; auto. apply dkeys_dset_in. eapply dget_In_keys; eauto.
      + eauto.
  Qed.

  Lemma edge_set_Err d e f :
    edge_find d e = None -> edge_set e f d = (d, Err KeyError).
  Proof.
    destruct e as [u v]. unfold edge_find, edge_set. cbn.
    destruct (dget (d_edge d) u) as [nb|]; auto. now intros ->.
  Qed.

  Lemma wf_edge_set e f :
    (forall a, ea_type a <> None -> ea_type (f a) <> None) ->
    preserves wf (edge_set (T:=T) e f).
  Proof.
    intros Hf d W. destruct (edge_find d e) as [a|] eqn:E.
    - destruct (edge_set_find d e f a E) as [d' [-> [Hfind [Hk [Hnb Heq]]]]]. cbn.
      assert (Hn : d_node d' = d_node d) by (rewrite Heq; auto).
      assert (Hns : nodes d' = nodes d) by (unfold nodes; now rewrite Hn).
      assert (Ha : d_adj d' = d_adj d) by (rewrite Heq; auto).
      assert (Hhas : forall e', has_edge d' e' = has_edge d e').
      { intros e'. unfold has_edge. rewrite Hfind. destruct (eqb_spec e' e) as [->|n]; auto.
        now rewrite E. }
      destruct W. constructor; rewrite ?Hns, ?Ha; auto.
      + congruence.
      + intros u nb' Hu. apply Hnb in Hu as [nb [Hu ->]]. eauto.
      + intros e' a'. rewrite Hfind. destruct (eqb_spec e' e) as [->|n]; eauto.
      + intros u l v Hu. rewrite !Hhas. eauto.
      + rewrite Heq. auto.
      + rewrite Heq. auto.
      + rewrite Heq. auto.
      + intros e' a'. rewrite Hfind. destruct (eqb_spec e' e) as [->|n]; eauto.
        injection 1 as <-. eauto.
      + rewrite Heq. auto.
      + rewrite Heq. auto.
    - now rewrite edge_set_Err.
  Qed.

  (** ** graph_add_node, add_node *)

  Lemma graph_add_node_key d key p :
    snd (graph_add_node key p d) = match key with Some k => k | None => d_max d + 1 end.
  Proof.
    unfold graph_add_node. cbn. destruct (dget _ _); auto.
  Qed.

  Lemma graph_add_node_old d k key p a :
    k = match key with Some k => k | None => d_max d + 1 end ->
    dget (d_node d) k = Some a ->
    fst (graph_add_node key p d)
    = with_node (with_max d (if Z.ltb (d_max d) k then k else d_max d)) (dset (d_node d) k (set_xyz a p)).
  Proof. intros -> E. unfold graph_add_node. cbn. rewrite E. auto. Qed.

  Lemma graph_add_node_new d k key p :
    k = match key with Some k => k | None => d_max d + 1 end ->
    dget (d_node d) k = None ->
    fst (graph_add_node key p d)
    = mkDiagram (dset (d_node d) k (set_xyz default_node p)) (dset (d_edge d) k []) (dset (d_adj d) k [])
        (if Z.ltb (d_max d) k then k else d_max d) (d_gkey d) (d_tol d) (d_trails d) (d_aux d)
        (d_aux_length d) (d_aux_vector d).
  Proof. intros -> E. unfold graph_add_node. cbn. rewrite E. auto. Qed.

  Lemma edge_find_new_node d k nd :
    wf d -> ~ In k (nodes d) -> d_edge nd = dset (d_edge d) k [] ->
    forall e, edge_find nd e = edge_find d e.
  Proof.
    intros W N E [u v]. unfold edge_find. cbn. rewrite E, dget_dset. cbn.
    destruct (Z.eqb_spec u k) as [->|n]; auto.
    assert (En : dget (d_edge d) k = None) by (apply dget_None; now rewrite (wf_ekeys _ W)).
    now rewrite En.
  Qed.

  Lemma wf_graph_add_node d key p : wf d -> wf (fst (graph_add_node key p d)).
  Proof.
    intros W. remember (match key with Some k => k | None => d_max d + 1 end) as k eqn:Ek.
    destruct (dget (d_node d) k) as [a|] eqn:E.
    - rewrite (graph_add_node_old d k key p a) by auto.
      apply (wf_with_node (with_max d _)).
      + cbn. apply dkeys_dset_in. eapply dget_In_keys; eauto.
      + destruct W. constructor; auto. cbn. intros n I.
        destruct (Z.ltb_spec (d_max d) k); auto. apply wf_max0 in I. lia.
    - rewrite (graph_add_node_new d k key p) by auto.
      apply dget_None in E. fold (nodes d) in E.
      assert (Hn : nodes (fst (graph_add_node key p d)) = nodes d ++ [k]).
      { rewrite (graph_add_node_new d k key p) by (auto; now apply dget_None).
        unfold nodes. cbn. now apply dkeys_dset_new. }
      rewrite (graph_add_node_new d k key p) in Hn by (auto; now apply dget_None).
      match goal with |- wf ?x => set (nd := x) in * end.
      assert (Hf : forall e, edge_find nd e = edge_find d e) by (apply (edge_find_new_node d k); auto).
      assert (Hh : forall e, has_edge nd e = has_edge d e) by (intros e; unfold has_edge; now rewrite Hf).
      assert (Hends : forall e a, edge_find d e = Some a -> In (fst e) (nodes d) /\ In (snd e) (nodes d)) by apply W.
      destruct W. constructor; rewrite ?Hn.
      + apply Permutation_NoDup with (l := k :: nodes d); [apply Permutation_cons_append|now constructor].
      + cbn. rewrite dkeys_dset_new by (now rewrite wf_ekeys0). now rewrite wf_ekeys0.
      + cbn. rewrite dkeys_dset_new by (now rewrite wf_akeys0). now rewrite wf_akeys0.
      + cbn. intros u nb. rewrite dget_dset. cbn. destruct (Z.eqb u k); eauto.
        injection 1 as <-. constructor.
      + intros e a. rewrite Hf, !in_app_iff. intros Ha. apply Hends in Ha. tauto.
      + cbn. intros u l. rewrite dget_dset. cbn. destruct (Z.eqb u k); eauto.
        injection 1 as <-. constructor.
      + cbn. intros u l w. rewrite dget_dset, !Hh. cbn. destruct (Z.eqb_spec u k) as [->|n]; eauto.
        injection 1 as <-. cbn. rewrite !has_edge_find. split; [tauto|].
        intros [[a Ha]|[a Ha]]; apply Hends in Ha; cbn in Ha; tauto.
      + cbn. intros n. rewrite in_app_iff. cbn. intros [I|[<-|[]]].
        * apply wf_max0 in I. destruct (Z.ltb_spec (d_max d) k); lia.
        * destruct (Z.ltb_spec (d_max d) k); lia.
      + cbn. intros g n. rewrite in_app_iff. eauto.
      + auto.
      + intros e a. rewrite Hf. eauto.
      + auto.
      + cbn. intros k' tr n. rewrite in_app_iff. eauto.
  Qed.

  Lemma wf_with_gkey d g : 
    (forall k n, dget g k = Some n -> In n (nodes d)) -> NoDup (dkeys g) -> wf d -> wf (with_gkey d g).
  Proof. intros Hg Hn W. destruct W. constructor; auto. Qed.

  Lemma In_nodes_add d key p :
    In (snd (graph_add_node key p d)) (nodes (fst (graph_add_node key p d))).
  Proof.
    rewrite graph_add_node_key.
    remember (match key with Some k => k | None => d_max d + 1 end) as k eqn:Ek.
    destruct (dget (d_node d) k) as [a|] eqn:E.
    - rewrite (graph_add_node_old d k key p a) by auto. unfold nodes. cbn.
      apply In_dkeys_dset. auto.
    - rewrite (graph_add_node_new d k key p) by auto. unfold nodes. cbn.
      apply In_dkeys_dset. auto.
  Qed.

  Lemma add_node_eq d key p :
    add_node key p d
    = (with_gkey (fst (graph_add_node key p d))
         (dset (d_gkey d) (gkey d p) (match key with Some k => k | None => d_max d + 1 end)),
       Ok (match key with Some k => k | None => d_max d + 1 end)).
  Proof.
    unfold add_node, graph_add_node. cbn.
    destruct (dget (d_node d) _); reflexivity.
  Qed.

  Lemma d_gkey_graph_add d key p : d_gkey (fst (graph_add_node key p d)) = d_gkey d.
  Proof. unfold graph_add_node. cbn. destruct (dget (d_node d) _); reflexivity. Qed.

  Lemma wf_add_node key p : preserves wf (add_node (T:=T) key p).
  Proof.
    intros d W. rewrite add_node_eq. cbn [fst].
    assert (W' := wf_graph_add_node d key p W).
    apply wf_with_gkey; auto.
    - intros k n. rewrite dget_dset. destruct (eqb k _).
      + injection 1 as <-. rewrite <- graph_add_node_key with (p := p). apply In_nodes_add.
      + rewrite <- (d_gkey_graph_add d key p). apply (wf_gkey _ W').
    - apply NoDup_dset. apply (wf_gnodup _ W).
  Qed.

  (** ** graph_add_edge, add_edge *)

  Lemma adj_add_other d u v :
    d_node (adj_add d u v) = d_node d /\ d_edge (adj_add d u v) = d_edge d
    /\ d_max (adj_add d u v) = d_max d /\ d_gkey (adj_add d u v) = d_gkey d
    /\ d_tol (adj_add d u v) = d_tol d /\ d_trails (adj_add d u v) = d_trails d
    /\ d_aux (adj_add d u v) = d_aux d /\ d_aux_length (adj_add d u v) = d_aux_length d
    /\ d_aux_vector (adj_add d u v) = d_aux_vector d
    /\ (In u (dkeys (d_adj d)) -> dkeys (d_adj (adj_add d u v)) = dkeys (d_adj d)).
  Proof.
    unfold adj_add. destruct (dget (d_adj d) u) as [l|] eqn:E.
    - destruct (memb v l); cbn; repeat (split; [reflexivity|]); auto.
      apply dkeys_dset_in.
    - repeat (split; [reflexivity|]). auto.
  Qed.

  Lemma adj_add_get d u v u' l' :
    dget (d_adj (adj_add d u v)) u' = Some l' ->
    exists l, dget (d_adj d) u' = Some l
      /\ (l' = l /\ (u' <> u \/ In v l) \/ u' = u /\ ~ In v l /\ l' = l ++ [v]).
  Proof.
    unfold adj_add. destruct (dget (d_adj d) u) as [l|] eqn:E.
    - destruct (memb v l) eqn:M.
      + intros E'. exists l'. split; auto. destruct (Z.eq_dec u' u) as [->|n]; auto.
        left. split; auto. right. rewrite E in E'. injection E' as <-. now apply memb_In.
      + cbn. rewrite dget_dset. cbn. destruct (Z.eqb_spec u' u) as [->|n].
        * injection 1 as <-. exists l. split; auto. right. split; auto. split; auto.
          now apply memb_nIn.
        * intros E'. exists l'. auto.
    - intros E'. exists l'. split; auto. left. split; auto. left. congruence.
  Qed.

  (** The attributes add_edge starts from: those already stored or the defaults. *)
  Definition edge_old d e : edge_attr T :=
    match edge_find d e with Some a => a | None => default_edge end.

  Lemma graph_add_edge_Err d u v el :
    ~ In u (nodes d) \/ ~ In v (nodes d) ->
    graph_add_edge u v el d = (d, Err AttributeError).
  Proof.
    unfold graph_add_edge. rewrite <- !has_node_In.
    destruct (has_node d u); cbn; auto. destruct (has_node d v); cbn; auto.
    intros [n|n]; contradiction n; auto.
  Qed.

  Lemma graph_add_edge_Ok d u v el :
    In u (nodes d) -> In v (nodes d) -> wf d ->
    exists d', graph_add_edge u v el d = (d', Ok (u, v))
      /\ d_node d' = d_node d /\ d_max d' = d_max d /\ d_gkey d' = d_gkey d
      /\ d_tol d' = d_tol d /\ d_trails d' = d_trails d /\ d_aux d' = d_aux d
      /\ d_aux_length d' = d_aux_length d /\ d_aux_vector d' = d_aux_vector d
      /\ (forall e, edge_find d' e = if eqb e (u, v) then Some (edge_merge el (edge_old d (u, v)))
                                     else edge_find d e)
      /\ wf d'.
  Proof.
    intros Iu Iv W.
    destruct (wf_edge_dict d u W Iu) as [nb Enb].
    unfold graph_add_edge.
    apply has_node_In in Iu as Hu. apply has_node_In in Iv as Hv. rewrite Hu, Hv. cbn [negb].
    rewrite Enb.
    set (a0 := match dget nb v with Some a => a | None => default_edge end).
    set (d1 := with_edge d (dset (d_edge d) u (dset nb v (edge_merge el a0)))).
    set (d2 := adj_add d1 u v). set (d3 := adj_add d2 v u).
    exists d3. split; [reflexivity|].
    destruct (adj_add_other d1 u v) as (A1&A2&A3&A4&A5&A6&A7&A8&A9&A10).
    destruct (adj_add_other d2 v u) as (B1&B2&B3&B4&B5&B6&B7&B8&B9&B10).
    fold d2 in A1,A2,A3,A4,A5,A6,A7,A8,A9,A10. fold d3 in B1,B2,B3,B4,B5,B6,B7,B8,B9,B10.
    assert (Ea0 : a0 = edge_old d (u, v)).
    { unfold a0, edge_old. now rewrite (edge_find_dict d u v nb). }
    assert (Hf : forall e, edge_find d3 e = if eqb e (u, v) then Some (edge_merge el (edge_old d (u, v)))
                                            else edge_find d e).
    { intros [u' v']. unfold edge_find. rewrite B2, A2. unfold d1. cbn [d_edge with_edge fst snd].
      rewrite dget_dset. cbn. destruct (Z.eqb_spec u' u) as [->|n]; cbn.
      - rewrite dget_dset. cbn. rewrite Enb, Ea0. reflexivity.
      - reflexivity. }
    split; [exact (eq_trans B1 A1)|]. split; [exact (eq_trans B3 A3)|].
    split; [exact (eq_trans B4 A4)|]. split; [exact (eq_trans B5 A5)|].
    split; [exact (eq_trans B6 A6)|]. split; [exact (eq_trans B7 A7)|].
    split; [exact (eq_trans B8 A8)|]. split; [exact (eq_trans B9 A9)|].
    split; [exact Hf|].
    assert (Hn : nodes d3 = nodes d) by (unfold nodes; rewrite B1, A1; reflexivity).
    assert (Hh : forall e, has_edge d3 e = true <-> e = (u, v) \/ has_edge d e = true).
    { intros e. unfold has_edge. rewrite Hf. destruct (eqb_spec e (u, v)) as [->|n].
      - tauto.
      - split; auto. intros [|]; [contradiction|auto]. }
    assert (Kadj : dkeys (d_adj d3) = nodes d).
    { rewrite B10, A10; unfold d1; cbn; rewrite ?A10; unfold d1; cbn; rewrite ?(wf_akeys _ W); auto. }
    assert (Hadj : forall u' l', dget (d_adj d3) u' = Some l' ->
      exists l, dget (d_adj d) u' = Some l /\ NoDup l'
        /\ forall w, In w l' <-> In w l \/ (u' = u /\ w = v) \/ (u' = v /\ w = u)).
    { intros u' l' E3. apply adj_add_get in E3 as [l2 [E2 C2]].
      apply adj_add_get in E2 as [l1 [E1 C1]]. change (d_adj d1) with (d_adj d) in E1.
      assert (N1 : NoDup l1) by (eapply (wf_anodup _ W); eauto).
      assert (App : forall (l : list Z) w, ~ In w l -> NoDup l -> NoDup (l ++ [w])).
      { intros l w Hl HN. apply Permutation_NoDup with (l := w :: l);
          [apply Permutation_cons_append|now constructor]. }
      assert (N2 : NoDup l2) by (destruct C1 as [[-> _]|[_ [? ->]]]; auto).
      assert (I2 : forall w, In w l2 <-> In w l1 \/ (u' = u /\ w = v)).
      { intros w. destruct C1 as [[-> C1]|[-> [? ->]]].
        - split; auto. intros [|[-> ->]]; auto. destruct C1; tauto.
        - rewrite in_app_iff. cbn. split; intros; intuition. }
      exists l1. split; auto. split.
      - destruct C2 as [[-> _]|[_ [? ->]]]; auto.
      - intros w. rewrite <- or_assoc, <- I2. destruct C2 as [[-> C2]|[-> [? ->]]].
        + split; auto. intros [|[-> ->]]; auto. destruct C2; tauto.
        + rewrite in_app_iff. cbn. split; intros; intuition. }
    constructor; rewrite ?Hn.
    - apply (wf_nodup _ W).
    - rewrite B2, A2. unfold d1. cbn. rewrite dkeys_dset_in; [apply (wf_ekeys _ W)|].
      eapply dget_In_keys; eauto.
    - exact Kadj.
    - intros u' nb'. rewrite B2, A2. unfold d1. cbn. rewrite dget_dset. cbn.
      destruct (Z.eqb u' u); [|apply (wf_enodup _ W)].
      injection 1 as <-. apply NoDup_dset. eapply (wf_enodup _ W); eauto.
    - intros e a. rewrite Hf. destruct (eqb_spec e (u, v)) as [->|n]; [auto|apply (wf_eends _ W)].
    - intros u' l' E. apply Hadj in E as [l [_ [N _]]]. auto.
    - intros u' l' w E. apply Hadj in E as [l [E [_ I]]]. rewrite I, !Hh, (wf_adj _ W u' l w E).
      split.
      + intros [[|]|[[-> ->]|[-> ->]]]; auto.
      + intros [[X|]|[X|]]; auto; injection X as -> ->; auto.
    - rewrite B3, A3. apply (wf_max _ W).
    - rewrite B4, A4. apply (wf_gkey _ W).
    - rewrite B4, A4. apply (wf_gnodup _ W).
    - intros e a. rewrite Hf. destruct (eqb_spec e (u, v)) as [->|n]; [|apply (wf_etype _ W)].
      injection 1 as <-. destruct el; discriminate.
    - rewrite B6, A6. apply (wf_tnodup _ W).
    - rewrite B6, A6. apply (wf_trails _ W).
  Qed.

  Lemma wf_graph_add_edge u v el : preserves wf (graph_add_edge (T:=T) u v el).
  Proof.
    intros d W. destruct (in_dec Z.eq_dec u (nodes d)) as [Iu|Iu].
    - destruct (in_dec Z.eq_dec v (nodes d)) as [Iv|Iv].
      + destruct (graph_add_edge_Ok d u v el Iu Iv W) as [d' [-> R]]. cbn. tauto.
      + rewrite graph_add_edge_Err; auto.
    - rewrite graph_add_edge_Err; auto.
  Qed.

  Lemma wf_resolve_end r : preserves wf (resolve_end (T:=T) r).
  Proof.
    intros d W. unfold resolve_end. destruct (node_key d r); auto.
    destruct r; auto. now apply wf_add_node.
  Qed.

  Lemma wf_add_edge ru rv el : preserves wf (add_edge (T:=T) ru rv el).
  Proof.
    unfold add_edge. apply preserves_ebind; [apply wf_resolve_end|]. intros u.
    apply preserves_ebind; [apply wf_resolve_end|]. intros v. apply wf_graph_add_edge.
  Qed.

  Lemma wf_add_support r : preserves wf (add_support (T:=T) r).
  Proof.
    intros d W. unfold add_support. destruct (node_key d r); auto. now apply wf_node_set.
  Qed.

  Lemma wf_add_load r q : preserves wf (add_load (T:=T) r q).
  Proof.
    intros d W. unfold add_load. destruct (node_key d r); auto. now apply wf_node_set.
  Qed.

  Lemma wf_update_node_xyz k p : preserves wf (update_node_xyz (T:=T) k p).
  Proof.
    intros d W. unfold update_node_xyz.
    apply (preserves_ebind wf (add_node (Some k) p)); [apply wf_add_node|intros; apply preserves_eret|].
    destruct (dmem (d_gkey d) (gkey d p)); auto.
    apply wf_with_gkey; auto.
    - intros g n E. apply (wf_gkey _ W g n).
      destruct (eqb_spec g (gkey d p)) as [->|N].
      + rewrite dget_ddel_same in E; [discriminate|apply (wf_gnodup _ W)].
      + now rewrite dget_ddel_other in E.
    - apply NoDup_ddel. apply (wf_gnodup _ W).
  Qed.
End Facts.
