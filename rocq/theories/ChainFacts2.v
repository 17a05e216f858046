(** * Rebuilding trails, and auxiliary trails *)

From Coq Require Import String List ZArith Bool Lia Permutation.
From Verif Require Import Py PyFacts Num Diagram DiagramFacts Topology SpecTopology TopologyFacts BuildFacts ChainFacts.
Import ListNotations.
Open Scope Z_scope.

Lemma dict_ext {K V} `{Eqb K} (a b : dict K V) :
  NoDup (dkeys a) -> dkeys b = dkeys a -> (forall k, dget b k = dget a k) -> b = a.
Proof.
  revert b. induction a as [|[k v] a IH]; intros b ND Hk Hg.
  - destruct b; auto. discriminate.
  - destruct b as [|[k' v'] b]; [discriminate|]. unfold dkeys in *. cbn in Hk.
    injection Hk as -> Hk. inversion ND as [|? ? Hn ND']; subst.
    assert (E := Hg k). cbn in E. unfold dget in E. rewrite eqb_refl in E. injection E as ->.
    f_equal. apply IH; auto. intros k0.
    destruct (eqb_spec k0 k) as [->|Hne].
    + assert (Ha : dget a k = None) by (now apply dget_None).
      assert (Hb : dget b k = None) by (apply dget_None; unfold dkeys; now rewrite Hk).
      congruence.
    + assert (X := Hg k0). cbn in X. apply eqb_neq in Hne. unfold dget in X. fold (dget b k0) in X.
      rewrite Hne in X. exact X.
Qed.

Section Facts.
  Context {T : Type} `{NumOps T}.
  Implicit Types (d : diagram T).

  Lemma node_attr_ext (a b : node_attr T) :
    na_xyz a = na_xyz b -> na_load a = na_load b -> na_reac a = na_reac b ->
    na_k a = na_k b -> na_type a = na_type b -> a = b.
  Proof. destruct a, b; cbn; congruence. Qed.

  Lemma frame_eq d d' : wf d -> frame d d' ->
    (forall n, In n (nodes d) -> kof d' n = kof d n) ->
    (forall n, In n (nodes d) -> tof d' n = tof d n) -> d' = d.
  Proof.
    intros W (E&N&A) K Y. rewrite E. rewrite <- (with_node_node d) at 2. f_equal.
    apply dict_ext; [apply (wf_nodup _ W)|exact N|]. intros n.
    destruct (dget (d_node d) n) as [a|] eqn:Ea.
    - destruct (A n a Ea) as (a'&Ea'&X1&X2&X3). rewrite Ea'. f_equal.
      assert (I : In n (nodes d)) by (eapply dget_In_keys; eauto).
      assert (Kn := K n I). assert (Yn := Y n I). unfold kof, tof in *. rewrite Ea, Ea' in *.
      now apply node_attr_ext.
    - apply dget_None. fold (nodes d'). rewrite N. now apply dget_None in Ea.
  Qed.

  Lemma edges_eq_simple d d' : d_edge d' = d_edge d -> simple_graph d -> simple_graph d'.
  Proof. unfold simple_graph, edges. now intros ->. Qed.

  Lemma head_not_end d P p s : chains d P -> In p P -> ends_in p s -> memb s (map (hd 0) P) = false.
  Proof.
    intros C Ip Es. apply memb_nIn. rewrite in_map_iff. intros (q&Eq&Iq).
    assert (Lq := ch_length _ _ C q Iq).
    assert (q = p).
    { apply (concat_disjoint P q p s); auto; [apply C| |now apply ends_in_In].
      rewrite <- Eq. now apply hd_In. }
    subst q. eapply hd_last_ne; eauto. eapply NoDup_concat_In; [apply C|auto].
  Qed.

  (** Marking the heads of chains as origins keeps the chains. *)
  Lemma chains_preserved d d' P : wf d -> wf d' -> chains d P ->
    nodes d' = nodes d -> d_edge d' = d_edge d ->
    (forall n, tof d' n = if memb n (map (hd 0) P) then Some TOrigin else tof d n) ->
    chains d' P.
  Proof.
    intros W W' C N E Y. constructor.
    - eapply edges_eq_simple; eauto. apply C.
    - apply C.
    - apply C.
    - rewrite N. apply C.
    - intros a b. rewrite <- (ch_edges _ _ C a b). unfold trail_joined, trail_edges, edges_of_type.
      rewrite E. tauto.
    - intros n. rewrite In_support_nodes by auto. unfold is_sup. rewrite Y. split.
      + destruct (memb n (map (hd 0) P)); [discriminate|]. intros X.
        apply (ch_supports _ _ C). apply In_support_nodes; auto.
      + intros (p&Ip&Ep). rewrite (head_not_end d P p n C Ip Ep).
        assert (X : In n (support_nodes d)) by (apply (ch_supports _ _ C); eauto).
        now apply In_support_nodes in X.
  Qed.

  Theorem rebuild_chains ord ord' d P : wf d -> same_set_order ord -> same_set_order ord' ->
    chains d P -> covers d P -> P <> [] ->
    exists d', build_trails_plain ord d = (d', Ok tt) /\ build_trails_plain ord' d' = (d', Ok tt).
  Proof.
    intros W Ho Ho' C Cov NE.
    destruct (build_chains ord d P W Ho C Cov NE) as (d'&Hb&F&Y&K).
    exists d'. split; auto.
    assert (W' : wf d') by (assert (X := wf_build_plain ord Ho d W); now rewrite Hb in X).
    assert (N' : nodes d' = nodes d) by (apply (frame_nodes _ _ F)).
    assert (C' : chains d' P).
    { apply (chains_preserved d d' P); auto. apply (frame_edge _ _ F). }
    assert (Cov' : covers d' P) by (unfold covers; now rewrite N').
    destruct (build_chains ord' d' P W' Ho' C' Cov' NE) as (d''&Hb'&F'&Y'&K').
    rewrite Hb'. f_equal.
    assert (Et : with_trails d' (trails_of (chains_at P (nodes d'))) = d').
    { rewrite N'. assert (X : d_trails d' = trails_of (chains_at P (nodes d))).
      { rewrite (frame_trails _ _ F). reflexivity. }
      rewrite <- X. now destruct d'. }
    rewrite Et in F'. apply frame_eq; auto.
    - intros n In_. rewrite N' in In_. apply Cov in In_. apply in_concat in In_ as (p&Ip&Inp).
      apply In_nth_error in Inp as [i Hi]. rewrite (K' p i n Ip Hi), (K p i n Ip Hi). reflexivity.
    - intros n _. rewrite Y'. rewrite Y. now destruct (memb n (map (hd 0) P)).
  Qed.

  (** ** Auxiliary trails *)

  Definition two (nk : Z * Z) : list Z := [fst nk; snd nk].

  Lemma In_concat_two ps n :
    In n (concat (map two ps)) <-> In n (map fst ps) \/ In n (map snd ps).
  Proof.
    induction ps as [|[a b] ps IH]; cbn; [tauto|]. rewrite IH. tauto.
  Qed.

  Lemma NoDup_concat_two ps : NoDup (map fst ps) -> NoDup (map snd ps) ->
    (forall x, In x (map fst ps) -> ~ In x (map snd ps)) -> NoDup (concat (map two ps)).
  Proof.
    induction ps as [|[a b] ps IH]; cbn; intros N1 N2 D; [constructor|].
    inversion N1 as [|? ? H1 N1']; subst. inversion N2 as [|? ? H2 N2']; subst.
    assert (D' : forall x, In x (map fst ps) -> ~ In x (map snd ps)).
    { intros x Hx Hy. apply (D x); auto. }
    constructor; [|constructor]; auto.
    - intros [E|X]; [apply (D a); auto|]. apply In_concat_two in X as [X|X]; auto.
      apply (D a); auto.
    - intros X. apply In_concat_two in X as [X|X]; auto. apply (D b); auto.
  Qed.

  Lemma consecutive_two nk a b : consecutive (two nk) a b <-> nk = (a, b).
  Proof.
    destruct nk as [x y]. unfold consecutive, two. cbn. split.
    - intros (l&r&E). destruct l as [|c l]; cbn in E; [injection E; congruence|].
      destruct l as [|c' l]; cbn in E; [discriminate|]. injection E as _ _ E. destruct l; discriminate.
    - intros E. injection E as -> ->. exists [], []. reflexivity.
  Qed.

  Lemma ends_two nk s : ends_in (two nk) s <-> s = snd nk.
  Proof.
    destruct nk as [x y]. unfold ends_in, two. cbn. split.
    - intros (l&E). change [x; y] with ([x] ++ [y]) in E. now apply app_inj_tail in E as [_ ->].
    - intros ->. exists [x]. reflexivity.
  Qed.

  Lemma edges_has d e : wf d -> (In e (edges d) <-> exists a, edge_find d e = Some a).
  Proof. intros W. now rewrite In_edges, has_edge_find. Qed.

  Theorem build_aux_chains ord d P : wf d -> same_set_order ord -> chains d P -> nodes d <> [] ->
    let dir := normalize_vector (d_aux_vector d) in
    let len := d_aux_length d in
    exists d' (ps : list ekey), build_trails ord true d = (d', Ok tt) /\ wf d'
      /\ Permutation (map fst ps) (filter (fun n => negb (memb n (concat P))) (nodes d))
      /\ nodes d' = nodes d ++ map snd ps
      /\ NoDup (map snd ps)
      /\ (forall n k, In (n, k) ps -> ~ In k (nodes d) /\ In n (nodes d))
      /\ d_aux d' = map (fun nk => (fst nk, nk)) ps
      /\ d_trails d' = trails_of (chains_at (P ++ map two ps) (nodes d'))
      /\ chains d' (P ++ map two ps) /\ covers d' (P ++ map two ps)
      /\ (forall n a, dget (d_node d) n = Some a -> exists a', dget (d_node d') n = Some a'
            /\ na_xyz a' = na_xyz a /\ na_load a' = na_load a /\ na_reac a' = na_reac a)
      /\ (forall n k a, In (n, k) ps -> dget (d_node d) n = Some a ->
            exists a', dget (d_node d') k = Some a'
              /\ na_xyz a' = add_vectors (na_xyz a) (scale_vector dir len)
              /\ na_load a' = vzero /\ na_reac a' = vzero)
      /\ (forall e, edge_find d' e = if memb e ps then Some (aux_edge_attr len) else edge_find d e)
      /\ (forall n, tof d' n = if memb n (map (hd 0) (P ++ map two ps)) then Some TOrigin
                               else if memb n (map snd ps) then Some TSupport else tof d n)
      /\ (forall p i n, In p (P ++ map two ps) -> nth_error p i = Some n -> kof d' n = Some (Z.of_nat i)).
  Proof.
    intros W Ho C NE dir len.
    destruct (build_aux_cases ord d W Ho) as (ds&acc&d2&aux&Hi&Hl&Ha&W3&Hb).
    destruct (chain_inv_loop d P W C (nodes d) [] ([], []) d eq_refl (chain_inv_init d P))
      as (ds'&acc'&Hl'&[F Tr Vi Ty Ko Ki]).
    rewrite Hl in Hl'. injection Hl' as <- <-.
    assert (Wd : wf ds) by (eapply frame_wf; eauto).
    assert (Nd := frame_nodes _ _ F).
    set (U := unassigned d (snd acc)) in *.
    assert (HU : U = filter (fun n => negb (memb n (concat P))) (nodes d)).
    { unfold U, unassigned. apply filter_ext. intros n. f_equal. apply Bool.eq_true_iff_eq.
      rewrite !memb_In, Vi. now apply In_concat_chains. }
    assert (PU := Ho U).
    assert (NDU : NoDup (ord U)).
    { apply Permutation_NoDup with (l := U); [now apply Permutation_sym|].
      unfold U, unassigned. apply NoDup_filter. apply (wf_nodup _ W). }
    assert (IU : incl (ord U) (nodes ds)).
    { intros x Hx. apply (Permutation_in _ PU) in Hx. rewrite Nd. apply filter_In in Hx. tauto. }
    destruct (aux_loop_Ok dir (ord U) [] ds Wd IU) as
      (d2'&aux'&Ha'&W2&N2&A1&A2&E2&L2&V2&T2&X2&Y2&Hacc).
    unfold dir in Ha'. rewrite Ha in Ha'. injection Ha' as <- <-.
    set (ps := aux_pairs (d_max ds) (ord U)) in *.
    specialize (Hacc NDU (fun n _ => (fun h : In n [] => h))).
    set (d3 := with_aux d2 aux) in *.
    assert (Len : d_aux_length ds = len) by (destruct F as [E _]; now rewrite E).
    assert (Fst : map fst ps = ord U) by apply aux_pairs_fst.
    assert (Snd : NoDup (map snd ps)) by apply aux_pairs_snd_nodup.
    assert (Fresh : forall n k, In (n, k) ps -> ~ In k (nodes d) /\ In n (nodes d)).
    { intros n k I. destruct (A1 n k I) as (X&a&Ea&_). rewrite <- Nd. split; auto.
      eapply dget_In_keys; eauto. }
    assert (SndFresh : forall k, In k (map snd ps) -> ~ In k (nodes d)).
    { intros k I. apply in_map_iff in I as ([n k']&E&I). cbn in E. subst. now apply (Fresh n). }
    assert (FstIn : forall n, In n (map fst ps) <-> In n (nodes d) /\ ~ In n (concat P)).
    { intros n. rewrite Fst. split.
      - intros X. apply (Permutation_in _ PU) in X. rewrite HU in X. apply filter_In in X as [X Y].
        split; auto. now apply negb_true_iff, memb_nIn in Y.
      - intros [X Y]. apply (Permutation_in _ (Permutation_sym PU)). rewrite HU. apply filter_In.
        split; auto. now apply negb_true_iff, memb_nIn. }
    assert (Eds : forall e, edge_find ds e = edge_find d e).
    { intros e. unfold edge_find. now rewrite (frame_edge _ _ F). }
    assert (E3 : forall e, edge_find d3 e = if memb e ps then Some (aux_edge_attr len) else edge_find d e).
    { intros e. rewrite <- Len, <- Eds. apply E2. }
    assert (N3 : nodes d3 = nodes d ++ map snd ps) by (rewrite <- Nd; exact N2).
    (* types before the second search *)
    assert (Hmem : forall n, memb n (map (hd 0) (chains_at P (nodes d))) = memb n (map (hd 0) P)).
    { intros n. apply Bool.eq_true_iff_eq. rewrite !memb_In, !in_map_iff.
      split; intros (q&E&I); exists q; split; auto; now apply (In_chains_at_all d P q W C). }
    assert (Y3 : forall n, tof d3 n = if memb n (map snd ps) then Some TSupport
                            else if memb n (map (hd 0) P) then Some TOrigin else tof d n).
    { intros n. destruct (memb n (map snd ps)) eqn:M.
      - apply memb_In, in_map_iff in M as ([m k]&E&I). cbn in E. subst n.
        destruct (A1 m k I) as (X&a&Ea&Ek). unfold tof. cbn. now rewrite Ek.
      - apply memb_nIn in M. destruct (in_dec Z.eq_dec n (nodes d)) as [Hn|Hn].
        + transitivity (tof ds n); [|rewrite Ty, Hmem; auto].
          unfold tof. cbn. rewrite A2; [auto|now rewrite Nd].
        + assert (Z1 : dget (d_node d2) n = None).
          { apply dget_None. fold (nodes d2). rewrite N2, in_app_iff, Nd. tauto. }
          assert (Z2 : dget (d_node d) n = None) by (apply dget_None; exact Hn).
          unfold tof. cbn. rewrite Z1, Z2.
          destruct (memb n (map (hd 0) P)) eqn:M'; auto. exfalso.
          apply memb_In, in_map_iff in M' as (q&Eq&Iq). apply Hn.
          apply (ch_nodes _ _ C). apply in_concat. exists q. split; auto. rewrite <- Eq.
          apply hd_In. now apply (ch_length _ _ C). }
    assert (C3 : chains d3 (P ++ map two ps)).
    { constructor.
      - intros u v I1 I2. apply edges_has in I1 as [a1 I1]; auto. apply edges_has in I2 as [a2 I2]; auto.
        rewrite E3 in I1, I2.
        destruct (@memb ekey _ (u, v) ps) eqn:M1; destruct (@memb ekey _ (v, u) ps) eqn:M2.
        + apply memb_In in M1, M2. apply Fresh in M1, M2. tauto.
        + apply memb_In in M1. apply Fresh in M1. apply (wf_eends _ W) in I2. cbn in I2. tauto.
        + apply memb_In in M2. apply Fresh in M2. apply (wf_eends _ W) in I1. cbn in I1. tauto.
        + apply (ch_simple _ _ C u v); apply edges_has; eauto.
      - intros p. rewrite in_app_iff. intros [I|I]; [now apply (ch_length _ _ C)|].
        apply in_map_iff in I as (nk&<-&_). cbn. lia.
      - rewrite concat_app. apply NoDup_app_intro.
        + apply C.
        + apply NoDup_concat_two; auto; [now rewrite Fst|].
          intros x Hx Hy. apply FstIn in Hx. apply SndFresh in Hy. tauto.
        + intros x Hx Hy. apply In_concat_two in Hy as [Hy|Hy].
          * apply FstIn in Hy. tauto.
          * apply SndFresh in Hy. apply Hy. now apply (ch_nodes _ _ C).
      - intros n. rewrite concat_app, in_app_iff, In_concat_two, N3, in_app_iff.
        intros [I|[I|I]]; auto.
        + left. now apply (ch_nodes _ _ C).
        + apply FstIn in I. tauto.
      - intros a b.
        assert (J3 : forall x y, In (x, y) (trail_edges d3) <-> In (x, y) ps \/ In (x, y) (trail_edges d)).
        { intros x y. rewrite !In_trail_edges by auto. split.
          - intros (t&Et&Ht). rewrite E3 in Et. destruct (@memb ekey _ (x, y) ps) eqn:M; [left; now apply memb_In|].
            right. eauto.
          - intros [I|(t&Et&Ht)].
            + apply (proj2 (@memb_In ekey _ (x, y) ps)) in I. exists (aux_edge_attr len). rewrite E3, I. auto.
            + rewrite E3. destruct (@memb ekey _ (x, y) ps); eauto. }
        assert (J := ch_edges _ _ C a b). unfold trail_joined in *. rewrite !J3.
        split.
        + intros X.
          assert (X' : (In (a, b) (trail_edges d) \/ In (b, a) (trail_edges d)) \/ In (a, b) ps \/ In (b, a) ps)
            by tauto.
          destruct X' as [X'|[X'|X']].
          * apply J in X' as (p&Ip&Cp). exists p. split; auto. apply in_or_app. auto.
          * exists (two (a, b)). split; [apply in_or_app; right; now apply in_map|].
            left. now apply consecutive_two.
          * exists (two (b, a)). split; [apply in_or_app; right; now apply in_map|].
            right. now apply consecutive_two.
        + intros (p&Ip&Cp). apply in_app_iff in Ip as [Ip|Ip].
          * assert (X : In (a, b) (trail_edges d) \/ In (b, a) (trail_edges d)) by (apply J; eauto). tauto.
          * apply in_map_iff in Ip as (nk&<-&I). rewrite !consecutive_two in Cp.
            destruct Cp as [->| ->]; auto.
      - intros n. rewrite In_support_nodes by auto. unfold is_sup. rewrite Y3. split.
        + destruct (memb n (map snd ps)) eqn:M.
          * intros _. apply memb_In, in_map_iff in M as (nk&E&I). exists (two nk).
            split; [apply in_or_app; right; now apply in_map|]. now apply ends_two.
          * destruct (memb n (map (hd 0) P)); [discriminate|]. intros X.
            assert (X' : In n (support_nodes d)) by (apply In_support_nodes; auto).
            apply (ch_supports _ _ C) in X' as (p&Ip&Ep). exists p. split; auto. apply in_or_app. auto.
        + intros (p&Ip&Ep). apply in_app_iff in Ip as [Ip|Ip].
          * assert (X' : In n (support_nodes d)) by (apply (ch_supports _ _ C); eauto).
            apply In_support_nodes in X'; auto.
            destruct (memb n (map snd ps)); auto. now rewrite (head_not_end d P p n C Ip Ep).
          * apply in_map_iff in Ip as (nk&<-&I). apply ends_two in Ep. subst n.
            assert (M : memb (snd nk) (map snd ps) = true) by (apply memb_In; now apply in_map).
            now rewrite M. }
    assert (Cov3 : covers d3 (P ++ map two ps)).
    { intros n. rewrite N3, concat_app, !in_app_iff, In_concat_two. intros [I|I]; auto.
      destruct (in_dec Z.eq_dec n (concat P)) as [|X]; auto. right. left. apply FstIn. auto. }
    assert (NE3 : P ++ map two ps <> []).
    { destruct (nodes d) as [|n0 ns] eqn:En; [congruence|]. intros E. apply app_eq_nil in E as [-> E].
      apply map_eq_nil in E. assert (X : In n0 (map fst ps)) by (apply FstIn; cbn; auto).
      rewrite E in X. contradiction. }
    destruct (build_chains ord d3 _ W3 Ho C3 Cov3 NE3) as (d'&Hb'&F'&Y'&K').
    assert (W' : wf d') by (assert (X := wf_build_plain ord Ho d3 W3); now rewrite Hb' in X).
    assert (N' : nodes d' = nodes d3) by (apply (frame_nodes _ _ F')).
    assert (Ed' : d_edge d' = d_edge d3) by (apply (frame_edge _ _ F')).
    exists d', ps. rewrite Hb, Hb'. split; auto. split; auto.
    split; [rewrite Fst, <- HU; auto|]. split; [congruence|]. split; auto. split; auto.
    split; [destruct F' as [E _]; rewrite E; cbn; exact Hacc|].
    split; [rewrite (frame_trails _ _ F'), N'; reflexivity|].
    split; [apply (chains_preserved d3 d'); auto|].
    split; [unfold covers; now rewrite N'|].
    split.
    { intros n a Ea. destruct F as (_&_&A). destruct (A n a Ea) as (a1&Ea1&B1&B2&B3).
      destruct F' as (_&_&A'). destruct (A' n a1) as (a2&Ea2&B4&B5&B6).
      - cbn. rewrite A2; auto. rewrite Nd. eapply dget_In_keys; eauto.
      - exists a2. intuition congruence. }
    split.
    { intros n k a I Ea. destruct (A1 n k I) as (_&a1&Ea1&Ek).
      destruct F' as (_&_&A'). destruct (A' k _ Ek) as (a2&Ea2&B4&B5&B6).
      exists a2. split; auto. rewrite B4, B5, B6. cbn. rewrite Len.
      destruct F as (_&_&A). destruct (A n a Ea) as (a3&Ea3&B7&_). rewrite Ea1 in Ea3.
      injection Ea3 as <-. rewrite B7. auto. }
    split; [intros e; unfold edge_find at 1; rewrite Ed'; apply E3|].
    split; [|exact K'].
    intros n. rewrite Y', Y3. destruct (memb n (map (hd 0) (P ++ map two ps))) eqn:M; auto.
    destruct (memb n (map snd ps)); auto.
    destruct (memb n (map (hd 0) P)) eqn:M'; auto. exfalso. apply memb_nIn in M. apply M.
    rewrite map_app, in_app_iff. left. now apply memb_In.
  Qed.
End Facts.
