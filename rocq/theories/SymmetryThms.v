(** * The form of a symmetric structure *)

From Coq Require Import String List ZArith Bool Lia Permutation Reals Lra.
From Verif Require Import Py PyFacts Num Diagram DiagramFacts Topology SpecDiagram SpecTopology
  TopologyFacts BuildFacts ChainFacts ChainFacts2 History HistoryFacts DiagramThms TopologyThms SequenceThms
  Equilibrium SpecEquilibrium EqFacts FormFacts ReadyThms RVec EqThms SpecStatics TypedFacts StaticsFacts SpecInfluence
  SpecTransform TransformThms InfluenceThms SpecSymmetry.
Import ListNotations.
Open Scope Z_scope.

Section Symmetry.
  Context (pi : Z -> Z) (Q : rvec -> rvec) (v : rvec) (HQ : isometry Q).
  Implicit Types (d : diagram R).
  Notation P := (fun p => Q p +v v).
  Notation mv := (moved 1 1 Q v).

  Lemma mv_point p : moved_point 1 Q v p = P p.
  Proof. unfold moved_point. cbn beta. vring. Qed.
  Lemma mv_force q : moved_force 1 Q q = Q q.
  Proof. unfold moved_force. vring. Qed.

  Lemma mv_coordinates d n : node_coordinates (mv d) n = map_result P (node_coordinates d n).
  Proof. rewrite (im_coordinates _ _ _ _ _ _ _ (c42_image 1 1 Q v d)). destruct (node_coordinates d n); cbn; auto. f_equal. vring. Qed.
  Lemma mv_load d n : node_load (mv d) n = map_result Q (node_load d n).
  Proof. rewrite (im_load _ _ _ _ _ _ _ (c42_image 1 1 Q v d)). destruct (node_load d n); cbn; auto. f_equal. vring. Qed.
  Lemma mv_reaction d n : reaction_force (mv d) n = map_result Q (reaction_force d n).
  Proof. rewrite (im_reaction _ _ _ _ _ _ _ (c42_image 1 1 Q v d)). destruct (reaction_force d n); cbn; auto. f_equal. vring. Qed.
  Lemma mv_length d e : edge_length_2 (mv d) e = edge_length_2 d e.
  Proof. rewrite (im_length _ _ _ _ _ _ _ (c42_image 1 1 Q v d)). destruct (edge_length_2 d e); cbn; auto. f_equal. ring. Qed.
  Lemma mv_edge_force d e : edge_force (mv d) e = edge_force d e.
  Proof. rewrite (im_force _ _ _ _ _ _ _ (c42_image 1 1 Q v d)). destruct (edge_force d e); cbn; auto. f_equal. ring. Qed.
  Lemma mv_plane d e : edge_plane (mv d) e = map_result (option_map (fun ow => (P (fst ow), Q (snd ow)))) (edge_plane d e).
  Proof.
    rewrite (im_plane _ _ _ _ _ _ _ (c42_image 1 1 Q v d)). destruct (edge_plane d e) as [[[o w]|]|]; cbn; auto.
    do 3 f_equal. vring.
  Qed.
  Lemma mv_nodes d : nodes (mv d) = nodes d.
  Proof. apply tr_nodes. Qed.
  Lemma mv_edges d : edges (mv d) = edges d.
  Proof. apply tr_edges. Qed.
  Lemma mv_stored d : stored (mv d) = stored d.
  Proof. reflexivity. Qed.
  Lemma mv_has d e : has_edge (mv d) e = has_edge d e.
  Proof. apply tr_has_edge. Qed.

  Lemma wf_moved d : wf d -> wf (mv d).
  Proof.
    intros W. constructor; rewrite ?mv_nodes; cbn [d_edge d_adj d_max d_gkey d_trails moved].
    - apply W.
    - rewrite dkeys_values. apply W.
    - apply W.
    - intros u nb E. rewrite dget_values in E. destruct (dget (d_edge d) u) as [b|] eqn:Eb; [|discriminate].
      injection E as <-. rewrite dkeys_values. eapply wf_enodup; eauto.
    - intros e a E. rewrite tr_edge_find in E. destruct (edge_find d e) as [b|] eqn:Eb; [|discriminate].
      eapply wf_eends; eauto.
    - apply W.
    - intros u l w E. rewrite !mv_has. now apply W.
    - apply W.
    - intros g n. apply (wf_gkey _ W).
    - apply W.
    - intros e a E. rewrite tr_edge_find in E. destruct (edge_find d e) as [b|] eqn:Eb; [|discriminate].
      injection E as <-. cbn. eapply wf_etype; eauto.
    - apply W.
    - apply W.
  Qed.

  Lemma mv_trail_edges d e : wf d -> In e (trail_edges (mv d)) <-> In e (trail_edges d).
  Proof.
    intros W. rewrite !In_trail_edges by (auto using wf_moved). rewrite tr_edge_find. split.
    - intros (a&E&T). destruct (edge_find d e) as [b|]; [|discriminate]. injection E as <-. eauto.
    - intros (a&->&T). eexists. split; [reflexivity|]. exact T.
  Qed.

  Lemma mv_deviation_edges d e : wf d -> In e (deviation_edges (mv d)) <-> In e (deviation_edges d).
  Proof.
    intros W. rewrite !In_deviation_edges by (auto using wf_moved). rewrite tr_edge_find. split.
    - intros (a&E&T). destruct (edge_find d e) as [b|]; [|discriminate]. injection E as <-. eauto.
    - intros (a&->&T). eexists. split; [reflexivity|]. exact T.
  Qed.

  Lemma mv_supports d : support_nodes (mv d) = support_nodes d.
  Proof.
    unfold support_nodes. cbn [d_node moved]. induction (d_node d) as [|[n a] m IH]; auto.
    unfold map_values in *. cbn. destruct (opt_is ntype_eqb (na_type a) TSupport); cbn; now rewrite IH.
  Qed.

  Lemma ready_moved d : wf d -> ready d -> ready (mv d).
  Proof.
    intros W [R1 R2 [C1 C2 C3 C4 C5 C6] R4 R5 R6]. constructor; auto.
    - constructor; rewrite ?mv_stored; auto.
      + intros a b. rewrite !mv_edges. apply C1.
      + rewrite mv_nodes. auto.
      + intros a b. unfold trail_joined. rewrite !mv_trail_edges by auto. apply C5.
      + intros n. rewrite mv_supports. apply C6.
    - intros n. rewrite mv_nodes. apply R4.
    - intros tr I. destruct (R5 tr I) as (s&S&F). exists s. split; auto. intros i n E. rewrite tr_sequence. auto.
    - intros n. rewrite mv_nodes, mv_reaction. intros I. rewrite R6 by auto. cbn. f_equal. now apply Q0.
  Qed.

  Lemma direct_moved d : wf d -> direct_only d -> direct_only (mv d).
  Proof. intros W D a b I. rewrite !tr_sequence. apply D. now apply mv_deviation_edges. Qed.

  (** *** Finite sets *)

  (** A choice of image for every element of a finite list. *)
  Lemma choices {A B} (F : A -> B -> Prop) (l : list A) : (forall a, In a l -> exists b, F a b) ->
    exists l', Forall2 F l l'.
  Proof.
    induction l as [|a l IH]; intros X; [exists []; constructor|].
    destruct (X a (or_introl eq_refl)) as [b Fb]. destruct IH as [l' Fl]; [intros; apply X; now right|].
    exists (b :: l'). now constructor.
  Qed.

  Lemma chosen {A B} (F : A -> B -> Prop) l l' b : Forall2 F l l' -> In b l' -> exists a, In a l /\ F a b.
  Proof.
    intros Fl. induction Fl as [|x y k k' Fxy Fk IH]; intros I; [destruct I|].
    destruct I as [->|I]; [exists x; split; [now left|auto]|].
    destruct (IH I) as (a&Ia&Fa). exists a. split; [now right|auto].
  Qed.

  Lemma chosen_nodup {A B} (F : A -> B -> Prop) l l' : Forall2 F l l' ->
    (forall a b c, In a l -> In b l -> F a c -> F b c -> a = b) -> NoDup l -> NoDup l'.
  Proof.
    intros Fl. induction Fl as [|x y k k' Fxy Fk IH]; intros I N; constructor.
    - intros Iy. destruct (chosen F k k' y Fk Iy) as (a&Ia&Fa). inversion N as [|? ? Nx _]; subst. apply Nx.
      replace x with a; auto. eapply I; eauto; [now right|now left].
    - inversion N; subst. apply IH; auto. intros a b c Ia Ib. apply I; now right.
  Qed.

  (** A relation that gives every element of a finite set an image in it, different elements
      different images, reaches every element. *)
  Lemma reaches {A} (F : A -> A -> Prop) (l : list A) : NoDup l ->
    (forall a, In a l -> exists b, In b l /\ F a b) ->
    (forall a b c, In a l -> In b l -> F a c -> F b c -> a = b) ->
    forall b, In b l -> exists a, In a l /\ F a b.
  Proof.
    intros N X I b Ib. destruct (choices (fun a b => In b l /\ F a b) l X) as [l' Fl].
    assert (N' : NoDup l').
    { eapply chosen_nodup; eauto. cbn. intros x y z Ix Iy [_ Fx] [_ Fy]. eapply I; eauto. }
    assert (Inc : incl l' l).
    { intros y Iy. destruct (chosen _ _ _ _ Fl Iy) as (a&_&J&_). exact J. }
    assert (Len : List.length l = List.length l') by (clear -Fl; induction Fl; cbn; auto).
    assert (Ib' : In b l') by (assert (J : incl l l') by (apply NoDup_length_incl; auto; rewrite Len; auto); auto).
    destruct (chosen _ _ _ _ Fl Ib') as (a&Ia&_&Fa). eauto.
  Qed.

  (** *** From symmetric to renamed and back *)

  Lemma sy_get d e e' : wf d -> In e (edges d) -> In e' (edges d) ->
    is_trail_edge d e' = is_trail_edge d e -> is_deviation_edge d e' = is_deviation_edge d e ->
    edge_length_2 d e' = edge_length_2 d e -> edge_force d e' = edge_force d e ->
    edge_plane d e' = map_result (option_map (fun ow => (P (fst ow), Q (snd ow)))) (edge_plane d e) ->
    edge_get d e' = edge_get (mv d) e.
  Proof.
    intros W I I' T Dv L F Pl. apply In_edges, has_edge_find in I as [a Ea]; auto.
    apply In_edges, has_edge_find in I' as [a' Ea']; auto. rewrite tr_edge_get.
    assert (Ty := wf_etype d W _ _ Ea). assert (Ty' := wf_etype d W _ _ Ea').
    unfold is_trail_edge, is_deviation_edge, edge_length_2, edge_force, edge_plane, edge_get in *.
    rewrite Ea, Ea' in *. cbn in *. f_equal. apply Ok_eq in T, Dv, L, F, Pl.
    destruct a as [t l f p], a' as [t' l' f' p']. unfold moved_edge. cbn in *. subst.
    replace (1 * l)%R with l by ring. replace (1 * f)%R with f by ring. f_equal.
    - destruct t as [[]|], t' as [[]|]; cbn in *; congruence.
    - destruct p as [[o w]|]; cbn; auto. now rewrite mv_point.
  Qed.

  Lemma symmetric_renamed d : wf d -> ready d -> symmetric pi P Q d -> renamed pi (mv d) d.
  Proof.
    intros W Rd S.
    assert (Inj : forall a b, In a (nodes d) -> In b (nodes d) -> pi a = pi b -> a = b).
    { intros a b Ia Ib E. assert (N : NoDup (map pi (nodes d))).
      { eapply Permutation_NoDup; [apply (sy_nodes _ _ _ _ S)|]. apply W. }
      clear -Ia Ib E N. induction (nodes d) as [|x l IH]; [destruct Ia|]. cbn in N. inversion N as [|? ? Nx N1]; subst.
      destruct Ia as [->|Ia], Ib as [->|Ib]; auto; exfalso; apply Nx.
      - rewrite E. now apply in_map.
      - rewrite <- E. now apply in_map. }
    assert (Ends : forall e, In e (edges d) -> In (fst e) (nodes d) /\ In (snd e) (nodes d)).
    { intros e I. apply In_edges, has_edge_find in I as [a Ea]; auto. exact (wf_eends _ W _ _ Ea). }
    assert (There : forall e, In e (edges d) -> exists e', In e' (edges d)
      /\ ((e' = (pi (fst e), pi (snd e)) \/ e' = (pi (snd e), pi (fst e))) /\ edge_get d e' = edge_get (mv d) e)).
    { intros [a b] I. destruct (sy_edge _ _ _ _ S a b I) as (e'&I'&O&X1&X2&X3&X4&X5). exists e'. split; auto. split; auto.
      now apply sy_get. }
    constructor.
    - rewrite mv_nodes. apply S.
    - rewrite mv_stored. apply S.
    - intros a b I. rewrite mv_edges in I. exact (There (a, b) I).
    - intros e' I'.
      assert (B := reaches (fun e e' => (e' = (pi (fst e), pi (snd e)) \/ e' = (pi (snd e), pi (fst e)))
        /\ edge_get d e' = edge_get (mv d) e) (edges d)).
      destruct B with (b := e') as ([a b]&I&O&G); auto.
      + now apply NoDup_edges.
      + intros x y z Ix Iy [Ox _] [Oy _]. destruct (Ends x Ix) as [X1 X2], (Ends y Iy) as [Y1 Y2].
        destruct x as [x1 x2], y as [y1 y2]. cbn [fst snd] in *. assert (Sg := ch_simple _ _ (rd_chains _ Rd)).
        destruct Ox as [->| ->], Oy as [E|E]; injection E as E1 E2; apply Inj in E1; apply Inj in E2; auto; subst; auto;
          exfalso; eapply Sg; eauto.
      + exists a, b. rewrite mv_edges. auto.
    - intros n I. rewrite mv_nodes in I. rewrite mv_coordinates, mv_load, mv_reaction, tr_support, tr_sequence.
      repeat split; now apply S.
  Qed.

  Lemma renamed_symmetric d : renamed pi (mv d) d -> symmetric pi P Q d.
  Proof.
    intros [R1 R2 R3 R4 R5].
    assert (R5' : forall n, In n (nodes d) -> node_coordinates d (pi n) = map_result P (node_coordinates d n)
      /\ node_load d (pi n) = map_result Q (node_load d n) /\ reaction_force d (pi n) = map_result Q (reaction_force d n)
      /\ is_node_support d (pi n) = is_node_support d n /\ node_sequence d (pi n) = node_sequence d n).
    { intros n I. rewrite <- mv_nodes in I. specialize (R5 n I).
      rewrite mv_coordinates, mv_load, mv_reaction, tr_support, tr_sequence in R5. exact R5. }
    constructor; try (intros n I; apply (R5' n I)).
    - now rewrite mv_nodes in R1.
    - exact R2.
    - intros a b I. rewrite <- mv_edges in I. destruct (R3 a b I) as (e&Ie&O&G). exists e. split; auto. split; auto.
      rewrite <- (mv_length d (a, b)), <- (mv_edge_force d (a, b)), <- mv_plane.
      unfold is_trail_edge, is_deviation_edge, edge_length_2, edge_force, edge_plane. rewrite !G, !tr_edge_get.
      repeat split; destruct (edge_get d (a, b)); reflexivity.
  Qed.

  Lemma symmetric_form d tmax eta verbose form : reachable d -> ready d -> direct_only d -> symmetric pi P Q d ->
    static_equilibrium d None tmax eta verbose = Ok form -> symmetric pi P Q form.
  Proof.
    intros Hr Rd Di S E. assert (W := reachable_wf d Hr). apply renamed_symmetric.
    assert (E' : static_equilibrium (mv d) None tmax (1 * eta)%R verbose = Ok (mv form)).
    { rewrite c42_moved, E by (auto; lra). reflexivity. }
    exact (renamed_wf pi (mv d) d _ _ _ _ _ _ (mv form) form (wf_moved d W) (ready_moved d W Rd) W Rd
      (direct_moved d W Di) (symmetric_renamed d W Rd S) E' E).
  Qed.
End Symmetry.

(** C88: if a rotation or mirroring [Q] followed by the translation by [v] takes the structure
    to itself, it takes the form to itself, if there are no indirect deviation edges. *)
Lemma c88_symmetric_partial : forall pi Q v (d : diagram R) tmax eta verbose form, isometry Q ->
  reachable d -> ready d -> direct_only d -> symmetric pi (fun p => Q p +v v) Q d ->
  static_equilibrium d None tmax eta verbose = Ok form ->
  symmetric pi (fun p => Q p +v v) Q form.
Proof. intros pi Q v d tmax eta verbose form HQ. apply (symmetric_form pi Q v HQ). Qed.

(** Nodes on an axis or plane of symmetry stay on it, and so do their reactions. *)
Lemma c88_axis_partial : forall pi Q v (d : diagram R) tmax eta verbose form n, isometry Q ->
  reachable d -> ready d -> direct_only d -> symmetric pi (fun p => Q p +v v) Q d ->
  static_equilibrium d None tmax eta verbose = Ok form -> In n (nodes d) -> pi n = n ->
  exists p r, node_coordinates form n = Ok p /\ Q p +v v = p /\ reaction_force form n = Ok r /\ Q r = r.
Proof.
  intros pi Q v d tmax eta verbose form n HQ Hr Rd Di S E I Fx.
  assert (Sf := c88_symmetric_partial _ _ _ _ _ _ _ _ HQ Hr Rd Di S E).
  destruct (c37_frame d None tmax eta verbose form Hr E) as (N&_). rewrite <- N in I.
  assert (C := sy_coordinates _ _ _ _ Sf n I). assert (F := sy_reaction _ _ _ _ Sf n I). rewrite Fx in C, F.
  unfold node_coordinates, reaction_force, node_get, dgetr in *. apply In_keys_dget in I as [a Ea].
  rewrite Ea in *. cbn in *. exists (na_xyz a), (na_reac a). apply Ok_eq in C, F. auto.
Qed.
