(** * Properties of the Grasshopper components: what was drawn, parts and drawings *)

From Coq Require Import String List ZArith Bool Lia Permutation.
From Verif Require Import Py PyFacts Num Diagram DiagramFacts Topology TopologyFacts History HistoryFacts SpecDiagram SpecTopology DiagramThms WeldFacts
  SpecEquilibrium ReadyThms ChainFacts TopologyThms SequenceThms BuildFacts TypedFacts QueryThms FormFacts Components SpecComponents ComponentThms.
Import ListNotations.
Open Scope Z_scope.

Section Parts.
  Context {T : Type} `{NumOps T}.
  Implicit Types (d : diagram T).

  (** ** C77 — what was drawn is found *)

  (* a topology that is returned had its loads and supports on the lines *)
  Lemma topology_meets ord tes des ls ss aux d : gh_topology ord tes des ls ss aux = Ok d ->
    (forall p q, In (p, q) (connected ls) -> meets (connected tes ++ connected des) p)
    /\ (forall p, In p (connected ss) -> meets (connected tes ++ connected des) p).
  Proof.
    intros E.
    assert (M : forall p, In p (map fst (connected ls) ++ connected ss) -> meets (connected tes ++ connected des) p).
    { intros p I. destruct (node_key (assemble 3 (connected tes ++ connected des)) (RXyz p)) eqn:K.
      - apply meets_key. rewrite K. discriminate.
      - assert (X : ~ meets (connected tes ++ connected des) p) by (rewrite meets_key, K; tauto).
        rewrite (c77_rejects ord tes des ls ss aux p I X) in E. discriminate E. }
    split; intros; apply M, in_or_app; [left|right]; auto. apply in_map_iff. exists (p, q). auto.
  Qed.

  (* the diagram before its trails are traced *)
  Lemma topology_drawn ord tes des ls ss aux d : gh_topology ord tes des ls ss aux = Ok d -> aux <> Some true ->
    exists d0, reachable d0 /\ drawn_from (connected tes ++ connected des) (connected ls) (connected ss) d0
      /\ (d = d0 \/ build_trails ord false d0 = (d, Ok tt)).
  Proof.
    intros E Na. destruct (topology_meets _ _ _ _ _ _ _ E) as [Ml Ms].
    destruct (c77_assembly ord tes des ls ss aux Ml Ms) as (d0&R&D&B&N). exists d0. split; [exact R|]. split; [exact D|].
    destruct (nonempty tes && nonempty ss || nonempty des && match aux with Some b => b | None => false end) eqn:X.
    - apply traced in X. destruct (B X) as [_ Bf]. rewrite (Bf Na) in E. unfold outcome in E.
      destruct (build_trails ord false d0) as [d' [[]|e]]; [|discriminate E]. right. congruence.
    - left. assert (Y : ~ ((tes <> [] /\ ss <> []) \/ (des <> [] /\ aux = Some true))) by (rewrite <- traced, X; discriminate).
      rewrite (N Y) in E. congruence.
  Qed.

  (* the last line between two points *)
  Lemma last_line (ls : list (line (T:=T))) a b el : In (a, b, el) ls ->
    exists pre a' b' el' post, ls = pre ++ (a', b', el') :: post /\ rounded 3 a' = rounded 3 a /\ rounded 3 b' = rounded 3 b
      /\ forall x y z, In (x, y, z) post -> ~ (rounded 3 x = rounded 3 a' /\ rounded 3 y = rounded 3 b').
  Proof.
    induction ls as [|[[x y] z] ls IH] using rev_ind; [intros []|]. intros I.
    destruct (rounded_dec (rounded 3 x) (rounded 3 a)) as [Ex|Nx]; [destruct (rounded_dec (rounded 3 y) (rounded 3 b)) as [Ey|Ny]|].
    - exists ls, x, y, z, []. split; [reflexivity|]. split; [exact Ex|]. split; [exact Ey|]. intros ? ? ? [].
    - apply in_app_or in I as [I|[I|[]]]; [|congruence].
      destruct (IH I) as (pre&a'&b'&el'&post&E&Ra&Rb&Nl). exists pre, a', b', el', (post ++ [(x, y, z)]).
      rewrite E, <- app_assoc. split; [reflexivity|]. split; [exact Ra|]. split; [exact Rb|].
      intros x' y' z' J. apply in_app_or in J as [J|[J|[]]]; [eauto|]. injection J as <- <- <-. rewrite Rb. tauto.
    - apply in_app_or in I as [I|[I|[]]]; [|congruence].
      destruct (IH I) as (pre&a'&b'&el'&post&E&Ra&Rb&Nl). exists pre, a', b', el', (post ++ [(x, y, z)]).
      rewrite E, <- app_assoc. split; [reflexivity|]. split; [exact Ra|]. split; [exact Rb|].
      intros x' y' z' J. apply in_app_or in J as [J|[J|[]]]; [eauto|]. injection J as <- <- <-. rewrite Ra. tauto.
  Qed.

  Lemma line_data (ls pre post : list (line (T:=T))) a b el : ls = pre ++ (a, b, el) :: post ->
    (forall a' b' el', In (a', b', el') post -> ~ (rounded 3 a' = rounded 3 a /\ rounded 3 b' = rounded 3 b)) ->
    exists u v, node_key (assemble 3 ls) (RXyz a) = Some u /\ node_key (assemble 3 ls) (RXyz b) = Some v
      /\ In (u, v) (edges (assemble 3 ls)) /\ carries (assemble 3 ls) (u, v) el.
  Proof. intros -> N. exact (c06_data 3 pre post a b el N). Qed.

  Lemma connected_In {A} (l : list (option A)) a : In a (connected l) <-> In (Some a) l.
  Proof.
    unfold connected. rewrite in_flat_map. split.
    - intros ([x|]&I&J); [destruct J as [<-|[]]; exact I|destruct J].
    - intros I. exists (Some a). split; [exact I|now left].
  Qed.

  (* the line is found and has the data of its element *)
  Lemma line_found ord tes des ls ss aux d a b el : same_set_order ord ->
    gh_topology ord tes des ls ss aux = Ok d -> aux <> Some true ->
    In (Some (a, b, el)) (tes ++ des) ->
    (forall a' b' el', In (Some (a', b', el')) (tes ++ des) -> rounded 3 a' = rounded 3 a -> rounded 3 b' = rounded 3 b -> el' = el) ->
    exists e, gh_search_edge d a b = Ok e /\ In e (edges d) /\ carries d e el.
  Proof.
    intros Ho E Na I U. destruct (topology_drawn _ _ _ _ _ _ _ E Na) as (d0&R&D&A).
    destruct (assembled_lookup ord _ _ _ d0 d R D Ho A) as (_&_&Lk).
    set (lines := connected tes ++ connected des) in *.
    assert (Sm : forall x, In x lines <-> In (Some x) (tes ++ des)).
    { intros x. unfold lines. split; intros J; apply in_app_or in J as [J|J]; apply in_or_app;
        [left|right|left|right]; now apply connected_In. }
    destruct (last_line lines a b el (proj2 (Sm _) I)) as (pre&a'&b'&el'&post&El&Ra&Rb&Nl).
    assert (Ee : el' = el). { apply (U a' b' el'); [|exact Ra|exact Rb]. apply Sm. rewrite El. apply in_or_app. right. now left. }
    destruct (line_data lines pre post a' b' el' El Nl) as (u&v&Ku&Kv&Iuv&Ca). subst el'.
    assert (Su : node_key d (RXyz a) = Some u) by (rewrite Lk; apply (key_rounded lines a' a u Ku); congruence).
    assert (Sv : node_key d (RXyz b) = Some v) by (rewrite Lk; apply (key_rounded lines b' b v Kv); congruence).
    assert (Eg : edges d = edges (assemble 3 lines) /\ forall e, edge_get d e = edge_get (assemble 3 lines) e).
    { destruct (df_edges _ _ _ _ D) as (Ee&Eg&_). destruct A as [->|Eb]; [auto|].
      assert (F := c19_build_frame d0 ord R Ho). rewrite Eb in F. cbn [fst] in F. destruct F as [(_&x&_&_&_&_&y&_) _].
      split; [congruence|]. intros e. now rewrite y. }
    destruct Eg as [Ed Eg]. exists (u, v). split; [|split].
    - unfold gh_search_edge, dgetr. cbn [node_key] in Su, Sv. rewrite Su, Sv. reflexivity.
    - rewrite Ed. exact Iuv.
    - unfold carries, is_trail_edge, is_deviation_edge, edge_length_2, edge_plane, edge_force in *. rewrite !Eg. exact Ca.
  Qed.

  (** A trail edge that was drawn from [a] to [b] is found there, with the length and the plane it was given. *)
  Lemma c77_trail_edge : forall ord tes des ls ss aux d a b l plane, same_set_order ord ->
    gh_topology ord tes des ls ss aux = Ok d -> aux <> Some true ->
    In (gh_trail_edge (Some (a, b)) (Some l) plane) tes ->
    (forall a' b' el, In (Some (a', b', el)) (tes ++ des) -> rounded 3 a' = rounded 3 a -> rounded 3 b' = rounded 3 b -> el = TrailEdge l plane) ->
    exists e, gh_search_edge d a b = Ok e /\ In e (trail_edges d) /\ edge_length_2 d e = Ok l /\ edge_plane d e = Ok plane.
  Proof.
    intros ord tes des ls ss aux d a b l plane Ho E Na I U.
    destruct (line_found ord tes des ls ss aux d a b (TrailEdge l plane) Ho E Na) as (e&Se&Ie&Tr&_&Le&Pl).
    - apply in_or_app. left. exact I.
    - exact U.
    - exists e. split; [exact Se|]. split; [|auto].
      destruct (topology_drawn _ _ _ _ _ _ _ E Na) as (d0&R&_&A).
      assert (Rd : reachable d).
      { destruct A as [->|Eb]; [exact R|]. assert (X := reachable_build d0 ord false R Ho). now rewrite Eb in X. }
      destruct (c67_edges d (or_introl Rd)) as (_&_&Ty&_). destruct (Ty e Ie) as [(_&_&X)|(X&_)]; [exact X|congruence].
  Qed.

  (** A deviation edge that was drawn from [a] to [b] is found there, with the force it was given. *)
  Lemma c77_deviation_edge : forall ord tes des ls ss aux d a b f, same_set_order ord ->
    gh_topology ord tes des ls ss aux = Ok d -> aux <> Some true ->
    In (gh_deviation_edge (Some (a, b)) (Some f)) des ->
    (forall a' b' el, In (Some (a', b', el)) (tes ++ des) -> rounded 3 a' = rounded 3 a -> rounded 3 b' = rounded 3 b -> el = DeviationEdge f) ->
    exists e, gh_search_edge d a b = Ok e /\ In e (deviation_edges d) /\ edge_force d e = Ok f.
  Proof.
    intros ord tes des ls ss aux d a b f Ho E Na I U.
    destruct (line_found ord tes des ls ss aux d a b (DeviationEdge f) Ho E Na) as (e&Se&Ie&Tr&De&Fo).
    - apply in_or_app. right. exact I.
    - exact U.
    - exists e. split; [exact Se|]. split; [|auto].
      destruct (topology_drawn _ _ _ _ _ _ _ E Na) as (d0&R&_&A).
      assert (Rd : reachable d).
      { destruct A as [->|Eb]; [exact R|]. assert (X := reachable_build d0 ord false R Ho). now rewrite Eb in X. }
      destruct (c67_edges d (or_introl Rd)) as (_&_&Ty&_). destruct (Ty e Ie) as [(X&_)|(_&_&X)]; [congruence|exact X].
  Qed.

  (** A load that was drawn at [p] acts on the node there. *)
  Lemma c77_load : forall ord tes des ls ss aux d p q, same_set_order ord ->
    gh_topology ord tes des ls ss aux = Ok d -> aux <> Some true ->
    In (gh_load (Some p) (Some q)) ls ->
    (forall p' q', In (Some (p', q')) ls -> rounded 3 p' = rounded 3 p -> q' = q) ->
    exists n, gh_search_node d p = Ok n /\ node_load d n = Ok q.
  Proof.
    intros ord tes des ls ss aux d p q Ho E Na I U. destruct (topology_drawn _ _ _ _ _ _ _ E Na) as (d0&R&D&A).
    destruct (c79_node ord _ _ _ d0 d p R D Ho A) as [K Kn].
    destruct (topology_meets _ _ _ _ _ _ _ E) as [Ml _].
    assert (M := Ml p q (proj2 (connected_In ls (p, q)) I)).
    destruct (gh_search_node d p) as [n|e] eqn:Sn.
    2: { unfold gh_search_node, dgetr in Sn. destruct (dget _ _); [discriminate Sn|]. injection Sn as <-. destruct (proj1 Kn eq_refl M). }
    exists n. split; [reflexivity|]. destruct (proj1 (K n) eq_refl) as (In0&q0&Eq&Rq).
    destruct (assembled_lookup ord _ _ _ d0 d R D Ho A) as (Nd&Co&_).
    assert (Nl : node_load d n = node_load d0 n).
    { destruct A as [->|Eb]; [reflexivity|]. assert (F := c19_build_frame d0 ord R Ho). rewrite Eb in F. cbn [fst] in F.
      destruct F as [(_&_&_&x&_) _]. apply x. }
    rewrite Nd in In0. destruct (df_each _ _ _ _ D n In0) as (p0&q1&t&En&_&_&La&_).
    rewrite Nl. unfold node_load. rewrite En. cbn. f_equal.
    rewrite Co in Eq. unfold node_coordinates in Eq. rewrite En in Eq. cbn in Eq. injection Eq as ->.
    destruct La as [(pre&p'&post&El&Rp&_)|(->&Nn)].
    - apply (U p'); [|congruence]. apply connected_In. rewrite El. apply in_or_app. right. now left.
    - exfalso. apply (Nn p q); [now apply connected_In|congruence].
  Qed.

  (** A support that was drawn at [p] supports the node there, if the trail edges form chains that end in their
      supports and cover all nodes, or if no trails are traced. *)
  Lemma c77_support : forall ord tes des ls ss aux d p, same_set_order ord ->
    gh_topology ord tes des ls ss aux = Ok d -> aux <> Some true -> In (gh_support (Some p)) ss ->
    tes = [] \/ (exists d0 P, reachable d0 /\ drawn_from (connected tes ++ connected des) (connected ls) (connected ss) d0
                   /\ build_trails ord false d0 = (d, Ok tt) /\ chains d0 P /\ covers d0 P /\ P <> []) ->
    exists n, gh_search_node d p = Ok n /\ is_node_support d n = Ok true.
  Proof.
    intros ord tes des ls ss aux d p Ho E Na I X.
    assert (Y : exists d0, reachable d0 /\ drawn_from (connected tes ++ connected des) (connected ls) (connected ss) d0
      /\ (d = d0 \/ build_trails ord false d0 = (d, Ok tt)) /\ forall n, is_node_support d n = Ok true <-> is_node_support d0 n = Ok true).
    { destruct X as [->|(d0&P&R&D&Eb&C&Cv&NE)].
      - destruct (topology_meets _ _ _ _ _ _ _ E) as [Ml Ms].
        destruct (c77_assembly ord [] des ls ss aux Ml Ms) as (d0&R&D&_&N). exists d0. split; [exact R|]. split; [exact D|].
        assert (Eg : gh_topology ord [] des ls ss aux = Ok d0) by (apply N; intros [[C _]|[_ C]]; congruence).
        assert (Z := eq_trans (eq_sym E) Eg). injection Z as ->. split; [now left|tauto].
      - exists d0. split; [exact R|]. split; [exact D|]. split; [now right|].
        exact (c59_supports_kept_partial d0 ord P d R Ho C Cv NE Eb). }
    destruct Y as (d0&R&D&A&Sp).
    destruct (c79_node ord _ _ _ d0 d p R D Ho A) as [K Kn].
    destruct (topology_meets _ _ _ _ _ _ _ E) as [_ Ms].
    assert (M := Ms p (proj2 (connected_In ss p) I)).
    destruct (gh_search_node d p) as [n|e] eqn:Sn.
    2: { unfold gh_search_node, dgetr in Sn. destruct (dget _ _); [discriminate Sn|]. injection Sn as <-. destruct (proj1 Kn eq_refl M). }
    exists n. split; [reflexivity|]. destruct (proj1 (K n) eq_refl) as (In0&q0&Eq&Rq).
    destruct (assembled_lookup ord _ _ _ d0 d R D Ho A) as (Nd&Co&_).
    rewrite Nd in In0. destruct (df_each _ _ _ _ D n In0) as (p0&q1&t&En&_&_&_&St&_).
    apply Sp. unfold is_node_support. rewrite En. cbn.
    rewrite Co in Eq. unfold node_coordinates in Eq. rewrite En in Eq. cbn in Eq. injection Eq as ->.
    rewrite St; [reflexivity|]. exists p. split; [now apply connected_In|congruence].
  Qed.

  (** ** C83 — disassembling *)

  Lemma zrange_nth n k j : nth_error (zrange n) k = Some j -> j = Z.of_nat k.
  Proof.
    unfold zrange. rewrite nth_error_map. destruct (nth_error (seq 0 (Z.to_nat n)) k) as [i|] eqn:E; [|discriminate].
    intros X. injection X as <-. apply nth_error_nth with (d:=0%nat) in E as F.
    assert (L : (k < List.length (seq 0 (Z.to_nat n)))%nat) by (apply nth_error_Some; congruence).
    rewrite seq_length in L. rewrite seq_nth in F by exact L. subst. reflexivity.
  Qed.

  (* the stored trails are a partition of the nodes *)
  Lemma ready_partition d : reachable d -> ready d -> Permutation (concat (dvalues (trails d))) (nodes d).
  Proof.
    intros R Rd. assert (C := rd_chains _ Rd). assert (Cv := rd_covers _ Rd).
    change (stored d) with (dvalues (trails d)) in *.
    apply NoDup_Permutation; [apply (ch_disjoint _ _ C)|apply (wf_nodup _ (reachable_wf d R))|].
    intros n. split; [apply (ch_nodes _ _ C)|apply Cv].
  Qed.

  (** The parts of a topology that is ready for form finding: origins, supports, trail and deviation edges are those
      that are so; every edge is a trail edge or a deviation edge; every node is on one trail and in one
      sequence; the k-th group has the nodes with sequence k; the auxiliary trails are edges. *)
  Lemma c83_topology : forall d, reachable d -> ready d ->
    exists origins supports tes des seqs trs aux,
      gh_disassemble_topology d = Ok (nodes d, origins, supports, edges d, tes, des, seqs, trs, aux)
      /\ (NoDup origins /\ forall n, In n origins <-> is_node_origin d n = Ok true)
      /\ (NoDup supports /\ forall n, In n supports <-> is_node_support d n = Ok true)
      /\ (forall e, In e tes <-> is_trail_edge d e = Ok true)
      /\ (forall e, In e des <-> is_deviation_edge d e = Ok true)
      /\ Permutation (tes ++ des) (edges d)
      /\ Permutation (concat seqs) (nodes d)
      /\ (forall k g, nth_error seqs k = Some g -> forall n, In n g <-> In n (nodes d) /\ node_sequence d n = Ok (Z.of_nat k))
      /\ Permutation (concat trs) (nodes d)
      /\ (forall tr, In tr trs -> (exists s, ends_in tr s /\ In s supports) /\ forall a b, consecutive tr a b -> In (a, b) tes \/ In (b, a) tes)
      /\ (forall e, In e aux <-> is_auxiliary_trail_edge d e = true) /\ incl aux (edges d).
  Proof.
    intros d R Rd. assert (W := reachable_wf d R). assert (Pn := ready_partition d R Rd).
    assert (NN : nodes d <> []).
    { intros E. rewrite E in Pn. assert (X := Permutation_nil (Permutation_sym Pn)). assert (Y := rd_some _ Rd).
      destruct (trails d) as [|[key tr] l] eqn:Et; [congruence|]. cbn in X. apply app_eq_nil in X as [-> _].
      destruct (rd_keys _ Rd key []) as (r&F); [rewrite Et; now left|discriminate F]. }
    assert (Sq : forall n, In n (nodes d) -> exists k, node_sequence d n = Ok k /\ 0 <= k).
    { intros n I. apply (rd_covers _ Rd) in I. apply in_concat in I as (tr&It&In0).
      destruct (rd_sequences _ Rd tr It) as (s&Hs&Hn). apply In_nth_error in In0 as (i&Ei).
      exists (s + Z.of_nat i). split; [auto|lia]. }
    destruct (c21_sequences d R NN Sq) as (ss&num&Es&_&Ef&Eg&Ep&_).
    destruct (c67_nodes d (or_introl R)) as (Ns&No&Is&Io&K).
    destruct (c67_edges d (or_introl R)) as (Pe&_&Ty&Te).
    destruct (c67_auxiliary d R) as (_&_&Ax&Ae).
    exists (origin_nodes d), (support_nodes d), (trail_edges d), (deviation_edges d), (map snd ss), (dvalues (trails d)), (dvalues (auxiliary_trails d)).
    assert (Kn : forall n b, (is_node_origin d n = Ok b \/ is_node_support d n = Ok b) -> In n (nodes d)).
    { intros n b [E|E]; unfold is_node_origin, is_node_support, node_get, dgetr in E; destruct (dget (d_node d) n) eqn:F;
        try discriminate E; eapply dget_In_keys; eauto. }
    split; [unfold gh_disassemble_topology; rewrite Es; reflexivity|].
    split.
    { split; [exact No|]. intros n. split; intros I.
      - destruct (K n (Io n I)) as (a&_&_&So&_&_&O1&_). tauto.
      - destruct (K n (Kn n true (or_introl I))) as (a&_&_&So&_&_&O1&_). tauto. }
    split.
    { split; [exact Ns|]. intros n. split; intros I.
      - destruct (K n (proj1 (Is n I))) as (a&_&So&_&O1&_). tauto.
      - destruct (K n (Kn n true (or_intror I))) as (a&_&So&_&O1&_). tauto. }
    assert (Ed : forall e, In e (trail_edges d) \/ In e (deviation_edges d) -> In e (edges d)).
    { intros e X. eapply Permutation_in; [symmetry; exact Pe|]. apply in_or_app. exact X. }
    split.
    { intros e. split; intros I.
      - destruct (Ty e (Ed e (or_introl I))) as [(X&_)|(_&_&X)]; [exact X|].
        destruct (edge_types d e W (Ed e (or_introl I))) as [[]|[]]; contradiction.
      - destruct (in_dec (fun x y : ekey => match @eqb_spec ekey _ x y with ReflectT _ p => left p | ReflectF _ p => right p end) e (edges d)) as [J|J].
        + destruct (Ty e J) as [(_&_&X)|(X&_)]; [exact X|congruence].
        + destruct (Te e J) as [X _]. congruence. }
    split.
    { intros e. split; intros I.
      - destruct (Ty e (Ed e (or_intror I))) as [(_&_&X)|(_&X&_)]; [|exact X].
        destruct (edge_types d e W (Ed e (or_intror I))) as [[]|[]]; contradiction.
      - destruct (in_dec (fun x y : ekey => match @eqb_spec ekey _ x y with ReflectT _ p => left p | ReflectF _ p => right p end) e (edges d)) as [J|J].
        + destruct (Ty e J) as [(_&X&_)|(_&_&X)]; [congruence|exact X].
        + destruct (Te e J) as [_ X]. congruence. }
    split; [symmetry; exact Pe|]. split; [exact Ep|]. split.
    { intros k g E. rewrite nth_error_map in E. destruct (nth_error ss k) as [[j g']|] eqn:F; [|discriminate E]. injection E as <-.
      assert (J : nth_error (zrange num) k = Some j) by (rewrite <- Ef, nth_error_map, F; reflexivity).
      apply zrange_nth in J. subst j. apply nth_error_In in F. apply (Eg _ _ F). }
    split; [exact Pn|]. split.
    { intros tr I. assert (C := rd_chains _ Rd). change (stored d) with (dvalues (trails d)) in C. split.
      - assert (L := ch_length _ _ C tr I). destruct (exists_last (l:=tr)) as (l&s&El); [intros ->; cbn in L; lia|].
        exists s. split; [exists l; exact El|]. apply (ch_supports _ _ C). exists tr. split; [exact I|exists l; exact El].
      - intros a b Cs. apply (ch_edges _ _ C). exists tr. auto. }
    split.
    - intros e. rewrite Ax. unfold dvalues. rewrite in_map_iff. split; [intros ([key x]&<-&I); eauto|intros (key&I); exists (key, e); auto].
    - intros e I. unfold dvalues in I. apply in_map_iff in I as ([key x]&<-&I). eapply Ae; eauto.
  Qed.

  (** Disassembling what was assembled gives back the chains that were drawn, the heads of the chains as origins and
      their last nodes as supports. *)
  Lemma c83_assembled : forall ord tes des ls ss aux, same_set_order ord -> tes <> [] -> aux <> Some true ->
    (forall p q, In (p, q) (connected ls) -> meets (connected tes ++ connected des) p) ->
    (forall p, In p (connected ss) -> meets (connected tes ++ connected des) p) ->
    exists d0, reachable d0 /\ drawn_from (connected tes ++ connected des) (connected ls) (connected ss) d0
      /\ forall P, chains d0 P -> covers d0 P -> P <> [] ->
         exists d origins supports tes' des' seqs trs,
           gh_topology ord tes des ls ss aux = Ok d
           /\ gh_disassemble_topology d = Ok (nodes d0, origins, supports, edges d0, tes', des', seqs, trs, [])
           /\ (forall n, In n origins <-> exists p, In p P /\ starts_with p n)
           /\ (forall n, In n supports <-> exists p, In p P /\ ends_in p n)
           /\ Permutation trs P.
  Proof.
    intros ord tes des ls ss aux Ho Te Na Ml Ms.
    destruct (c77_assembly ord tes des ls ss aux Ml Ms) as (d0&R&D&B&_). exists d0. split; [exact R|]. split; [exact D|].
    intros P C Cv NE.
    assert (Sn : ss <> []).
    { intros ->. destruct P as [|p P]; [congruence|]. assert (L2 := ch_length _ _ C p (or_introl eq_refl)).
      destruct (exists_last (l:=p)) as (p0&n&Ep); [intros ->; cbn in L2; lia|].
      assert (Sn : In n (support_nodes d0)).
      { apply (ch_supports _ _ C). exists p. split; [now left|]. exists p0. exact Ep. }
      assert (W := reachable_wf d0 R). assert (Ss := proj1 (In_support_is d0 n W) Sn). unfold is_node_support in Ss.
      assert (In0 : In n (nodes d0)).
      { apply (ch_nodes _ _ C). apply in_concat. exists p. split; [now left|]. rewrite Ep. apply in_or_app. right. now left. }
      destruct (df_each _ _ _ _ D n In0) as (q&ld&t&En&_&_&_&_&Nt). rewrite En in Ss. cbn in Ss.
      rewrite Nt in Ss; [discriminate Ss|]. intros p' []. }
    destruct (B (or_introl (conj Te Sn))) as [_ Bf]. assert (Eo := Bf Na).
    destruct (c14_chains_recovered d0 ord P R Ho C Cv NE) as (d&Eb&Pt&Or&Sp&_&Sm).
    destruct (c61_built_ready d0 ord P R Ho C Cv NE) as (d'&Eb'&Rd). assert (d' = d) by congruence. subst d'.
    assert (Rr : reachable d) by (assert (X := reachable_build d0 ord false R Ho); now rewrite Eb in X).
    destruct (c83_topology d Rr Rd) as (os&sp&te&de&sq&tr&ax&Ed&(_&Io)&(_&Is)&_).
    exists d, os, sp, te, de, sq, tr. split; [rewrite Eo; unfold outcome; now rewrite Eb|].
    destruct Sm as (En&Ee&_).
    assert (Ax : ax = [] /\ tr = dvalues (trails d)).
    { unfold gh_disassemble_topology in Ed. destruct (sequences d); [|discriminate Ed]. cbn [bind] in Ed. injection Ed as _ _ _ _ _ Et Ea.
      split; [|congruence]. rewrite <- Ea. assert (F := c19_build_frame d0 ord R Ho). rewrite Eb in F. cbn [fst] in F. destruct F as (_&F&_).
      rewrite F. destruct (df_settings _ _ _ _ D) as (_&X&_). rewrite X. reflexivity. }
    destruct Ax as [-> Et]. split; [rewrite Ed, En, Ee; reflexivity|]. split; [|split].
    - intros n. rewrite Io, Or. split.
      + intros [X|X].
        * apply in_map_iff in X as (p&<-&Ip). exists p. split; [exact Ip|]. assert (L := ch_length _ _ C p Ip).
          destruct p as [|a p]; [cbn in L; lia|]. exists p. reflexivity.
        * exfalso. unfold is_node_origin in X. destruct (node_get d0 n) as [a|] eqn:Ea; [|discriminate X].
          assert (In0 : In n (nodes d0)).
          { unfold node_get, dgetr in Ea. destruct (dget (d_node d0) n) eqn:F; [|discriminate Ea]. eapply dget_In_keys; eauto. }
          destruct (df_each _ _ _ _ D n In0) as (p0&q1&t&En0&_&_&_&St&Nt). rewrite Ea in En0. injection En0 as ->. cbn in X.
          destruct (Exists_dec (fun p' => rounded 3 p' = rounded 3 p0) (connected ss)) as [Y|Y].
          { intros x. destruct (rounded_dec (rounded 3 x) (rounded 3 p0)); auto. }
          -- rewrite St in X; [discriminate X|]. apply Exists_exists in Y. exact Y.
          -- rewrite Nt in X; [discriminate X|]. intros p' Ip F. apply Y, Exists_exists. eauto.
      + intros (p&Ip&r&->). left. apply in_map_iff. exists (n :: r). auto.
    - intros n. rewrite Is, Sp, <- (In_support_is d0 n (reachable_wf d0 R)). apply (ch_supports _ _ C).
    - rewrite Et. unfold dvalues. rewrite Pt, map_map. cbn [snd]. rewrite map_id. reflexivity.
  Qed.

  (** The parts of a diagram or of a form *)
  Lemma c83_form : forall d, produced d ->
    exists supports, gh_disassemble_form d = (nodes d, supports, edges d)
      /\ NoDup supports /\ forall n, In n supports <-> is_node_support d n = Ok true.
  Proof.
    intros d Hp. destruct (c67_nodes d Hp) as (Ns&_&Is&_&K). exists (support_nodes d). split; [reflexivity|]. split; [exact Ns|].
    intros n. split; intros I.
    - destruct (K n (proj1 (Is n I))) as (a&_&So&_&O1&_). tauto.
    - assert (In0 : In n (nodes d)).
      { unfold is_node_support, node_get, dgetr in I. destruct (dget (d_node d) n) eqn:F; [|discriminate I]. eapply dget_In_keys; eauto. }
      destruct (K n In0) as (a&_&So&_&O1&_). tauto.
  Qed.
End Parts.
