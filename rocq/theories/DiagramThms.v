(** * Diagram properties: proofs of C01 - C10 *)

From Coq Require Import String List ZArith Bool Lia Permutation Reals Lra.
From Verif Require Import Py PyFacts Num Diagram DiagramFacts Topology SpecDiagram SpecTopology
  TopologyFacts BuildFacts ChainFacts ChainFacts2 History HistoryFacts.
Import ListNotations.
Open Scope Z_scope.

(** ** Relations between the states before and after a call *)

Section Steps.
  Context {S : Type} (R : S -> S -> Prop) (Rr : forall s, R s s)
          (Rt : forall s1 s2 s3, R s1 s2 -> R s2 s3 -> R s1 s3).

  Definition steps {A} (m : eff S A) : Prop := forall s, R s (fst (m s)).

  Lemma steps_eret {A} (a : A) : steps (eret a).
  Proof. intros s. apply Rr. Qed.
  Lemma steps_eraise {A} e : steps (@eraise S A e).
  Proof. intros s. apply Rr. Qed.
  Lemma steps_eget {A} (f : S -> res A) : steps (eget f).
  Proof. intros s. apply Rr. Qed.
  Lemma steps_ebind {A B} (m : eff S A) (f : A -> eff S B) :
    steps m -> (forall a, steps (f a)) -> steps (ebind m f).
  Proof.
    intros Hm Hf s. unfold ebind. assert (X := Hm s). destruct (m s) as [s' [a|e]]; auto.
    eapply Rt; [exact X|]. apply Hf.
  Qed.
  Lemma steps_eloop {X A} (body : X -> A -> eff S X) : (forall x a, steps (body x a)) ->
    forall l x, steps (eloop body l x).
  Proof.
    intros Hb. induction l as [|a l IH]; intros x; cbn; [apply steps_eret|].
    apply steps_ebind; auto.
  Qed.
End Steps.

Section Thms.
  Context {T : Type} `{NumOps T}.
  Implicit Types (d : diagram T).

  (** ** C01 *)

  (** Diagram integrity under every call history. *)
  Lemma c01_integrity : forall ops : list (op T),
    Forall valid_op ops -> well_formed (run empty_diagram ops).
  Proof. intros ops V. apply wf_well_formed, wf_run; auto. apply wf_empty. Qed.

  (** ** C02 *)

  (** An automatic key is fresh, and adding the node changes nothing else. *)
  Lemma c02_fresh_key : forall d p, reachable d ->
    exists d' k, add_node None p d = (d', Ok k)
      /\ ~ In k (nodes d)
      /\ nodes d' = nodes d ++ [k]
      /\ node_get d' k = Ok (fresh_node p)
      /\ (forall n, In n (nodes d) -> same_node d d' n)
      /\ same_edges d d' /\ same_settings d d'.
  Proof.
    intros d p Hr. apply reachable_wf in Hr as W.
    destruct (add_node_new d None p (d_max d + 1) W eq_refl (auto_fresh d W))
      as (d'&E&N&G&O&Ed&_&St&_). exists d', (d_max d + 1).
    split; auto. split; [now apply auto_fresh|]. split; auto. split; auto. split; auto.
    intros n I. apply node_get_ext, O. intros ->. now apply (auto_fresh d W).
  Qed.

  (** ** C03 *)

  (** add_node with a key stores and indexes exactly that node. *)
  Lemma c03_add_node : forall d k p, reachable d ->
    exists d', add_node (Some k) p d = (d', Ok k)
      /\ node_coordinates d' k = Ok p
      /\ node_key d' (RXyz p) = Some k
      /\ (forall n, n <> k -> same_node d d' n)
      /\ same_edges d d' /\ same_settings d d'
      /\ (In k (nodes d) -> nodes d' = nodes d
            /\ node_load d' k = node_load d k /\ is_node_support d' k = is_node_support d k
            /\ reaction_force d' k = reaction_force d k /\ node_sequence d' k = node_sequence d k)
      /\ (~ In k (nodes d) -> nodes d' = nodes d ++ [k] /\ node_get d' k = Ok (fresh_node p)).
  Proof.
    intros d k p Hr. apply reachable_wf in Hr as W.
    destruct (in_dec Z.eq_dec k (nodes d)) as [I|I].
    - destruct (node_find d k I) as [a Ha].
      destruct (add_node_old d k p a Ha) as (d'&E&N&G&O&E1&E2&St&Gk). exists d'.
      split; auto. split; [unfold node_coordinates; now rewrite G|].
      split; [apply (node_key_set d d' p k); auto; apply St|].
      split; [intros n Hn; now apply node_get_ext, O|].
      split.
      { unfold same_edges, edges, edge_get, edge_find, neighbors. rewrite E1, E2. auto. }
      split; auto. split; [|contradiction]. intros _. split; auto.
      unfold node_load, is_node_support, reaction_force, node_sequence. rewrite G.
      apply node_get_Ok in Ha. rewrite Ha. auto.
    - destruct (add_node_new d (Some k) p k W eq_refl I) as (d'&E&N&G&O&Ed&_&St&Gk&_). exists d'.
      split; auto. split; [unfold node_coordinates; now rewrite G|].
      split; [apply (node_key_set d d' p k); auto; apply St|].
      split; [intros n Hn; now apply node_get_ext, O|].
      split; auto. split; auto. split; [contradiction|auto].
  Qed.

  (** ** C04 *)

  Definition maxok d : Prop := forall n, In n (nodes d) -> n <= d_max d.

  (** The lookup table gained only entries for nodes that are where they were indexed. *)
  Definition placed d (g : gkey_t) (k : Z) : Prop :=
    exists p, node_coordinates d k = Ok p /\ gkey d p = g.
  Definition lookup_step d d' : Prop := forall g k, dget (d_gkey d') g = Some k ->
    dget (d_gkey d) g = Some k \/ placed d' g k.
  Definition grows d d' : Prop := maxok d ->
    maxok d' /\ lookup_step d d' /\ d_tol d' = d_tol d
    /\ forall n p, node_coordinates d n = Ok p -> node_coordinates d' n = Ok p.

  Lemma grows_refl d : grows d d.
  Proof. intros M. split; auto. split; [intros g k E; auto|]. auto. Qed.

  Lemma grows_trans d1 d2 d3 : grows d1 d2 -> grows d2 d3 -> grows d1 d3.
  Proof.
    intros G1 G2 M1. destruct (G1 M1) as (M2&L1&T1&N1). destruct (G2 M2) as (M3&L2&T2&N2).
    split; auto. split; [|split; [congruence|auto]].
    intros g k E. apply L2 in E as [E|E]; auto. apply L1 in E as [E|(p&Ep&Eg)]; auto.
    right. exists p. split; auto. unfold gkey in *. now rewrite T2.
  Qed.

  Lemma coords_ext d d' n : dget (d_node d') n = dget (d_node d) n ->
    node_coordinates d' n = node_coordinates d n.
  Proof. intros E. unfold node_coordinates, node_get, dgetr. now rewrite E. Qed.

  Lemma grows_frame d d' : frame d d' -> grows d d'.
  Proof.
    intros (E&N&A) M. split; [intros n I; rewrite N in I; rewrite E; now apply M|].
    split; [intros g k; rewrite E; auto|]. split; [now rewrite E|].
    intros n p. unfold node_coordinates, node_get, dgetr.
    destruct (dget (d_node d) n) as [a|] eqn:Ea; [|discriminate].
    destruct (A n a Ea) as (a'&->&X&_). cbn. now rewrite X.
  Qed.

  Lemma grows_node_set n f :
    (forall a, na_xyz (f a) = na_xyz a /\ na_load (f a) = na_load a /\ na_reac (f a) = na_reac a) ->
    steps grows (node_set (T:=T) n f).
  Proof. intros Hf d. apply grows_frame. now apply frame_node_set. Qed.

  Lemma grows_node_set_xyz n f :
    (forall a, na_xyz (f a) = na_xyz a) -> steps grows (node_set (T:=T) n f).
  Proof.
    intros Hf d M. unfold node_set. destruct (dget (d_node d) n) as [a|] eqn:Ea; [|now apply grows_refl].
    cbn. assert (N : nodes (with_node d (dset (d_node d) n (f a))) = nodes d).
    { apply nodes_dset. eapply dget_In_keys; eauto. }
    split; [intros m I; rewrite N in I; now apply M|]. split; [intros g k; cbn; auto|]. split; auto.
    intros m p. unfold node_coordinates, node_get, dgetr. cbn. rewrite dget_dset. cbn.
    destruct (Z.eqb_spec m n) as [->|]; auto. rewrite Ea. cbn. now rewrite Hf.
  Qed.

  Lemma grows_add_node_auto p : steps grows (add_node (T:=T) None p).
  Proof.
    intros d M. assert (N : ~ In (d_max d + 1) (nodes d)) by (intros I; apply M in I; lia).
    rewrite add_node_eq. cbn [fst].
    rewrite (graph_add_node_new d (d_max d + 1) None p eq_refl) by (now apply dget_None).
    set (d' := with_gkey _ _).
    assert (N' : nodes d' = nodes d ++ [d_max d + 1]) by (unfold nodes; cbn; now rewrite dkeys_dset_new).
    assert (Mx : d_max d' = d_max d + 1) by (cbn; destruct (Z.ltb_spec (d_max d) (d_max d + 1)); lia).
    split; [|split; [|split; auto]].
    - intros n. rewrite N', in_app_iff, Mx. intros [I|[<-|[]]]; [apply M in I|]; lia.
    - intros g k. cbn. rewrite dget_dset. destruct (eqb_spec g (gkey d p)) as [->|]; auto.
      injection 1 as <-. right. exists p. split; [|reflexivity].
      unfold node_coordinates, node_get, dgetr. cbn. now rewrite dget_dset_same.
    - intros n q E. rewrite <- E. apply coords_ext. cbn. rewrite dget_dset_other; auto.
      intros ->. unfold node_coordinates, node_get, dgetr in E.
      destruct (dget (d_node d) (d_max d + 1)) eqn:E'; [|discriminate].
      apply N. eapply dget_In_keys; eauto.
  Qed.

  Lemma grows_graph_add_edge u v el : steps grows (graph_add_edge (T:=T) u v el).
  Proof.
    intros d. unfold graph_add_edge.
    destruct (has_node d u); cbn [negb fst]; [|apply grows_refl].
    destruct (has_node d v); cbn [negb fst]; [|apply grows_refl].
    match goal with |- grows _ (adj_add ?x v u) => set (d2 := x) end.
    match eval unfold d2 in d2 with adj_add ?x _ _ => set (d1 := x) in * end.
    destruct (adj_add_other d1 u v) as (A1&A2&A3&A4&A5&_).
    destruct (adj_add_other d2 v u) as (B1&B2&B3&B4&B5&_).
    fold d2 in A1, A2, A3, A4, A5. set (d3 := adj_add d2 v u) in *.
    assert (En : d_node d3 = d_node d) by (rewrite B1, A1; reflexivity).
    assert (Eg : d_gkey d3 = d_gkey d) by (rewrite B4, A4; reflexivity).
    assert (Et : d_tol d3 = d_tol d) by (rewrite B5, A5; reflexivity).
    assert (Em : d_max d3 = d_max d) by (rewrite B3, A3; reflexivity).
    intros M. split; [intros n I; rewrite Em; apply M; unfold nodes in *; now rewrite <- En|].
    split; [intros g k; rewrite Eg; auto|]. split; auto.
    intros n p E. rewrite <- E. apply coords_ext. now rewrite En.
  Qed.

  Lemma grows_resolve_end r : steps grows (resolve_end (T:=T) r).
  Proof.
    intros d. unfold resolve_end. destruct (node_key d r); [apply grows_refl|].
    destruct r; [apply grows_refl|apply grows_add_node_auto].
  Qed.

  Lemma grows_add_edge ru rv el : steps grows (add_edge (T:=T) ru rv el).
  Proof.
    unfold add_edge. apply steps_ebind; [apply grows_trans|apply grows_resolve_end|]. intros u.
    apply steps_ebind; [apply grows_trans|apply grows_resolve_end|]. intros v. apply grows_graph_add_edge.
  Qed.

  Lemma grows_set_sequences l : forall s, steps grows (set_sequences (T:=T) s l).
  Proof. intros s d. apply grows_frame, set_sequences_frame. Qed.

  Lemma grows_with_trails x : steps grows (fun d => (with_trails d x, Ok tt)).
  Proof. intros d M. split; [exact M|]. split; [intros g k; auto|]. auto. Qed.
  Lemma grows_with_aux x : steps grows (fun d => (with_aux d x, Ok tt)).
  Proof. intros d M. split; [exact M|]. split; [intros g k; auto|]. auto. Qed.

  Ltac grow :=
    lazymatch goal with
    | |- steps _ (ebind _ _) => apply steps_ebind; [apply grows_trans| |intros]; grow
    | |- steps _ (eget _) => apply steps_eget; apply grows_refl
    | |- steps _ (eret _) => apply steps_eret; apply grows_refl
    | |- steps _ (eraise _) => apply steps_eraise; apply grows_refl
    | |- steps _ (match ?b with _ => _ end) => destruct b; grow
    | |- steps _ (eloop _ _ _) => apply steps_eloop; [apply grows_refl|apply grows_trans|intros]; grow
    | |- _ => idtac
    end.

  Lemma grows_build_search ord : steps grows (build_search (T:=T) ord).
  Proof.
    unfold build_search. grow. unfold build_body. grow.
    - apply grows_node_set. auto.
    - apply grows_set_sequences.
  Qed.

  Lemma grows_build_finish trs un : steps grows (build_finish (T:=T) trs un).
  Proof. unfold build_finish. grow. apply grows_with_trails. Qed.

  Lemma grows_add_support r : steps grows (add_support (T:=T) r).
  Proof.
    intros d. unfold add_support. destruct (node_key d r); [|apply grows_refl]. apply grows_node_set. auto.
  Qed.

  Lemma grows_build_trails ord aux : steps grows (build_trails (T:=T) ord aux).
  Proof.
    unfold build_trails, build_trails_plain. grow.
    all: try apply grows_build_search. all: try apply grows_build_finish.
    - unfold aux_body. grow; [apply grows_add_node_auto|apply grows_add_support|apply grows_add_edge].
    - apply grows_with_aux.
  Qed.

  Lemma lookup_call o d : maxok d -> lookup_step d (fst (call o d)).
  Proof.
    intros M.
    assert (Gr : forall m : eff (diagram T) unit, steps grows m -> lookup_step d (fst (m d))).
    { intros m G. now apply G. }
    assert (Id : forall d', d_gkey d' = d_gkey d -> lookup_step d d') by (intros d' E g k; rewrite E; auto).
    destruct o; cbn [call].
    - unfold ignore, ebind. rewrite add_node_eq. cbn [fst eret].
      intros g k. cbn. rewrite dget_dset. destruct (eqb_spec g (gkey d p)) as [->|]; auto.
      injection 1 as <-. right. exists p.
      set (k := match key with Some k => k | None => d_max d + 1 end).
      split.
      + destruct (dget (d_node d) k) as [a|] eqn:E.
        * rewrite (graph_add_node_old d k key p a eq_refl E).
          unfold node_coordinates, node_get, dgetr. cbn. now rewrite dget_dset_same.
        * rewrite (graph_add_node_new d k key p eq_refl E).
          unfold node_coordinates, node_get, dgetr. cbn. now rewrite dget_dset_same.
      + unfold gkey. cbn. unfold graph_add_node. cbn.
        destruct (dget (d_node d) _); reflexivity.
    - apply Gr. unfold ignore. grow. apply grows_add_edge.
    - apply Gr. apply grows_add_support.
    - apply Gr. intros d0. unfold add_load. destruct (node_key d0 r); [|apply grows_refl].
      apply grows_node_set_xyz. auto.
    - (* node_xyz *)
      unfold update_node_xyz.
      set (d0 := if dmem (d_gkey d) (gkey d p) then _ else d).
      assert (E0 : forall g k, dget (d_gkey d0) g = Some k -> g <> gkey d p -> dget (d_gkey d) g = Some k).
      { intros g k' E Hne. unfold d0 in E. destruct (dmem (d_gkey d) (gkey d p)); auto.
        cbn in E. now rewrite dget_ddel_other in E. }
      assert (G0 : gkey d0 p = gkey d p).
      { unfold d0. destruct (dmem (d_gkey d) (gkey d p)); reflexivity. }
      unfold ebind. rewrite add_node_eq. cbn [fst eret].
      intros g k'. cbn. rewrite dget_dset, G0. destruct (eqb_spec g (gkey d p)) as [->|Hne].
      + injection 1 as <-. right. exists p. split.
        * destruct (dget (d_node d0) k) as [a|] eqn:E.
          -- rewrite (graph_add_node_old d0 k (Some k) p a eq_refl E).
             unfold node_coordinates, node_get, dgetr. cbn. now rewrite dget_dset_same.
          -- rewrite (graph_add_node_new d0 k (Some k) p eq_refl E).
             unfold node_coordinates, node_get, dgetr. cbn. now rewrite dget_dset_same.
        * rewrite <- G0. unfold gkey. cbn. unfold graph_add_node. cbn.
          destruct (dget (d_node d0) k); reflexivity.
      + intros E. left. now apply E0.
    - apply Id. unfold node_set. destruct (dget (d_node d) k); reflexivity.
    - apply Id. unfold edge_set. destruct (dget (d_edge d) (fst e)); auto. destruct (dget d0 (snd e)); reflexivity.
    - apply Id. unfold edge_set. destruct (dget (d_edge d) (fst e)); auto. destruct (dget d0 (snd e)); reflexivity.
    - apply Id. reflexivity.
    - apply Id. reflexivity.
    - apply Id. reflexivity.
    - apply Gr. apply grows_build_trails.
    - apply Gr. unfold shift_trail. grow. apply grows_set_sequences.
  Qed.

  Lemma lookup_history ops : Forall valid_op ops -> forall g k,
    dget (d_gkey (run empty_diagram ops)) g = Some k ->
    exists ops1 ops2, ops = ops1 ++ ops2 /\ placed (run empty_diagram ops1) g k.
  Proof.
    induction ops as [|o ops IH] using rev_ind; intros V g k E; [discriminate|].
    apply Forall_app in V as [V Vo].
    rewrite run_app in E. cbn in E.
    assert (W : wf (run empty_diagram ops)) by (apply wf_run; auto; apply wf_empty).
    apply (lookup_call o) in E; [|exact (wf_max _ W)]. destruct E as [E|E].
    - destruct (IH V g k E) as (ops1&ops2&->&P). exists ops1, (ops2 ++ [o]). split; auto.
      now rewrite app_assoc.
    - exists (ops ++ [o]), []. split; [now rewrite app_nil_r|]. now rewrite run_app.
  Qed.

  (** Points share a key of the lookup table when all their rounded coordinates agree. *)
  Lemma gkey_rounded d p q : rounded (d_tol d) p = rounded (d_tol d) q <-> gkey d p = gkey d q.
  Proof. unfold rounded, gkey. split; congruence. Qed.

  (** A coordinate lookup returns an existing node that, at some moment of the
      history, was at a point with the same rounded coordinates. *)
  Lemma c04_lookup : forall (ops : list (op T)) p k, Forall valid_op ops ->
    node_key (run empty_diagram ops) (RXyz p) = Some k ->
    In k (nodes (run empty_diagram ops))
    /\ exists ops1 ops2 p', ops = ops1 ++ ops2
         /\ node_coordinates (run empty_diagram ops1) k = Ok p'
         /\ rounded (d_tol (run empty_diagram ops)) p' = rounded (d_tol (run empty_diagram ops)) p.
  Proof.
    intros ops p k V E. cbn in E. split.
    - apply (wf_gkey _ (wf_run ops V _ wf_empty) (gkey (run empty_diagram ops) p)). exact E.
    - destruct (lookup_history ops V _ _ E) as (ops1&ops2&->&p'&A&B). exists ops1, ops2, p'.
      unfold gkey in B. unfold rounded. injection B as Bt Bx By Bz. rewrite Bt in *. split; auto. split; auto. congruence.
  Qed.

  (** ** C05 *)

  (** add_edge: how the two ends are resolved, and what it leaves untouched. *)
  Lemma c05_add_edge_ends : forall d ru rv el, reachable d ->
    (forall k, ru = RKey k -> In k (nodes d)) -> (forall k, rv = RKey k -> In k (nodes d)) ->
    exists d' u v, add_edge ru rv el d = (d', Ok (u, v))
      /\ In (u, v) (edges d')
      /\ (forall k, node_key d ru = Some k -> u = k)
      /\ (forall k, node_key d rv = Some k -> v = k)
      /\ (forall p, ru = RXyz p -> node_key d ru = None ->
            ~ In u (nodes d) /\ node_get d' u = Ok (fresh_node p) /\ node_key d' ru = Some u)
      /\ (forall q, rv = RXyz q -> node_key d rv = None ->
            ~ In v (nodes d) /\ node_key d' rv = Some v
            /\ (v = u /\ (exists p, ru = RXyz p /\ rounded (d_tol d) p = rounded (d_tol d) q)
                \/ v <> u /\ node_get d' v = Ok (fresh_node q)))
      /\ (forall n, In n (nodes d) -> same_node d d' n)
      /\ (forall n, In n (nodes d') <-> In n (nodes d) \/ n = u \/ n = v)
      /\ same_settings d d'.
  Proof.
    intros d ru rv el Hr Hu Hv. apply reachable_wf in Hr as W.
    (* first end *)
    assert (S1 : exists d1 u, resolve_end ru d = (d1, Ok u) /\ wf d1 /\ In u (nodes d1)
      /\ (forall k, node_key d ru = Some k -> u = k /\ d1 = d)
      /\ (node_key d ru = None -> exists p, ru = RXyz p /\ ~ In u (nodes d)
            /\ node_get d1 u = Ok (fresh_node p)
            /\ d_gkey d1 = dset (d_gkey d) (gkey d p) u)
      /\ (forall n, In n (nodes d) -> dget (d_node d1) n = dget (d_node d) n)
      /\ (forall n, In n (nodes d1) <-> In n (nodes d) \/ n = u)
      /\ same_settings d d1).
    { destruct (node_key d ru) as [k|] eqn:E.
      - exists d, k. rewrite (resolve_end_old d ru k E).
        assert (Ik : In k (nodes d)).
        { destruct ru as [k'|p]; cbn in E.
          - injection E as <-. now apply Hu.
          - now apply (wf_gkey _ W (gkey d p)). }
        split; auto. split; auto. split; auto. split; [intros k' E'; split; congruence|].
        split; [discriminate|]. split; auto. split; [|repeat split].
        intros n. split; auto. intros [?| ->]; auto.
      - destruct ru as [k'|p]; [discriminate|].
        destruct (add_node_new d None p (d_max d + 1) W eq_refl (auto_fresh d W))
          as (d1&E1&N1&G1&O1&_&_&St1&Gk1&_).
        exists d1, (d_max d + 1). rewrite (resolve_end_new d p E).
        split; auto. split; [assert (X := wf_add_node None p d W); now rewrite E1 in X|].
        split; [rewrite N1; apply in_or_app; right; now left|].
        split; [intros k' E'; congruence|].
        split; [intros _; exists p; split; auto; split; [now apply auto_fresh|split; auto]|].
        split; [intros n I; apply O1; intros ->; now apply (auto_fresh d W)|].
        split; auto. intros n. rewrite N1, in_app_iff. cbn. intuition. }
    destruct S1 as (d1&u&R1&W1&I1&K1&New1&O1&N1&St1).
    (* second end *)
    assert (S2 : exists d2 v, resolve_end rv d1 = (d2, Ok v) /\ wf d2 /\ In v (nodes d2)
      /\ (forall k, node_key d1 rv = Some k -> v = k /\ d2 = d1)
      /\ (node_key d1 rv = None -> exists p, rv = RXyz p /\ ~ In v (nodes d1)
            /\ node_get d2 v = Ok (fresh_node p)
            /\ d_gkey d2 = dset (d_gkey d1) (gkey d1 p) v)
      /\ (forall n, In n (nodes d1) -> dget (d_node d2) n = dget (d_node d1) n)
      /\ (forall n, In n (nodes d2) <-> In n (nodes d1) \/ n = v)
      /\ same_settings d1 d2).
    { destruct (node_key d1 rv) as [k|] eqn:E.
      - exists d1, k. rewrite (resolve_end_old d1 rv k E).
        assert (Ik : In k (nodes d1)).
        { destruct rv as [k'|p]; cbn in E.
          - injection E as <-. apply N1. left. now apply Hv.
          - now apply (wf_gkey _ W1 (gkey d1 p)). }
        split; auto. split; auto. split; auto. split; [intros k' E'; split; congruence|].
        split; [discriminate|]. split; auto. split; [|repeat split].
        intros n. split; auto. intros [?| ->]; auto.
      - destruct rv as [k'|p]; [discriminate|].
        destruct (add_node_new d1 None p (d_max d1 + 1) W1 eq_refl (auto_fresh d1 W1))
          as (d2&E2&N2&G2&O2&_&_&St2&Gk2&_).
        exists d2, (d_max d1 + 1). rewrite (resolve_end_new d1 p E).
        split; auto. split; [assert (X := wf_add_node None p d1 W1); now rewrite E2 in X|].
        split; [rewrite N2; apply in_or_app; right; now left|].
        split; [intros k' E'; congruence|].
        split; [intros _; exists p; split; auto; split; [now apply auto_fresh|split; auto]|].
        split; [intros n I; apply O2; intros ->; now apply (auto_fresh d1 W1)|].
        split; auto. intros n. rewrite N2, in_app_iff. cbn. intuition. }
    destruct S2 as (d2&v&R2&W2&I2&K2&New2&O2&N2&St2).
    assert (Iu2 : In u (nodes d2)) by (apply N2; auto).
    destruct (graph_add_edge_Ok d2 u v el Iu2 I2 W2) as (d3&Hg&X1&X2&X3&X4&X5&X6&X7&X8&X9&W3).
    exists d3, u, v.
    assert (Hn3 : forall n, node_get d3 n = node_get d2 n) by (intros n; unfold node_get; now rewrite X1).
    assert (T1 : d_tol d1 = d_tol d) by apply St1.
    assert (T2 : d_tol d2 = d_tol d1) by apply St2.
    assert (Gk : forall p, gkey d1 p = gkey d p) by (intros p; unfold gkey; now rewrite T1).
    assert (Gk2 : forall p, gkey d2 p = gkey d1 p) by (intros p; unfold gkey; now rewrite T2).
    assert (Gk3 : forall p, gkey d3 p = gkey d2 p) by (intros p; unfold gkey; now rewrite X4).
    split; [unfold add_edge, ebind; now rewrite R1, R2|].
    split; [apply In_edges; auto; apply has_edge_find; rewrite X9, eqb_refl; eauto|].
    split; [intros k E; now apply K1|].
    split.
    { intros k E. assert (E1 : node_key d1 rv = Some k).
      { destruct rv as [k'|q]; auto. cbn in *. rewrite Gk.
        destruct (node_key d ru) as [ku|] eqn:Eu.
        - destruct (K1 ku eq_refl) as [_ ->]. auto.
        - destruct (New1 eq_refl) as (p&->&Hnu&_&Eg). rewrite Eg, dget_dset.
          destruct (eqb_spec (gkey d q) (gkey d p)) as [Eq|]; auto. cbn in Eu. congruence. }
      now apply K2. }
    split.
    { intros p -> E. destruct (New1 E) as (p'&Ep&A1&A2&A3). injection Ep as <-.
      split; auto. split.
      - rewrite Hn3. unfold node_get, dgetr. rewrite O2 by auto. exact A2.
      - cbn. rewrite Gk3, Gk2, Gk, X3.
        destruct (node_key d1 rv) as [kv|] eqn:Ev.
        + destruct (K2 kv eq_refl) as [_ ->]. rewrite A3. apply dget_dset_same.
        + destruct (New2 eq_refl) as (q&->&B1&B2&B3). rewrite B3, dget_dset, Gk.
          destruct (eqb_spec (gkey d p) (gkey d q)) as [Eq|].
          * exfalso. cbn in Ev. rewrite Gk, <- Eq, A3, dget_dset_same in Ev. discriminate.
          * rewrite A3. apply dget_dset_same. }
    split.
    { intros q -> E. destruct (node_key d1 (RXyz q)) as [kv|] eqn:Ev.
      - destruct (K2 kv eq_refl) as [-> ->].
        cbn in Ev, E. destruct (node_key d ru) as [ku|] eqn:Eu.
        { destruct (K1 ku eq_refl) as [_ ->]. congruence. }
        destruct (New1 eq_refl) as (p&->&A1&A2&A3). rewrite A3, Gk, dget_dset in Ev.
        destruct (eqb_spec (gkey d q) (gkey d p)) as [Eq|]; [|congruence].
        injection Ev as <-. split; auto. split.
        + cbn. rewrite Gk3, Gk, X3, A3, Eq. apply dget_dset_same.
        + left. split; auto. exists p. split; auto. now apply gkey_rounded.
      - destruct (New2 eq_refl) as (q'&Eq&B1&B2&B3). injection Eq as <-.
        split; [intros I; apply B1, N1; auto|]. split.
        + cbn. rewrite Gk3, Gk2, X3, B3. apply dget_dset_same.
        + right. split; [intros ->; auto|]. now rewrite Hn3. }
    split; [intros n I; apply node_get_ext; rewrite X1, O2, O1; auto; apply N1; auto|].
    split.
    { intros n. unfold nodes at 1. rewrite X1. fold (nodes d2). rewrite N2, N1. tauto. }
    destruct St1 as (S1&S2&S3&S4&S5). destruct St2 as (S6&S7&S8&S9&S10).
    unfold same_settings, trails, auxiliary_trails in *. intuition congruence.
  Qed.

  (** ** C07, C08 *)

  (** add_edge between existing keys writes exactly the given edge. *)
  Lemma c07_add_edge_writes : forall d u v el, reachable d ->
    In u (nodes d) -> In v (nodes d) ->
    exists d', add_edge (RKey u) (RKey v) el d = (d', Ok (u, v))
      /\ nodes d' = nodes d /\ (forall n, same_node d d' n) /\ same_settings d d'
      /\ (forall r, node_key d' r = node_key d r)
      /\ (forall e, In e (edges d') <-> e = (u, v) \/ In e (edges d))
      /\ (forall e, e <> (u, v) -> edge_get d' e = edge_get d e)
      /\ match el with
         | TrailEdge l pl =>
             is_trail_edge d' (u, v) = Ok true /\ is_deviation_edge d' (u, v) = Ok false
             /\ edge_length_2 d' (u, v) = Ok l /\ edge_plane d' (u, v) = Ok pl
             /\ (In (u, v) (edges d) -> edge_force d' (u, v) = edge_force d (u, v))
             /\ (~ In (u, v) (edges d) -> edge_force d' (u, v) = Ok n0)
         | DeviationEdge f =>
             is_trail_edge d' (u, v) = Ok false /\ is_deviation_edge d' (u, v) = Ok true
             /\ edge_force d' (u, v) = Ok f
             /\ (In (u, v) (edges d) -> edge_length_2 d' (u, v) = edge_length_2 d (u, v)
                                        /\ edge_plane d' (u, v) = edge_plane d (u, v))
             /\ (~ In (u, v) (edges d) -> edge_length_2 d' (u, v) = Ok n0 /\ edge_plane d' (u, v) = Ok None)
         end.
  Proof.
    intros d u v el Hr Iu Iv. apply reachable_wf in Hr as W.
    destruct (graph_add_edge_Ok d u v el Iu Iv W) as (d'&Hg&X1&X2&X3&X4&X5&X6&X7&X8&X9&W').
    exists d'. split; [exact Hg|]. split; [unfold nodes; now rewrite X1|].
    split; [intros n; apply node_get_ext; now rewrite X1|].
    split; [unfold same_settings, trails, auxiliary_trails; auto|].
    split; [intros [k|p]; cbn; auto; unfold gkey; now rewrite X3, X4|].
    assert (Ed : forall e, In e (edges d') <-> e = (u, v) \/ In e (edges d)).
    { intros e. rewrite !In_edges, !has_edge_find by auto. rewrite X9.
      destruct (@eqb_spec ekey _ e (u, v)) as [->|Hne].
      - split; eauto.
      - split; auto. intros [|]; [contradiction|auto]. }
    split; auto.
    split; [intros e Hne; unfold edge_get; rewrite X9; destruct (@eqb_spec ekey _ e (u, v)); [contradiction|auto]|].
    assert (Eg : edge_get d' (u, v) = Ok (edge_merge el (edge_old d (u, v)))).
    { unfold edge_get. now rewrite X9, eqb_refl. }
    assert (Old : In (u, v) (edges d) -> edge_get d (u, v) = Ok (edge_old d (u, v))).
    { intros I. apply In_edges, has_edge_find in I as [a Ha]; auto. unfold edge_get, edge_old. now rewrite Ha. }
    assert (NOld : ~ In (u, v) (edges d) -> edge_old d (u, v) = default_edge).
    { intros I. rewrite In_edges in I by auto. unfold has_edge, edge_old in *.
      destruct (edge_find d (u, v)); congruence. }
    destruct el as [l pl|f];
      unfold is_trail_edge, is_deviation_edge, edge_length_2, edge_plane, edge_force; rewrite Eg; cbn.
    - repeat (split; [reflexivity|]). split.
      + intros I. now rewrite (Old I).
      + intros I. now rewrite (NOld I).
    - repeat (split; [reflexivity|]). split.
      + intros I. now rewrite (Old I).
      + intros I. now rewrite (NOld I).
  Qed.

  (** add_edge between integer keys that do not both exist raises and changes nothing. *)
  Lemma c08_add_edge_rejects : forall d u v el,
    ~ In u (nodes d) \/ ~ In v (nodes d) ->
    add_edge (RKey u) (RKey v) el d = (d, Err AttributeError).
  Proof. intros d u v el N. apply (graph_add_edge_Err d u v el N). Qed.

  (** ** C60 *)

  (** An add_edge that raises met a key that is not a node; it leaves all nodes,
      edges and settings as they were, and at most one new node behind. *)
  Lemma c60_failing_add_edge_partial : forall d ru rv el d' e, reachable d ->
    add_edge ru rv el d = (d', Err e) ->
    e = AttributeError
    /\ (exists k, (ru = RKey k \/ rv = RKey k) /\ ~ In k (nodes d) /\ ~ In k (nodes d'))
    /\ same_edges d d' /\ same_settings d d'
    /\ (forall n, In n (nodes d) -> same_node d d' n)
    /\ (nodes d' = nodes d
        \/ exists k p, nodes d' = nodes d ++ [k] /\ (ru = RXyz p \/ rv = RXyz p)
             /\ node_get d' k = Ok (fresh_node p)).
  Proof.
    intros d ru rv el d' e Hr. apply reachable_wf in Hr as W. unfold add_edge, ebind.
    assert (S : forall d r, wf d -> exists d1 u, resolve_end r d = (d1, Ok u) /\ wf d1
      /\ ((d1 = d /\ (r = RKey u \/ In u (nodes d)))
          \/ exists p, r = RXyz p /\ ~ In u (nodes d) /\ nodes d1 = nodes d ++ [u]
               /\ node_get d1 u = Ok (fresh_node p)
               /\ (forall n, n <> u -> same_node d d1 n) /\ same_edges d d1 /\ same_settings d d1)).
    { clear. intros d r W. destruct (node_key d r) as [k|] eqn:E.
      - exists d, k. rewrite (resolve_end_old d r k E). split; auto. split; auto. left. split; auto.
        destruct r as [k'|p]; cbn in E; [left; congruence|right; now apply (wf_gkey _ W (gkey d p))].
      - destruct r as [k'|p]; [discriminate|].
        destruct (add_node_new d None p (d_max d + 1) W eq_refl (auto_fresh d W))
          as (d1&E1&N1&G1&O1&Ed1&_&St1&Gk1&_).
        exists d1, (d_max d + 1). rewrite (resolve_end_new d p E). split; auto.
        split; [assert (X := wf_add_node None p d W); now rewrite E1 in X|]. right. exists p.
        split; auto. split; [now apply auto_fresh|]. split; auto. split; auto.
        split; [intros n Hn; apply node_get_ext; auto|]. auto. }
    destruct (S d ru W) as (d1&u&E1&W1&C1). rewrite E1.
    destruct (S d1 rv W1) as (d2&v&E2&W2&C2). rewrite E2. clear S.
    destruct (in_dec Z.eq_dec u (nodes d2)) as [Iu|Iu]; [destruct (in_dec Z.eq_dec v (nodes d2)) as [Iv|Iv]|].
    { destruct (graph_add_edge_Ok d2 u v el Iu Iv W2) as (d3&Hg&_). rewrite Hg. discriminate. }
    - rewrite graph_add_edge_Err by auto. intros X. injection X as <- <-. split; auto.
      destruct C2 as [[-> Kv]|(p&_&_&N2&_)]; [|exfalso; apply Iv; rewrite N2; apply in_or_app; right; now left].
      destruct Kv as [->|Kv]; [|contradiction].
      destruct C1 as [[-> Ku]|(p&->&Nu&N1&G1&O1&Ed&St)].
      + split; [exists v; auto|]. split; [repeat split; auto|]. split; [repeat split|]. split; auto. intros; reflexivity.
      + split; [exists v; split; auto; split; auto; intros I; apply Iv; rewrite N1; apply in_or_app; auto|].
        split; auto. split; auto. split; [intros n I; apply O1; congruence|]. right. exists u, p. auto.
    - rewrite graph_add_edge_Err by auto. intros X. injection X as <- <-. split; auto.
      destruct C1 as [[-> Ku]|(p&_&_&N1&_)].
      + destruct Ku as [->|Ku].
        * destruct C2 as [[-> Kv]|(p&->&Nu&N1&G1&O1&Ed&St)].
          -- split; [exists u; auto|]. split; [repeat split; auto|]. split; [repeat split|]. split; auto. intros; reflexivity.
          -- split; [exists u; split; auto; split; auto; intros I; apply Iu; rewrite N1; apply in_or_app; auto|].
             split; auto. split; auto. split; [intros n I; apply O1; congruence|]. right. exists v, p. auto.
        * exfalso. apply Iu. destruct C2 as [[-> _]|(p&_&_&N2&_)]; auto. rewrite N2. apply in_or_app. auto.
      + exfalso. apply Iu. assert (I1 : In u (nodes d1)) by (rewrite N1; apply in_or_app; right; now left).
        destruct C2 as [[-> _]|(q&_&_&N2&_)]; auto. rewrite N2. apply in_or_app. auto.
  Qed.

  (** ** C09 *)

  Lemma node_set_effect d n f a : dget (d_node d) n = Some a ->
    exists d', node_set n f d = (d', Ok tt) /\ nodes d' = nodes d
      /\ node_get d' n = Ok (f a) /\ (forall m, m <> n -> same_node d d' m)
      /\ same_edges d d' /\ same_settings d d' /\ (forall r, node_key d' r = node_key d r).
  Proof.
    intros E. rewrite (node_set_Ok d n f a E). eexists. split; [reflexivity|].
    split; [apply nodes_dset; eapply dget_In_keys; eauto|].
    split; [unfold node_get, dgetr; cbn; now rewrite dget_dset_same|].
    split; [intros m Hm; apply node_get_ext; cbn; now rewrite dget_dset_other|].
    split; [repeat split|]. split; [repeat split|]. intros []; reflexivity.
  Qed.

  (** add_support marks exactly the addressed node, or raises and changes nothing. *)
  Lemma c09_add_support : forall d r, reachable d ->
    (exists n d', node_key d r = Some n /\ In n (nodes d)
       /\ add_support r d = (d', Ok tt) /\ nodes d' = nodes d
       /\ is_node_support d' n = Ok true
       /\ node_coordinates d' n = node_coordinates d n /\ node_load d' n = node_load d n
       /\ reaction_force d' n = reaction_force d n /\ node_sequence d' n = node_sequence d n
       /\ (forall m, m <> n -> same_node d d' m)
       /\ same_edges d d' /\ same_settings d d' /\ (forall r', node_key d' r' = node_key d r'))
    \/ (exists n, r = RKey n /\ ~ In n (nodes d) /\ add_support r d = (d, Err KeyError))
    \/ (exists p, r = RXyz p /\ node_key d r = None
          /\ add_support r d = (d, Err (ValueError "A node doesn't exist"))).
  Proof.
    intros d r Hr. apply reachable_wf in Hr as W.
    destruct (node_key d r) as [n|] eqn:E.
    - destruct (in_dec Z.eq_dec n (nodes d)) as [I|I].
      + left. destruct (node_find d n I) as [a Ha].
        destruct (node_set_effect d n (fun a => set_type a TSupport) a Ha) as (d'&H1&H2&H3&H4&H5&H6&H7).
        exists n, d'. split; auto. split; auto. split; [unfold add_support; now rewrite E|].
        split; auto. apply node_get_Ok in Ha.
        unfold is_node_support, node_coordinates, node_load, reaction_force, node_sequence.
        rewrite H3, Ha. cbn. repeat (split; [reflexivity|]). auto.
      + right. left. destruct r as [k|p]; cbn in E.
        * injection E as <-. exists k. split; auto. split; auto. unfold add_support. cbn.
          apply node_set_Err. now apply dget_None.
        * exfalso. apply I. now apply (wf_gkey _ W (gkey d p)).
    - right. right. destruct r as [k|p]; [discriminate|]. exists p. split; auto. split; auto.
      unfold add_support. now rewrite E.
  Qed.

  (** add_load sets exactly the load of the addressed node, or raises and changes nothing. *)
  Lemma c09_add_load : forall d r q, reachable d ->
    (exists n d', node_key d r = Some n /\ In n (nodes d)
       /\ add_load r q d = (d', Ok tt) /\ nodes d' = nodes d
       /\ node_load d' n = Ok q
       /\ node_coordinates d' n = node_coordinates d n /\ is_node_support d' n = is_node_support d n
       /\ reaction_force d' n = reaction_force d n /\ node_sequence d' n = node_sequence d n
       /\ (forall m, m <> n -> same_node d d' m)
       /\ same_edges d d' /\ same_settings d d' /\ (forall r', node_key d' r' = node_key d r'))
    \/ (exists n, r = RKey n /\ ~ In n (nodes d) /\ add_load r q d = (d, Err KeyError))
    \/ (exists p, r = RXyz p /\ node_key d r = None
          /\ add_load r q d = (d, Err (ValueError "A node doesn't exist"))).
  Proof.
    intros d r q Hr. apply reachable_wf in Hr as W.
    destruct (node_key d r) as [n|] eqn:E.
    - destruct (in_dec Z.eq_dec n (nodes d)) as [I|I].
      + left. destruct (node_find d n I) as [a Ha].
        destruct (node_set_effect d n (fun a => set_load a q) a Ha) as (d'&H1&H2&H3&H4&H5&H6&H7).
        exists n, d'. split; auto. split; auto. split; [unfold add_load; now rewrite E|].
        split; auto. apply node_get_Ok in Ha.
        unfold is_node_support, node_coordinates, node_load, reaction_force, node_sequence.
        rewrite H3, Ha. cbn. repeat (split; [reflexivity|]). auto.
      + right. left. destruct r as [k|p]; cbn in E.
        * injection E as <-. exists k. split; auto. split; auto. unfold add_load. cbn.
          apply node_set_Err. now apply dget_None.
        * exfalso. apply I. now apply (wf_gkey _ W (gkey d p)).
    - right. right. destruct r as [k|p]; [discriminate|]. exists p. split; auto. split; auto.
      unfold add_load. now rewrite E.
  Qed.

  (** ** C10 *)

  (** node_xyz(key, p) moves the node and indexes its new location; the lookup at
      any other location is unchanged, including the node's previous location. *)
  Lemma c10_move_partial : forall d k p, reachable d -> In k (nodes d) ->
    exists d', update_node_xyz k p d = (d', Ok tt)
      /\ nodes d' = nodes d
      /\ node_coordinates d' k = Ok p
      /\ node_key d' (RXyz p) = Some k
      /\ (forall n, n <> k -> same_node d d' n)
      /\ node_load d' k = node_load d k /\ is_node_support d' k = is_node_support d k
      /\ same_edges d d' /\ same_settings d d'
      /\ (forall q, rounded (d_tol d) q <> rounded (d_tol d) p -> node_key d' (RXyz q) = node_key d (RXyz q)).
  Proof.
    intros d k p Hr I. apply reachable_wf in Hr as W.
    unfold update_node_xyz.
    set (d0 := if dmem (d_gkey d) (gkey d p) then _ else d).
    assert (E0 : d0 = with_gkey d (d_gkey d0)).
    { unfold d0. destruct (dmem (d_gkey d) (gkey d p)); [reflexivity|]. now destruct d. }
    assert (G0 : forall g, g <> gkey d p -> dget (d_gkey d0) g = dget (d_gkey d) g).
    { intros g Hg. unfold d0. destruct (dmem (d_gkey d) (gkey d p)); auto. cbn. now apply dget_ddel_other. }
    clearbody d0.
    assert (Gp : forall q, gkey d0 q = gkey d q) by (intros q; rewrite E0; reflexivity).
    destruct (node_find d k I) as [a Ha].
    assert (Ha0 : dget (d_node d0) k = Some a) by (rewrite E0; exact Ha).
    destruct (add_node_old d0 k p a Ha0) as (d'&E&N&G&O&E1&E2&St&Gk). exists d'.
    unfold ebind. rewrite E. split; auto.
    assert (Sd : forall n, node_get d0 n = node_get d n) by (intros n; rewrite E0; reflexivity).
    split; [rewrite N, E0; reflexivity|]. split; [unfold node_coordinates; now rewrite G|].
    split; [apply (node_key_set d0 d' p k); auto; apply St|].
    split; [intros n Hn; unfold same_node; rewrite <- Sd; now apply node_get_ext, O|].
    split; [unfold node_load; rewrite G; apply node_get_Ok in Ha; now rewrite Ha|].
    split; [unfold is_node_support; rewrite G; apply node_get_Ok in Ha; now rewrite Ha|].
    split.
    { unfold same_edges, edges, edge_get, edge_find, neighbors. rewrite E1, E2, E0. auto. }
    split; [destruct St as (S1&S2&S3&S4&S5); rewrite E0 in S1, S2, S3, S4, S5; repeat split; auto|].
    intros q Hq. cbn. assert (Tq : gkey d' q = gkey d q).
    { unfold gkey. destruct St as (_&_&S3&_). rewrite S3, E0. reflexivity. }
    rewrite gkey_rounded in Hq. rewrite Tq, Gk, Gp, dget_dset_other by auto. now apply G0.
  Qed.
End Thms.
