(** * Parts of a structure in equilibrium *)

From Coq Require Import String List ZArith Bool Lia Reals Lra.
From Verif Require Import Py PyFacts Num Diagram DiagramFacts Topology Equilibrium SpecDiagram SpecTopology History HistoryFacts ChainFacts
  TopologyFacts BuildFacts TypedFacts TopologyThms SpecEquilibrium FormFacts EqFacts EqThms RVec SpecStatics StaticsFacts StaticsThms SpecSections.
Import ListNotations.
Open Scope Z_scope.

Implicit Types (f d form : diagram R) (S : list Z) (e : ekey).

Lemma vsum_pick (g : Z -> rvec) a S : NoDup S ->
  vsum (map (fun n => if a =? n then g n else v0) S) = if existsb (Z.eqb a) S then g a else v0.
Proof.
  induction S as [|x S IH]; intros N; cbn [map existsb]; auto. inversion N as [|? ? Hx N']; subst.
  rewrite vsum_cons, IH by auto. destruct (Z.eqb_spec a x) as [->|Ne]; cbn [orb].
  - assert (Hn : existsb (Z.eqb x) S = false).
    { apply not_true_is_false. intros Q. apply existsb_exists in Q as (y&I&Q). apply Z.eqb_eq in Q. now subst. }
    rewrite Hn. apply vadd_0_r.
  - apply vadd_0_l.
Qed.

Lemma pull_loop f n e : fst e = n -> snd e = n -> pull f n e = v0.
Proof.
  intros E1 E2. unfold pull, far_end. rewrite E1, Z.eqb_refl, E2, vsub_self, direction_unitv, unitv_v0. apply vscale_v0.
Qed.

(** The pulls on the nodes of a part, edge by edge *)
Lemma pulls_on f (g : Z -> rvec -> rvec) S : NoDup S ->
  (forall n, g n v0 = v0) -> (forall n u w, g n (u +v w) = g n u +v g n w) ->
  vsum (map (fun n => g n (vsum (map (pull f n) (incident f n)))) S)
  = vsum (map (fun e => (if existsb (Z.eqb (fst e)) S then g (fst e) (pull f (fst e) e) else v0)
                        +v (if existsb (Z.eqb (snd e)) S then g (snd e) (pull f (snd e) e) else v0)) (edges f)).
Proof.
  intros N G0 G1.
  assert (Gs : forall n l, g n (vsum (map (pull f n) l)) = vsum (map (fun e => g n (pull f n e)) l)).
  { intros n l. induction l as [|e l IH]; cbn [map]; [apply G0|]. rewrite !vsum_cons, G1. now rewrite IH. }
  rewrite (map_ext _ (fun n => vsum (map (fun e => if at_b n e then g n (pull f n e) else v0) (edges f)))).
  2:{ intros n. rewrite Gs. unfold incident. now rewrite vsum_filter. }
  rewrite vsum_swap. f_equal. apply map_ext. intros e.
  rewrite <- (vsum_pick (fun n => g n (pull f n e)) (fst e) S N), <- (vsum_pick (fun n => g n (pull f n e)) (snd e) S N).
  rewrite <- vsum_map_add. f_equal. apply map_ext. intros n. unfold at_b.
  destruct (Z.eqb_spec (fst e) n) as [E1|N1]; destruct (Z.eqb_spec (snd e) n) as [E2|N2]; cbn [orb];
    rewrite ?vadd_0_l, ?vadd_0_r; auto.
  rewrite (pull_loop f n e E1 E2), G0. now rewrite vadd_0_l.
Qed.

(** If the two pulls of every edge cancel, those of the cut edges remain. *)
Lemma pulls_on_part f (g : Z -> rvec -> rvec) S : NoDup S ->
  (forall n, g n v0 = v0) -> (forall n u w, g n (u +v w) = g n u +v g n w) ->
  (forall e, g (fst e) (pull f (fst e) e) +v g (snd e) (pull f (snd e) e) = v0) ->
  vsum (map (fun n => g n (vsum (map (pull f n) (incident f n)))) S)
  = vsum (map (fun e => g (inner_end S e) (pull f (inner_end S e) e)) (cut f S)).
Proof.
  intros N G0 G1 Gc. rewrite (pulls_on f g S N G0 G1). unfold cut. rewrite vsum_filter. f_equal. apply map_ext. intros e.
  unfold inner_end. destruct (existsb (Z.eqb (fst e)) S), (existsb (Z.eqb (snd e)) S); cbn [xorb];
    rewrite ?vadd_0_l, ?vadd_0_r; auto.
Qed.

Lemma pulls_cancel_force f e : pull f (fst e) e +v pull f (snd e) e = v0.
Proof. destruct e as [u v]. cbn [fst snd]. rewrite (c26_pulls f u v). vring. Qed.

Lemma pulls_cancel_moment f o e :
  moment o (position f (fst e)) (pull f (fst e) e) +v moment o (position f (snd e)) (pull f (snd e) e) = v0.
Proof.
  destruct e as [u v]. cbn [fst snd]. rewrite (c26_pulls f u v). unfold pull, far_end. cbn [fst snd]. rewrite Z.eqb_refl.
  set (D := direction (position f v -v position f u)). set (pu := position f u) in *. set (pv := position f v) in *.
  set (x := force f (u, v)). unfold moment.
  transitivity ((- x)%R *v cross (pv -v pu) D); [vring|]. unfold D. rewrite direction_parallel. apply vscale_v0.
Qed.

Lemma part_force f S : NoDup S -> vsum (map (unbalanced f) S) = acting_on f S.
Proof.
  intros N. unfold unbalanced, acting_on. rewrite !vsum_map_add. f_equal.
  exact (pulls_on_part f (fun _ u => u) S N (fun _ => eq_refl) (fun _ _ _ => eq_refl) (pulls_cancel_force f)).
Qed.

Lemma part_moment f S o : NoDup S -> vsum (map (fun n => moment o (position f n) (unbalanced f n)) S) = moment_on f S o.
Proof.
  intros N. unfold moment_on. rewrite <- (pulls_on_part f (fun n u => moment o (position f n) u) S N).
  - rewrite <- !vsum_map_add. f_equal. apply map_ext. intros n. unfold unbalanced, moment. vring.
  - intros n. unfold moment. vring.
  - intros n u w. unfold moment. vring.
  - intros e. apply pulls_cancel_moment.
Qed.

(** Method of sections: loads, reactions and the pulls of the edges that are cut keep a part of the structure in
    balance, and so do their moments about any point, if the nodes of the part are in equilibrium. *)
Lemma c97_section : forall f S, part f S -> (forall n, In n S -> unbalanced f n = v0) ->
  acting_on f S = v0 /\ forall o, moment_on f S o = v0.
Proof.
  intros f S [N _] B. split.
  - rewrite <- part_force by auto. now apply vsum_map_0.
  - intros o. rewrite <- part_moment by auto. apply vsum_map_0. intros n I. rewrite (B n I). unfold moment. vring.
Qed.

(** Without equilibrium: what acts on a part is not more than what its nodes are out of balance. *)
Lemma c97_error : forall f S, part f S ->
  (magnitude (acting_on f S) <= rsum (map (fun n => magnitude (unbalanced f n)) S))%R.
Proof.
  intros f S [N _]. rewrite <- part_force by auto. rewrite magnitude_norm. apply norm_vsum. intros n _. rewrite <- magnitude_norm. apply Rle_refl.
Qed.

(** A part that no edge ties to the rest is in balance by itself. *)
Lemma c97_apart : forall f S, part f S -> (forall n, In n S -> unbalanced f n = v0) ->
  (forall u v, In (u, v) (edges f) -> In u S <-> In v S) ->
  resultant f S = v0 /\ forall o, resultant_moment f S o = v0.
Proof.
  intros f S P B A. destruct (c97_section f S P B) as [F M].
  assert (C : cut f S = []).
  { unfold cut. assert (X : forall l, incl l (edges f) ->
      filter (fun e : ekey => xorb (existsb (Z.eqb (fst e)) S) (existsb (Z.eqb (snd e)) S)) l = []).
    { induction l as [|[u v] l IH]; intros L; auto. cbn [filter fst snd]. rewrite IH by (intros x I; apply L; now right).
      assert (Q : existsb (Z.eqb u) S = existsb (Z.eqb v) S).
      { apply eq_iff_eq_true. rewrite !existsb_exists. assert (A' := A u v (L _ (or_introl eq_refl))). split.
        - intros (x&I&Q). apply Z.eqb_eq in Q. subst x. exists v. split; [tauto|apply Z.eqb_refl].
        - intros (x&I&Q). apply Z.eqb_eq in Q. subst x. exists u. split; [tauto|apply Z.eqb_refl]. }
      now rewrite Q, xorb_nilpotent. }
    now apply X. }
  unfold acting_on in F. rewrite C in F. cbn [map] in F. split.
  - unfold resultant. rewrite <- F. unfold vsum at 5. cbn [fold_right]. symmetry. apply vadd_0_r.
  - intros o. specialize (M o). unfold moment_on in M. rewrite C in M. cbn [map] in M. unfold resultant_moment. rewrite <- M.
    symmetry. apply vadd_0_r.
Qed.

(** An edge that alone ties a part to the rest carries the resultant of the loads and reactions of the part, which acts
    along the edge. *)
Lemma c97_single : forall f S e, part f S -> (forall n, In n S -> unbalanced f n = v0) -> cut f S = [e] ->
  resultant f S +v pull f (inner_end S e) e = v0
  /\ ((0 < span f e)%R -> Rabs (force f e) = magnitude (resultant f S))
  /\ resultant_moment f S (position f (fst e)) = v0 /\ resultant_moment f S (position f (snd e)) = v0.
Proof.
  intros f S e P B C. destruct (c97_section f S P B) as [F M]. unfold acting_on in F. rewrite C in F. cbn [map] in F.
  assert (F' : resultant f S +v pull f (inner_end S e) e = v0).
  { rewrite <- F. unfold resultant. f_equal. rewrite vsum_cons. cbn. symmetry. apply vadd_0_r. }
  split; auto. split; [|].
  - intros L. assert (Q : resultant f S = (-1)%R *v pull f (inner_end S e) e).
    { transitivity (resultant f S +v pull f (inner_end S e) e -v pull f (inner_end S e) e); [vring|]. rewrite F'. vring. }
    rewrite Q. unfold pull. rewrite magnitude_norm, !norm_scale, <- magnitude_norm.
    assert (D : magnitude (direction (position f (far_end e (inner_end S e)) -v position f (inner_end S e))) = 1%R).
    { rewrite magnitude_norm, direction_unitv. apply norm_unitv. intros Z0. unfold span in L. rewrite magnitude_norm in L.
      assert (E0 : position f (snd e) -v position f (fst e) = v0).
      { revert Z0. unfold inner_end, far_end. destruct (existsb (Z.eqb (fst e)) S).
        - now rewrite Z.eqb_refl.
        - destruct (Z.eqb_spec (fst e) (snd e)) as [Q'|_]; [rewrite Q'; auto|]. intros Z0.
          transitivity ((-1)%R *v (position f (fst e) -v position f (snd e))); [vring|]. rewrite Z0. apply vscale_v0. }
      rewrite E0, norm_v0 in L. lra. }
    rewrite D. replace (Rabs (-1)) with 1%R by (rewrite Rabs_left; lra). ring.
  - assert (Mo : forall o, moment o (position f (inner_end S e)) (pull f (inner_end S e) e) = v0 -> resultant_moment f S o = v0).
    { intros o Z. specialize (M o). unfold moment_on in M. rewrite C in M. cbn [map] in M. rewrite vsum_cons, Z in M.
      unfold resultant_moment. rewrite <- M. cbn. rewrite !vadd_0_r. reflexivity. }
    assert (Pf : forall n n', (n' = n \/ n' = far_end e n) -> moment (position f n') (position f n) (pull f n e) = v0).
    { intros n n' [->| ->]; unfold moment, pull.
      - rewrite vsub_self. vring.
      - set (a := position f (far_end e n)). set (b := position f n).
        transitivity ((- force f e)%R *v cross (a -v b) (direction (a -v b))); [vring|].
        rewrite direction_parallel. apply vscale_v0. }
    unfold inner_end in *. split; apply Mo, Pf; unfold far_end; destruct (existsb (Z.eqb (fst e)) S); auto.
    + destruct (Z.eqb_spec (fst e) (snd e)) as [Q'|_]; auto.
    + right. now rewrite Z.eqb_refl.
Qed.

(** ** Levels *)

Lemma levels_to_spec d k n : ready d -> In n (levels_to d k) <-> exists s, In n (nodes d) /\ node_sequence d n = Ok s /\ s <= k.
Proof.
  intros R. unfold levels_to. rewrite filter_In. split.
  - intros [I E]. destruct (node_sequence d n) as [s|]; [|discriminate]. apply Z.leb_le in E. eauto.
  - intros (s&I&E&L). rewrite E. split; auto. now apply Z.leb_le.
Qed.

Lemma existsb_In x S : existsb (Z.eqb x) S = true <-> In x S.
Proof.
  rewrite existsb_exists. split.
  - intros (y&I&E). apply Z.eqb_eq in E. now subst.
  - intros I. exists x. split; auto. apply Z.eqb_refl.
Qed.

Lemma In_cut f S e : In e (cut f S) <-> In e (edges f) /\ (In (fst e) S /\ ~ In (snd e) S \/ ~ In (fst e) S /\ In (snd e) S).
Proof.
  unfold cut. rewrite filter_In. rewrite <- !existsb_In.
  destruct (existsb (Z.eqb (fst e)) S), (existsb (Z.eqb (snd e)) S); cbn [xorb]; intuition congruence.
Qed.

(** Without indirect deviation edges: all that acts on the nodes with sequences up to any number is carried by
    the trail edges that lead to the next sequence. *)
Lemma c97_levels : forall d tmax eta verbose form k, reachable d -> ready d -> direct_only d -> nonzero_trails d ->
  static_equilibrium d None tmax eta verbose = Ok form ->
  (forall e, In e (cut form (levels_to d k)) <->
     exists n m, edge_between d n m e /\ node_sequence d n = Ok k /\ node_sequence d m = Ok (k + 1))
  /\ (forall e n m, edge_between d n m e -> node_sequence d n = Ok k -> node_sequence d m = Ok (k + 1) -> inner_end (levels_to d k) e = n)
  /\ acting_on form (levels_to d k) = v0 /\ forall o, moment_on form (levels_to d k) o = v0.
Proof.
  intros d tmax eta verbose form k Hr R Di Nz E. assert (W := reachable_wf d Hr).
  assert (B := c31_direct_equilibrium _ _ _ _ _ Hr R Di Nz E).
  destruct (c37_frame _ _ _ _ _ _ Hr E) as (Nf&Ef&_).
  assert (P : part form (levels_to d k)).
  { split; [apply NoDup_filter, (wf_nodup _ W)|]. intros n I. rewrite Nf. unfold levels_to in I. now apply filter_In in I as [I _]. }
  assert (Sq : forall n, In n (nodes d) -> exists s, node_sequence d n = Ok s).
  { intros n I. destruct (ready_kof d n R I) as (s&Es&_). exists s. now apply seq_kof. }
  assert (Ends : forall e, In e (edges d) -> In (fst e) (nodes d) /\ In (snd e) (nodes d)).
  { intros e I. apply In_edges, has_edge_find in I as [a Ea]; auto. apply (wf_eends _ W e a Ea). }
  assert (Between : forall e n m, edge_between d n m e -> In e (edges d) /\ In n (nodes d) /\ In m (nodes d)).
  { intros e n m [I Q]. assert (I' : In e (edges d)).
    { apply In_trail_edges in I as (a&Ea&_); auto. apply In_edges; auto. apply has_edge_find. eauto. }
    split; auto. destruct (Ends e I') as [I1 I2]. destruct Q as [-> | ->]; auto. }
  split; [|split].
  - intros e. rewrite In_cut, Ef. split.
    + intros [I Q]. destruct (Ends e I) as [I1 I2]. destruct (Sq _ I1) as [s1 E1]. destruct (Sq _ I2) as [s2 E2].
      assert (U : forall n s, In n (nodes d) -> node_sequence d n = Ok s -> (In n (levels_to d k) <-> s <= k)).
      { intros n s J Es. rewrite levels_to_spec by auto. split; [intros (s'&_&Es'&L)|intros L; eauto].
        assert (s = s') by congruence. now subst. }
      rewrite (U _ s1 I1 E1), (U _ s2 I2 E2) in Q.
      destruct (edge_types d e W I) as [[Te _]|[De _]].
      * assert (J : trail_joined d (fst e) (snd e)) by (left; now destruct e).
        apply joined_follows in J as [J|J]; auto.
        -- assert (X := proj1 (follows_kof d _ _ s1 R J) (proj1 (seq_kof d _ _) E1)). apply seq_kof in X.
           assert (s2 = s1 + 1) by congruence. subst s2. assert (s1 = k) by lia. subst s1.
           exists (fst e), (snd e). split; [split; auto; left; now destruct e|auto].
        -- assert (X := proj1 (follows_kof d _ _ s2 R J) (proj1 (seq_kof d _ _) E2)). apply seq_kof in X.
           assert (s1 = s2 + 1) by congruence. subst s1. assert (s2 = k) by lia. subst s2.
           exists (snd e), (fst e). split; [split; auto; right; now destruct e|auto].
      * destruct e as [u v]. cbn [fst snd] in *. assert (X := Di u v De). assert (s1 = s2) by congruence. subst. lia.
    + intros (n&m&Q&En&Em). destruct (Between e n m Q) as (I&J1&J2). split; auto.
      assert (A : In n (levels_to d k)) by (apply levels_to_spec; eauto with zarith).
      assert (A' : ~ In m (levels_to d k)) by (rewrite levels_to_spec by auto; intros (s&_&Es&L); assert (s = k + 1) by congruence; lia).
      destruct Q as [_ [-> | ->]]; cbn [fst snd]; auto.
  - intros e n m Q En Em. destruct (Between e n m Q) as (I&J1&J2).
    assert (A : In n (levels_to d k)) by (apply levels_to_spec; eauto with zarith).
    assert (A' : ~ In m (levels_to d k)) by (rewrite levels_to_spec by auto; intros (s&_&Es&L); assert (s = k + 1) by congruence; lia).
    unfold inner_end. destruct Q as [_ [-> | ->]]; cbn [fst snd].
    + apply existsb_In in A. now rewrite A.
    + destruct (existsb (Z.eqb m) (levels_to d k)) eqn:X; auto. apply existsb_In in X. contradiction.
  - apply c97_section; auto. intros n I. apply B. apply P, I.
Qed.

(** ** Virtual work *)

Lemma vx_vsum l : vx (vsum l) = rsum (map vx l).
Proof. induction l as [|u l IH]; cbn [map]; [reflexivity|]. rewrite vsum_cons. change (rsum (vx u :: map vx l)) with (vx u + rsum (map vx l))%R. now rewrite <- IH. Qed.

Lemma rsum_map_vx {A} (h : A -> R) l : rsum (map h l) = vx (vsum (map (fun a => V3 (h a) 0 0)%R l)).
Proof. rewrite vx_vsum, map_map. f_equal. Qed.

(** The virtual work of what is out of balance *)
Lemma virtual_work f (w : Z -> rvec) : NoDup (nodes f) ->
  (forall e, In e (edges f) -> In (fst e) (nodes f) /\ In (snd e) (nodes f)) ->
  rsum (map (fun n => dot (w n) (unbalanced f n)) (nodes f))
  = (rsum (map (fun n => dot (w n) (load f n +v reaction f n)) (nodes f)) - rsum (map (fun e => force f e * elongation f w e) (edges f)))%R.
Proof.
  intros N Ends. set (g := fun (n : Z) (u : rvec) => (V3 (dot (w n) u) 0 0)%R).
  assert (P := pulls_on f g (nodes f) N).
  rewrite (rsum_map_vx (fun n => dot (w n) (unbalanced f n))).
  assert (Q : vsum (map (fun n => (V3 (dot (w n) (unbalanced f n)) 0 0)%R) (nodes f))
    = vsum (map (fun n => (V3 (dot (w n) (load f n +v reaction f n)) 0 0)%R) (nodes f))
      +v vsum (map (fun n => g n (vsum (map (pull f n) (incident f n)))) (nodes f))).
  { rewrite <- vsum_map_add. f_equal. apply map_ext. intros n. unfold g, unbalanced. apply vec_eq; vunf; ring. }
  rewrite Q, P; clear P Q.
  - rewrite (map_ext_in _ (fun e => (-1)%R *v (V3 (force f e * elongation f w e) 0 0)%R)).
    + rewrite vsum_map_scale. rewrite (rsum_map_vx (fun n => dot (w n) (load f n +v reaction f n))).
      rewrite (rsum_map_vx (fun e => (force f e * elongation f w e)%R)). vunf. ring.
    + intros e I. destruct (Ends e I) as [I1 I2]. apply existsb_In in I1, I2. rewrite I1, I2. destruct e as [u v]. cbn [fst snd].
      rewrite (c26_pulls f u v). unfold pull, far_end, elongation. cbn [fst snd]. rewrite Z.eqb_refl.
      set (D := direction (position f v -v position f u)). unfold g. apply vec_eq; vunf; ring.
  - intros n. unfold g. apply vec_eq; vunf; ring.
  - intros n u u'. unfold g. apply vec_eq; vunf; ring.
Qed.

Lemma produced_graph f : produced f ->
  NoDup (nodes f) /\ forall e, In e (edges f) -> In (fst e) (nodes f) /\ In (snd e) (nodes f).
Proof.
  intros Hr. assert (W := produced_wf f Hr). split; [apply (wf_nodup _ W)|]. intros e I.
  apply In_edges, has_edge_find in I as [a Ea]; auto. apply (wf_eends _ W e a Ea).
Qed.

(** Principle of virtual work: a structure is in equilibrium exactly if for any displacements of its nodes the work of loads and
    reactions is that of the edge forces on the elongations of the edges. *)
Lemma c98_virtual_work : forall f, produced f ->
  (balanced f <-> forall w : Z -> rvec,
     rsum (map (fun n => dot (w n) (load f n +v reaction f n)) (nodes f)) = rsum (map (fun e => force f e * elongation f w e)%R (edges f))).
Proof.
  intros f Hr. destruct (produced_graph f Hr) as [N Ends]. split.
  - intros B w. assert (V := virtual_work f w N Ends).
    assert (Z : rsum (map (fun n => dot (w n) (unbalanced f n)) (nodes f)) = 0%R).
    { rewrite rsum_map_vx, vsum_map_0; [reflexivity|]. intros n I. rewrite (B n I). apply vec_eq; vunf; ring. }
    rewrite Z in V. lra.
  - intros A n I. set (w := fun m => if n =? m then unbalanced f n else v0). assert (V := virtual_work f w N Ends). rewrite (A w) in V.
    assert (Q : rsum (map (fun m => dot (w m) (unbalanced f m)) (nodes f)) = dot (unbalanced f n) (unbalanced f n)).
    { rewrite rsum_map_vx. rewrite (vsum_single _ (nodes f) n); auto.
      - unfold w. rewrite Z.eqb_refl. reflexivity.
      - intros m _ Ne. unfold w. destruct (Z.eqb_spec n m); [congruence|]. apply vec_eq; vunf; ring. }
    rewrite Q in V. apply norm_0_inv. apply Rsqr_0_uniq. unfold Rsqr. rewrite norm_sq.
    change (@length_vector_sqrd R R_ops (unbalanced f n)) with (dot (unbalanced f n) (unbalanced f n)). lra.
Qed.

(** Maxwell's theorem: in equilibrium, the sum of force times length over all edges, negative for compression, is the sum of the products of
    loads and reactions with the positions where they act. *)
Lemma c98_maxwell : forall f, produced f -> balanced f ->
  rsum (map (fun e => force f e * span f e)%R (edges f)) = rsum (map (fun n => dot (position f n) (load f n +v reaction f n)) (nodes f)).
Proof.
  intros f Hr B. rewrite (proj1 (c98_virtual_work f Hr) B (position f)). f_equal. apply map_ext. intros e. f_equal.
  unfold span, elongation. set (u := position f (snd e) -v position f (fst e)). rewrite magnitude_norm, direction_unitv.
  destruct (Req_dec (norm u) 0) as [Z|Nz].
  - apply norm_0_inv in Z. rewrite Z, norm_v0. unfold dot. vunf. ring.
  - rewrite <- (norm_times_unitv u) at 3. assert (D : dot (unitv u) (unitv u) = 1%R).
    { change (dot (unitv u) (unitv u)) with (@length_vector_sqrd R R_ops (unitv u)). rewrite <- norm_sq, norm_unitv; [ring|].
      intros Z. apply Nz. rewrite Z. apply norm_v0. }
    transitivity (norm u * dot (unitv u) (unitv u))%R; [rewrite D; ring|]. vunf. ring.
Qed.

(** Displacements that stretch no edge do no work; translations and rotations are such displacements. *)
Lemma c98_rigid : forall f (w : Z -> rvec), produced f -> balanced f ->
  ((forall e, In e (edges f) -> elongation f w e = 0%R) -> rsum (map (fun n => dot (w n) (load f n +v reaction f n)) (nodes f)) = 0%R)
  /\ (forall t o r e, (forall n, w n = t +v cross r (position f n -v o)) -> elongation f w e = 0%R).
Proof.
  intros f w Hr B. split.
  - intros Z. rewrite (proj1 (c98_virtual_work f Hr) B w). rewrite rsum_map_vx, vsum_map_0; [reflexivity|].
    intros e I. rewrite (Z e I). apply vec_eq; vunf; ring.
  - intros t o r e Q. unfold elongation. rewrite !Q. unfold direction.
    set (a := position f (fst e)). set (b := position f (snd e)). vunf. unfold Rdiv. ring.
Qed.
