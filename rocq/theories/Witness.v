(** * Concrete instances

    The hypotheses of the theorems are met by diagrams built with the public calls
    over binary64 floats; counterexamples to the properties that do not hold. *)

From Coq Require Import String List ZArith Bool Lia Permutation Floats.
From Verif Require Import Py PyFacts Num Diagram Topology History Fixtures SpecDiagram SpecTopology.
Import ListNotations.
Open Scope Z_scope.

(** An integer as a float. *)
Definition zf (z : Z) : float :=
  match z with
  | Z0 => PrimFloat.zero
  | Zpos p => PrimFloat.of_uint63 (Uint63.of_Z (Zpos p))
  | Zneg p => PrimFloat.opp (PrimFloat.of_uint63 (Uint63.of_Z (Zpos p)))
  end.

Definition float_diagram := diagram float.
Definition fv (x y z : Z) : vec float := V3 (zf x) (zf y) (zf z).

(** The diagram after a history. *)
Definition made (ops : list (op float)) : diagram float := run empty_diagram ops.

Lemma id_order_same : same_set_order id_order.
Proof. intros l. apply Permutation_refl. Qed.

Lemma rev_order_same : same_set_order (@rev Z).
Proof. intros l. apply Permutation_sym, Permutation_rev. Qed.

Ltac valid := repeat first [apply Forall_nil | apply Forall_cons]; cbn; try exact I; try apply id_order_same;
  try apply rev_order_same.
Ltac made_reachable := eexists; split; [|reflexivity]; valid.
(** Decide membership in a computed list. *)
Ltac comp := vm_compute; first [reflexivity | tauto | intuition congruence].

(** The same on every part of a conjunction. *)
Ltac comps := lazymatch goal with |- _ /\ _ => split; [comps|comps] | |- _ => comp end.

(** The fixtures *)
Definition tower : diagram float := made (braced_tower_2d zf).
Definition tower_built : diagram float := made (braced_tower_2d zf ++ [build]).
Definition tree : diagram float := made (tree_2d zf).
Definition tower_chains : list (list Z) := [[2; 1; 0]; [5; 4; 3]].
Definition tree_chains : list (list Z) := [[3; 4]].

Lemma tower_reachable : reachable tower.
Proof. made_reachable. Qed.
Lemma tower_built_reachable : reachable tower_built.
Proof. made_reachable. Qed.
Lemma tree_reachable : reachable tree.
Proof. made_reachable. Qed.

(** Boolean checks of the chain specification on a concrete diagram. *)
Section Check.
  Context {T : Type} `{NumOps T}.
  Implicit Types (d : diagram T).

  Definition simple_b d : bool :=
    forallb (fun e : ekey => negb (@memb ekey _ (snd e, fst e) (edges d))) (edges d).
  Fixpoint steps_of (p : list Z) : list ekey :=
    match p with a :: ((b :: _) as q) => (a, b) :: steps_of q | _ => [] end.
  Definition nodup_b (l : list Z) : bool := Nat.eqb (List.length (nodup Z.eq_dec l)) (List.length l).
  Definition subset_b (l m : list Z) : bool := forallb (fun x => memb x m) l.
  Definition esub_b (l m : list ekey) : bool := forallb (fun x => @memb ekey _ x m) l.
  Definition flip (e : ekey) : ekey := (snd e, fst e).
  Definition chains_b d (P : list (list Z)) : bool :=
    simple_b d
    && forallb (fun p => Nat.leb 2 (List.length p)) P
    && nodup_b (concat P)
    && subset_b (concat P) (nodes d)
    && (let st := flat_map steps_of P in
        esub_b (trail_edges d) (st ++ map flip st)
        && esub_b st (trail_edges d ++ map flip (trail_edges d)))
    && subset_b (support_nodes d) (map (fun p => last p 0) P)
    && subset_b (map (fun p => last p 0) P) (support_nodes d).

  Lemma simple_b_ok d : simple_b d = true -> simple_graph d.
  Proof.
    unfold simple_b. rewrite forallb_forall. intros B u v I1 I2. apply B in I1. cbn in I1.
    apply negb_true_iff in I1. apply (@memb_nIn ekey _) in I1. auto.
  Qed.

  Lemma In_steps_of p a b : In (a, b) (steps_of p) <-> consecutive p a b.
  Proof.
    induction p as [|x p IH]; [split; [intros []|intros (l&r&E); destruct l; discriminate]|].
    destruct p as [|y p].
    - cbn. split; [intros []|]. intros (l&r&E). destruct l as [|z [|]]; discriminate.
    - cbn [steps_of In]. rewrite IH. split.
      + intros [E|(l&r&E)]; [injection E as <- <-; exists [], p; auto|].
        exists (x :: l), r. now rewrite E.
      + intros (l&r&E). destruct l as [|z l]; cbn in E; [injection E; intros; subst; auto|].
        injection E as -> E. right. exists l, r. auto.
  Qed.

  Lemma subset_b_ok l m : subset_b l m = true -> incl l m.
  Proof. unfold subset_b. rewrite forallb_forall. intros B x I. apply memb_In. auto. Qed.

  Lemma esub_b_ok l m : esub_b l m = true -> incl l m.
  Proof. unfold esub_b. rewrite forallb_forall. intros B x I. apply (@memb_In ekey _). auto. Qed.

  Lemma nodup_b_ok l : nodup_b l = true -> NoDup l.
  Proof.
    unfold nodup_b. intros E. apply Nat.eqb_eq in E.
    eapply NoDup_incl_NoDup; [apply (NoDup_nodup Z.eq_dec l)|lia|].
    intros x I. now apply nodup_In in I.
  Qed.

  Lemma last_ends p n : (1 <= List.length p)%nat -> (ends_in p n <-> last p 0 = n).
  Proof.
    intros L. split.
    - intros [l ->]. apply last_last.
    - intros <-. destruct p as [|x p]; [cbn in L; lia|].
      exists (removelast (x :: p)). now apply app_removelast_last.
  Qed.

  Lemma In_flip e l : In e (map flip l) <-> In (flip e) l.
  Proof.
    rewrite in_map_iff. unfold flip. split.
    - intros (x&<-&I). cbn. now destruct x.
    - intros I. exists (snd e, fst e). cbn. now destruct e.
  Qed.

  Lemma chains_b_ok d P : chains_b d P = true -> chains d P.
  Proof.
    unfold chains_b. rewrite !andb_true_iff. intros ((((((S&L)&N)&I)&(E1&E2))&U1)&U2).
    rewrite forallb_forall in L.
    assert (L' : forall p, In p P -> (2 <= List.length p)%nat).
    { intros p Ip. apply L in Ip. now apply Nat.leb_le in Ip. }
    apply esub_b_ok in E1, E2. apply subset_b_ok in U1, U2, I.
    constructor; auto; [now apply simple_b_ok|now apply nodup_b_ok| |].
    - intros a b. unfold trail_joined.
      assert (X : forall a b, (exists p, In p P /\ consecutive p a b) <-> In (a, b) (flat_map steps_of P)).
      { intros x y. rewrite in_flat_map. split; intros (p&Ip&C); exists p; split; auto; now apply In_steps_of. }
      split.
      + intros J. assert (Y : In (a, b) (flat_map steps_of P) \/ In (b, a) (flat_map steps_of P)).
        { destruct J as [J|J]; apply E1, in_app_iff in J as [J|J]; auto; apply In_flip in J; auto. }
        destruct Y as [Y|Y]; apply X in Y as (p&Ip&C); eauto.
      + intros (p&Ip&[C|C]).
        * assert (Y : In (a, b) (flat_map steps_of P)) by (apply X; eauto).
          apply E2, in_app_iff in Y as [Y|Y]; auto. apply In_flip in Y. auto.
        * assert (Y : In (b, a) (flat_map steps_of P)) by (apply X; eauto).
          apply E2, in_app_iff in Y as [Y|Y]; auto. apply In_flip in Y. auto.
    - intros n. split.
      + intros Y. apply U1, in_map_iff in Y as (p&Y&Ip). exists p. split; auto.
        apply last_ends; auto. apply L' in Ip. lia.
      + intros (p&Ip&Y). apply last_ends in Y; [|apply L' in Ip; lia]. apply U2, in_map_iff. eauto.
  Qed.

  Lemma covers_b_ok d P : subset_b (nodes d) (concat P) = true -> covers d P.
  Proof. intros E n I. now apply (subset_b_ok _ _ E). Qed.
End Check.

Lemma tower_chains_ok : chains tower tower_chains /\ covers tower tower_chains.
Proof. split; [apply chains_b_ok|apply covers_b_ok]; vm_compute; reflexivity. Qed.

Lemma tree_chains_ok : chains tree tree_chains /\ nodes tree <> [] /\ ~ covers tree tree_chains.
Proof.
  split; [apply chains_b_ok; vm_compute; reflexivity|]. split; [vm_compute; discriminate|].
  intros C. specialize (C 1). vm_compute in C. intuition congruence.
Qed.

(** ** Counterexamples *)

(** Moving a node leaves the entry of its former location in the lookup table. *)
Lemma c10_refuted : exists (d : diagram float) k p q d', reachable d /\ In k (nodes d)
  /\ node_coordinates d k = Ok q /\ update_node_xyz k p d = (d', Ok tt)
  /\ node_coordinates d' k = Ok p /\ rounded (d_tol d') p <> rounded (d_tol d') q
  /\ node_key d' (RXyz q) = Some k.
Proof.
  exists tower, 1, (fv 9 9 9), (fv 0 1 0), (fst (update_node_xyz 1 (fv 9 9 9) tower)). split; [apply tower_reachable|].
  split; [comp|]. split; [comp|]. split; [comp|]. split; [comp|]. split; [vm_compute; discriminate|comp].
Qed.

(** A node moved onto the location of another node makes add_edge weld to it. *)

(** With a trail edge from a node to itself a trail repeats a node. *)
Definition self_loop : list (op float) :=
  [node zf 0 0 0 0; node zf 1 1 0 0; trail_e zf 0 1 1; trail_e zf 0 0 1; sup 1].
Lemma c12_self_loop_refuted : exists (d d' : diagram float) key tr, reachable d
  /\ build_trails id_order false d = (d', Ok tt) /\ In (key, tr) (trails d') /\ ~ NoDup tr.
Proof.
  exists (made self_loop), (made (self_loop ++ [build])). exists 0, [0; 0; 1]. split; [made_reachable|].
  split; [vm_compute; reflexivity|]. split; [comp|].
  intros N. inversion N as [|? ? Hn _]. apply Hn. now left.
Qed.

(** With a trail edge in one direction and a deviation edge in the other the
    trail stops although a trail edge continues. *)
Definition antiparallel : list (op float) :=
  [node zf 2 2 0 0; node zf 0 0 0 0; node zf 1 1 0 0; trail_e zf 0 1 1; trail_e zf 1 2 1; dev_e zf 1 0 1;
   sup 2; sup 0].
Lemma c12_antiparallel_refuted : exists (d d' : diagram float) key tr m, reachable d
  /\ build_trails id_order false d = (d', Ok tt) /\ In (key, tr) (trails d')
  /\ trail_joined d' key m /\ ~ In m tr.
Proof.
  exists (made antiparallel), (made (antiparallel ++ [build])). exists 1, [1; 2], 0. split; [made_reachable|].
  split; [vm_compute; reflexivity|]. split; [comp|]. split; [right; comp|comp].
Qed.

(** Two trails that start at the same origin: the first one is overwritten. *)
Definition fork : list (op float) :=
  [node zf 0 0 0 0; node zf 1 1 0 0; node zf 2 2 0 0; node zf 3 3 0 0;
   trail_e zf 1 2 1; trail_e zf 1 3 1; trail_e zf 0 1 1; sup 2; sup 3].
Lemma c15_refuted : exists (d d' : diagram float) n, reachable d /\ simple_graph d
  /\ build_trails id_order false d = (d', Ok tt) /\ In n (nodes d')
  /\ forall key tr, In (key, tr) (trails d') -> ~ In n tr.
Proof.
  exists (made fork), (made (fork ++ [build])). exists 2. split; [made_reachable|]. split; [apply simple_b_ok; vm_compute; reflexivity|].
  split; [vm_compute; reflexivity|]. split; [comp|].
  intros key tr I. vm_compute in I. destruct I as [I|[]]. injection I as <- <-. vm_compute. intuition congruence.
Qed.

(** A star whose three tips are supported: the hub lies on two stored trails. *)
Definition star : list (op float) :=
  [node zf 4 0 0 0; node zf 3 1 0 0; node zf 2 2 0 0; node zf 1 3 0 0;
   trail_e zf 1 2 1; trail_e zf 1 3 1; trail_e zf 1 4 1; sup 2; sup 3; sup 4].
Lemma c15_twice_refuted : exists (d d' : diagram float) n, reachable d /\ simple_graph d
  /\ build_trails id_order false d = (d', Ok tt) /\ In n (nodes d')
  /\ exists key tr key' tr', In (key, tr) (trails d') /\ In n tr
       /\ In (key', tr') (trails d') /\ In n tr' /\ key <> key'.
Proof.
  exists (made star), (made (star ++ [build])), 1. split; [made_reachable|].
  split; [apply simple_b_ok; vm_compute; reflexivity|].
  split; [vm_compute; reflexivity|]. split; [comp|].
  exists 3, [3; 1; 4], 4, [4; 1; 2]. comps.
Qed.

(** A support without trail edges: the first call succeeds and turns it into an
    origin, the second call raises. *)
Definition isolated : list (op float) :=
  [node zf 0 0 0 0; node zf 1 1 0 0; node zf 2 2 0 0; trail_e zf 0 1 1; sup 1; sup 2].
Lemma c16_refuted : exists (d d' : diagram float) d'' msg, reachable d /\ simple_graph d
  /\ build_trails id_order false d = (d', Ok tt)
  /\ build_trails id_order false d' = (d'', Err (AssertionError msg)).
Proof.
  exists (made isolated), (made (isolated ++ [build])), (made (isolated ++ [build; build])).
  eexists. split; [made_reachable|]. split; [apply simple_b_ok; vm_compute; reflexivity|].
  split; vm_compute; reflexivity.
Qed.

(** Auxiliary trails are forgotten by the second call. *)
Lemma c18_refuted : exists (d d' d'' : diagram float), reachable d
  /\ build_trails id_order true d = (d', Ok tt) /\ List.length (auxiliary_trails d') = 2%nat
  /\ build_trails id_order true d' = (d'', Ok tt)
  /\ edges d'' = edges d' /\ auxiliary_trails d'' = [] /\ auxiliary_trail_edges d'' = [].
Proof.
  exists tree, (made (tree_2d zf ++ [build_aux])), (made (tree_2d zf ++ [build_aux; build_aux])).
  split; [apply tree_reachable|]. comps.
Qed.

(** A trail with both ends supported: one of the supports becomes an origin. *)
Definition both_ends : list (op float) :=
  [node zf 0 0 0 0; node zf 1 1 0 0; node zf 2 2 0 0; trail_e zf 0 1 1; trail_e zf 1 2 1; sup 0; sup 2].
Lemma c59_refuted : exists (d d' : diagram float) n, reachable d /\ simple_graph d
  /\ build_trails id_order false d = (d', Ok tt)
  /\ is_node_support d n = Ok true /\ is_node_support d' n = Ok false.
Proof.
  exists (made both_ends), (made (both_ends ++ [build])), 2. split; [made_reachable|].
  split; [apply simple_b_ok; vm_compute; reflexivity|].
  split; [vm_compute; reflexivity|]. split; comp.
Qed.

(** An edge from a new location to a key that does not exist: the call raises, and
    the node of the new location stays. *)
Lemma c60_refuted : exists (d d' : diagram float) u v el e, reachable d
  /\ add_edge u v el d = (d', Err e) /\ nodes d' <> nodes d.
Proof.
  exists tower. eexists. exists (RXyz (fv 7 7 7)), (RKey 99), (DeviationEdge (zf 1)). eexists.
  split; [apply tower_reachable|]. split; [vm_compute; reflexivity|]. vm_compute. discriminate.
Qed.
