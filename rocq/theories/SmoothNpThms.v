(** * Small changes and the array program (C102) *)

From Coq Require Import String List ZArith Bool Lia Reals Lra.
From Verif Require Import Py PyFacts Num Diagram DiagramFacts Topology History HistoryFacts SpecDiagram SpecTopology BuildFacts
  Equilibrium EquilibriumNp SpecEquilibrium SpecStatics SpecNumpy RVec NpThms EqThms StaticsThms SpecUnique UniqueThms
  SpecSmooth SmoothThms GradientThms.
Import ListNotations.
Open Scope Z_scope.

(** Finitely many conditions that hold for small enough numbers hold together. *)
Lemma small_list {A} (P : A -> R -> Prop) (l : list A) :
  (forall a x y, (0 < x <= y)%R -> P a y -> P a x) ->
  (forall a, In a l -> exists m, (0 < m)%R /\ P a m) ->
  exists m, (0 < m)%R /\ forall a, In a l -> P a m.
Proof.
  intros Mo. induction l as [|a l IH]; intros H; [exists 1%R; split; [lra|intros ? []]|].
  destruct (H a (or_introl eq_refl)) as (m1&P1&H1). destruct IH as (m2&P2&H2); [intros b I; apply H; now right|].
  exists (Rmin m1 m2). assert (Q : (0 < Rmin m1 m2)%R) by (apply Rmin_glb_lt; auto). split; [exact Q|].
  intros b [<-|I]; [apply (Mo a _ m1)|apply (Mo b _ m2)]; auto; split; auto; [apply Rmin_l|apply Rmin_r].
Qed.

(** Vectors that are apart stay apart under small changes. *)
Lemma apart_gap (p q : rvec) : p <> q -> exists m, (0 < m)%R /\ (2 * m <= Rabs (vx p - vx q) \/ 2 * m <= Rabs (vy p - vy q) \/ 2 * m <= Rabs (vz p - vz q))%R.
Proof.
  intros N. destruct p as [a b c], q as [a' b' c']. cbn [vx vy vz].
  assert (G : forall x y, x <> y -> (0 < Rabs (x - y))%R) by (intros x y D; apply Rabs_pos_lt; lra).
  destruct (Req_dec a a') as [->|Da]; [|exists (Rabs (a - a') / 2)%R; specialize (G _ _ Da); split; [lra|left; lra]].
  destruct (Req_dec b b') as [->|Db]; [|exists (Rabs (b - b') / 2)%R; specialize (G _ _ Db); split; [lra|right; left; lra]].
  destruct (Req_dec c c') as [->|Dc]; [contradiction|].
  exists (Rabs (c - c') / 2)%R. specialize (G _ _ Dc). split; [lra|right; right; lra].
Qed.

(** Forms near a form whose trail edges carry force and whose deviation edges have their
    ends apart are such forms too. *)
Lemma sound_near (d form : diagram R) : wf d -> carrying d form -> apart d form ->
  exists m, (0 < m)%R /\ forall d' form', same_layout d d' -> similar_forms m d form form' -> carrying d' form' /\ apart d' form'.
Proof.
  intros W Ca Ap.
  destruct (small_list (fun e m => (m <= Rabs (force form e))%R) (trail_edges d)) as (m1&P1&H1).
  { intros; lra. }
  { intros e I. exists (Rabs (force form e)). split; [apply Rabs_pos_lt, (Ca e I)|lra]. }
  destruct (small_list (fun e m => let p := position form (fst e) in let q := position form (snd e) in
      2 * m <= Rabs (vx p - vx q) \/ 2 * m <= Rabs (vy p - vy q) \/ 2 * m <= Rabs (vz p - vz q))%R (deviation_edges d)) as (m2&P2&H2).
  { cbv zeta. intros; lra. }
  { intros [u v] I. exact (apart_gap _ _ (Ap u v I)). }
  exists (Rmin m1 m2). split; [apply Rmin_glb_lt; auto|]. assert (L1 := Rmin_l m1 m2). assert (L2 := Rmin_r m1 m2).
  intros d' form' Ly [Sp _ Sf]. split.
  - intros e I Z. rewrite (ly_trail_edges _ _ Ly) in I.
    assert (Ie : In e (edges d)) by (apply In_trail_edges in I as (a&Ea&_); auto; apply In_edges; auto; apply has_edge_find; now exists a).
    assert (S := Sf e Ie). specialize (H1 e I). unfold near_by in S. rewrite Z, Rminus_0_l, Rabs_Ropp in S. lra.
  - intros u v I Z. rewrite (ly_deviation_edges _ _ Ly) in I. destruct (deviation_ends d u v W I) as [Iu Iv].
    destruct (Sp u Iu) as (A1&A2&A3), (Sp v Iv) as (B1&B2&B3). specialize (H2 (u, v) I). cbv zeta in H2. cbn [fst snd] in H2.
    unfold near_by in *. rewrite Z in *.
    assert (T : forall x a b, (Rabs (x - a) < Rmin m1 m2 -> Rabs (x - b) < Rmin m1 m2 -> Rabs (a - b) < 2 * m2)%R).
    { intros x a b X Y. apply Rabs_def2 in X. apply Rabs_def2 in Y. apply Rabs_def1; lra. }
    specialize (T _ _ _ A1 B1) as T1. specialize (T _ _ _ A2 B2) as T2. specialize (T _ _ _ A3 B3) as T3. lra.
Qed.

(** The array program is continuous too, and near such a topology it is the reference
    program: it fails, or finds the same form, for the same inputs. *)
Lemma c102_numpy : forall d tmax eta verbose form, reachable d -> ready d -> direct_only d -> nonzero_trails d ->
  static_equilibrium d None tmax eta verbose = Ok form -> carrying d form -> definite d form -> apart d form ->
  forall epsilon, (0 < epsilon)%R -> exists delta, (0 < delta)%R
    /\ forall d' tmax' eta' verbose', reachable d' -> ready d' -> same_layout d d' -> similar_inputs delta d d' ->
       static_equilibrium_numpy d' tmax' eta' verbose' = static_equilibrium d' None tmax' eta' verbose'
       /\ forall form', static_equilibrium_numpy d' tmax' eta' verbose' = Ok form' -> similar_forms epsilon d form form'.
Proof.
  intros d tmax eta verbose form Hr R0 Di Nz E Ca De Ap epsilon Pe. assert (W := reachable_wf _ Hr).
  destruct (sound_near d form W Ca Ap) as (m&Pm&Hm).
  destruct (c102_continuous d tmax eta verbose form Hr R0 Di Nz E Ca De Ap (Rmin epsilon m)) as (delta&Pd&H); [apply Rmin_glb_lt; auto|].
  exists delta. split; [exact Pd|]. intros d' tmax' eta' verbose' Hr' R' Ly Si.
  assert (Di' : direct_only d').
  { intros u v I. rewrite (ly_deviation_edges _ _ Ly) in I. destruct (deviation_ends _ u v W I) as [Iu Iv].
    rewrite (ly_sequences _ _ Ly u Iu), (ly_sequences _ _ Ly v Iv). exact (Di u v I). }
  assert (Mn : forall a b u w, (a <= b)%R -> near_by a u w -> near_by b u w) by (unfold near_by; intros; lra).
  assert (Mf : forall b f', (Rmin epsilon m <= b)%R -> similar_forms (Rmin epsilon m) d form f' -> similar_forms b d form f').
  { intros b f' L [A1 A2 A3]. constructor; intros x I;
      [destruct (A1 x I) as (?&?&?); repeat split; eapply Mn; eauto|destruct (A2 x I) as (?&?&?); repeat split; eapply Mn; eauto|eapply Mn; eauto]. }
  destruct (c35_success d' None 1 0%R false Hr' R' Di') as (f0&E0&_); [exact I|lia|lra|discriminate|].
  assert (S0 := H d' 1 0%R false f0 Hr' R' Ly Si E0).
  destruct (Hm d' f0 Ly (Mf m f0 (Rmin_r _ _) S0)) as [C0 A0].
  assert (Eq := c41_direct d' 0%R f0 Hr' R' Di' E0 (sound_of d' f0 C0 A0) tmax' eta' verbose').
  split; [exact Eq|]. intros form' E'. rewrite Eq in E'.
  exact (Mf epsilon form' (Rmin_l _ _) (H d' tmax' eta' verbose' form' Hr' R' Ly Si E')).
Qed.
