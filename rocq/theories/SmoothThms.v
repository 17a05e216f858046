(** * Small changes of the input make small changes of the form, and smooth ones smooth ones *)

From Coq Require Import String List ZArith Bool Lia Permutation Reals Lra.
From Verif Require Import Py PyFacts Num Diagram DiagramFacts Topology SpecDiagram SpecTopology
  TopologyFacts BuildFacts ChainFacts ChainFacts2 History HistoryFacts DiagramThms TopologyThms SequenceThms
  Equilibrium SpecEquilibrium EqFacts FormFacts ReadyThms TypedFacts EqThms RVec SpecStatics StaticsFacts StaticsThms SpecUnique UniqueThms
  SpecSmooth.
Import ListNotations.
Open Scope Z_scope.

(** ** Functions that vary nicely at a point

    Both continuity and differentiability are closed under the operations that form finding
    consists of.  The proof about form finding is done once, for anything that is. *)

Record calculus {X : Type} (x0 : X) (near : (X -> Prop) -> Prop) (nice : (X -> R) -> Prop) : Prop := {
  ca_all : forall P : X -> Prop, (forall x, P x) -> near P;
  ca_and : forall P Q : X -> Prop, near P -> near Q -> near (fun x => P x /\ Q x);
  ca_mono : forall P Q : X -> Prop, (forall x, P x -> Q x) -> near P -> near Q;
  ca_at : forall P : X -> Prop, near P -> P x0;
  ca_pos : forall f, nice f -> (0 < f x0)%R -> near (fun x => 0 < f x)%R;
  ca_ext : forall f g, near (fun x => f x = g x) -> nice f -> nice g;
  ca_const : forall c, nice (fun _ => c);
  ca_add : forall f g, nice f -> nice g -> nice (fun x => f x + g x)%R;
  ca_mul : forall f g, nice f -> nice g -> nice (fun x => f x * g x)%R;
  ca_inv : forall f, nice f -> f x0 <> 0%R -> nice (fun x => / f x)%R;
  ca_sqrt : forall f, nice f -> (0 < f x0)%R -> nice (fun x => sqrt (f x))
}.

Section Calculus.
  Context {X : Type} (x0 : X) (near : (X -> Prop) -> Prop) (nice : (X -> R) -> Prop) (C : calculus x0 near nice).

  Definition nicev (u : X -> rvec) : Prop := nice (fun x => vx (u x)) /\ nice (fun x => vy (u x)) /\ nice (fun x => vz (u x)).

  Lemma nice_opp f : nice f -> nice (fun x => - f x)%R.
  Proof using C.
    intros N. apply (ca_ext _ _ _ C (fun x => (-1) * f x)%R).
    - apply (ca_all _ _ _ C). intros x. ring.
    - apply (ca_mul _ _ _ C); auto. apply (ca_const _ _ _ C).
  Qed.
  Lemma nice_sub f g : nice f -> nice g -> nice (fun x => f x - g x)%R.
  Proof using C. intros Nf Ng. unfold Rminus. apply (ca_add _ _ _ C); auto. now apply nice_opp. Qed.
  Lemma nicev_ext u w : near (fun x => u x = w x) -> nicev u -> nicev w.
  Proof using C.
    intros E (A&B&D). repeat split; [revert A|revert B|revert D]; apply (ca_ext _ _ _ C);
      revert E; apply (ca_mono _ _ _ C); intros x ->; reflexivity.
  Qed.
  Lemma nicev_const c : nicev (fun _ => c).
  Proof using C. repeat split; apply (ca_const _ _ _ C). Qed.
  Lemma nicev_add u w : nicev u -> nicev w -> nicev (fun x => u x +v w x).
  Proof using C. intros (A1&A2&A3) (B1&B2&B3). repeat split; cbn; now apply (ca_add _ _ _ C). Qed.
  Lemma nicev_sub u w : nicev u -> nicev w -> nicev (fun x => u x -v w x).
  Proof using C. intros (A1&A2&A3) (B1&B2&B3). repeat split; cbn; now apply nice_sub. Qed.
  Lemma nicev_scale s u : nice s -> nicev u -> nicev (fun x => s x *v u x).
  Proof using C. intros A (B1&B2&B3). repeat split; cbn; now apply (ca_mul _ _ _ C). Qed.
  Lemma nice_dot u w : nicev u -> nicev w -> nice (fun x => dot (u x) (w x)).
  Proof using C. intros (A1&A2&A3) (B1&B2&B3). cbn. repeat apply (ca_add _ _ _ C); now apply (ca_mul _ _ _ C). Qed.

  Lemma sqrd_pos u : u <> v0 -> (0 < @length_vector_sqrd R R_ops u)%R.
  Proof using. intros N. rewrite <- norm_sq. assert (P := norm_pos u N). nra. Qed.
  Lemma nice_norm u : nicev u -> u x0 <> v0 -> nice (fun x => norm (u x)).
  Proof using C.
    intros N P. unfold length_vector. cbn [nsqrt R_ops]. apply (ca_sqrt _ _ _ C); [|now apply sqrd_pos].
    apply (nice_dot u u N N).
  Qed.
  Lemma near_ne f : nice f -> f x0 <> 0%R -> near (fun x => f x <> 0%R).
  Proof using C.
    intros N P. destruct (Rlt_dec 0 (f x0)) as [L|L].
    - apply (ca_mono _ _ _ C) with (2 := ca_pos _ _ _ C f N L). intros x Px. lra.
    - apply (ca_mono _ _ _ C) with (2 := ca_pos _ _ _ C _ (nice_opp f N) ltac:(cbv beta; lra)). intros x Px. cbv beta in Px. lra.
  Qed.
  Lemma near_lt f c : nice f -> (f x0 < c)%R -> near (fun x => f x < c)%R.
  Proof using C.
    intros N P. assert (Q : nice (fun x => c - f x)%R) by (apply nice_sub; auto; apply (ca_const _ _ _ C)).
    apply (ca_mono _ _ _ C) with (2 := ca_pos _ _ _ C _ Q ltac:(cbv beta; lra)). intros x Px. cbv beta in Px. lra.
  Qed.
  Lemma near_gt f c : nice f -> (c < f x0)%R -> near (fun x => c < f x)%R.
  Proof using C.
    intros N P. assert (Q : nice (fun x => f x - c)%R) by (apply nice_sub; auto; apply (ca_const _ _ _ C)).
    apply (ca_mono _ _ _ C) with (2 := ca_pos _ _ _ C _ Q ltac:(cbv beta; lra)). intros x Px. cbv beta in Px. lra.
  Qed.
  Lemma near_nev u : nicev u -> u x0 <> v0 -> near (fun x => u x <> v0).
  Proof using C.
    intros N P. apply (ca_mono _ _ _ C) with (2 := ca_pos _ _ _ C _ (nice_dot u u N N) (sqrd_pos _ P)).
    intros x Px E. rewrite E in Px. vunf. lra.
  Qed.
  Lemma nicev_unitv u : nicev u -> u x0 <> v0 -> nicev (fun x => unitv (u x)).
  Proof using C.
    intros N P. assert (Nn := norm_pos _ P). apply (nicev_ext (fun x => (/ norm (u x)) *v u x)).
    - apply (ca_mono _ _ _ C) with (2 := near_nev u N P). intros x Px. now rewrite unitv_scale.
    - apply nicev_scale; auto. apply (ca_inv _ _ _ C); [now apply nice_norm|lra].
  Qed.
  Lemma nicev_direction u : nicev u -> u x0 <> v0 -> nicev (fun x => direction (u x)).
  Proof using C.
    intros N P. apply (nicev_ext (fun x => unitv (u x))); [|now apply nicev_unitv].
    apply (ca_all _ _ _ C). intros x. now rewrite direction_unitv.
  Qed.
  Lemma nicev_vsum {A} (u : A -> X -> rvec) l : (forall a, In a l -> nicev (u a)) -> nicev (fun x => vsum (map (fun a => u a x) l)).
  Proof using C.
    induction l as [|a l IH]; intros N; cbn [map vsum fold_right]; [apply nicev_const|].
    apply nicev_add; [apply N; now left|]. apply IH. intros b I. apply N. now right.
  Qed.
  Lemma near_list {A} (P : A -> X -> Prop) l : (forall a, In a l -> near (P a)) -> near (fun x => forall a, In a l -> P a x).
  Proof using C.
    induction l as [|a l IH]; intros N.
    - apply (ca_all _ _ _ C). intros x a [].
    - assert (N1 := N a (or_introl eq_refl)). assert (N2 := IH (fun b I => N b (or_intror I))).
      apply (ca_mono _ _ _ C) with (2 := ca_and _ _ _ C _ _ N1 N2). intros x [A1 A2] b [<-|I]; auto.
  Qed.
End Calculus.

(** ** One trail edge *)

Lemma v3_eq (u w : rvec) : vx u = vx w -> vy u = vy w -> vz u = vz w -> u = w.
Proof. destruct u, w. cbn. congruence. Qed.

(** The signed distance at which a trail edge ends *)
Definition signed (x : R) (a : R) : R := if Rlt_dec x 0 then (- a)%R else a.

Section Edge.
  Context {X : Type} (x0 : X) (near : (X -> Prop) -> Prop) (nice : (X -> R) -> Prop) (C : calculus x0 near nice).
  Notation nicev := (nicev nice).

  (** The far end and the force of a trail edge, from the pull and the signed distance *)
  Lemma end_nice (p q r : X -> rvec) (fo y : X -> R) : nicev p -> nicev r -> r x0 <> v0 -> nice y -> y x0 <> 0%R ->
    near (fun x => q x -v p x = y x *v unitv (r x) /\ fo x = signed (y x) (norm (r x))) -> nicev q /\ nice fo.
  Proof using C.
    intros Np Nr R0 Ny Y0 E. split.
    - apply (nicev_ext x0 near nice C (fun x => p x +v y x *v unitv (r x))).
      + apply (ca_mono _ _ _ C) with (2 := E). intros x [<- _]. vring.
      + apply (nicev_add x0 near nice C); auto. apply (nicev_scale x0 near nice C); auto. apply (nicev_unitv x0 near nice C); auto.
    - assert (Nn := nice_norm x0 near nice C r Nr R0). destruct (Rlt_dec (y x0) 0) as [L|L].
      + apply (ca_ext _ _ _ C (fun x => - norm (r x))%R); [|now apply (nice_opp x0 near nice C)].
        apply (ca_mono _ _ _ C) with (2 := ca_and _ _ _ C _ _ E (near_lt x0 near nice C y 0%R Ny L)).
        intros x [[_ ->] Lx]. unfold signed. destruct (Rlt_dec (y x) 0); [auto|lra].
      + apply (ca_ext _ _ _ C (fun x => norm (r x))%R); auto.
        apply (ca_mono _ _ _ C) with (2 := ca_and _ _ _ C _ _ E (near_gt x0 near nice C y 0%R Ny ltac:(lra))).
        intros x [[_ ->] Lx]. unfold signed. destruct (Rlt_dec (y x) 0); [lra|auto].
  Qed.

  Lemma edge_nice (D F : X -> diagram R) n m e :
    near (fun x => edge_between (D x) n m e /\ (exists l, edge_length_2 (D x) e = Ok l)
                   /\ (force (F x) e <> 0%R -> as_asked (D x) (F x) n m e)
                   /\ (edge_plane (D x) e = Ok None <-> edge_plane (D x0) e = Ok None)
                   /\ far_end e n = m) ->
    nicev (fun x => position (F x) n) -> nicev (fun x => pull (F x) n e) -> pull (F x0) n e <> v0 ->
    nice (fun x => given_length (D x) e) -> given_length (D x0) e <> 0%R ->
    nicev (fun x => fst (plane_of (D x) e)) -> nicev (fun x => snd (plane_of (D x) e)) ->
    (forall o nrm, edge_plane (D x0) e = Ok (Some (o, nrm)) ->
      let c := Rabs (dot nrm (direction (position (F x0) m -v position (F x0) n))) in
      (c < / 1000000)%R \/ (/ 1000000 < c)%R /\ ~ on_plane (position (F x0) n) o nrm) ->
    nicev (fun x => position (F x) m) /\ nice (fun x => force (F x) e).
  Proof using C.
    intros A Np Nr R0 Nl L0 No Nn De.
    set (p := fun x => position (F x) n) in *. set (q := fun x => position (F x) m) in *.
    set (r := fun x => pull (F x) n e) in *. set (fo := fun x => force (F x) e).
    set (l := fun x => given_length (D x) e) in *. set (c := fun x => dot (snd (plane_of (D x) e)) (unitv (r x))).
    assert (Nc : nice c). { apply (nice_dot x0 near nice C); auto. apply (nicev_unitv x0 near nice C); auto. }
    assert (Nr' := near_nev x0 near nice C r Nr R0).
    (** what is known of the edge near the point *)
    set (s := fun x => signed (fo x) (norm (q x -v p x))).
    assert (K : forall x, far_end e n = m -> r x <> v0 -> q x -v p x <> v0 /\ q x -v p x = s x *v unitv (r x)
                  /\ fo x = signed (fo x) (norm (r x)) /\ fo x <> 0%R).
    { intros x Fe Rx. unfold r, pull in Rx. rewrite Fe in Rx.
      destruct (unit_of_pull _ _ _ eq_refl Rx) as (U1&U2&U3). unfold r, pull. rewrite Fe. repeat split; auto.
      intros Z. apply Rx. unfold fo in Z. rewrite Z. apply vscale_0. }
    assert (G : forall x, edge_between (D x) n m e -> far_end e n = m -> r x <> v0 -> as_given (F x) e (l x) ->
                  q x -v p x = l x *v unitv (r x) /\ fo x = signed (l x) (norm (r x))).
    { intros x B Fe Rx [G1 G2]. destruct (K x Fe Rx) as (U1&U2&U3&U4).
      rewrite (span_between (D x) (F x) n m e B) in G1. fold (q x) (p x) in G1. fold (fo x) in G2.
      assert (Y : s x = l x).
      { unfold s, signed. rewrite G1. destruct (Rlt_dec (fo x) 0).
        - rewrite Rabs_left by tauto. ring.
        - apply Rabs_right. apply Rle_ge, Rnot_lt_le. tauto. }
      rewrite <- Y at 1. split; auto. rewrite U3 at 1. unfold signed. destruct (Rlt_dec (fo x) 0), (Rlt_dec (l x) 0); tauto || auto. }
    destruct (ca_at _ _ _ C _ A) as (_&[l' _]&_&_&Fe0).
    assert (Given : near (fun x => as_given (F x) e (l x)) -> nicev q /\ nice fo).
    { intros V. apply (end_nice p q r fo l); auto.
      apply (ca_mono _ _ _ C) with (2 := ca_and _ _ _ C _ _ V (ca_and _ _ _ C _ _ A Nr')).
      intros x (V1&(V2&_&_&_&V3)&V4). now apply G. }
    assert (Lx : forall x l', edge_length_2 (D x) e = Ok l' -> l x = l').
    { intros x l'' E. unfold l, given_length. now rewrite E. }
    assert (Pl : exists pl, edge_plane (D x0) e = Ok pl).
    { destruct (ca_at _ _ _ C _ A) as (_&[l'' E]&_). unfold edge_plane, edge_length_2 in *.
      destruct (edge_get (D x0) e); [|discriminate]. cbn. eauto. }
    destruct Pl as [[[o nrm]|] Pl].
    2:{ apply Given. apply (ca_mono _ _ _ C) with (2 := ca_and _ _ _ C _ _ A Nr'). intros x ((B&[l'' E]&As&P&Fe)&Rx).
        destruct (K x Fe Rx) as (_&_&_&Nf). specialize (As Nf _ E). rewrite (proj2 P Pl) in As. now rewrite (Lx x _ E). }
    (** with a plane *)
    assert (P : near (fun x => edge_plane (D x) e = Ok (Some (plane_of (D x) e)))).
    { apply (ca_mono _ _ _ C) with (2 := A). intros x (_&[l'' E]&_&P&_). unfold plane_of.
      unfold edge_plane, edge_length_2 in *. destruct (edge_get (D x) e) as [a|]; [|discriminate]. cbn in *.
      destruct (ea_plane a); auto. destruct P as [P _]. specialize (P eq_refl). rewrite Pl in P. discriminate. }
    assert (Dn : forall x nrm', far_end e n = m -> r x <> v0 ->
                   Rabs (dot nrm' (direction (position (F x) m -v position (F x) n))) = Rabs (dot nrm' (unitv (r x)))).
    { intros x nrm' Fe Rx. destruct (K x Fe Rx) as (U1&U2&_&_). fold (q x) (p x). rewrite direction_unitv.
      assert (Nx : s x <> 0%R) by (intros Z; apply U1; rewrite U2, Z; apply vscale_0).
      rewrite U2. destruct (Rlt_dec (s x) 0); [rewrite unitv_neg by auto|rewrite unitv_pos by lra]; rewrite unitv_unitv; auto.
      replace (dot nrm' ((-1)%R *v unitv (r x))) with (- dot nrm' (unitv (r x)))%R by (vunf; ring). apply Rabs_Ropp. }
    specialize (De o nrm Pl). cbn zeta in De. rewrite (Dn x0 nrm Fe0 R0) in De.
    assert (Pe : plane_of (D x0) e = (o, nrm)) by (unfold plane_of; now rewrite Pl).
    assert (Ec : dot nrm (unitv (r x0)) = c x0) by (unfold c; now rewrite Pe). rewrite Ec in De.
    destruct De as [De|[De Off]].
    - apply Given. assert (De' := De). apply Rabs_def2 in De as [D1 D2].
      assert (M := ca_and _ _ _ C _ _ (near_lt x0 near nice C c _ Nc D1) (near_gt x0 near nice C c _ Nc D2)).
      apply (ca_mono _ _ _ C) with (2 := ca_and _ _ _ C _ _ M (ca_and _ _ _ C _ _ P (ca_and _ _ _ C _ _ A Nr'))).
      intros x ((M1&M2)&Px&(B&[l'' E]&As&_&Fe)&Rx). destruct (K x Fe Rx) as (_&_&_&Nf). specialize (As Nf _ E). rewrite Px in As.
      destruct (plane_of (D x) e) as [o' n'] eqn:Q. rewrite (Lx x _ E). apply As. left. rewrite (Dn x n' Fe Rx).
      replace (dot n' (unitv (r x))) with (c x); [|unfold c; now rewrite Q]. now apply Rabs_def1.
    - assert (M : near (fun x => / 1000000 < Rabs (c x))%R).
      { destruct (Rlt_dec (c x0) 0) as [L|L].
        - rewrite Rabs_left in De by auto.
          apply (ca_mono _ _ _ C) with (2 := near_lt x0 near nice C c (- / 1000000)%R Nc ltac:(lra)).
          intros x Hx. rewrite Rabs_left; lra.
        - rewrite Rabs_right in De by lra.
          apply (ca_mono _ _ _ C) with (2 := near_gt x0 near nice C c (/ 1000000)%R Nc ltac:(lra)).
          intros x Hx. rewrite Rabs_right; lra. }
      set (h := fun x => dot (snd (plane_of (D x) e)) (p x -v fst (plane_of (D x) e))).
      assert (Nh : nice h). { apply (nice_dot x0 near nice C); auto. apply (nicev_sub x0 near nice C); auto. }
      assert (H0 : h x0 <> 0%R). { unfold h. rewrite Pe. exact Off. }
      assert (C0 : c x0 <> 0%R). { intros Z. rewrite Z, Rabs_R0 in De. lra. }
      apply (end_nice p q r fo (fun x => - h x * / c x)%R); auto.
      + apply (ca_mul _ _ _ C); [now apply (nice_opp x0 near nice C)|now apply (ca_inv _ _ _ C)].
      + apply Rmult_integral_contrapositive. split; [lra|now apply Rinv_neq_0_compat].
      + assert (Nh0 := near_ne x0 near nice C h Nh H0).
        apply (ca_mono _ _ _ C) with (2 := ca_and _ _ _ C _ _ (ca_and _ _ _ C _ _ M Nh0) (ca_and _ _ _ C _ _ P (ca_and _ _ _ C _ _ A Nr'))).
        intros x ((M1&M2)&Px&(B&[l'' E]&As&_&Fe)&Rx). destruct (K x Fe Rx) as (U1&U2&U3&Nf). specialize (As Nf _ E). rewrite Px in As.
        destruct (plane_of (D x) e) as [o' n'] eqn:Q. destruct As as [_ As].
        assert (Ch : c x = dot n' (unitv (r x))) by (unfold c; now rewrite Q).
        assert (Hh : h x = dot n' (p x -v o')) by (unfold h; now rewrite Q).
        assert (U : ~ unfit (F x) n m o' n').
        { intros [U|U]; [rewrite (Dn x n' Fe Rx), <- Ch in U; lra|]. apply M2. rewrite Hh. exact U. }
        specialize (As U). unfold on_plane in As. fold (q x) in As.
        assert (Cx : c x <> 0%R). { intros Z. rewrite Z, Rabs_R0 in M1. lra. }
        assert (Xa : (h x + s x * c x = 0)%R).
        { rewrite <- As, Hh, Ch. replace (q x -v o') with ((p x -v o') +v (q x -v p x)) by vring. rewrite U2. vunf. ring. }
        assert (Y : s x = (- h x * / c x)%R).
        { apply (Rmult_eq_reg_r (c x)); auto. rewrite Rmult_assoc, Rinv_l by auto. lra. }
        rewrite <- Y. split; auto. assert (Pn := norm_pos _ U1). assert (Pr := norm_pos _ Rx). clear Y.
        unfold s. unfold signed in U3 |- *. destruct (Rlt_dec (fo x) 0) as [a|a].
        * destruct (Rlt_dec (- norm (q x -v p x)) 0); lra.
        * destruct (Rlt_dec (norm (q x -v p x)) 0); lra.
  Qed.
End Edge.

(** ** Sequence after sequence *)

Lemma follows_layout d d' n m : same_layout d d' -> follows d n m -> follows d' n m.
Proof. intros L (tr&I&Co). exists tr. split; auto. unfold stored in *. now rewrite (ly_trails _ _ L). Qed.
Lemma between_layout d d' n m e : same_layout d d' -> edge_between d n m e -> edge_between d' n m e.
Proof. intros L [I B]. split; auto. now rewrite (ly_trail_edges _ _ L). Qed.

Section Family.
  Context {X : Type} (x0 : X) (near : (X -> Prop) -> Prop) (nice : (X -> R) -> Prop) (C : calculus x0 near nice).
  Context (D F : X -> diagram R).
  Local Notation d := (D x0).
  Local Notation f := (F x0).
  Local Notation nicev := (nicev nice).
  Context (N0 : near (fun x => reachable (D x) /\ same_layout d (D x) /\ structure (D x) (F x))).
  Context (R0 : ready d) (Di : direct_only d) (Nz : nonzero_trails d) (Ca : carrying d f) (De : definite d f) (Ap : apart d f).
  Context (Io : forall key tr, In (key, tr) (trails d) -> nicev (fun x => position (D x) key))
    (Il : forall n, In n (nodes d) -> nicev (fun x => load (D x) n))
    (If : forall e, In e (deviation_edges d) -> nice (fun x => force (D x) e))
    (Ie : forall e, In e (trail_edges d) -> nice (fun x => given_length (D x) e))
    (Ip : forall e, In e (trail_edges d) -> nicev (fun x => fst (plane_of (D x) e)) /\ nicev (fun x => snd (plane_of (D x) e))).

  Local Lemma Hr : reachable d.
  Proof using C N0. apply (ca_at _ _ _ C _ N0). Qed.
  Local Lemma W : wf d.
  Proof using C N0. apply reachable_wf, Hr. Qed.
  Local Lemma S0 : structure d f.
  Proof using C N0. apply (ca_at _ _ _ C _ N0). Qed.

  Lemma pull_nice n e : nicev (fun x => position (F x) n) -> nicev (fun x => position (F x) (far_end e n)) ->
    nice (fun x => force (F x) e) -> position f (far_end e n) <> position f n -> nicev (fun x => pull (F x) n e).
  Proof using C.
    intros A B E Ne. unfold pull. apply (nicev_scale x0 near nice C); auto.
    apply (nicev_direction x0 near nice C (fun x => position (F x) (far_end e n) -v position (F x) n)).
    - now apply (nicev_sub x0 near nice C).
    - intros Z. apply Ne. replace (position f (far_end e n)) with (position f n +v (position f (far_end e n) -v position f n)) by vring.
      rewrite Z. vring.
  Qed.

  Lemma deviation_nice e : In e (deviation_edges d) -> nice (fun x => force (F x) e).
  Proof using C N0 If.
    intros I. apply (ca_ext _ _ _ C (fun x => force (D x) e)); auto.
    apply (ca_mono _ _ _ C) with (2 := N0). intros x (_&L&S). symmetry. apply (st_deviations _ _ S).
    now rewrite (ly_deviation_edges _ _ L).
  Qed.

  Lemma trail_apart n m : follows d n m -> position f m <> position f n.
  Proof using C N0 R0 Nz Ca.
    intros Fo. destruct (trail_key_edge d n m W R0 Fo) as (a&Ea&Ta&B).
    apply (ends_apart d f n m _ Nz B).
    - unfold edge_length_2, edge_get. rewrite Ea. cbn. eauto.
    - apply (st_trails _ _ S0 n m _ Fo B). apply Ca, B.
  Qed.

  Lemma deviation_apart n e : In e (deviation_edges d) -> In e (incident d n) -> position f (far_end e n) <> position f n.
  Proof using Ap.
    intros I J. apply In_incident in J as [_ J]. destruct e as [u v]. assert (A := Ap u v I). unfold far_end. cbn [fst snd] in *.
    destruct (Z.eqb_spec u n) as [->|Ne]; [congruence|]. destruct J; congruence.
  Qed.

  Local Definition settled (k : Z) : Prop := forall n, In n (nodes d) -> kof d n = Some k ->
    nicev (fun x => position (F x) n) /\ forall m, follows d m n -> nice (fun x => force (F x) (trail_edge_key d m n)).

  Lemma other_pulls_nice k n e : settled k -> (forall j, j < k -> settled j) -> In n (nodes d) -> kof d n = Some k ->
    In e (incident d n) -> (forall m, follows d n m -> e <> trail_edge_key d n m) -> nicev (fun x => pull (F x) n e).
  Proof using C N0 R0 Di Nz Ca Ap If.
    intros Ak Aj I Ek J No. destruct (incident_cases d n e Hr R0 Di J) as [(Dv&Ifar&Ef)|[(m&Fo&->)|(m&Fo&->)]].
    - apply pull_nice.
      + apply (Ak n); auto.
      + apply (Ak (far_end e n)); auto. now rewrite Ef.
      + now apply deviation_nice.
      + now apply deviation_apart.
    - destruct (No m Fo eq_refl).
    - destruct (far_key d m n (follows_neq d m n R0 Fo)) as [_ Efar].
      apply pull_nice; rewrite ?Efar.
      + apply (Ak n); auto.
      + destruct (follows_nodes d m n R0 Fo) as [Im _]. destruct (ready_kof d m R0 Im) as (j&Ej&_).
        assert (Y := proj1 (follows_kof d m n j R0 Fo) Ej). rewrite Ek in Y. injection Y as Y.
        apply (Aj j) with (n := m); auto. lia.
      + apply (Ak n I Ek); auto.
      + intros Z. apply (trail_apart m n Fo). now symmetry.
  Qed.

  Lemma sequence_settled k : (forall j, j < k -> settled j) -> settled k.
  Proof using C N0 R0 Di Nz Ca De Ap Io Il If Ie Ip.
    intros Aj n I Ek.
    destruct (first_or_follows d n R0 I) as [(key&tr&It&->)|(m&Fo)].
    - split.
      + apply (nicev_ext x0 near nice C (fun x => position (D x) n)); [|eauto].
        apply (ca_mono _ _ _ C) with (2 := N0). intros x (_&L&S). symmetry. apply (st_origins _ _ S n tr).
        now rewrite (ly_trails _ _ L).
      + intros m Fo. destruct (first_not_follows d n tr m R0 It Fo).
    - destruct (follows_nodes d m n R0 Fo) as [Im _]. destruct (ready_kof d m R0 Im) as (j&Ej&_).
      assert (Y := proj1 (follows_kof d m n j R0 Fo) Ej). rewrite Ek in Y. injection Y as Y.
      assert (Lj : j < k) by lia. assert (Am := Aj j Lj). destruct (Am m Im Ej) as [Pm _].
      destruct (trail_key_edge d m n W R0 Fo) as (a&Ea&Ta&B). set (e := trail_edge_key d m n) in *.
      assert (Nm := follows_neq d m n R0 Fo). destruct (far_key d m n Nm) as [Fm _]. fold e in Fm.
      assert (J : In e (incident d m)).
      { apply In_incident. split; [apply In_edges; [exact W|]; apply has_edge_find; eauto|].
        destruct B as [_ [E|E]]; rewrite E; cbn [fst snd]; auto. }
      assert (Sm : is_node_support d m = Ok false).
      { rewrite is_node_support_Ok by auto. destruct (is_sup d m) eqn:Q; auto. destruct (sup_not_follows d m n W R0 Q Fo). }
      assert (Le : exists l, edge_length_2 d e = Ok l).
      { unfold edge_length_2, edge_get. rewrite Ea. cbn. eauto. }
      assert (Lz : given_length d e <> 0%R).
      { destruct Le as [l Le]. unfold given_length. rewrite Le. cbn. exact (Nz e l (proj1 B) Le). }
      assert (Np : pull f m e <> v0).
      { unfold pull. rewrite Fm. apply vscale_nonzero; [apply Ca, B|]. apply unit_apart. intros E.
        apply (trail_apart m n Fo).
        replace (position f n) with (position f m +v (position f n -v position f m)) by vring. rewrite E. vring. }
      set (others := filter (fun y : ekey => negb (Z.eqb (fst y) (fst e) && Z.eqb (snd y) (snd e))) (incident d m)).
      assert (Oth : forall y, In y others <-> In y (incident d m) /\ y <> e).
      { intros y. unfold others. rewrite filter_In, negb_true_iff, andb_false_iff, !Z.eqb_neq.
        destruct y as [y1 y2], e as [e1 e2]. cbn [fst snd]. split; intros [A1 A2]; split; auto.
        - intros Q. apply pair_equal_spec in Q as [-> ->]. destruct A2; congruence.
        - destruct (Z.eq_dec y1 e1) as [->|]; auto. destruct (Z.eq_dec y2 e2) as [->|]; auto. }
      assert (Nr : nicev (fun x => pull (F x) m e)).
      { apply (nicev_ext x0 near nice C (fun x => v0 -v (load (D x) m +v vsum (map (fun y => pull (F x) m y) others)))).
        - apply (ca_mono _ _ _ C) with (2 := N0). intros x (_&L&S).
          assert (Bg := st_balanced _ _ S m). rewrite (st_nodes _ _ S), (ly_nodes _ _ L) in Bg. specialize (Bg Im).
          unfold unbalanced in Bg. assert (Inc : incident (F x) m = incident d m).
          { apply incident_same. rewrite (st_edges _ _ S). apply (ly_edges _ _ L). }
          rewrite Inc, (st_loads _ _ S m), (st_held _ _ S m) in Bg;
            [|now rewrite (ly_nodes _ _ L)|rewrite (ly_supports _ _ L m Im); exact Sm|now rewrite (ly_nodes _ _ L)].
          assert (Sp : vsum (map (pull (F x) m) (incident d m)) = pull (F x) m e +v vsum (map (fun y => pull (F x) m y) others)).
          { assert (Pe : Permutation (incident d m) (e :: others)).
            { apply NoDup_Permutation.
              - apply NoDup_filter, NoDup_edges, W.
              - constructor; [rewrite Oth; tauto|]. apply NoDup_filter, NoDup_filter, NoDup_edges, W.
              - intros y. cbn [In]. rewrite Oth. split; [|intros [<-|[]]; auto].
                intros Iy. destruct (Z.eq_dec (fst y) (fst e)), (Z.eq_dec (snd y) (snd e));
                  [left; destruct y, e; cbn in *; congruence|right; split; auto; congruence..]. }
            rewrite (vsum_perm _ _ (Permutation_map (pull (F x) m) Pe)). reflexivity. }
          rewrite Sp in Bg. set (o := vsum (map (fun y => pull (F x) m y) others)) in *.
          rewrite <- Bg. vring.
        - apply (nicev_sub x0 near nice C); [apply (nicev_const x0 near nice C)|].
          apply (nicev_add x0 near nice C); auto. apply (nicev_vsum x0 near nice C (fun y x => pull (F x) m y)).
          intros y Iy. apply Oth in Iy as [Iy Ny]. apply (other_pulls_nice j m y); auto.
          + intros i Li. apply Aj. lia.
          + intros z Fz ->. apply Ny. unfold e. now rewrite (follows_fun d m z n R0 Fz Fo). }
      assert (Z : nicev (fun x => position (F x) n) /\ nice (fun x => force (F x) e)).
      { destruct (Ip e (proj1 B)) as [Ip1 Ip2]. apply (edge_nice x0 near nice C D F m n e); auto.
        - apply (ca_mono _ _ _ C) with (2 := N0). intros x (Hx&L&S).
          assert (Bx := between_layout _ _ _ _ _ L B). split; [exact Bx|]. split; [|split; [|split; [|exact Fm]]].
          + assert (Wx := reachable_wf _ Hx). assert (Ix := proj1 Bx). apply In_trail_edges in Ix as (ax&Ex&_); auto.
            unfold edge_length_2, edge_get. rewrite Ex. cbn. eauto.
          + intros Nf. apply (st_trails _ _ S m n e); auto. now apply (follows_layout d).
          + now apply (ly_planes _ _ L e (proj1 B)).
        - apply Ie, B.
        - intros o nrm Pl. apply (De m n e o nrm Fo B Pl). }
      destruct Z as [Z1 Z2]. split; auto. intros z Fz. now rewrite (follows_inj d z m n R0 Fz Fo).
  Qed.

  Lemma all_settled k : settled k.
  Proof using C N0 R0 Di Nz Ca De Ap Io Il If Ie Ip.
    assert (Neg : forall k, k < 0 -> settled k).
    { intros i L n I Ek. destruct (ready_kof d n R0 I) as (j&Ej&P). rewrite Ek in Ej. injection Ej as ->. lia. }
    assert (Y : forall i j, j < Z.of_nat i -> settled j).
    { induction i as [|i IH]; intros j Lj; [apply Neg; lia|]. apply sequence_settled. intros j' L'. apply IH. lia. }
    apply (Y (Z.to_nat (k + 1))). destruct (Z_lt_le_dec k 0); lia.
  Qed.

  Lemma family_positions n : In n (nodes d) -> nicev (fun x => position (F x) n).
  Proof using C N0 R0 Di Nz Ca De Ap Io Il If Ie Ip.
    intros I. destruct (ready_kof d n R0 I) as (k&Ek&_). now apply (all_settled k n I Ek).
  Qed.
  Lemma family_forces e : In e (edges d) -> nice (fun x => force (F x) e).
  Proof using C N0 R0 Di Nz Ca De Ap Io Il If Ie Ip.
    intros I. destruct (edges_typed d e Hr I) as [T|T]; [|now apply deviation_nice].
    destruct e as [u v]. assert (J : trail_joined d u v) by (left; exact T).
    assert (K : forall a b, follows d a b -> (u, v) = (a, b) \/ (u, v) = (b, a) -> nice (fun x => force (F x) (u, v))).
    { intros a b Fo Y. rewrite (edge_between_key d a b (u, v) W R0 Fo (conj T Y)).
      destruct (follows_nodes d a b R0 Fo) as [_ Ib]. destruct (ready_kof d b R0 Ib) as (k&Ek&_).
      now apply (all_settled k b Ib Ek). }
    destruct (joined_follows d u v R0 J) as [Fo|Fo]; [apply (K u v Fo)|apply (K v u Fo)]; auto.
  Qed.
  Lemma family_reactions n : In n (nodes d) -> nicev (fun x => reaction (F x) n).
  Proof using C N0 R0 Di Nz Ca De Ap Io Il If Ie Ip.
    intros I. apply (nicev_ext x0 near nice C (fun x => v0 -v (load (D x) n +v vsum (map (fun y => pull (F x) n y) (incident d n))))).
    - apply (ca_mono _ _ _ C) with (2 := N0). intros x (_&L&S).
      assert (Bg := st_balanced _ _ S n). rewrite (st_nodes _ _ S), (ly_nodes _ _ L) in Bg. specialize (Bg I).
      unfold unbalanced in Bg. assert (Inc : incident (F x) n = incident d n).
      { apply incident_same. rewrite (st_edges _ _ S). apply (ly_edges _ _ L). }
      rewrite Inc, (st_loads _ _ S n) in Bg; [|now rewrite (ly_nodes _ _ L)].
      change (map (fun y => pull (F x) n y) (incident d n)) with (map (pull (F x) n) (incident d n)).
      set (o := vsum (map (pull (F x) n) (incident d n))) in *. rewrite <- Bg. vring.
    - apply (nicev_sub x0 near nice C); [apply (nicev_const x0 near nice C)|].
      apply (nicev_add x0 near nice C); auto. apply (nicev_vsum x0 near nice C (fun y x => pull (F x) n y)).
      intros e J. assert (J' := J). apply In_incident in J' as [Ied _].
      assert (Far : In (far_end e n) (nodes d) /\ position f (far_end e n) <> position f n).
      { destruct (incident_cases d n e Hr R0 Di J) as [(Dv&Ifar&_)|[(m&Fo&->)|(m&Fo&->)]].
        - split; auto. now apply deviation_apart.
        - destruct (far_key d n m (follows_neq d n m R0 Fo)) as [-> _]. split; [apply (follows_nodes d n m R0 Fo)|]. now apply trail_apart.
        - destruct (far_key d m n (follows_neq d m n R0 Fo)) as [_ ->]. split; [apply (follows_nodes d m n R0 Fo)|].
          intros Z. apply (trail_apart m n Fo). now symmetry. }
      apply pull_nice; [now apply family_positions|apply family_positions; tauto|now apply family_forces|tauto].
  Qed.
End Family.

(** ** Continuity *)

Section Continuity.
  Context {X : Type} (x0 : X) (B : R -> X -> Prop)
    (B0 : forall delta, (0 < delta)%R -> B delta x0)
    (Bm : forall delta delta' x, (delta <= delta')%R -> B delta x -> B delta' x).

  Definition around (P : X -> Prop) : Prop := exists delta, (0 < delta)%R /\ forall x, B delta x -> P x.
  Definition continuous (g : X -> R) : Prop := forall epsilon, (0 < epsilon)%R -> around (fun x => (Rabs (g x - g x0) < epsilon)%R).

  Lemma around_and P Q : around P -> around Q -> around (fun x => P x /\ Q x).
  Proof using Bm.
    intros (a&A&HP) (b&Bb&HQ). exists (Rmin a b). split; [now apply Rmin_pos|].
    intros x Hx. split; [apply HP|apply HQ]; revert Hx; apply Bm; [apply Rmin_l|apply Rmin_r].
  Qed.
  Lemma around_mono (P Q : X -> Prop) : (forall x, P x -> Q x) -> around P -> around Q.
  Proof using. intros H (a&A&HP). exists a. split; auto. Qed.

  Lemma continuous_comp g h : continuous g -> continuity_pt h (g x0) -> continuous (fun x => h (g x)).
  Proof using.
    intros Cg Ch e Pe. destruct (Ch e Pe) as (a&Pa&Ha). cbn in Ha. unfold R_dist in Ha.
    apply (around_mono (fun x => (Rabs (g x - g x0) < a)%R)); [|now apply Cg].
    intros x Hx. destruct (Req_EM_T (g x) (g x0)) as [E|E].
    - rewrite E. rewrite Rminus_diag_eq, Rabs_R0 by auto. auto.
    - apply Ha. split; auto. split; [exact I|]. intros Q. now apply E.
  Qed.

  Lemma continuity_calculus : calculus x0 around continuous.
  Proof using B0 Bm.
    constructor.
    - intros P H. exists 1%R. split; [lra|auto].
    - apply around_and.
    - apply around_mono.
    - intros P (a&A&H). apply H. now apply B0.
    - intros g Cg P. apply (around_mono _ _) with (2 := Cg (g x0) P). intros x H. apply Rabs_def2 in H. lra.
    - intros g h E Cg e Pe. assert (E0 : g x0 = h x0). { destruct E as (a&A&H). apply H. now apply B0. }
      apply (around_mono _ _) with (2 := around_and _ _ E (Cg e Pe)). intros x [<- H]. now rewrite <- E0.
    - intros c e Pe. exists 1%R. split; [lra|]. intros x _. rewrite Rminus_diag_eq, Rabs_R0; auto.
    - intros g h Cg Ch e Pe. assert (Pe2 : (0 < e / 2)%R) by lra.
      apply (around_mono _ _) with (2 := around_and _ _ (Cg _ Pe2) (Ch _ Pe2)). intros x [H1 H2].
      replace (g x + h x - (g x0 + h x0))%R with ((g x - g x0) + (h x - h x0))%R by ring.
      apply Rle_lt_trans with (1 := Rabs_triang _ _). lra.
    - intros g h Cg Ch e Pe. set (M := (Rabs (g x0) + Rabs (h x0) + 1)%R).
      assert (PM : (1 <= M)%R) by (unfold M; assert (A1 := Rabs_pos (g x0)); assert (A2 := Rabs_pos (h x0)); lra).
      set (k := Rmin 1 (e / M)). assert (Pk : (0 < k)%R). { apply Rmin_pos; [lra|]. apply Rdiv_lt_0_compat; lra. }
      apply (around_mono _ _) with (2 := around_and _ _ (Cg _ Pk) (Ch _ Pk)). intros x [H1 H2].
      set (a := (g x - g x0)%R) in *. set (b := (h x - h x0)%R) in *.
      replace (g x * h x - g x0 * h x0)%R with (a * h x0 + g x0 * b + a * b)%R by (unfold a, b; ring).
      assert (T1 := Rabs_triang (a * h x0 + g x0 * b) (a * b)). assert (T2 := Rabs_triang (a * h x0) (g x0 * b)).
      rewrite !Rabs_mult in *. assert (K1 : (k <= 1)%R) by apply Rmin_l. assert (K2 : (k <= e / M)%R) by apply Rmin_r.
      assert (Q0 := Rabs_pos a). assert (Q1 := Rabs_pos b). assert (Q2 := Rabs_pos (g x0)). assert (Q3 := Rabs_pos (h x0)).
      assert (U : (Rabs a * Rabs (h x0) + Rabs (g x0) * Rabs b + Rabs a * Rabs b < k * M)%R).
      { unfold M. assert (Y1 : (Rabs a * Rabs (h x0) <= k * Rabs (h x0))%R) by (apply Rmult_le_compat_r; lra).
        assert (Y2 : (Rabs (g x0) * Rabs b <= Rabs (g x0) * k)%R) by (apply Rmult_le_compat_l; lra).
        assert (Y3 : (Rabs a * Rabs b < k * 1)%R) by (apply Rmult_le_0_lt_compat; lra). lra. }
      assert (V : (k * M <= e)%R).
      { apply Rle_trans with (e / M * M)%R; [apply Rmult_le_compat_r; lra|]. unfold Rdiv. rewrite Rmult_assoc, Rinv_l; lra. }
      lra.
    - intros g Cg N. apply continuous_comp with (h := Rinv); auto.
      apply (continuity_pt_inv id); auto. apply derivable_continuous_pt, derivable_pt_id.
    - intros g Cg P. apply continuous_comp with (h := sqrt); auto. apply continuity_pt_sqrt. lra.
  Qed.
End Continuity.

(** ** Differentiability *)

Section Differentiability.
  Context (s : R).
  Definition close_by (P : R -> Prop) : Prop := exists delta, (0 < delta)%R /\ forall x, (Rabs (x - s) < delta)%R -> P x.

  Lemma derivative_continuous g : has_derivative g s -> continuity_pt g s.
  Proof using. intros [l H]. apply derivable_continuous_pt. exists l. exact H. Qed.

  Lemma differentiability_calculus : calculus s close_by (fun g => has_derivative g s).
  Proof using.
    assert (And : forall P Q, close_by P -> close_by Q -> close_by (fun x => P x /\ Q x)).
    { intros P Q (a&A&HP) (b&Bb&HQ). exists (Rmin a b). split; [now apply Rmin_pos|].
      intros x Hx. assert (M1 := Rmin_l a b). assert (M2 := Rmin_r a b). split; [apply HP|apply HQ]; lra. }
    constructor; auto.
    - intros P H. exists 1%R. split; [lra|auto].
    - intros P Q H (a&A&HP). exists a. split; auto.
    - intros P (a&A&H). apply H. rewrite Rminus_diag_eq, Rabs_R0; auto.
    - intros g Dg P. destruct (derivative_continuous g Dg (g s) P) as (a&Pa&Ha). cbn in Ha. unfold R_dist in Ha.
      exists a. split; auto. intros x Hx. destruct (Req_EM_T s x) as [<-|E]; auto.
      specialize (Ha x (conj (conj I E) Hx)). apply Rabs_def2 in Ha. lra.
    - intros g h (a&Pa&E) [l Dg]. exists l. intros e Pe. destruct (Dg e Pe) as [b Hb].
      assert (Pm : (0 < Rmin a b)%R) by (apply Rmin_pos; auto; apply cond_pos).
      exists (mkposreal _ Pm). cbn. intros y Ny Hy. assert (M1 := Rmin_l a b). assert (M2 := Rmin_r a b).
      rewrite <- (E (s + y)%R), <- (E s); [apply Hb; auto; lra|rewrite Rminus_diag_eq, Rabs_R0; auto|].
      replace (s + y - s)%R with y by ring. lra.
    - intros c. exists 0%R. apply derivable_pt_lim_const.
    - intros g h [l Dg] [k Dh]. exists (l + k)%R. now apply derivable_pt_lim_plus.
    - intros g h [l Dg] [k Dh]. exists (l * h s + g s * k)%R. now apply derivable_pt_lim_mult.
    - intros g [l Dg] N. exists ((0 * g s - l * 1) / Rsqr (g s))%R.
      assert (Y := derivable_pt_lim_div (fct_cte 1) g s 0 l (derivable_pt_lim_const 1 s) Dg N).
      intros e Pe. destruct (Y e Pe) as [b Hb]. exists b. intros y Ny Hy. specialize (Hb y Ny Hy).
      unfold div_fct, fct_cte, Rdiv in Hb. rewrite !Rmult_1_l in Hb. exact Hb.
    - intros g [l Dg] P. exists (/ (2 * sqrt (g s)) * l)%R.
      apply (derivable_pt_lim_comp g sqrt); auto. now apply derivable_pt_lim_sqrt.
  Qed.
End Differentiability.

(** ** The theorems *)

Lemma layout_refl d : same_layout d d.
Proof. constructor; tauto || auto. Qed.

Lemma near_nonzero {X} (x0 : X) near nice (C : calculus x0 near nice) (D : X -> diagram R) :
  near (fun x => reachable (D x) /\ same_layout (D x0) (D x)) -> nonzero_trails (D x0) ->
  (forall e, In e (trail_edges (D x0)) -> nice (fun x => given_length (D x) e)) -> near (fun x => nonzero_trails (D x)).
Proof.
  intros N0 Nz Ie. assert (W := reachable_wf _ (proj1 (ca_at _ _ _ C _ N0))).
  assert (Y := near_list x0 near nice C (fun e x => given_length (D x) e <> 0%R) (trail_edges (D x0))).
  apply (ca_mono _ _ _ C) with (2 := ca_and _ _ _ C _ _ N0 (Y (fun e I => near_ne x0 near nice C _ (Ie e I)
    ltac:(intros Z; apply In_trail_edges in I as J; auto; destruct J as (a&Ea&_);
          assert (Q : edge_length_2 (D x0) e = Ok (ea_length a)) by (unfold edge_length_2, edge_get; now rewrite Ea);
          apply (Nz e _ I Q); unfold given_length in Z; now rewrite Q in Z)))).
  intros x ((_&L)&H) e l I E. rewrite (ly_trail_edges _ _ L) in I. specialize (H e I). unfold given_length in H. now rewrite E in H.
Qed.

Lemma deviation_ends (d : diagram R) u v : wf d -> In (u, v) (deviation_edges d) -> In u (nodes d) /\ In v (nodes d).
Proof. intros W I. apply In_deviation_edges in I as (a&Ea&_); auto. exact (wf_eends _ W _ _ Ea). Qed.

(** Form finding is continuous: however small the change of the form may be, there is a
    bound on the changes of the input below which the form changes no more. *)
Lemma c102_continuous : forall d tmax eta verbose form, reachable d -> ready d -> direct_only d -> nonzero_trails d ->
  static_equilibrium d None tmax eta verbose = Ok form -> carrying d form -> definite d form -> apart d form ->
  forall epsilon, (0 < epsilon)%R -> exists delta, (0 < delta)%R
    /\ forall d' tmax' eta' verbose' form', reachable d' -> ready d' -> same_layout d d' -> similar_inputs delta d d' ->
       static_equilibrium d' None tmax' eta' verbose' = Ok form' -> similar_forms epsilon d form form'.
Proof.
  intros d tmax eta verbose form Hr R0 Di Nz E Ca De Ap epsilon Pe. assert (W := reachable_wf _ Hr).
  set (x0 := (d, form)).
  set (B := fun delta (x : diagram R * diagram R) => reachable (fst x) /\ ready (fst x) /\ same_layout d (fst x)
    /\ similar_inputs delta d (fst x) /\ exists tmax eta verbose, static_equilibrium (fst x) None tmax eta verbose = Ok (snd x)).
  assert (Rn : forall delta a, (0 < delta)%R -> near_by delta a a).
  { intros delta a P. unfold near_by. rewrite Rminus_diag_eq, Rabs_R0; auto. }
  assert (Rv : forall delta u, (0 < delta)%R -> near_by_v delta u u) by (intros; repeat split; auto).
  assert (Mn : forall a b u w, (a <= b)%R -> near_by a u w -> near_by b u w) by (unfold near_by; intros; lra).
  assert (Mv : forall a b u w, (a <= b)%R -> near_by_v a u w -> near_by_v b u w).
  { intros a b u w L (A1&A2&A3). repeat split; eapply Mn; eauto. }
  assert (C : calculus x0 (around B) (continuous x0 B)).
  { apply continuity_calculus.
    - intros delta P. unfold B, x0. cbn [fst snd]. split; [exact Hr|]. split; [exact R0|]. split; [apply layout_refl|].
      split; [|exists tmax, eta, verbose; exact E]. constructor; intros; auto.
    - intros a b x L (A1&A2&A3&A4&A5). split; [exact A1|]. split; [exact A2|]. split; [exact A3|]. split; [|exact A5].
      destruct A4 as [B1 B2 B3 B4 B5]. constructor; intros; [eapply Mv; eauto|eapply Mv; eauto|eapply Mn; eauto|eapply Mn; eauto|].
      destruct (B5 e) as [B6 B7]; auto. split; eapply Mv; eauto. }
  assert (Io : forall key tr, In (key, tr) (trails d) -> nicev (continuous x0 B) (fun x => position (fst x) key)).
  { intros key tr I. repeat split; intros e P; exists e; (split; [exact P|]); intros x (_&_&_&Y&_);
      destruct (si_origins _ _ _ Y key tr I) as (Y1&Y2&Y3); assumption. }
  assert (Il : forall n, In n (nodes d) -> nicev (continuous x0 B) (fun x => load (fst x) n)).
  { intros n I. repeat split; intros e P; exists e; (split; [exact P|]); intros x (_&_&_&Y&_);
      destruct (si_loads _ _ _ Y n I) as (Y1&Y2&Y3); assumption. }
  assert (If : forall e, In e (deviation_edges d) -> continuous x0 B (fun x => force (fst x) e)).
  { intros e' I e P. exists e. split; [exact P|]. intros x (_&_&_&Y&_). exact (si_forces _ _ _ Y e' I). }
  assert (Ie : forall e, In e (trail_edges d) -> continuous x0 B (fun x => given_length (fst x) e)).
  { intros e' I e P. exists e. split; [exact P|]. intros x (_&_&_&Y&_). exact (si_lengths _ _ _ Y e' I). }
  assert (Ip : forall e, In e (trail_edges d) -> nicev (continuous x0 B) (fun x => fst (plane_of (fst x) e))
                /\ nicev (continuous x0 B) (fun x => snd (plane_of (fst x) e))).
  { intros e' I. split; repeat split; intros e P; exists e; (split; [exact P|]); intros x (_&_&_&Y&_);
      destruct (si_planes _ _ _ Y e' I) as [(Y1&Y2&Y3) (Y4&Y5&Y6)]; assumption. }
  assert (Bx : around B (fun x => B 1%R x)) by (exists 1%R; split; [lra|auto]).
  assert (NL : around B (fun x => reachable (fst x) /\ same_layout (fst x0) (fst x))).
  { apply (ca_mono _ _ _ C) with (2 := Bx). intros x (A1&_&A3&_). split; [exact A1|exact A3]. }
  assert (Nn := near_nonzero x0 _ _ C fst NL Nz Ie).
  assert (N0 : around B (fun x => reachable (fst x) /\ same_layout (fst x0) (fst x) /\ structure (fst x) (snd x))).
  { apply (ca_mono _ _ _ C) with (2 := ca_and _ _ _ C _ _ Bx Nn). intros x ((A1&A2&A3&_&t&et&vb&A5)&Nx).
    split; [exact A1|]. split; [exact A3|]. apply (c94_form (fst x) t et vb (snd x) A1 A2); [|exact Nx|exact A5].
    intros u v I. rewrite (ly_deviation_edges _ _ A3) in I. destruct (deviation_ends _ u v W I) as [Iu Iv].
    rewrite (ly_sequences _ _ A3 u Iu), (ly_sequences _ _ A3 v Iv). exact (Di u v I). }
  assert (Vec : forall u : diagram R * diagram R -> rvec, nicev (continuous x0 B) u -> around B (fun x => near_by_v epsilon (u x) (u x0))).
  { intros u (A1&A2&A3).
    apply (ca_mono _ _ _ C) with (2 := ca_and _ _ _ C _ _ (A1 _ Pe) (ca_and _ _ _ C _ _ (A2 _ Pe) (A3 _ Pe))). intros x (Y1&Y2&Y3).
    split; [exact Y1|]. split; [exact Y2|exact Y3]. }
  assert (P1 := near_list x0 _ _ C (fun n x => near_by_v epsilon (position (snd x) n) (position form n)) (nodes d)
    (fun n I => Vec _ (family_positions x0 _ _ C fst snd N0 R0 Di Nz Ca De Ap Io Il If Ie Ip n I))).
  assert (P2 := near_list x0 _ _ C (fun n x => near_by_v epsilon (reaction (snd x) n) (reaction form n)) (nodes d)
    (fun n I => Vec _ (family_reactions x0 _ _ C fst snd N0 R0 Di Nz Ca De Ap Io Il If Ie Ip n I))).
  assert (P3 := near_list x0 _ _ C (fun e x => near_by epsilon (force (snd x) e) (force form e)) (edges d)
    (fun e I => family_forces x0 _ _ C fst snd N0 R0 Di Nz Ca De Ap Io Il If Ie Ip e I epsilon Pe)).
  destruct (ca_and _ _ _ C _ _ P1 (ca_and _ _ _ C _ _ P2 P3)) as (delta&Pd&H).
  exists delta. split; [exact Pd|]. intros d' tmax' eta' verbose' form' Hr' R' L' Si E'.
  destruct (H (d', form')) as (Y1&Y2&Y3).
  { split; [exact Hr'|]. split; [exact R'|]. split; [exact L'|]. split; [exact Si|]. exists tmax', eta', verbose'. exact E'. }
  constructor; [exact Y1|exact Y2|exact Y3].
Qed.

(** The form of a topology whose inputs depend on a number has derivatives wherever the
    inputs have. *)
Lemma c102_differentiable : forall (D F : R -> diagram R) (s : R),
  (exists delta, (0 < delta)%R /\ forall x, (Rabs (x - s) < delta)%R -> reachable (D x) /\ ready (D x) /\ same_layout (D s) (D x)
     /\ exists tmax eta verbose, static_equilibrium (D x) None tmax eta verbose = Ok (F x)) ->
  direct_only (D s) -> nonzero_trails (D s) -> carrying (D s) (F s) -> definite (D s) (F s) -> apart (D s) (F s) ->
  smooth_inputs D s -> smooth_forms D F s.
Proof.
  intros D F s Bx Di Nz Ca De Ap [Io Il If Ie Ip]. assert (C := differentiability_calculus s).
  change (close_by s (fun x => reachable (D x) /\ ready (D x) /\ same_layout (D s) (D x)
     /\ exists tmax eta verbose, static_equilibrium (D x) None tmax eta verbose = Ok (F x))) in Bx.
  assert (NL : close_by s (fun x => reachable (D x) /\ same_layout (D s) (D x))).
  { apply (ca_mono _ _ _ C) with (2 := Bx). intros x (A1&_&A3&_). split; [exact A1|exact A3]. }
  assert (Nn := near_nonzero s _ _ C D NL Nz Ie). assert (W := reachable_wf _ (proj1 (ca_at _ _ _ C _ NL))).
  assert (N0 : close_by s (fun x => reachable (D x) /\ same_layout (D s) (D x) /\ structure (D x) (F x))).
  { apply (ca_mono _ _ _ C) with (2 := ca_and _ _ _ C _ _ Bx Nn). intros x ((A1&A2&A3&t&et&vb&A5)&Nx).
    split; [exact A1|]. split; [exact A3|]. apply (c94_form (D x) t et vb (F x) A1 A2); [|exact Nx|exact A5].
    intros u v I. rewrite (ly_deviation_edges _ _ A3) in I. destruct (deviation_ends _ u v W I) as [Iu Iv].
    rewrite (ly_sequences _ _ A3 u Iu), (ly_sequences _ _ A3 v Iv). exact (Di u v I). }
  assert (R0 : ready (D s)). { destruct (ca_at _ _ _ C _ Bx) as (_&A&_). exact A. }
  constructor.
  - intros n I. exact (family_positions s _ _ C D F N0 R0 Di Nz Ca De Ap Io Il If Ie Ip n I).
  - intros n I. exact (family_reactions s _ _ C D F N0 R0 Di Nz Ca De Ap Io Il If Ie Ip n I).
  - intros e I. exact (family_forces s _ _ C D F N0 R0 Di Nz Ca De Ap Io Il If Ie Ip e I).
Qed.
