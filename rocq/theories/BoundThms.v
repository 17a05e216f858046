(** * The bounds of parameters and what becomes of the quantities *)

From Coq Require Import String List ZArith Bool Lia Reals Lra.
From Verif Require Import Py PyFacts Num Diagram DiagramFacts Topology Equilibrium EquilibriumNp Constraints Optimizer SpecOptimizer OptFacts OptThms
  SolveThms ReportThms SpecBounds.
Import ListNotations.
Open Scope R_scope.

Lemma allowed_same p v : allowed p v v.
Proof. unfold allowed. destruct (p_low p) as [b|], (p_up p) as [c|]; repeat split; try (assert (P := Rabs_pos b)); try (assert (Q := Rabs_pos c)); lra. Qed.

Lemma Forall2_nth_error {A B} (P : A -> B -> Prop) l m i a b : Forall2 P l m -> nth_error l i = Some a -> nth_error m i = Some b -> P a b.
Proof.
  intros F. revert i. induction F as [|x y l m Q F IH]; intros [|i] E G; try discriminate.
  - injection E as ->. injection G as ->. exact Q.
  - cbn [nth_error] in *. now apply (IH i).
Qed.

(** A point within the bounds of the problem gives each parameter an allowed value. *)
Lemma requested_allowed (o : optimizer R) d algorithm iters eps kappa pr x y k p v q :
  as_requested o d algorithm iters eps kappa pr x -> in_bounds Rle pr y -> In (k, p) (o_params o) ->
  quantity d (p_slot p) = Ok v -> aget y k = Ok q -> allowed p v q.
Proof.
  intros A (L&B1&B2) I V Q. destruct (ar_variables _ _ _ _ _ _ _ _ A k p I) as (K&w&W&_&N1&N2).
  rewrite V in W. apply Ok_inj in W. subst w.
  assert (Y : nth_error y (Z.to_nat k) = Some q).
  { destruct (aget_Ok y k) as (q'&Q'&N); [rewrite L, (ar_dims _ _ _ _ _ _ _ _ A); exact K|]. rewrite Q in Q'. apply Ok_inj in Q'. now subst q'. }
  assert (C1 := Forall2_nth_error _ _ _ _ _ _ B1 N1 Y). assert (C2 := Forall2_nth_error _ _ _ _ _ _ B2 N2 Y).
  unfold allowed. destruct (p_low p), (p_up p); cbn in C1, C2; auto.
Qed.

(** The start vector is within the bounds. *)
Lemma requested_start (o : optimizer R) d algorithm iters eps kappa pr x : obtained o -> keys_in_range o ->
  as_requested o d algorithm iters eps kappa pr x -> in_bounds Rle pr x.
Proof.
  intros M K A. destruct (obtained_inv o M) as (NK&_&_).
  assert (Q : forall (l : list (option R)) (P : option R -> R -> Prop), Z.of_nat (List.length l) = number_of_parameters o ->
    (forall k p a v, In (k, p) (o_params o) -> nth_error l (Z.to_nat k) = Some a -> nth_error x (Z.to_nat k) = Some v -> P a v) -> Forall2 P l x).
  { intros l P L G. assert (LX := ar_x _ _ _ _ _ _ _ _ A).
    assert (E : forall i a v, nth_error l i = Some a -> nth_error x i = Some v -> P a v).
    { intros i a v Ea Ev. assert (Hi : (i < List.length l)%nat) by (apply nth_error_Some; congruence).
      assert (J : In (Z.of_nat i) (dkeys (o_params o))).
      { apply keys_cover; auto. unfold number_of_parameters in L. lia. }
      unfold dkeys in J. apply in_map_iff in J as ([k p]&F&J). cbn [fst] in F. subst k.
      apply (G (Z.of_nat i) p); rewrite ?Nat2Z.id; auto. }
    clear G A. assert (LE : List.length l = List.length x) by lia. clear L LX. revert x LE E.
    induction l as [|a l IH]; intros [|v x] LE E; try discriminate LE; constructor.
    - now apply (E 0%nat).
    - apply IH; [now injection LE|]. intros i b w F G. now apply (E (S i)). }
  split; [rewrite (ar_dims _ _ _ _ _ _ _ _ A); apply (ar_x _ _ _ _ _ _ _ _ A)|].
  split; apply Q; [apply (ar_low _ _ _ _ _ _ _ _ A)| |apply (ar_up _ _ _ _ _ _ _ _ A)|]; intros k p a v I Ea Ev;
    destruct (ar_variables _ _ _ _ _ _ _ _ A k p I) as (_&w&_&N0&N1&N2); rewrite N0 in Ev; injection Ev as ->.
  - rewrite N1 in Ea. injection Ea as <-. destruct (p_low p) as [b|]; cbn; [|exact Logic.I]. assert (P := Rabs_pos b). lra.
  - rewrite N2 in Ea. injection Ea as <-. destruct (p_up p) as [b|]; cbn; [|exact Logic.I]. assert (P := Rabs_pos b). lra.
Qed.

(** What the solver visits and returns *)
Lemma within_visited {S} (f : list R -> list R -> eff S (R * list R)) pr s : within Rle pr s -> forall st x, In x (visited f s st) -> in_bounds Rle pr x.
Proof.
  induction 1 as [x grad k B _ IH| | |]; intros st z I; try destruct I as [].
  - now subst.
  - destruct (f x grad st) as [st' [fg|e]]; [|destruct H]. eapply IH, H.
Qed.

Lemma within_answer {S} (f : list R -> list R -> eff S (R * list R)) pr s : within Rle pr s -> forall st x l e r,
  snd (run_strategy f s st) = Ok (AReturn x l e r) -> in_bounds Rle pr x.
Proof.
  induction 1 as [x grad k B _ IH| | |]; intros st z l' e' r' E; try discriminate E.
  - cbn [run_strategy] in E. unfold ebind in E. destruct (f x grad st) as [st' [fg|e]]; [|discriminate E]. eapply IH, E.
  - injection E as ->. assumption.
Qed.

(** The diagram after the run: as before, or with the last point written *)
Lemma evaluated (o : optimizer R) tmax eta ys y d : obtained o -> keys_in_range o -> NoDup (addressed o) ->
  (forall s, In s (addressed o) -> present d s) -> Z.of_nat (List.length y) = number_of_parameters o ->
  update_parameters o y d = (after_evaluations o tmax eta (ys ++ [y]) d, Ok tt).
Proof.
  intros M K ND P L. destruct (c45_round_trip o y d M K ND P L) as (d'&U&_). rewrite U. f_equal.
  unfold after_evaluations. rewrite fold_left_app. cbn [fold_left].
  assert (E := evaluations_evolved o tmax eta ys d). unfold after_evaluations in E.
  rewrite optimize_form_fst. destruct (update_evolved_absorbs o y d _ E) as [_ B]. rewrite B; rewrite U; reflexivity.
Qed.

(** If no two parameters address the same quantity, their keys are 0, ..., n - 1, and
    the solver respects bounds, then whatever the run gives or raises, every quantity
    stays within the bounds of its parameter, and the others stay what they were. *)
Lemma c87_bounds_partial : forall ad solver algorithm grad h iters eps kappa tmax eta (o : optimizer R) d o' d' r,
  obtained o -> keys_in_range o -> NoDup (addressed o) -> respects_bounds Rle solver ->
  solve ad solver algorithm grad h iters eps kappa tmax eta (o, d) = ((o', d'), r) ->
  same_except (addressed o) d d'
  /\ forall k p v, In (k, p) (o_params o) -> quantity d (p_slot p) = Ok v ->
     exists q, quantity d' (p_slot p) = Ok q /\ allowed p v q.
Proof.
  intros ad solver algorithm grad h iters eps kappa tmax eta o d o' d' r M K ND B E. unfold solve in E.
  destruct (prepare ad o d algorithm grad h iters eps kappa tmax eta) as [[[gf x] pr]|e] eqn:PR.
  2:{ injection E as <- <- _. split; [apply same_except_refl|]. intros k p v _ V. exists v. split; [exact V|apply allowed_same]. }
  assert (A := prepare_requested _ _ _ _ _ _ _ _ _ _ _ _ _ _ M PR). assert (S0 := requested_start _ _ _ _ _ _ _ _ M K A).
  set (f := objective_function_numpy (optimize_form o tmax eta) gf) in *. set (s := solver pr x) in *.
  assert (P := run_points o tmax eta gf s d d d (evolved_refl _ _)). cbn zeta in P. fold f in P.
  assert (V := within_visited f pr s (B pr x S0) (d, d)).
  destruct (run_strategy f s (d, d)) as [[d1 c1] a] eqn:R. cbn [fst snd] in *.
  assert (D : d' = d1).
  { destruct a as [[x1 loss evals result|loss evals result|]|e].
    - destruct (nlopt_status result) as [status|e]; [|congruence]. destruct (gf x1 _ c1) as [c2 [g2|e2]]; congruence.
    - destruct (optimization_parameters o d1) as [x1|e]; [|congruence].
      destruct (nlopt_status result) as [status|e]; [|congruence]. destruct (gf x1 _ c1) as [c2 [g2|e2]]; congruence.
    - congruence.
    - congruence. }
  rewrite <- D in P. clear D R E. split; [rewrite P; apply c45_objective_frame|]. intros k p v I Q.
  set (ys := visited f s (d, d)) in *. clearbody ys. destruct ys as [|y ys _] using rev_ind.
  - rewrite P. exists v. split; [exact Q|apply allowed_same].
  - assert (Y : in_bounds Rle pr y) by (apply V, in_or_app; right; now left).
    assert (L : Z.of_nat (List.length y) = number_of_parameters o) by (destruct Y as (L&_); rewrite L; apply (ar_dims _ _ _ _ _ _ _ _ A)).
    assert (PS : forall s, In s (addressed o) -> present d s).
    { intros s' J. unfold addressed in J. apply in_map_iff in J as ([k' p']&<-&J).
      destruct (ar_variables _ _ _ _ _ _ _ _ A k' p' J) as (_&w&W&_). now exists w. }
    assert (U := evaluated o tmax eta ys y d M K ND PS L). rewrite <- P in U.
    destruct (c45_round_trip o y d M K ND PS L) as (d2&U2&_&G). rewrite U in U2. injection U2 as <-.
    destruct (aget_Ok y k) as (q&Eq&_).
    { rewrite L. now apply (ar_variables _ _ _ _ _ _ _ _ A k p I). }
    exists q. split; [rewrite (G k p I); exact Eq|]. eapply requested_allowed; eauto.
Qed.

(** The optimum reported lies within the bounds as well, one component per parameter. *)
Lemma c87_reported_partial : forall ad solver algorithm grad h iters eps kappa tmax eta (o : optimizer R) d o' d' form,
  obtained o -> keys_in_range o -> NoDup (addressed o) -> respects_bounds Rle solver ->
  solve ad solver algorithm grad h iters eps kappa tmax eta (o, d) = ((o', d'), Ok form) ->
  o' = o
  \/ exists x, o_x o' = Some x /\ Z.of_nat (List.length x) = number_of_parameters o
     /\ forall k p, In (k, p) (o_params o) -> exists v q, quantity d (p_slot p) = Ok v /\ aget x k = Ok q /\ allowed p v q.
Proof.
  intros ad solver algorithm grad h iters eps kappa tmax eta o d o' d' form M K ND B E.
  destruct (c54_last_point_partial _ _ _ _ _ _ _ _ _ _ _ _ _ _ _ E) as (_&_&ys&a&R&_&_&X).
  destruct (c87_bounds_partial _ _ _ _ _ _ _ _ _ _ _ _ _ _ _ M K ND B E) as [_ C].
  unfold solver_run in R. destruct (prepare ad o d algorithm grad h iters eps kappa tmax eta) as [[[gf x0] pr]|e] eqn:PR; [|discriminate R].
  cbn [bind] in R. injection R as _ R.
  assert (A := prepare_requested _ _ _ _ _ _ _ _ _ _ _ _ _ _ M PR). assert (S0 := requested_start _ _ _ _ _ _ _ _ M K A).
  destruct a as [x loss evals result|loss evals result|]; [| |left; exact X]; right.
  - destruct X as (X&_). assert (W := within_answer _ pr _ (B pr x0 S0) _ _ _ _ _ R). exists x. split; [exact X|].
    assert (L : Z.of_nat (List.length x) = number_of_parameters o) by (destruct W as (L&_); rewrite L; apply (ar_dims _ _ _ _ _ _ _ _ A)).
    split; [exact L|]. intros k p I. destruct (ar_variables _ _ _ _ _ _ _ _ A k p I) as (J&v&V&_).
    destruct (aget_Ok x k) as (q&Q&_); [rewrite L; exact J|]. exists v, q. split; [exact V|]. split; [exact Q|]. eapply requested_allowed; eauto.
  - destruct X as (_&_&x&O&X). exists x. split; [exact X|].
    assert (PS : forall s, In s (addressed o) -> present d' s).
    { intros s' J. unfold addressed in J. apply in_map_iff in J as ([k' p']&<-&J).
      destruct (ar_variables _ _ _ _ _ _ _ _ A k' p' J) as (_&w&W0&_). destruct (C k' p' w J W0) as (q&Q&_). now exists q. }
    destruct (c52_variables_partial o d' M PS) as [(_&x'&O'&L&G)|[N _]]; [|destruct (N K)].
    rewrite O in O'. apply Ok_inj in O'. subst x'. split; [exact L|].
    intros k p I. destruct (ar_variables _ _ _ _ _ _ _ _ A k p I) as (_&v&V&_). destruct (C k p v I V) as (q&Q&AL).
    exists v, q. split; [exact V|]. split; [rewrite (G k p I); exact Q|exact AL].
Qed.

(** Bounds are taken from the diagram each time: after [n] runs a quantity stays within
    [n] times the bounds of its parameter. *)
Lemma c87_repeated_partial : forall o n d d', keys_in_range o -> NoDup (addressed o) -> solved o n d d' ->
  same_except (addressed o) d d'
  /\ forall k p v, In (k, p) (o_params o) -> quantity d (p_slot p) = Ok v ->
     exists q, quantity d' (p_slot p) = Ok q /\ allowed_times n p v q.
Proof.
  intros o n d d' K ND S. induction S as [d|n d d1 d2 o1 o2 ad solver algorithm grad h iters eps kappa tmax eta r S [F IH] M PS B E].
  - split; [apply same_except_refl|]. intros k p v _ V. exists v. split; [exact V|]. unfold allowed_times.
    destruct (p_low p), (p_up p); cbn [INR]; split; try exact I; lra.
  - assert (AD : addressed o1 = addressed o) by (unfold addressed; now rewrite PS).
    assert (K1 : keys_in_range o1) by (unfold keys_in_range, number_of_parameters; rewrite PS; exact K). assert (ND1 : NoDup (addressed o1)) by (rewrite AD; exact ND).
    destruct (c87_bounds_partial _ _ _ _ _ _ _ _ _ _ _ _ _ _ _ M K1 ND1 B E) as [F' G].
    split; [eapply same_except_trans; [exact F|now rewrite <- AD]|]. intros k p v I V.
    destruct (IH k p v I V) as (q&Q&[A1 A2]). rewrite PS in G. destruct (G k p q I Q) as (q'&Q'&[B1 B2]).
    exists q'. split; [exact Q'|]. unfold allowed_times. rewrite S_INR.
    destruct (p_low p), (p_up p); split; try exact Logic.I; lra.
Qed.
