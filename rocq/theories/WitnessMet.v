(** * Concrete instances for constraints met by a form *)

From Coq Require Import String List ZArith Bool Lia Floats Reals Lra.
From Verif Require Import Py PyFacts Num Diagram DiagramFacts Topology History HistoryFacts Fixtures SpecDiagram Equilibrium EquilibriumNp Constraints Optimizer
  SpecEquilibrium SpecStatics SpecConstraints SpecOptimizer SpecNumpy SpecMet RVec FormFacts EqThms StaticsThms NpThms OptFacts OptThms SolveThms ReportThms
  SpecHand HandThms MetThms Witness WitnessEq WitnessNp WitnessOpt.
Import ListNotations.
Open Scope Z_scope.

(** ** The funicular, with the force of its deviation edge as variable and a target for a support *)

Definition target_optimizer (p : rvec) : optimizer R :=
  proxy_optimizer [mkConstraint (PointGoal 0 p) 3%R; mkConstraint (LengthGoal (0, 1) 2%R) 5%R] [mkParam (EdgeSlot (1, 2) AForce) None None].

(** A solver that evaluates the start only *)
Definition stays_R : problem R -> list R -> strategy R := fun _ x => SEval x [] (fun y _ => SReturn x y 1 1).
Definition no_ad_R : (list R -> eff (diagram R) R) -> list R -> eff (diagram R) (list R) := fun _ x => eret (repeat 0%R (List.length x)).

Lemma stays_solves (o : optimizer R) d f v pr form : optimize_form o 100 neps6 [f] d = (d, Ok v) ->
  prepare no_ad_R o d "SLSQP" "AD" 1%R 100 None None 100 neps6 = Ok (grad_autograd (no_ad_R (optimize_form o 100 neps6)), [f], pr) ->
  default_form d = Ok form ->
  solver_run no_ad_R stays_R o d "SLSQP" "AD" 1%R 100 None None 100 neps6 = Ok ([] ++ [[f]], Ok (AReturn [f] v 1 1))
  /\ exists o', solve no_ad_R stays_R "SLSQP" "AD" 1%R 100 None None 100 neps6 (o, d) = ((o', d), Ok form).
Proof.
  intros Op1 Pr Df. split.
  - unfold solver_run. rewrite Pr. cbn [bind]. unfold stays_R. cbn [visited run_strategy]. unfold objective_function_numpy, ebind, on_fst. cbn [fst snd].
    rewrite Op1. cbn [List.length Nat.ltb Nat.leb eret fst snd visited run_strategy]. reflexivity.
  - eexists. unfold solve. rewrite Pr. unfold stays_R. cbn [run_strategy]. unfold objective_function_numpy, ebind, on_fst. cbn [fst snd].
    rewrite Op1. cbn [List.length Nat.ltb Nat.leb eret fst snd run_strategy nlopt_status repeat].
    unfold grad_autograd, ebind, no_ad_R, eret. cbn [List.length repeat Nat.eqb]. rewrite Df. reflexivity.
Qed.

Lemma target_prepared p d f : optimization_parameters (target_optimizer p) d = Ok [f] -> exists pr,
  prepare no_ad_R (target_optimizer p) d "SLSQP" "AD" 1%R 100 None None 100 neps6
  = Ok (grad_autograd (no_ad_R (optimize_form (target_optimizer p) 100 neps6)), [f], pr).
Proof.
  intros X. set (o := target_optimizer p) in *. assert (Op : o_params o = [(0, @mkParam R (EdgeSlot (1, 2) AForce) None None)]) by reflexivity.
  unfold prepare. change (check_optimization_sanity o) with (@Ok unit tt). cbn [bind].
  change (gradient_function no_ad_R o "AD" 1%R 100 neps6) with (Ok (grad_autograd (no_ad_R (optimize_form o 100 neps6)))). cbn [bind].
  rewrite X. cbn [bind]. unfold optimization_bounds. rewrite Op. cbn [fold_res fst snd List.length repeat bound_low bound_up p_low p_up bind].
  eexists. reflexivity.
Qed.

Lemma target_evaluated p d f st : wf d -> update_parameters (target_optimizer p) [f] d = (d, Ok tt) ->
  equilibrium_state_numpy d 100 neps6 false = Ok st -> In 0 (nodes d) -> In 1 (nodes d) ->
  exists v, optimize_form (target_optimizer p) 100 neps6 [f] d = (d, Ok v).
Proof.
  intros W U Es I0 I1. set (o := target_optimizer p) in *.
  assert (V : exists v, objective o 100 neps6 d [f] = Ok v).
  { assert (C := c46_value o 100 neps6 d [f] d st).
    assert (I := state_numpy_inv d 100 neps6 false st W Es).
    assert (D : forall n, In n (nodes d) -> exists q, node_at st n q).
    { intros n J. rewrite <- (iv_xyz _ _ I) in J. apply In_keys_dget in J as [q Q]. exists q. exact Q. }
    destruct (D 0 I0) as [q0 Q0]. destruct (D 1 I1) as [q1 Q1].
    eexists. apply C; [exact U|exact Es| |].
    - intros k c J. cbn in J. destruct J as [J|[J|[]]]; injection J as <- <-; exact Logic.I.
    - eexists [_; _]. split; [|reflexivity]. constructor; [exists q0; split; [exact Q0|reflexivity]|].
      constructor; [exists q0, q1; split; [exact Q0|split; [exact Q1|reflexivity]]|]. constructor. }
  destruct V as [v V]. exists v. unfold objective in V. destruct (optimize_form o 100 neps6 [f] d) as [d1 r] eqn:Q. cbn in V. subst r.
  unfold optimize_form, ebind in Q. rewrite U in Q. unfold eget in Q. apply pair_equal_spec in Q as (Q&_). subst d1. reflexivity.
Qed.

Lemma target_parameters p d f : edge_force d (1, 2) = Ok f -> optimization_parameters (target_optimizer p) d = Ok [f].
Proof.
  intros F. unfold optimization_parameters. change (o_params (target_optimizer p)) with [(0, @mkParam R (EdgeSlot (1, 2) AForce) None None)].
  cbn [fold_res fst snd List.length repeat]. rewrite start_quantity. cbn [p_slot quantity]. rewrite F. reflexivity.
Qed.

Lemma sound_default d form : reachable d -> ready d -> direct_only d ->
  static_equilibrium d None 1 (/ 1000000)%R false = Ok form -> form_is_sound d form ->
  default_form d = Ok form /\ exists st, equilibrium_state_numpy d 100 neps6 false = Ok st.
Proof.
  intros Hr Rd Di E S. assert (Pz : (0 < neps6)%R) by (cbn; lra).
  assert (Df : default_form d = Ok form).
  { destruct (c35_success d None 100 neps6 false Hr Rd Di I ltac:(lia) (Rlt_le _ _ Pz) ltac:(discriminate)) as (g&G&_).
    unfold default_form. rewrite G. apply (c35_one_iteration _ _ _ _ (/ 1000000)%R) in G; auto. congruence. }
  split; [exact Df|]. assert (N := c41_direct d _ _ Hr Rd Di E S 100 neps6 false).
  unfold default_form in Df. rewrite Df in N. now apply numpy_state in N.
Qed.

Lemma funicular_solved p : exists form f v o',
  solver_run no_ad_R stays_R (target_optimizer p) funicular "SLSQP" "AD" 1%R 100 None None 100 neps6 = Ok ([] ++ [[f]], Ok (AReturn [f] v 1 1))
  /\ solve no_ad_R stays_R "SLSQP" "AD" 1%R 100 None None 100 neps6 (target_optimizer p, funicular) = ((o', funicular), Ok form)
  /\ form_is_sound funicular form.
Proof.
  destruct funicular_sound as (form&E&S).
  assert (F : exists f, edge_force funicular (1, 2) = Ok f) by (eexists; lazy; reflexivity). destruct F as [f F].
  assert (N : In 0 (nodes funicular) /\ In 1 (nodes funicular)) by (assert (N : nodes funicular = [0; 1; 2; 3]) by (lazy; reflexivity); rewrite N; cbn; auto).
  destruct (sound_default _ _ funicular_reachable funicular_ready (proj1 funicular_direct) E S) as (Df&st&Es).
  assert (X := target_parameters p _ _ F).
  assert (U := c45_idle _ _ _ (proxy_obtained _ _) X). destruct (target_prepared p _ _ X) as (pr&Pr).
  destruct (target_evaluated p _ _ _ (reachable_wf _ funicular_reachable) U Es (proj1 N) (proj2 N)) as (v&V).
  destruct (stays_solves _ _ _ _ _ _ V Pr Df) as (A&o'&B). exists form, f, v, o'. split; [exact A|]. split; [exact B|exact S].
Qed.

(** The goals of both kinds are those of the optimizer; the first one is met if the
    target is where the support of the form is. *)
Lemma funicular_target p form : form_is_sound funicular form -> forall k c, In (k, c) (o_cons (target_optimizer p)) ->
  form_directed form (c_goal c) /\ (0 < c_weight c)%R.
Proof.
  intros _ k c J. cbn in J. destruct J as [J|[J|[]]]; injection J as <- <-; (split; [exact I|cbn; lra]).
Qed.

(** ** A reported penalty of zero *)

(** The coordinates of a node of the form found with arrays, with the start values *)
Definition start_position (n : Z) : vec float :=
  match static_equilibrium_numpy float_tower 100 neps6 false with
  | Ok f => match node_coordinates f n with Ok p => p | Err _ => fv 0 0 0 end
  | Err _ => fv 0 0 0
  end.

Definition exact_optimizer : optimizer float :=
  proxy_optimizer [mkConstraint (PointGoal 0 (start_position 0)) 0x1p0%float] tower_parameters.

Definition penalty_of (o : optimizer float) : float := match o_penalty o with Some x => x | None => PrimFloat.nan end.

(** Solve can report that the constraints are met, and return a form that misses the
    target of a node by more than an eighth of a unit: the form is not the one of the
    reported optimum. *)
Lemma c91_refuted : exists solver o (d : diagram float) o' d' form n target p,
  reachable d /\ obtained o
  /\ solve no_ad solver "SLSQP" "FD" 0x1p-20%float 100 None None 100 neps6 (o, d) = ((o', d'), Ok form)
  /\ (exists w, o_cons o = [(0, mkConstraint (PointGoal n target) w)]) /\ o_penalty o' = Some 0%float
  /\ node_coordinates form n = Ok p /\ PrimFloat.ltb 0x1p-3 (PrimFloat.abs (vx p - vx target))%float = true.
Proof.
  set (run := solve no_ad goes_back "SLSQP" "FD" 0x1p-20%float 100 None None 100 neps6 (exact_optimizer, float_tower)).
  assert (R : exists form p, snd run = Ok form /\ node_coordinates form 0 = Ok p
    /\ PrimFloat.ltb 0x1p-3 (PrimFloat.abs (vx p - vx (start_position 0)))%float = true).
  { eexists. eexists. split; [vm_compute; reflexivity|]. split; vm_compute; reflexivity. }
  destruct R as (form&p&R&P&L).
  exists goes_back, exact_optimizer, float_tower, (fst (fst run)), (snd (fst run)), form, 0, (start_position 0), p.
  split; [apply float_tower_reachable|]. split; [apply proxy_obtained|].
  split; [rewrite <- R; fold run; destruct run as [[? ?] ?]; reflexivity|].
  split; [eexists; reflexivity|]. split; [vm_compute; reflexivity|]. split; [exact P|exact L].
Qed.
