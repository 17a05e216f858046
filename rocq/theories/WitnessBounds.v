(** * Bounds that are not kept *)

From Coq Require Import String List ZArith Bool Lia Reals Lra Floats.
From Verif Require Import Py PyFacts Num Diagram DiagramFacts Topology History Equilibrium EquilibriumNp Constraints Optimizer SpecOptimizer OptFacts OptThms
  SpecBounds Fixtures SpecDiagram RVec Witness WitnessEq WitnessOpt.
Import ListNotations.
Open Scope Z_scope.

Definition below (a b : float) : Prop := PrimFloat.leb a b = true.

(** The upper bounds where there are any *)
Definition upper (pr : problem float) (x : list float) : list float :=
  map (fun uv => match fst uv with Some u => u | None => snd uv end) (combine (pr_up pr) x).

(** [in_bounds], decided *)
Fixpoint all2 {A B} (f : A -> B -> bool) (l : list A) (m : list B) : bool :=
  match l, m with
  | [], [] => true
  | a :: l, b :: m => f a b && all2 f l m
  | _, _ => false
  end.
Lemma all2_Forall2 {A B} (f : A -> B -> bool) (P : A -> B -> Prop) l m : (forall a b, f a b = true -> P a b) -> all2 f l m = true -> Forall2 P l m.
Proof.
  intros F. revert m. induction l as [|a l IH]; intros [|b m] E; try discriminate E; constructor; cbn in E; apply andb_true_iff in E as [E1 E2]; auto.
Qed.
Definition inside (pr : problem float) (x : list float) : bool :=
  Z.eqb (Z.of_nat (List.length x)) (pr_dims pr)
  && all2 (fun l v => match l with Some l => PrimFloat.leb l v | None => true end) (pr_low pr) x
  && all2 (fun u v => match u with Some u => PrimFloat.leb v u | None => true end) (pr_up pr) x.
Lemma inside_bounds pr x : inside pr x = true -> in_bounds below pr x.
Proof.
  unfold inside. intros E. apply andb_true_iff in E as [E E3]. apply andb_true_iff in E as [E1 E2].
  split; [now apply Z.eqb_eq|].
  split; [eapply all2_Forall2, E2|eapply all2_Forall2, E3]; intros [a|] b F; try exact I; exact F.
Qed.

(** A solver that evaluates the start vector and the upper bounds, if they are within
    the bounds, and returns the latter *)
Definition climbs (pr : problem float) (x : list float) : strategy float :=
  SEval x [] (fun _ _ =>
    if inside pr (upper pr x) then SEval (upper pr x) [] (fun y _ => SReturn (upper pr x) y 2 1) else SRuntime).
Lemma climbs_respects : respects_bounds below climbs.
Proof.
  intros pr x B. constructor; [exact B|]. intros _ _. destruct (inside pr (upper pr x)) eqn:E; [|constructor].
  apply inside_bounds in E. constructor; [exact E|]. intros y g. now constructor.
Qed.

(** The force of the edge (1, 5) of the tower is -1 and may change by at most 1/4. *)
Definition one_bound : optimizer float :=
  proxy_optimizer tower_constraints [mkParam (EdgeSlot (1, 5) AForce) (Some 0x1p-2%float) (Some 0x1p-2%float)].

(** Two parameters of the same quantity *)
Definition two_bounds : optimizer float :=
  proxy_optimizer tower_constraints
    [mkParam (EdgeSlot (1, 5) AForce) (Some 0x1p-2%float) (Some 0x1p-2%float);
     mkParam (EdgeSlot (1, 5) AForce) (Some 0x1p-1%float) (Some 0x1p-1%float)].

(** Two parameters of the same quantity: the force of an edge was 1, one of its parameters
    allows it to change by 1/4, the solver respects the bounds, and the force becomes 3/2. *)
Lemma c87_refuted : exists solver o (d : diagram float) o' d' form p,
  reachable d /\ obtained o /\ keys_in_range o /\ respects_bounds below solver
  /\ solve no_ad solver "SLSQP" "FD" 0x1p-20%float 100 None None 100 neps6 (o, d) = ((o', d'), Ok form)
  /\ In (0, p) (o_params o) /\ p_up p = Some 0x1p-2%float
  /\ quantity d (p_slot p) = Ok 1%float /\ quantity d' (p_slot p) = Ok 0x1.8p0%float.
Proof.
  exists climbs, two_bounds, float_tower.
  set (a := solve no_ad climbs "SLSQP" "FD" 0x1p-20%float 100 None None 100 neps6 (two_bounds, float_tower)).
  assert (R : exists form, snd a = Ok form) by (eexists; vm_compute; reflexivity). destruct R as [form R].
  exists (fst (fst a)), (snd (fst a)), form, (mkParam (EdgeSlot (1, 5) AForce) (Some 0x1p-2%float) (Some 0x1p-2%float)).
  split; [apply float_tower_reachable|]. split; [apply proxy_obtained|].
  split. { intros k I. assert (N : number_of_parameters two_bounds = 2) by (vm_compute; reflexivity). rewrite N. vm_compute in I. destruct I as [<-|[<-|[]]]; lia. }
  split; [apply climbs_respects|]. split; [rewrite <- R; destruct a as [[? ?] ?]; reflexivity|].
  split; [left; vm_compute; reflexivity|]. split; [reflexivity|]. split; vm_compute; reflexivity.
Qed.

(** Solving twice: the force was 1, its only parameter allows it to change by 1/4, and it
    becomes 3/2. *)
Lemma c87_twice_refuted : exists solver o (d : diagram float) o1 d1 form1 o2 d2 form2 p,
  reachable d /\ obtained o /\ keys_in_range o /\ NoDup (addressed o) /\ respects_bounds below solver
  /\ solve no_ad solver "SLSQP" "FD" 0x1p-20%float 100 None None 100 neps6 (o, d) = ((o1, d1), Ok form1)
  /\ solve no_ad solver "SLSQP" "FD" 0x1p-20%float 100 None None 100 neps6 (o1, d1) = ((o2, d2), Ok form2)
  /\ In (0, p) (o_params o) /\ p_up p = Some 0x1p-2%float
  /\ quantity d (p_slot p) = Ok 1%float /\ quantity d2 (p_slot p) = Ok 0x1.8p0%float.
Proof.
  exists climbs, one_bound, float_tower.
  set (a := solve no_ad climbs "SLSQP" "FD" 0x1p-20%float 100 None None 100 neps6 (one_bound, float_tower)).
  assert (R : exists form, snd a = Ok form) by (eexists; vm_compute; reflexivity). destruct R as [form R].
  set (b := solve no_ad climbs "SLSQP" "FD" 0x1p-20%float 100 None None 100 neps6 (fst a)).
  assert (S : exists form, snd b = Ok form) by (eexists; vm_compute; reflexivity). destruct S as [form2 S].
  exists (fst (fst a)), (snd (fst a)), form, (fst (fst b)), (snd (fst b)), form2, (mkParam (EdgeSlot (1, 5) AForce) (Some 0x1p-2%float) (Some 0x1p-2%float)).
  split; [apply float_tower_reachable|]. split; [apply proxy_obtained|].
  split. { intros k I. assert (N : number_of_parameters one_bound = 1) by (vm_compute; reflexivity). rewrite N. vm_compute in I. destruct I as [<-|[]]; lia. }
  split; [vm_compute; repeat constructor; intros []|].
  split; [apply climbs_respects|]. split; [rewrite <- R; destruct a as [[? ?] ?]; reflexivity|].
  split; [rewrite <- S; replace (fst (fst a), snd (fst a)) with (fst a) by (destruct (fst a); reflexivity); fold b; destruct b as [[? ?] ?]; reflexivity|].
  split; [left; vm_compute; reflexivity|]. split; [reflexivity|]. split; vm_compute; reflexivity.
Qed.

(** ** Over the real numbers *)

(** A solver that goes to the upper bounds, where there are any, and returns to the start *)
Definition up_and_back (pr : problem R) (x : list R) : strategy R :=
  SEval (map (fun uv => match fst uv with Some u => u | None => snd uv end) (combine (pr_up pr) x)) []
    (fun _ _ => SEval x [] (fun y _ => SReturn x y 2 1)).

Lemma upper_bounds (up : list (option R)) : forall low x,
  Forall2 (fun l v => match l with Some l => (l <= v)%R | None => True end) low x ->
  Forall2 (fun u v => match u with Some u => (v <= u)%R | None => True end) up x ->
  let y := map (fun uv => match fst uv with Some u => u | None => snd uv end) (combine up x) in
  List.length y = List.length x
  /\ Forall2 (fun l v => match l with Some l => (l <= v)%R | None => True end) low y
  /\ Forall2 (fun u v => match u with Some u => (v <= u)%R | None => True end) up y.
Proof.
  cbn zeta. induction up as [|u up IH]; intros low x L U; inversion U; subst; [inversion L; subst; repeat constructor|].
  inversion L as [|l v low' x' A B]; subst. destruct (IH _ _ B H3) as (E1&E2&E3). cbn [combine map fst snd List.length].
  split; [now f_equal|]. split; constructor; auto.
  - destruct l as [l|], u as [u|]; auto. lra.
  - destruct u as [u|]; auto. lra.
Qed.

Lemma up_and_back_respects : respects_bounds Rle up_and_back.
Proof.
  intros pr x (A&B&C). destruct (upper_bounds _ _ _ B C) as (E1&E2&E3). constructor; [split; [now rewrite E1|now split]|].
  intros _ _. constructor; [now repeat split|]. intros y g. constructor. now repeat split.
Qed.

(** ** Locations after solving (C105) *)

(** The first coordinate of the origin 2 of the tower may grow by 1/4. *)
Definition moving_origin : optimizer float :=
  proxy_optimizer tower_constraints [mkParam (NodeSlot 2 AX) (Some 0x1p-2%float) (Some 0x1p-2%float)].

(** A node that was found at its location and is moved by the optimizer is not found at
    its new location, but still at the old one. *)
Lemma c105_refuted : exists solver o (d : diagram float) o' d' form n p p',
  reachable d /\ obtained o /\ keys_in_range o /\ NoDup (addressed o) /\ respects_bounds below solver
  /\ solve no_ad solver "SLSQP" "FD" 0x1p-20%float 100 None None 100 neps6 (o, d) = ((o', d'), Ok form)
  /\ node_coordinates d n = Ok p /\ node_key d (RXyz p) = Some n
  /\ node_coordinates d' n = Ok p' /\ node_key d' (RXyz p') = None /\ node_key d' (RXyz p) = Some n.
Proof.
  exists climbs, moving_origin, float_tower.
  destruct (solve no_ad climbs "SLSQP" "FD" 0x1p-20%float 100 None None 100 neps6 (moving_origin, float_tower)) as [[o' d'] r] eqn:E.
  assert (R : exists form, r = Ok form).
  { replace r with (snd (solve no_ad climbs "SLSQP" "FD" 0x1p-20%float 100 None None 100 neps6 (moving_origin, float_tower))) by (rewrite E; reflexivity).
    eexists. vm_compute. reflexivity. }
  destruct R as [form ->].
  assert (D : d' = snd (fst (solve no_ad climbs "SLSQP" "FD" 0x1p-20%float 100 None None 100 neps6 (moving_origin, float_tower)))) by (rewrite E; reflexivity).
  exists o', d', form, 2, (V3 0 2 0)%float, (V3 0x1p-2 2 0)%float.
  split; [apply float_tower_reachable|]. split; [apply proxy_obtained|].
  split. { intros k I. assert (N : number_of_parameters moving_origin = 1) by (vm_compute; reflexivity). rewrite N. vm_compute in I. destruct I as [<-|[]]; lia. }
  split; [vm_compute; repeat constructor; intros []|]. split; [apply climbs_respects|]. split; [reflexivity|].
  split; [vm_compute; reflexivity|]. split; [vm_compute; reflexivity|]. clear E. subst d'.
  split; [vm_compute; reflexivity|]. split; vm_compute; reflexivity.
Qed.

(** An edge that is then drawn from the node's location starts at another node in the same place. *)
Lemma c105_twice_refuted : exists solver o (d : diagram float) o' d' form n k p' q,
  reachable d /\ obtained o /\ keys_in_range o /\ NoDup (addressed o) /\ respects_bounds below solver
  /\ solve no_ad solver "SLSQP" "FD" 0x1p-20%float 100 None None 100 neps6 (o, d) = ((o', d'), Ok form)
  /\ node_coordinates d' n = Ok p'
  /\ let d2 := run d' [OpAddEdge (RXyz p') (RXyz q) (DeviationEdge 1%float)] in
     k <> n /\ ~ In k (nodes d') /\ node_coordinates d2 k = Ok p' /\ node_coordinates d2 n = Ok p'.
Proof.
  exists climbs, moving_origin, float_tower.
  destruct (solve no_ad climbs "SLSQP" "FD" 0x1p-20%float 100 None None 100 neps6 (moving_origin, float_tower)) as [[o' d'] r] eqn:E.
  assert (R : exists form, r = Ok form).
  { replace r with (snd (solve no_ad climbs "SLSQP" "FD" 0x1p-20%float 100 None None 100 neps6 (moving_origin, float_tower))) by (rewrite E; reflexivity).
    eexists. vm_compute. reflexivity. }
  destruct R as [form ->].
  assert (D : d' = snd (fst (solve no_ad climbs "SLSQP" "FD" 0x1p-20%float 100 None None 100 neps6 (moving_origin, float_tower)))) by (rewrite E; reflexivity).
  exists o', d', form, 2, 6, (V3 0x1p-2 2 0)%float, (V3 1 0 0)%float.
  split; [apply float_tower_reachable|]. split; [apply proxy_obtained|].
  split. { intros k I. assert (N : number_of_parameters moving_origin = 1) by (vm_compute; reflexivity). rewrite N. vm_compute in I. destruct I as [<-|[]]; lia. }
  split; [vm_compute; repeat constructor; intros []|]. split; [apply climbs_respects|]. split; [reflexivity|]. clear E.
  assert (N : nodes d' = [0; 1; 2; 3; 4; 5]) by (subst d'; vm_compute; reflexivity).
  split; [subst d'; vm_compute; reflexivity|]. cbn zeta. split; [discriminate|].
  split; [rewrite N; cbn; intuition discriminate|]. subst d'. split; vm_compute; reflexivity.
Qed.
