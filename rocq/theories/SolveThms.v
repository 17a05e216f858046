(** * Properties of gradients and of solving *)

From Coq Require Import String List ZArith Bool Lia Reals Lra.
From Verif Require Import Py PyFacts Num Diagram Topology Equilibrium EquilibriumNp Constraints Optimizer SpecConstraints SpecOptimizer OptFacts OptThms.
Import ListNotations.
Open Scope Z_scope.

Section Gradient.
  Context {T : Type} `{NumOps T} {S : Type}.
  Variable f : list T -> eff S T.
  Variable P : S -> Prop.
  Variable g : list T -> res T.
  Hypothesis stable : forall x s, P s -> snd (f x s) = g x /\ P (fst (f x s)).

  Definition fd_body (fx0 h : T) (xg : list T * list T) (i : nat) : eff S (list T * list T) :=
    let '(x', gr) := xg in
    do* xi := eget (fun _ => aget x' (Z.of_nat i)) in
    do* x1 := eget (fun _ => aset x' (Z.of_nat i) (nadd xi h)) in
    do* fx1 := f x1 in
    do* gr := eget (fun _ => aset gr (Z.of_nat i) (ndiv (nsub fx1 fx0) h)) in
    do* x2 := eget (fun _ => aset x1 (Z.of_nat i) xi) in
    eret (x2, gr).

  Lemma fd_body_spec fx0 h x gr i s : (i < List.length x)%nat -> List.length gr = List.length x -> P s ->
    P (fst (fd_body fx0 h (x, gr) i s))
    /\ snd (fd_body fx0 h (x, gr) i s) =
       let* y := g (bump x i h) in Ok (x, set_nth gr i (ndiv (nsub y fx0) h)).
  Proof.
    intros L Lg Ps. unfold fd_body, ebind, eget.
    destruct (aget_Ok x (Z.of_nat i)) as (v&Ev&Nv); [lia|]. rewrite Ev, aset_Ok by lia. rewrite Nat2Z.id in *.
    assert (B : set_nth x i (nadd v h) = bump x i h) by (unfold bump; f_equal; f_equal; symmetry; now apply nth_error_nth).
    rewrite B. destruct (stable (bump x i h) s Ps) as [E Q]. destruct (f (bump x i h) s) as [s' r]. cbn [fst snd] in *. rewrite <- E.
    destruct r as [y|e]; cbn [bind]; [|split; [exact Q|reflexivity]].
    rewrite aset_Ok by lia. rewrite aset_Ok by (rewrite <- B, length_set_nth; lia). rewrite Nat2Z.id. cbn [fst snd eret].
    split; [exact Q|]. rewrite <- B, set_nth_set_nth, set_nth_same by exact Nv. reflexivity.
  Qed.

  Lemma set_nth_app {A} (l : list A) a m v : set_nth (l ++ a :: m) (List.length l) v = l ++ v :: m.
  Proof. induction l; cbn; [reflexivity|]. now rewrite IHl. Qed.

  Lemma fd_loop fx0 h x : forall m ds rest s, (List.length ds + m = List.length x)%nat -> List.length rest = m -> P s ->
    P (fst (eloop (fd_body fx0 h) (seq (List.length ds) m) (x, ds ++ rest) s))
    /\ snd (eloop (fd_body fx0 h) (seq (List.length ds) m) (x, ds ++ rest) s) =
       let* es := map_res (fun i => let* y := g (bump x i h) in Ok (ndiv (nsub y fx0) h)) (seq (List.length ds) m) in
       Ok (x, ds ++ es).
  Proof.
    induction m as [|m IH]; intros ds rest s L Lr Ps.
    - destruct rest; [|discriminate Lr]. cbn. auto.
    - destruct rest as [|r rest]; [discriminate Lr|]. cbn [seq eloop map_res]. unfold ebind.
      destruct (fd_body_spec fx0 h x (ds ++ r :: rest) (List.length ds) s) as [Q E]; auto; [lia|rewrite app_length; cbn in *; lia|].
      destruct (fd_body fx0 h (x, ds ++ r :: rest) (List.length ds) s) as [s' [xg|e]]; cbn [fst snd] in *.
      + destruct (g (bump x (List.length ds) h)) as [y|e]; cbn [bind] in *; [|discriminate E]. apply Ok_inj in E. subst xg.
        rewrite set_nth_app. set (v := ndiv (nsub y fx0) h).
        assert (A : ds ++ v :: rest = (ds ++ [v]) ++ rest) by (now rewrite <- app_assoc).
        rewrite A. destruct (IH (ds ++ [v]) rest s') as [Q' E']; auto; [rewrite app_length; cbn; lia|].
        rewrite app_length in Q', E'. cbn [List.length] in Q', E'. replace (List.length ds + 1)%nat with (Datatypes.S (List.length ds)) in Q', E' by lia.
        split; [exact Q'|]. rewrite E'. destruct (map_res _ _) as [es|e]; cbn [bind]; [|reflexivity]. now rewrite <- app_assoc.
      + destruct (g (bump x (List.length ds) h)) as [y|e']; cbn [bind] in *; [discriminate E|]. split; [exact Q|congruence].
  Qed.

  Lemma fd_unfold h x gr s : grad_finite_differences f h x gr s =
    match f x s with
    | (s', Ok y0) =>
        match eloop (fd_body y0 h) (seq 0 (List.length x)) (x, gr) s' with
        | (s2, Ok r) => (s2, Ok (snd r))
        | (s2, Err e) => (s2, Err e)
        end
    | (s', Err e) => (s', Err e)
    end.
  Proof. reflexivity. Qed.

  Lemma fd_spec h x gr s : List.length gr = List.length x -> P s ->
    snd (grad_finite_differences f h x gr s) = forward_differences g h x
    /\ P (fst (grad_finite_differences f h x gr s)).
  Proof.
    intros L Ps. rewrite fd_unfold. unfold forward_differences.
    destruct (stable x s Ps) as [E Q]. destruct (f x s) as [s' r]. cbn [fst snd] in *. rewrite <- E.
    destruct r as [y0|e]; cbn [bind]; [|split; [reflexivity|exact Q]].
    destruct (fd_loop y0 h x (List.length x) [] gr s' eq_refl L Q) as [Q' E']. cbn [List.length app] in Q', E'.
    destruct (eloop (fd_body y0 h) (seq 0 (List.length x)) (x, gr) s') as [s2 r2]. cbn [fst snd] in *. rewrite E'.
    destruct (map_res _ _) as [es|e]; cbn [bind fst snd]; (split; [reflexivity|exact Q']).
  Qed.
End Gradient.

Section Thms.
  Context {T : Type} `{NumOps T}.
  Implicit Types (d : diagram T) (o : optimizer T).

  (** The finite-difference gradient of a function whose value depends on the
      variables only is the vector of forward differences; the object the function
      works on ends in a state it can be in. *)
  Lemma c47_forward_differences : forall (S : Type) (f : list T -> eff S T) (P : S -> Prop) (g : list T -> res T) h x grad s,
    (forall x s, P s -> snd (f x s) = g x /\ P (fst (f x s))) -> List.length grad = List.length x -> P s ->
    snd (grad_finite_differences f h x grad s) = forward_differences g h x
    /\ P (fst (grad_finite_differences f h x grad s)).
  Proof. intros S f P g h x grad s St L Ps. now apply (fd_spec f P g St). Qed.

  (** Each component is the forward difference in that component. *)
  Lemma c47_component : forall (g : list T -> res T) h x ds, forward_differences g h x = Ok ds ->
    List.length ds = List.length x
    /\ forall i v, nth_error ds i = Some v -> exists y0 y, g x = Ok y0 /\ g (bump x i h) = Ok y /\ v = ndiv (nsub y y0) h.
  Proof.
    intros g h x ds E. unfold forward_differences in E. apply bind_Ok in E as (y0&E0&E). apply map_res_Ok in E.
    split; [clear - E; rewrite <- (seq_length (List.length x) 0); induction E; cbn; auto|].
    assert (G : forall k l ds, Forall2 (fun i b => (let* y := g (bump x i h) in Ok (ndiv (nsub y y0) h)) = Ok b) (seq k l) ds ->
       forall i v, nth_error ds i = Some v -> exists y0 y, g x = Ok y0 /\ g (bump x (k + i) h) = Ok y /\ v = ndiv (nsub y y0) h).
    { clear ds E. intros k l. revert k. induction l as [|l IH]; intros k ds F i v N; inversion F as [|? b ? bs Eb Fb]; subst.
      - destruct i; discriminate N.
      - destruct i as [|i].
        + cbn in N. apply Some_inj in N. subst b. apply bind_Ok in Eb as (y&Ey&Eb). apply Ok_inj in Eb. rewrite Nat.add_0_r. eauto 6.
        + cbn in N. destruct (IH (Datatypes.S k) bs Fb i v N) as (z0&z&A&B&C). exists z0, z. replace (k + Datatypes.S i)%nat with (Datatypes.S k + i)%nat by lia. auto. }
    intros i v N. apply (G 0%nat (List.length x) ds E i v N).
  Qed.

  (** For the optimizer: the gradient at a point after any evaluations on the same
      diagram is that of the objective. *)
  Lemma c47_objective_gradient : forall o tmax eta h ys x grad d, List.length grad = List.length x ->
    snd (grad_finite_differences (optimize_form o tmax eta) h x grad (after_evaluations o tmax eta ys d))
    = forward_differences (objective o tmax eta d) h x.
  Proof.
    intros o tmax eta h ys x grad d L.
    apply (c47_forward_differences _ _ (evolved (addressed o) d) (objective o tmax eta d)); [|exact L|apply evaluations_evolved].
    intros y d' E. now apply optimize_form_evolved.
  Qed.

  (** Whatever points the external solver evaluates, in whatever order, it sees the
      values and the finite-difference gradients of one fixed function. *)
  Lemma c46_solver : forall o tmax eta h s d, well_sized (Z.to_nat (number_of_parameters o)) s ->
    snd (run_strategy (objective_function_numpy (optimize_form o tmax eta)
                         (grad_finite_differences (optimize_form o tmax eta) h)) s (d, d))
    = pure_run (objective o tmax eta d) (forward_differences (objective o tmax eta d) h) s.
  Proof.
    intros o tmax eta h s d W. set (P := evolved (addressed o) d).
    assert (G : forall s, well_sized (Z.to_nat (number_of_parameters o)) s -> forall d1 d2, P d1 -> P d2 ->
      snd (run_strategy (objective_function_numpy (optimize_form o tmax eta)
                         (grad_finite_differences (optimize_form o tmax eta) h)) s (d1, d2))
      = pure_run (objective o tmax eta d) (forward_differences (objective o tmax eta d) h) s).
    { clear s W. intros s W. induction W as [x grad k Lx Lg _ IH|x l e r _|l e r|]; intros d1 d2 P1 P2; try reflexivity.
      cbn [run_strategy pure_run]. unfold ebind at 1, objective_function_numpy at 1. unfold ebind at 1, on_fst. cbn [fst snd].
      destruct (optimize_form_evolved o tmax eta x d d1 P1) as [E Q]. unfold objective at 1.
      destruct (optimize_form o tmax eta x d1) as [d1' r]. cbn [fst snd] in *. rewrite <- E. destruct r as [y|e]; cbn [bind]; [|reflexivity].
      destruct (Nat.ltb_spec 0 (List.length grad)) as [Lp|Lp].
      - unfold ebind, on_snd. cbn [fst snd].
        destruct (c47_forward_differences _ (optimize_form o tmax eta) P (objective o tmax eta d) h x grad d2) as [F Q2]; auto.
        { intros z d' E'. now apply optimize_form_evolved. } { lia. }
        destruct (grad_finite_differences (optimize_form o tmax eta) h x grad d2) as [d2' r2]. cbn [fst snd] in *. rewrite <- F.
        destruct r2 as [gr|e]; cbn [bind eret fst snd]; [|reflexivity]. now apply IH.
      - cbn [eret fst snd]. now apply IH. }
    apply G; [exact W|apply evolved_refl|apply evolved_refl].
  Qed.

  (** ** Rejected problems *)

  (** Without parameters or constraints solve raises ValueError and changes nothing. *)
  Lemma c53_empty_problem : forall ad solver algorithm grad h iters eps kappa tmax eta o d,
    number_of_parameters o = 0 \/ number_of_constraints o = 0 ->
    exists msg, solve ad solver algorithm grad h iters eps kappa tmax eta (o, d) = ((o, d), Err (ValueError msg)).
  Proof.
    intros ad solver algorithm grad h iters eps kappa tmax eta o d E. unfold solve, prepare, check_optimization_sanity, number_of_parameters, number_of_constraints in *.
    destruct (Nat.eqb_spec (List.length (o_params o)) 0) as [L|L]; [eexists; reflexivity|].
    destruct (Nat.eqb_spec (List.length (o_cons o)) 0) as [L'|L']; [eexists; reflexivity|]. lia.
  Qed.

  (** An unknown gradient method raises ValueError and changes nothing. *)
  Lemma c53_unknown_gradient : forall ad solver algorithm grad h iters eps kappa tmax eta o d,
    grad <> "AD"%string -> grad <> "FD"%string ->
    exists msg, solve ad solver algorithm grad h iters eps kappa tmax eta (o, d) = ((o, d), Err (ValueError msg)).
  Proof.
    intros ad solver algorithm grad h iters eps kappa tmax eta o d A F. unfold solve, prepare, check_optimization_sanity, gradient_function.
    destruct (Nat.eqb_spec (List.length (o_params o)) 0) as [L|L]; [eexists; reflexivity|].
    destruct (Nat.eqb_spec (List.length (o_cons o)) 0) as [L'|L']; [eexists; reflexivity|]. cbn [bind].
    destruct (String.eqb_spec grad "AD"); [contradiction|]. destruct (String.eqb_spec grad "FD"); [contradiction|]. eexists; reflexivity.
  Qed.

  (** An unknown algorithm raises and changes nothing; the exception is KeyError if
      the variables can be read. *)
  Lemma c53_unknown_algorithm : forall ad solver algorithm grad h iters eps kappa tmax eta o d,
    ~ In algorithm ["SLSQP"; "LBFGS"; "MMA"; "TNEWTON"; "AUGLAG"; "VAR"]%string ->
    exists e, solve ad solver algorithm grad h iters eps kappa tmax eta (o, d) = ((o, d), Err e)
      /\ (0 < number_of_parameters o -> 0 < number_of_constraints o -> grad = "AD"%string \/ grad = "FD"%string ->
          obtained o -> keys_in_range o -> (forall s, In s (addressed o) -> present d s) -> e = KeyError).
  Proof.
    intros ad solver algorithm grad h iters eps kappa tmax eta o d N. unfold solve, prepare.
    assert (K : forall dims up low, nlopt_solver algorithm dims up low iters eps kappa = Err KeyError).
    { intros dims up low. unfold nlopt_solver, nlopt_algorithm, dgetr. destruct (dget nlopt_algorithms algorithm) as [c|] eqn:E; [|reflexivity].
      exfalso. apply dget_In_keys in E. apply N. clear N. unfold dkeys, nlopt_algorithms in E. cbn [map fst In] in *. tauto. }
    assert (S : check_optimization_sanity o = Ok tt \/ exists e, check_optimization_sanity o = Err e /\ ~ (0 < number_of_parameters o /\ 0 < number_of_constraints o)).
    { unfold check_optimization_sanity, number_of_parameters, number_of_constraints.
      destruct (Nat.eqb_spec (List.length (o_params o)) 0) as [L|L]; [right; eexists; split; [reflexivity|lia]|].
      destruct (Nat.eqb_spec (List.length (o_cons o)) 0) as [L'|L']; [right; eexists; split; [reflexivity|lia]|now left]. }
    destruct S as [S|(e&S&S')]; rewrite S; cbn [bind]; [|exists e; split; [reflexivity|tauto]].
    assert (G : (exists gf, gradient_function ad o grad h tmax eta = Ok gf) \/ exists e, gradient_function ad o grad h tmax eta = Err e /\ ~ (grad = "AD"%string \/ grad = "FD"%string)).
    { unfold gradient_function. destruct (String.eqb_spec grad "AD"); [left; eexists; reflexivity|].
      destruct (String.eqb_spec grad "FD"); [left; eexists; reflexivity|]. right. eexists. split; [reflexivity|tauto]. }
    destruct G as [[gf G]|(e&G&G')]; rewrite G; cbn [bind]; [|exists e; split; [reflexivity|tauto]].
    destruct (optimization_parameters o d) as [x|e] eqn:X; cbn [bind].
    2: { exists e. split; [reflexivity|]. intros _ _ _ M R Pr. destruct (c52_variables_partial o d M Pr) as [(_&x&E&_)|[Q _]]; [congruence|contradiction]. }
    destruct (optimization_bounds o d) as [lu|e] eqn:B; cbn [bind].
    2: { exists e. split; [reflexivity|]. intros _ _ _ M R Pr. exfalso.
         unfold optimization_bounds in B. clear - B R Pr.
         assert (Q : forall ps (lu : list (option T) * list (option T)) e,
            (forall k p, In (k, p) ps -> present d (p_slot p) /\ 0 <= k < Z.of_nat (List.length (fst lu)) /\ 0 <= k < Z.of_nat (List.length (snd lu))) ->
            fold_res (fun (lu : list (option T) * list (option T)) (kp : Z * parameter T) =>
              let* v := bound_low d (snd kp) in
              let* l := aset (fst lu) (fst kp) v in
              let* w := bound_up d (snd kp) in
              let* u := aset (snd lu) (fst kp) w in Ok (l, u)) ps lu = Err e -> False).
         { induction ps as [|[k p] ps IH]; intros [l u] e0 A E; [discriminate E|]. cbn [fold_res fst snd] in *.
           destruct (A k p (or_introl eq_refl)) as ([y Y]&K1&K2). rewrite <- slot_quantity in Y.
           assert (V : exists v, bound_low d p = Ok v) by (unfold bound_low, start_value; rewrite Y; destruct (p_low p); cbn; eauto).
           assert (W : exists v, bound_up d p = Ok v) by (unfold bound_up, start_value; rewrite Y; destruct (p_up p); cbn; eauto).
           destruct V as [v V], W as [w W]. rewrite V in E. cbn [bind] in E. rewrite aset_Ok in E by exact K1. cbn [bind] in E.
           rewrite W in E. cbn [bind] in E. rewrite aset_Ok in E by exact K2. cbn [bind] in E. apply IH in E; [exact E|].
           intros k' p' J. cbn [fst snd]. rewrite !length_set_nth. apply (A k' p'). now right. }
         apply Q in B; [exact B|]. intros k p J. cbn [fst snd]. rewrite !repeat_length.
         split; [apply Pr; unfold addressed; apply in_map_iff; now exists (k, p)|].
         assert (J' : In k (dkeys (o_params o))) by (unfold dkeys; apply in_map_iff; now exists (k, p)). apply R in J'. now split. }
    rewrite K. cbn [bind]. exists KeyError. split; reflexivity.
  Qed.

  (** ** The returned form *)

  Lemma run_points {S'} o tmax eta (gf : list T -> list T -> eff S' (list T)) s : forall d0 d (c : S'), evolved (addressed o) d0 d ->
    let f := objective_function_numpy (optimize_form o tmax eta) gf in
    fst (fst (run_strategy f s (d, c))) = after_evaluations o tmax eta (visited f s (d, c)) d.
  Proof.
    induction s as [x grad k IH|x l e r|l e r|]; intros d0 d c E f; try reflexivity.
    cbn [run_strategy visited]. unfold ebind. destruct (f x grad (d, c)) as [[d1 c1] r] eqn:F.
    assert (D : d1 = fst (optimize_form o tmax eta x d)).
    { unfold f, objective_function_numpy, ebind, on_fst in F. cbn [fst snd] in F. destruct (optimize_form o tmax eta x d) as [d2 [y|e]]; cbn [fst].
      - unfold on_snd in F. cbv beta iota in F.
        destruct (Nat.ltb 0 (List.length grad)); cbn [fst snd] in F; [destruct (gf x grad c) as [c2 [g2|e2]]|]; unfold eret in F; congruence.
      - congruence. }
    destruct r as [fg|e]; cbn [fst snd].
    - unfold after_evaluations. cbn [fold_left]. rewrite <- D. apply (IH (fst fg) (snd fg) d0 d1 c1).
      rewrite D. now apply optimize_form_evolved.
    - unfold after_evaluations. cbn [fold_left]. now symmetry.
  Qed.

  Lemma after_last o tmax eta ys y d : (exists v, objective o tmax eta d y = Ok v) ->
    update_parameters o y d = (after_evaluations o tmax eta (ys ++ [y]) d, Ok tt).
  Proof.
    intros [v V]. unfold after_evaluations. rewrite fold_left_app. cbn [fold_left].
    destruct (c46_objective o tmax eta ys y d) as [_ B]. unfold after_evaluations in B. rewrite (B v V), optimize_form_fst.
    unfold objective, optimize_form, ebind in V. destruct (update_parameters o y d) as [d1 [[]|e]]; [reflexivity|discriminate V].
  Qed.

  Lemma visited_Ok {S'} o tmax eta (gf : list T -> list T -> eff S' (list T)) s : forall d0 d (c : S'), evolved (addressed o) d0 d ->
    let f := objective_function_numpy (optimize_form o tmax eta) gf in
    (exists a, snd (run_strategy f s (d, c)) = Ok a) ->
    forall x, In x (visited f s (d, c)) -> exists v, objective o tmax eta d0 x = Ok v.
  Proof.
    induction s as [x grad k IH|x l e r|l e r|]; intros d0 d c E f R; [|intros z []|intros z []|intros z []].
    cbn [run_strategy visited] in *. unfold ebind in R. destruct (f x grad (d, c)) as [[d1 c1] r] eqn:F.
    destruct (optimize_form_evolved o tmax eta x d0 d E) as [A Q].
    assert (D : d1 = fst (optimize_form o tmax eta x d) /\ forall fg, r = Ok fg -> exists v, snd (optimize_form o tmax eta x d) = Ok v).
    { unfold f, objective_function_numpy, ebind, on_fst in F. cbn [fst snd] in F. destruct (optimize_form o tmax eta x d) as [d2 [y|e]]; cbn [fst snd].
      - split; [|eauto]. unfold on_snd in F. cbv beta iota in F.
        destruct (Nat.ltb 0 (List.length grad)); cbn [fst snd] in F; [destruct (gf x grad c) as [c2 [g2|e2]]|]; unfold eret in F; congruence.
      - split; [congruence|]. intros fg ->. discriminate F. }
    destruct r as [fg|e]; [|destruct R as [a R]; discriminate R].
    intros z [<-|I].
    - destruct (proj2 D fg eq_refl) as [v V]. exists v. unfold objective. now rewrite <- A.
    - apply (IH (fst fg) (snd fg) d0 d1 c1); auto. rewrite (proj1 D). exact Q.
  Qed.

  (** The form is the one of the diagram at the last point the solver evaluated, found
      with the default settings; without evaluation it is the one of the given
      diagram.  x_opt is the point the solver returned, or the last evaluated one. *)
  Lemma c54_last_point_partial : forall ad solver algorithm grad h iters eps kappa tmax eta o d o' d' form,
    solve ad solver algorithm grad h iters eps kappa tmax eta (o, d) = ((o', d'), Ok form) ->
    static_equilibrium d' None 100 neps6 false = Ok form
    /\ same_except (addressed o) d d'
    /\ exists ys a, solver_run ad solver o d algorithm grad h iters eps kappa tmax eta = Ok (ys, Ok a)
      /\ (ys = [] -> d' = d)
      /\ (forall ys0 y, ys = ys0 ++ [y] -> update_parameters o y d = (d', Ok tt))
      /\ match a with
         | AReturn x loss evals _ => o_x o' = Some x /\ o_penalty o' = Some loss /\ o_evals o' = Some evals
         | ARoundoff loss evals _ => o_penalty o' = Some loss /\ o_evals o' = Some evals
             /\ exists x, optimization_parameters o d' = Ok x /\ o_x o' = Some x
         | ARuntime => o' = o
         end.
  Proof.
    intros ad solver algorithm grad h iters eps kappa tmax eta o d o' d' form E. unfold solve in E. unfold solver_run.
    destruct (prepare ad o d algorithm grad h iters eps kappa tmax eta) as [[[gf x] pr]|e]; [|discriminate E]. cbn [bind].
    set (f := objective_function_numpy (optimize_form o tmax eta) gf) in *. set (s := solver pr x) in *.
    assert (P := run_points o tmax eta gf s d d d (evolved_refl _ _)). cbn zeta in P. fold f in P.
    assert (V := visited_Ok o tmax eta gf s d d d (evolved_refl _ _)). cbn zeta in V. fold f in V.
    destruct (run_strategy f s (d, d)) as [[d1 c1] r] eqn:R. cbn [fst snd] in *.
    destruct r as [a|e]; [|discriminate E].
    assert (D : d' = d1 /\ default_form d1 = Ok form /\ match a with
         | AReturn x loss evals _ => o_x o' = Some x /\ o_penalty o' = Some loss /\ o_evals o' = Some evals
         | ARoundoff loss evals _ => o_penalty o' = Some loss /\ o_evals o' = Some evals
             /\ exists x, optimization_parameters o d1 = Ok x /\ o_x o' = Some x
         | ARuntime => o' = o
         end).
    { destruct a as [x1 loss evals result|loss evals result|].
      - destruct (nlopt_status result) as [status|e]; [|discriminate E].
        destruct (gf x1 (repeat n0 (List.length x1)) c1) as [c2 [g2|e2]]; [|discriminate E]. injection E as <- <- E. cbn. auto.
      - destruct (optimization_parameters o d1) as [x1|e]; [|discriminate E]. destruct (nlopt_status result) as [status|e]; [|discriminate E].
        destruct (gf x1 (repeat n0 (List.length x1)) c1) as [c2 [g2|e2]]; [|discriminate E]. injection E as <- <- E. cbn. repeat split; eauto.
      - injection E as <- <- E. auto. }
    destruct D as (->&F&A). split; [exact F|]. split; [rewrite P; apply c45_objective_frame|].
    exists (visited f s (d, d)), a. split; [reflexivity|]. split; [intros Z; rewrite P, Z; reflexivity|]. split; [|exact A].
    intros ys0 y Y. rewrite P, Y. apply after_last. apply V; [eauto|]. rewrite Y. apply in_or_app. right. now left.
  Qed.

  (** If progress stopped on roundoff errors after an evaluation, x_opt is the last
      evaluated point and the form is that of x_opt, found with the default settings. *)
  Lemma c54_roundoff : forall ad solver algorithm grad h iters eps kappa tmax eta o d o' d' form ys0 y loss evals result,
    obtained o -> keys_in_range o -> NoDup (addressed o) -> (forall s, In s (addressed o) -> present d s) ->
    Z.of_nat (List.length y) = number_of_parameters o ->
    solver_run ad solver o d algorithm grad h iters eps kappa tmax eta = Ok (ys0 ++ [y], Ok (ARoundoff loss evals result)) ->
    solve ad solver algorithm grad h iters eps kappa tmax eta (o, d) = ((o', d'), Ok form) ->
    o_x o' = Some y /\ update_parameters o y d = (d', Ok tt) /\ static_equilibrium d' None 100 neps6 false = Ok form.
  Proof.
    intros ad solver algorithm grad h iters eps kappa tmax eta o d o' d' form ys0 y loss evals result M K ND Pr L R E.
    destruct (c54_last_point_partial _ _ _ _ _ _ _ _ _ _ _ _ _ _ _ E) as (F&_&ys&a&R'&_&U&A).
    rewrite R in R'. injection R' as <- <-. destruct A as (_&_&x&X&Ox).
    assert (U' := U ys0 y eq_refl). split; [|split; [exact U'|exact F]].
    destruct (c45_round_trip o y d M K ND Pr L) as (d2&U2&X2&_). rewrite U' in U2. injection U2 as <-. congruence.
  Qed.
End Thms.

(** ** Over the real numbers *)

Open Scope R_scope.

Lemma fd_affine_bump a x i h c : List.length a = List.length x -> (i < List.length x)%nat ->
  c + rsum (map (fun ax => fst ax * snd ax) (combine a (bump x i h)))
  = c + rsum (map (fun ax => fst ax * snd ax) (combine a x)) + nth i a 0 * h.
Proof.
  revert a i. induction x as [|v x IH]; intros a i L I; [cbn in I; lia|].
  destruct a as [|b a]; [discriminate L|]. unfold bump in *. destruct i as [|i].
  - cbn. ring.
  - cbn [List.length] in *. cbn [set_nth nth combine map rsum fold_right fst snd] in *.
    assert (E := IH a i ltac:(lia) ltac:(lia)). unfold rsum in *. cbn [nadd n0 R_ops] in *. lra.
Qed.

(** The bounds of a parameter enclose its value, at the distances given; no bound
    given means no bound. *)
Lemma c44_bounds : forall (d : diagram R) p x, quantity d (p_slot p) = Ok x ->
  (match p_low p with
   | Some b => exists l, bound_low d p = Ok (Some l) /\ l <= x /\ x - l = Rabs b
   | None => bound_low d p = Ok None
   end) /\
  (match p_up p with
   | Some b => exists u, bound_up d p = Ok (Some u) /\ x <= u /\ u - x = Rabs b
   | None => bound_up d p = Ok None
   end).
Proof.
  intros d p x E. rewrite <- start_quantity in E. unfold bound_low, bound_up. rewrite E. cbn [bind]. split.
  - destruct (p_low p) as [b|]; [|reflexivity]. eexists. split; [reflexivity|]. cbn [nsub nabs R_ops].
    assert (X := Rabs_pos b). lra.
  - destruct (p_up p) as [b|]; [|reflexivity]. eexists. split; [reflexivity|]. cbn [nadd nabs R_ops].
    assert (X := Rabs_pos b). lra.
Qed.

Lemma Forall2_set_nth {A B} (Q : A -> B -> Prop) l m i a b : Forall2 Q l m -> Q a b -> Forall2 Q (set_nth l i a) (set_nth m i b).
Proof. intros F Qa. revert i. induction F as [|x y l m Qx F IH]; intros [|i]; cbn; constructor; auto. Qed.

Lemma bounds_arrays (d : diagram R) ps : forall x l u x' l' u',
  Forall2 (fun l v => match l with Some l => l <= v | None => True end) l x ->
  Forall2 (fun u v => match u with Some u => v <= u | None => True end) u x ->
  fold_res (fun x (kp : Z * parameter R) => let* v := start_value d (snd kp) in aset x (fst kp) v) ps x = Ok x' ->
  fold_res (fun (lu : list (option R) * list (option R)) (kp : Z * parameter R) =>
      let* v := bound_low d (snd kp) in
      let* l := aset (fst lu) (fst kp) v in
      let* w := bound_up d (snd kp) in
      let* u := aset (snd lu) (fst kp) w in
      Ok (l, u)) ps (l, u) = Ok (l', u') ->
  Forall2 (fun l v => match l with Some l => l <= v | None => True end) l' x'
  /\ Forall2 (fun u v => match u with Some u => v <= u | None => True end) u' x'
  /\ List.length x' = List.length x.
Proof.
  induction ps as [|[k p] ps IH]; intros x l u x' l' u' L U X B; cbn [fold_res fst snd] in *.
  - apply Ok_inj in X, B. injection B as <- <-. subst. auto.
  - apply bind_Ok in X as (x1&X1&X). apply bind_Ok in X1 as (v&V&X1). apply aset_inv in X1 as [_ ->].
    apply bind_Ok in B as ([l1 u1]&B1&B). apply bind_Ok in B1 as (b&Eb&B1). apply bind_Ok in B1 as (l2&L2&B1).
    apply bind_Ok in B1 as (w&Ew&B1). apply bind_Ok in B1 as (u2&U2&B1). apply Ok_inj in B1. injection B1 as <- <-.
    apply aset_inv in L2 as [_ ->]. apply aset_inv in U2 as [_ ->].
    rewrite start_quantity in V. destruct (c44_bounds d p v V) as [Bl Bu].
    destruct (IH _ _ _ _ _ _ (Forall2_set_nth _ l x (Z.to_nat k) b v L ltac:(
        destruct (p_low p) as [y|]; [destruct Bl as (z&Z1&Z2&_)|]; rewrite Eb in *; [apply Ok_inj in Z1; subst b; exact Z2|apply Ok_inj in Bl; subst b; exact I]))
      (Forall2_set_nth _ u x (Z.to_nat k) w v U ltac:(
        destruct (p_up p) as [y|]; [destruct Bu as (z&Z1&Z2&_)|]; rewrite Ew in *; [apply Ok_inj in Z1; subst w; exact Z2|apply Ok_inj in Bu; subst w; exact I]))
      X B) as (A1&A2&A3).
    rewrite length_set_nth in A3. auto.
Qed.

(** The external solver only ever sees a start vector within its bounds: what it
    would do otherwise makes no difference. *)
Lemma c44_solver : forall ad solver solver' algorithm grad h iters eps kappa tmax eta (o : optimizer R) d,
  (forall pr x, in_bounds Rle pr x -> solver pr x = solver' pr x) ->
  solve ad solver algorithm grad h iters eps kappa tmax eta (o, d) = solve ad solver' algorithm grad h iters eps kappa tmax eta (o, d).
Proof.
  intros ad solver solver' algorithm grad h iters eps kappa tmax eta o d S. unfold solve.
  destruct (prepare ad o d algorithm grad h iters eps kappa tmax eta) as [[[gf x] pr]|e] eqn:P; [|reflexivity].
  rewrite (S pr x); [reflexivity|]. unfold prepare in P.
  apply bind_Ok in P as (_&_&P). apply bind_Ok in P as (gf'&_&P). apply bind_Ok in P as (x'&X&P). apply bind_Ok in P as ([l u]&B&P).
  apply bind_Ok in P as (pr'&N&P). apply Ok_inj in P. injection P as <- <- <-.
  unfold optimization_parameters in X. unfold optimization_bounds in B.
  assert (I0 : forall n, Forall2 (fun (l : option R) v => match l with Some l => l <= v | None => True end) (repeat (Some n0) n) (repeat n0 n)
                      /\ Forall2 (fun (u : option R) v => match u with Some u => v <= u | None => True end) (repeat (Some n0) n) (repeat n0 n)).
  { induction n as [|n [IH1 IH2]]; cbn; split; constructor; auto; cbn; lra. }
  destruct (bounds_arrays d _ _ _ _ _ _ _ (proj1 (I0 _)) (proj2 (I0 _)) X B) as (A1&A2&A3).
  unfold nlopt_solver in N. apply bind_Ok in N as (alg&_&N). apply bind_Ok in N as (loc&_&N). apply Ok_inj in N. subst pr'.
  split; [|split; [exact A1|exact A2]]. cbn [pr_dims]. unfold number_of_parameters. now rewrite A3, repeat_length.
Qed.

(** The gradient is exact for an affine function. *)
Lemma c47_affine : forall (g : list R -> res R) c a h x, h <> 0 -> List.length a = List.length x ->
  (forall y, List.length y = List.length x -> g y = Ok (c + rsum (map (fun ax => fst ax * snd ax) (combine a y)))) ->
  forward_differences g h x = Ok a.
Proof.
  intros g c a h x Nh L G. unfold forward_differences. rewrite G by reflexivity. cbn [bind].
  assert (Q : forall i, (i < List.length x)%nat ->
     (let* y := g (bump x i h) in Ok (ndiv (nsub y (c + rsum (map (fun ax => fst ax * snd ax) (combine a x)))) h)) = Ok (nth i a 0)).
  { intros i I. rewrite G by (unfold bump; now rewrite length_set_nth). cbn [bind]. f_equal. rewrite fd_affine_bump by auto.
    cbn [ndiv nsub R_ops]. field. exact Nh. }
  assert (M : forall k n, (k + n <= List.length x)%nat ->
     map_res (fun i => let* y := g (bump x i h) in Ok (ndiv (nsub y (c + rsum (map (fun ax => fst ax * snd ax) (combine a x)))) h)) (seq k n)
     = Ok (map (fun i => nth i a 0) (seq k n))).
  { intros k n. revert k. induction n as [|n IH]; intros k B; [reflexivity|]. cbn [seq map_res map]. rewrite Q by lia. cbn [bind].
    rewrite IH by lia. reflexivity. }
  rewrite M by lia. f_equal. rewrite <- L. clear. induction a as [|b a IH]; [reflexivity|].
  cbn [List.length seq map nth]. f_equal. rewrite <- seq_shift, map_map. exact IH.
Qed.
