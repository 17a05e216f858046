(** * Theorems about solving in another process *)

From Coq Require Import String List ZArith Bool Lia.
From Verif Require Import Py PyFacts Num Diagram Topology Equilibrium EquilibriumNp Constraints Optimizer SpecOptimizer ReportThms Serialize SpecSerialize SerializeThms
  Files SpecFiles FilesThms Remote SpecRemote.
Import ListNotations.
Open Scope Z_scope.

#[local] Arguments dget {K V _} !d k /.

(** ** Computations that follow each other *)

Section Follows.
  Context {S S' : Type} (h : S -> S').

  Lemma follows_ret {A} (a : A) : follows h (eret a) (eret a).
  Proof using. intros s. reflexivity. Qed.
  Lemma follows_raise {A} e : follows h (A := A) (eraise e) (eraise e).
  Proof using. intros s. reflexivity. Qed.
  Lemma follows_const {A} (r : res A) : follows h (eget (fun _ => r)) (eget (fun _ => r)).
  Proof using. intros s. reflexivity. Qed.
  Lemma follows_bind {A B} (m : eff S A) (m' : eff S' A) (k : A -> eff S B) (k' : A -> eff S' B) :
    follows h m m' -> (forall a, follows h (k a) (k' a)) -> follows h (ebind m k) (ebind m' k').
  Proof using.
    intros M K s. unfold ebind. rewrite M. destruct (m s) as [s1 [a|e]]; cbn [fst snd]; [apply K|reflexivity].
  Qed.
  Lemma follows_loop {X A} (b : X -> A -> eff S X) (b' : X -> A -> eff S' X) l :
    (forall x a, follows h (b x a) (b' x a)) -> forall x, follows h (eloop b l x) (eloop b' l x).
  Proof using.
    intros B. induction l as [|a l IH]; intros x; cbn [eloop]; [apply follows_ret|].
    apply follows_bind; auto.
  Qed.
End Follows.

Definition both {S S'} (h : S -> S') (p : S * S) : S' * S' := (h (fst p), h (snd p)).

Section Both.
  Context {T : Type} `{NumOps T} {S S' : Type} (h : S -> S').

  Lemma follows_fst {A} (m : eff S A) m' : follows h m m' -> follows (both h) (on_fst m) (on_fst m').
  Proof using. intros M [a b]. unfold on_fst, both. cbn [fst snd]. rewrite M. destruct (m a). reflexivity. Qed.
  Lemma follows_snd {A} (m : eff S A) m' : follows h m m' -> follows (both h) (on_snd m) (on_snd m').
  Proof using. intros M [a b]. unfold on_snd, both. cbn [fst snd]. rewrite M. destruct (m b). reflexivity. Qed.

  Lemma follows_finite f f' (e : T) x grad : (forall x, follows h (f x) (f' x)) ->
    follows h (grad_finite_differences f e x grad) (grad_finite_differences f' e x grad).
  Proof using.
    intros F. unfold grad_finite_differences. apply follows_bind; [apply F|intros fx].
    apply follows_bind; [|intros; apply follows_ret].
    apply follows_loop. intros [x' g] i.
    repeat (apply follows_bind; [solve [apply follows_const|apply F]|intros]). apply follows_ret.
  Qed.

  Lemma follows_auto f f' (x grad : list T) : (forall x, follows h (f x) (f' x)) ->
    follows h (grad_autograd f x grad) (grad_autograd f' x grad).
  Proof using.
    intros F. unfold grad_autograd. apply follows_bind; [apply F|intros r].
    destruct (Nat.eqb _ _); [apply follows_ret|apply follows_raise].
  Qed.

  Lemma follows_objective f f' gf gf' (x grad : list T) :
    (forall x, follows h (f x) (f' x)) -> (forall x g, follows h (gf x g) (gf' x g)) ->
    follows (both h) (objective_function_numpy f gf x grad) (objective_function_numpy f' gf' x grad).
  Proof using.
    intros F G. unfold objective_function_numpy. apply follows_bind; [apply follows_fst, F|intros fx].
    destruct (Nat.ltb _ _); [|apply follows_ret]. apply follows_bind; [apply follows_snd, G|intros; apply follows_ret].
  Qed.
End Both.

Lemma follows_run {T} `{NumOps T} {S S'} (h : S -> S') f f' (s : strategy T) :
  (forall x g, follows h (f x g) (f' x g)) -> follows h (run_strategy f s) (run_strategy f' s).
Proof.
  intros F. induction s; cbn [run_strategy]; try apply follows_ret.
  apply follows_bind; auto.
Qed.

Section RemoteThms.
  Context {T : Type} `{NumOps T}.

  (** ** The array program on an object *)

  Section Array.
    Context (f g : Z -> pkey) (inj : forall x y, f x = f y -> x = y) (d : diagram T).

    Lemma visit_numpy_keyed env ts ind k st key :
      o_visit_numpy (base_of d) env (rekey f ts) ind k st (f key) = visit_numpy d env ts ind k st key.
    Proof using inj.
      unfold o_visit_numpy, visit_numpy at 2. rewrite dgetr_rekey by exact inj.
      destruct (dgetr ts key) as [m|e]; reflexivity.
    Qed.

    Lemma sweep_numpy_keyed env ts ind st :
      o_sweep_numpy (keyed f g d) env (rekey f ts) ind st = sweep_numpy d env ts ind st.
    Proof using inj.
      unfold o_sweep_numpy, sweep_numpy. cbn [keyed o_base o_trails].
      change (number_of_sequences (base_of d)) with (number_of_sequences d).
      destruct (number_of_sequences d) as [n|e]; [|reflexivity]. cbn [bind].
      apply fold_res_ext. intros s k. rewrite dkeys_rekey, fold_res_map.
      apply fold_res_ext. intros s' key. apply visit_numpy_keyed.
    Qed.

    Lemma iterate_numpy_keyed env ts eta n : forall t dist st,
      o_iterate_numpy (keyed f g d) env (rekey f ts) eta n t dist st = iterate_numpy d env ts eta n t dist st.
    Proof using inj.
      induction n as [|n IH]; intros t dist st; [reflexivity|]. cbn [o_iterate_numpy iterate_numpy].
      rewrite sweep_numpy_keyed. destruct (sweep_numpy d env ts (negb (Nat.eqb t 0)) st) as [st'|e]; [|reflexivity].
      cbn [bind]. destruct (Nat.eqb t 0); [apply IH|].
      destruct (residual_numpy (s_xyz st) (s_xyz st')) as [x|e]; [|reflexivity]. cbn [bind].
      destruct (nltb x eta); [reflexivity|apply IH].
    Qed.

    Lemma state_numpy_keyed tmax eta verbose :
      o_equilibrium_state_numpy (keyed f g d) tmax eta verbose = equilibrium_state_numpy d tmax eta verbose.
    Proof using inj.
      unfold o_equilibrium_state_numpy, equilibrium_state_numpy, number_of_trails.
      cbn [keyed o_trails]. rewrite length_rekey. destruct (negb _); [reflexivity|].
      rewrite sequences_keyed by exact inj. destruct (trails_sequences d) as [ts|e]; [|reflexivity]. cbn [bind].
      change (np_containers (o_base (keyed f g d))) with (np_containers d).
      destruct (np_containers d) as [env|e]; [|reflexivity]. cbn [bind].
      change (o_base (keyed f g d)) with (base_of d).
      rewrite iterate_numpy_keyed. reflexivity.
    Qed.
  End Array.

  (** ** The optimizer on an object *)

  Lemma blind_update (opt : optimizer T) x : blind (update_parameters opt x).
  Proof.
    unfold update_parameters. apply blind_loop. intros _ [k p]. apply blind_bind; [apply blind_get; reflexivity|].
    intros v. cbn [snd]. destruct (p_slot p); cbn [slot_set]; [apply blind_node_set|apply blind_edge_set].
  Qed.

  Section Solve.
    Context (f g : Z -> pkey) (inj : forall x y, f x = f y -> x = y).

    Lemma follows_form (opt : optimizer T) tmax eta x :
      follows (keyed f g) (optimize_form opt tmax eta x) (o_optimize_form opt tmax eta x).
    Proof using inj.
      unfold optimize_form, o_optimize_form. apply follows_bind.
      - intros d. apply on_base_keyed, blind_update.
      - intros _ d. unfold eget. cbn [fst snd]. rewrite state_numpy_keyed by exact inj. reflexivity.
    Qed.

    Lemma default_keyed d : o_default_form (keyed f g d) = default_form d.
    Proof using inj. apply forms_keyed, inj. Qed.

    (** What solving leaves, with the object in place of the diagram *)
    Lemma solve_keyed ad solver algorithm grad e iters eps kappa tmax eta opt d : only_calls ad ->
      o_solve ad solver algorithm grad e iters eps kappa tmax eta (opt, keyed f g d)
      = let '((opt', d'), r) := solve (ad (diagram T)) solver algorithm grad e iters eps kappa tmax eta (opt, d) in
        ((opt', keyed f g d'), r).
    Proof using inj.
      intros Ad. unfold o_solve, solve, o_prepare, prepare.
      destruct (check_optimization_sanity opt) as [[]|x]; [|reflexivity]. cbn [bind].
      assert (G : (exists gf gf', gradient_function (ad (diagram T)) opt grad e tmax eta = Ok gf
                    /\ o_gradient_function ad opt grad e tmax eta = Ok gf' /\ forall x gr, follows (keyed f g) (gf x gr) (gf' x gr))
                  \/ exists x, gradient_function (ad (diagram T)) opt grad e tmax eta = Err x
                    /\ o_gradient_function ad opt grad e tmax eta = Err x).
      { unfold gradient_function, o_gradient_function. destruct (String.eqb grad "AD").
        { left. eexists _, _. split; [reflexivity|]. split; [reflexivity|]. intros x gr. apply follows_auto.
          intros y. apply Ad. intros z. apply follows_form. }
        destruct (String.eqb grad "FD"); [|right; eexists; split; reflexivity].
        left. eexists _, _. split; [reflexivity|]. split; [reflexivity|]. intros x gr. apply follows_finite.
        intros y. apply follows_form. }
      destruct G as [(gf&gf'&E&E'&G)|(x&E&E')]; rewrite E, E'; [|reflexivity]. cbn [bind].
      change (optimization_parameters opt (o_base (keyed f g d))) with (optimization_parameters opt d).
      destruct (optimization_parameters opt d) as [x|x]; [|reflexivity]. cbn [bind].
      change (optimization_bounds opt (o_base (keyed f g d))) with (optimization_bounds opt d).
      destruct (optimization_bounds opt d) as [lu|y]; [|reflexivity]. cbn [bind].
      destruct (nlopt_solver _ _ _ _ _ _ _) as [pr|y]; [|reflexivity]. cbn [bind].
      pose proof (follows_run (both (keyed f g)) _ _ (solver pr x)
        (fun y gr => follows_objective (keyed f g) _ _ gf gf' y gr (follows_form opt tmax eta) G) (d, d)) as R.
      unfold both at 1 in R. cbn [fst snd] in R. rewrite R. clear R.
      destruct (run_strategy _ (solver pr x) (d, d)) as [[d1 c1] a]. cbn [both fst snd].
      assert (F : forall xo loss evals result,
        match nlopt_status result with
        | Err e => ((opt, keyed f g d1), Err e)
        | Ok status =>
            match gf' xo (repeat n0 (List.length xo)) (keyed f g c1) with
            | (_, Err e) => ((with_result opt xo loss evals status, keyed f g d1), Err e)
            | (_, Ok gr) => ((with_gradient (with_result opt xo loss evals status) gr (array_norm gr), keyed f g d1), o_default_form (keyed f g d1))
            end
        end
        = let '((opt', d'), r) :=
            match nlopt_status result with
            | Err e => ((opt, d1), Err e)
            | Ok status =>
                match gf xo (repeat n0 (List.length xo)) c1 with
                | (_, Err e) => ((with_result opt xo loss evals status, d1), Err e)
                | (_, Ok gr) => ((with_gradient (with_result opt xo loss evals status) gr (array_norm gr), d1), default_form d1)
                end
            end in ((opt', keyed f g d'), r)).
      { intros. destruct (nlopt_status result) as [st|y]; [|reflexivity]. rewrite G.
        destruct (gf xo _ c1) as [c2 [gr|y]]; cbn [fst snd]; [|reflexivity]. rewrite default_keyed. reflexivity. }
      destruct a as [[xo loss evals result|loss evals result|]|y]; [apply F| | |reflexivity].
      - change (optimization_parameters opt (o_base (keyed f g d1))) with (optimization_parameters opt d1).
        destruct (optimization_parameters opt d1) as [xo|y]; [apply F|reflexivity].
      - rewrite default_keyed. reflexivity.
    Qed.
  End Solve.

  (** ** What travels *)

  Lemma topology_read_again d :
    from_json (json (object_data true (keyed text_key text_key d))) = Ok (keyed (T := T) text_key text_key d).
  Proof.
    unfold from_json, object_of, object_data. set (o := keyed text_key text_key d).
    cbn [json map fst snd json_key app].
    unfold field, field_or. cbn [items_of bind]. unfold dgetr.
    cbn [dget eqb Eqb_pkey pkey_eqb String.eqb Ascii.eqb Bool.eqb bind items_of].
    rewrite !keys_written; [|apply adjacency_written|apply keys_written, edge_written|apply node_written].
    cbn [bind int_of tol_of num_of].
    rewrite map_map. rewrite (map_res_map _ _ (fun gn => gn)); [|intros []; reflexivity]. cbn [bind].
    rewrite map_map, (map_res_map _ _ (fun kt => (json_key (fst kt), snd kt))).
    2:{ intros [k t]. cbn [fst snd]. rewrite trail_written. reflexivity. }
    cbn [bind].
    rewrite map_map, (map_res_map _ _ (fun kt => (json_key (fst kt), snd kt))).
    2:{ intros [k [u v]]. reflexivity. }
    cbn [bind]. change (PList (map json [PNum (vx (d_aux_vector (o_base o))); PNum (vy (d_aux_vector (o_base o))); PNum (vz (d_aux_vector (o_base o)))]))
      with (json (vec_data (d_aux_vector (o_base o)))).
    try rewrite vec_written. cbn [bind]. rewrite map_id. subst o. unfold keyed, base_of, rekey.
    cbn [o_base o_trails o_aux]. rewrite !map_map. destruct d as [? ? ? ? ? ? ? ? ? []]; reflexivity.
  Qed.

  Lemma usable_key (c : cobj T) : usable c -> is_key (co_key c) /\ fits c.
  Proof.
    intros [x E]. destruct c as [cl k t w]. unfold goal_of in E. unfold is_key, fits. cbn [co_class co_key co_target co_weight] in *.
    assert (X : (exists n, k = VInt n) \/ exists u v, k = VTuple [u; v]).
    { destruct cl, k as [| | | | |l| | |]; try discriminate; eauto; destruct l as [|u [|v []]]; try discriminate; eauto. }
    split; [exact X|]. destruct X as [(n&->)|(u&v&->)], cl; try discriminate; destruct t; try discriminate; auto; split; discriminate.
  Qed.

  Lemma carry_goal (c : cobj T) : usable c -> can_travel c -> carry_constraint c = Ok c.
  Proof.
    intros U S. apply usable_key in U. destruct U as [K F]. destruct (c55_constraint_partial c K F S) as (x&E&R).
    unfold carry_constraint. rewrite E. cbn [bind]. apply R. right. reflexivity.
  Qed.

  Lemma carry_slot (p : parameter T) : carry_parameter (parameter_object p) = Ok (parameter_object p).
  Proof.
    destruct (c55_parameter p) as (x&E&R). unfold carry_parameter. rewrite E. cbn [bind]. apply R. right. reflexivity.
  Qed.

  Lemma parameter_of_object (p : parameter T) : parameter_of (parameter_object p) = Ok p.
  Proof.
    destruct p as [[k a|[u v] a] [lo|] [up|]]; destruct a; reflexivity.
  Qed.

  Lemma goal_of_object (c : constraint T) : goal_of (goal_object c) = Ok c.
  Proof. destruct c as [[] w]; try destruct edge; reflexivity. Qed.

  Lemma parameter_of_only x (p : parameter T) : parameter_of x = Ok p -> x = parameter_object p.
  Proof.
    destruct x as [cl k up low attr]. unfold parameter_of. cbn [po_low po_up po_attr po_class po_key].
    destruct (bound_of low) as [l|] eqn:L; [|discriminate]. destruct (bound_of up) as [u|] eqn:U; [|discriminate]. cbn [bind].
    assert (B : forall v (b : option T), bound_of v = Ok b -> v = match b with Some x => VFloat x | None => VNone end).
    { intros v b E. destruct v; cbn in E; try discriminate E; injection E as <-; reflexivity. }
    apply B in L, U. subst low up. destruct attr as [| | |s| | | | |]; cbn [name_is]; try discriminate.
    destruct (String.eqb_spec s (class_attr cl)) as [->|]; [|discriminate].
    destruct cl as [a|a]; destruct k; try discriminate.
    - intros E. injection E as <-. destruct l, u; reflexivity.
    - destruct l0 as [|i [|j [|z r]]]; try discriminate. intros E. injection E as <-. destruct l, u; reflexivity.
  Qed.

  Lemma goal_of_only x (c : constraint T) : goal_of x = Ok c -> x = goal_object c \/ x = plainly (goal_object c).
  Proof.
    destruct x as [cl k t w]. unfold goal_of. cbn [co_class co_key co_target co_weight].
    destruct cl, k as [|n| | | |l| | |]; try discriminate; destruct t as [p|p|a b|a b|ps|[|p [|q [|r ps]]]|x]; try discriminate;
      try (destruct l as [|u [|v [|z l]]]; try discriminate); intros E; injection E as <-; auto.
  Qed.

  Lemma map_res_id {A} (m : A -> res A) l : Forall (fun a => m a = Ok a) l -> map_res m l = Ok l.
  Proof. induction 1 as [|a l E _ IH]; cbn; [reflexivity|]. rewrite E. cbn. rewrite IH. reflexivity. Qed.

  Lemma map_res_Forall2 {A B} (m : A -> res B) l : forall r, map_res m l = Ok r -> Forall2 (fun a b => m a = Ok b) l r.
  Proof.
    induction l as [|a l IH]; cbn; intros r E; [injection E as <-; constructor|].
    destruct (m a) as [b|] eqn:M; [|discriminate]. cbn in E. destruct (map_res m l) as [bs|]; [|discriminate]. injection E as <-.
    constructor; auto.
  Qed.

  (** ** C93 *)

  (** Missing: targets given as plain lists or tuples of coordinates, infinite numbers, and asking the
      returned topology for a trail by its key (the full statement is refuted below).  Solving in
      another process gives the results of solving in this one: the same objective, norm of the
      gradient, number of evaluations and status, the same form, and a topology with the same contents
      that has the same forms.  If solving raises, it raises the same exception. *)
  Lemma c93_solution_partial : forall ad solver d constraints ps algorithm iters h eps kappa tmax eta,
    only_calls ad -> Forall usable constraints -> Forall can_travel constraints ->
    match local_solve ad solver d constraints (map parameter_object ps) algorithm iters h eps kappa tmax eta with
    | Ok (d', form, r) => exists topology,
        remote_solve ad solver d constraints (map parameter_object ps) algorithm iters h eps kappa tmax eta = Ok (topology, in_memory form, r)
        /\ same_contents topology d' /\ same_forms topology d'
    | Err e => remote_solve ad solver d constraints (map parameter_object ps) algorithm iters h eps kappa tmax eta = Err e
    end.
  Proof.
    intros ad solver d cs ps algorithm iters h eps kappa tmax eta Ad U C. unfold local_solve, remote_solve.
    rewrite topology_read. cbn [bind].
    rewrite (map_res_id carry_constraint cs).
    2:{ rewrite Forall_forall in *. intros c I. apply carry_goal; auto. }
    rewrite (map_res_id carry_parameter (map parameter_object ps)).
    2:{ apply Forall_forall. intros p I. apply in_map_iff in I. destruct I as (q&<-&_). apply carry_slot. }
    cbn [bind]. destruct (map_res goal_of cs) as [goals|e]; [|reflexivity]. cbn [bind].
    rewrite (map_res_map _ _ (fun p => p)) by apply parameter_of_object. cbn [bind]. rewrite map_id.
    rewrite solve_keyed by (auto using text_key_inj). unfold solve_proxy.
    destruct (solve (ad (diagram T)) solver algorithm "AD" h iters eps kappa tmax eta (proxy_optimizer goals ps, d)) as [[opt d'] [form|e]] eqn:E; [|reflexivity].
    rewrite topology_read_again. cbn [bind].
    assert (F : from_json (form_file form) = Ok (in_memory form)).
    { assert (D : default_form d' = Ok form).
      { clear - E. unfold solve in E. destruct (prepare _ _ _ _ _ _ _ _ _ _ _) as [[[gf x] pr]|e]; [|discriminate].
        destruct (run_strategy _ _ _) as [[d1 c1] a].
        assert (X : forall xo loss evals result,
          match nlopt_status result with
          | Err e => ((proxy_optimizer goals ps, d1), Err e)
          | Ok status =>
              match gf xo (repeat n0 (List.length xo)) c1 with
              | (_, Err e) => ((with_result (proxy_optimizer goals ps) xo loss evals status, d1), Err e)
              | (_, Ok gr) => ((with_gradient (with_result (proxy_optimizer goals ps) xo loss evals status) gr (array_norm gr), d1), default_form d1)
              end
          end = (opt, d', Ok form) -> default_form d' = Ok form).
        { intros xo loss evals result X. destruct (nlopt_status result); [|discriminate].
          destruct (gf xo _ c1) as [? [?|?]]; [|discriminate]. congruence. }
        destruct a as [[xo loss evals result|loss evals result|]|y]; [eapply X, E| | |discriminate].
        - destruct (optimization_parameters _ d1) as [xo|]; [eapply X, E|discriminate].
        - congruence. }
      eapply c86_form. exact D. }
    rewrite F. cbn [bind]. exists (keyed text_key text_key d'). split; [reflexivity|].
    split; [apply contents_keyed|apply forms_keyed, text_key_inj].
  Qed.

  (** Every constraint and parameter is an object of its class that means what was given; a target in
      plain coordinates means the same as a compas object.  No other object means it. *)
  Lemma c93_objects : (forall c : constraint T, goal_of (goal_object c) = Ok c /\ goal_of (plainly (goal_object c)) = Ok c)
    /\ (forall p : parameter T, parameter_of (parameter_object p) = Ok p)
    /\ (forall x (c : constraint T), goal_of x = Ok c -> x = goal_object c \/ x = plainly (goal_object c))
    /\ forall x (p : parameter T), parameter_of x = Ok p -> x = parameter_object p.
  Proof.
    split; [|split; [apply parameter_of_object|split; [apply goal_of_only|apply parameter_of_only]]]. intros c. split; [apply goal_of_object|].
    destruct c as [[] w]; try destruct edge; reflexivity.
  Qed.

  (** The numbers and the status are those of the optimizer after [solve] with automatic
      differentiation, given the constraints and then the parameters in their order. *)
  Lemma c93_results : forall ad solver d constraints parameters algorithm iters h eps kappa tmax eta d' form objective norm evals status,
    local_solve ad solver d constraints parameters algorithm iters h eps kappa tmax eta = Ok (d', form, (objective, norm, evals, status)) ->
    exists goals slots o', Forall2 (fun c goal => goal_of c = Ok goal) constraints goals
      /\ Forall2 (fun p slot => parameter_of p = Ok slot) parameters slots
      /\ solve (ad (diagram T)) solver algorithm "AD" h iters eps kappa tmax eta
           (after_calls (map AddConstraint goals ++ map AddParameter slots), d) = ((o', d'), Ok form)
      /\ o_penalty o' = objective /\ o_norm o' = norm /\ o_evals o' = evals /\ o_status o' = status.
  Proof.
    intros ad solver d cs ps algorithm iters h eps kappa tmax eta d' form objective norm evals status E. unfold local_solve in E.
    destruct (map_res goal_of cs) as [goals|] eqn:G; [|discriminate]. cbn [bind] in E.
    destruct (map_res parameter_of ps) as [slots|] eqn:P; [|discriminate]. cbn [bind] in E.
    rewrite c69_proxy in E. destruct (solve _ _ _ _ _ _ _ _ _ _ _) as [[o' d1] [fo|e]] eqn:S; [|discriminate].
    unfold results in E. injection E as <- <- <- <- <- <-. exists goals, slots, o'.
    split; [apply map_res_Forall2, G|]. split; [apply map_res_Forall2, P|]. split; [exact S|]. repeat split.
  Qed.

  (** A constraint that cannot travel makes solving in another process raise, whatever else is given. *)
  Lemma c93_stuck : forall ad solver d constraints parameters algorithm iters h eps kappa tmax eta c,
    In c constraints -> usable c -> ~ can_travel c ->
    exists e, remote_solve ad solver d constraints parameters algorithm iters h eps kappa tmax eta = Err e.
  Proof.
    intros ad solver d cs ps algorithm iters h eps kappa tmax eta c I U C. unfold remote_solve. rewrite topology_read. cbn [bind].
    assert (E : exists e, carry_constraint c = Err e).
    { destruct (usable_key c U) as [K F]. destruct c as [cl k t w]. unfold can_travel in C. unfold fits in F. cbn [co_class co_key co_target] in *.
      assert (R : exists s, py_repr k = Ok (VStr s) /\ literal_eval (VStr s) = Ok k).
      { apply c55_key_text. destruct K as [[z ->]|[u [v ->]]]; eauto. }
      destruct R as [s [P L]]. unfold carry_constraint, constraint_data. cbn [co_class co_key co_target co_weight]. rewrite P. cbn [bind].
      destruct t as [p|p|a b|a b|l|l|x]; cbn [storable] in C; try tauto.
      - assert (Fc : is_float_class cl = false) by (destruct cl, F; try reflexivity; congruence). rewrite Fc. cbn [to_data bind]. eauto.
      - assert (Fc : is_float_class cl = true) by (destruct F as [-> | ->]; reflexivity).
        rewrite Fc. cbn [target_value bind py_repr]. unfold constraint_from_data, json_dict, dgetr.
        cbn [map fst snd json_value dget eqb Eqb_string String.eqb Ascii.eqb Bool.eqb bind]. rewrite L. cbn [bind]. rewrite Fc. cbn [literal_eval].
        destruct (finite x); [congruence|]. cbn [bind]. eauto. }
    destruct E as [e E].
    assert (M : exists e, map_res carry_constraint cs = Err e).
    { clear - I E. induction cs as [|c' cs IH]; [destruct I|]. cbn [map_res].
      destruct I as [->|I]; [rewrite E; cbn [bind]; eauto|]. destruct (IH I) as [e' E']. rewrite E'.
      destruct (carry_constraint c'); cbn [bind]; eauto. }
    destruct M as [e' M]. rewrite M. cbn [bind]. eauto.
  Qed.

  (** The topology that comes back has no trail with an integer key. *)
  Lemma c93_lost : forall ad solver d constraints parameters algorithm iters h eps kappa tmax eta topology form r key,
    remote_solve ad solver d constraints parameters algorithm iters h eps kappa tmax eta = Ok (topology, form, r) ->
    only_calls ad -> o_trail topology key = Err KeyError.
  Proof.
    intros ad solver d cs ps algorithm iters h eps kappa tmax eta topology form r key E Ad. unfold remote_solve in E.
    rewrite topology_read in E. cbn [bind] in E.
    destruct (map_res carry_constraint cs) as [cs'|]; [|discriminate]. cbn [bind] in E.
    destruct (map_res carry_parameter ps) as [ps'|]; [|discriminate]. cbn [bind] in E.
    destruct (map_res goal_of cs') as [goals|]; [|discriminate]. cbn [bind] in E.
    destruct (map_res parameter_of ps') as [slots|]; [|discriminate]. cbn [bind] in E.
    rewrite solve_keyed in E by (auto using text_key_inj).
    destruct (solve _ _ _ _ _ _ _ _ _ _ _) as [[opt d'] [fo|e]]; [|discriminate].
    rewrite topology_read_again in E. cbn [bind] in E.
    destruct (from_json (form_file fo)) as [fo'|]; [|discriminate]. cbn [bind] in E.
    injection E as E _ _. subst topology. eapply c86_lost, topology_read.
  Qed.
End RemoteThms.
