(** * What the optimizer prints, and how objects describe themselves (C104)

    Generated by tools/gen_props.py from the lemmas of PrintThms.v and WitnessPrint.v.
    The vocabulary is in SpecTopology.v, SpecEquilibrium.v, SpecOptimizer.v and SpecReport.v. *)

From Coq Require Import String List ZArith Bool Lia Reals Lra Floats.
From Verif Require Import Py Num Diagram Topology Equilibrium History Fixtures SpecDiagram SpecTopology SpecEquilibrium
  Constraints Optimizer SpecOptimizer Messages SolveOut SpecReport PrintThms Witness WitnessEq WitnessOpt WitnessPrint.
Import ListNotations.
Open Scope Z_scope.

Section Report.
  Context {T : Type} `{NumOps T}.
  Implicit Types (d : diagram T) (o : optimizer T).

(** Whether the optimizer is asked to print makes no difference for what it does. *)
Theorem C104_same : forall ad solver algorithm grad h iters eps kappa tmax eta verbose o d,
    snd (solve_out ad solver algorithm grad h iters eps kappa tmax eta verbose (o, d))
    = solve ad solver algorithm grad h iters eps kappa tmax eta (o, d).
Proof. exact c104_same. Qed.
(** A run that returns a form prints, if it was asked to: the problem, how the solver ended, and the results as the optimizer
    holds them; and then the warnings of finding the form.  If it was not asked to, only an end with roundoff
    errors or a failure is told, and the warnings. *)
Theorem C104_report : forall ad solver algorithm grad h iters eps kappa tmax eta verbose o d ls o' d' form,
    solve_out ad solver algorithm grad h iters eps kappa tmax eta verbose (o, d) = (ls, ((o', d'), Ok form)) ->
    exists start ys a results,
      (if verbose then introduction o algorithm grad h start else start = [])
      /\ solver_run ad solver o d algorithm grad h iters eps kappa tmax eta = Ok (ys, Ok a)
      /\ ls = start ++ match a with
                       | AReturn _ _ _ _ => if verbose then [EndedCorrectly] else []
                       | ARoundoff _ _ _ => [Halted; MayBeUseful]
                       | ARuntime => [Failed; RunningTime]
                       end ++ results ++ map Finding (said (static_equilibrium_out d' None 100 neps6 false false))
      /\ match a with
         | ARuntime => results = [] /\ o' = o
         | _ => if verbose then shows_results o' results else results = []
         end.
Proof. exact c104_report. Qed.
(** Every number and every status that is printed, also by a run that raises in the end, is the one the optimizer holds
    afterwards. *)
Theorem C104_true : forall ad solver algorithm grad h iters eps kappa tmax eta verbose o d ls o' d' r,
    solve_out ad solver algorithm grad h iters eps kappa tmax eta verbose (o, d) = (ls, ((o', d'), r)) ->
    (forall p c, In (Sizes p c) ls -> p = number_of_parameters o' /\ c = number_of_constraints o')
    /\ (forall n, In (Evaluations n) ls -> o_evals o' = Some n)
    /\ (forall x, In (FinalValue x) ls -> o_penalty o' = Some x)
    /\ (forall x, In (NormOfGradient x) ls -> o_norm o' = Some x)
    /\ (forall s, In (Status s) ls -> o_status o' = Some s).
Proof. exact c104_true. Qed.
(** The text of an optimizer counts the parameters and the constraints that were added and not removed since. *)
Theorem C104_optimizer : forall (cs : list (@call T)), exists p c s, optimizer_repr (after_calls cs) = (p, c, s)
    /\ counts (fun k => exists x, kept_parameter cs k x) p /\ counts (fun k => exists x, kept_constraint cs k x) c.
Proof. exact c104_optimizer. Qed.
(** The status in the text of an optimizer is the one with which its last run ended, if that run returned results. *)
Theorem C104_status_partial : forall ad solver algorithm grad h iters eps kappa tmax eta o d o' d' form ys a,
    solver_run ad solver o d algorithm grad h iters eps kappa tmax eta = Ok (ys, Ok a) ->
    solve ad solver algorithm grad h iters eps kappa tmax eta (o, d) = ((o', d'), Ok form) ->
    fst (optimizer_repr o') = fst (optimizer_repr o)
    /\ match a with
       | AReturn _ _ _ result | ARoundoff _ _ result => exists s, In (result, s) nlopt_codes /\ snd (optimizer_repr o') = Some s
       | ARuntime => snd (optimizer_repr o') = snd (optimizer_repr o)
       end.
Proof. exact c104_status_partial. Qed.
(** The text of a topology counts its edges, nodes and trails. *)
Theorem C104_topology : forall d, reachable d ->
    exists e t v n s l k a, topology_repr d = Ok [("Edges", e); ("Trail edges", t); ("Deviation edges", v); ("Nodes", n);
        ("Support nodes", s); ("Loaded nodes", l); ("Trails", k); ("Auxiliary trails", a)]%string
      /\ counts (fun x => In x (edges d)) e /\ counts (fun x => is_trail_edge d x = Ok true) t
      /\ counts (fun x => is_deviation_edge d x = Ok true) v /\ t + v = e
      /\ counts (fun x => In x (nodes d)) n /\ counts (fun x => is_node_support d x = Ok true) s
      /\ counts (fun x => exists q, node_load d x = Ok q /\ nltb neps6 (length_vector q) = true) l
      /\ counts (fun key => exists tr, In (key, tr) (trails d)) k
      /\ counts (fun x => is_auxiliary_trail_edge d x = true) a.
Proof. exact c104_topology. Qed.
(** The text of a form, and of any other diagram, counts its edges and nodes. *)
Theorem C104_form : forall d, produced d ->
    exists e n s l, diagram_repr d = Ok [("Edges", e); ("Nodes", n); ("Support Nodes", s); ("Loaded nodes", l)]%string
      /\ counts (fun x => In x (edges d)) e /\ counts (fun x => In x (nodes d)) n
      /\ counts (fun x => is_node_support d x = Ok true) s
      /\ counts (fun x => exists q, node_load d x = Ok q /\ nltb neps6 (length_vector q) = true) l.
Proof. exact c104_form. Qed.
End Report.

(** The magnitude and the state in the text of an edge are those of the length or the force it was made with. *)
Theorem C104_edge : forall (e : edge_elem R),
  let '(m, s, p) := edge_repr e in
  (0 <= m)%R /\ (s = 1 \/ s = -1)
  /\ match e with
     | TrailEdge l pl => (l = IZR s * m)%R /\ (s = 1 <-> (0 <= l)%R) /\ p = pl
     | DeviationEdge f => (f = IZR s * m)%R /\ (s = 1 <-> (0 <= f)%R)
     end.
Proof. exact c104_edge. Qed.
(** After a run that failed, and said so, the text of the optimizer still shows the status of an earlier run, and its other
  results are those of the earlier run too. *)
Theorem C104_refuted : exists solver solver' o (d : diagram float) o1 d1 form1 ls o2 d2 form2,
  reachable d /\ obtained o
  /\ solve no_ad solver "SLSQP" "FD" 0x1p-20%float 100 None None 100 neps6 (o, d) = ((o1, d1), Ok form1)
  /\ solve_out no_ad solver' "SLSQP" "FD" 0x1p-20%float 100 None None 100 neps6 true (o1, d1) = (ls, ((o2, d2), Ok form2))
  /\ In Failed ls /\ snd (optimizer_repr o2) = Some "NLOPT_SUCCESS"%string /\ o_penalty o2 = o_penalty o1.
Proof. exact c104_refuted. Qed.
Print Assumptions C104_same.
Print Assumptions C104_report.
Print Assumptions C104_true.
Print Assumptions C104_optimizer.
Print Assumptions C104_status_partial.
Print Assumptions C104_topology.
Print Assumptions C104_form.
Print Assumptions C104_edge.
Print Assumptions C104_refuted.

(** ** The hypotheses can be met *)

(** A run on the braced tower that is asked to print: the solver tries two points and returns the first. *)
Example C104_nonvacuous : exists g ls o' d' form,
  solve_out no_ad goes_back "SLSQP" "FD" 0x1p-20%float 100 None None 100 neps6 true (tower_optimizer, float_tower) = (ls, ((o', d'), Ok form))
  /\ o_norm o' = Some g
  /\ exists x, ls = [Rule; Started "SLSQP"; Sizes 4 2; ByDifferences 0x1p-20%float; EndedCorrectly; RunningTime; Evaluations 2; FinalValue x;
        NormOfGradient g; Status "NLOPT_SUCCESS"; Rule].
Proof.
  destruct (solve_out no_ad goes_back "SLSQP" "FD" 0x1p-20%float 100 None None 100 neps6 true (tower_optimizer, float_tower))
    as [ls [[o' d'] r]] eqn:E.
  assert (A : exists form, r = Ok form).
  { change r with (snd (snd (ls, ((o', d'), r)))). rewrite <- E. eexists. vm_compute. reflexivity. }
  destruct A as [form ->].
  assert (B : exists g x, ls = [Rule; Started "SLSQP"; Sizes 4 2; ByDifferences 0x1p-20%float; EndedCorrectly;
     RunningTime; Evaluations 2; FinalValue x; NormOfGradient g; Status "NLOPT_SUCCESS"; Rule]).
  { change ls with (fst (ls, ((o', d'), @Ok (diagram float) form))). rewrite <- E. do 2 eexists. vm_compute. reflexivity. }
  destruct B as (g&x&B). exists g, ls, o', d', form. split; [reflexivity|]. split; [|exists x; exact B].
  destruct (C104_true _ _ _ _ _ _ _ _ _ _ _ _ _ _ _ _ _ E) as (_&_&_&N&_). apply N. rewrite B. cbn. tauto.
Qed.

(** A topology and a form that describe themselves. *)
Example C104_topology_nonvacuous : exists c, topology_repr float_tower = Ok c /\ In ("Trail edges"%string, 4) c.
Proof. eexists. split; [vm_compute; reflexivity|]. vm_compute. tauto. Qed.
