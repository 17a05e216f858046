(** * What the optimizer prints (C104) *)

From Coq Require Import String List ZArith Bool Lia Sorted Reals Lra.
From Verif Require Import Py PyFacts Num Diagram Topology Equilibrium EquilibriumNp Constraints Optimizer Messages SolveOut History HistoryFacts DiagramFacts FormFacts ReadyThms
  SpecDiagram SpecTopology SpecEquilibrium SpecOptimizer SpecReport RVec MessageThms CountThms QueryThms ReportThms OptFacts OptThms SolveThms.
Import ListNotations.
Open Scope Z_scope.

Section Print.
  Context {T : Type} `{NumOps T}.
  Implicit Types (d : diagram T) (o : optimizer T).

  (** Whether the optimizer is asked to print makes no difference for what it does. *)
  Lemma c104_same : forall ad solver algorithm grad h iters eps kappa tmax eta verbose o d,
    snd (solve_out ad solver algorithm grad h iters eps kappa tmax eta verbose (o, d))
    = solve ad solver algorithm grad h iters eps kappa tmax eta (o, d).
  Proof.
    intros. unfold solve_out, solve, prepare.
    destruct (check_optimization_sanity o) as [[]|]; cbn [bind snd]; [|reflexivity].
    destruct (gradient_function ad o grad h tmax eta) as [gf|]; cbn [bind snd]; [|reflexivity].
    destruct (optimization_parameters o d) as [x|]; cbn [bind snd]; [|reflexivity].
    destruct (optimization_bounds o d) as [lu|]; cbn [bind snd]; [|reflexivity].
    destruct (nlopt_solver algorithm (number_of_parameters o) (snd lu) (fst lu) iters eps kappa) as [pr|]; cbn [bind snd]; [|reflexivity].
    destruct (run_strategy _ (solver pr x) (d, d)) as [[d' c'] [[x_opt loss evals result|loss evals result|]|e]]; cbn [snd].
    - destruct (nlopt_status result); [|reflexivity]. destruct (gf x_opt _ c') as [? [?|?]]; [|reflexivity].
      cbn [snd]. now rewrite c89_same.
    - destruct (optimization_parameters o d'); [|reflexivity].
      destruct (nlopt_status result); [|reflexivity]. destruct (gf _ _ c') as [? [?|?]]; [|reflexivity].
      cbn [snd]. now rewrite c89_same.
    - now rewrite c89_same.
    - reflexivity.
  Qed.

  (** A run that returns a form prints, if it was asked to: the problem, how the solver ended, and the results as the optimizer
      holds them; and then the warnings of finding the form.  If it was not asked to, only an end with roundoff
      errors or a failure is told, and the warnings. *)
  Lemma c104_report : forall ad solver algorithm grad h iters eps kappa tmax eta verbose o d ls o' d' form,
    solve_out ad solver algorithm grad h iters eps kappa tmax eta verbose (o, d) = (ls, ((o', d'), Ok form)) ->
    exists start ys a results,
      (if verbose then introduction o algorithm grad h start else start = [])
      /\ solver_run ad solver o d algorithm grad h iters eps kappa tmax eta = Ok (ys, Ok a)
      /\ ls = start ++ match a with
                       | AReturn _ _ _ _ => if verbose then [EndedCorrectly] else []
                       | ARoundoff _ _ _ => [Halted; MayBeUseful]
                       | ARuntime => [Failed; RunningTime]
                       end ++ results ++ map Finding (said (static_equilibrium_out d' None 100 neps6 false false))
      /\ match a with
         | ARuntime => results = [] /\ o' = o
         | _ => if verbose then shows_results o' results else results = []
         end.
  Proof.
    intros until form. unfold solve_out, solver_run, prepare, introduction.
    destruct (check_optimization_sanity o) as [[]|]; cbn [bind]; [|discriminate].
    destruct (gradient_function ad o grad h tmax eta) as [gf|]; cbn [bind]; [|discriminate].
    destruct (optimization_parameters o d) as [x|]; cbn [bind]; [|discriminate].
    destruct (optimization_bounds o d) as [lu|]; cbn [bind]; [|discriminate].
    destruct (nlopt_solver algorithm (number_of_parameters o) (snd lu) (fst lu) iters eps kappa) as [pr|]; cbn [bind]; [|discriminate].
    set (f := objective_function_numpy (optimize_form o tmax eta) gf).
    set (l0 := only verbose [Rule; Started algorithm; Sizes (number_of_parameters o) (number_of_constraints o)]
                 ++ only verbose [if String.eqb grad "AD" then ByDifferentiation else ByDifferences h]).
    assert (S0 : if verbose then l0 = [Rule; Started algorithm; Sizes (number_of_parameters o) (number_of_constraints o);
                                       if String.eqb grad "AD" then ByDifferentiation else ByDifferences h] else l0 = []).
    { unfold l0. destruct verbose; reflexivity. }
    clearbody l0.
    destruct (run_strategy f (solver pr x) (d, d)) as [[d1 c1] [[x_opt loss evals result|loss evals result|]|e]]; cbn [snd].
    - destruct (nlopt_status result) as [s|]; [|discriminate]. destruct (gf x_opt _ c1) as [? [g|?]]; [|discriminate].
      intros E. apply pair_equal_spec in E. destruct E as [<- E]. apply pair_equal_spec in E. destruct E as [E _].
      apply pair_equal_spec in E. destruct E as [<- <-].
      exists l0, (visited f (solver pr x) (d, d)), (AReturn x_opt loss evals result), (only verbose [RunningTime; Evaluations evals; FinalValue loss; NormOfGradient (array_norm g); Status s; Rule]).
      split; [exact S0|]. split; [reflexivity|]. split; [unfold only; destruct verbose; rewrite <- !app_assoc; reflexivity|].
      destruct verbose; [|reflexivity]. exists evals, loss, (array_norm g), s. repeat split.
    - destruct (optimization_parameters o d1) as [x_opt|]; [|discriminate].
      destruct (nlopt_status result) as [s|]; [|discriminate]. destruct (gf x_opt _ c1) as [? [g|?]]; [|discriminate].
      intros E. apply pair_equal_spec in E. destruct E as [<- E]. apply pair_equal_spec in E. destruct E as [E _].
      apply pair_equal_spec in E. destruct E as [<- <-].
      exists l0, (visited f (solver pr x) (d, d)), (ARoundoff loss evals result), (only verbose [RunningTime; Evaluations evals; FinalValue loss; NormOfGradient (array_norm g); Status s; Rule]).
      split; [exact S0|]. split; [reflexivity|]. split; [unfold only; destruct verbose; rewrite <- !app_assoc; reflexivity|].
      destruct verbose; [|reflexivity]. exists evals, loss, (array_norm g), s. repeat split.
    - intros E. apply pair_equal_spec in E. destruct E as [<- E]. apply pair_equal_spec in E. destruct E as [E _].
      apply pair_equal_spec in E. destruct E as [<- <-].
      exists l0, (visited f (solver pr x) (d, d)), ARuntime, []. split; [exact S0|]. split; [reflexivity|]. split; [rewrite <- !app_assoc; reflexivity|]. split; reflexivity.
    - discriminate.
  Qed.

  Definition faithful o (x : printed T) : Prop :=
    match x with
    | Evaluations n => o_evals o = Some n
    | FinalValue v => o_penalty o = Some v
    | NormOfGradient v => o_norm o = Some v
    | Status s => o_status o = Some s
    | Sizes p c => p = number_of_parameters o /\ c = number_of_constraints o
    | _ => True
    end.

  (** Every number and every status that is printed, also by a run that raises in the end, is the one the optimizer holds
      afterwards. *)
  Lemma c104_true : forall ad solver algorithm grad h iters eps kappa tmax eta verbose o d ls o' d' r,
    solve_out ad solver algorithm grad h iters eps kappa tmax eta verbose (o, d) = (ls, ((o', d'), r)) ->
    (forall p c, In (Sizes p c) ls -> p = number_of_parameters o' /\ c = number_of_constraints o')
    /\ (forall n, In (Evaluations n) ls -> o_evals o' = Some n)
    /\ (forall x, In (FinalValue x) ls -> o_penalty o' = Some x)
    /\ (forall x, In (NormOfGradient x) ls -> o_norm o' = Some x)
    /\ (forall s, In (Status s) ls -> o_status o' = Some s).
  Proof.
    intros until r. intros E. assert (F : Forall (faithful o') ls).
    2: { rewrite Forall_forall in F. repeat split; intros; try (apply (F _ H0)). }
    revert E. unfold solve_out.
    set (l0 := only verbose [Rule; Started algorithm; Sizes (number_of_parameters o) (number_of_constraints o)]).
    assert (F0 : forall o1, number_of_parameters o1 = number_of_parameters o -> number_of_constraints o1 = number_of_constraints o ->
                   Forall (faithful o1) l0).
    { intros o1 A B. unfold l0, only. destruct verbose; repeat constructor; auto. }
    assert (FM : forall o1 ms, Forall (faithful o1) (map Finding ms)).
    { intros o1 ms. apply Forall_forall. intros x I. apply in_map_iff in I. destruct I as (m&<-&_). exact I. }
    clearbody l0.
    destruct (check_optimization_sanity o) as [[]|].
    2: { intros E. apply pair_equal_spec in E. destruct E as [<- E]. apply pair_equal_spec in E. destruct E as [E _].
         apply pair_equal_spec in E. destruct E as [<- _]. now apply F0. }
    destruct (gradient_function ad o grad h tmax eta) as [gf|].
    2: { intros E. apply pair_equal_spec in E. destruct E as [<- E]. apply pair_equal_spec in E. destruct E as [E _].
         apply pair_equal_spec in E. destruct E as [<- _]. now apply F0. }
    set (l1 := l0 ++ only verbose [if String.eqb grad "AD" then ByDifferentiation else ByDifferences h]).
    assert (F1 : forall o1, number_of_parameters o1 = number_of_parameters o -> number_of_constraints o1 = number_of_constraints o ->
                   Forall (faithful o1) l1).
    { intros o1 A B. apply Forall_app. split; [now apply F0|]. unfold only. destruct verbose; repeat constructor.
      destruct (String.eqb grad "AD"); exact I. }
    clearbody l1.
    match goal with |- (match ?m with _ => _ end = _) -> _ => destruct m as [[x pr]|] end.
    2: { intros E. apply pair_equal_spec in E. destruct E as [<- E]. apply pair_equal_spec in E. destruct E as [E _].
         apply pair_equal_spec in E. destruct E as [<- _]. now apply F1. }
    destruct (run_strategy _ (solver pr x) (d, d)) as [[d1 c1] [[x_opt loss evals result|loss evals result|]|e]].
    - destruct (nlopt_status result) as [s|].
      2: { intros E. apply pair_equal_spec in E. destruct E as [<- E]. apply pair_equal_spec in E. destruct E as [E _].
           apply pair_equal_spec in E. destruct E as [<- _]. apply Forall_app. split; [now apply F1|].
           unfold only. destruct verbose; repeat constructor. }
      destruct (gf x_opt _ c1) as [? [g|?]].
      2: { intros E. apply pair_equal_spec in E. destruct E as [<- E]. apply pair_equal_spec in E. destruct E as [E _].
           apply pair_equal_spec in E. destruct E as [<- _]. apply Forall_app. split; [now apply F1|].
           unfold only. destruct verbose; repeat constructor. }
      intros E. apply pair_equal_spec in E. destruct E as [<- E]. apply pair_equal_spec in E. destruct E as [E _].
      apply pair_equal_spec in E. destruct E as [<- _]. apply Forall_app. split; [|apply FM]. apply Forall_app. split.
      + apply Forall_app. split; [now apply F1|]. unfold only. destruct verbose; repeat constructor.
      + unfold only. destruct verbose; repeat constructor.
    - destruct (optimization_parameters o d1) as [x_opt|].
      2: { intros E. apply pair_equal_spec in E. destruct E as [<- E]. apply pair_equal_spec in E. destruct E as [E _].
           apply pair_equal_spec in E. destruct E as [<- _]. apply Forall_app. split; [now apply F1|]. repeat constructor. }
      destruct (nlopt_status result) as [s|].
      2: { intros E. apply pair_equal_spec in E. destruct E as [<- E]. apply pair_equal_spec in E. destruct E as [E _].
           apply pair_equal_spec in E. destruct E as [<- _]. apply Forall_app. split; [now apply F1|]. repeat constructor. }
      destruct (gf x_opt _ c1) as [? [g|?]].
      2: { intros E. apply pair_equal_spec in E. destruct E as [<- E]. apply pair_equal_spec in E. destruct E as [E _].
           apply pair_equal_spec in E. destruct E as [<- _]. apply Forall_app. split; [now apply F1|]. repeat constructor. }
      intros E. apply pair_equal_spec in E. destruct E as [<- E]. apply pair_equal_spec in E. destruct E as [E _].
      apply pair_equal_spec in E. destruct E as [<- _]. apply Forall_app. split; [|apply FM]. apply Forall_app. split.
      + apply Forall_app. split; [now apply F1|]. repeat constructor.
      + unfold only. destruct verbose; repeat constructor.
    - intros E. apply pair_equal_spec in E. destruct E as [<- E]. apply pair_equal_spec in E. destruct E as [E _].
      apply pair_equal_spec in E. destruct E as [<- _]. apply Forall_app. split; [|apply FM]. apply Forall_app. split; [now apply F1|].
      repeat constructor.
    - intros E. apply pair_equal_spec in E. destruct E as [<- E]. apply pair_equal_spec in E. destruct E as [E _].
      apply pair_equal_spec in E. destruct E as [<- _]. now apply F1.
  Qed.

  (** The text of a topology counts its edges, nodes and trails. *)
  Lemma c104_topology : forall d, reachable d ->
    exists e t v n s l k a, topology_repr d = Ok [("Edges", e); ("Trail edges", t); ("Deviation edges", v); ("Nodes", n);
        ("Support nodes", s); ("Loaded nodes", l); ("Trails", k); ("Auxiliary trails", a)]%string
      /\ counts (fun x => In x (edges d)) e /\ counts (fun x => is_trail_edge d x = Ok true) t
      /\ counts (fun x => is_deviation_edge d x = Ok true) v /\ t + v = e
      /\ counts (fun x => In x (nodes d)) n /\ counts (fun x => is_node_support d x = Ok true) s
      /\ counts (fun x => exists q, node_load d x = Ok q /\ nltb neps6 (length_vector q) = true) l
      /\ counts (fun key => exists tr, In (key, tr) (trails d)) k
      /\ counts (fun x => is_auxiliary_trail_edge d x = true) a.
  Proof.
    intros d R. destruct (c81_counts d R) as (A&B&C&D&E&(m&Em&F)&G).
    unfold topology_repr. rewrite Em. cbn [bind]. do 8 eexists. split; [reflexivity|].
    assert (W := reachable_wf d R).
    split; [exists (edges d); repeat split; auto; apply (c67_edges d (or_introl R))|].
    split; [exact B|]. split; [exact C|]. split; [exact G|].
    split; [exists (nodes d); repeat split; auto; apply (wf_nodup _ W)|].
    split; [exact A|]. split; [exact F|]. split; [exact D|exact E].
  Qed.

  (** The text of a form, and of any other diagram, counts its edges and nodes. *)
  Lemma c104_form : forall d, produced d ->
    exists e n s l, diagram_repr d = Ok [("Edges", e); ("Nodes", n); ("Support Nodes", s); ("Loaded nodes", l)]%string
      /\ counts (fun x => In x (edges d)) e /\ counts (fun x => In x (nodes d)) n
      /\ counts (fun x => is_node_support d x = Ok true) s
      /\ counts (fun x => exists q, node_load d x = Ok q /\ nltb neps6 (length_vector q) = true) l.
  Proof.
    intros d P. destruct (c67_loaded d neps6 P) as (l&E&N&K). destruct (c67_nodes d P) as (NS&_&IS&_&_).
    unfold diagram_repr, number_of_loaded_nodes. rewrite E. cbn [bind]. do 4 eexists. split; [reflexivity|].
    split; [exists (edges d); repeat split; auto; apply (c67_edges d P)|].
    split; [exists (nodes d); repeat split; auto; apply (wf_nodup _ (produced_wf d P))|].
    split; [exists (support_nodes d); split; [exact NS|]; split; [|reflexivity]; intros x; apply In_support_is; apply produced_wf; exact P|].
    exists l. auto.
  Qed.

  Lemma sorted_nodup l : StronglySorted Z.lt l -> NoDup l.
  Proof.
    induction 1 as [|a l S IH F]; constructor; [|exact IH]. intros I. rewrite Forall_forall in F. specialize (F a I). lia.
  Qed.

  (** The text of an optimizer counts the parameters and the constraints that were added and not removed since. *)
  Lemma c104_optimizer : forall (cs : list (@call T)), exists p c s, optimizer_repr (after_calls cs) = (p, c, s)
    /\ counts (fun k => exists x, kept_parameter cs k x) p /\ counts (fun k => exists x, kept_constraint cs k x) c.
  Proof.
    intros cs. destruct (c68_held cs) as (P&C&SP&SC). do 3 eexists. split; [reflexivity|].
    unfold number_of_parameters, number_of_constraints. rewrite <- (map_length fst (o_params _)), <- (map_length fst (o_cons _)).
    split; (apply counts_list; [apply sorted_nodup; assumption|]); intros k; rewrite in_map_iff; split.
    - intros ([k' x]&<-&I). exists x. apply P. exact I.
    - intros [x I]. exists (k, x). split; [reflexivity|]. apply P. exact I.
    - intros ([k' x]&<-&I). exists x. apply C. exact I.
    - intros [x I]. exists (k, x). split; [reflexivity|]. apply C. exact I.
  Qed.

  (** The status in the text of an optimizer is the one with which its last run ended, if that run returned results. *)
  Lemma c104_status_partial : forall ad solver algorithm grad h iters eps kappa tmax eta o d o' d' form ys a,
    solver_run ad solver o d algorithm grad h iters eps kappa tmax eta = Ok (ys, Ok a) ->
    solve ad solver algorithm grad h iters eps kappa tmax eta (o, d) = ((o', d'), Ok form) ->
    fst (optimizer_repr o') = fst (optimizer_repr o)
    /\ match a with
       | AReturn _ _ _ result | ARoundoff _ _ result => exists s, In (result, s) nlopt_codes /\ snd (optimizer_repr o') = Some s
       | ARuntime => snd (optimizer_repr o') = snd (optimizer_repr o)
       end.
  Proof.
    intros until a. unfold solver_run, solve. destruct (prepare ad o d algorithm grad h iters eps kappa tmax eta) as [[[gf x] pr]|]; [|discriminate].
    cbn [bind]. set (f := objective_function_numpy (optimize_form o tmax eta) gf). intros E. apply Ok_inj, pair_equal_spec in E. destruct E as [_ E].
    revert E. assert (St : forall r s, nlopt_status r = Ok s -> In (r, s) nlopt_codes).
    { intros r s. unfold nlopt_status, nlopt_codes. destruct r as [|p|p]; [discriminate| |];
      repeat (destruct p as [p|p|]; try discriminate); intros X; apply Ok_inj in X; subst s; cbn; tauto. }
    destruct (run_strategy f (solver pr x) (d, d)) as [[d1 c1] r]. cbn [snd]. intros ->.
    destruct a as [x_opt loss evals result|loss evals result|].
    - destruct (nlopt_status result) as [s|] eqn:Es; [|discriminate]. destruct (gf x_opt _ c1) as [? [g|?]]; [|discriminate].
      intros E. apply pair_equal_spec in E. destruct E as [E _]. apply pair_equal_spec in E. destruct E as [<- _].
      split; [reflexivity|]. exists s. split; [now apply St|reflexivity].
    - destruct (optimization_parameters o d1) as [x_opt|]; [|discriminate].
      destruct (nlopt_status result) as [s|] eqn:Es; [|discriminate]. destruct (gf x_opt _ c1) as [? [g|?]]; [|discriminate].
      intros E. apply pair_equal_spec in E. destruct E as [E _]. apply pair_equal_spec in E. destruct E as [<- _].
      split; [reflexivity|]. exists s. split; [now apply St|reflexivity].
    - intros E. apply pair_equal_spec in E. destruct E as [E _]. apply pair_equal_spec in E. destruct E as [<- _]. split; reflexivity.
  Qed.
End Print.

(** The magnitude and the state in the text of an edge are those of the length or the force it was made with. *)
Lemma c104_edge : forall (e : edge_elem R),
  let '(m, s, p) := edge_repr e in
  (0 <= m)%R /\ (s = 1 \/ s = -1)
  /\ match e with
     | TrailEdge l pl => (l = IZR s * m)%R /\ (s = 1 <-> (0 <= l)%R) /\ p = pl
     | DeviationEdge f => (f = IZR s * m)%R /\ (s = 1 <-> (0 <= f)%R)
     end.
Proof.
  assert (S : forall x : R, (0 <= nabs x)%R /\ (sign_of x = 1 \/ sign_of x = -1)
    /\ (x = IZR (sign_of x) * nabs x)%R /\ (sign_of x = 1 <-> (0 <= x)%R)).
  { intros x. unfold sign_of. rewrite ncopysign_R. cbn. rewrite (Rabs_right 1) by lra.
    unfold Rltb. destruct (Rlt_dec x 0) as [L|L].
    - destruct (Rlt_dec (-(1)) 0); [|lra]. rewrite (Rabs_left x) by lra. repeat split; try lra; try lia; auto.
    - destruct (Rlt_dec 1 0); [lra|]. rewrite (Rabs_right x) by lra. repeat split; try lra; auto. }
  intros [l pl|f]; cbn [edge_repr]; [destruct (S l) as (A&B&C&D)|destruct (S f) as (A&B&C&D)]; auto.
Qed.
