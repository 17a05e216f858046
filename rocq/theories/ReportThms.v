(** * Properties of the bookkeeping of the optimizer and of what solving reports *)

From Coq Require Import String List ZArith Bool Lia Reals Lra Sorted.
From Verif Require Import Py PyFacts Num Diagram Topology Equilibrium EquilibriumNp Constraints Optimizer SpecConstraints SpecOptimizer RVec ConThms
  OptFacts OptThms SolveThms.
Import ListNotations.
Open Scope Z_scope.

(** ** Dictionaries with increasing keys *)

Lemma sorted_app_last (l : list Z) k : StronglySorted Z.lt l -> (forall x, In x l -> x < k) -> StronglySorted Z.lt (l ++ [k]).
Proof.
  induction 1 as [|a l S IH F]; intros B; cbn; [repeat constructor|]. constructor.
  - apply IH. intros x I. apply B. now right.
  - apply Forall_app. split; [exact F|]. constructor; [apply B; now left|constructor].
Qed.

Section Dict.
  Context {V : Type}.
  Implicit Types (d : dict Z V).

  Lemma sorted_ddel d k : StronglySorted Z.lt (dkeys d) -> StronglySorted Z.lt (dkeys (ddel d k)).
  Proof.
    induction d as [|[a v] d IH]; intros S; [constructor|]. cbn [dkeys map fst] in S. inversion S as [|? ? S' F]; subst.
    cbn [ddel]. destruct (eqb_spec k a); [exact S'|]. cbn [dkeys map fst]. constructor; [now apply IH|].
    apply Forall_forall. intros x I. apply In_dkeys_ddel in I. now apply (proj1 (Forall_forall _ _) F).
  Qed.

  Lemma In_ddel d k x v : StronglySorted Z.lt (dkeys d) -> (In (x, v) (ddel d k) <-> In (x, v) d /\ x <> k).
  Proof.
    induction d as [|[a w] d IH]; intros S; [cbn; tauto|]. cbn [dkeys map fst] in S. inversion S as [|? ? S' F]; subst.
    assert (N : forall v', In (a, v') d -> False).
    { intros v' I. assert (X : In a (map fst d)) by (apply in_map_iff; now exists (a, v')).
      apply (proj1 (Forall_forall _ _) F) in X. lia. }
    cbn [ddel]. destruct (eqb_spec k a) as [->|M]; cbn [In].
    - split; [intros I; split; [auto|intros ->; eauto]|intros [[E|I] M]; [congruence|exact I]].
    - rewrite (IH S'). split; [intros [E|[I X]]; [split; [auto|congruence]|auto]|intros [[E|I] X]; auto].
  Qed.
End Dict.

(** ** Adding and removing *)

Section Book.
  Context {T : Type} `{NumOps T}.
  Implicit Types (d : diagram T) (o : optimizer T).

  Definition tidy (cs : list (@call T)) o : Prop :=
    o_pkey o = parameters_added cs - 1 /\ o_ckey o = constraints_added cs - 1
    /\ StronglySorted Z.lt (dkeys (o_params o)) /\ StronglySorted Z.lt (dkeys (o_cons o))
    /\ (forall k, In k (dkeys (o_params o)) -> 0 <= k <= o_pkey o)
    /\ (forall k, In k (dkeys (o_cons o)) -> 0 <= k <= o_ckey o)
    /\ (forall k p, In (k, p) (o_params o) <-> kept_parameter cs k p)
    /\ (forall k c, In (k, c) (o_cons o) <-> kept_constraint cs k c).

  Lemma parameters_added_app (cs cs' : list (@call T)) : parameters_added (cs ++ cs') = parameters_added cs + parameters_added cs'.
  Proof. unfold parameters_added. rewrite filter_app, app_length. lia. Qed.
  Lemma constraints_added_app (cs cs' : list (@call T)) : constraints_added (cs ++ cs') = constraints_added cs + constraints_added cs'.
  Proof. unfold constraints_added. rewrite filter_app, app_length. lia. Qed.

  Lemma app_last_inv {A} (l pre : list A) a b post : l ++ [a] = pre ++ b :: post ->
    (post = [] /\ pre = l /\ a = b) \/ exists post', post = post' ++ [a] /\ l = pre ++ b :: post'.
  Proof.
    intros E. destruct post as [|z post] using rev_ind.
    - left. apply app_inj_tail in E as [-> ->]. auto.
    - right. exists post. rewrite app_comm_cons, app_assoc in E. apply app_inj_tail in E as [-> ->]. auto.
  Qed.

  Lemma kept_parameter_snoc (cs : list (@call T)) c k p : kept_parameter (cs ++ [c]) k p <->
    (c = AddParameter p /\ k = parameters_added cs) \/ (kept_parameter cs k p /\ c <> RemoveParameter k).
  Proof.
    split.
    - intros (pre&post&E&K&N). apply app_last_inv in E as [(->&->&->)|(post'&->&->)]; [auto|]. right. split.
      + exists pre, post'. split; [reflexivity|]. split; [exact K|]. intros I. apply N, in_or_app. now left.
      + intros ->. apply N, in_or_app. right. now left.
    - intros [[-> ->]|[(pre&post&->&K&N) M]].
      + exists cs, []. auto.
      + exists pre, (post ++ [c]). rewrite <- app_assoc. split; [reflexivity|]. split; [exact K|].
        intros I. apply in_app_or in I as [I|[I|[]]]; [auto|congruence].
  Qed.

  Lemma kept_constraint_snoc (cs : list (@call T)) c k p : kept_constraint (cs ++ [c]) k p <->
    (c = AddConstraint p /\ k = constraints_added cs) \/ (kept_constraint cs k p /\ c <> RemoveConstraint k).
  Proof.
    split.
    - intros (pre&post&E&K&N). apply app_last_inv in E as [(->&->&->)|(post'&->&->)]; [auto|]. right. split.
      + exists pre, post'. split; [reflexivity|]. split; [exact K|]. intros I. apply N, in_or_app. now left.
      + intros ->. apply N, in_or_app. right. now left.
    - intros [[-> ->]|[(pre&post&->&K&N) M]].
      + exists cs, []. auto.
      + exists pre, (post ++ [c]). rewrite <- app_assoc. split; [reflexivity|]. split; [exact K|].
        intros I. apply in_app_or in I as [I|[I|[]]]; [auto|congruence].
  Qed.

  Lemma after_calls_tidy (cs : list (@call T)) : tidy cs (after_calls cs).
  Proof.
    induction cs as [|c cs IH] using rev_ind.
    - split; [reflexivity|]. split; [reflexivity|]. split; [constructor|]. split; [constructor|].
      split; [intros k []|]. split; [intros k []|].
      split; intros k p; (split; [intros []|intros (pre&post&E&_); destruct pre; discriminate E]).
    - unfold after_calls. rewrite fold_left_app. cbn [fold_left]. fold (after_calls cs).
      destruct IH as (A1&A2&S1&S2&B1&B2&P&C). set (o := after_calls cs) in *. clearbody o.
      unfold tidy. rewrite parameters_added_app, constraints_added_app.
      assert (X : forall k p, kept_parameter (cs ++ [c]) k p <-> (c = AddParameter p /\ k = parameters_added cs) \/ (In (k, p) (o_params o) /\ c <> RemoveParameter k)).
      { intros k p. rewrite P. apply kept_parameter_snoc. }
      assert (Y : forall k p, kept_constraint (cs ++ [c]) k p <-> (c = AddConstraint p /\ k = constraints_added cs) \/ (In (k, p) (o_cons o) /\ c <> RemoveConstraint k)).
      { intros k p. rewrite C. apply kept_constraint_snoc. }
      assert (G1 : 0 <= parameters_added cs) by (unfold parameters_added; lia).
      assert (G2 : 0 <= constraints_added cs) by (unfold constraints_added; lia).
      clear P C. destruct c as [p|k|c|k|ad solver algorithm grad h iters eps kappa tmax eta d]; cbn [perform].
      + assert (N : ~ In (o_pkey o + 1) (dkeys (o_params o))) by (intros I; apply B1 in I; lia).
        cbn [add_parameter fst with_params o_params o_pkey o_cons o_ckey].
        change (parameters_added [AddParameter p]) with 1. change (constraints_added [AddParameter p]) with 0.
        rewrite (dset_new _ _ _ N). unfold dkeys in *. rewrite map_app. cbn [map fst].
        split; [lia|]. split; [lia|]. split; [apply sorted_app_last; [exact S1|intros x I; apply B1 in I; lia]|]. split; [exact S2|].
        split; [intros k I; apply in_app_or in I as [I|[<-|[]]]; [apply B1 in I|]; lia|]. split; [exact B2|].
        split; [|intros k c; rewrite Y; split; [intros I; right; split; [exact I|discriminate]|intros [[I _]|[I _]]; [discriminate I|exact I]]].
        intros k q. rewrite X. split.
        * intros I. apply in_app_or in I as [I|[I|[]]]; [right; split; [exact I|discriminate]|].
          injection I as <- <-. left. split; [reflexivity|lia].
        * intros [[I ->]|[I _]]; apply in_or_app; [right; left|now left]. injection I as ->. f_equal. lia.
      + unfold remove_parameter. change (parameters_added [RemoveParameter k]) with 0. change (constraints_added [RemoveParameter k]) with 0.
        assert (Q : forall j c, In (j, c) (o_cons o) <-> kept_constraint (cs ++ [RemoveParameter k]) j c).
        { intros j c. rewrite Y. split; [intros I; right; split; [exact I|discriminate]|intros [[I _]|[I _]]; [discriminate I|exact I]]. }
        destruct (dmem (o_params o) k) eqn:D; cbn [fst with_params o_params o_pkey o_cons o_ckey].
        * split; [lia|]. split; [lia|]. split; [now apply sorted_ddel|]. split; [exact S2|].
          split; [intros j I; apply In_dkeys_ddel in I; auto|]. split; [exact B2|]. split; [|exact Q].
          intros j q. rewrite X, In_ddel by exact S1. split; [intros [I N]; right; split; [exact I|congruence]|].
          intros [[I _]|[I N]]; [discriminate I|]. split; [exact I|]. intros ->. now apply N.
        * apply dmem_nIn in D. repeat (split; [first [assumption|lia]|]). split; [|exact Q].
          intros j q. rewrite X. split; [|intros [[I _]|[I _]]; [discriminate I|exact I]].
          intros I. right. split; [exact I|]. intros E. injection E as <-. apply D. unfold dkeys. apply in_map_iff. now exists (k, q).
      + assert (N : ~ In (o_ckey o + 1) (dkeys (o_cons o))) by (intros I; apply B2 in I; lia).
        cbn [add_constraint fst with_cons o_params o_pkey o_cons o_ckey].
        change (parameters_added [AddConstraint c]) with 0. change (constraints_added [AddConstraint c]) with 1.
        rewrite (dset_new _ _ _ N). unfold dkeys in *. rewrite map_app. cbn [map fst].
        split; [lia|]. split; [lia|]. split; [exact S1|]. split; [apply sorted_app_last; [exact S2|intros x I; apply B2 in I; lia]|].
        split; [exact B1|]. split; [intros k I; apply in_app_or in I as [I|[<-|[]]]; [apply B2 in I|]; lia|].
        split; [intros k q; rewrite X; split; [intros I; right; split; [exact I|discriminate]|intros [[I _]|[I _]]; [discriminate I|exact I]]|].
        intros k q. rewrite Y. split.
        * intros I. apply in_app_or in I as [I|[I|[]]]; [right; split; [exact I|discriminate]|].
          injection I as <- <-. left. split; [reflexivity|lia].
        * intros [[I ->]|[I _]]; apply in_or_app; [right; left|now left]. injection I as ->. f_equal. lia.
      + unfold remove_constraint. change (parameters_added [RemoveConstraint k]) with 0. change (constraints_added [RemoveConstraint k]) with 0.
        assert (Q : forall j c, In (j, c) (o_params o) <-> kept_parameter (cs ++ [RemoveConstraint k]) j c).
        { intros j c. rewrite X. split; [intros I; right; split; [exact I|discriminate]|intros [[I _]|[I _]]; [discriminate I|exact I]]. }
        destruct (dmem (o_cons o) k) eqn:D; cbn [fst with_cons o_params o_pkey o_cons o_ckey].
        * split; [lia|]. split; [lia|]. split; [exact S1|]. split; [now apply sorted_ddel|].
          split; [exact B1|]. split; [intros j I; apply In_dkeys_ddel in I; auto|]. split; [exact Q|].
          intros j q. rewrite Y, In_ddel by exact S2. split; [intros [I N]; right; split; [exact I|congruence]|].
          intros [[I _]|[I N]]; [discriminate I|]. split; [exact I|]. intros ->. now apply N.
        * apply dmem_nIn in D. repeat (split; [first [assumption|lia]|]).
          intros j q. rewrite Y. split; [|intros [[I _]|[I _]]; [discriminate I|exact I]].
          intros I. right. split; [exact I|]. intros E. injection E as <-. apply D. unfold dkeys. apply in_map_iff. now exists (k, q).
      + destruct (solve_again_keeps ad solver algorithm grad h iters eps kappa tmax eta o d) as (->&->&->&->).
        set (c := Solve ad solver algorithm grad h iters eps kappa tmax eta d) in *.
        change (parameters_added [c]) with 0. change (constraints_added [c]) with 0.
        split; [lia|]. split; [lia|]. split; [exact S1|]. split; [exact S2|]. split; [exact B1|]. split; [exact B2|].
        split; intros k q; [rewrite X|rewrite Y];
          (split; [intros I; right; split; [exact I|discriminate]|intros [[I _]|[I _]]; [discriminate I|exact I]]).
  Qed.

  (** The optimizer holds exactly the parameters and the constraints that were added and not removed since, under their
      number in the order of addition, and in this order, however often it solved. *)
  Lemma c68_held : forall (cs : list (@call T)),
    (forall k p, In (k, p) (o_params (after_calls cs)) <-> kept_parameter cs k p)
    /\ (forall k c, In (k, c) (o_cons (after_calls cs)) <-> kept_constraint cs k c)
    /\ StronglySorted Z.lt (dkeys (o_params (after_calls cs))) /\ StronglySorted Z.lt (dkeys (o_cons (after_calls cs))).
  Proof. intros cs. destruct (after_calls_tidy cs) as (_&_&S1&S2&_&_&P&C). auto. Qed.

  Lemma held_nothing {V} (m : dict Z V) k : dmem m k = false <-> forall v, ~ In (k, v) m.
  Proof.
    rewrite dmem_nIn. unfold dkeys. rewrite in_map_iff. split.
    - intros N v I. apply N. now exists (k, v).
    - intros N ([k' v]&E&I). cbn in E. subst k'. now apply (N v).
  Qed.

  (** Adding never raises, removing raises only if nothing is there, and then it changes nothing. *)
  Lemma c68_raises : forall (cs : list (@call T)) c, ~ solves c ->
    (snd (perform c (after_calls cs)) = Ok tt
     \/ snd (perform c (after_calls cs)) = Err KeyError /\ fst (perform c (after_calls cs)) = after_calls cs)
    /\ (snd (perform c (after_calls cs)) = Err KeyError <->
        match c with
        | RemoveParameter k => forall p, ~ kept_parameter cs k p
        | RemoveConstraint k => forall c, ~ kept_constraint cs k c
        | _ => False
        end).
  Proof.
    intros cs c S. destruct (c68_held cs) as (P&C&_).
    destruct c as [p|k|c|k|]; [..|destruct (S I)]; clear S; cbn [perform]; unfold add_parameter, add_constraint, remove_parameter, remove_constraint; cbn [fst snd].
    - split; [auto|]. split; [discriminate|intros []].
    - assert (X := held_nothing (o_params (after_calls cs)) k). destruct (dmem _ k); cbn [fst snd]; (split; [auto|]).
      + split; [discriminate|]. intros N. assert (Q : true = false) by (apply X; intros v I; apply P in I; now apply (N v)). discriminate Q.
      + split; [intros _ p I; apply P in I; now apply (proj1 X eq_refl p)|reflexivity].
    - split; [auto|]. split; [discriminate|intros []].
    - assert (X := held_nothing (o_cons (after_calls cs)) k). destruct (dmem _ k); cbn [fst snd]; (split; [auto|]).
      + split; [discriminate|]. intros N. assert (Q : true = false) by (apply X; intros v I; apply C in I; now apply (N v)). discriminate Q.
      + split; [intros _ p I; apply C in I; now apply (proj1 X eq_refl p)|reflexivity].
  Qed.

  Lemma after_calls_obtained (cs : list (@call T)) : obtained (after_calls cs).
  Proof.
    induction cs as [|c cs IH] using rev_ind; [constructor|]. unfold after_calls. rewrite fold_left_app. cbn [fold_left]. fold (after_calls cs).
    destruct c; now constructor.
  Qed.

  (** These are all the optimizers a user can make. *)
  Lemma c68_obtained : forall o, obtained o <-> exists cs, o = after_calls cs.
  Proof.
    intros o. split; [|intros [cs ->]; apply after_calls_obtained].
    induction 1 as [|o p _ [cs ->]|o k _ [cs ->]|o c _ [cs ->]|o k _ [cs ->]|o ad solver algorithm grad h iters eps kappa tmax eta d _ [cs ->]].
    - exists []. reflexivity.
    - exists (cs ++ [AddParameter p]). unfold after_calls. now rewrite fold_left_app.
    - exists (cs ++ [RemoveParameter k]). unfold after_calls. now rewrite fold_left_app.
    - exists (cs ++ [AddConstraint c]). unfold after_calls. now rewrite fold_left_app.
    - exists (cs ++ [RemoveConstraint k]). unfold after_calls. now rewrite fold_left_app.
    - exists (cs ++ [Solve ad solver algorithm grad h iters eps kappa tmax eta d]). unfold after_calls. now rewrite fold_left_app.
  Qed.
End Book.

(** ** The problem handed to the solver *)

Section Report.
  Context {T : Type} `{NumOps T}.
  Implicit Types (d : diagram T) (o : optimizer T).

  Lemma filled {A} (f : parameter T -> res A) ps : forall (a b : list A), NoDup (dkeys ps) ->
    fold_res (fun x (kp : Z * parameter T) => let* v := f (snd kp) in aset x (fst kp) v) ps a = Ok b ->
    List.length b = List.length a
    /\ (forall k p, In (k, p) ps -> 0 <= k < Z.of_nat (List.length a) /\ exists v, f p = Ok v /\ nth_error b (Z.to_nat k) = Some v)
    /\ (forall i, (forall k, In k (dkeys ps) -> Z.to_nat k <> i) -> nth_error b i = nth_error a i).
  Proof.
    induction ps as [|[k p] ps IH]; intros a b ND E; cbn [fold_res fst snd] in E.
    - apply Ok_inj in E. subst b. split; [reflexivity|]. split; [intros k p []|auto].
    - cbn [dkeys map fst] in ND. inversion ND as [|? ? N1 N2]; subst.
      apply bind_Ok in E as (a'&Ea&E). apply bind_Ok in Ea as (v&Ev&Ea). apply aset_inv in Ea as [I ->].
      destruct (IH _ _ N2 E) as (L&G&O). rewrite length_set_nth in *.
      assert (R : forall k', In k' (dkeys ps) -> 0 <= k').
      { intros k' J. unfold dkeys in J. apply in_map_iff in J as ([k0 p0]&<-&J). cbn [fst]. apply G in J as [J _]. lia. }
      split; [exact L|]. split.
      + intros k' p' [J|J]; [|now apply G]. injection J as <- <-. split; [exact I|]. exists v. split; [exact Ev|].
        rewrite O; [apply nth_error_set_nth; lia|]. intros k' J Q. assert (J' := R k' J). apply N1.
        replace k with k' by lia. exact J.
      + intros i Ni. rewrite O by (intros k' J; apply Ni; now right). apply nth_error_set_nth_other. apply Ni. now left.
  Qed.

  Lemma bounds_split d ps : forall l u l' u',
    fold_res (fun (lu : list (option T) * list (option T)) (kp : Z * parameter T) =>
      let* v := bound_low d (snd kp) in
      let* l := aset (fst lu) (fst kp) v in
      let* w := bound_up d (snd kp) in
      let* u := aset (snd lu) (fst kp) w in
      Ok (l, u)) ps (l, u) = Ok (l', u') ->
    fold_res (fun x (kp : Z * parameter T) => let* v := bound_low d (snd kp) in aset x (fst kp) v) ps l = Ok l'
    /\ fold_res (fun x (kp : Z * parameter T) => let* v := bound_up d (snd kp) in aset x (fst kp) v) ps u = Ok u'.
  Proof.
    induction ps as [|[k p] ps IH]; intros l u l' u' E; cbn [fold_res fst snd] in *.
    - apply Ok_inj, pair_equal_spec in E as [-> ->]. auto.
    - apply bind_Ok in E as ([l1 u1]&E1&E). apply bind_Ok in E1 as (b&Eb&E1). apply bind_Ok in E1 as (l2&L2&E1).
      apply bind_Ok in E1 as (w&Ew&E1). apply bind_Ok in E1 as (u2&U2&E1). apply Ok_inj, pair_equal_spec in E1 as [-> ->].
      rewrite Eb, Ew. cbn [bind]. rewrite L2, U2. cbn [bind]. now apply IH.
  Qed.

  Lemma names_table algorithm c : dgetr nlopt_algorithms algorithm = Ok c <-> In (algorithm, c) nlopt_names.
  Proof.
    split.
    - cbv [dgetr nlopt_algorithms dget eqb Eqb_string]. intros E.
      repeat match type of E with context [String.eqb algorithm ?s] => destruct (String.eqb_spec algorithm s) as [->|]; [apply Ok_inj in E; subst c; cbn; tauto|] end.
      discriminate E.
    - intros I. unfold nlopt_names in I. cbn [In] in I. decompose [or] I; clear I; try contradiction;
        match goal with E : _ = (algorithm, c) |- _ => injection E as <- <- end; reflexivity.
  Qed.

  Lemma prepare_requested ad o d algorithm grad h iters eps kappa tmax eta gf x pr : obtained o ->
    prepare ad o d algorithm grad h iters eps kappa tmax eta = Ok (gf, x, pr) -> as_requested o d algorithm iters eps kappa pr x.
  Proof.
    intros M P. destruct (obtained_inv o M) as (NK&_&_). unfold prepare in P.
    apply bind_Ok in P as (_&_&P). apply bind_Ok in P as (gf'&_&P). apply bind_Ok in P as (x'&X&P). apply bind_Ok in P as ([l u]&B&P).
    apply bind_Ok in P as (pr'&N&P). apply Ok_inj in P. injection P as <- <- <-.
    unfold nlopt_solver in N. apply bind_Ok in N as (alg&A&N). apply bind_Ok in N as (loc&L&N). apply Ok_inj in N. subst pr'.
    apply bounds_split in B as [Bl Bu].
    destruct (filled _ _ _ _ NK X) as (LX&GX&_). destruct (filled _ _ _ _ NK Bl) as (LL&GL&_). destruct (filled _ _ _ _ NK Bu) as (LU&GU&_).
    rewrite repeat_length in *. cbn [fst snd]. unfold number_of_parameters.
    split; cbn [pr_algorithm pr_dims pr_local pr_storage pr_inner pr_low pr_up pr_maxeval pr_ftol pr_stopval]; auto; unfold number_of_parameters; try lia.
    - now apply names_table.
    - destruct (String.eqb algorithm "AUGLAG"); apply Ok_inj in L; now subst loc.
    - intros k p I. destruct (GX k p I) as (K&v&Ev&Nv), (GL k p I) as (_&b&Eb&Nb), (GU k p I) as (_&w&Ew&Nw).
      split; [exact K|]. exists v. split; [now rewrite <- start_quantity|]. split; [exact Nv|].
      unfold bound_low, bound_up in *. rewrite Ev in Eb, Ew. rewrite Nb, Nw.
      split; [destruct (p_low p)|destruct (p_up p)]; cbn [bind option_map] in *;
        [apply Ok_inj in Eb|apply Ok_inj in Eb|apply Ok_inj in Ew|apply Ok_inj in Ew]; now subst.
  Qed.

  (** Whatever the solver would do with another problem makes no difference. *)
  Lemma c69_problem : forall ad solver solver' algorithm grad h iters eps kappa tmax eta o d, obtained o ->
    (forall pr x, as_requested o d algorithm iters eps kappa pr x -> solver pr x = solver' pr x) ->
    solve ad solver algorithm grad h iters eps kappa tmax eta (o, d) = solve ad solver' algorithm grad h iters eps kappa tmax eta (o, d).
  Proof.
    intros ad solver solver' algorithm grad h iters eps kappa tmax eta o d M S. unfold solve.
    destruct (prepare ad o d algorithm grad h iters eps kappa tmax eta) as [[[gf x] pr]|e] eqn:P; [|reflexivity].
    rewrite (S pr x); [reflexivity|]. eapply prepare_requested; eauto.
  Qed.

  (** The problem is determined by the request. *)
  Lemma c69_unique : forall o d algorithm iters eps kappa pr x pr' x', obtained o -> keys_in_range o ->
    as_requested o d algorithm iters eps kappa pr x -> as_requested o d algorithm iters eps kappa pr' x' -> pr' = pr /\ x' = x.
  Proof.
    intros o d algorithm iters eps kappa pr x pr' x' M K A B. destruct (obtained_inv o M) as (NK&_&_).
    assert (Q : forall A (l m : list A), Z.of_nat (List.length l) = number_of_parameters o -> Z.of_nat (List.length m) = number_of_parameters o ->
      (forall k p, In (k, p) (o_params o) -> nth_error l (Z.to_nat k) = nth_error m (Z.to_nat k)) -> l = m).
    { intros A0 l m L1 L2 E. apply array_ext; [lia|]. intros i I. rewrite L1 in I.
      assert (J : In i (dkeys (o_params o))) by (apply keys_cover; auto).
      unfold dkeys in J. apply in_map_iff in J as ([k p]&<-&J). cbn [fst] in *. unfold aget. now rewrite (E k p J). }
    destruct A as [A1 A2 A3 A4 A5 A6 A7 A8 A9 A10 A11 A12], B as [B1 B2 B3 B4 B5 B6 B7 B8 B9 B10 B11 B12].
    assert (V : forall k p, In (k, p) (o_params o) -> nth_error x' (Z.to_nat k) = nth_error x (Z.to_nat k)
        /\ nth_error (pr_low pr') (Z.to_nat k) = nth_error (pr_low pr) (Z.to_nat k)
        /\ nth_error (pr_up pr') (Z.to_nat k) = nth_error (pr_up pr) (Z.to_nat k)).
    { intros k p I. destruct (A12 k p I) as (_&v&Ev&X1&X2&X3), (B12 k p I) as (_&w&Ew&Y1&Y2&Y3).
      rewrite Ev in Ew. apply Ok_inj in Ew. subst w. repeat split; congruence. }
    split; [|apply Q; auto; intros k p I; now apply (V k p)].
    assert (E1 : pr_low pr' = pr_low pr) by (apply Q; auto; intros k p I; now apply (V k p)).
    assert (E2 : pr_up pr' = pr_up pr) by (apply Q; auto; intros k p I; now apply (V k p)).
    assert (E3 : pr_algorithm pr' = pr_algorithm pr).
    { apply names_table in A1, B1. rewrite A1 in B1. now apply Ok_inj in B1. }
    destruct pr as [a1 a2 a3 a4 a5 a6 a7 a8 a9 a10], pr' as [b1 b2 b3 b4 b5 b6 b7 b8 b9 b10]. cbn [pr_algorithm pr_dims pr_local pr_storage pr_inner pr_low pr_up pr_maxeval pr_ftol pr_stopval] in *. f_equal; congruence.
  Qed.

  (** ** Writing what was read *)

  Lemma write_same d s v : slot_get d s = Ok v -> write s v d = d.
  Proof.
    destruct s as [n a|[u w] a]; cbn [slot_get].
    - unfold node_get, dgetr. destruct (dget (d_node d) n) as [x|] eqn:E; [|discriminate]. cbn [bind]. intros Ev. apply Ok_inj in Ev. subst v.
      rewrite (write_node _ _ _ _ _ E). replace (nattr_set a (nattr_get a x) x) with x; [rewrite (dset_same _ _ _ E); now destruct d|].
      unfold set_xyz, set_load, with_vx, with_vy, with_vz; destruct x as [xp xl xr xk xt]; destruct a, xp, xl; reflexivity.
    - unfold edge_get. destruct (edge_find d (u, w)) as [x|] eqn:E; [|discriminate]. cbn [bind]. intros Ev. apply Ok_inj in Ev. subst v.
      unfold edge_find in E. cbn [fst snd] in E. destruct (dget (d_edge d) u) as [nb|] eqn:F; [|discriminate E].
      rewrite (write_edge _ _ _ _ _ _ _ F E). replace (eattr_set a (eattr_get a x) x) with x; [|now destruct x, a].
      rewrite (dset_same _ _ _ E), (dset_same _ _ _ F). now destruct d.
  Qed.

  (** Writing the variables that were just read from a diagram does not change it. *)
  Lemma c45_idle : forall o d x, obtained o -> optimization_parameters o d = Ok x -> update_parameters o x d = (d, Ok tt).
  Proof.
    intros o d x M X. destruct (obtained_inv o M) as (NK&_&_). destruct (filled _ _ _ _ NK X) as (_&G&_). clear X NK M.
    assert (G' : forall k p, In (k, p) (o_params o) -> aget x k = slot_get d (p_slot p) /\ exists v, slot_get d (p_slot p) = Ok v).
    { intros k p I. destruct (G k p I) as (K&v&V&N). unfold start_value in V. rewrite V. split; [|eauto].
      unfold aget. destruct (Z.ltb_spec k 0); [lia|]. now rewrite N. }
    clear G. unfold update_parameters. change (fun (_ : unit) kp => _) with (update_body x).
    induction (o_params o) as [|[k p] ps IH]; [reflexivity|]. rewrite update_cons.
    destruct (G' k p (or_introl eq_refl)) as (A&v&V). rewrite A, V, (write_same _ _ _ V).
    apply IH. intros k' p' J. apply (G' k' p'). now right.
  Qed.

  (** ** The results *)

  Lemma well_posed_prepared ad o d algorithm grad h iters eps kappa tmax eta :
    obtained o -> keys_in_range o -> (forall s, In s (addressed o) -> present d s) ->
    0 < number_of_parameters o -> 0 < number_of_constraints o -> grad = "AD"%string \/ grad = "FD"%string ->
    In algorithm (map fst nlopt_names) ->
    exists gf x pr, prepare ad o d algorithm grad h iters eps kappa tmax eta = Ok (gf, x, pr)
      /\ gradient_function ad o grad h tmax eta = Ok gf.
  Proof.
    intros M K Pr LP LC G A. unfold prepare, number_of_parameters, number_of_constraints in *.
    assert (S : check_optimization_sanity o = Ok tt).
    { unfold check_optimization_sanity. destruct (Nat.eqb_spec (List.length (o_params o)) 0); [lia|].
      destruct (Nat.eqb_spec (List.length (o_cons o)) 0); [lia|reflexivity]. }
    rewrite S. cbn [bind].
    assert (Gf : exists gf, gradient_function ad o grad h tmax eta = Ok gf).
    { unfold gradient_function. destruct (String.eqb_spec grad "AD"); [eauto|]. destruct (String.eqb_spec grad "FD"); [eauto|tauto]. }
    destruct Gf as [gf Gf]. rewrite Gf. cbn [bind].
    destruct (c52_variables_partial o d M Pr) as [(_&x&X&_)|[N _]]; [|contradiction]. rewrite X. cbn [bind].
    assert (B : exists lu, optimization_bounds o d = Ok lu).
    { unfold optimization_bounds.
      assert (Q : forall ps (lu : list (option T) * list (option T)),
        (forall k p, In (k, p) ps -> present d (p_slot p) /\ 0 <= k < Z.of_nat (List.length (fst lu)) /\ 0 <= k < Z.of_nat (List.length (snd lu))) ->
        exists lu', fold_res (fun (lu : list (option T) * list (option T)) (kp : Z * parameter T) =>
          let* v := bound_low d (snd kp) in
          let* l := aset (fst lu) (fst kp) v in
          let* w := bound_up d (snd kp) in
          let* u := aset (snd lu) (fst kp) w in Ok (l, u)) ps lu = Ok lu').
      { induction ps as [|[k p] ps IH]; intros [l u] Z0; [eexists; reflexivity|]. cbn [fold_res fst snd] in *.
        destruct (Z0 k p (or_introl eq_refl)) as ([y Y]&K1&K2). rewrite <- slot_quantity in Y.
        assert (V : exists v, bound_low d p = Ok v) by (unfold bound_low, start_value; rewrite Y; destruct (p_low p); cbn; eauto).
        assert (W : exists v, bound_up d p = Ok v) by (unfold bound_up, start_value; rewrite Y; destruct (p_up p); cbn; eauto).
        destruct V as [v V], W as [w W]. rewrite V, W. cbn [bind]. rewrite !aset_Ok by assumption. cbn [bind]. apply IH.
        intros k' p' J. cbn [fst snd]. rewrite !length_set_nth. apply (Z0 k' p'). now right. }
      apply Q. intros k p J. cbn [fst snd]. rewrite !repeat_length.
      split; [apply Pr; unfold addressed; apply in_map_iff; now exists (k, p)|].
      assert (J' : In k (dkeys (o_params o))) by (unfold dkeys; apply in_map_iff; now exists (k, p)). apply K in J'. now split. }
    destruct B as [lu B]. rewrite B. cbn [bind]. unfold nlopt_solver, nlopt_algorithm.
    apply in_map_iff in A as ([a c]&E&A). cbn [fst] in E. subst a. apply names_table in A. rewrite A. cbn [bind].
    destruct (String.eqb algorithm "AUGLAG"); do 3 eexists; (split; reflexivity).
  Qed.

  (** A well-posed problem reaches the solver, whichever of the six algorithms is chosen. *)
  Lemma c69_accepted : forall ad algorithm grad h iters eps kappa tmax eta o d,
    obtained o -> keys_in_range o -> (forall s, In s (addressed o) -> present d s) ->
    0 < number_of_parameters o -> 0 < number_of_constraints o -> grad = "AD"%string \/ grad = "FD"%string ->
    In algorithm ["SLSQP"; "LBFGS"; "MMA"; "TNEWTON"; "AUGLAG"; "VAR"]%string ->
    exists pr x, as_requested o d algorithm iters eps kappa pr x
      /\ forall solver, solver pr x = SRuntime ->
         solve ad solver algorithm grad h iters eps kappa tmax eta (o, d) = ((o, d), static_equilibrium d None 100 neps6 false).
  Proof.
    intros ad algorithm grad h iters eps kappa tmax eta o d M K Pr LP LC G A.
    destruct (well_posed_prepared ad o d algorithm grad h iters eps kappa tmax eta M K Pr LP LC G A) as (gf&x&pr&P&_).
    exists pr, x. split; [eapply prepare_requested; eauto|]. intros solver S. unfold solve. rewrite P, S. reflexivity.
  Qed.

  Lemma norm_euclidean (x : list T) : array_norm x = euclidean_norm x.
  Proof.
    unfold array_norm, euclidean_norm. f_equal. generalize (@n0 T _). induction x as [|v x IH]; intros a; cbn; [reflexivity|apply IH].
  Qed.

  Lemma status_code c s : nlopt_status c = Ok s <-> In (c, s) nlopt_codes.
  Proof.
    split.
    - unfold nlopt_status. intros E. unfold nlopt_codes.
      repeat match type of E with context [match ?z with _ => _ end] => destruct z; try discriminate E end;
      apply Ok_inj in E; subst s; cbn; tauto.
    - intros I. unfold nlopt_codes in I. cbn [In] in I. decompose [or] I; clear I; try contradiction;
        match goal with E : _ = (c, s) |- _ => injection E as <- <- end; reflexivity.
  Qed.

  (** A gradient function that gives [G] in all the states [P] of its diagram *)
  Definition gives (P : diagram T -> Prop) (G : list T -> res (list T)) (gf : list T -> list T -> eff (diagram T) (list T)) : Prop :=
    forall x grad c, List.length grad = List.length x -> P c -> snd (gf x grad c) = G x /\ P (fst (gf x grad c)).

  Lemma run_gives o tmax eta P G gf n s : gives P G gf -> well_sized n s -> forall d d1 d2,
    evolved (addressed o) d d1 -> P d2 ->
    let r := run_strategy (objective_function_numpy (optimize_form o tmax eta) gf) s (d1, d2) in
    snd r = pure_run (objective o tmax eta d) G s /\ P (snd (fst r)).
  Proof.
    intros Gv W d. induction W as [x grad k Lx Lg _ IH|x l e r _|l e r|]; intros d1 d2 P1 P2; cbn zeta; try (split; [reflexivity|assumption]).
    set (f := objective_function_numpy _ _) in *. cbn [run_strategy pure_run].
    assert (St : exists d1' d2' r, f x grad (d1, d2) = ((d1', d2'), r) /\ evolved (addressed o) d d1' /\ P d2'
      /\ r = let* y := objective o tmax eta d x in
             if Nat.ltb 0 (List.length grad) then let* g := G x in Ok (y, g) else Ok (y, grad)).
    { unfold f, objective_function_numpy, ebind, on_fst. cbn [fst snd].
      destruct (optimize_form_evolved o tmax eta x d d1 P1) as [E Q]. unfold objective at 1.
      destruct (optimize_form o tmax eta x d1) as [d1' r]. cbn [fst snd] in *. rewrite <- E. destruct r as [y|e]; cbn [bind]; [|do 3 eexists; (split; [reflexivity|auto])].
      destruct (Nat.ltb_spec 0 (List.length grad)) as [Lp|Lp]; [|do 3 eexists; (split; [reflexivity|auto])].
      unfold on_snd. cbn [fst snd].
      destruct (Gv x grad d2) as [F Q2]; [lia|exact P2|].
      destruct (gf x grad d2) as [d2' r2]. cbn [fst snd] in *. rewrite <- F.
      destruct r2 as [gr|e]; cbn [bind]; do 3 eexists; (split; [reflexivity|auto]). }
    destruct St as (d1'&d2'&r&E&Q1&Q2&->). unfold ebind. rewrite E.
    destruct (objective o tmax eta d x) as [y|e]; cbn [bind fst snd]; [|auto].
    destruct (Nat.ltb 0 (List.length grad)); [|now apply IH].
    destruct (G x) as [g|e]; cbn [bind fst snd]; [now apply IH|auto].
  Qed.

  Lemma results_with ad solver algorithm grad h iters eps kappa tmax eta o d P G gf pr x n :
    prepare ad o d algorithm grad h iters eps kappa tmax eta = Ok (gf, x, pr) -> gives P G gf -> well_sized n (solver pr x) -> P d ->
    let r := solve ad solver algorithm grad h iters eps kappa tmax eta (o, d) in
    let o' := fst (fst r) in
    match pure_run (objective o tmax eta d) G (solver pr x) with
    | Err e => o' = o /\ snd r = Err e
    | Ok ARuntime => o' = o
    | Ok (AReturn x_opt loss evals result) => In result (map fst nlopt_codes) ->
        match G x_opt with
        | Ok g => reports o o' x_opt loss evals result g
        | Err e => snd r = Err e
        end
    | Ok (ARoundoff loss evals result) => In result (map fst nlopt_codes) ->
        forall x_opt, optimization_parameters o (snd (fst r)) = Ok x_opt ->
        match G x_opt with
        | Ok g => reports o o' x_opt loss evals result g
        | Err e => snd r = Err e
        end
    end.
  Proof.
    intros Pp Gv W Pd. cbn zeta. unfold solve. rewrite Pp.
    destruct (run_gives o tmax eta P G gf n _ Gv W d d d (evolved_refl _ _) Pd) as [E V].
    destruct (run_strategy _ (solver pr x) (d, d)) as [[d' c'] a]. cbn [fst snd] in E, V. rewrite <- E. clear E.
    assert (Fin : forall x_opt, snd (gf x_opt (repeat n0 (List.length x_opt)) c') = G x_opt)
      by (intros x_opt; apply Gv; [apply repeat_length|exact V]).
    destruct a as [[x_opt loss evals result|loss evals result|]|e]; cbn [fst snd]; [| |reflexivity|auto].
    - intros I. apply in_map_iff in I as ([c s]&E&I). cbn [fst] in E. subst c. assert (St := proj2 (status_code _ _) I). rewrite St.
      assert (F := Fin x_opt). destruct (gf x_opt _ c') as [c2 [g|e]]; cbn [snd] in F; rewrite <- F; [|reflexivity].
      cbn [fst snd]. split; cbn [with_gradient with_result o_params o_cons o_x o_penalty o_evals o_status o_grad o_norm]; try reflexivity; [now exists s|]. now rewrite norm_euclidean.
    - intros I x_opt X. apply in_map_iff in I as ([c s]&E&I). cbn [fst] in E. subst c. assert (St := proj2 (status_code _ _) I).
      assert (D : optimization_parameters o d' = Ok x_opt).
      { revert X. destruct (optimization_parameters o d') as [x1|e1] eqn:X1; cbn [fst snd]; [|congruence]. rewrite St.
        destruct (gf x1 _ c') as [c2 [g|e]]; cbn [fst snd]; congruence. }
      rewrite D, St. assert (F := Fin x_opt). destruct (gf x_opt _ c') as [c2 [g|e]]; cbn [snd] in F; rewrite <- F; [|reflexivity].
      cbn [fst snd]. split; cbn [with_gradient with_result o_params o_cons o_x o_penalty o_evals o_status o_grad o_norm]; try reflexivity; [now exists s|]. now rewrite norm_euclidean.
  Qed.

  (** With finite differences, what the optimizer reports is what the solver answers when it is run on the objective and its
      forward differences, as functions of the variables alone. *)
  Lemma c69_results : forall ad solver algorithm h iters eps kappa tmax eta o d,
    obtained o -> keys_in_range o -> (forall s, In s (addressed o) -> present d s) ->
    0 < number_of_parameters o -> 0 < number_of_constraints o ->
    In algorithm ["SLSQP"; "LBFGS"; "MMA"; "TNEWTON"; "AUGLAG"; "VAR"]%string ->
    (forall pr x, as_requested o d algorithm iters eps kappa pr x -> well_sized (List.length x) (solver pr x)) ->
    exists pr x, as_requested o d algorithm iters eps kappa pr x
      /\ let F := objective o tmax eta d in
         let G := forward_differences F h in
         let r := solve ad solver algorithm "FD" h iters eps kappa tmax eta (o, d) in
         let o' := fst (fst r) in
         match pure_run F G (solver pr x) with
         | Err e => o' = o /\ snd r = Err e
         | Ok ARuntime => o' = o
         | Ok (AReturn x_opt loss evals result) => In result (map fst nlopt_codes) ->
             match G x_opt with
             | Ok g => reports o o' x_opt loss evals result g
             | Err e => snd r = Err e
             end
         | Ok (ARoundoff loss evals result) => In result (map fst nlopt_codes) ->
             forall x_opt, optimization_parameters o (snd (fst r)) = Ok x_opt ->
             match G x_opt with
             | Ok g => reports o o' x_opt loss evals result g
             | Err e => snd r = Err e
             end
         end.
  Proof.
    intros ad solver algorithm h iters eps kappa tmax eta o d M K Pr LP LC A W.
    destruct (well_posed_prepared ad o d algorithm "FD" h iters eps kappa tmax eta M K Pr LP LC (or_intror eq_refl) A) as (gf&x&pr&P&Gf).
    assert (Q := prepare_requested _ _ _ _ _ _ _ _ _ _ _ _ _ _ M P). exists pr, x. split; [exact Q|].
    unfold gradient_function in Gf. cbn [String.eqb Ascii.eqb Bool.eqb] in Gf. apply Ok_inj in Gf. subst gf.
    apply (results_with _ _ _ _ _ _ _ _ _ _ _ _ (evolved (addressed o) d) _ _ _ _ _ P) with (2 := W _ _ Q); [|apply evolved_refl].
    intros y grad c L E. apply (c47_forward_differences _ _ (evolved (addressed o) d) (objective o tmax eta d)); [|exact L|exact E].
    intros z d0 E'. now apply optimize_form_evolved.
  Qed.

  (** With automatic differentiation, likewise: if it computes the gradient [G] of the objective, wherever the objective was
      evaluated before, then the solver is given [G] and the optimizer reports [G]. *)
  Lemma c69_autodiff : forall ad G solver algorithm h iters eps kappa tmax eta o d,
    obtained o -> keys_in_range o -> (forall s, In s (addressed o) -> present d s) ->
    0 < number_of_parameters o -> 0 < number_of_constraints o ->
    In algorithm ["SLSQP"; "LBFGS"; "MMA"; "TNEWTON"; "AUGLAG"; "VAR"]%string ->
    (forall pr x, as_requested o d algorithm iters eps kappa pr x -> well_sized (List.length x) (solver pr x)) ->
    differentiates ad o tmax eta d G ->
    exists pr x, as_requested o d algorithm iters eps kappa pr x
      /\ let F := objective o tmax eta d in
         let r := solve ad solver algorithm "AD" h iters eps kappa tmax eta (o, d) in
         let o' := fst (fst r) in
         match pure_run F G (solver pr x) with
         | Err e => o' = o /\ snd r = Err e
         | Ok ARuntime => o' = o
         | Ok (AReturn x_opt loss evals result) => In result (map fst nlopt_codes) ->
             match G x_opt with
             | Ok g => reports o o' x_opt loss evals result g
             | Err e => snd r = Err e
             end
         | Ok (ARoundoff loss evals result) => In result (map fst nlopt_codes) ->
             forall x_opt, optimization_parameters o (snd (fst r)) = Ok x_opt ->
             match G x_opt with
             | Ok g => reports o o' x_opt loss evals result g
             | Err e => snd r = Err e
             end
         end.
  Proof.
    intros ad G solver algorithm h iters eps kappa tmax eta o d M K Pr LP LC A W D.
    destruct (well_posed_prepared ad o d algorithm "AD" h iters eps kappa tmax eta M K Pr LP LC (or_introl eq_refl) A) as (gf&x&pr&P&Gf).
    assert (Q := prepare_requested _ _ _ _ _ _ _ _ _ _ _ _ _ _ M P). exists pr, x. split; [exact Q|].
    unfold gradient_function in Gf. cbn [String.eqb Ascii.eqb Bool.eqb] in Gf. apply Ok_inj in Gf. subst gf.
    apply (results_with _ _ _ _ _ _ _ _ _ _ _ _ (fun c => exists ys, c = after_evaluations o tmax eta ys d) _ _ _ _ _ P) with (2 := W _ _ Q); [|now exists []].
    intros y grad c L (ys&->). destruct (D y ys) as [(zs&E) S]. unfold grad_autograd, ebind. rewrite E.
    destruct (G y) as [g|e] eqn:Gy; [|cbn [fst snd]; split; [reflexivity|now exists zs]].
    rewrite (S g eq_refl), L, Nat.eqb_refl. unfold eret. cbn [fst snd]. split; [reflexivity|now exists zs].
  Qed.

  Lemma calls_loop {A} (add : A -> call (T:=T)) (f : A -> eff (optimizer T) unit) : (forall a, perform (add a) = f a) ->
    (forall a o, snd (f a o) = Ok tt) -> forall l o,
    fst (eloop (fun _ a => f a) l tt o) = fold_left (fun o c => fst (perform c o)) (map add l) o.
  Proof.
    intros E K l. induction l as [|a l IH]; intros o; [reflexivity|]. cbn [eloop map fold_left]. rewrite E, <- IH. unfold ebind.
    assert (X := K a o). destruct (f a o) as [o' r]. cbn [snd] in X. now subst r.
  Qed.

  (** Solving through the proxy is solving with an optimizer to which the constraints and the parameters were added in order,
      with automatic differentiation and the settings given. *)
  Lemma c69_proxy : forall ad solver d cs ps algorithm iters h eps kappa tmax eta,
    solve_proxy ad solver d cs ps algorithm iters h eps kappa tmax eta
    = solve ad solver algorithm "AD" h iters eps kappa tmax eta (after_calls (map AddConstraint cs ++ map AddParameter ps), d).
  Proof.
    intros. unfold solve_proxy, proxy_optimizer, after_calls. rewrite fold_left_app.
    rewrite (calls_loop AddParameter add_parameter), (calls_loop AddConstraint add_constraint); reflexivity.
  Qed.

  (** Finite differences are one way to differentiate. *)
  Lemma differences_differentiate o tmax eta d h :
    differentiates (fun f x => grad_finite_differences f h x (repeat n0 (List.length x))) o tmax eta d
      (forward_differences (objective o tmax eta d) h).
  Proof.
    intros x ys. split; [|intros g E; now apply c47_component in E].
    destruct (c47_forward_differences _ (optimize_form o tmax eta) (fun c => exists zs, c = after_evaluations o tmax eta zs d)
      (objective o tmax eta d) h x (repeat n0 (List.length x)) (after_evaluations o tmax eta ys d)) as [E (zs&Z)].
    - intros y c (zs&->). split; [apply c46_objective|]. exists (zs ++ [y]). unfold after_evaluations. now rewrite fold_left_app.
    - apply repeat_length.
    - now exists ys.
    - exists zs. rewrite <- E, <- Z. now destruct (grad_finite_differences _ _ _ _ _).
  Qed.
End Report.

(** ** The value of the objective *)

Open Scope R_scope.

(** The objective at [x] is the sum of the weighted squared deviations of the equilibrium found with the variables [x], over
    all constraints. *)
Lemma c46_value : forall (o : optimizer R) tmax eta d x d' st v,
  update_parameters o x d = (d', Ok tt) -> equilibrium_state_numpy d' tmax eta false = Ok st ->
  (forall k c, In (k, c) (o_cons o) -> has_direction st (c_goal c)) ->
  objective o tmax eta d x = Ok v <->
  exists ys, Forall2 (fun kc y => deviates st (c_goal (snd kc)) y) (o_cons o) ys
    /\ v = rsum (map (fun cy => c_weight (snd (fst cy)) * (snd cy * snd cy)) (combine (o_cons o) ys)).
Proof.
  intros o tmax eta d x d' st v U E D. unfold objective, optimize_form, ebind. rewrite U. unfold eget. rewrite E. cbn [bind snd].
  unfold dvalues. rewrite c48_total.
  - clear D. split; intros (ys&F&->); exists ys; (split; [|]).
    + revert F. generalize (o_cons o). intros m. revert ys. induction m as [|[k c] m IH]; intros ys F; inversion F; subst; constructor; auto.
    + f_equal. clear. generalize (o_cons o). intros m. revert ys. induction m as [|[k c] m IH]; intros [|y ys]; cbn; auto. now rewrite IH.
    + induction F; cbn; constructor; auto.
    + f_equal. clear. generalize (o_cons o). intros m. revert ys. induction m as [|[k c] m IH]; intros [|y ys]; cbn; auto. now rewrite IH.
  - intros c I. apply in_map_iff in I as ([k c']&<-&I). now apply (D k).
Qed.

Lemma numpy_state (d : diagram R) tmax eta verbose form : static_equilibrium_numpy d tmax eta verbose = Ok form ->
  exists st, equilibrium_state_numpy d tmax eta verbose = Ok st.
Proof. intros E. unfold static_equilibrium_numpy in E. apply bind_Ok in E as (st&E&_). eauto. Qed.
