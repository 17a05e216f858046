(** * The objective and the constraints a form meets (C91) *)

From Coq Require Import String List ZArith Bool Lia Reals Lra.
From Verif Require Import Py PyFacts Num Diagram DiagramFacts Topology History HistoryFacts SpecDiagram Equilibrium EquilibriumNp Constraints Optimizer
  SpecEquilibrium SpecStatics SpecConstraints SpecOptimizer SpecNumpy SpecMet RVec ConThms FormFacts NpFacts NpThms OptFacts OptThms EqThms SpecHand HandThms SolveThms ReportThms.
Import ListNotations.
Open Scope Z_scope.

Section Inv.
  Context {T : Type} `{NumOps T}.

  Lemma dict_of_keys {V} (f : ekey -> res V) l : forall m m',
    fold_res (fun m x => let* v := f x in Ok (dset m x v)) l m = Ok m' ->
    forall e, In e (dkeys m') -> In e (dkeys m) \/ In e l.
  Proof.
    induction l as [|a l IH]; intros m m' E e I; cbn [fold_res] in E; [apply Ok_inj in E; subst; auto|].
    apply bind_Ok in E as (m1&E1&E). apply bind_Ok in E1 as (v&_&E1). apply Ok_inj in E1. subst m1.
    destruct (IH _ _ E e I) as [J|J]; [|right; now right]. apply In_dkeys_dset in J as [->|J]; [right; now left|auto].
  Qed.

  (** The containers of the array program cover what those of the reference program cover *)
  Lemma visit_numpy_inv (d : diagram T) env ts ind k st key st' : wf d -> incl (dkeys (np_lengths env)) (edges d) -> inv d st ->
    visit_numpy d env ts ind k st key = Ok st' -> inv d st'.
  Proof.
    intros W Le I. unfold visit_numpy. intros E. apply bind_Ok in E as (m&Em&E).
    destruct (dget m k) as [n|]; [|injection E as <-; auto].
    apply bind_Ok in E as (pos&Epos&E). apply bind_Ok in E as (rin&Erin&E). apply bind_Ok in E as (q&Eq&E).
    apply bind_Ok in E as (de&Ede&E). apply bind_Ok in E as (rd&Erd&E). apply bind_Ok in E as (ri&Eri&E).
    apply bind_Ok in E as (sup&Esup&E).
    assert (Hn : In n (nodes d)).
    { rewrite <- (iv_xyz _ _ I). apply dgetr_Ok in Epos. eapply dget_In_keys; eauto. }
    destruct sup.
    - injection E as <-. destruct I. constructor; cbn; auto.
      + now apply NoDup_dset.
      + intros x J. apply In_dkeys_dset in J as [->|J]; auto.
    - apply bind_Ok in E as (nx&Enx&E). apply bind_Ok in E as (len&El&E). injection E as <-.
      assert (Ie : In (trail_edge_key d n nx) (edges d)).
      { apply Le. apply dgetr_Ok in El. eapply dget_In_keys; eauto. }
      assert (Ha := Ie). apply In_edges, has_edge_find in Ha as [a Ha]; auto.
      assert (Hx : In nx (nodes d)).
      { destruct (wf_eends _ W _ _ Ha) as [H1 H2]. unfold trail_edge_key in H1, H2. now destruct (has_edge d (n, nx)). }
      destruct I. constructor; cbn; auto.
      + rewrite dkeys_dset_in; auto. congruence.
      + rewrite dkeys_dset_in; auto. congruence.
      + now apply NoDup_dset.
      + intros x J. apply In_dkeys_dset in J as [->|J]; auto.
  Qed.

  Lemma iterate_numpy_inv (d : diagram T) env ts eta : wf d -> incl (dkeys (np_lengths env)) (edges d) ->
    forall n t od st st' ot od', inv d st -> iterate_numpy d env ts eta n t od st = Ok (st', ot, od') -> inv d st'.
  Proof.
    intros W Le. assert (Sw : forall ind st st', inv d st -> sweep_numpy d env ts ind st = Ok st' -> inv d st').
    { intros ind st st' I E. unfold sweep_numpy in E. apply bind_Ok in E as (n&_&E). revert E.
      apply fold_res_inv; auto. intros s k s' Hs. apply fold_res_inv; auto. intros s1 key s2 H1. now apply visit_numpy_inv. }
    induction n as [|n IH]; intros t od st st' ot od' I E; cbn [iterate_numpy] in E.
    - injection E as <- _ _. exact I.
    - apply bind_Ok in E as (s1&Es&E). apply Sw in Es; auto. destruct (Nat.eqb t 0); [eauto|].
      apply bind_Ok in E as (x&_&E). destruct (nltb x eta); [injection E as <- _ _; exact Es|eauto].
  Qed.

  Lemma state_numpy_inv (d : diagram T) tmax eta verbose st : wf d ->
    equilibrium_state_numpy d tmax eta verbose = Ok st -> inv d st.
  Proof.
    intros W E. unfold equilibrium_state_numpy in E. destruct (negb _); [discriminate|].
    apply bind_Ok in E as (ts&_&E). apply bind_Ok in E as (env&Een&E). apply bind_Ok in E as ([[st1 ot] od]&Ei&E).
    assert (Le : incl (dkeys (np_lengths env)) (edges d)).
    { unfold np_containers in Een. apply bind_Ok in Een as (fs&_&Een). apply bind_Ok in Een as (ls&Els&Een).
      do 4 (apply bind_Ok in Een as (?&_&Een)). apply Ok_inj in Een. subst env. cbn [np_lengths].
      intros e J. destruct (dict_of_keys _ _ _ _ Els e J) as [[]|]; auto. }
    assert (I : inv d st1) by (eapply iterate_numpy_inv; eauto; apply inv_init).
    destruct ot as [t|]; [|discriminate]. destruct (negb (Nat.eqb t 0)).
    - destruct od as [x|]; [|discriminate]. destruct (nltb eta x); [discriminate|]. apply Ok_inj in E. now subst.
    - destruct (verbose && _); [discriminate|]. apply Ok_inj in E. now subst.
  Qed.

  Lemma wf_update_parameters (o : optimizer T) x : preserves (wf (T := T)) (update_parameters o x).
  Proof.
    unfold update_parameters. apply preserves_eloop. intros u [k p] _. apply preserves_ebind; [apply preserves_eget|].
    intros v. cbn [snd]. destruct (p_slot p) as [n a|e a]; cbn [slot_set].
    - apply wf_node_set.
    - apply wf_edge_set. intros b Hb. destruct a; exact Hb.
  Qed.
End Inv.

Open Scope R_scope.

(** What the containers say is what the form says *)
Lemma shows_coordinates d st form n p : inv d st -> shows d st form -> node_at st n p -> node_coordinates form n = Ok p.
Proof.
  intros I (S&_) P. unfold node_at in P. assert (J : In n (nodes d)) by (rewrite <- (iv_xyz _ _ I); eapply dget_In_keys; eauto).
  destruct (S n J) as (p'&P'&E). unfold at_position in P'. congruence.
Qed.

Lemma shows_deviates d st form g x : inv d st -> shows d st form -> deviates st g x -> form_deviates form g x.
Proof.
  intros I S. assert (C := fun n p => shows_coordinates d st form n p I S). destruct S as (_&Sf&Sr).
  destruct g; cbn [deviates form_deviates].
  1-4: intros (p&P&D); exists p; auto.
  - intros (y&Y&D). exists y; auto.
  - intros (p&P&D). exists p; auto.
  - intros (p&q&P&Q&D). exists p, q; auto.
  - intros (p&q&P&Q&D). exists p, q; auto.
Qed.

Lemma directed_state d st form g : inv d st -> shows d st form -> form_directed form g -> has_direction st g.
Proof.
  intros I S. assert (C := fun n p => shows_coordinates d st form n p I S).
  destruct g; cbn [form_directed has_direction]; auto. intros (D1&D2). split; auto.
Qed.

(** A goal cannot be missed by two different distances. *)
Lemma distance_to_unique S p x y : distance_to S p x -> distance_to S p y -> x = y.
Proof. intros ((q&Q&<-)&M) ((r&R&<-)&N). apply Rle_antisym; auto. Qed.

Lemma form_deviates_unique form g x y : form_deviates form g x -> form_deviates form g y -> x = y.
Proof.
  destruct g; cbn [form_deviates].
  - intros (p&P&->) (q&Q&->). congruence.
  - intros (p&P&D) (q&Q&D'). replace q with p in D' by congruence. eapply distance_to_unique; eauto.
  - intros (p&P&D) (q&Q&D'). replace q with p in D' by congruence. eapply distance_to_unique; eauto.
  - intros (p&P&D) (q&Q&D'). replace q with p in D' by congruence. eapply distance_to_unique; eauto.
  - intros (p&P&->) (q&Q&->). congruence.
  - intros (p&P&->) (q&Q&->). congruence.
  - intros (p&q&P&Q&->) (p'&q'&P'&Q'&->). congruence.
  - intros (p&q&P&Q&->) (p'&q'&P'&Q'&->). congruence.
Qed.

Lemma shows_meets d st form g y : inv d st -> shows d st form -> deviates st g y -> (meets st g <-> form_meets form g).
Proof.
  intros I S. assert (C := fun n p => shows_coordinates d st form n p I S). destruct S as (_&Sf&Sr).
  destruct g; cbn [deviates meets form_meets].
  - intros (p&P&_). split; [apply C|]. intros E. apply C in P as P'. rewrite E in P'. apply Ok_inj in P'. now subst.
  - intros (p&P&_). split; [intros (q&Q&L); eauto|]. intros (q&Q&L). exists p. split; auto. apply C in P. now replace p with q by congruence.
  - intros (p&P&_). split; [intros (q&Q&L); eauto|]. intros (q&Q&L). exists p. split; auto. apply C in P. now replace p with q by congruence.
  - intros (p&P&_). split; [intros (q&Q&L); eauto|]. intros (q&Q&L). exists p. split; auto. apply C in P. now replace p with q by congruence.
  - intros (x&X&_). split; [apply Sf|]. intros E. apply Sf in X as X'. rewrite E in X'. apply Ok_inj in X'. now subst.
  - intros (p&P&_). split; [apply Sr|]. intros E. apply Sr in P as P'. rewrite E in P'. apply Ok_inj in P'. now subst.
  - intros (p&q&P&Q&_). split; [intros (p'&q'&P'&Q'&L); exists p', q'; auto|]. intros (p'&q'&P'&Q'&L). exists p, q.
    split; auto. split; auto. apply C in P, Q. now replace p with p' by congruence; replace q with q' by congruence.
  - intros (p&q&P&Q&_). split; [intros (p'&q'&P'&Q'&L); exists p', q'; auto|]. intros (p'&q'&P'&Q'&L). exists p, q.
    split; auto. split; auto. apply C in P, Q. now replace p with p' by congruence; replace q with q' by congruence.
Qed.

Section Met.
  Variables (o : optimizer R) (tmax : Z) (eta : R) (d : diagram R) (x : list R) (d' form : diagram R) (v : R).
  Hypothesis Hr : reachable d.
  Hypothesis U : update_parameters o x d = (d', Ok tt).
  Hypothesis F : static_equilibrium_numpy d' tmax eta false = Ok form.
  Hypothesis V : objective o tmax eta d x = Ok v.
  Hypothesis D : forall k c, In (k, c) (o_cons o) -> form_directed form (c_goal c).

  Lemma met_state : exists st, wf d' /\ inv d' st /\ shows d' st form /\ equilibrium_state_numpy d' tmax eta false = Ok st
    /\ (forall k c, In (k, c) (o_cons o) -> has_direction st (c_goal c)).
  Proof using Hr U F D.
    assert (W : wf d').
    { assert (W := wf_update_parameters o x d (reachable_wf d Hr)). now rewrite U in W. }
    unfold static_equilibrium_numpy in F. apply bind_Ok in F as (st&Es&Ef). exists st.
    assert (I := state_numpy_inv d' tmax eta false st W Es). rewrite (form_update_same d' st W I) in Ef.
    destruct (form_update st (form_of_topology d')) as [f [[]|e]] eqn:Eu; [|discriminate]. apply Ok_inj in Ef. subst f.
    assert (S := shows_form d' st form W I Eu). split; [exact W|]. split; [exact I|]. split; [exact S|]. split; [exact Es|].
    intros k c J. eapply directed_state; eauto.
  Qed.
End Met.

(** ** C91 *)

(** The objective is the sum of the weights times the squares of how far the form found
    with the variables is from the goals. *)
Lemma c91_value : forall (o : optimizer R) tmax eta d x d' form v,
  reachable d -> update_parameters o x d = (d', Ok tt) -> static_equilibrium_numpy d' tmax eta false = Ok form ->
  objective o tmax eta d x = Ok v ->
  (forall k c, In (k, c) (o_cons o) -> form_directed form (c_goal c)) ->
  exists ys, Forall2 (fun kc y => form_deviates form (c_goal (snd kc)) y) (o_cons o) ys
    /\ v = rsum (map (fun cy => c_weight (snd (fst cy)) * (snd cy * snd cy)) (combine (o_cons o) ys)).
Proof.
  intros o tmax eta d x d' form v Hr U F V D. destruct (met_state o tmax eta d x d' form Hr U F D) as (st&W&I&S&Es&Hd).
  apply (c46_value o tmax eta d x d' st v U Es Hd) in V as (ys&A&->). exists ys. split; [|reflexivity].
  clear - A I S. induction A; constructor; auto. apply (shows_deviates d' st); auto.
Qed.

(** If no weight is negative, a goal is missed by no more than the objective allows. *)
Lemma c91_small : forall (o : optimizer R) tmax eta d x d' form v,
  reachable d -> update_parameters o x d = (d', Ok tt) -> static_equilibrium_numpy d' tmax eta false = Ok form ->
  objective o tmax eta d x = Ok v ->
  (forall k c, In (k, c) (o_cons o) -> form_directed form (c_goal c) /\ 0 <= c_weight c) ->
  forall k c, In (k, c) (o_cons o) -> exists y, form_deviates form (c_goal c) y /\ 0 <= c_weight c * (y * y) <= v.
Proof.
  intros o tmax eta d x d' form v Hr U F V D k c J.
  destruct (c91_value o tmax eta d x d' form v Hr U F V (fun k c J => proj1 (D k c J))) as (ys&A&->).
  clear - A D J. revert D J. induction A as [|[k' c'] y m ys Y A IH]; intros D J; [destruct J|].
  assert (N : forall cs ys, (forall k c, In (k, c) cs -> 0 <= c_weight c) ->
    0 <= rsum (map (fun cy : Z * constraint R * R => c_weight (snd (fst cy)) * (snd cy * snd cy)) (combine cs ys))).
  { clear. induction cs as [|[k c] cs IH]; intros [|y ys] P; cbn; try lra. specialize (IH ys (fun k c J => P k c (or_intror J))).
    assert (0 <= c_weight c * (y * y)) by (apply Rmult_le_pos; [apply (P k); now left|nra]). unfold rsum in IH. lra. }
  cbn [combine map rsum fold_right fst snd] in *. destruct J as [E|J].
  - injection E as -> ->. exists y. split; [exact Y|]. specialize (N m ys (fun k c J => proj2 (D k c (or_intror J)))).
    assert (0 <= c_weight c * (y * y)) by (apply Rmult_le_pos; [apply (D k); now left|nra]). unfold rsum in N. lra.
  - destruct (IH (fun k c J => D k c (or_intror J)) J) as (z&Z&B1&B2). exists z. split; [exact Z|].
    assert (0 <= c_weight c' * (y * y)) by (apply Rmult_le_pos; [apply (D k'); now left|nra]). unfold rsum in *. lra.
Qed.

(** With positive weights the objective is not negative, and it is zero exactly when the
    form found with the variables meets all the goals. *)
Lemma c91_zero : forall (o : optimizer R) tmax eta d x d' form v,
  reachable d -> update_parameters o x d = (d', Ok tt) -> static_equilibrium_numpy d' tmax eta false = Ok form ->
  objective o tmax eta d x = Ok v ->
  (forall k c, In (k, c) (o_cons o) -> form_directed form (c_goal c) /\ 0 < c_weight c) ->
  0 <= v /\ (v = 0 <-> forall k c, In (k, c) (o_cons o) -> form_meets form (c_goal c)).
Proof.
  intros o tmax eta d x d' form v Hr U F V D.
  destruct (met_state o tmax eta d x d' form Hr U F (fun k c J => proj1 (D k c J))) as (st&W&I&S&Es&Hd).
  apply (c46_value o tmax eta d x d' st v U Es Hd) in V as V'. destruct V' as (ys&A&_).
  unfold objective, optimize_form, ebind in V. rewrite U in V. unfold eget in V. rewrite Es in V. cbn [bind snd] in V.
  apply c48_zero in V as (P&Z).
  2:{ intros c J. unfold dvalues in J. apply in_map_iff in J as ([k c']&<-&J). split; [now apply (Hd k)|now apply (D k)]. }
  split; [exact P|]. rewrite Z.
  assert (Q : forall k c, In (k, c) (o_cons o) -> (meets st (c_goal c) <-> form_meets form (c_goal c))).
  { clear - A I S. induction A as [|[k' c'] y m ys Y A IH]; intros k c J; [destruct J|]. destruct J as [E|J]; [|eauto].
    injection E as -> ->. eapply shows_meets; eauto. }
  split.
  - intros M k c J. apply (Q k c J), M. unfold dvalues. apply in_map_iff. exists (k, c). auto.
  - intros M c J. unfold dvalues in J. apply in_map_iff in J as ([k c']&<-&J). apply (Q k c' J), (M k c' J).
Qed.

(** After a successful solve of a direct, sound topology the objective at the last point
    the solver evaluated tells how far the returned form is from the goals: it is zero
    exactly when the form meets them all, and bounds every deviation. *)
Lemma c91_solved_partial : forall ad solver algorithm grad h iters eps kappa tmax eta (o : optimizer R) d o' d' form ys y a,
  reachable d -> ready d -> direct_only d ->
  solver_run ad solver o d algorithm grad h iters eps kappa tmax eta = Ok (ys ++ [y], Ok a) ->
  solve ad solver algorithm grad h iters eps kappa tmax eta (o, d) = ((o', d'), Ok form) ->
  form_is_sound d' form ->
  (forall k c, In (k, c) (o_cons o) -> form_directed form (c_goal c) /\ 0 < c_weight c) ->
  exists v, objective o tmax eta d y = Ok v /\ 0 <= v
    /\ (v = 0 <-> forall k c, In (k, c) (o_cons o) -> form_meets form (c_goal c))
    /\ forall k c, In (k, c) (o_cons o) -> exists x, form_deviates form (c_goal c) x /\ c_weight c * (x * x) <= v.
Proof.
  intros ad solver algorithm grad h iters eps kappa tmax eta o d o' d' form ys y a Hr Rd Di Run E Snd Dw.
  destruct (c54_last_point_partial _ _ _ _ _ _ _ _ _ _ _ _ _ _ _ E) as (F&_&ys'&a'&Run'&_&U&_).
  rewrite Run in Run'. injection Run' as <- <-. specialize (U ys y eq_refl).
  destruct (c92_still_built _ _ _ _ _ _ _ _ _ _ _ _ _ _ _ Hr E) as (Hr'&Rd'&Di'). specialize (Rd' Rd). specialize (Di' Di).
  assert (V : exists v, objective o tmax eta d y = Ok v).
  { unfold solver_run in Run. destruct (prepare ad o d algorithm grad h iters eps kappa tmax eta) as [[[gf x0] pr]|e]; [|discriminate Run]. cbn [bind] in Run.
    apply Ok_inj in Run. apply pair_equal_spec in Run as (Vi&Ru).
    apply (visited_Ok o tmax eta gf (solver pr x0) d d d (evolved_refl _ _)); [exists a; exact Ru|].
    rewrite Vi. apply in_or_app. right. now left. }
  destruct V as (v&V). exists v. split; [exact V|].
  assert (F1 := c35_one_iteration d' None 100 neps6 eta false form Hr' Rd' Di' F).
  assert (N := c41_direct d' eta form Hr' Rd' Di' F1 Snd).
  assert (Fn : static_equilibrium_numpy d' tmax eta false = Ok form).
  { assert (Q : exists g, static_equilibrium_numpy d' tmax eta false = Ok g).
    { unfold objective, optimize_form, ebind in V. rewrite U in V. unfold eget in V. cbn [snd] in V. apply bind_Ok in V as (st&Es&_).
      unfold static_equilibrium_numpy. rewrite Es. cbn [bind]. assert (W := reachable_wf _ Hr').
      assert (I := state_numpy_inv d' tmax eta false st W Es). rewrite (form_update_same d' st W I).
      destruct (form_update_spec d' st W I) as (g&G&_). rewrite G. eauto. }
    destruct Q as (g&G). rewrite G. rewrite N in G. apply (c35_one_iteration d' None tmax eta eta false g Hr' Rd' Di') in G. congruence. }
  destruct (c91_zero o tmax eta d y d' form v Hr U Fn V Dw) as (P&Z). split; [exact P|]. split; [exact Z|].
  intros k c J. destruct (c91_small o tmax eta d y d' form v Hr U Fn V (fun k c J => conj (proj1 (Dw k c J)) (Rlt_le _ _ (proj2 (Dw k c J)))) k c J) as (x&X&_&B).
  exists x. auto.
Qed.
