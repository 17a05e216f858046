(** * What form finding says *)

From Coq Require Import String List ZArith Bool Lia Permutation Reals Lra.
From Verif Require Import Py PyFacts Num Diagram DiagramFacts Topology SpecDiagram SpecTopology
  TopologyFacts BuildFacts ChainFacts ChainFacts2 History HistoryFacts DiagramThms TopologyThms SequenceThms
  Equilibrium SpecEquilibrium EqFacts FormFacts ReadyThms RVec EqThms SpecStatics TypedFacts StaticsFacts StaticsThms
  QueryThms CountThms Messages SpecMessages.
Import ListNotations.
Open Scope Z_scope.

(** ** Saying does not matter *)

Lemma obind_snd {A B} (x : out A) (f : A -> out B) : snd (obind x f) = bind (snd x) (fun a => snd (f a)).
Proof. unfold obind. destruct (snd x); reflexivity. Qed.

Lemma obind_bind {A B} (x : out A) (f : A -> out B) y g :
  snd x = y -> (forall a, snd (f a) = g a) -> snd (obind x f) = bind y g.
Proof. intros <- F. rewrite obind_snd. destruct (snd x); cbn; auto. Qed.

Lemma ofold_fold {S A} (f : S -> A -> out S) (g : S -> A -> res S) l : (forall s a, snd (f s a) = g s a) ->
  forall s, snd (ofold f l s) = fold_res g l s.
Proof.
  intros F. induction l as [|a l IH]; intros s; cbn; auto. apply obind_bind; auto.
Qed.

Lemma obind_Ok {A B} (x : out A) (f : A -> out B) ms b : obind x f = (ms, Ok b) ->
  exists m1 a m2, x = (m1, Ok a) /\ f a = (m2, Ok b) /\ ms = m1 ++ m2.
Proof.
  unfold obind. destruct x as [m1 [a|e]]; cbn; [|discriminate]. destruct (f a) as [m2 r] eqn:Ef; cbn.
  intros E. injection E as <- ->. exists m1, a, m2. auto.
Qed.

Lemma obind_lift {A B} (a : A) (f : A -> out B) : obind (olift (Ok a)) f = f a.
Proof. unfold obind. cbn. symmetry. apply surjective_pairing. Qed.

Section Thms.
  Context {T : Type} `{NumOps T}.
  Implicit Types (d : diagram T).

  Lemma length_same edge (a : edge_attr T) pos rvec :
    snd (trail_edge_length_out edge a pos rvec) = Ok (trail_edge_length a pos rvec).
  Proof.
    unfold trail_edge_length_out, trail_edge_length. destruct (ea_plane a) as [pl|]; auto.
    destruct (trail_length_from_plane pos rvec pl neps6) as [x|]; auto. destruct (ntruthy x); auto.
    destruct (nltb _ _); auto.
  Qed.

  Lemma visit_same d ts kmax cb ind k st key : snd (visit_out d ts kmax cb ind k st key) = visit d ts kmax ind k st key.
  Proof.
    unfold visit_out, visit. apply obind_bind; auto. intros m. destruct (dget m k) as [n|]; auto.
    apply obind_bind; auto. intros pos. apply obind_bind; auto. intros rin. apply obind_bind; auto. intros rv.
    apply obind_bind; auto. intros sup. destruct (sup || _); auto.
    apply obind_bind; auto. intros nx. apply obind_bind; auto. intros a.
    rewrite obind_snd, length_same. cbn [bind]. rewrite obind_snd. destruct cb; reflexivity.
  Qed.

  Lemma sweep_same d ts kmax cb ind st : snd (sweep_out d ts kmax cb ind st) = sweep d ts kmax ind st.
  Proof.
    unfold sweep_out, sweep. apply obind_bind; auto. intros n. apply ofold_fold. intros s k. apply ofold_fold.
    intros s' key. apply visit_same.
  Qed.

  Lemma iterate_same d ts kmax cb eta n : forall t x st,
    snd (iterate_out d ts kmax cb eta n t x st) = iterate d ts kmax eta n t x st.
  Proof.
    induction n as [|n IH]; intros t x st; cbn [iterate_out iterate]; auto.
    apply obind_bind; [apply sweep_same|]. intros st'. destruct (Nat.eqb t 0); auto.
    apply obind_bind; auto. intros dist. destruct (nltb dist eta); auto.
  Qed.

  Lemma state_same d kmax tmax eta verbose cb :
    snd (equilibrium_state_out d kmax tmax eta verbose cb) = equilibrium_state d kmax tmax eta verbose.
  Proof.
    unfold equilibrium_state_out, equilibrium_state. destruct (negb _); auto.
    apply obind_bind; auto. intros ts. apply obind_bind; auto. intros kl.
    destruct (match kmax with Some km => _ | None => _ end); auto.
    apply obind_bind; [apply iterate_same|]. intros [[st t] x]. destruct t as [t|]; auto.
    rewrite obind_snd. destruct (negb (Nat.eqb t 0)).
    - destruct x as [x|]; auto. destruct (nltb eta x); auto. cbn [snd oret bind]. rewrite obind_snd. destruct verbose; auto.
    - cbn [snd oret bind]. rewrite obind_snd. destruct verbose, x; auto.
  Qed.

  (** C89: what is printed and the callback make no difference to the form, or to the
      exception raised. *)
  Lemma c89_same : forall d kmax tmax eta verbose callback,
    outcome (static_equilibrium_out d kmax tmax eta verbose callback) = static_equilibrium d kmax tmax eta verbose.
  Proof.
    intros. unfold outcome, static_equilibrium_out, static_equilibrium. apply obind_bind; [apply state_same|].
    intros st. destruct (form_update st (form_of_topology d)) as [form [[]|e]]; auto.
  Qed.

  (** ** What is said at a visit *)

  (** At the trail edge from [n] to [m]. *)
  Definition tell d (cb : bool) (n m : Z) (pos rvec : vec T) : list message :=
    fst (trail_edge_length_out (trail_edge_key d n m) (ea d (trail_edge_key d n m)) pos rvec) ++ (if cb then [Called] else []).

  Inductive vsay d kmax cb ind n (st : eqstate T) : list message -> eqstate T -> Prop :=
  | vy_stop : stops d kmax n = true -> vsay d kmax cb ind n st [] (put_reaction d ind n st)
  | vy_next : forall m, stops d kmax n = false -> follows d n m ->
      vsay d kmax cb ind n st (tell d cb n m (xg (s_xyz st) n) (rout d n (xg (s_res st) n) (s_xyz st) ind)) (put_next d ind n m st).

  Inductive vsays d kmax cb ind : list Z -> eqstate T -> list message -> eqstate T -> Prop :=
  | vys_nil : forall st, vsays d kmax cb ind [] st [] st
  | vys_cons : forall n l st m1 st1 ms st', In n (nodes d) -> dom d st -> vsay d kmax cb ind n st m1 st1 ->
      vsays d kmax cb ind l st1 ms st' -> vsays d kmax cb ind (n :: l) st (m1 ++ ms) st'.

  Lemma vsay_vstep d kmax cb ind n st ms st' : vsay d kmax cb ind n st ms st' -> vstep d kmax ind n st st'.
  Proof. intros S. destruct S; constructor; auto. Qed.

  Lemma vsays_vsteps d kmax cb ind l st ms st' : vsays d kmax cb ind l st ms st' -> vsteps d kmax ind l st st'.
  Proof. intros V. induction V; econstructor; eauto using vsay_vstep. Qed.

  Lemma vsays_app d kmax cb ind l1 l2 st m1 st1 m2 st2 : vsays d kmax cb ind l1 st m1 st1 -> vsays d kmax cb ind l2 st1 m2 st2 ->
    vsays d kmax cb ind (l1 ++ l2) st (m1 ++ m2) st2.
  Proof.
    intros V. induction V as [|n l st ma sa ms st' I D S V IH]; intros V2; cbn; auto.
    rewrite <- app_assoc. econstructor; eauto.
  Qed.

  Lemma pair_snd {A B} (p : A * B) b : snd p = b -> p = (fst p, b).
  Proof. intros <-. now destruct p. Qed.

  Lemma visit_says d ts kmax cb ind k st key tr : wf d -> ready d -> ts_ok d ts -> dom d st -> In (key, tr) (trails d) ->
    (lookup_ts ts key k = None /\ visit_out d ts kmax cb ind k st key = ([], Ok st))
    \/ exists n ms st', lookup_ts ts key k = Some n /\ In n (nodes d)
         /\ visit_out d ts kmax cb ind k st key = (ms, Ok st') /\ vsay d kmax cb ind n st ms st'.
  Proof.
    intros W R Hts D I.
    destruct (visit_spec d ts kmax ind k st key tr W R Hts D I) as [[L E]|(n&st'&L&In1&E&S)].
    - left. split; auto. rewrite <- (visit_same d ts kmax cb) in E. apply pair_snd in E. rewrite E. f_equal.
      destruct (Hts key tr I) as (m&Em&_). unfold lookup_ts in L. rewrite Em in L.
      unfold visit_out, dgetr. rewrite Em. unfold obind, olift. cbn [snd fst]. rewrite L. reflexivity.
    - right. exists n. rewrite <- (visit_same d ts kmax cb) in E. apply pair_snd in E.
      exists (fst (visit_out d ts kmax cb ind k st key)), st'. split; auto. split; auto. split; auto.
      destruct D as [D1 D2]. destruct (Hts key tr I) as (m&Em&M). assert (L' := L). unfold lookup_ts in L'. rewrite Em in L'.
      assert (X1 : dget (s_xyz st) n = Some (xg (s_xyz st) n)).
      { assert (J := In1). rewrite <- D1 in J. apply In_keys_dget in J as [p Ep]. unfold xg. now rewrite Ep. }
      assert (X2 : dget (s_res st) n = Some (xg (s_res st) n)).
      { assert (J := In1). rewrite <- D2 in J. apply In_keys_dget in J as [p Ep]. unfold xg. now rewrite Ep. }
      assert (X3 : node_equilibrium d n (xg (s_res st) n) (s_xyz st) ind = Ok (rout d n (xg (s_res st) n) (s_xyz st) ind)).
      { apply node_equilibrium_pure; auto;
          [apply (ch_simple _ _ (rd_chains _ R))|now apply ready_sequenced|rewrite D1; apply incl_refl]. }
      assert (Ek : kof d n = Some k) by (now apply M in L').
      assert (Est : is_sup d n || match kmax with Some km => k =? km | None => false end = stops d kmax n).
      { unfold stops. now rewrite Ek. }
      assert (V : fst (visit_out d ts kmax cb ind k st key) =
        if stops d kmax n then [] else
          fst (let+ next := olift (dgetr m (k + 1)) in
          let edge := trail_edge_key d n next in
          let+ a := olift (edge_get d edge) in
          let+ length := trail_edge_length_out edge a (xg (s_xyz st) n) (rout d n (xg (s_res st) n) (s_xyz st) ind) in
          let+ _ := if cb then osay Called else oret tt in oret tt)).
      { unfold visit_out. unfold dgetr at 1 2 3. rewrite Em, obind_lift, L', X1, X2, !obind_lift, X3, obind_lift.
        rewrite is_node_support_Ok by auto. rewrite obind_lift, Est.
        destruct (stops d kmax n); [reflexivity|].
        destruct (dgetr m (k + 1)) as [nx|]; [|reflexivity]. rewrite !obind_lift.
        destruct (edge_get d (trail_edge_key d n nx)) as [a|]; [|reflexivity]. rewrite !obind_lift.
        unfold obind. rewrite length_same. destruct cb; reflexivity. }
      rewrite V. destruct S as [St|nx St F].
      + rewrite St. now constructor.
      + rewrite St. replace (fst _) with (tell d cb n nx (xg (s_xyz st) n) (rout d n (xg (s_res st) n) (s_xyz st) ind)); [now constructor|].
        assert (Ex : dget m (k + 1) = Some nx).
        { apply M. split; [|now apply (follows_kof d n nx)].
          destruct F as (tr'&It'&(l&r&Et)). assert (Q : tr = tr').
          { eapply same_trail with (n := n); eauto; [apply In_stored; eauto|now apply M in L'|].
            rewrite Et. apply in_or_app. right. now left. }
          rewrite Q, Et. apply in_or_app. right. right. now left. }
        destruct (trail_key_edge d n nx W R F) as (a&Ea&_).
        unfold dgetr. rewrite Ex, obind_lift. cbn zeta. unfold edge_get, tell, ea. rewrite Ea.
        rewrite obind_lift. unfold obind. rewrite length_same. destruct cb; reflexivity.
  Qed.

  Lemma sweep_says d ts kmax cb ind kl st : wf d -> ready d -> ts_ok d ts -> sequence_last d = Ok kl -> dom d st ->
    exists ms st', sweep_out d ts kmax cb ind st = (ms, Ok st') /\ vsays d kmax cb ind (schedule d ts (kl + 1)) st ms st' /\ dom d st'.
  Proof.
    intros W R Hts Ek. unfold sweep_out, number_of_sequences, schedule. rewrite Ek. cbn [bind].
    rewrite obind_lift.
    generalize (zrange (kl + 1)). intros ks. revert st. induction ks as [|k ks IH]; intros st D.
    - exists [], st. split; auto. split; auto. constructor.
    - cbn [ofold flat_map].
      assert (Inner : forall l st, incl l (trails d) -> dom d st -> exists ms st',
        ofold (visit_out d ts kmax cb ind k) (dkeys l) st = (ms, Ok st')
        /\ vsays d kmax cb ind (flat_map (fun key => match lookup_ts ts key k with Some n => [n] | None => [] end) (dkeys l)) st ms st'
        /\ dom d st').
      { clear st D IH. induction l as [|[key tr] l IH]; intros st Inc D.
        - exists [], st. split; auto. split; auto. constructor.
        - change (dkeys ((key, tr) :: l)) with (key :: dkeys l). cbn [ofold flat_map].
          destruct (visit_says d ts kmax cb ind k st key tr W R Hts D (Inc _ (or_introl eq_refl)))
            as [[E1 E2]|(n&m1&st1&E1&In1&E2&S)].
          + rewrite E1, E2. unfold obind. cbn [fst snd app].
            destruct (IH st) as (ms&st'&F1&F2&F3); auto; [intros x Ix; apply Inc; now right|]. rewrite F1. exists ms, st'. auto.
          + rewrite E1, E2. unfold obind. cbn [fst snd app]. destruct (IH st1) as (ms&st'&F1&F2&F3).
            * intros x Ix. apply Inc. now right.
            * eapply dom_vstep; eauto using vsay_vstep.
            * rewrite F1. exists (m1 ++ ms), st'. split; auto. split; auto. econstructor; eauto. }
      destruct (Inner (trails d) st (incl_refl _) D) as (m1&st1&F1&F2&D1). rewrite F1. unfold obind. cbn [fst snd].
      destruct (IH st1 D1) as (ms&st'&G1&G2&D2). rewrite G1. cbn [fst snd]. exists (m1 ++ ms), st'. split; auto. split; auto.
      eapply vsays_app; eauto.
  Qed.

  Lemma vsays_split d kmax cb ind l1 : forall l2 st ms st', vsays d kmax cb ind (l1 ++ l2) st ms st' ->
    exists m1 sa m2, vsays d kmax cb ind l1 st m1 sa /\ vsays d kmax cb ind l2 sa m2 st' /\ ms = m1 ++ m2.
  Proof.
    induction l1 as [|n l1 IH]; intros l2 st ms st' V.
    - exists [], st, ms. split; [constructor|auto].
    - cbn in V. inversion V as [|? ? ? ma sb mb ? I D S V']; subst. destruct (IH _ _ _ _ V') as (m1&sa&m2&V1&V2&->).
      exists (ma ++ m1), sa, m2. split; [econstructor; eauto|]. split; auto. now rewrite app_assoc.
  Qed.

  Lemma vsays_from d kmax cb ind l st ms st' x : vsays d kmax cb ind l st ms st' -> In x ms ->
    exists l1 n l2 m1 sa m2 m, l = l1 ++ n :: l2 /\ vsays d kmax cb ind l1 st m1 sa /\ vsays d kmax cb ind (n :: l2) sa m2 st'
      /\ stops d kmax n = false /\ follows d n m
      /\ In x (tell d cb n m (xg (s_xyz sa) n) (rout d n (xg (s_res sa) n) (s_xyz sa) ind)).
  Proof.
    intros V. induction V as [st|n l st m1 st1 ms st' I D S V IH]; [intros []|]. intros J.
    apply in_app_or in J as [J|J].
    - destruct S as [St|m St F]; [destruct J|]. exists [], n, l, [], st. eexists. exists m. split; auto. split; [constructor|].
      split; [econstructor; eauto; now constructor|]. auto.
    - destruct (IH J) as (l1&n'&l2&ma&sa&mb&m&->&Va&Vb&St&F&J'). exists (n :: l1), n', l2, (m1 ++ ma), sa, mb, m.
      split; auto. split; [econstructor; eauto|]. auto.
  Qed.

  (** What is said during one iteration, in terms of where it ends. *)
  Lemma sweep_said d ts kmax cb ind kl st ms st' x : wf d -> ready d -> ts_ok d ts -> sequence_last d = Ok kl ->
    vsays d kmax cb ind (schedule d ts (kl + 1)) st ms st' ->
    (In x ms <-> exists n m, stops d kmax n = false /\ follows d n m
                 /\ In x (tell d cb n m (xg (s_xyz st') n) (xg (s_res st') m))).
  Proof.
    intros W R Hts Ekl V. assert (Vs := vsays_vsteps _ _ _ _ _ _ _ _ V).
    assert (At : forall l1 n l2 m1 sa m2 m, schedule d ts (kl + 1) = l1 ++ n :: l2 -> vsays d kmax cb ind l1 st m1 sa ->
      vsays d kmax cb ind (n :: l2) sa m2 st' -> stops d kmax n = false -> follows d n m ->
      tell d cb n m (xg (s_xyz sa) n) (rout d n (xg (s_res sa) n) (s_xyz sa) ind) = tell d cb n m (xg (s_xyz st') n) (xg (s_res st') m)).
    { intros l1 n l2 m1 sa m2 m E Va Vb St F. apply vsays_vsteps in Va, Vb. rewrite E in Vs.
      destruct (visits_at d ts kmax ind (kl + 1) l1 n l2 st st' W R Hts E Vs sa Va Vb) as (_&_&X2&X3).
      destruct (proj2 X3 m St F) as (_&<-&_). f_equal. unfold xg.
      destruct (ready_kof d n R (proj1 (follows_nodes d n m R F))) as (kn&Ekn&_).
      now rewrite (proj1 (X2 n kn kn Ekn Ekn (Z.le_refl _))). }
    split.
    - intros J. destruct (vsays_from _ _ _ _ _ _ _ _ _ V J) as (l1&n&l2&m1&sa&m2&m&E&Va&Vb&St&F&J').
      rewrite (At _ _ _ _ _ _ _ E Va Vb St F) in J'. eauto.
    - intros (n&m&St&F&J). assert (I := schedule_all d ts kl n W R Hts Ekl (proj1 (follows_nodes d n m R F))).
      apply in_split in I as (l1&l2&E). rewrite E in V. apply vsays_split in V as (m1&sa&m2&Va&Vb&->).
      assert (Q := At _ _ _ _ _ _ _ E Va Vb St F). rewrite <- Q in J.
      inversion Vb as [|? ? ? ma sb mb ? I1 D S V']; subst. destruct S as [St'|m' St' F']; [congruence|].
      rewrite <- (follows_fun d n m m' R F F'). apply in_or_app. right. apply in_or_app. now left.
  Qed.

  (** ** All iterations *)

  Fixpoint after_out d (ts : dict Z (dict Z Z)) kmax cb (t : nat) : out (eqstate T) :=
    match t with
    | O => oret (init_state d)
    | S t => let+ st := after_out d ts kmax cb t in sweep_out d ts kmax cb (negb (Nat.eqb t 0)) st
    end.

  Lemma after_out_same d ts kmax cb t : snd (after_out d ts kmax cb t) = after d ts kmax t.
  Proof. induction t as [|t IH]; cbn; auto. apply obind_bind; auto. intros st. apply sweep_same. Qed.

  Lemma iterate_after d ts kmax cb eta n : forall t x st m0 ms st' ot x', after_out d ts kmax cb t = (m0, Ok st) ->
    iterate_out d ts kmax cb eta n t x st = (ms, Ok (st', ot, x')) ->
    match ot with
    | Some s => after_out d ts kmax cb (S s) = (m0 ++ ms, Ok st')
    | None => (t + n)%nat = 0%nat
    end.
  Proof.
    induction n as [|n IH]; intros t x st m0 ms st' ot x' A E; cbn [iterate_out] in E.
    - unfold oret in E. injection E as <- <- <- <-. destruct t as [|t]; [lia|]. now rewrite app_nil_r.
    - apply obind_Ok in E as (m1&st1&m2&E1&E&->).
      assert (A1 : after_out d ts kmax cb (S t) = (m0 ++ m1, Ok st1)).
      { cbn [after_out]. rewrite A. unfold obind. cbn [fst snd]. now rewrite E1. }
      destruct (Nat.eqb t 0).
      + apply IH with (1 := A1) in E. destruct ot; [now rewrite app_assoc|lia].
      + apply obind_Ok in E as (m3&y&m4&E3&E&->). unfold olift in E3. injection E3 as <- E3.
        destruct (nltb y eta).
        * unfold oret in E. injection E as <- <- <- <-. now rewrite app_nil_r.
        * apply IH with (1 := A1) in E. destruct ot; [now rewrite app_assoc|lia].
  Qed.

  Lemma state_out_Ok d kmax tmax eta verbose cb ms st : equilibrium_state_out d kmax tmax eta verbose cb = (ms, Ok st) ->
    exists ts t m1, trails_sequences d = Ok ts /\ after_out d ts kmax cb (S t) = (m1, Ok st)
      /\ ms = m1 ++ (if verbose then [Completed t] else []).
  Proof.
    unfold equilibrium_state_out. destruct (negb _); [discriminate|]. intros E.
    apply obind_Ok in E as (q1&ts&q2&E1&E&->). unfold olift in E1. injection E1 as <- E1.
    apply obind_Ok in E as (q3&kl&q4&E2&E&->). unfold olift in E2. injection E2 as <- E2.
    destruct (match kmax with Some km => _ | None => _ end); [discriminate|].
    apply obind_Ok in E as (m1&[[st1 ot] x]&q5&E3&E&->). apply iterate_after with (m0 := []) in E3; [|reflexivity].
    destruct ot as [t|]; [|discriminate]. apply obind_Ok in E as (q6&[]&q7&E4&E&->).
    apply obind_Ok in E as (q8&[]&q9&E5&E&->). unfold oret in E. injection E as <- <-. cbn [app] in *.
    exists ts, t, m1. split; auto. split; auto. f_equal.
    assert (Q6 : q6 = []).
    { destruct (negb (Nat.eqb t 0)); [|unfold oret in E4; now injection E4].
      destruct x as [x|]; [|discriminate]. destruct (nltb eta x); [discriminate|]. unfold oret in E4. now injection E4. }
    subst q6. rewrite app_nil_r. cbn [app]. destruct verbose.
    - destruct x; [|discriminate]. unfold osay in E5. now injection E5.
    - unfold oret in E5. now injection E5.
  Qed.

  Lemma after_said d ts kmax cb x : wf d -> ready d -> ts_ok d ts -> forall t,
    In x (fst (after_out d ts kmax cb t)) <-> exists j st', (j < t)%nat /\ after d ts kmax (S j) = Ok st'
      /\ exists n m, stops d kmax n = false /\ follows d n m /\ In x (tell d cb n m (xg (s_xyz st') n) (xg (s_res st') m)).
  Proof.
    intros W R Hts. destruct (ready_last d W R) as (kl&Ekl&_). induction t as [|t IH].
    - cbn. split; [intros []|]. intros (j&_&L&_). lia.
    - destruct (after_total d ts kmax W R Hts t) as (st&E&I). cbn [after_out]. rewrite <- (after_out_same d ts kmax cb) in E.
      unfold obind. rewrite E. cbn [fst]. rewrite in_app_iff, IH. rewrite after_out_same in E.
      destruct (sweep_says d ts kmax cb (negb (t =? 0)%nat) kl st W R Hts Ekl (inv_dom _ _ I)) as (ms&st'&Es&V&D').
      rewrite Es. cbn [fst]. rewrite (sweep_said d ts kmax cb _ kl st ms st' x W R Hts Ekl V).
      assert (E1 : after d ts kmax (S t) = Ok st').
      { rewrite <- (after_out_same d ts kmax cb). cbn [after_out]. rewrite obind_snd, after_out_same, E. cbn [bind]. now rewrite Es. }
      split.
      + intros [(j&s&L&A&X)|X]; [exists j, s|exists t, st']; split; auto.
      + intros (j&s&L&A&X). destruct (Nat.eq_dec j t) as [->|]; [right|left].
        * rewrite E1 in A. now injection A as <-.
        * exists j, s. split; [lia|auto].
  Qed.

  (** ** How often the callback is called *)

  Lemma tell_warns d cb n m p r : exists ws, tell d cb n m p r = ws ++ (if cb then [Called] else [])
    /\ forall x, In x ws -> x = NoIntersection (trail_edge_key d n m) \/ x = Flipped (trail_edge_key d n m).
  Proof.
    unfold tell, trail_edge_length_out. eexists. split; [reflexivity|]. intros x.
    destruct (ea_plane _) as [pl|]; [|intros []].
    destruct (trail_length_from_plane p r pl neps6) as [y|].
    - destruct (ntruthy y).
      + destruct (nltb _ _); [|intros []]. intros [<-|[]]. auto.
      + intros [<-|[]]. auto.
    - intros [<-|[]]. auto.
  Qed.

  Lemma calls_app m1 m2 : calls (m1 ++ m2) = (calls m1 + calls m2)%nat.
  Proof. unfold calls. now rewrite filter_app, app_length. Qed.

  Lemma calls_tell d cb n m p r : calls (tell d cb n m p r) = if cb then 1%nat else 0%nat.
  Proof.
    destruct (tell_warns d cb n m p r) as (ws&->&X). rewrite calls_app.
    assert (Q : calls ws = 0%nat); [|rewrite Q; now destruct cb].
    unfold calls. induction ws as [|w ws IH]; auto. cbn [filter].
    destruct (X w (or_introl eq_refl)) as [->| ->]; cbn; apply IH; intros y J; apply X; now right.
  Qed.

  Lemma calls_sweep d kmax ind l st ms st' : vsays d kmax true ind l st ms st' ->
    calls ms = length (filter (fun n => negb (stops d kmax n)) l).
  Proof.
    intros V. induction V as [|n l st m1 st1 ms st' I D S V IH]; auto. rewrite calls_app, IH. cbn [filter].
    destruct S as [St|m St F]; rewrite St; cbn; auto. now rewrite calls_tell.
  Qed.

  Lemma called_false d ts kmax t : calls (fst (after_out d ts kmax false t)) = 0%nat.
  Proof.
    induction t as [|t IH]; auto. cbn [after_out]. unfold obind. destruct (snd (after_out d ts kmax false t)) as [st|]; auto.
    cbn [fst]. rewrite calls_app, IH.
    assert (F : forall A S (f : S -> A -> out S) l s, (forall s a, calls (fst (f s a)) = 0%nat) -> calls (fst (ofold f l s)) = 0%nat).
    { intros A S f l. induction l as [|a l IHl]; intros s X; auto. cbn [ofold]. unfold obind. specialize (X s a) as X1.
      destruct (snd (f s a)); auto. cbn [fst]. rewrite calls_app, X1, IHl; auto. }
    unfold sweep_out, obind. destruct (snd (olift (number_of_sequences d))); auto. cbn [fst olift app]. apply F. intros s k. apply F.
    intros s' key. unfold visit_out, obind, olift. cbn [fst snd].
    destruct (dgetr ts key) as [mm|]; auto. cbn [app]. destruct (dget mm k) as [nd|]; auto. cbn [fst snd].
    destruct (dgetr (s_xyz s') nd); auto. cbn [fst snd app]. destruct (dgetr (s_res s') nd); auto. cbn [fst snd app].
    destruct (node_equilibrium _ _ _ _ _); auto. cbn [fst snd app]. destruct (is_node_support d nd); auto. cbn [fst snd app].
    destruct (_ || _); auto. destruct (dgetr mm (k + 1)) as [nx|]; auto. cbn [fst snd app].
    destruct (edge_get d _) as [ae|]; auto. cbn [fst snd app]. rewrite length_same. cbn [oret fst snd app]. rewrite app_nil_r.
    unfold trail_edge_length_out. destruct (ea_plane ae) as [pl|]; auto. destruct (trail_length_from_plane _ _ pl neps6) as [y|]; auto.
    destruct (ntruthy y); auto. destruct (nltb _ _); auto.
  Qed.

  Lemma calls_after d ts kmax : wf d -> ready d -> ts_ok d ts -> forall t,
    calls (fst (after_out d ts kmax true t)) = (t * length (filter (fun n => negb (stops d kmax n)) (nodes d)))%nat.
  Proof.
    intros W R Hts. destruct (ready_last d W R) as (kl&Ekl&_). induction t as [|t IH]; auto.
    destruct (after_total d ts kmax W R Hts t) as (st&E&I). cbn [after_out]. rewrite <- (after_out_same d ts kmax true) in E.
    unfold obind. rewrite E. cbn [fst]. rewrite calls_app, IH.
    destruct (sweep_says d ts kmax true (negb (t =? 0)%nat) kl st W R Hts Ekl (inv_dom _ _ I)) as (ms&st'&Es&V&D').
    rewrite Es. cbn [fst]. rewrite (calls_sweep _ _ _ _ _ _ _ V). cbn [Nat.mul].
    assert (P : Permutation (schedule d ts (kl + 1)) (nodes d)).
    { apply NoDup_Permutation; [now apply NoDup_schedule|apply (wf_nodup _ W)|]. intros n. split.
      - intros J. now apply In_schedule in J.
      - now apply schedule_all. }
    assert (Q : length (filter (fun n => negb (stops d kmax n)) (schedule d ts (kl + 1)))
      = length (filter (fun n => negb (stops d kmax n)) (nodes d))); [|rewrite Q; lia].
    clear - P. induction P; cbn; auto; try congruence.
    - destruct (negb _); cbn; auto.
    - destruct (negb (stops d kmax x)), (negb (stops d kmax y)); auto.
  Qed.

  (** ** Stopping after fewer iterations *)

  Lemma iterate_fuel d ts kmax cb eta n : forall t x st ms st' s x',
    iterate_out d ts kmax cb eta n t x st = (ms, Ok (st', Some s, x')) ->
    (t <= S s <= t + n)%nat /\ ((2 <= t + n -> 1 <= t + n - 1 -> t <= 1 -> 1 <= s))%nat
    /\ iterate_out d ts kmax cb eta (S s - t) t x st = (ms, Ok (st', Some s, x')).
  Proof.
    induction n as [|n IH]; intros t x st ms st' s x' E.
    - cbn in E. unfold oret in E. injection E as <- <- Es <-. destruct t as [|t]; [discriminate|]. injection Es as <-.
      split; [lia|]. split; [lia|]. replace (S t - S t)%nat with 0%nat by lia. reflexivity.
    - cbn [iterate_out] in E. apply obind_Ok in E as (m1&st1&m2&E1&E&->).
      assert (Rest : forall y, iterate_out d ts kmax cb eta n (S t) y st1 = (m2, Ok (st', Some s, x')) ->
        (Nat.eqb t 0 = true \/ exists z, residual_distance (s_xyz st) (s_xyz st1) = Ok z /\ nltb z eta = false /\ y = Some z) ->
        (Nat.eqb t 0 = true -> y = x) ->
        (t <= S s <= t + S n)%nat /\ ((2 <= t + S n -> 1 <= t + S n - 1 -> t <= 1 -> 1 <= s))%nat
        /\ iterate_out d ts kmax cb eta (S s - t) t x st = (m1 ++ m2, Ok (st', Some s, x'))).
      { intros y Ey Hy H0. destruct (IH _ _ _ _ _ _ _ Ey) as (L&Q&F). split; [lia|]. split.
        - intros A _ B. destruct n as [|n]; [|destruct (Nat.eq_dec t 0) as [->|]; [apply Q; lia|lia]]. lia.
        - replace (S s - t)%nat with (S (S s - S t)) by lia. cbn [iterate_out]. rewrite E1. unfold obind at 1. cbn [fst snd].
          destruct (Nat.eqb t 0) eqn:Et.
          + rewrite <- (H0 eq_refl), F. reflexivity.
          + destruct Hy as [|(z&Ez&Lz&->)]; [discriminate|]. rewrite Ez, obind_lift, Lz, F. reflexivity. }
      destruct (Nat.eqb t 0) eqn:Et.
      + apply (Rest x); auto.
      + apply obind_Ok in E as (m3&y&m4&E3&E&->). unfold olift in E3. injection E3 as <- E3. cbn [app] in *.
        destruct (nltb y eta) eqn:Ly.
        * unfold oret in E. injection E as <- <- <- <-. apply Nat.eqb_neq in Et as Nt.
          split; [lia|]. split; [lia|]. replace (S t - t)%nat with 1%nat by lia. cbn [iterate_out]. rewrite Et, E1. unfold obind at 1. cbn [fst snd].
          rewrite E3, obind_lift, Ly. reflexivity.
        * apply (Rest (Some y)); auto. right. eauto. discriminate.
  Qed.

  Lemma iterate_total d ts kmax cb eta n : wf d -> ready d -> ts_ok d ts -> forall t x st, after d ts kmax t = Ok st ->
    exists ms st' ot x', iterate_out d ts kmax cb eta n t x st = (ms, Ok (st', ot, x')).
  Proof.
    intros W R Hts. induction n as [|n IH]; intros t x st A; [do 4 eexists; reflexivity|]. cbn [iterate_out].
    destruct (after_total d ts kmax W R Hts (S t)) as (st1&E1&I1). assert (E := E1). cbn [after] in E. rewrite A in E. cbn [bind] in E.
    rewrite <- (sweep_same d ts kmax cb) in E. apply pair_snd in E. rewrite E.
    assert (C : forall y, exists ms st' ot x', (let+ st0 := (fst (sweep_out d ts kmax cb (negb (t =? 0)%nat) st), Ok st1) in
      iterate_out d ts kmax cb eta n (S t) y st0) = (ms, Ok (st', ot, x'))).
    { intros y. destruct (IH (S t) y st1 E1) as (ms&st'&ot&x'&F). unfold obind. cbn [fst snd]. rewrite F. cbn [fst snd]. do 4 eexists. reflexivity. }
    destruct (Nat.eqb t 0); [apply C|]. assert (I0 := after_inv d ts kmax t st W A).
    destruct (residual_total d (s_xyz st) (s_xyz st1) (iv_xyz _ _ I0) (iv_xyz _ _ I1) (wf_nodup _ W)) as (y&Ey).
    destruct (C (Some y)) as (ms&st'&ot&x'&F). unfold obind in F |- *. cbn [fst snd] in F |- *. rewrite Ey. unfold olift. cbn [fst snd app].
    destruct (nltb y eta); cbn [fst snd]; [do 4 eexists; reflexivity|]. rewrite F. do 4 eexists. reflexivity.
  Qed.

  Lemma not_stopped d : wf d -> ready d -> forall n, stops d None n = is_sup d n.
  Proof. intros W R n. unfold stops. apply orb_false_r. Qed.

  Lemma trail_edges_moving d : reachable d -> ready d ->
    Z.of_nat (length (filter (fun n => negb (stops d None n)) (nodes d))) = number_of_trail_edges d.
  Proof.
    intros Hr R. apply reachable_wf in Hr as W. destruct (c81_ready d Hr R) as [A B]. rewrite A in B.
    unfold number_of_support_nodes in B.
    assert (S : length (support_nodes d) = length (filter (is_sup d) (nodes d))).
    { destruct (c67_nodes d (or_introl Hr)) as (N&_&In1&_).
      apply same_length; [exact N|apply NoDup_filter, (wf_nodup _ W)|]. intros n. rewrite filter_In, <- (In_support_nodes d n W).
      split; [|tauto]. intros J. split; auto. now apply In1. }
    rewrite S in B.
    assert (P : (length (filter (is_sup d) (nodes d)) + length (filter (fun n => negb (stops d None n)) (nodes d)) = length (nodes d))%nat).
    { clear. induction (nodes d) as [|n l IH]; auto. cbn [filter]. unfold stops at 1. rewrite orb_false_r.
      destruct (is_sup d n); cbn; lia. }
    lia.
  Qed.

  (** C90: the callback is called once for every trail edge, in each of the [p] iterations that are made;
      without a callback nothing is called.  The message at the end gives [p - 1]. *)
  Lemma c90_calls_partial : forall d tmax eta verbose callback, reachable d -> ready d -> 1 <= tmax ->
    let run := static_equilibrium_out d None tmax eta verbose callback in
    exists p, 1 <= p <= tmax /\ (2 <= tmax -> 2 <= p)
      /\ run = static_equilibrium_out d None p eta verbose callback
      /\ Z.of_nat (calls (said run)) = (if callback then p * number_of_trail_edges d else 0)
      /\ forall t, In (Completed t) (said run) <-> verbose = true /\ (exists form, outcome run = Ok form) /\ Z.of_nat t = p - 1.
  Proof.
    intros d tmax eta verbose callback Hr R L run. apply reachable_wf in Hr as W.
    destruct (ready_ts d W R) as (ts&Ets&Hts). destruct (ready_last d W R) as (kl&Ekl&_).
    destruct (iterate_total d ts None callback eta (Z.to_nat tmax) W R Hts 0 None (init_state d) eq_refl) as (ms&st&ot&x&Ei).
    assert (A := iterate_after d ts None callback eta _ 0 None (init_state d) [] ms st ot x eq_refl Ei).
    destruct ot as [s|]; [|lia]. cbn [app] in A. destruct (iterate_fuel _ _ _ _ _ _ _ _ _ _ _ _ _ Ei) as (B&B2&F).
    rewrite Nat.sub_0_r in F.
    assert (X : (0 <? number_of_trails d) = true).
    { apply Z.ltb_lt. unfold number_of_trails. assert (Y := rd_some _ R). unfold trails in Y.
      destruct (d_trails d); [congruence|cbn; lia]. }
    assert (Same : run = static_equilibrium_out d None (Z.of_nat (S s)) eta verbose callback).
    { unfold run, static_equilibrium_out. f_equal. unfold equilibrium_state_out. rewrite X, Ets, Ekl. cbn [negb].
      rewrite !obind_lift, Nat2Z.id, Ei, F. reflexivity. }
    assert (Fin : exists ms', said run = ms ++ ms'
      /\ (forall t, In (Completed t) ms' <-> verbose = true /\ (exists form, outcome run = Ok form) /\ t = s)
      /\ calls ms' = 0%nat).
    { assert (U : forall st, inv d st -> exists form, form_update st (form_of_topology d) = (form, Ok tt)).
      { intros q Q. destruct (form_update_spec d q W Q) as (f&Ef&_). eauto. }
      assert (Is : inv d st) by (eapply after_inv; [exact W|]; rewrite <- (after_out_same d ts None callback), A; reflexivity).
      destruct (U st Is) as (form&Ef).
      unfold run, static_equilibrium_out, equilibrium_state_out, said, outcome. rewrite X, Ets, Ekl. cbn [negb]. rewrite !obind_lift, Ei.
      unfold obind. cbn [fst snd app].
      destruct (negb (Nat.eqb s 0)); [destruct x as [x|]; [destruct (nltb eta x)|]|]; cbn [fst snd oret olift app].
      1, 3: exists []; rewrite ?app_nil_r; split; [reflexivity|]; split; [|reflexivity]; intros t; cbn; split; [intros []|];
        intros (_&(f&Q)&_); discriminate.
      1: destruct verbose. 3: destruct verbose; [destruct x as [y|]|].
      all: cbn [fst snd oret olift osay app]; rewrite ?Ef; cbn [fst snd oret olift osay app]; rewrite ?app_nil_r.
      1, 3: exists [Completed s]; split; [reflexivity|]; split; [|reflexivity]; intros t; cbn; split;
        [intros [Q|[]]; injection Q as ->; eauto|intros (_&_&->); now left].
      all: exists []; rewrite ?app_nil_r; split; [reflexivity|]; split; [|reflexivity]; intros t; cbn; split; [intros []|];
        intros (Q1&(f&Q)&_); discriminate. }
    destruct Fin as (ms'&Es&Ec&Ek). exists (Z.of_nat (S s)). split; [lia|]. split; [lia|]. split; [exact Same|]. split.
    - rewrite Es, calls_app, Ek. assert (M : ms = fst (after_out d ts None callback (S s))) by (now rewrite A). destruct callback.
      + rewrite M, (calls_after d ts None W R Hts). rewrite <- (trail_edges_moving d Hr R). lia.
      + now rewrite M, called_false.
    - intros t. rewrite Es, in_app_iff, Ec. split.
      + intros [J|(Q1&Q2&->)]; [|split; [exact Q1|]; split; [exact Q2|lia]]. exfalso.
        assert (J' : In (Completed t) (fst (after_out d ts None callback (S s)))) by (now rewrite A).
        apply (after_said d ts None callback _ W R Hts) in J' as (j&st'&_&_&n&m&_&_&J').
        destruct (tell_warns d callback n m (xg (s_xyz st') n) (xg (s_res st') m)) as (ws&Ew&Hw). rewrite Ew in J'.
        apply in_app_or in J' as [J'|J']; [destruct (Hw _ J'); discriminate|]. destruct callback; [destruct J' as [J'|[]]; discriminate|destruct J'].
      + intros (Q1&Q2&Q3). right. split; [exact Q1|]. split; [exact Q2|lia].
  Qed.

  (** Everything that is said comes from an iteration, or is the message at the end. *)
  Lemma run_from d kmax tmax eta verbose cb x : wf d -> ready d ->
    In x (said (static_equilibrium_out d kmax tmax eta verbose cb)) ->
    (exists t, x = Completed t)
    \/ exists ts j st, trails_sequences d = Ok ts /\ ts_ok d ts /\ after d ts kmax (S j) = Ok st
        /\ exists n m, stops d kmax n = false /\ follows d n m /\ In x (tell d cb n m (xg (s_xyz st) n) (xg (s_res st) m)).
  Proof.
    intros W R. destruct (ready_ts d W R) as (ts&Ets&Hts). destruct (ready_last d W R) as (kl&Ekl&_).
    destruct (iterate_total d ts kmax cb eta (Z.to_nat tmax) W R Hts 0 None (init_state d) eq_refl) as (ms&st&ot&y&Ei).
    assert (A := iterate_after d ts kmax cb eta _ 0 None (init_state d) [] ms st ot y eq_refl Ei).
    assert (Ms : In x ms -> exists ts j st, trails_sequences d = Ok ts /\ ts_ok d ts /\ after d ts kmax (S j) = Ok st
        /\ exists n m, stops d kmax n = false /\ follows d n m /\ In x (tell d cb n m (xg (s_xyz st) n) (xg (s_res st) m))).
    { intros J. destruct ot as [s|].
      - cbn [app] in A. assert (J' : In x (fst (after_out d ts kmax cb (S s)))) by (now rewrite A).
        apply (after_said d ts kmax cb _ W R Hts) in J' as (j&st'&_&E&Q). exists ts, j, st'. auto.
      - cbn in A. rewrite A in Ei. cbn in Ei. unfold oret in Ei. injection Ei as <- _ _. destruct J. }
    unfold static_equilibrium_out, equilibrium_state_out, said. rewrite Ets, Ekl.
    destruct (negb _); [intros []|]. rewrite !obind_lift. destruct (match kmax with Some km => _ | None => _ end); [intros []|].
    rewrite Ei. unfold obind. cbn [fst snd app].
    assert (Tl : forall A (q : A) l, (forall z, In z l -> exists t, z = Completed t) -> In x (ms ++ l) ->
      (exists t, x = Completed t) \/ In x ms).
    { intros _ _ l Hl J. apply in_app_or in J as [J|J]; auto. }
    assert (Nl : forall z : message, In z [] -> exists t, z = Completed t) by (intros z []).
    assert (Cl : forall s (z : message), In z [Completed s] -> exists t, z = Completed t) by (intros s z [<-|[]]; eauto).
    intros J. assert (K : (exists t, x = Completed t) \/ In x ms); [|destruct K as [K|K]; [left; exact K|right; rewrite <- Ets; exact (Ms K)]]. revert J.
    assert (Fu : forall q, fst (match form_update q (form_of_topology d) with
        | (form, Ok tt) => oret form | (_, Err e) => olift (Err e) end) = []).
    { intros q. destruct (form_update q (form_of_topology d)) as [f [[]|e]]; reflexivity. }
    destruct ot as [s|]; cbn [fst snd olift]; [|rewrite ?app_nil_r; auto].
    destruct (negb (Nat.eqb s 0)); [destruct y as [y|]; [destruct (nltb eta y)|]|]; destruct verbose; try destruct y as [y|];
      cbn [fst snd oret olift osay app]; rewrite ?Fu, ?app_nil_r; auto; apply (Tl _ tt); try exact (Cl s); auto.
  Qed.

  (** C89: warnings name trail edges that have a plane. *)
  Lemma c89_only : forall d kmax tmax eta verbose callback x e, reachable d -> ready d ->
    In x (said (static_equilibrium_out d kmax tmax eta verbose callback)) -> warns x e ->
    In e (trail_edges d) /\ exists plane, edge_plane d e = Ok (Some plane).
  Proof.
    intros d kmax tmax eta verbose cb x e Hr R J Wx. apply reachable_wf in Hr as W.
    destruct (run_from d kmax tmax eta verbose cb x W R J) as [(t&->)|(ts&j&st&_&_&_&n&m&_&F&J')]; [destruct Wx; discriminate|].
    destruct (trail_key_edge d n m W R F) as (a&Ea&Ta&_).
    assert (Q : e = trail_edge_key d n m /\ exists pl, ea_plane a = Some pl).
    { unfold tell, ea, trail_edge_length_out in J'. rewrite Ea in J'. apply in_app_or in J' as [J'|J'].
      - destruct (ea_plane a) as [pl|]; [|destruct J']. split; [|eauto].
        destruct (trail_length_from_plane _ _ pl neps6) as [y|]; [destruct (ntruthy y); [destruct (nltb _ _)|]|];
          cbn in J'; (contradiction || (destruct J' as [<-|[]]; destruct Wx as [Q|Q]; try discriminate; now injection Q)).
      - exfalso. destruct cb; [destruct J' as [<-|[]]; destruct Wx; discriminate|destruct J']. }
    destruct Q as [-> (pl&Pl)]. split.
    - apply In_trail_edges; auto. exists a. auto.
    - exists pl. unfold edge_plane, edge_get. rewrite Ea. cbn. now rewrite Pl.
  Qed.
End Thms.

(** ** Over the real numbers *)

Lemma run_said d tmax eta verbose cb form : reachable d -> ready d ->
  outcome (static_equilibrium_out d None tmax eta verbose cb) = Ok form ->
  exists r : Z -> rvec,
    (forall n m, follows d n m -> let e := trail_edge_key d n m in
       position form m = position form n +v trail_edge_length (ea d e) (position form n) (r m) *v unitv (r m)
       /\ force form e = ncopysign (norm (r m)) (trail_edge_length (ea d e) (position form n) (r m)))
    /\ (forall n m x, follows d n m -> In x (tell d cb n m (position form n) (r m)) ->
          In x (said (static_equilibrium_out d None tmax eta verbose cb)))
    /\ (direct_only d -> forall x, In x (said (static_equilibrium_out d None tmax eta verbose cb)) ->
          (exists t, x = Completed t) \/ exists n m, follows d n m /\ In x (tell d cb n m (position form n) (r m))).
Proof.
  intros Hr R E. apply reachable_wf in Hr as W. assert (E' := E). rewrite c89_same in E'.
  destruct (static_formed d None tmax eta verbose form W R E') as (st&Es&Fm).
  rewrite <- (state_same d None tmax eta verbose cb) in Es. apply pair_snd in Es.
  destruct (state_out_Ok _ _ _ _ _ _ _ _ Es) as (ts&t&m1&Ets&A&Ms).
  destruct (ready_ts d W R) as (ts'&Ets'&Hts). rewrite Ets in Ets'. apply Ok_inj in Ets'. subst ts'.
  assert (A' : after d ts None (S t) = Ok st) by (rewrite <- (after_out_same d ts None cb), A; reflexivity).
  destruct (after_total d ts None W R Hts t) as (s0&E0&_). assert (Sw := after_swept d ts None t s0 st W R Hts E0 A').
  assert (Sn : forall n m, follows d n m -> stops d None n = false).
  { intros n m F. unfold stops. rewrite orb_false_r. destruct (is_sup d n) eqn:Q; auto. destruct (sup_not_follows d n m W R Q F). }
  exists (fun m => xg (s_res st) m). split; [|split].
  - intros n m F. cbn zeta. destruct (follows_nodes d n m R F) as [I1 I2].
    destruct (sw_visit _ _ _ _ _ Sw n I1) as (w&_&_&_&_&X). cbn zeta in X. destruct (X m (Sn n m F) F) as (X1&X2&X3&_).
    rewrite X2, (fm_position _ _ _ Fm m I2), (fm_position _ _ _ Fm n I1). split; [exact X1|].
    destruct (trail_key_edge d n m W R F) as (a&Ea&Ta&_).
    rewrite (fm_force _ _ _ Fm) by (apply In_edges; auto; apply has_edge_find; eauto). now rewrite X3.
  - intros n m x F J. destruct (follows_nodes d n m R F) as [I1 I2]. rewrite (fm_position _ _ _ Fm n I1) in J.
    assert (K : In x (fst (after_out d ts None cb (S t)))).
    { apply (after_said d ts None cb x W R Hts). exists t, st. split; [lia|]. split; [exact A'|]. exists n, m. eauto. }
    rewrite A in K. cbn [fst] in K. unfold said, static_equilibrium_out. rewrite Es. unfold obind. cbn [fst snd].
    rewrite Ms. apply in_or_app. left. apply in_or_app. now left.
  - intros Di x J. destruct (run_from d None tmax eta verbose cb x W R J) as [Q|(ts'&j&st'&Ets'&_&Ej&n&m&_&F&J')]; [now left|].
    right. exists n, m. split; [exact F|]. rewrite Ets in Ets'. apply Ok_inj in Ets'. subst ts'.
    rewrite (direct_after d ts None j W R Hts Di) in Ej. rewrite (direct_after d ts None t W R Hts Di) in A'.
    assert (Q : st' = st) by congruence. subst st'. rewrite (fm_position _ _ _ Fm n); auto. apply (follows_nodes d n m R F).
Qed.

Lemma tell_flipped d cb n m (p r : rvec) e : In (Flipped e) (tell d cb n m p r) <->
  e = trail_edge_key d n m /\ exists pl y, ea_plane (ea d e) = Some pl /\ trail_length_from_plane p r pl (/ 1000000)%R = Some y
    /\ (y <> 0 /\ y * ea_length (ea d e) < 0)%R.
Proof.
  unfold tell, trail_edge_length_out. rewrite in_app_iff. change (@neps6 _ R_ops) with (/ 1000000)%R.
  assert (C : ~ In (Flipped e) (if cb then [Called] else [])) by (destruct cb; [intros [Q|[]]; discriminate|intros []]).
  split.
  - intros [J|J]; [|destruct (C J)]. destruct (ea_plane (ea d (trail_edge_key d n m))) as [pl|] eqn:Pl; [|destruct J].
    destruct (trail_length_from_plane p r pl (/ 1000000)%R) as [y|] eqn:Ey; [|destruct J as [J|[]]; discriminate].
    unfold ntruthy in J. cbn [neqb n0 nltb nmul R_ops] in J. destruct (Reqb_spec y 0) as [|Ny]; cbn [negb] in J; [destruct J as [J|[]]; discriminate|].
    destruct (Rltb_spec (y * ea_length (ea d (trail_edge_key d n m))) 0) as [L|]; [|destruct J].
    destruct J as [J|[]]. injection J as <-. split; auto. exists pl, y. auto.
  - intros (->&pl&y&Pl&Ey&Ny&L). left. rewrite Pl, Ey. unfold ntruthy. cbn [neqb n0 nltb nmul R_ops].
    destruct (Reqb_spec y 0); [contradiction|]. cbn [negb].
    destruct (Rltb_spec (y * ea_length (ea d (trail_edge_key d n m))) 0); [now left|contradiction].
Qed.

Lemma tell_missed d cb n m (p r : rvec) e : In (NoIntersection e) (tell d cb n m p r) <->
  e = trail_edge_key d n m /\ exists pl, ea_plane (ea d e) = Some pl
    /\ (trail_length_from_plane p r pl (/ 1000000)%R = None \/ trail_length_from_plane p r pl (/ 1000000)%R = Some 0%R).
Proof.
  unfold tell, trail_edge_length_out. rewrite in_app_iff. change (@neps6 _ R_ops) with (/ 1000000)%R.
  assert (C : ~ In (NoIntersection e) (if cb then [Called] else [])) by (destruct cb; [intros [Q|[]]; discriminate|intros []]).
  split.
  - intros [J|J]; [|destruct (C J)]. destruct (ea_plane (ea d (trail_edge_key d n m))) as [pl|] eqn:Pl; [|destruct J].
    destruct (trail_length_from_plane p r pl (/ 1000000)%R) as [y|] eqn:Ey.
    + unfold ntruthy in J. cbn [neqb n0 nltb nmul R_ops] in J. destruct (Reqb_spec y 0) as [->|Ny]; cbn [negb] in J.
      * destruct J as [J|[]]. injection J as <-. split; auto. exists pl. auto.
      * destruct (Rltb _ _) in J; (contradiction || (destruct J as [J|[]]; discriminate)).
    + destruct J as [J|[]]. injection J as <-. split; auto. exists pl. auto.
  - intros (->&pl&Pl&Q). left. rewrite Pl. destruct Q as [->| ->]; [now left|]. unfold ntruthy. cbn [neqb n0 R_ops].
    destruct (Reqb_spec 0 0); [now left|congruence].
Qed.

Lemma copysign_product (r : rvec) y l : (@ncopysign _ R_ops (norm r) y * l < 0)%R <-> r <> v0 /\ (if Rlt_dec y 0 then 0 < l else l < 0)%R.
Proof.
  rewrite ncopysign_R. assert (Q : Rabs (norm r) = norm r) by (apply Rabs_right, Rle_ge, norm_nonneg). rewrite Q.
  split.
  - intros L. split.
    + intros ->. rewrite norm_v0 in L. destruct (Rlt_dec y 0); lra.
    + assert (P := norm_nonneg r). destruct (Rlt_dec y 0).
      * destruct (Rlt_le_dec 0 l); auto. nra.
      * destruct (Rlt_le_dec l 0); auto. nra.
  - intros [N L]. apply norm_pos in N. destruct (Rlt_dec y 0); nra.
Qed.

Section Real.
  Variables (d form : diagram R) (tmax : Z) (eta : R) (verbose callback : bool).
  Let run := static_equilibrium_out d None tmax eta verbose callback.
  Variables (n m : Z) (e : ekey) (l : R).
  Hypotheses (Hr : reachable d) (Rd : ready d) (Ef : outcome run = Ok form).
  Hypotheses (F : follows d n m) (B : edge_between d n m e) (Le : edge_length_2 d e = Ok l) (Nl : (l <> 0)%R).
  Let W : wf d := reachable_wf d Hr.

  Lemma at_edge : exists r a, edge_find d e = Some a /\ ea_length a = l
    /\ position form m = position form n +v trail_edge_length a (position form n) r *v unitv r
    /\ force form e = ncopysign (norm r) (trail_edge_length a (position form n) r)
    /\ (forall x, In x (tell d callback n m (position form n) r) -> In x (said run))
    /\ (direct_only d -> forall x, In x (said run) -> warns x e -> In x (tell d callback n m (position form n) r)).
  Proof.
    destruct (run_said d tmax eta verbose callback form Hr Rd Ef) as (r&X&Y&Z). exists (r m).
    assert (Ke := edge_between_key d n m e W Rd F B). destruct (trail_key_edge d n m W Rd F) as (a&Ea&_). rewrite <- Ke in Ea.
    exists a. destruct (X n m F) as [X1 X2]. rewrite <- Ke in X1, X2. unfold ea in X1, X2. rewrite Ea in X1, X2.
    split; [exact Ea|]. split.
    { unfold edge_length_2, edge_get in Le. rewrite Ea in Le. cbn in Le. now injection Le. }
    split; [exact X1|]. split; [exact X2|]. split; [intros x; now apply Y|].
    intros Di x J Wx. destruct (Z Di x J) as [(t&->)|(n'&m'&F'&J')]; [destruct Wx; discriminate|].
    destruct (tell_warns d callback n' m' (position form n') (r m')) as (ws&Ew&Hw).
    assert (Ke' : e = trail_edge_key d n' m').
    { rewrite Ew in J'. apply in_app_or in J' as [J'|J'].
      - destruct (Hw _ J') as [->| ->]; destruct Wx as [Q|Q]; congruence.
      - destruct callback; [destruct J' as [<-|[]]; destruct Wx; discriminate|destruct J']. }
    rewrite Ke in Ke'. apply (trail_key_inj d n m n' m' Rd F F') in Ke' as [<- <-]. exact J'.
  Qed.

  (** C89: a trail edge whose force has not the sign of its input length is told. *)
  Lemma c89_flip : (force form e * l < 0)%R -> In (Flipped e) (said run).
  Proof.
    intros L. destruct at_edge as (r&a&Ea&La&_&Ff&Y&_). apply Y, tell_flipped. split; [now apply edge_between_key|].
    rewrite Ff in L. apply copysign_product in L as [_ L]. unfold ea. rewrite Ea, La. unfold trail_edge_length in L. rewrite La in L.
    change (@neps6 _ R_ops) with (/ 1000000)%R in L.
    destruct (ea_plane a) as [pl|]; [|destruct (Rlt_dec l 0); lra]. exists pl.
    destruct (trail_length_from_plane (position form n) r pl (/ 1000000)%R) as [y|]; [|destruct (Rlt_dec l 0); lra].
    unfold ntruthy in L. cbn [neqb n0 R_ops] in L. destruct (Reqb_spec y 0) as [|Ny]; cbn [negb] in L; [destruct (Rlt_dec l 0); lra|].
    exists y. split; auto. split; auto. split; auto. destruct (Rlt_dec y 0); nra.
  Qed.

  (** C89: where no warning says that the plane is missed, the edge ends on it. *)
  Lemma c89_plane : forall o nrm, edge_plane d e = Ok (Some (o, nrm)) ->
    ~ In (NoIntersection e) (said run) -> on_plane (position form m) o nrm.
  Proof.
    intros o nrm Pl Q. destruct at_edge as (r&a&Ea&La&Fp&_&Y&_).
    unfold edge_plane, edge_get in Pl. rewrite Ea in Pl. cbn in Pl. injection Pl as Pl.
    assert (Q' : ~ In (NoIntersection e) (tell d callback n m (position form n) r)) by (intros J; apply Q, Y, J).
    rewrite tell_missed in Q'. unfold ea in Q'. rewrite Ea, Pl in Q'. unfold trail_edge_length in Fp. rewrite Pl in Fp.
    change (@neps6 _ R_ops) with (/ 1000000)%R in Fp.
    assert (C := c27_plane_intersection (position form n) r o nrm (/ 1000000) ltac:(lra)). rewrite direction_unitv in C.
    destruct (trail_length_from_plane (position form n) r (o, nrm) (/ 1000000)) as [y|] eqn:Ey.
    - unfold ntruthy in Fp. cbn [neqb n0 R_ops] in Fp. destruct (Reqb_spec y 0) as [->|Ny]; cbn [negb] in Fp.
      + exfalso. apply Q'. split; [now apply edge_between_key|]. exists (o, nrm). rewrite Ey. auto.
      + rewrite Fp. now apply (proj2 C y eq_refl).
    - exfalso. apply Q'. split; [now apply edge_between_key|]. exists (o, nrm). auto.
  Qed.

  (** C89: without indirect deviation edges the warnings are exact. *)
  Lemma c89_exact : direct_only d ->
    (In (Flipped e) (said run) <-> (force form e * l < 0)%R)
    /\ forall o nrm, edge_plane d e = Ok (Some (o, nrm)) -> force form e <> 0%R ->
       let u := direction (position form m -v position form n) in
       (In (NoIntersection e) (said run) <-> (Rabs (dot nrm u) < / 1000000)%R \/ on_plane (position form n) o nrm).
  Proof.
    intros Di. split; [split; [|apply c89_flip]|].
    - intros J. destruct at_edge as (r&a&Ea&La&_&Ff&_&Z). apply (Z Di) in J; [|right; reflexivity].
      apply tell_flipped in J as (_&pl&y&Pl&Ey&Ny&L). unfold ea in Pl, L. rewrite Ea in Pl, L. rewrite La in L.
      rewrite Ff. apply copysign_product. unfold trail_edge_length. rewrite Pl. change (@neps6 _ R_ops) with (/ 1000000)%R. rewrite Ey.
      unfold ntruthy. cbn [neqb n0 R_ops]. destruct (Reqb_spec y 0); [contradiction|]. cbn [negb]. split.
      + intros ->. destruct pl as [o nrm]. destruct (proj1 (c27_plane_intersection (position form n) v0 o nrm (/ 1000000) ltac:(lra))) as [_ C].
        rewrite C in Ey; [discriminate|]. rewrite direction_unitv, unitv_v0.
        replace (dot nrm v0) with 0%R by (vunf; ring). rewrite Rabs_R0. lra.
      + destruct (Rlt_dec y 0); nra.
    - intros o nrm Pl Nf u. destruct at_edge as (r&a&Ea&La&Fp&Ff&Y&Z).
      assert (Ff' := Ff). rewrite Ff in Nf. apply copysign_nonzero in Nf as Nr. clear Nf.
      unfold edge_plane, edge_get in Pl. rewrite Ea in Pl. cbn in Pl. injection Pl as Pl.
      assert (Tw : In (NoIntersection e) (said run) <-> In (NoIntersection e) (tell d callback n m (position form n) r)).
      { split; [intros J; apply (Z Di); [exact J|now left]|apply Y]. }
      rewrite Tw, tell_missed. unfold ea. rewrite Ea, Pl. unfold trail_edge_length in Fp. rewrite Pl in Fp.
      change (@neps6 _ R_ops) with (/ 1000000)%R in Fp. unfold u. clear u Tw.
      set (p := position form n) in *. set (q := position form m) in *.
      assert (Ab : forall s, (s <> 0)%R -> q = p +v s *v unitv r -> Rabs (dot nrm (direction (q -v p))) = Rabs (dot nrm (unitv r))).
      { intros s Ns ->. replace (p +v s *v unitv r -v p) with (s *v unitv r) by vring. rewrite direction_unitv.
        destruct (Rlt_dec s 0); [rewrite unitv_neg by auto|rewrite unitv_pos by lra]; rewrite unitv_unitv; auto.
        replace (dot nrm ((-1)%R *v unitv r)) with (- dot nrm (unitv r))%R by (vunf; ring). apply Rabs_Ropp. }
      assert (C := c27_plane_intersection p r o nrm (/ 1000000) ltac:(lra)). rewrite direction_unitv in C.
      assert (Ke := edge_between_key d n m e W Rd F B).
      destruct (trail_length_from_plane p r (o, nrm) (/ 1000000)) as [x|] eqn:Ex.
      + unfold ntruthy in Fp. cbn [neqb n0 R_ops] in Fp. destruct C as [C1 C2].
        assert (Npar : ~ (Rabs (dot nrm (unitv r)) < / 1000000)%R).
        { intros X. apply C1 in X. discriminate. }
        assert (On0 : on_plane p o nrm <-> x = 0%R).
        { specialize (C2 x eq_refl 0%R). replace (p +v 0%R *v unitv r) with p in C2 by vring. rewrite C2. split; auto. }
        destruct (Reqb_spec x 0) as [->|Nx]; cbn [negb] in Fp.
        * split; [intros _; right; now apply On0|]. intros _. split; [exact Ke|]. exists (o, nrm). auto.
        * split.
          -- intros (_&pl&Q&[X|X]); injection Q as <-; rewrite Ex in X; [discriminate|]. injection X as X. contradiction.
          -- intros [X|X]; [|exfalso; now apply Nx, On0]. rewrite (Ab x Nx Fp) in X. contradiction.
      + rewrite La in Fp. destruct C as [C1 _]. assert (X := proj1 C1 eq_refl). split.
        * intros _. left. now rewrite (Ab l Nl Fp).
        * intros _. split; [exact Ke|]. exists (o, nrm). auto.
  Qed.
End Real.

(** C89: what a form is if form finding is silent: the force of every trail edge that carries one has the sign
    of the length it was given, and the trail edges with a plane end on it. *)
Lemma c89_silence : forall d tmax eta verbose callback form n m e l, reachable d -> ready d ->
  let run := static_equilibrium_out d None tmax eta verbose callback in
  outcome run = Ok form -> follows d n m -> edge_between d n m e -> edge_length_2 d e = Ok l -> (l <> 0)%R ->
  (~ In (Flipped e) (said run) -> force form e <> 0%R -> (force form e < 0 <-> l < 0)%R)
  /\ forall o nrm, edge_plane d e = Ok (Some (o, nrm)) -> ~ In (NoIntersection e) (said run) -> on_plane (position form m) o nrm.
Proof.
  intros d tmax eta verbose callback form n m e l Hr R run E F B Le Nl. split.
  - intros Q Nf. assert (X : ~ (force form e * l < 0)%R).
    { intros L. apply Q. exact (c89_flip d form tmax eta verbose callback n m e l Hr R E F B Le Nl L). }
    split; intros Y; nra.
  - intros o nrm Pl Q. exact (c89_plane d form tmax eta verbose callback n m e l Hr R E F B Le o nrm Pl Q).
Qed.

(** C89: without indirect deviation edges warnings are given exactly for the trail edges whose force has not the
    sign of the length they were given, and for those that are parallel to their plane, up to 1e-6, or start on it. *)
Lemma c89_told_partial : forall d tmax eta verbose callback form n m e l, reachable d -> ready d -> direct_only d ->
  let run := static_equilibrium_out d None tmax eta verbose callback in
  outcome run = Ok form -> follows d n m -> edge_between d n m e -> edge_length_2 d e = Ok l -> (l <> 0)%R ->
  (In (Flipped e) (said run) <-> (force form e * l < 0)%R)
  /\ forall o nrm, edge_plane d e = Ok (Some (o, nrm)) -> force form e <> 0%R ->
     let u := direction (position form m -v position form n) in
     (In (NoIntersection e) (said run) <-> (Rabs (dot nrm u) < / 1000000)%R \/ on_plane (position form n) o nrm).
Proof.
  intros d tmax eta verbose callback form n m e l Hr R Di run E F B Le Nl.
  exact (c89_exact d form tmax eta verbose callback n m e l Hr R E F B Le Nl Di).
Qed.
