(** * Properties of the Grasshopper components *)

From Coq Require Import String List ZArith Bool Lia Permutation.
From Verif Require Import Py PyFacts Num Diagram DiagramFacts Topology TopologyFacts History HistoryFacts SpecDiagram SpecTopology DiagramThms WeldFacts
  SpecEquilibrium ReadyThms ChainFacts TopologyThms Components SpecComponents.
Import ListNotations.
Open Scope Z_scope.

Lemma somes_connected {A} (l : list (option A)) : somes l = connected l.
Proof. unfold connected. induction l as [|[a|] l IH]; cbn; congruence. Qed.

Section Components.
  Context {T : Type} `{NumOps T}.
  Implicit Types (d : diagram T).

  (** ** Loops over optional items *)

  Lemma eloop_somes {S A} (f : A -> eff S unit) (l : list (option A)) s :
    eloop (fun _ o => match o with Some a => f a | None => eret tt end) l tt s = eloop (fun _ a => f a) (somes l) tt s.
  Proof.
    revert s. induction l as [|[a|] l IH]; intros s; [reflexivity| |]; cbn [somes eloop]; unfold ebind.
    - destruct (f a s) as [s' [[]|e]]; [apply IH|reflexivity].
    - unfold eret at 1. apply IH.
  Qed.

  Lemma eloop_ext {S A} (f g : A -> eff S unit) l s : (forall a s, f a s = g a s) ->
    eloop (fun _ a => f a) l tt s = eloop (fun _ a => g a) l tt s.
  Proof.
    intros E. revert s. induction l as [|a l IH]; intros s; [reflexivity|]. cbn [eloop]. unfold ebind. rewrite E.
    destruct (g a s) as [s' [[]|e]]; [apply IH|reflexivity].
  Qed.

  Lemma eloop_run {A} (op : A -> op T) l d d' : eloop (fun _ a => call (op a)) l tt d = (d', Ok tt) -> d' = run d (map op l).
  Proof.
    revert d. induction l as [|a l IH]; intros d E; cbn in E; [now inversion E|]. unfold ebind in E.
    change (run d (map op (a :: l))) with (run (fst (call (op a) d)) (map op l)).
    destruct (call (op a) d) as [d1 [[]|e]]; [now apply IH|discriminate E].
  Qed.

  Lemma reachable_run ops : forall d, reachable d -> Forall valid_op ops -> reachable (run d ops).
  Proof.
    induction ops as [|o ops IH]; intros d R V; [exact R|]. inversion V; subst. apply (IH (fst (call o d))); [now apply reachable_step|auto].
  Qed.

  Lemma call_line d a b el d' e : add_edge (RXyz a) (RXyz b) el d = (d', Ok e) -> call (line_op (a, b, el)) d = (d', Ok tt).
  Proof. intros E. cbn. unfold ignore, ebind. cbn. now rewrite E. Qed.

  Lemma lines_run (ls : list line) d : reachable d ->
    eloop (fun _ l => call (line_op l)) ls tt d = (run d (map line_op ls), Ok tt).
  Proof.
    revert d. induction ls as [|[[a b] el] ls IH]; intros d R; [reflexivity|]. cbn [eloop]. unfold ebind.
    assert (R' : reachable (fst (call (line_op (a, b, el)) d))) by now apply reachable_step.
    destruct (c05_add_edge_ends d (RXyz a) (RXyz b) el R) as (d'&u&v&E&_); try discriminate.
    change (run d (map line_op ((a, b, el) :: ls))) with (run (fst (call (line_op (a, b, el)) d)) (map line_op ls)).
    assert (C := call_line _ _ _ _ _ _ E).
    rewrite C in *. now apply IH.
  Qed.

  (** ** Writing attributes at points *)

  Definition mark {A} (pt : A -> vec T) (f : A -> node_attr T -> node_attr T) (x : A) : eff (diagram T) unit :=
    fun d => match node_key d (RXyz (pt x)) with
             | None => (d, Err (ValueError "A node doesn't exist"))
             | Some n => node_set n (f x) d
             end.

  Definition is_key (o : option Z) (n : Z) : bool := match o with Some m => Z.eqb m n | None => false end.

  Lemma marks_Ok {A} (pt : A -> vec T) f l : forall d, wf d -> (forall x, In x l -> node_key d (RXyz (pt x)) <> None) ->
    exists nd, eloop (fun _ x => mark pt f x) l tt d = (with_node d nd, Ok tt) /\ dkeys nd = nodes d
      /\ forall n a, dget (d_node d) n = Some a ->
         dget nd n = Some (fold_left (fun a x => if is_key (node_key d (RXyz (pt x))) n then f x a else a) l a).
  Proof.
    induction l as [|x l IH]; intros d W K.
    - exists (d_node d). split; [now destruct d|]. split; [reflexivity|]. now intros n a E.
    - cbn [eloop]. unfold ebind, mark at 1. destruct (node_key d (RXyz (pt x))) as [m|] eqn:E; [|destruct (K x (or_introl eq_refl) E)].
      assert (Im : In m (nodes d)) by now apply (wf_gkey _ W (gkey d (pt x))).
      destruct (node_find d m Im) as [am Em]. unfold node_set at 1. rewrite Em.
      set (d1 := with_node d (dset (d_node d) m (f x am))).
      assert (N1 : nodes d1 = nodes d) by (apply dkeys_dset_in; exact Im).
      destruct (IH d1) as (nd&El&Nn&G).
      { assert (W1 := wf_node_set m (f x) d W). unfold node_set in W1. now rewrite Em in W1. }
      { intros y I. apply (K y (or_intror I)). }
      exists nd. split; [rewrite El; reflexivity|]. split; [congruence|].
      intros n a Ea. cbn [fold_left]. rewrite E. cbn [is_key]. destruct (Z.eqb_spec m n) as [<-|Ne].
      + rewrite Em in Ea. injection Ea as <-. apply G. apply dget_dset_same.
      + apply G. unfold d1. cbn [with_node d_node]. rewrite dget_dset_other; [exact Ea|congruence].
  Qed.

  Lemma marks_Err {A} (pt : A -> vec T) f l : forall d, wf d -> (exists x, In x l /\ node_key d (RXyz (pt x)) = None) ->
    snd (eloop (fun _ x => mark pt f x) l tt d) = Err (ValueError "A node doesn't exist").
  Proof.
    induction l as [|x l IH]; intros d W (y&I&K); [destruct I|].
    cbn [eloop]. unfold ebind, mark at 1. destruct (node_key d (RXyz (pt x))) as [m|] eqn:E; [|reflexivity].
    assert (Im : In m (nodes d)) by now apply (wf_gkey _ W (gkey d (pt x))).
    destruct (node_find d m Im) as [am Em]. unfold node_set at 1. rewrite Em. apply IH.
    - assert (W1 := wf_node_set m (f x) d W). unfold node_set in W1. now rewrite Em in W1.
    - exists y. split; [|exact K]. destruct I as [->|I]; [congruence|exact I].
  Qed.

  (** ** Assembly *)

  Lemma settings_trans d d1 d2 : same_settings d d1 -> same_settings d1 d2 -> same_settings d d2.
  Proof. unfold same_settings. intuition congruence. Qed.

  Lemma assemble_run n (ls : list (line (T:=T))) : assemble n ls = run (fst (call (OpSetTol n) empty_diagram)) (map line_op ls).
  Proof. reflexivity. Qed.

  Lemma reachable_assemble n (ls : list (line (T:=T))) : reachable (assemble n ls).
  Proof.
    exists (OpSetTol n :: map line_op ls). split; [|reflexivity]. constructor; [exact I|].
    apply Forall_forall. intros o Io. apply in_map_iff in Io as ([[a b] el]&<-&_). exact I.
  Qed.

  Lemma settings_assemble (ls : list (line (T:=T))) : same_settings empty_diagram (assemble 3 ls).
  Proof.
    induction ls as [|l ls IH] using rev_ind; [repeat split|].
    assert (E : assemble 3 (ls ++ [l]) = fst (call (line_op l) (assemble 3 ls))).
    { unfold assemble. rewrite map_app. cbn [map]. rewrite app_comm_cons, run_app. reflexivity. }
    rewrite E. destruct l as [[a b] el].
    destruct (c05_add_edge_ends (assemble 3 ls) (RXyz a) (RXyz b) el (reachable_assemble 3 ls)) as (d'&u&v&Ee&_&_&_&_&_&_&_&S); try discriminate.
    rewrite (call_line _ _ _ _ _ _ Ee). eapply settings_trans; eauto.
  Qed.

  Lemma meets_key (ls : list (line (T:=T))) p : meets ls p <-> node_key (assemble 3 ls) (RXyz p) <> None.
  Proof.
    assert (Wd := welded_assemble 3 ls). cbn [node_key].
    assert (M : dget (d_gkey (assemble 3 ls)) (gkey (assemble 3 ls) p) <> None <-> In (gkey (assemble 3 ls) p) (dkeys (d_gkey (assemble 3 ls)))).
    { destruct (dget (d_gkey (assemble 3 ls)) (gkey (assemble 3 ls) p)) as [k|] eqn:E.
      - split; [intros _; eapply dget_In_keys; eauto|discriminate].
      - apply dget_None in E. tauto. }
    rewrite M, (we_pts _ _ _ _ Wd), in_map_iff. split.
    - intros (q&I&E). exists q. split; [|exact I]. apply gkey_rounded. now rewrite (we_tol _ _ _ _ Wd).
    - intros (q&E&I). exists q. split; [exact I|]. apply gkey_rounded in E. now rewrite (we_tol _ _ _ _ Wd) in E.
  Qed.

  (* where a point is found *)
  Lemma key_rounded (ls : list (line (T:=T))) p q n : node_key (assemble 3 ls) (RXyz p) = Some n ->
    (node_key (assemble 3 ls) (RXyz q) = Some n <-> rounded 3 q = rounded 3 p).
  Proof.
    assert (Wd := welded_assemble 3 ls). intros E. cbn [node_key] in *. split.
    - intros E'. assert (Nv : NoDup (dvalues (d_gkey (assemble 3 ls)))).
      { rewrite (we_nodes _ _ _ _ Wd). apply (wf_nodup _ (we_wf _ _ _ _ Wd)). }
      assert (G := gvalues_inj _ _ _ _ Nv E' E). apply gkey_rounded in G. now rewrite (we_tol _ _ _ _ Wd) in G.
    - intros R. rewrite <- (we_tol _ _ _ _ Wd) in R at 1 2. apply gkey_rounded in R. now rewrite R.
  Qed.

  Lemma load_fold (c : vec T * vec T -> bool) l a :
    (exists pre x post, l = pre ++ x :: post /\ c x = true /\ (forall y, In y post -> c y = false)
       /\ fold_left (fun a x => if c x then set_load a (snd x) else a) l a = set_load a (snd x))
    \/ ((forall y, In y l -> c y = false) /\ fold_left (fun a x => if c x then set_load a (snd x) else a) l a = a).
  Proof.
    induction l as [|x l IH] using rev_ind; [right; split; [intros y []|reflexivity]|].
    rewrite fold_left_app. cbn [fold_left]. destruct (c x) eqn:E.
    - left. exists l, x, []. repeat split; auto; [intros y []|].
      destruct IH as [(pre&x0&post&_&_&_&->)|[_ ->]]; reflexivity.
    - destruct IH as [(pre&x0&post&->&C&Q&F)|[Q F]].
      + left. exists pre, x0, (post ++ [x]). rewrite <- app_assoc. repeat split; auto.
        intros y I. apply in_app_or in I as [I|[<-|[]]]; auto.
      + right. split; auto. intros y I. apply in_app_or in I as [I|[<-|[]]]; auto.
  Qed.

  Lemma support_fold {A} (c : A -> bool) l (a : node_attr T) :
    fold_left (fun a x => if c x then set_type a TSupport else a) l a = if existsb c l then set_type a TSupport else a.
  Proof.
    revert a. induction l as [|x l IH]; intros a; [reflexivity|]. cbn [fold_left existsb]. rewrite IH.
    destruct (c x), (existsb c l); reflexivity.
  Qed.

  (** The diagram with its loads and supports, before the trails are traced *)
  Lemma drawn ls (loads : list (vec T * vec T)) (supports : list (vec T)) :
    (forall p q, In (p, q) loads -> meets ls p) -> (forall p, In p supports -> meets ls p) ->
    exists d1 d2, eloop (fun _ x => mark fst (fun x a => set_load a (snd x)) x) loads tt (assemble 3 ls) = (d1, Ok tt)
      /\ eloop (fun _ x => mark (fun p => p) (fun _ a => set_type a TSupport) x) supports tt d1 = (d2, Ok tt)
      /\ drawn_from ls loads supports d2.
  Proof.
    intros Ml Ms. set (d0 := assemble 3 ls). assert (Wd := welded_assemble 3 ls). fold d0 in Wd.
    assert (W := we_wf _ _ _ _ Wd).
    destruct (marks_Ok fst (fun x a => set_load a (snd x)) loads d0 W) as (nd&El&Kn&G).
    { intros [p q] I. apply meets_key. eauto. }
    assert (W1 : wf (with_node d0 nd)).
    { replace (with_node d0 nd) with (run d0 (map (fun x => OpAddLoad (RXyz (fst x)) (snd x)) loads)).
      - apply wf_run; [|exact W]. apply Forall_forall. intros o Io. apply in_map_iff in Io as ([p q]&<-&_). exact I.
      - symmetry. apply (eloop_run (fun x => OpAddLoad (RXyz (fst x)) (snd x))). exact El. }
    destruct (marks_Ok (fun p : vec T => p) (fun _ a => set_type a TSupport) supports (with_node d0 nd) W1) as (nd2&Es&Kn2&G2).
    { intros p I. change (node_key d0 (RXyz p) <> None). apply meets_key. auto. }
    exists (with_node d0 nd), (with_node (with_node d0 nd) nd2). split; [exact El|]. split; [exact Es|].
    assert (Nn : dkeys nd2 = nodes d0) by (rewrite Kn2; exact Kn).
    constructor.
    - exact Nn.
    - repeat split; reflexivity.
    - reflexivity.
    - intros n I. assert (In0 : In n (nodes d0)) by (rewrite <- Nn; exact I).
      destruct (we_at _ _ _ _ Wd n In0) as (p&Ip&Ep&Kp).
      assert (E0 : dget (d_node d0) n = Some (fresh_node p)).
      { unfold node_get, dgetr in Ep. destruct (dget (d_node d0) n); [congruence|discriminate Ep]. }
      assert (E1 := G n _ E0). assert (E2 := G2 n _ E1). cbn beta in E1, E2.
      assert (KR : forall q, is_key (node_key d0 (RXyz q)) n = true <-> rounded 3 q = rounded 3 p).
      { intros q. rewrite <- (key_rounded ls p q n Kp). fold d0. unfold is_key.
        destruct (node_key d0 (RXyz q)) as [m|]; [|split; discriminate]. rewrite Z.eqb_eq. split; congruence. }
      assert (KF : forall q, is_key (node_key d0 (RXyz q)) n = false -> rounded 3 q <> rounded 3 p).
      { intros q F R. apply KR in R. congruence. }
      change (fun (a : node_attr T) (x : vec T) => if is_key (node_key (with_node d0 nd) (RXyz x)) n then set_type a TSupport else a)
        with (fun (a : node_attr T) (x : vec T) => if is_key (node_key d0 (RXyz x)) n then set_type a TSupport else a) in E2.
      rewrite (support_fold (fun x => is_key (node_key d0 (RXyz x)) n)) in E2.
      assert (L : exists q, last_load loads p q /\ fold_left (fun a x => if is_key (node_key d0 (RXyz (fst x))) n then set_load a (snd x) else a) loads (fresh_node p)
                    = mkNode p q vzero None None).
      { destruct (load_fold (fun x => is_key (node_key d0 (RXyz (fst x))) n) loads (fresh_node p))
          as [(pre&[p' q]&post&El'&C&Q&F)|[Q F]].
        - exists q. split; [|exact F]. left. exists pre, p', post. split; [exact El'|]. split; [now apply KR|].
          intros p2 q2 I2. apply KF. exact (Q _ I2).
        - exists vzero. split; [|exact F]. right. split; [reflexivity|]. intros p2 q2 I2. apply KF. exact (Q _ I2). }
      destruct L as (q&L&F). rewrite F in E2.
      exists p, q, (if existsb (fun x => is_key (node_key d0 (RXyz x)) n) supports then Some TSupport else None).
      split; [|split; [unfold node_coordinates; fold d0; now rewrite Ep|split; [exact Kp|split; [exact L|]]]].
      + unfold node_get, dgetr. cbn [with_node d_node]. rewrite E2. destruct (existsb _ supports); reflexivity.
      + split.
        * intros (p'&I'&R'). apply KR in R'.
          assert (X : existsb (fun x => is_key (node_key d0 (RXyz x)) n) supports = true) by (apply existsb_exists; eauto).
          now rewrite X.
        * intros Fs. destruct (existsb (fun x => is_key (node_key d0 (RXyz x)) n) supports) eqn:X; [|reflexivity].
          apply existsb_exists in X as (p'&I'&X). apply KR in X. destruct (Fs p' I' X).
    - exact (settings_assemble ls).
  Qed.

  Definition mark_load (x : vec T * vec T) := mark fst (fun (x : vec T * vec T) a => set_load a (snd x)) x.
  Definition mark_support (p : vec T) := mark (fun p : vec T => p) (fun _ a => set_type a TSupport) p.

  (** The component as two loops and the trails *)
  Lemma gh_topology_eq ord (tes des : list (option (line (T:=T)))) ls ss aux :
    gh_topology ord tes des ls ss aux
    = match eloop (fun _ x => mark_load x) (connected ls) tt (assemble 3 (connected tes ++ connected des)) with
      | (d1, Ok _) => match eloop (fun _ x => mark_support x) (connected ss) tt d1 with
                      | (d2, Ok _) => outcome (if nonempty tes && nonempty ss || nonempty des && match aux with Some b => b | None => false end
                                               then build_trails ord (match aux with Some b => b | None => false end) else eret tt) d2
                      | (_, Err e) => Err e
                      end
      | (_, Err e) => Err e
      end.
  Proof.
    unfold gh_topology. set (b := match aux with Some b => b | None => false end).
    set (f := fun l : line (T:=T) => let '((a, b), el) := l in ebind (add_edge (RXyz a) (RXyz b) el) (fun _ => eret tt)).
    match goal with |- context [eloop ?g tes tt] => change g with (fun (_ : unit) (o : option (line (T:=T))) => match o with Some l => f l | None => eret tt end) end.
    assert (L : forall es d, reachable d -> eloop (fun (_ : unit) (o : option (line (T:=T))) => match o with Some l => f l | None => eret tt end) es tt d
                  = (run d (map line_op (connected es)), Ok tt)).
    { intros es d R. rewrite eloop_somes, somes_connected, <- (lines_run _ d R). apply eloop_ext. intros [[p q] el] s. reflexivity. }
    unfold ebind at 1. rewrite L by (exists []; split; [constructor|reflexivity]).
    set (d0 := run empty_diagram (map line_op (connected tes))).
    unfold ebind at 1. rewrite L.
    2: { exists (map line_op (connected tes)). split; [|reflexivity]. apply Forall_forall. intros o Io. apply in_map_iff in Io as ([[x y] el]&<-&_). exact I. }
    replace (run d0 (map line_op (connected des))) with (assemble 3 (connected tes ++ connected des)).
    2: { unfold assemble, d0. rewrite map_app, <- run_app. reflexivity. }
    clear d0. set (d0 := assemble 3 (connected tes ++ connected des)).
    unfold ebind at 1.
    match goal with |- context [eloop ?g ls tt] => replace (eloop g ls tt d0) with (eloop (fun _ x => mark_load x) (connected ls) tt d0) end.
    2: { rewrite <- somes_connected.
         transitivity (eloop (fun (_ : unit) (x : vec T * vec T) => let (p, q) := x in add_load (RXyz p) q) (somes ls) tt d0).
         - apply eloop_ext. intros [p q] s. reflexivity.
         - rewrite <- eloop_somes. reflexivity. }
    destruct (eloop (fun _ x => mark_load x) (connected ls) tt d0) as [d1 [[]|e]]; [|reflexivity].
    unfold ebind at 1.
    match goal with |- context [eloop ?g ss tt] => replace (eloop g ss tt d1) with (eloop (fun _ x => mark_support x) (connected ss) tt d1) end.
    2: { rewrite <- somes_connected, <- eloop_somes. reflexivity. }
    destruct (eloop (fun _ x => mark_support x) (connected ss) tt d1) as [d2 [[]|e]]; [|reflexivity].
    unfold outcome. subst b d0. clear. unfold line in *. destruct tes, ss, des, aux as [[|]|]; reflexivity.
  Qed.

  (* what the component decides on *)
  Lemma traced {A B C} (tes : list A) (ss : list B) (des : list C) aux :
    nonempty tes && nonempty ss || nonempty des && match aux with Some b => b | None => false end = true
    <-> (tes <> [] /\ ss <> []) \/ (des <> [] /\ aux = Some true).
  Proof.
    destruct tes, ss, des, aux as [[|]|]; cbn; split; try discriminate; try tauto;
      try (intros _; (left; split; discriminate) || (right; split; [discriminate|reflexivity]));
      intros [[X Y]|[X Y]]; congruence.
  Qed.

  (** ** C77 — the assembled topology is the one drawn *)

  (** If every load and every support is at the end of a line, then the component returns the diagram of
      the lines with these loads and supports, and with its trails traced if trail edges and supports are
      given, or deviation edges and auxiliary trails are; an exception in tracing is passed on. *)
  Lemma c77_assembly : forall ord tes des ls ss aux,
    (forall p q, In (p, q) (connected ls) -> meets (connected tes ++ connected des) p) ->
    (forall p, In p (connected ss) -> meets (connected tes ++ connected des) p) ->
    exists d, reachable d /\ drawn_from (connected tes ++ connected des) (connected ls) (connected ss) d
      /\ ((tes <> [] /\ ss <> []) \/ (des <> [] /\ aux = Some true) ->
            (aux = Some true -> gh_topology ord tes des ls ss aux = outcome (build_trails ord true) d)
            /\ (aux <> Some true -> gh_topology ord tes des ls ss aux = outcome (build_trails ord false) d))
      /\ (~ ((tes <> [] /\ ss <> []) \/ (des <> [] /\ aux = Some true)) -> gh_topology ord tes des ls ss aux = Ok d).
  Proof.
    intros ord tes des ls ss aux Ml Ms. rewrite gh_topology_eq.
    destruct (drawn _ _ _ Ml Ms) as (d1&d2&E1&E2&D).
    change (eloop (fun (_ : unit) x => mark_load x) (connected ls) tt (assemble 3 (connected tes ++ connected des)) = (d1, Ok tt)) in E1.
    change (eloop (fun (_ : unit) x => mark_support x) (connected ss) tt d1 = (d2, Ok tt)) in E2.
    rewrite E1, E2. exists d2. split; [|split; [exact D|split]].
    - assert (R1 : reachable d1).
      { rewrite (eloop_run (fun x => OpAddLoad (RXyz (fst x)) (snd x)) _ _ _ E1). apply reachable_run; [apply reachable_assemble|].
        apply Forall_forall. intros o Io. apply in_map_iff in Io as ([p q]&<-&_). exact I. }
      rewrite (eloop_run (fun p => OpAddSupport (RXyz p)) _ _ _ E2). apply reachable_run; [exact R1|].
      apply Forall_forall. intros o Io. apply in_map_iff in Io as (p&<-&_). exact I.
    - intros X. apply traced in X. rewrite X. destruct aux as [[|]|]; split; intros; try reflexivity; congruence.
    - intros X. destruct (nonempty tes && nonempty ss || nonempty des && match aux with Some b => b | None => false end) eqn:E; [|reflexivity].
      apply traced in E. tauto.
  Qed.

  (** A topology whose trail edges form chains, each ending in its one support, is returned ready for form
      finding: all nodes must lie on the chains unless auxiliary trails are asked for. *)
  Lemma c77_ready : forall ord tes des ls ss aux, same_set_order ord -> tes <> [] \/ aux = Some true ->
    (forall p q, In (p, q) (connected ls) -> meets (connected tes ++ connected des) p) ->
    (forall p, In p (connected ss) -> meets (connected tes ++ connected des) p) ->
    exists d, reachable d /\ drawn_from (connected tes ++ connected des) (connected ls) (connected ss) d
      /\ forall P, chains d P -> P <> [] -> aux = Some true \/ covers d P ->
         exists d', gh_topology ord tes des ls ss aux = Ok d' /\ ready d'.
  Proof.
    intros ord tes des ls ss aux Ho Gv Ml Ms. destruct (c77_assembly ord tes des ls ss aux Ml Ms) as (d&R&D&B&_).
    exists d. split; [exact R|]. split; [exact D|]. intros P C NE Cv.
    destruct P as [|p P]; [destruct (NE eq_refl)|].
    assert (L2 := ch_length _ _ C p (or_introl eq_refl)).
    (* the chain has an edge and a support *)
    assert (NN : nodes d <> []).
    { destruct p as [|n p]; cbn in L2; [lia|]. intros E. assert (X := ch_nodes _ _ C n). rewrite E in X. apply X. now left. }
    assert (Sn : ss <> []).
    { intros ->. destruct (exists_last (l:=p)) as (p0&n&Ep); [intros ->; cbn in L2; lia|].
      assert (Sn : In n (support_nodes d)).
      { apply (ch_supports _ _ C). exists p. split; [now left|]. exists p0. exact Ep. }
      assert (W := reachable_wf d R). assert (Ss := proj1 (In_support_is d n W) Sn). unfold is_node_support in Ss.
      assert (In0 : In n (nodes d)).
      { apply (ch_nodes _ _ C). apply in_concat. exists p. split; [now left|]. rewrite Ep. apply in_or_app. right. now left. }
      destruct (df_each _ _ _ _ D n In0) as (q&ld&t&En&_&_&_&_&Nt). rewrite En in Ss. cbn in Ss.
      rewrite Nt in Ss; [discriminate Ss|]. intros p' []. }
    assert (Tr : (tes <> [] /\ ss <> []) \/ (des <> [] /\ aux = Some true)).
    { destruct tes as [|te tes]; [|left; split; [discriminate|exact Sn]]. right. destruct Gv as [Gv|Gv]; [congruence|].
      split; [|exact Gv]. intros ->. apply NN. rewrite (df_nodes _ _ _ _ D). reflexivity. }
    destruct (B Tr) as [Bt Bf]. destruct (match aux with Some true => true | _ => false end) eqn:Ea.
    - assert (E : aux = Some true) by (destruct aux as [[|]|]; congruence). rewrite (Bt E).
      destruct (c61_built_auxiliary_ready d ord _ R Ho C NN) as (d'&Eb&Rd). exists d'. unfold outcome. rewrite Eb. auto.
    - assert (E : aux <> Some true) by (intros ->; discriminate Ea). rewrite (Bf E).
      destruct Cv as [Cv|Cv]; [congruence|].
      destruct (c61_built_ready d ord _ R Ho C Cv NE) as (d'&Eb&Rd). exists d'. unfold outcome. rewrite Eb. auto.
  Qed.

  (** A load or a support that is not at the end of any line is rejected. *)
  Lemma c77_rejects : forall ord tes des ls ss aux p,
    In p (map fst (connected ls) ++ connected ss) -> ~ meets (connected tes ++ connected des) p ->
    gh_topology ord tes des ls ss aux = Err (ValueError "A node doesn't exist").
  Proof.
    intros ord tes des ls ss aux p Ip M. rewrite gh_topology_eq.
    set (d0 := assemble 3 (connected tes ++ connected des)).
    assert (W : wf d0) by apply (we_wf _ _ _ _ (welded_assemble 3 _)).
    destruct (Exists_dec (fun x : vec T * vec T => node_key d0 (RXyz (fst x)) = None) (connected ls)) as [X|X].
    { intros x. destruct (node_key d0 (RXyz (fst x))); [right; discriminate|now left]. }
    - apply Exists_exists in X.
      assert (E := marks_Err fst (fun (x : vec T * vec T) a => set_load a (snd x)) (connected ls) d0 W X).
      change (snd (eloop (fun (_ : unit) x => mark_load x) (connected ls) tt d0) = Err (ValueError "A node doesn't exist")) in E.
      destruct (eloop (fun (_ : unit) x => mark_load x) (connected ls) tt d0) as [d1 r]. cbn [snd] in E. now rewrite E.
    - assert (X' : forall x, In x (connected ls) -> node_key d0 (RXyz (fst x)) <> None).
      { intros x Ix E. apply X. apply Exists_exists. eauto. }
      destruct (marks_Ok fst (fun (x : vec T * vec T) a => set_load a (snd x)) (connected ls) d0 W X') as (nd&E1&_&_).
      change (eloop (fun (_ : unit) x => mark_load x) (connected ls) tt d0 = (with_node d0 nd, Ok tt)) in E1. rewrite E1.
      assert (W1 : wf (with_node d0 nd)).
      { rewrite (eloop_run (fun x => OpAddLoad (RXyz (fst x)) (snd x)) _ _ _ E1). apply wf_run; [|exact W].
        apply Forall_forall. intros o Io. apply in_map_iff in Io as ([q r]&<-&_). exact I. }
      assert (N : node_key d0 (RXyz p) = None).
      { destruct (node_key d0 (RXyz p)) eqn:E; [|reflexivity]. destruct M. apply meets_key. fold d0. rewrite E. discriminate. }
      apply in_app_or in Ip as [Ip|Ip].
      + apply in_map_iff in Ip as (x&<-&Ix). destruct (X' x Ix N).
      + assert (E := marks_Err (fun p : vec T => p) (fun _ a => set_type a TSupport) (connected ss) (with_node d0 nd) W1 (ex_intro _ p (conj Ip N))).
        change (snd (eloop (fun (_ : unit) x => mark_support x) (connected ss) tt (with_node d0 nd)) = Err (ValueError "A node doesn't exist")) in E.
        destruct (eloop (fun (_ : unit) x => mark_support x) (connected ss) tt (with_node d0 nd)) as [d2 r]. cbn [snd] in E. now rewrite E.
  Qed.

  (** ** Lists whose last item is repeated *)

  Lemma iterable_like_nth {A B} (t : list A) : forall (l : list B) f i b,
    nth_error (iterable_like t l f) i = Some b
    <-> (i < List.length t)%nat /\ (nth_error l i = Some b \/ (List.length l <= i)%nat /\ b = f).
  Proof.
    induction t as [|x t IH]; intros l f i b; cbn [iterable_like List.length].
    - destruct i; cbn; split; try discriminate; lia.
    - destruct l as [|y l], i as [|i]; cbn [nth_error List.length]; rewrite ?IH; cbn [List.length]; split.
      + intros E. injection E as <-. split; [lia|]. right. split; [lia|reflexivity].
      + intros [_ [E|[_ ->]]]; [discriminate E|reflexivity].
      + intros [L [E|[_ ->]]]; [destruct i; discriminate E|]. split; [lia|]. right. split; [lia|reflexivity].
      + intros [L [E|[_ ->]]]; [discriminate E|]. split; [lia|]. right. split; [lia|reflexivity].
      + intros E. split; [lia|]. now left.
      + intros [_ [E|[L _]]]; [exact E|lia].
      + intros [L [E|[M ->]]]; split; try lia; [now left|right; split; [lia|reflexivity]].
      + intros [L [E|[M ->]]]; split; try lia; [now left|right; split; [lia|reflexivity]].
  Qed.

  Lemma last_snoc {B} (l : list B) b x : List.last (l ++ [b]) x = b.
  Proof. apply last_last. Qed.

  Lemma repeated_nth {A B} (t : list A) (l : list B) x i b : l <> [] ->
    (nth_error (iterable_like t l (List.last l x)) i = Some b <-> (i < List.length t)%nat /\ repeated l i b).
  Proof.
    intros NE. rewrite iterable_like_nth. unfold repeated. destruct (exists_last NE) as (l'&c&->). rewrite last_last.
    split; intros [L [E|[M E]]]; (split; [exact L|]); [now left|right; split; [exact M|exists l'; now subst]|now left|].
    right. split; [exact M|]. destruct E as [l2 E]. apply app_inj_tail in E as [_ ->]. reflexivity.
  Qed.

  Lemma combine_nth {A B} (t : list A) : forall (l : list B) i a b,
    nth_error (combine t l) i = Some (a, b) <-> nth_error t i = Some a /\ nth_error l i = Some b.
  Proof.
    induction t as [|x t IH]; intros [|y l] [|i] a b; cbn; try (split; [discriminate|intros [E F]; (discriminate E || discriminate F)]).
    - split; [intros E; now inversion E|intros [E F]; congruence].
    - apply IH.
  Qed.

  Lemma combine_fst {A B} (t : list A) : forall (l : list B) f, map fst (combine t (iterable_like t l f)) = t.
  Proof. induction t as [|x t IH]; intros [|y l] f; cbn; congruence. Qed.

  Lemma moves_Ok (kps : list (Z * vec T)) : forall d, wf d -> NoDup (map fst kps) -> incl (map fst kps) (nodes d) ->
    exists nd, eloop (fun (_ : unit) (kp : Z * vec T) => node_set (fst kp) (fun a => set_xyz a (snd kp))) kps tt d = (with_node d nd, Ok tt)
      /\ dkeys nd = nodes d
      /\ (forall k p, In (k, p) kps -> exists a, dget (d_node d) k = Some a /\ dget nd k = Some (set_xyz a p))
      /\ forall n, ~ In n (map fst kps) -> dget nd n = dget (d_node d) n.
  Proof.
    induction kps as [|[k p] kps IH]; intros d W N Inc.
    - exists (d_node d). split; [now destruct d|]. split; [reflexivity|]. split; [intros k p []|reflexivity].
    - cbn [map fst] in N, Inc. inversion N as [|? ? Nk Nt]; subst.
      assert (Ik : In k (nodes d)) by (apply Inc; now left). destruct (node_find d k Ik) as [a Ea].
      cbn [eloop]. unfold ebind, node_set at 1. cbn [fst snd]. rewrite Ea.
      set (d1 := with_node d (dset (d_node d) k (set_xyz a p))).
      assert (N1 : nodes d1 = nodes d) by (apply dkeys_dset_in; exact Ik).
      destruct (IH d1) as (nd&El&Kn&Gi&Go).
      { assert (W1 := wf_node_set k (fun a => set_xyz a p) d W). unfold node_set in W1. now rewrite Ea in W1. }
      { exact Nt. }
      { intros n I. rewrite N1. apply Inc. now right. }
      exists nd. split; [rewrite El; reflexivity|]. split; [congruence|]. split.
      + intros k2 p2 [E|I].
        * injection E as <- <-. exists a. split; [exact Ea|]. rewrite Go by exact Nk. apply dget_dset_same.
        * assert (Ne : k2 <> k). { intros ->. apply Nk. apply in_map_iff. exists (k, p2). auto. }
          destruct (Gi k2 p2 I) as (a2&Ea2&En). exists a2. split; [|exact En]. cbn in Ea2. now rewrite dget_dset_other in Ea2 by congruence.
      + intros n Nn. cbn [map fst] in Nn. rewrite Go by (intros X; apply Nn; now right). cbn. apply dget_dset_other. intros ->. apply Nn. now left.
  Qed.

  (** ** C78 — moving origins and shifting trails *)

  (** The listed nodes are put at the points, the last point being repeated; nothing else changes.  The
      topology stays ready for form finding. *)
  Lemma c78_move_partial : forall d keys points, reachable d -> keys <> [] -> points <> [] -> NoDup keys -> incl keys (nodes d) ->
    exists d', gh_move_origins (Some d) keys points = Some (Ok d')
      /\ reachable d' /\ (ready d -> ready d')
      /\ (forall i k p, nth_error keys i = Some k -> repeated points i p -> node_coordinates d' k = Ok p)
      /\ (forall n, ~ In n keys -> same_node d d' n)
      /\ (forall n, node_load d' n = node_load d n /\ reaction_force d' n = reaction_force d n
            /\ node_sequence d' n = node_sequence d n /\ is_node_support d' n = is_node_support d n
            /\ is_node_origin d' n = is_node_origin d n)
      /\ nodes d' = nodes d /\ same_edges d d' /\ same_settings d d'
      /\ (forall r, node_key d' r = node_key d r).
  Proof.
    intros d keys points R NK NP ND Inc. assert (W := reachable_wf d R).
    unfold gh_move_origins. destruct keys as [|k0 ks]; [destruct (NK eq_refl)|]. destruct points as [|p0 ps]; [destruct (NP eq_refl)|].
    set (keys := k0 :: ks) in *. set (points := p0 :: ps) in *.
    set (kps := combine keys (iterable_like keys points (List.last points p0))).
    assert (Fk : map fst kps = keys) by apply combine_fst.
    destruct (moves_Ok kps d W) as (nd&El&Kn&Gi&Go); [now rewrite Fk|now rewrite Fk|].
    exists (with_node d nd). unfold on_copy. rewrite El. split; [reflexivity|].
    assert (Ev : with_node d nd = run d (map (fun kp => OpSetCoords (fst kp) (snd kp)) kps)).
    { apply (eloop_run (fun kp : Z * vec T => OpSetCoords (fst kp) (snd kp))). exact El. }
    assert (Vo : Forall valid_op (map (fun kp : Z * vec T => OpSetCoords (fst kp) (snd kp)) kps)).
    { apply Forall_forall. intros o Io. apply in_map_iff in Io as (kp&<-&_). exact I. }
    assert (Each : forall n, (dget nd n = dget (d_node d) n) \/ exists a p, dget (d_node d) n = Some a /\ dget nd n = Some (set_xyz a p)).
    { intros n. destruct (in_dec Z.eq_dec n keys) as [I|I]; [|left; apply Go; now rewrite Fk].
      right. rewrite <- Fk in I. apply in_map_iff in I as ([k p]&<-&I). destruct (Gi k p I) as (a&A&B). exists a, p. auto. }
    assert (R' : reachable (with_node d nd)) by (rewrite Ev; now apply reachable_run).
    split; [exact R'|]. split; [|split; [|split; [|split; [|split; [|split; [|split]]]]]].
    - intros Rd. rewrite Ev. clear - R Rd. revert d R Rd. induction kps as [|[k p] kps IH]; intros d R Rd; [exact Rd|].
      apply (IH (fst (call (OpSetCoords k p) d))); [apply reachable_step; [exact R|exact I]|]. apply c61_ready_kept; [exact R|exact Rd|exact I].
    - intros i k p Ek Ep. assert (In (k, p) kps).
      { apply (nth_error_In _ i). apply combine_nth. split; [exact Ek|]. apply repeated_nth; [discriminate|].
        split; [|exact Ep]. apply nth_error_Some. congruence. }
      destruct (Gi k p H0) as (a&_&E). unfold node_coordinates, node_get, dgetr. cbn [with_node d_node]. now rewrite E.
    - intros n I. unfold same_node, node_get, dgetr. cbn [with_node d_node]. rewrite Go; [reflexivity|now rewrite Fk].
    - intros n. unfold node_load, reaction_force, node_sequence, is_node_support, is_node_origin, node_get, dgetr. cbn [with_node d_node].
      destruct (Each n) as [->|(a&p&->&->)]; repeat split; reflexivity.
    - exact Kn.
    - repeat split; reflexivity.
    - repeat split; reflexivity.
    - reflexivity.
  Qed.

  Lemma shifts_Ok (kss : list (Z * Z)) : forall d, reachable d -> ready d -> NoDup (map fst kss) ->
    (forall k s, In (k, s) kss -> is_node_origin d k = Ok true /\ 0 <= s /\ exists tr, In (k, tr) (trails d)) ->
    exists d', eloop (fun (_ : unit) (ks : Z * Z) => shift_trail (fst ks) (snd ks)) kss tt d = (d', Ok tt)
      /\ reachable d' /\ ready d' /\ same_but_types_and_sequences d d' /\ same_settings d d'
      /\ (forall n, is_node_origin d' n = is_node_origin d n /\ is_node_support d' n = is_node_support d n)
      /\ (forall k s tr, In (k, s) kss -> In (k, tr) (trails d) -> forall i n, nth_error tr i = Some n -> node_sequence d' n = Ok (s + Z.of_nat i))
      /\ (forall n, (forall k tr, In k (map fst kss) -> In (k, tr) (trails d) -> ~ In n tr) -> node_sequence d' n = node_sequence d n).
  Proof.
    induction kss as [|[k s] kss IH]; intros d R Rd ND Ok.
    - exists d. split; [reflexivity|]. split; [exact R|]. split; [exact Rd|]. repeat split; try reflexivity. intros k s tr [].
    - cbn [map fst] in ND. inversion ND as [|? ? Nk Nt]; subst.
      destruct (Ok k s (or_introl eq_refl)) as (Or&Ps&tr&It).
      assert (W := reachable_wf d R).
      assert (Sep : forall k1 t1 k2 t2 n, In (k1, t1) (trails d) -> In (k2, t2) (trails d) -> In n t1 -> In n t2 -> k1 = k2).
      { intros k1 t1 k2 t2 n I1 I2 J1 J2. assert (Dj := ch_disjoint _ _ (rd_chains _ Rd)).
        assert (t1 = t2) as <-.
        { apply (concat_disjoint (stored d) t1 t2 n Dj); auto; unfold stored; apply in_map_iff; [exists (k1, t1)|exists (k2, t2)]; auto. }
        destruct (rd_keys _ Rd _ _ I1) as [r1 E1]. destruct (rd_keys _ Rd _ _ I2) as [r2 E2]. congruence. }
      assert (NDt : NoDup tr).
      { apply (NoDup_concat_In (stored d)); [apply (ch_disjoint _ _ (rd_chains _ Rd))|]. unfold stored. apply in_map_iff. exists (k, tr). auto. }
      destruct (c20_shift_trail d k s tr R Or It NDt) as (d1&E1&Sm1&St1&Ty1&Sq1&So1&_).
      assert (R1 : reachable d1). { assert (X := reachable_step d (OpShiftTrail k s) R I). change (reachable (fst (shift_trail k s d))) in X. now rewrite E1 in X. }
      assert (Rd1 : ready d1). { assert (X := c61_ready_kept d (OpShiftTrail k s) R Rd Ps). change (ready (fst (shift_trail k s d))) in X. now rewrite E1 in X. }
      assert (T1 : trails d1 = trails d) by apply St1.
      destruct (IH d1 R1 Rd1 Nt) as (d2&E2&R2&Rd2&Sm2&St2&Ty2&Sq2&So2).
      { intros k2 s2 I2. destruct (Ok k2 s2 (or_intror I2)) as (A&B&C). rewrite T1. destruct (Ty1 k2) as [-> _]. auto. }
      exists d2. cbn [eloop]. unfold ebind. cbn [fst snd]. rewrite E1. split; [exact E2|]. split; [exact R2|]. split; [exact Rd2|].
      split; [|split; [|split; [|split]]].
      + destruct Sm1 as (a1&a2&a3&a4&a5&a6&a7&a8), Sm2 as (b1&b2&b3&b4&b5&b6&b7&b8). repeat split; intros; congruence.
      + eapply settings_trans; eauto.
      + intros n. destruct (Ty1 n), (Ty2 n). split; congruence.
      + intros k2 s2 tr2 [E|I2] It2 i n En.
        * injection E as <- <-. assert (tr2 = tr) as ->.
          { assert (X := In_dget _ _ _ (wf_tnodup _ W) It). assert (Y := In_dget _ _ _ (wf_tnodup _ W) It2). congruence. }
          rewrite So2; [now apply Sq1|]. intros k3 tr3 I3 It3 J. rewrite T1 in It3.
          assert (k = k3) as <- by (apply (Sep k tr k3 tr3 n); auto; eapply nth_error_In; eauto). contradiction.
        * apply (Sq2 k2 s2 tr2 I2); [now rewrite T1|exact En].
      + intros n F. rewrite So2.
        * apply So1. apply (F k tr); [now left|exact It].
        * intros k3 tr3 I3 It3. rewrite T1 in It3. apply (F k3 tr3); [now right|exact It3].
  Qed.

  (** The trails of the listed origins start at the sequences, the last one being repeated; the sequences
      of the other trails and everything else stay. *)
  Lemma c78_shift : forall d keys sequences, reachable d -> ready d -> keys <> [] -> sequences <> [] -> NoDup keys ->
    (forall k, In k keys -> is_node_origin d k = Ok true /\ exists tr, In (k, tr) (trails d)) ->
    (forall s, In s sequences -> 0 <= s) ->
    exists d', gh_shift_trails (Some d) keys sequences = Some (Ok d')
      /\ reachable d' /\ ready d' /\ same_but_types_and_sequences d d' /\ same_settings d d'
      /\ (forall n, is_node_origin d' n = is_node_origin d n /\ is_node_support d' n = is_node_support d n)
      /\ (forall j k s tr, nth_error keys j = Some k -> repeated sequences j s -> In (k, tr) (trails d) ->
            forall i n, nth_error tr i = Some n -> node_sequence d' n = Ok (s + Z.of_nat i))
      /\ (forall n, (forall k tr, In k keys -> In (k, tr) (trails d) -> ~ In n tr) -> node_sequence d' n = node_sequence d n).
  Proof.
    intros d keys sequences R Rd NK NS ND Or Ps.
    unfold gh_shift_trails. destruct keys as [|k0 ks]; [destruct (NK eq_refl)|]. destruct sequences as [|s0 ss]; [destruct (NS eq_refl)|].
    set (keys := k0 :: ks) in *. set (sequences := s0 :: ss) in *.
    set (kss := combine keys (iterable_like keys sequences (List.last sequences s0))).
    assert (Fk : map fst kss = keys) by apply combine_fst.
    destruct (shifts_Ok kss d R Rd) as (d'&E&R'&Rd'&Sm&St&Ty&Sq&So).
    { now rewrite Fk. }
    { intros k s Ik. destruct (In_nth_error _ _ Ik) as [i Ei]. apply combine_nth in Ei as [Ek Es].
      destruct (Or k (nth_error_In _ _ Ek)) as [O Tr]. split; [exact O|]. split; [|exact Tr].
      apply repeated_nth in Es as [_ [Es|[_ [l' El]]]]; [|apply Ps; rewrite El; apply in_or_app; right; now left|discriminate].
      apply Ps. eapply nth_error_In; eauto. }
    exists d'. unfold on_copy. rewrite E. split; [reflexivity|]. split; [exact R'|]. split; [exact Rd'|]. split; [exact Sm|].
    split; [exact St|]. split; [exact Ty|]. rewrite Fk in So. split; [|exact So].
    intros j k s tr Ek Es. apply Sq. apply (nth_error_In _ j). apply combine_nth. split; [exact Ek|].
    apply repeated_nth; [discriminate|]. split; [|exact Es]. apply nth_error_Some. congruence.
  Qed.

  (** ** C79 — finding nodes and edges *)

  Lemma assembled_lookup ord ls loads supports d0 d : reachable d0 -> drawn_from ls loads supports d0 -> same_set_order ord ->
    (d = d0 \/ build_trails ord false d0 = (d, Ok tt)) ->
    nodes d = nodes d0 /\ (forall n, node_coordinates d n = node_coordinates d0 n) /\ (forall r, node_key d r = node_key (assemble 3 ls) r).
  Proof.
    intros R D Ho [->|E]; [repeat split; auto; apply (df_lookup _ _ _ _ D)|].
    assert (F := c19_build_frame d0 ord R Ho). rewrite E in F. cbn [fst] in F. destruct F as [(a&_&c&_&_&_&_&h) _].
    split; [exact a|]. split; [exact c|]. intros r. rewrite h. apply (df_lookup _ _ _ _ D).
  Qed.

  (** The node found at a point is the node there, and there is a node unless an exception is raised. *)
  Lemma c79_node : forall ord ls loads supports d0 d p, reachable d0 -> drawn_from ls loads supports d0 -> same_set_order ord ->
    (d = d0 \/ build_trails ord false d0 = (d, Ok tt)) ->
    (forall n, gh_search_node d p = Ok n
       <-> In n (nodes d) /\ exists q, node_coordinates d n = Ok q /\ rounded 3 q = rounded 3 p)
    /\ (gh_search_node d p = Err KeyError <-> ~ meets ls p).
  Proof.
    intros ord ls loads supports d0 d p R D Ho A. destruct (assembled_lookup ord ls loads supports d0 d R D Ho A) as (Nd&Co&Lk).
    assert (K : forall n, gh_search_node d p = Ok n <-> node_key (assemble 3 ls) (RXyz p) = Some n).
    { intros n. rewrite <- Lk. cbn [node_key]. unfold gh_search_node, dgetr. destruct (dget _ _); split; congruence. }
    split.
    - intros n. rewrite K, Nd, Co. split.
      + intros E. assert (In0 : In n (nodes d0)).
        { rewrite <- (df_lookup _ _ _ _ D) in E. apply (wf_gkey _ (reachable_wf d0 R) _ _ E). }
        split; [exact In0|]. destruct (df_each _ _ _ _ D n In0) as (q&ld&t&En&_&Ek&_). exists q. unfold node_coordinates. rewrite En.
        split; [reflexivity|]. rewrite (df_lookup _ _ _ _ D) in Ek. exact (proj1 (key_rounded ls p q n E) Ek).
      + intros (In0&q&Eq&Rq). destruct (df_each _ _ _ _ D n In0) as (q'&ld&t&En&_&Ek&_).
        unfold node_coordinates in Eq. rewrite En in Eq. cbn in Eq. injection Eq as <-.
        rewrite (df_lookup _ _ _ _ D) in Ek. apply (key_rounded ls q' p n Ek). congruence.
    - rewrite meets_key. assert (X := Lk (RXyz p)). cbn [node_key] in *. rewrite <- X. unfold gh_search_node, dgetr.
      destruct (dget (d_gkey d) (gkey d p)) as [k|]; split; [intros C; discriminate C|intros C; destruct C; discriminate|intros _ Y; apply Y; reflexivity|reflexivity].
  Qed.

  (** A line that runs along an edge, from its first end to its second, finds the key of the edge. *)
  Lemma c79_edge_partial : forall ord ls loads supports d0 d a b u v p q, reachable d0 -> drawn_from ls loads supports d0 -> same_set_order ord ->
    (d = d0 \/ build_trails ord false d0 = (d, Ok tt)) ->
    In (u, v) (edges d) -> node_coordinates d u = Ok p -> node_coordinates d v = Ok q ->
    rounded 3 p = rounded 3 a -> rounded 3 q = rounded 3 b ->
    gh_search_edge d a b = Ok (u, v).
  Proof.
    intros ord ls loads supports d0 d a b u v p q R D Ho A Ie Ep Eq Ra Rb.
    assert (Nn : forall n x, node_coordinates d n = Ok x -> In n (nodes d)).
    { intros n x E. unfold node_coordinates, node_get, dgetr in E. destruct (dget (d_node d) n) eqn:F; [|discriminate E]. eapply dget_In_keys; eauto. }
    assert (S : forall n x y, node_coordinates d n = Ok x -> rounded 3 x = rounded 3 y -> gh_search_node d y = Ok n).
    { intros n x y E Rx. apply (c79_node ord ls loads supports d0 d y R D Ho A). split; [eapply Nn; eauto|eauto]. }
    unfold gh_search_edge. assert (Su := S u p a Ep Ra). assert (Sv := S v q b Eq Rb). unfold gh_search_node in Su, Sv.
    rewrite Su. cbn [bind]. rewrite Sv. reflexivity.
  Qed.

  (** ** C81 — node_exists *)

  (** On coordinates, node_exists tells whether there is a node at the point. *)
  Lemma c81_exists_partial : forall ord ls loads supports d0 d p, reachable d0 -> drawn_from ls loads supports d0 -> same_set_order ord ->
    (d = d0 \/ build_trails ord false d0 = (d, Ok tt)) ->
    (node_exists d (RXyz p) = true <-> exists n q, In n (nodes d) /\ node_coordinates d n = Ok q /\ rounded 3 q = rounded 3 p).
  Proof.
    intros ord ls loads supports d0 d p R D Ho A. destruct (c79_node ord ls loads supports d0 d p R D Ho A) as [K _].
    unfold node_exists, node_key. unfold gh_search_node, dgetr in K.
    destruct (dget (d_gkey d) (gkey d p)) as [k|]; split; try reflexivity; try discriminate.
    - intros _. destruct (proj1 (K k) eq_refl) as (I&q&X). exists k, q. tauto.
    - intros (n&q&I&X). assert (Y := proj2 (K n) (conj I (ex_intro _ q X))). discriminate Y.
  Qed.
End Components.
