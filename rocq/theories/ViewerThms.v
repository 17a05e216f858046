(** * What viewer objects show *)

From Coq Require Import String List ZArith Bool Lia Reals Lra Permutation.
From Verif Require Import Py PyFacts Num Diagram DiagramFacts Topology Optimizer SpecDiagram SpecTopology History HistoryFacts
  SpecEquilibrium FormFacts RVec SpecStatics StaticsFacts Artists SpecArtists ArtistThms Labels LabelThms ViewerObject SpecViewer.
Import ListNotations.
Open Scope Z_scope.

(** ** Invariants of objects *)

Section Keeps.
  Context {T : Type} `{NumOps T}.
  Implicit Types (d : diagram T) (o : vobj T) (df : defaults T) (I : vobj T -> Prop).

  (** Whatever happens, the invariant survives. *)
  Definition keeps (I : vobj T -> Prop) {A} (m : eff (vobj T) A) : Prop := forall o, I o -> I (fst (m o)).

  Lemma keeps_ret I {A} (a : A) : keeps I (eret a).
  Proof. intros o Io. exact Io. Qed.
  Lemma keeps_get I {A} (f : vobj T -> res A) : keeps I (eget f).
  Proof. intros o Io. exact Io. Qed.
  Lemma keeps_bind I {A B} (m : eff (vobj T) A) (f : A -> eff (vobj T) B) :
    keeps I m -> (forall a, keeps I (f a)) -> keeps I (ebind m f).
  Proof.
    intros Km Kf o Io. unfold ebind. specialize (Km o Io). destruct (m o) as [o' [a|e]]; cbn [fst] in *; auto. now apply Kf.
  Qed.
  Lemma keeps_loop I {X A} (body : X -> A -> eff (vobj T) X) l :
    (forall x a, keeps I (body x a)) -> forall x, keeps I (eloop body l x).
  Proof.
    intros Kb. induction l as [|a l IH]; intros x; cbn [eloop]; [apply keeps_ret|]. apply keeps_bind; auto.
  Qed.
  Lemma keeps_state I {A} (f : vobj T -> vobj T) (a : A) : (forall o, I o -> I (f o)) -> keeps I (estate f a).
  Proof. intros K o Io. exact (K o Io). Qed.
  Lemma keeps_number I get put (x : T) : (forall v o, I o -> I (put v o)) -> keeps I (get_number get put x).
  Proof.
    intros K o Io. unfold get_number. destruct (get o) as [y|]; [destruct (truthy_num (Some y))|]; cbn [fst]; auto.
  Qed.

  (** What can be drawn keeps what the properties keep. *)
  Lemma draws_keep I c df u :
    keeps I get_nodes -> keeps I get_edges -> keeps I get_xyz -> keeps I (get_width df) ->
    keeps I (get_edge_color c) -> keeps I (get_node_color c) -> keeps I (get_groups c) ->
    keeps I (get_load_scale df) -> keeps I (get_load_tol df) -> keeps I (get_residual_scale df) -> keeps I (get_residual_tol df) ->
    match u with UDrawNodes | UDrawEdges | UDrawLines | UDrawLoads | UDrawResiduals => True | _ => False end ->
    forall o, I o -> I (after_use c df o u).
  Proof.
    intros Kn Ke Kx Kw Kec Knc Kg Kl1 Kl2 Kr1 Kr2 D o Io. destruct u; try contradiction; cbn [after_use].
    - revert o Io. change (keeps I (draw_nodes c)). unfold draw_nodes. apply keeps_bind; auto. intros ns. apply keeps_bind.
      + apply keeps_loop. intros [[[a b] e] i] n. apply keeps_bind; auto. intros m. apply keeps_bind; auto. intros cs. apply keeps_ret.
      + intros [r i]. apply keeps_ret.
    - unfold draw_edges. destruct (negb (edges_drawn (vo_flags o))); [exact Io|]. revert o Io.
      match goal with |- forall o, I o -> I (fst (?m o)) => change (keeps I m) end. apply keeps_bind.
      { unfold edge_meshes. apply keeps_bind; auto. intros es. apply keeps_loop. intros m e.
        apply keeps_bind; [apply keeps_get|]. intros p. apply keeps_bind; [apply keeps_get|]. intros ax.
        apply keeps_bind; auto. intros ws. apply keeps_bind; [apply keeps_get|]. intros x.
        apply keeps_bind; [apply keeps_get|]. intros h. apply keeps_ret. }
      intros m. apply keeps_bind; auto. intros gs. apply keeps_loop. intros out [g [|e l]]; cbn [snd]; [apply keeps_ret|].
      apply keeps_bind; [apply keeps_get|]. intros cyls. apply keeps_bind; auto. intros cs.
      apply keeps_bind; [apply keeps_get|]. intros k. apply keeps_ret.
    - revert o Io. change (keeps I (draw_edges2 c)). unfold draw_edges2. apply keeps_bind; auto. intros ns. apply keeps_bind.
      + apply keeps_loop. intros [[[a b] e] i] n. apply keeps_bind; auto. intros m. apply keeps_bind; auto. intros cs. apply keeps_ret.
      + intros [r i]. apply keeps_ret.
    - revert o Io. change (keeps I (draw_loads df)). unfold draw_loads. apply keeps_bind; auto. intros ns.
      apply keeps_bind; auto. intros s. apply keeps_bind; auto. intros t. apply keeps_get.
    - revert o Io. change (keeps I (draw_residuals df)). unfold draw_residuals. apply keeps_bind; auto. intros ns.
      apply keeps_bind; auto. intros s. apply keeps_bind; auto. intros t. apply keeps_get.
  Qed.

  Lemma keeps_computed I {A} get put (compute : eff (vobj T) (list A)) :
    keeps I compute -> (forall v o, I o -> I (put v o)) -> keeps I (computed get put compute).
  Proof.
    intros Kc Kp o Io. unfold computed. destruct (get o) as [[|x m]|]; cbn [fst]; auto;
      apply (keeps_bind I compute (fun m => estate (put (Some m)) m)); auto; intros m; apply keeps_state; auto.
  Qed.

  Lemma used_keep I c df us : (forall u, In u us -> forall o, I o -> I (after_use c df o u)) ->
    forall o, I o -> I (used c df o us).
  Proof.
    unfold used. induction us as [|u us IH]; intros A o Io; cbn [fold_left]; auto.
    apply IH; [intros; apply A; auto; now right|]. apply A; auto. now left.
  Qed.

  (** ** Settings *)

  Definition field (s : setting) : vobj T -> option T :=
    match s with
    | NodeSize => vo_size | LoadScale => vo_lscale | LoadTol => vo_ltol
    | ResidualScale => vo_rscale | ResidualTol => vo_rtol
    end.

  Lemma keeps_put_width I w : (forall v o, I o -> I (put_edges v o)) -> (forall v o, I o -> I (put_width v o)) ->
    keeps I (set_width w).
  Proof.
    intros Ke Kw. unfold set_width. destruct w as [|m|x|low high]; [apply keeps_ret|apply keeps_state; auto| |].
    - apply keeps_bind.
      + intros o Io. unfold get_edges. destruct (vo_edges o); cbn [fst]; auto.
      + intros es o Io. cbn [viewer_set_width fst]. auto.
    - apply keeps_bind.
      + intros o Io. unfold get_edges. destruct (vo_edges o); cbn [fst]; auto.
      + intros es o Io. cbn [viewer_set_width]. destruct (width_range _ _ _ _); cbn [bind fst]; auto.
  Qed.

  Lemma keeps_get_width I df : (forall v o, I o -> I (put_edges v o)) -> (forall v o, I o -> I (put_width v o)) ->
    keeps I (get_width df).
  Proof.
    intros Ke Kw o Io. unfold get_width. destruct (vo_width o) as [[|x m]|]; cbn [fst]; auto; revert o Io;
      match goal with |- forall o, I o -> I (fst (?m o)) => change (keeps I m) end; apply keeps_bind;
      try (now apply keeps_put_width); intros []; apply keeps_get.
  Qed.

  Lemma keeps_get_nodes I : (forall v o, I o -> I (put_nodes v o)) -> keeps I get_nodes.
  Proof. intros K o Io. unfold get_nodes. destruct (vo_nodes o); cbn [fst]; auto. Qed.
  Lemma keeps_get_edges I : (forall v o, I o -> I (put_edges v o)) -> keeps I get_edges.
  Proof. intros K o Io. unfold get_edges. destruct (vo_edges o); cbn [fst]; auto. Qed.
  Lemma keeps_get_xyz I : (forall v o, I o -> I (put_xyz v o)) -> keeps I get_xyz.
  Proof.
    intros K o Io. unfold get_xyz. destruct (vo_xyz o) as [[|p m]|]; cbn [fst]; auto; destruct (fold_res _ _ _); cbn [fst]; auto.
  Qed.
  Lemma keeps_edge_color I c : (forall v o, I o -> I (put_edges v o)) -> (forall v o, I o -> I (put_ecolor v o)) ->
    keeps I (get_edge_color c).
  Proof.
    intros Ke Kc. unfold get_edge_color. apply keeps_computed; auto. apply keeps_bind; [now apply keeps_get_edges|].
    intros es. apply keeps_get.
  Qed.
  Lemma keeps_node_color I c : (forall v o, I o -> I (put_nodes v o)) -> (forall v o, I o -> I (put_ncolor v o)) ->
    keeps I (get_node_color c).
  Proof.
    intros Ke Kc. unfold get_node_color. apply keeps_computed; auto. apply keeps_bind; [now apply keeps_get_nodes|].
    intros es. apply keeps_get.
  Qed.
  Lemma keeps_groups I c : (forall v o, I o -> I (put_edges v o)) -> (forall v o, I o -> I (put_groups v o)) ->
    keeps I (get_groups c).
  Proof.
    intros Ke Kc. unfold get_groups. apply keeps_computed; auto. apply keeps_bind; [now apply keeps_get_edges|].
    intros es. apply keeps_get.
  Qed.

  (** What is seen of a setting depends on its field only. *)
  Definition seen df (s : setting) (v : option T) : T :=
    match v with
    | Some y => if ntruthy y then y else default df s
    | None => default df s
    end.

  Lemma read_seen df s o : snd (read df s o) = Ok (seen df s (field s o)).
  Proof.
    destruct s; cbn [read field]; unfold get_size, get_load_scale, get_load_tol, get_residual_scale, get_residual_tol, get_number, seen;
      cbn [truthy_num default];
      match goal with |- context [match ?g o with _ => _ end] => destruct (g o) as [y|]; [destruct (ntruthy y)|] end; reflexivity.
  Qed.

  Lemma shows_seen df s o x : shows df s o x <-> seen df s (field s o) = x.
  Proof. unfold shows. rewrite read_seen. split; [congruence|now intros ->]. Qed.

  Lemma seen_default df s : seen df s (Some (default df s)) = default df s.
  Proof. unfold seen. now destruct (ntruthy (default df s)). Qed.

  Definition sees df (s : setting) (x : T) o : Prop := seen df s (field s o) = x.

  Lemma read_keeps df s s' x : keeps (sees df s x) (read df s').
  Proof.
    intros o Io. unfold sees in *.
    destruct s'; cbn [read]; unfold get_size, get_load_scale, get_load_tol, get_residual_scale, get_residual_tol, get_number;
      cbn [truthy_num];
      match goal with |- context [match ?g o with _ => _ end] => destruct (g o) as [y|] eqn:E; [destruct (ntruthy y) eqn:Ty|] end;
      cbn [fst]; destruct s; try exact Io; cbn [field] in *; rewrite E in Io; cbn in *; rewrite <- Io;
      try (rewrite Ty); try (match goal with |- context [ntruthy ?z] => now destruct (ntruthy z) end).
  Qed.

  Ltac quiet := let o := fresh in let v := fresh in intros v o; let K := fresh in intros K; exact K.

  Lemma use_keeps c df s x u : leaves s u -> forall o, sees df s x o -> sees df s x (after_use c df o u).
  Proof.
    intros L.
    assert (Kn : forall v o, sees df s x o -> sees df s x (put_nodes v o)) by (destruct s; quiet).
    assert (Ke : forall v o, sees df s x o -> sees df s x (put_edges v o)) by (destruct s; quiet).
    assert (Kw : forall v o, sees df s x o -> sees df s x (put_width v o)) by (destruct s; quiet).
    assert (D : match u with UDrawNodes | UDrawEdges | UDrawLines | UDrawLoads | UDrawResiduals => True | _ => False end ->
      forall o, sees df s x o -> sees df s x (after_use c df o u)).
    { apply draws_keep.
      - now apply keeps_get_nodes.
      - now apply keeps_get_edges.
      - apply keeps_get_xyz. destruct s; quiet.
      - now apply keeps_get_width.
      - apply keeps_edge_color; auto. destruct s; quiet.
      - apply keeps_node_color; auto. destruct s; quiet.
      - apply keeps_groups; auto. destruct s; quiet.
      - apply (read_keeps df s LoadScale).
      - apply (read_keeps df s LoadTol).
      - apply (read_keeps df s ResidualScale).
      - apply (read_keeps df s ResidualTol). }
    destruct u as [d|l|l|m|[y|]|w|[y|]|[y|]|[y|]|[y|]|b|b| | | | |]; try (exact (D Logic.I)); intros o Io; cbn [after_use];
      try exact Io; try (destruct s; exact Io).
    - destruct s; try exact Io. now destruct (L y).
    - apply (keeps_put_width (sees df s x) w Ke Kw o Io).
    - destruct s; try exact Io. now destruct (L y).
    - destruct s; try exact Io. now destruct (L y).
    - destruct s; try exact Io. now destruct (L y).
    - destruct s; try exact Io. now destruct (L y).
  Qed.

  (** A number other than zero that is assigned to a setting is what is read, until
      another number is assigned to it. *)
  Lemma c99_partial : forall c df o s x us, ntruthy x = true -> (forall u, In u us -> leaves s u) ->
    shows df s (used c df (after_use c df o (assign s (Some x))) us) x.
  Proof.
    intros c df o s x us Tr L. apply shows_seen. apply (used_keep (sees df s x)).
    - intros u Iu. now apply use_keeps, L.
    - unfold sees. replace (field s _) with (Some x) by (destruct s; reflexivity). unfold seen. now rewrite Tr.
  Qed.

  (** What is read stays until a number is assigned to the setting; None is not a number. *)
  Lemma c99_stays : forall c df o s x us, shows df s o x -> (forall u, In u us -> leaves s u) -> shows df s (used c df o us) x.
  Proof.
    intros c df o s x us Sh L. apply shows_seen. apply (used_keep (sees df s x)).
    - intros u Iu. now apply use_keeps, L.
    - now apply shows_seen.
  Qed.

  Lemma init_sees df a d o1 s : init_object a (blank d) = (o1, Ok tt) -> sees df s (seen df s (option_of a s)) o1.
  Proof.
    destruct a as [n e z w ls rs lt rt sn se sl sr]. unfold init_object.
    cbn [op_nodes op_edges op_size op_width op_lscale op_ltol op_rscale op_rtol op_show_nodes op_show_edges].
    assert (W : forall v (o : vobj T), field s o = v -> field s (fst (set_width w o)) = v).
    { intros v. change (keeps (fun o => field s o = v) (set_width w)). apply keeps_put_width; intros; destruct s; assumption. }
    unfold ebind. cbn [set_nodes set_edges estate].
    assert (S : forall (p : option T -> vobj T -> vobj T) y o, set_number p y o = (match y with Some y => p (Some y) o | None => o end, Ok tt)).
    { intros p [y|] o; reflexivity. }
    unfold set_size at 1. rewrite S.
    match goal with |- context [set_width w ?o] => assert (W0 := W _ o eq_refl); destruct (set_width w o) as [o2 [[]|ex]] eqn:E end;
      cbn [fst] in W0; [|discriminate].
    unfold set_load_scale, set_load_tol, set_residual_scale, set_residual_tol. rewrite !S. cbn [set_shown_nodes set_shown_edges estate].
    intros X. apply pair_equal_spec in X as [<- _]. unfold sees.
    destruct s; cbn in W0 |- *; destruct z, ls, lt, rs, rt; cbn in W0 |- *; try rewrite W0; reflexivity.
  Qed.

  Lemma ebind_Ok {A B} (m : eff (vobj T) A) (f : A -> eff (vobj T) B) o o' b :
    ebind m f o = (o', Ok b) -> exists o1 a, m o = (o1, Ok a) /\ f a o1 = (o', Ok b).
  Proof. unfold ebind. destruct (m o) as [o1 [a|e]]; [eauto|discriminate]. Qed.

  Lemma keeps_draw_edges I c df : keeps I get_edges -> keeps I (get_width df) -> keeps I (get_edge_color c) -> keeps I (get_groups c) ->
    keeps I (draw_edges c df).
  Proof.
    intros Ke Kw Kec Kg o Io. unfold draw_edges. destruct (negb (edges_drawn (vo_flags o))); [exact Io|]. revert o Io.
    match goal with |- forall o, I o -> I (fst (?m o)) => change (keeps I m) end. apply keeps_bind.
    { unfold edge_meshes. apply keeps_bind; auto. intros es. apply keeps_loop. intros m e.
      apply keeps_bind; [apply keeps_get|]. intros p. apply keeps_bind; [apply keeps_get|]. intros ax.
      apply keeps_bind; auto. intros ws. apply keeps_bind; [apply keeps_get|]. intros x.
      apply keeps_bind; [apply keeps_get|]. intros h. apply keeps_ret. }
    intros m. apply keeps_bind; auto. intros gs. apply keeps_loop. intros out [g [|e l]]; cbn [snd]; [apply keeps_ret|].
    apply keeps_bind; [apply keeps_get|]. intros cyls. apply keeps_bind; auto. intros cs.
    apply keeps_bind; [apply keeps_get|]. intros k. apply keeps_ret.
  Qed.
  Lemma keeps_draw_loads I df : keeps I get_nodes -> keeps I (get_load_scale df) -> keeps I (get_load_tol df) -> keeps I (draw_loads df).
  Proof.
    intros Kn K1 K2. unfold draw_loads. apply keeps_bind; auto. intros ns.
    apply keeps_bind; auto. intros s. apply keeps_bind; auto. intros t. apply keeps_get.
  Qed.
  Lemma keeps_draw_residuals I df : keeps I get_nodes -> keeps I (get_residual_scale df) -> keeps I (get_residual_tol df) ->
    keeps I (draw_residuals df).
  Proof.
    intros Kn K1 K2. unfold draw_residuals. apply keeps_bind; auto. intros ns.
    apply keeps_bind; auto. intros s. apply keeps_bind; auto. intros t. apply keeps_get.
  Qed.

  (** What happens when an object is made *)
  Lemma new_object_Ok c df d a o dr : new_object c df d a = (o, Ok dr) ->
    exists o0 o1 o2 o3 o4 ecs ncs, init_object a (blank d) = (o0, Ok tt)
      /\ get_edge_color c o0 = (o1, Ok ecs) /\ get_node_color c o1 = (o2, Ok ncs)
      /\ draw_edges c df o2 = (o3, Ok (dr_edges dr))
      /\ (if op_show_loads a then exists l, draw_loads df o3 = (o4, Ok l) /\ dr_loads dr = Some l
          else o4 = o3 /\ dr_loads dr = None)
      /\ (match c with
          | IsForm => if op_show_residuals a then exists l, draw_residuals df o4 = (o, Ok l) /\ dr_residuals dr = Some l
                      else o = o4 /\ dr_residuals dr = None
          | IsTopology => o = o4 /\ dr_residuals dr = None
          end).
  Proof.
    unfold new_object. intros E.
    apply ebind_Ok in E as (o0&[]&E0&E). apply ebind_Ok in E as (o1&ecs&E1&E). apply ebind_Ok in E as (o2&ncs&E2&E).
    apply ebind_Ok in E as (o3&es&E3&E). apply ebind_Ok in E as (o4&ls&E4&E). apply ebind_Ok in E as (o5&rs&E5&E).
    unfold eret in E. apply pair_equal_spec in E as [<- E]. apply Ok_inj in E. subst dr. cbn [dr_edges dr_loads dr_residuals].
    exists o0, o1, o2, o3, o4, ecs, ncs. repeat (split; [assumption|]). split.
    - destruct (op_show_loads a).
      + apply ebind_Ok in E4 as (o6&l&E6&E4). unfold eret in E4. apply pair_equal_spec in E4 as [<- E4]. apply Ok_inj in E4. eauto.
      + unfold eret in E4. apply pair_equal_spec in E4 as [-> E4]. apply Ok_inj in E4. auto.
    - destruct c.
      + unfold eret in E5. apply pair_equal_spec in E5 as [-> E5]. apply Ok_inj in E5. auto.
      + destruct (op_show_residuals a).
        * apply ebind_Ok in E5 as (o6&l&E6&E5). unfold eret in E5. apply pair_equal_spec in E5 as [<- E5]. apply Ok_inj in E5. eauto.
        * unfold eret in E5. apply pair_equal_spec in E5 as [-> E5]. apply Ok_inj in E5. auto.
  Qed.

  Lemma keeps_Ok I {A} (m : eff (vobj T) A) o o' (r : res A) : keeps I m -> m o = (o', r) -> I o -> I o'.
  Proof. intros K E Io. specialize (K o Io). now rewrite E in K. Qed.

  Lemma new_keeps I c df d a o dr : new_object c df d a = (o, Ok dr) ->
    (forall o0, init_object a (blank d) = (o0, Ok tt) -> I o0) ->
    keeps I get_nodes -> keeps I get_edges -> keeps I (get_width df) ->
    keeps I (get_edge_color c) -> keeps I (get_node_color c) -> keeps I (get_groups c) ->
    keeps I (get_load_scale df) -> keeps I (get_load_tol df) -> keeps I (get_residual_scale df) -> keeps I (get_residual_tol df) -> I o.
  Proof.
    intros E I0 Kn Ke Kw Kec Knc Kg Kl1 Kl2 Kr1 Kr2.
    apply new_object_Ok in E as (o0&o1&o2&o3&o4&ecs&ncs&E0&E1&E2&E3&E4&E5).
    assert (H0 := I0 o0 E0). assert (H1 := keeps_Ok I _ _ _ _ Kec E1 H0). assert (H2 := keeps_Ok I _ _ _ _ Knc E2 H1).
    assert (H3 := keeps_Ok I _ _ _ _ (keeps_draw_edges I c df Ke Kw Kec Kg) E3 H2).
    assert (H4 : I o4).
    { destruct (op_show_loads a); [destruct E4 as (l&E4&_)|destruct E4 as [-> _]; exact H3].
      exact (keeps_Ok I _ _ _ _ (keeps_draw_loads I df Kn Kl1 Kl2) E4 H3). }
    destruct c; [destruct E5 as [-> _]; exact H4|].
    destruct (op_show_residuals a); [destruct E5 as (l&E5&_)|destruct E5 as [-> _]; exact H4].
    exact (keeps_Ok I _ _ _ _ (keeps_draw_residuals I df Kn Kr1 Kr2) E5 H4).
  Qed.

  (** A number other than zero that is given for a new object is what is read; if none
      is given, it is the default. *)
  Lemma c99_new : forall c df d a o dr s, new_object c df d a = (o, Ok dr) ->
    (forall x, option_of a s = Some x -> ntruthy x = true -> shows df s o x)
    /\ (option_of a s = None -> shows df s o (default df s)).
  Proof.
    intros c df d a o dr s E.
    enough (G : shows df s o (seen df s (option_of a s))).
    { split; [intros x Ea Tr|intros Ea]; rewrite Ea in G; cbn [seen] in G; [rewrite Tr in G|]; exact G. }
    apply shows_seen. set (x := seen df s (option_of a s)).
    apply (new_keeps (sees df s x) c df d a o dr E).
    - intros o0 E0. now apply init_sees with (1 := E0).
    - apply keeps_get_nodes. destruct s; quiet.
    - apply keeps_get_edges. destruct s; quiet.
    - apply keeps_get_width; destruct s; quiet.
    - apply keeps_edge_color; destruct s; quiet.
    - apply keeps_node_color; destruct s; quiet.
    - apply keeps_groups; destruct s; quiet.
    - apply (read_keeps df s LoadScale).
    - apply (read_keeps df s LoadTol).
    - apply (read_keeps df s ResidualScale).
    - apply (read_keeps df s ResidualTol).
  Qed.

  (** ** Nodes that are drawn later *)

  (** The object is about the diagram, and what it keeps of the nodes is right. *)
  Definition fresh (c : kind) d o : Prop :=
    vo_diagram o = d
    /\ (vo_xyz o = None \/ exists m, vo_xyz o = Some m /\ forall n, In n (nodes d) -> exists p, node_coordinates d n = Ok p /\ dget m n = Some p)
    /\ (nodes d = [] \/ exists m, vo_ncolor o = Some m /\ m <> [] /\ node_colors_of c d (nodes d) = Ok m).

  Lemma coordinates_all d : exists m, fold_res (fun m n => let* p := node_coordinates d n in Ok (dset m n p)) (nodes d) [] = Ok m
    /\ forall n, In n (nodes d) -> exists p, node_coordinates d n = Ok p /\ dget m n = Some p.
  Proof.
    destruct (fold_keyed (node_coordinates d) (nodes d) []) as (m&E&I1&_).
    - intros n I. destruct (node_known d n I) as (a&_&Ep). eauto.
    - exists m. split; [exact E|]. intros n I. destruct (node_known d n I) as (a&_&Ep). eauto.
  Qed.

  Lemma fresh_xyz c d o : fresh c d o -> exists o' m, get_xyz o = (o', Ok m) /\ fresh c d o' /\ vo_nodes o' = vo_nodes o
    /\ forall n, In n (nodes d) -> exists p, node_coordinates d n = Ok p /\ dget m n = Some p.
  Proof.
    intros (Hd&Hx&Hc). destruct (coordinates_all d) as (m0&E0&M0).
    assert (F : forall o1, vo_diagram o1 = d -> vo_ncolor o1 = vo_ncolor o -> fresh c d (put_xyz (Some m0) o1)).
    { intros o1 D1 C1. split; [exact D1|]. split; [right; exists m0; split; [reflexivity|exact M0]|]. cbn. rewrite C1. exact Hc. }
    unfold get_xyz. rewrite Hd, E0. destruct (vo_xyz o) as [[|p m]|] eqn:Ex.
    - exists (put_xyz (Some m0) o), m0. auto.
    - destruct Hx as [|(m'&Em&Hm)]; [discriminate|]. apply Some_inj in Em. subst m'. exists o, (p :: m).
      split; [reflexivity|]. split; [|split; [reflexivity|exact Hm]]. split; [exact Hd|]. split; [right; eauto|exact Hc].
    - exists (put_xyz (Some m0) o), m0. auto.
  Qed.

  Lemma fresh_ncolor c d o : fresh c d o -> nodes d <> [] ->
    exists m, get_node_color c o = (o, Ok m) /\ node_colors_of c d (nodes d) = Ok m.
  Proof.
    intros (_&_&[E|(m&E&Ne&Em)]) N; [contradiction|]. exists m. split; [|exact Em]. unfold get_node_color, computed. rewrite E.
    now destruct m.
  Qed.

  Lemma fresh_keeps_put c d : 
    (forall v o, fresh c d o -> fresh c d (put_nodes v o)) /\ (forall v o, fresh c d o -> fresh c d (put_edges v o))
    /\ (forall v o, fresh c d o -> fresh c d (put_width v o)) /\ (forall v o, fresh c d o -> fresh c d (put_ecolor v o))
    /\ (forall v o, fresh c d o -> fresh c d (put_groups v o)).
  Proof. repeat match goal with |- _ /\ _ => split end; intros v o F; exact F. Qed.

  Lemma fresh_keeps_xyz c d : keeps (fresh c d) get_xyz.
  Proof. intros o F. destruct (fresh_xyz c d o F) as (o'&m&E&F'&_). now rewrite E. Qed.

  Lemma fresh_keeps_ncolor c d : keeps (fresh c d) (get_node_color c).
  Proof.
    intros o F. destruct (nodes d) as [|n l] eqn:N.
    - assert (G : keeps (fun o => vo_diagram o = d
        /\ (vo_xyz o = None \/ exists m, vo_xyz o = Some m /\ forall n, In n (nodes d) -> exists p, node_coordinates d n = Ok p /\ dget m n = Some p))
        (get_node_color c)).
      { apply keeps_node_color; intros; assumption. }
      destruct F as (F1&F2&_). destruct (G o (conj F1 F2)) as (G1&G2). split; [exact G1|]. split; [exact G2|]. left; exact N.
    - destruct (fresh_ncolor c d o F) as (m&E&_); [congruence|]. now rewrite E.
  Qed.

  Lemma fresh_use c df d u : same_diagram u -> forall o, fresh c d o -> fresh c d (after_use c df o u).
  Proof.
    intros Sd. destruct (fresh_keeps_put c d) as (Kn&Ke&Kw&Kec&Kg).
    assert (D : match u with UDrawNodes | UDrawEdges | UDrawLines | UDrawLoads | UDrawResiduals => True | _ => False end ->
      forall o, fresh c d o -> fresh c d (after_use c df o u)).
    { apply draws_keep.
      - now apply keeps_get_nodes.
      - now apply keeps_get_edges.
      - apply fresh_keeps_xyz.
      - now apply keeps_get_width.
      - now apply keeps_edge_color.
      - apply fresh_keeps_ncolor.
      - now apply keeps_groups.
      - apply keeps_number; intros; assumption.
      - apply keeps_number; intros; assumption.
      - apply keeps_number; intros; assumption.
      - apply keeps_number; intros; assumption. }
    destruct u as [d'|l|l|m|[y|]|w|[y|]|[y|]|[y|]|[y|]|b|b| | | | |]; try (exact (D Logic.I)); try contradiction; intros o Io; cbn [after_use];
      try exact Io.
    apply (keeps_put_width (fresh c d) w Ke Kw o Io).
  Qed.

  (** What making an object leaves for later *)
  Lemma new_fresh c df d a o dr : produced d -> new_object c df d a = (o, Ok dr) -> op_nodes a = None -> fresh c d o.
  Proof.
    intros Hr E En. apply new_object_Ok in E as (o0&o1&o2&o3&o4&ecs&ncs&E0&E1&E2&E3&E4&E5).
    set (early := fun o : vobj T => vo_diagram o = d /\ vo_xyz o = None /\ vo_ncolor o = None /\ vo_nodes o = None).
    assert (H0 : early o0).
    { change o0 with (fst (o0, Ok tt)). rewrite <- E0. unfold init_object. rewrite En.
      assert (B : early (blank d)) by (repeat split). revert B. generalize (blank d).
      match goal with |- forall o, early o -> early (fst (?m o)) => change (keeps early m) end.
      repeat (apply keeps_bind; [|intros []]);
        try (apply keeps_put_width; intros; assumption);
        try (apply keeps_state; intros; assumption).
      - apply keeps_state. intros o' (A&B&C&_). repeat split; assumption.
      - destruct (op_size a); [apply keeps_state; intros; assumption|apply keeps_ret].
      - destruct (op_lscale a); [apply keeps_state; intros; assumption|apply keeps_ret].
      - destruct (op_ltol a); [apply keeps_state; intros; assumption|apply keeps_ret].
      - destruct (op_rscale a); [apply keeps_state; intros; assumption|apply keeps_ret].
      - destruct (op_rtol a); [apply keeps_state; intros; assumption|apply keeps_ret]. }
    assert (H1 : early o1).
    { apply (keeps_Ok early _ _ _ _ (keeps_edge_color early c (fun v o H => H) (fun v o H => H)) E1 H0). }
    destruct H1 as (D1&X1&C1&N1).
    assert (H2 : fresh c d o2).
    { unfold get_node_color, computed in E2. rewrite C1 in E2. apply ebind_Ok in E2 as (o5&m&E6&E7).
      unfold ebind, get_nodes in E6. rewrite N1 in E6. cbn [fst snd] in E6. unfold eget in E6.
      apply pair_equal_spec in E6 as [<- E6]. cbn [vo_diagram put_nodes] in E6. rewrite D1 in E6.
      unfold estate in E7. apply pair_equal_spec in E7 as [<- E7]. apply Ok_inj in E7. subst m.
      split; [exact D1|]. split; [left; exact X1|].
      destruct (nodes d) as [|n l] eqn:Nd; [left; reflexivity|right]. exists ncs. split; [reflexivity|]. split; [|exact E6].
      intros ->. destruct (c71_nodes d (nodes d) Hr (fun _ h => h)) as ((mt&Et&Kt&_)&_&(mf&Ef&Kf&_)&_).
      rewrite Nd in Et, Ef, Kt, Kf. destruct c; cbn [node_colors_of] in E6; rewrite E6 in *.
      - apply Ok_inj in Et. subst mt. assert (X := proj2 (Kt n) (or_introl eq_refl)). discriminate.
      - apply Ok_inj in Ef. subst mf. assert (X := proj2 (Kf n) (or_introl eq_refl)). discriminate. }
    destruct (fresh_keeps_put c d) as (Kn&Ke&Kw&Kec&Kg).
    assert (Kno := keeps_get_nodes _ Kn). assert (Ked := keeps_get_edges _ Ke).
    assert (Knum : forall get put x, (forall v o, fresh c d o -> fresh c d (put v o)) -> keeps (fresh c d) (get_number get put x)).
    { intros; now apply keeps_number. }
    assert (H3 := keeps_Ok (fresh c d) _ _ _ _
      (keeps_draw_edges _ c df Ked (keeps_get_width _ df Ke Kw) (keeps_edge_color _ c Ke Kec) (keeps_groups _ c Ke Kg)) E3 H2).
    assert (H4 : fresh c d o4).
    { destruct (op_show_loads a); [destruct E4 as (l&E4&_)|destruct E4 as [-> _]; exact H3].
      refine (keeps_Ok (fresh c d) _ _ _ _ (keeps_draw_loads _ df Kno _ _) E4 H3); apply Knum; intros; assumption. }
    destruct c; [destruct E5 as [-> _]; exact H4|].
    destruct (op_show_residuals a); [destruct E5 as (l&E5&_)|destruct E5 as [-> _]; exact H4].
    refine (keeps_Ok (fresh IsForm d) _ _ _ _ (keeps_draw_residuals _ df Kno _ _) E5 H4); apply Knum; intros; assumption.
  Qed.

  Lemma draw_nodes_fresh c d o ns : produced d -> fresh c d o -> vo_nodes o = Some ns -> (forall n, In n ns -> In n (nodes d)) ->
    exists out, snd (draw_nodes c o) = Ok out /\ points_of c d ns out.
  Proof.
    intros Hr F En Sub. unfold draw_nodes, ebind at 1, get_nodes. rewrite En.
    destruct ns as [|n0 ns0]; [exists ([], [], []); split; [reflexivity|]; split; cbn; constructor|].
    assert (Nd : nodes d <> []) by (intros X; specialize (Sub n0 (or_introl eq_refl)); rewrite X in Sub; contradiction).
    set (ns := n0 :: ns0) in *. clearbody ns. clear En n0 ns0.
    destruct (fresh_ncolor c d o F Nd) as (cs&_&Ecs).
    assert (Col : forall n, In n (nodes d) -> exists k, dget cs n = Some k /\ ((In n (support_nodes d) -> k = green)
                  /\ (c = IsTopology -> In n (origin_nodes d) -> k = violet)
                  /\ (~ In n (support_nodes d) -> (c = IsTopology -> ~ In n (origin_nodes d)) -> k = black))).
    { destruct (c71_nodes d (nodes d) Hr (fun _ h => h)) as ((mt&Et&Kt&Ct)&_&(mf&Ef&Kf&Cf)&_).
      destruct c; cbn [node_colors_of] in Ecs.
      - rewrite Et in Ecs. apply Ok_inj in Ecs. subst mt. intros n I. destruct (Ct n I) as (A&B&C).
        assert (M := proj2 (Kt n) I). unfold dmem in M. destruct (dget cs n) as [k|]; [|discriminate]. exists k. split; auto.
        split; [intros; apply Some_inj; auto|]. split; [intros _ J; apply Some_inj; auto|]. intros J J'. apply Some_inj, C; auto.
      - rewrite Ef in Ecs. apply Ok_inj in Ecs. subst mf. intros n I. destruct (Cf n I) as (A&B&C).
        assert (M := proj2 (Kf n) I). unfold dmem in M. destruct (dget cs n) as [k|]; [|discriminate]. exists k. split; auto.
        split; [intros; apply Some_inj; auto|]. split; [discriminate|]. intros J J'.
        destruct (in_dec Z.eq_dec n (origin_nodes d)); apply Some_inj; auto. }
    set (body := fun (acc : (list (vec T) * list rgb * list (list Z)) * Z) n =>
      let '(positions, colors, elements, i) := acc in
      do* xyz := get_xyz in
      do* cs := get_node_color c in
      eret ((positions ++ [match dget xyz n with Some p => p | None => vzero end],
             colors ++ [match dget cs n with Some k => k | None => black_node end],
             elements ++ [[i]]), i + 1)).
    enough (G : forall ns, (forall n, In n ns -> In n (nodes d)) -> forall o ps ks es i, fresh c d o ->
      exists o' ps' ks', eloop body ns ((ps, ks, es), Z.of_nat i) o
        = (o', Ok ((ps ++ ps', ks ++ ks', es ++ map (fun i => [Z.of_nat i]) (seq i (List.length ns))), Z.of_nat (i + List.length ns)))
        /\ drawn_points d ns ps'
        /\ Forall2 (fun n k => (In n (support_nodes d) -> k = green)
                  /\ (c = IsTopology -> In n (origin_nodes d) -> k = violet)
                  /\ (~ In n (support_nodes d) -> (c = IsTopology -> ~ In n (origin_nodes d)) -> k = black)) ns ks').
    { destruct (G ns Sub o [] [] [] O F) as (o'&ps&ks&E&P&K). cbn [app Nat.add Z.of_nat] in E.
      exists (ps, ks, map (fun i => [Z.of_nat i]) (seq 0 (List.length ns))). split; [|split; auto].
      unfold ebind. fold body. change (Z.of_nat 0) with 0 in E. rewrite E. reflexivity. }
    clear ns Sub o F. induction ns as [|n ns IH]; intros Sub o ps ks es i F.
    - exists o, [], []. cbn [eloop List.length seq map]. rewrite !app_nil_r, Nat.add_0_r. split; [reflexivity|]. split; constructor.
    - cbn [eloop]. unfold ebind at 1. unfold body at 1. destruct (fresh_xyz c d o F) as (o1&m&E1&F1&_&M1).
      unfold ebind at 1. rewrite E1. destruct (fresh_ncolor c d o1 F1 Nd) as (cs'&E2&Ecs'). rewrite Ecs in Ecs'. apply Ok_inj in Ecs'. subst cs'.
      unfold ebind at 1. rewrite E2. unfold eret at 1.
      destruct (M1 n (Sub n (or_introl eq_refl))) as (p&Ep&Gp). destruct (Col n (Sub n (or_introl eq_refl))) as (k&Gk&Pk).
      rewrite Gp, Gk.
      destruct (IH (fun n' h => Sub n' (or_intror h)) o1 (ps ++ [p]) (ks ++ [k]) (es ++ [[Z.of_nat i]]) (S i) F1) as (o'&ps'&ks'&E&P&K).
      exists o', (p :: ps'), (k :: ks'). split; [|split; constructor; auto].
      replace (Z.of_nat i + 1) with (Z.of_nat (S i)) by lia. rewrite E. cbn [List.length seq map].
      rewrite <- !app_assoc. cbn [app]. rewrite Nat.add_succ_comm. reflexivity.
  Qed.

  (** The nodes selected last are drawn where they are, in the color of what they are,
      whatever the object was used for before, as long as neither a diagram nor coordinates
      were assigned to it. *)
  Lemma c101_nodes : forall c df d a o dr us ns, produced d -> new_object c df d a = (o, Ok dr) -> op_nodes a = None ->
    (forall u, In u us -> same_diagram u) -> (forall n, In n ns -> In n (nodes d)) ->
    exists out, snd (draw_nodes c (used c df o (us ++ [UNodes (Some ns)]))) = Ok out /\ points_of c d ns out.
  Proof.
    intros c df d a o dr us ns Hr E En Sd Sub. assert (F := new_fresh c df d a o dr Hr E En).
    unfold used. rewrite fold_left_app. fold (used c df o us).
    assert (F' : fresh c d (used c df o us)) by (apply used_keep; auto; intros u I; now apply fresh_use, Sd).
    cbn [fold_left]. apply draw_nodes_fresh; auto.
  Qed.

  (** Loads and reactions are drawn for the diagram that was assigned last, for all its nodes. *)
  Lemma c101_assigned : forall c df o d us, (forall u, In u us -> match u with UDiagram _ | UNodes _ => False | _ => True end) ->
    let o' := used c df o (UDiagram d :: us) in
    (forall s t, shows df LoadScale o' s -> shows df LoadTol o' t -> snd (draw_loads df o') = viewer_loads d (nodes d) s t)
    /\ (forall s t, shows df ResidualScale o' s -> shows df ResidualTol o' t -> snd (draw_residuals df o') = viewer_residuals d (nodes d) s t).
  Proof.
    intros c df o d us L o'.
    assert (I : vo_diagram o' = d /\ (vo_nodes o' = None \/ vo_nodes o' = Some (nodes d))).
    { unfold o', used. cbn [fold_left]. fold (used c df (after_use c df o (UDiagram d)) us).
      set (I := fun o : vobj T => vo_diagram o = d /\ (vo_nodes o = None \/ vo_nodes o = Some (nodes d))).
      apply (used_keep I); [|split; [reflexivity|left; reflexivity]].
      assert (Kn : keeps I get_nodes).
      { intros o1 (D&N). unfold get_nodes. destruct (vo_nodes o1) as [l|] eqn:E1; cbn [fst].
        - split; auto. now rewrite E1.
        - split; auto. cbn. right. now rewrite D. }
      intros u Iu o1 I1. specialize (L u Iu).
      assert (D : match u with UDrawNodes | UDrawEdges | UDrawLines | UDrawLoads | UDrawResiduals => True | _ => False end -> I (after_use c df o1 u)).
      { intros Du. apply draws_keep; auto; try (apply keeps_number; intros; assumption).
        - apply keeps_get_edges; intros; assumption.
        - apply keeps_get_xyz; intros; assumption.
        - apply keeps_get_width; intros; assumption.
        - apply keeps_edge_color; intros; assumption.
        - unfold get_node_color. apply keeps_computed; [|intros; assumption]. apply keeps_bind; auto. intros; apply keeps_get.
        - apply keeps_groups; intros; assumption. }
      destruct u as [d'|l|l|m|[y|]|w|[y|]|[y|]|[y|]|[y|]|b|b| | | | |]; try (exact (D Logic.I)); try contradiction; cbn [after_use];
        try exact I1. apply (keeps_put_width I w); auto; intros; assumption. }
    destruct I as [D N].
    assert (Gn : exists o1, get_nodes o' = (o1, Ok (nodes d)) /\ vo_diagram o1 = d /\ forall s, field s o1 = field s o').
    { unfold get_nodes. destruct N as [-> | ->]; [|exists o'; repeat split; auto].
      exists (put_nodes (Some (nodes (vo_diagram o'))) o'). rewrite D. repeat split; auto. intros []; reflexivity. }
    destruct Gn as (o1&E1&D1&F1). split.
    { intros s t Hs Ht. unfold draw_loads, ebind at 1. rewrite E1.
    assert (Hs1 : shows df LoadScale o1 s) by (apply shows_seen; rewrite F1; now apply shows_seen).
    unfold ebind at 1. unfold shows in Hs1. cbn [read] in Hs1.
    assert (K1 : keeps (fun o => vo_diagram o = d /\ vo_ltol o = vo_ltol o') (get_load_scale df)) by (apply keeps_number; intros; assumption).
    specialize (K1 o1 (conj D1 (F1 LoadTol))). destruct (get_load_scale df o1) as [o2 r]. cbn [fst snd] in *. subst r.
    destruct K1 as [D2 F2].
    assert (Ht2 : shows df LoadTol o2 t) by (apply shows_seen; change (field LoadTol o2) with (vo_ltol o2); rewrite F2; now apply shows_seen in Ht).
    unfold ebind. unfold shows in Ht2. cbn [read] in Ht2.
    assert (K2 : keeps (fun o => vo_diagram o = d) (get_load_tol df)) by (apply keeps_number; intros; assumption).
    specialize (K2 o2 D2). destruct (get_load_tol df o2) as [o3 r]. cbn [fst snd] in *. subst r. unfold eget. cbn [snd]. now rewrite K2. }
    { intros s t Hs Ht. unfold draw_residuals, ebind at 1. rewrite E1.
    assert (Hs1 : shows df ResidualScale o1 s) by (apply shows_seen; rewrite F1; now apply shows_seen).
    unfold ebind at 1. unfold shows in Hs1. cbn [read] in Hs1.
    assert (K1 : keeps (fun o => vo_diagram o = d /\ vo_rtol o = vo_rtol o') (get_residual_scale df)) by (apply keeps_number; intros; assumption).
    specialize (K1 o1 (conj D1 (F1 ResidualTol))). destruct (get_residual_scale df o1) as [o2 r]. cbn [fst snd] in *. subst r.
    destruct K1 as [D2 F2].
    assert (Ht2 : shows df ResidualTol o2 t) by (apply shows_seen; change (field ResidualTol o2) with (vo_rtol o2); rewrite F2; now apply shows_seen in Ht).
    unfold ebind. unfold shows in Ht2. cbn [read] in Ht2.
    assert (K2 : keeps (fun o => vo_diagram o = d) (get_residual_tol df)) by (apply keeps_number; intros; assumption).
    specialize (K2 o2 D2). destruct (get_residual_tol df o2) as [o3 r]. cbn [fst snd] in *. subst r. unfold eget. cbn [snd]. now rewrite K2. }
  Qed.

  (** ** What is visible *)

  Lemma flags_use (P : flags -> Prop) c df u : (forall b s, u = UShowNodes b -> P s -> P (set_show_nodes b s)) ->
    (forall b s, u = UShowEdges b -> P s -> P (set_show_edges b s)) ->
    forall o, P (vo_flags o) -> P (vo_flags (after_use c df o u)).
  Proof.
    intros Kn Ke. set (I := fun o : vobj T => P (vo_flags o)).
    assert (D : match u with UDrawNodes | UDrawEdges | UDrawLines | UDrawLoads | UDrawResiduals => True | _ => False end ->
      forall o, I o -> I (after_use c df o u)).
    { apply draws_keep; try (apply keeps_number; intros v o h; exact h).
      - apply keeps_get_nodes; intros v o h; exact h.
      - apply keeps_get_edges; intros v o h; exact h.
      - apply keeps_get_xyz; intros v o h; exact h.
      - apply keeps_get_width; intros v o h; exact h.
      - apply keeps_edge_color; intros v o h; exact h.
      - apply keeps_node_color; intros v o h; exact h.
      - apply keeps_groups; intros v o h; exact h. }
    destruct u as [d'|l|l|m|[y|]|w|[y|]|[y|]|[y|]|[y|]|b|b| | | | |]; try (exact (D Logic.I)); intros o Io; cbn [after_use];
      try exact Io.
    - refine (keeps_put_width I w _ _ o Io); intros v q h; exact h.
    - cbn. now apply Kn.
    - cbn. now apply Ke.
  Qed.

  (** The points of an object and its lines are visible as asked for last. *)
  Lemma c73_objects : forall c df o b us,
    ((forall u, In u us -> forall x, u <> UShowNodes x) -> fl_points (vo_flags (used c df o (UShowNodes b :: us))) = b)
    /\ ((forall u, In u us -> forall x, u <> UShowEdges x) -> fl_lines (vo_flags (used c df o (UShowEdges b :: us))) = b).
  Proof.
    intros c df o b us. split; intros L; unfold used; cbn [fold_left].
    - apply (used_keep (fun o => fl_points (vo_flags o) = b)); [|reflexivity]. intros u Iu q Hq.
      apply (flags_use (fun s => fl_points s = b)); auto. intros x s E. now apply L in E.
    - apply (used_keep (fun o => fl_lines (vo_flags o) = b)); [|reflexivity]. intros u Iu q Hq.
      apply (flags_use (fun s => fl_lines s = b)); auto. intros x s E. now apply L in E.
  Qed.

  (** So they are when the object is made. *)
  Lemma c73_new : forall c df d a o dr, new_object c df d a = (o, Ok dr) ->
    fl_points (vo_flags o) = op_show_nodes a /\ fl_lines (vo_flags o) = op_show_edges a.
  Proof.
    intros c df d a o dr E.
    apply (new_keeps (fun o => fl_points (vo_flags o) = op_show_nodes a /\ fl_lines (vo_flags o) = op_show_edges a) c df d a o dr E);
      try (apply keeps_number; intros v q h; exact h).
    - intros o0 E0. unfold init_object in E0. do 8 (apply ebind_Ok in E0 as (?&?&_&E0)).
      unfold set_shown_nodes, set_shown_edges, ebind, estate in E0. apply pair_equal_spec in E0 as [<- _]. split; reflexivity.
    - apply keeps_get_nodes; intros v q h; exact h.
    - apply keeps_get_edges; intros v q h; exact h.
    - apply keeps_get_width; intros v q h; exact h.
    - apply keeps_edge_color; intros v q h; exact h.
    - apply keeps_node_color; intros v q h; exact h.
    - apply keeps_groups; intros v q h; exact h.
  Qed.
End Keeps.

(** ** Edges as cylinders *)

Lemma pictured_one c (d : diagram R) e k k' : (c = IsTopology -> produced d) -> pictured c d e k -> pictured c d e k' -> k = k'.
Proof.
  intros Hr P P'. destruct c; cbn [pictured] in *; [apply (c71_one_look d e); auto|].
  destruct P as [e f E L|e f E L|e E]; inversion P' as [e' f' E' L' X|e' f' E' L' X|e' E' X]; subst; auto;
    rewrite E in E'; apply Ok_inj in E'; subst; exfalso; lra.
Qed.

Lemma presentable_draw c (d : diagram R) es : presentable c d es ->
  exists cs gs out, edge_colors_of c d es = Ok cs /\ groups_of c d es = Ok gs /\ viewer_draw gs cs = Ok out
    /\ drawn_as es out (pictured c d) /\ keyed cs es /\ forall e, In e es -> exists k, dget cs e = Some k /\ pictured c d e k.
Proof.
  intros [_ P]. destruct c; cbn [edge_colors_of groups_of pictured] in *.
  - destruct P as (Hr&Dr&Sub). destruct (c71_topology d es Hr Dr Sub) as ((cs&Ec&Kc&Cc)&(out&Eo&Do)).
    unfold viewer_draw_topology in Eo. rewrite Ec in Eo. cbn [bind] in Eo.
    destruct (edges_by_type d es) as [gs|] eqn:Eg; [|discriminate]. exists cs, gs, out. auto 8.
  - destruct (c71_viewer_form d es P) as ((cs&Ec&Kc&Cc)&(out&Eo&Do)).
    unfold viewer_draw_form in Eo. rewrite Ec in Eo. cbn [bind] in Eo.
    destruct (form_edges_by_type d es) as [gs|] eqn:Eg; [|discriminate]. exists cs, gs, out. auto 8.
Qed.

(** The groups are drawn in the same colors out of any dictionary that agrees on their edges. *)
Lemma viewer_draw_ext (gs : dict string (list ekey)) cs cs' :
  (forall k l e, In (k, l) gs -> In e l -> dget cs' e = dget cs e) -> viewer_draw gs cs' = viewer_draw gs cs.
Proof.
  unfold viewer_draw. intros A.
  match goal with |- fold_res ?f gs ?z = fold_res ?g gs ?z => enough (G : forall acc, fold_res f gs acc = fold_res g gs acc) by apply G end.
  revert A. induction gs as [|[k l] gs IH]; intros A acc; cbn [fold_res snd]; auto.
  assert (A' : forall k l e, In (k, l) gs -> In e l -> dget cs' e = dget cs e).
  { intros k' l' e' I J. apply (A k' l'); auto. now right. }
  destruct l as [|e l]; cbn [bind]; [now apply IH|].
  unfold dgetr. rewrite (A k (e :: l) e (or_introl eq_refl) (or_introl eq_refl)).
  destruct (dget cs e); cbn [bind]; auto.
Qed.

Lemma half_way (a b : rvec) :
  let m := scale_vector (T:=R) (add_vectors a b) (ndiv n1 (nadd n1 n1)) in
  let v := subtract_vectors (T:=R) b a in
  m -v (distance_point_point (T:=R) a b / 2)%R *v direction v = a /\ m +v (distance_point_point (T:=R) a b / 2)%R *v direction v = b.
Proof.
  cbn zeta. rewrite direction_unitv. unfold distance_point_point.
  change (length_vector (T:=R)) with norm. change (subtract_vectors b a) with (b -v a).
  assert (N := norm_times_unitv (b -v a)).
  assert (H : (norm (b -v a) / 2)%R *v unitv (b -v a) = (/ 2)%R *v (b -v a)).
  { rewrite <- N at 3. rewrite vscale_scale. f_equal. lra. }
  rewrite H. clear. destruct a as [a1 a2 a3], b as [b1 b2 b3].
  unfold add_vectors, subtract_vectors, scale_vector. cbn [vx vy vz nadd nsub nmul ndiv n1 R_ops]. split; f_equal; field.
Qed.

(** The position of a node that has coordinates *)
Lemma position_at (d : diagram R) n p : node_coordinates d n = Ok p -> position d n = p.
Proof. intros E. unfold position. now rewrite E. Qed.

Section Cylinders.
  Context (c : kind) (df : defaults R).
  Implicit Types (o : vobj R) (d : diagram R).

  Lemma get_width_spec o es : vo_edges o = Some es ->
    exists v, get_width df o = (put_width v o, Ok (viewer_width es (df_width df) (vo_width o)))
      /\ viewer_width es (df_width df) v = viewer_width es (df_width df) (vo_width o).
  Proof.
    intros Ee. assert (X : vo_width o = None \/ vo_width o = Some [] \/ exists p m, vo_width o = Some (p :: m)).
    { destruct (vo_width o) as [[|p m]|]; eauto. }
    assert (F : forall cur, vo_width o = cur -> (cur = None \/ cur = Some []) ->
      (do* _ := set_width (WNumber (df_width df)) in
       eget (fun o => match vo_width o with Some m => Ok m | None => Err TypeError end)) o
      = (put_width (Some (width_all es (df_width df))) o, Ok (width_all es (df_width df)))).
    { intros cur _ _. unfold ebind, set_width. cbn [viewer_set_width]. unfold ebind, get_edges. rewrite Ee. reflexivity. }
    assert (W : viewer_width es (df_width df) (Some (width_all es (df_width df))) = width_all es (df_width df)).
    { cbn [viewer_width]. destruct (truthy_dict _); reflexivity. }
    unfold get_width. destruct X as [E|[E|(p&m&E)]]; rewrite E.
    - rewrite (F None); auto. exists (Some (width_all es (df_width df))). split; [reflexivity|exact W].
    - rewrite (F (Some [])); auto. exists (Some (width_all es (df_width df))). split; [reflexivity|exact W].
    - exists (Some (p :: m)). split; [|reflexivity]. rewrite <- E at 1. destruct o; reflexivity.
  Qed.

  (** The cylinder of an edge with width [x] *)
  Definition cylinder_of d (e : ekey) (x : R) (cyl : cylinder R) : Prop :=
    exists a b, node_coordinates d (fst e) = Ok a /\ node_coordinates d (snd e) = Ok b
      /\ cyl = mkCylinder (scale_vector (add_vectors a b) (ndiv n1 (nadd n1 n1))) (subtract_vectors b a) (ndiv x (nadd n1 n1))
                 (distance_point_point a b).

  Lemma cylinder_around d e x cyl : cylinder_of d e x cyl -> around d e x cyl.
  Proof.
    intros (a&b&Ea&Eb&->). destruct (half_way a b) as [H1 H2].
    split; cbn [cy_center cy_height cy_axis cy_radius].
    - rewrite (position_at d _ a Ea). exact H1.
    - rewrite (position_at d _ b Eb). exact H2.
    - cbn [ndiv nadd n1 R_ops]. lra.
  Qed.

  Lemma meshes_spec d es W o : vo_diagram o = d -> vo_edges o = Some es -> viewer_width es (df_width df) (vo_width o) = W ->
    (forall e, In e es -> (In (fst e) (nodes d) /\ In (snd e) (nodes d)) /\ exists x, dget W e = Some x) ->
    exists v m, edge_meshes df o = (put_width v o, Ok m)
      /\ forall e, In e es -> exists x cyl, dget W e = Some x /\ dget m e = Some cyl /\ cylinder_of d e x cyl.
  Proof.
    intros Ed Ee Ew A. unfold edge_meshes, ebind at 1, get_edges. rewrite Ee.
    match goal with |- context [eloop ?f _ _ _] => set (body := f) end.
    enough (G : forall l, (forall e, In e l -> In e es) -> forall v m0, viewer_width es (df_width df) v = W ->
      exists v' m, eloop body l m0 (put_width v o) = (put_width v' o, Ok m)
        /\ (forall e, In e l -> exists x cyl, dget W e = Some x /\ dget m e = Some cyl /\ cylinder_of d e x cyl)
        /\ (forall e, ~ In e l -> dget m e = dget m0 e)).
    { destruct (G es (fun _ h => h) (vo_width o) [] Ew) as (v&m&E&M&_). exists v, m. split; [|exact M].
      rewrite <- E. destruct o; reflexivity. }
    induction l as [|e l IH]; intros Sub v m0 Ev.
    - exists v, m0. split; [reflexivity|]. split; [contradiction|auto].
    - cbn [eloop]. unfold ebind at 1. unfold body at 1.
      destruct (A e (Sub e (or_introl eq_refl))) as ((I1&I2)&x&Ex).
      destruct (node_known d _ I1) as (na&_&E1). destruct (node_known d _ I2) as (nb&_&E2).
      unfold ebind at 1. unfold eget at 1. cbn [vo_diagram put_width]. rewrite Ed. unfold edge_midpoint. rewrite E1, E2. cbn [bind].
      unfold ebind at 1. unfold eget at 1. cbn [vo_diagram put_width]. rewrite Ed. unfold edge_vector. rewrite E1, E2. cbn [bind].
      destruct (get_width_spec (put_width v o) es) as (v1&E3&E4); [exact Ee|]. cbn [vo_width put_width] in E3, E4. rewrite Ev in E3, E4.
      unfold ebind at 1. rewrite E3. unfold ebind at 1. unfold eget at 1. unfold dgetr. rewrite Ex.
      unfold ebind at 1. unfold eget at 1. cbn [vo_diagram put_width]. rewrite Ed. unfold edge_distance. rewrite E1, E2. cbn [bind].
      unfold eret at 1.
      match goal with |- context [dset m0 e ?k] => set (cyl := k) end.
      destruct (IH (fun e' h => Sub e' (or_intror h)) v1 (dset m0 e cyl) E4) as (v'&m&E&M1&M2).
      exists v', m. split; [exact E|]. split.
      + intros e' I. destruct (in_dec (@eq_dec_K ekey _) e' l) as [J|J]; [now apply M1|].
        destruct I as [<-|I]; [|contradiction]. exists x, cyl. split; auto. rewrite M2 by auto. split; [apply dget_dset_same|].
        exists (na_xyz na), (na_xyz nb). auto.
      + intros e' N. rewrite M2 by (intros J; apply N; now right). apply dget_dset_other. intros ->. apply N. now left.
  Qed.

  Lemma map_dgetr {V} (m : dict ekey V) l : (forall e, In e l -> exists v, dget m e = Some v) ->
    exists vs, map_res (fun e => dgetr m e) l = Ok vs /\ Forall2 (fun e v => dget m e = Some v) l vs.
  Proof.
    induction l as [|e l IH]; intros A; cbn [map_res]; [exists []; auto|].
    destruct (A e (or_introl eq_refl)) as [v E]. destruct IH as (vs&E'&F); [intros; apply A; now right|].
    unfold dgetr at 1. rewrite E. cbn [bind]. rewrite E'. cbn [bind]. exists (v :: vs). auto.
  Qed.

  Lemma groups_loop (o : vobj R) cs (meshes : dict ekey (cylinder R)) gs :
    get_edge_color c o = (o, Ok cs) -> (forall k l e, In (k, l) gs -> In e l -> exists cyl, dget meshes e = Some cyl) ->
    forall out, viewer_draw gs cs = Ok out ->
    exists out', eloop (fun out (g : string * list ekey) =>
         match snd g with
         | [] => eret out
         | e :: _ =>
             do* cyls := eget (fun _ => map_res (fun e => dgetr meshes e) (snd g)) in
             do* cs := get_edge_color c in
             do* k := eget (fun _ => dgetr cs e) in
             eret (out ++ [(k, cyls)])
         end) gs [] o = (o, Ok out')
      /\ Forall2 (fun g q => fst g = fst q /\ Forall2 (fun e cyl => dget meshes e = Some cyl) (snd g) (snd q)) out out'.
  Proof.
    intros Ec A out Eo. unfold viewer_draw in Eo. revert Eo.
    match goal with |- fold_res ?f _ _ = _ -> exists out', eloop ?g _ _ _ = _ /\ _ => set (ff := f); set (gg := g) end.
    enough (G : forall acc acc' out, Forall2 (fun g q => fst g = fst q /\ Forall2 (fun e cyl => dget meshes e = Some cyl) (snd g) (snd q)) acc acc' ->
      fold_res ff gs acc = Ok out -> exists out', eloop gg gs acc' o = (o, Ok out')
        /\ Forall2 (fun g q => fst g = fst q /\ Forall2 (fun e cyl => dget meshes e = Some cyl) (snd g) (snd q)) out out').
    { apply G. constructor. }
    clear out. induction gs as [|[k l] gs IH]; intros acc acc' out Fa E; cbn [fold_res eloop] in *.
    - apply Ok_inj in E. subst out. exists acc'. auto.
    - assert (A' : forall k l e, In (k, l) gs -> In e l -> exists cyl, dget meshes e = Some cyl).
      { intros k' l' e' I J. apply (A k' l'); auto. now right. }
      unfold ebind at 1. unfold ff at 1 in E. unfold gg at 1. cbn [snd] in *. destruct l as [|e l].
      + cbn [bind] in E. unfold eret at 1. now apply (IH A' acc).
      + destruct (map_dgetr meshes (e :: l)) as (cyls&Em&Fm); [intros e' I; apply (A k (e :: l)); [now left|exact I]|].
        unfold dgetr at 1 in E. destruct (dget cs e) as [kc|] eqn:Ek; [|discriminate]. cbn [bind] in E.
        unfold ebind at 1. unfold eget at 1. rewrite Em. unfold ebind at 1. rewrite Ec. unfold ebind at 1. unfold eget at 1.
        unfold dgetr at 1. rewrite Ek. unfold eret at 1. apply (IH A' (acc ++ [(kc, e :: l)])); auto.
        apply Forall2_app; auto.
  Qed.

  (** A drawing of the edges: nothing has been grouped before. *)
  Lemma draw_edges_spec d es cs W o : presentable c d es -> vo_diagram o = d -> vo_edges o = Some es -> vo_groups o = None ->
    edges_drawn (vo_flags o) = true -> viewer_width es (df_width df) (vo_width o) = W ->
    (forall e, In e es -> exists x, dget W e = Some x) ->
    vo_ecolor o = Some cs -> (forall e, In e es -> exists k, dget cs e = Some k /\ pictured c d e k) ->
    exists o' out, draw_edges c df o = (o', Ok out) /\ cylinders_of c d es (fun e x => dget W e = Some x) out.
  Proof.
    intros P Ed Ee Eg Es Ew A Ec Cc. destruct (presentable_draw c d es P) as (cs'&gs&out&E1&E2&E3&[Pm Pk]&_&Cc').
    unfold draw_edges. rewrite Es. cbn [negb].
    destruct (meshes_spec d es W o Ed Ee Ew) as (v&m&Em&Mm).
    { intros e I. split; auto. destruct P as [P _]. auto. }
    unfold ebind at 1. rewrite Em.
    assert (Gg : get_groups c (put_width v o) = (put_groups (Some gs) (put_width v o), Ok gs)).
    { unfold get_groups, computed. cbn [vo_groups put_width]. rewrite Eg. unfold ebind, get_edges. cbn [vo_edges put_width]. rewrite Ee.
      unfold eget. cbn [vo_diagram put_width]. rewrite Ed, E2. reflexivity. }
    unfold ebind at 1. rewrite Gg.
    assert (Mem : forall k l e, In (k, l) gs -> In e l -> In e es).
    { assert (Flat : flat_map snd out = flat_map snd gs).
      { clear - E3. unfold viewer_draw in E3. revert E3.
        match goal with |- fold_res ?f _ _ = _ -> _ =>
          enough (G : forall acc, fold_res f gs acc = Ok out -> flat_map snd out = flat_map snd acc ++ flat_map snd gs) by (exact (G [])) end.
        induction gs as [|[k l] gs IH]; intros acc E; cbn [fold_res] in E.
        - apply Ok_inj in E. subst. cbn. now rewrite app_nil_r.
        - cbn [snd] in E. destruct l as [|e l]; cbn [bind] in E.
          + rewrite (IH acc E). reflexivity.
          + destruct (dgetr cs' e) as [k'|]; [|discriminate]. cbn [bind] in E. rewrite (IH _ E), flat_map_app. cbn [flat_map snd].
            rewrite app_nil_r, <- app_assoc. reflexivity. }
      intros k l e I J. eapply Permutation_in; [exact Pm|]. rewrite Flat. apply in_flat_map. exists (k, l). auto. }
    assert (Hp : c = IsTopology -> produced d) by (intros ->; destruct P as [_ (Hr&_)]; exact Hr).
    assert (Ex : viewer_draw gs cs = Ok out).
    { rewrite <- E3. apply viewer_draw_ext. intros k l e I J. destruct (Cc e (Mem _ _ _ I J)) as (k1&D1&P1).
      destruct (Cc' e (Mem _ _ _ I J)) as (k2&D2&P2). rewrite D1, D2. f_equal. exact (pictured_one c d e k1 k2 Hp P1 P2). }
    destruct gs as [|g gs'].
    - cbn in Ex. apply Ok_inj in Ex. subst out. cbn [eloop]. exists (put_groups (Some []) (put_width v o)), []. split; [reflexivity|].
      exists []. split; [|constructor]. split; [exact Pm|contradiction].
    - set (gs := g :: gs') in *.
      assert (Gc : get_edge_color c (put_groups (Some gs) (put_width v o)) = (put_groups (Some gs) (put_width v o), Ok cs)).
      { unfold get_edge_color, computed. cbn [vo_ecolor put_width put_groups]. rewrite Ec. destruct cs as [|p cs0]; [|reflexivity]. exfalso.
        destruct es as [|e es0]; [|destruct (Cc e (or_introl eq_refl)) as (k&D&_); discriminate].
        destruct g as [k0 l0]. destruct (presentable_draw c d [] P) as (_&gs0&_&_&E2'&_). rewrite E2 in E2'.
        destruct c; cbn in E2; apply Ok_inj in E2; unfold gs in E2; discriminate. }
      destruct (groups_loop _ cs m gs Gc) with (out := out) as (out'&Eo&Fo); auto.
      { intros k l e I J. destruct (Mm e (Mem k l e I J)) as (x&cyl&_&G&_). eauto. }
      exists (put_groups (Some gs) (put_width v o)), out'. split; [exact Eo|]. exists out. split; [split; auto|].
      assert (In1 : forall g e, In g out -> In e (snd g) -> In e es).
      { intros g0 e I J. eapply Permutation_in; [exact Pm|]. apply in_flat_map. eauto. }
      clear - Fo Mm In1. induction Fo as [|g o' out out' [F1 F2] Fo IH]; constructor.
      + split; auto. assert (Sub : forall e, In e (snd g) -> In e es) by (intros e J; apply (In1 g e (or_introl eq_refl) J)).
        clear - F2 Mm Sub. induction F2 as [|e cyl l l' G F2 IH]; constructor.
        * destruct (Mm e (Sub e (or_introl eq_refl))) as (x&cyl'&D&G'&Cy). rewrite G in G'. apply Some_inj in G'. subst cyl'.
          exists x. split; auto. now apply cylinder_around.
        * apply IH. intros e' J. apply Sub. now right.
      + apply IH. intros g0 e I J. apply (In1 g0 e); auto. now right.
  Qed.
End Cylinders.

Section Made.
  Context (c : kind) (df : defaults R).
  Implicit Types (d : diagram R) (a : options R).

  (** The object before anything is drawn *)
  Lemma init_spec d a cur : viewer_set_width d (chosen (op_edges a) (edges d)) None (op_width a) = Ok cur ->
    exists o, init_object a (blank d) = (o, Ok tt) /\ vo_diagram o = d /\ vo_nodes o = op_nodes a
      /\ (vo_edges o = op_edges a \/ vo_edges o = Some (chosen (op_edges a) (edges d)))
      /\ vo_groups o = None /\ vo_xyz o = None /\ vo_ncolor o = None /\ vo_ecolor o = None /\ vo_width o = cur
      /\ edges_drawn (vo_flags o) = op_show_edges a.
  Proof.
    destruct a as [n e z w ls rs lt rt sn se sl sr]. unfold init_object.
    cbn [op_nodes op_edges op_size op_width op_lscale op_ltol op_rscale op_rtol op_show_nodes op_show_edges]. intros Ec.
    unfold ebind. cbn [set_nodes set_edges estate].
    assert (S : forall (p : option R -> vobj R -> vobj R) y o, set_number p y o = (match y with Some y => p (Some y) o | None => o end, Ok tt)).
    { intros p [y|] o; reflexivity. }
    unfold set_size at 1. rewrite S.
    set (o0 := match z with Some y => _ | None => _ end).
    assert (B : o0 = put_size z (put_edges e (put_nodes n (blank d)))) by (unfold o0; destruct z; reflexivity). clearbody o0.
    assert (W : exists e', set_width w o0 = (put_edges e' (put_width cur o0), Ok tt) /\ (e' = e \/ e' = Some (chosen e (edges d)))).
    { assert (G : get_edges o0 = (put_edges (Some (chosen e (edges d))) o0, Ok (chosen e (edges d)))).
      { rewrite B. unfold get_edges. destruct e; reflexivity. }
      unfold set_width. destruct w as [|m|x|low high]; cbn [viewer_set_width] in Ec.
      - apply Ok_inj in Ec. subst cur. exists e. split; [|auto]. rewrite B. reflexivity.
      - apply Ok_inj in Ec. subst cur. exists e. split; [|auto]. rewrite B. reflexivity.
      - apply Ok_inj in Ec. subst cur. exists (Some (chosen e (edges d))). split; [|auto]. unfold ebind. rewrite G. rewrite B. reflexivity.
      - exists (Some (chosen e (edges d))). split; [|auto]. unfold ebind. rewrite G. cbn [viewer_set_width].
        replace (vo_diagram (put_edges (Some (chosen e (edges d))) o0)) with d by (rewrite B; reflexivity).
        destruct (width_range d (chosen e (edges d)) low high) as [m|]; [|discriminate]. cbn [bind] in *. apply Ok_inj in Ec. subst cur.
        rewrite B. reflexivity. }
    destruct W as (e'&Ew&He). rewrite Ew. unfold set_load_scale, set_load_tol, set_residual_scale, set_residual_tol. rewrite !S.
    cbn [set_shown_nodes set_shown_edges estate]. eexists. split; [reflexivity|]. rewrite B.
    destruct ls, lt, rs, rt; cbn; repeat split; try exact He; destruct se; reflexivity.
  Qed.

  Lemma given_seen s x : seen df s x = given x (default df s).
  Proof.
    unfold seen, given. destruct x as [x|]; auto. unfold ntruthy. cbn [neqb n0 R_ops].
    destruct (Reqb x 0); reflexivity.
  Qed.

  Lemma number_step (I : vobj R -> Prop) s o : keeps I (read df s) -> I o ->
    exists o', read df s o = (o', Ok (seen df s (field s o))) /\ I o'.
  Proof.
    intros K Io. specialize (K o Io). assert (E := read_seen df s o). destruct (read df s o) as [o' r]. cbn [fst snd] in *. subst r. eauto.
  Qed.
End Made.

(** A new object hands over: its edges as cylinders between their nodes, each in its color
    and width; and an arrow for every load and every reaction that is not below the tolerance. *)
Lemma c100_made : forall c df (d : diagram R) a cur,
  let ns := chosen (op_nodes a) (nodes d) in let es := chosen (op_edges a) (edges d) in
  let widths := viewer_width es (df_width df) cur in
  produced d -> presentable c d es -> (forall n, In n ns -> In n (nodes d)) ->
  viewer_set_width d es None (op_width a) = Ok cur -> (forall e, In e es -> exists x, dget widths e = Some x) ->
  (0 <= given (op_lscale a) (df_lscale df))%R -> (0 <= given (op_rscale a) (df_rscale df))%R ->
  (c = IsForm -> op_show_residuals a = true -> held_by_edges d ns) ->
  exists o dr, new_object c df d a = (o, Ok dr)
  /\ (op_show_edges a = true -> cylinders_of c d es (fun e x => dget widths e = Some x) (dr_edges dr))
  /\ (op_show_edges a = false -> dr_edges dr = [])
  /\ (if op_show_loads a then exists l, dr_loads dr = Some l
        /\ arrows_of d Load (nodup Z.eq_dec ns) (given (op_lscale a) (df_lscale df)) (given (op_ltol a) (df_ltol df)) (fun _ => 0%R) (fun _ => false) l
      else dr_loads dr = None)
  /\ (if match c with IsForm => op_show_residuals a | IsTopology => false end then exists l arrives, dr_residuals dr = Some l
        /\ (forall n, In n ns -> exists f, leads d n f /\ (arrives n = true <-> (f < 0)%R))
        /\ arrows_of d Reaction (nodup Z.eq_dec ns) (given (op_rscale a) (df_rscale df)) (given (op_rtol a) (df_rtol df)) (fun _ => 0%R) arrives l
      else dr_residuals dr = None).
Proof.
  intros c df d a cur ns es widths Hr P Sub Ew Aw Sl Sr Held.
  destruct (init_spec d a cur Ew) as (o0&E0&D0&N0&G0&Gr0&X0&C0&Ec0&W0&F0).
  assert (S0 : forall s, sees df s (seen df s (option_of a s)) o0) by (intros s; apply (init_sees df a d o0 s E0)).
  destruct (presentable_draw c d es P) as (cs&gs&out&E1&_&_&_&_&Cc).
  assert (Ge : get_edges o0 = (put_edges (Some es) o0, Ok es)).
  { unfold get_edges. destruct G0 as [G0|G0]; rewrite G0.
    - unfold es. destruct (op_edges a) as [l|]; cbn [chosen]; [|rewrite D0; reflexivity]. f_equal. destruct o0; cbn in *; now rewrite G0.
    - f_equal. destruct o0; cbn in *; now rewrite G0. }
  set (o1 := put_ecolor (Some cs) (put_edges (Some es) o0)).
  assert (E1' : get_edge_color c o0 = (o1, Ok cs)).
  { unfold get_edge_color, computed. rewrite Ec0. unfold ebind. rewrite Ge. unfold eget. cbn [vo_diagram put_edges]. rewrite D0, E1. reflexivity. }
  assert (Gn : get_nodes o1 = (put_nodes (Some ns) o1, Ok ns)).
  { unfold get_nodes. cbn [o1 vo_nodes put_ecolor put_edges]. rewrite N0. unfold ns, o1. destruct (op_nodes a) as [l|] eqn:En; cbn [chosen].
    - f_equal. destruct o0; cbn in *; now rewrite N0.
    - cbn [vo_diagram put_ecolor put_edges]. now rewrite D0. }
  assert (Nc : exists ncs, node_colors_of c d ns = Ok ncs).
  { destruct (c71_nodes d ns Hr Sub) as ((mt&Et&_)&_&(mf&Ef&_)&_). destruct c; cbn [node_colors_of]; eauto. }
  destruct Nc as [ncs En].
  set (o2 := put_ncolor (Some ncs) (put_nodes (Some ns) o1)).
  assert (E2 : get_node_color c o1 = (o2, Ok ncs)).
  { unfold get_node_color, computed. change (vo_ncolor o1) with (vo_ncolor o0). rewrite C0. unfold ebind. rewrite Gn. unfold eget.
    change (vo_diagram (put_nodes (Some ns) o1)) with (vo_diagram o0). rewrite D0, En. reflexivity. }
  set (J := fun o : vobj R => vo_diagram o = d /\ vo_nodes o = Some ns /\ forall s, sees df s (seen df s (option_of a s)) o).
  assert (J2 : J o2) by (split; [exact D0|]; split; [reflexivity|]; intros s; specialize (S0 s); destruct s; exact S0).
  assert (Ke : forall v o, J o -> J (put_edges v o)) by (intros v o (A&B&C); split; [exact A|]; split; [exact B|]; intros s; specialize (C s); destruct s; exact C).
  assert (Kw : forall v o, J o -> J (put_width v o)) by (intros v o (A&B&C); split; [exact A|]; split; [exact B|]; intros s; specialize (C s); destruct s; exact C).
  assert (Kec : forall v o, J o -> J (put_ecolor v o)) by (intros v o (A&B&C); split; [exact A|]; split; [exact B|]; intros s; specialize (C s); destruct s; exact C).
  assert (Kg : forall v o, J o -> J (put_groups v o)) by (intros v o (A&B&C); split; [exact A|]; split; [exact B|]; intros s; specialize (C s); destruct s; exact C).
  assert (Kr : forall s, keeps J (read df s)).
  { intros s o (A&B&C). split; [|split].
    - destruct s; (refine (keeps_number (fun o => vo_diagram o = d) _ _ _ _ o A); intros v q h; exact h).
    - destruct s; (refine (keeps_number (fun o => vo_nodes o = Some ns) _ _ _ _ o B); intros v q h; exact h).
    - intros s'. apply (read_keeps df s' s _ o (C s')). }
  assert (H3 : exists o3 cyls, draw_edges c df o2 = (o3, Ok cyls) /\ J o3
    /\ (op_show_edges a = true -> cylinders_of c d es (fun e x => dget widths e = Some x) cyls) /\ (op_show_edges a = false -> cyls = [])).
  { destruct (op_show_edges a) eqn:Sh.
    - destruct (draw_edges_spec c df d es cs widths o2 P) as (o3&cyls&E3&Cy); auto.
      + change (vo_width o2) with (vo_width o0). now rewrite W0.
      + exists o3, cyls. split; [exact E3|]. split; [|split; [auto|discriminate]].
        refine (keeps_Ok J _ _ _ _ (keeps_draw_edges J c df _ _ _ _) E3 J2).
        * now apply keeps_get_edges.
        * now apply keeps_get_width.
        * now apply keeps_edge_color.
        * now apply keeps_groups.
    - exists o2, []. split; [|split; [exact J2|split; [discriminate|auto]]].
      unfold draw_edges. change (vo_flags o2) with (vo_flags o0). rewrite F0. reflexivity. }
  destruct H3 as (o3&cyls&E3&J3&Y1&Y2).
  assert (Gn' : forall o, J o -> get_nodes o = (o, Ok ns)) by (intros o (_&B&_); unfold get_nodes; now rewrite B).
  assert (H4 : exists o4 ls, (if op_show_loads a then do* l := draw_loads df in eret (Some l) else eret None) o3 = (o4, Ok ls) /\ J o4
    /\ if op_show_loads a then exists l, ls = Some l
        /\ arrows_of d Load (nodup Z.eq_dec ns) (given (op_lscale a) (df_lscale df)) (given (op_ltol a) (df_ltol df)) (fun _ => 0%R) (fun _ => false) l
      else ls = None).
  { destruct (op_show_loads a); [|exists o3, None; auto].
    destruct (number_step df J LoadScale o3 (Kr _) J3) as (o5&E5&J5). destruct (number_step df J LoadTol o5 (Kr _) J5) as (o6&E6&J6).
    assert (X5 := proj2 (proj2 J3) LoadScale). assert (X6 := proj2 (proj2 J5) LoadTol). unfold sees in X5, X6. rewrite X5 in E5. rewrite X6 in E6.
    rewrite given_seen in E5, E6. cbn [option_of default read] in E5, E6.
    destruct (proj1 (c70_loads d ns _ (given (op_ltol a) (df_ltol df)) Sub Sl)) as (l&El&Al).
    exists o6, (Some l). split; [|split; [exact J6|eauto]].
    unfold ebind at 1. unfold draw_loads. unfold ebind at 1. rewrite (Gn' o3 J3). unfold ebind at 1. rewrite E5. unfold ebind at 1. rewrite E6.
    unfold eget. destruct J6 as (D6&_). rewrite D6, El. reflexivity. }
  destruct H4 as (o4&ls&E4&J4&Y3).
  assert (H5 : exists o5 rs, (match c with
                | IsForm => if op_show_residuals a then do* l := draw_residuals df in eret (Some l) else eret None
                | IsTopology => eret None
                end) o4 = (o5, Ok rs)
    /\ if match c with IsForm => op_show_residuals a | IsTopology => false end then exists l arrives, rs = Some l
        /\ (forall n, In n ns -> exists f, leads d n f /\ (arrives n = true <-> (f < 0)%R))
        /\ arrows_of d Reaction (nodup Z.eq_dec ns) (given (op_rscale a) (df_rscale df)) (given (op_rtol a) (df_rtol df)) (fun _ => 0%R) arrives l
      else rs = None).
  { destruct c; [exists o4, None; auto|]. destruct (op_show_residuals a); [|exists o4, None; auto].
    destruct (number_step df J ResidualScale o4 (Kr _) J4) as (o5&E5&J5). destruct (number_step df J ResidualTol o5 (Kr _) J5) as (o6&E6&J6).
    assert (X5 := proj2 (proj2 J4) ResidualScale). assert (X6 := proj2 (proj2 J5) ResidualTol). unfold sees in X5, X6. rewrite X5 in E5. rewrite X6 in E6.
    rewrite given_seen in E5, E6. cbn [option_of default read] in E5, E6.
    destruct (c70_reactions d ns _ (given (op_rtol a) (df_rtol df)) (Held eq_refl eq_refl) Sr) as (arrives&Ld&(l&El&Al)&_).
    exists o6, (Some l). split; [|exists l, arrives; auto].
    unfold ebind at 1. unfold draw_residuals. unfold ebind at 1. rewrite (Gn' o4 J4). unfold ebind at 1. rewrite E5. unfold ebind at 1. rewrite E6.
    unfold eget. destruct J6 as (D6&_). rewrite D6, El. reflexivity. }
  destruct H5 as (o5&rs&E5&Y4).
  exists o5, (mkDrawing cyls ls rs). cbn [dr_edges dr_loads dr_residuals]. split; [|auto].
  unfold new_object. unfold ebind at 1. rewrite E0. unfold ebind at 1. rewrite E1'. unfold ebind at 1. rewrite E2.
  unfold ebind at 1. rewrite E3. unfold ebind at 1. rewrite E4. unfold ebind at 1. rewrite E5. reflexivity.
Qed.

(** Edges that are selected later are drawn, and only they, if no edges were drawn before
    and the object was made for all the edges. *)
Lemma c101_edges_partial : forall c df (d : diagram R) a o dr cur us es,
  new_object c df d a = (o, Ok dr) -> op_edges a = None -> op_show_edges a = false ->
  viewer_set_width d (edges d) None (op_width a) = Ok cur -> presentable c d (edges d) ->
  (forall u, In u us -> no_edges u) -> (forall e, In e es -> In e (edges d)) ->
  (forall e, In e es -> exists x, dget (viewer_width es (df_width df) cur) e = Some x) ->
  exists out, snd (draw_edges c df (used c df o (us ++ [UEdges (Some es); UShowEdges true]))) = Ok out
    /\ cylinders_of c d es (fun e x => dget (viewer_width es (df_width df) cur) e = Some x) out.
Proof.
  intros c df d a o dr cur us es E Ee Es Ew P Hu Sub Aw.
  destruct (presentable_draw c d (edges d) P) as (cs&_&_&E1&_&_&_&_&Cc).
  set (J := fun o : vobj R => vo_diagram o = d /\ vo_groups o = None /\ vo_ecolor o = Some cs /\ vo_width o = cur).
  assert (Jo : J o).
  { apply new_object_Ok in E as (o0&o1&o2&o3&o4&ecs&ncs&E0&E1'&E2&E3&E4&E5).
    assert (Ew' : viewer_set_width d (chosen (op_edges a) (edges d)) None (op_width a) = Ok cur) by (rewrite Ee; exact Ew).
    destruct (init_spec d a cur Ew') as (o0'&E0'&D0&_&G0&Gr0&_&_&Ec0&W0&F0). rewrite E0 in E0'. apply pair_equal_spec in E0' as [<- _].
    assert (Ge : get_edges o0 = (put_edges (Some (edges d)) o0, Ok (edges d))).
    { unfold get_edges. rewrite Ee in G0. cbn [chosen] in G0. destruct G0 as [G0|G0]; rewrite G0.
      - rewrite D0. reflexivity.
      - f_equal. destruct o0; cbn in *; now rewrite G0. }
    assert (J1 : J o1).
    { unfold get_edge_color, computed in E1'. rewrite Ec0 in E1'. unfold ebind in E1'. rewrite Ge in E1'. unfold eget in E1'.
      cbn [vo_diagram put_edges] in E1'. rewrite D0, E1 in E1'. unfold estate in E1'. apply pair_equal_spec in E1' as [<- _].
      repeat split; assumption. }
    assert (J2 : J o2).
    { refine (keeps_Ok J _ _ _ _ (keeps_node_color J c _ _) E2 J1); intros v q h; exact h. }
    assert (F2 : edges_drawn (vo_flags o2) = false).
    { rewrite <- Es, <- F0. f_equal.
      assert (K1 := keeps_edge_color (fun q => vo_flags q = vo_flags o0) c (fun v q h => h) (fun v q h => h) o0 eq_refl).
      rewrite E1' in K1. cbn [fst] in K1.
      assert (K2 := keeps_node_color (fun q => vo_flags q = vo_flags o0) c (fun v q h => h) (fun v q h => h) o1 K1).
      rewrite E2 in K2. exact K2. }
    assert (J3 : J o3).
    { unfold draw_edges in E3. rewrite F2 in E3. cbn [negb] in E3. apply pair_equal_spec in E3 as [<- _]. exact J2. }
    assert (Kn : keeps J get_nodes) by (apply keeps_get_nodes; intros v q h; exact h).
    assert (J4 : J o4).
    { destruct (op_show_loads a); [destruct E4 as (l&E4&_)|destruct E4 as [-> _]; exact J3].
      refine (keeps_Ok J _ _ _ _ (keeps_draw_loads _ df Kn _ _) E4 J3); apply keeps_number; intros v q h; exact h. }
    destruct c; [destruct E5 as [-> _]; exact J4|].
    destruct (op_show_residuals a); [destruct E5 as (l&E5&_)|destruct E5 as [-> _]; exact J4].
    refine (keeps_Ok J _ _ _ _ (keeps_draw_residuals _ df Kn _ _) E5 J4); apply keeps_number; intros v q h; exact h. }
  assert (Ju : J (used c df o us)).
  { apply used_keep; [|exact Jo]. intros u Iu. specialize (Hu u Iu). intros q Jq.
    destruct u as [d'|l|l|m|[y|]|w|[y|]|[y|]|[y|]|[y|]|b|b| | | | |]; try contradiction; try exact Jq; cbn [after_use].
    - revert q Jq. change (keeps J (draw_nodes c)). unfold draw_nodes. apply keeps_bind; [apply keeps_get_nodes; intros v q h; exact h|]. intros ns. apply keeps_bind.
      + apply keeps_loop. intros [[[x y] z] i] n. apply keeps_bind; [apply keeps_get_xyz; intros v q h; exact h|]. intros m.
        apply keeps_bind; [apply keeps_node_color; intros v q h; exact h|]. intros k. apply keeps_ret.
      + intros [r i]. apply keeps_ret.
    - refine (keeps_draw_loads J df _ _ _ q Jq); [apply keeps_get_nodes|apply keeps_number|apply keeps_number]; intros v q' h; exact h.
    - refine (keeps_draw_residuals J df _ _ _ q Jq); [apply keeps_get_nodes|apply keeps_number|apply keeps_number]; intros v q' h; exact h. }
  unfold used. rewrite fold_left_app. fold (used c df o us). cbn [fold_left]. destruct Ju as (D&G&C&W).
  set (o' := after_use c df (after_use c df (used c df o us) (UEdges (Some es))) (UShowEdges true)).
  assert (Pe : presentable c d es).
  { destruct P as [P1 P2]. split; [auto|]. destruct c; [destruct P2 as (Hr&Dr&_); auto|]. intros e I. apply P2. auto. }
  destruct (draw_edges_spec c df d es cs (viewer_width es (df_width df) cur) o' Pe) as (o''&out&Ed&Cy); auto.
  - change (vo_width o') with (vo_width (used c df o us)). now rewrite W.
  - exists out. rewrite Ed. auto.
Qed.

(** ** Lines *)

Definition xyz_known (d : diagram R) (m : dict Z rvec) : Prop :=
  forall n, In n (nodes d) -> exists p, node_coordinates d n = Ok p /\ dget m n = Some p.
Definition lined (d : diagram R) (cs : dict ekey rgb) (o : vobj R) : Prop :=
  vo_diagram o = d /\ (vo_xyz o = None \/ exists m, vo_xyz o = Some m /\ xyz_known d m) /\ vo_ecolor o = Some cs.

Lemma lined_xyz d cs o : lined d cs o -> exists o' m, get_xyz o = (o', Ok m) /\ lined d cs o' /\ xyz_known d m.
Proof.
  intros (Hd&Hx&Hc). destruct (coordinates_all d) as (m0&E0&M0).
  assert (F : lined d cs (put_xyz (Some m0) o)).
  { split; [exact Hd|]. split; [right; exists m0; split; [reflexivity|exact M0]|exact Hc]. }
  unfold get_xyz. rewrite Hd, E0. destruct (vo_xyz o) as [[|p m]|] eqn:Ex.
  - exists (put_xyz (Some m0) o), m0. auto.
  - destruct Hx as [|(m'&Em&Hm)]; [discriminate|]. apply Some_inj in Em. subst m'. exists o, (p :: m).
    split; [reflexivity|]. split; [|exact Hm]. split; [exact Hd|]. split; [right; eauto|exact Hc].
  - exists (put_xyz (Some m0) o), m0. auto.
Qed.

Lemma lined_ecolor c d cs o : cs <> [] -> lined d cs o -> get_edge_color c o = (o, Ok cs).
Proof. intros Ne (_&_&E). unfold get_edge_color, computed. rewrite E. now destruct cs. Qed.

Lemma lined_use c df d cs u : cs <> [] -> same_diagram u -> forall o, lined d cs o -> lined d cs (after_use c df o u).
Proof.
  intros Ne Sd.
  assert (D : match u with UDrawNodes | UDrawEdges | UDrawLines | UDrawLoads | UDrawResiduals => True | _ => False end ->
    forall o, lined d cs o -> lined d cs (after_use c df o u)).
  { apply draws_keep.
    - apply keeps_get_nodes; intros v q h; exact h.
    - apply keeps_get_edges; intros v q h; exact h.
    - intros q F. destruct (lined_xyz d cs q F) as (o'&m&E&F'&_). now rewrite E.
    - apply keeps_get_width; intros v q h; exact h.
    - intros q F. now rewrite (lined_ecolor c d cs q Ne F).
    - apply keeps_node_color; intros v q h; exact h.
    - apply keeps_groups; intros v q h; exact h.
    - apply keeps_number; intros v q h; exact h.
    - apply keeps_number; intros v q h; exact h.
    - apply keeps_number; intros v q h; exact h.
    - apply keeps_number; intros v q h; exact h. }
  destruct u as [d'|l|l|m|[y|]|w|[y|]|[y|]|[y|]|[y|]|b|b| | | | |]; try (exact (D Logic.I)); try contradiction; intros o Io; cbn [after_use];
    try exact Io.
  refine (keeps_put_width (lined d cs) w _ _ o Io); intros v q h; exact h.
Qed.

Lemma draw_lines_lined c d cs o es : cs <> [] -> lined d cs o -> vo_edges o = Some es ->
  (forall e, In e es -> In (fst e) (nodes d) /\ In (snd e) (nodes d)) ->
  (forall e, In e es -> exists k, dget cs e = Some k /\ pictured c d e k) ->
  exists out, snd (draw_edges2 c o) = Ok out /\ lines_of c d es out.
Proof.
  intros Ne F Ee Ends Col. unfold draw_edges2, ebind at 1, get_edges. rewrite Ee.
  set (body := fun (acc : (list (vec R) * list rgb * list (list Z)) * Z) (e : ekey) =>
      let '(positions, colors, elements, i) := acc in
      do* xyz := get_xyz in
      let pos n := match dget xyz n with Some p => p | None => vzero end in
      do* cs := get_edge_color c in
      let k := match dget cs e with Some k => k | None => gray_edge end in
      eret ((positions ++ [pos (fst e); pos (snd e)], colors ++ [k; k], elements ++ [[i + 0; i + 1]]), i + 2)).
  enough (G : forall es, (forall e, In e es -> In (fst e) (nodes d) /\ In (snd e) (nodes d)) ->
    (forall e, In e es -> exists k, dget cs e = Some k /\ pictured c d e k) ->
    forall o ps kk els i, lined d cs o ->
    exists o' ks, eloop body es ((ps, kk, els), 2 * Z.of_nat i) o
      = (o', Ok ((ps ++ flat_map (fun e => [position d (fst e); position d (snd e)]) es, kk ++ flat_map (fun k => [k; k]) ks,
                  els ++ map (fun i => [2 * Z.of_nat i; 2 * Z.of_nat i + 1]) (seq i (List.length es))), 2 * Z.of_nat (i + List.length es)))
      /\ Forall2 (pictured c d) es ks).
  { destruct (G es Ends Col o [] [] [] O F) as (o'&ks&E&K). cbn [app Nat.add] in E.
    eexists. split; [fold body; unfold ebind at 1; change (2 * Z.of_nat 0) with 0 in E; rewrite E; reflexivity|].
    split; [reflexivity|exists ks; split; [reflexivity|exact K]|reflexivity]. }
  clear es o F Ee Ends Col. induction es as [|e es IH]; intros Ends Col o ps kk els i F.
  - exists o, []. cbn [eloop flat_map List.length seq map]. rewrite !app_nil_r, Nat.add_0_r. split; [reflexivity|constructor].
  - cbn [eloop]. unfold ebind at 1. unfold body at 1. destruct (lined_xyz d cs o F) as (o1&m&E1&F1&M1).
    unfold ebind at 1. rewrite E1. cbv zeta. unfold ebind at 1. rewrite (lined_ecolor c d cs o1 Ne F1). unfold eret at 1.
    destruct (Ends e (or_introl eq_refl)) as [Iu Iv]. destruct (M1 _ Iu) as (pu&Eu&Gu). destruct (M1 _ Iv) as (pv&Ev&Gv).
    destruct (Col e (or_introl eq_refl)) as (k&Gk&Pk). rewrite Gu, Gv, Gk.
    destruct (IH (fun e' h => Ends e' (or_intror h)) (fun e' h => Col e' (or_intror h)) o1 (ps ++ [pu; pv]) (kk ++ [k; k])
      (els ++ [[2 * Z.of_nat i + 0; 2 * Z.of_nat i + 1]]) (S i) F1) as (o'&ks&E&K).
    exists o', (k :: ks). split; [|constructor; auto].
    replace (2 * Z.of_nat i + 2) with (2 * Z.of_nat (S i)) by lia. rewrite E. cbn [List.length seq map flat_map].
    unfold position. rewrite Eu, Ev. cbn [value]. rewrite Z.add_0_r.
    rewrite <- !app_assoc. cbn [app]. rewrite Nat.add_succ_comm. reflexivity.
Qed.

(** Edges drawn as lines are those selected last, between the places of their nodes, as long
    as the object was made for all the edges, and neither a diagram nor coordinates were
    assigned to it. *)
Lemma c101_lines : forall c df (d : diagram R) a o dr cur us es,
  new_object c df d a = (o, Ok dr) -> op_edges a = None ->
  viewer_set_width d (edges d) None (op_width a) = Ok cur -> presentable c d (edges d) ->
  (forall u, In u us -> same_diagram u) -> (forall e, In e es -> In e (edges d)) ->
  exists out, snd (draw_edges2 c (used c df o (us ++ [UEdges (Some es)]))) = Ok out /\ lines_of c d es out.
Proof.
  intros c df d a o dr cur us es E Ee Ew P Hu Sub.
  destruct (presentable_draw c d (edges d) P) as (cs&_&_&E1&_&_&_&Kc&Cc).
  destruct es as [|e0 es0].
  { unfold used. rewrite fold_left_app. cbn [fold_left]. exists ([], [], []). split; [reflexivity|].
    split; [reflexivity|exists []; split; constructor|reflexivity]. }
  assert (Ne : cs <> []).
  { intros ->. assert (X := proj2 (Kc e0) (Sub e0 (or_introl eq_refl))). discriminate. }
  set (es := e0 :: es0) in *. clearbody es.
  assert (Lo : lined d cs o).
  { apply new_object_Ok in E as (o0&o1&o2&o3&o4&ecs&ncs&E0&E1'&E2&E3&E4&E5).
    assert (Ew' : viewer_set_width d (chosen (op_edges a) (edges d)) None (op_width a) = Ok cur) by (rewrite Ee; exact Ew).
    destruct (init_spec d a cur Ew') as (o0'&E0'&D0&_&G0&Gr0&X0&_&Ec0&_). rewrite E0 in E0'. apply pair_equal_spec in E0' as [<- _].
    assert (Ge : get_edges o0 = (put_edges (Some (edges d)) o0, Ok (edges d))).
    { unfold get_edges. rewrite Ee in G0. cbn [chosen] in G0. destruct G0 as [G0|G0]; rewrite G0.
      - rewrite D0. reflexivity.
      - f_equal. destruct o0; cbn in *; now rewrite G0. }
    assert (J1 : lined d cs o1).
    { unfold get_edge_color, computed in E1'. rewrite Ec0 in E1'. unfold ebind in E1'. rewrite Ge in E1'. unfold eget in E1'.
      cbn [vo_diagram put_edges] in E1'. rewrite D0, E1 in E1'. unfold estate in E1'. apply pair_equal_spec in E1' as [<- _].
      split; [assumption|]. split; [left; assumption|reflexivity]. }
    assert (J2 : lined d cs o2).
    { refine (keeps_Ok (lined d cs) _ _ _ _ (keeps_node_color (lined d cs) c _ _) E2 J1); intros v q h; exact h. }
    assert (J3 : lined d cs o3).
    { refine (keeps_Ok (lined d cs) _ _ _ _ (keeps_draw_edges _ c df _ _ _ _) E3 J2).
      - apply keeps_get_edges; intros v q h; exact h.
      - apply keeps_get_width; intros v q h; exact h.
      - intros q F. now rewrite (lined_ecolor c d cs q Ne F).
      - apply keeps_groups; intros v q h; exact h. }
    assert (Kn : keeps (lined d cs) get_nodes) by (apply keeps_get_nodes; intros v q h; exact h).
    assert (J4 : lined d cs o4).
    { destruct (op_show_loads a); [destruct E4 as (l&E4&_)|destruct E4 as [-> _]; exact J3].
      refine (keeps_Ok (lined d cs) _ _ _ _ (keeps_draw_loads _ df Kn _ _) E4 J3); apply keeps_number; intros v q h; exact h. }
    destruct c; [destruct E5 as [-> _]; exact J4|].
    destruct (op_show_residuals a); [destruct E5 as (l&E5&_)|destruct E5 as [-> _]; exact J4].
    refine (keeps_Ok (lined d cs) _ _ _ _ (keeps_draw_residuals _ df Kn _ _) E5 J4); apply keeps_number; intros v q h; exact h. }
  unfold used. rewrite fold_left_app. fold (used c df o us). cbn [fold_left].
  assert (Lu : lined d cs (used c df o us)).
  { apply used_keep; [|exact Lo]. intros u Iu. apply lined_use; auto. }
  apply (draw_lines_lined c d cs); auto. intros e I. apply (proj1 P). auto.
Qed.
