(** * What is drawn *)

From Coq Require Import String List ZArith Bool Lia Reals Lra Permutation.
From Verif Require Import Py PyFacts Num Diagram DiagramFacts Topology SpecDiagram SpecTopology History HistoryFacts ChainFacts SequenceThms
  BuildFacts TypedFacts QueryThms RVec SpecStatics StaticsFacts Equilibrium
  SpecEquilibrium FormFacts Artists SpecArtists.
Import ListNotations.
Open Scope Z_scope.

(** ** Dictionaries made by a loop *)

Lemma fold_keyed {K V} `{Eqb K} (f : K -> res V) ks : forall m0 : dict K V,
  (forall k, In k ks -> exists v, f k = Ok v) ->
  exists m, fold_res (fun m k => let* v := f k in Ok (dset m k v)) ks m0 = Ok m
    /\ (forall k v, In k ks -> f k = Ok v -> dget m k = Some v)
    /\ (forall k, ~ In k ks -> dget m k = dget m0 k).
Proof.
  induction ks as [|k ks IH]; intros m0 A; cbn [fold_res].
  - exists m0. split; auto. split; [contradiction|auto].
  - destruct (A k (or_introl eq_refl)) as [v Ev]. rewrite Ev. cbn [bind].
    destruct (IH (dset m0 k v)) as (m&Em&I1&I2); [intros; apply A; now right|].
    exists m. split; auto. split.
    + intros k' v' I E. destruct (in_dec (@eq_dec_K K _) k' ks) as [J|J]; [now apply I1|].
      destruct I as [->|I]; [|contradiction]. rewrite I2 by auto. rewrite dget_dset_same. congruence.
    + intros k' N. rewrite I2 by (intros J; apply N; now right). apply dget_dset_other. intros ->. apply N. now left.
Qed.

Lemma keyed_of {K V} `{Eqb K} (m : dict K V) ks :
  (forall k, In k ks -> exists v, dget m k = Some v) -> (forall k, ~ In k ks -> dget m k = None) -> keyed m ks.
Proof.
  intros A B k. unfold dmem. destruct (in_dec (@eq_dec_K K _) k ks) as [I|N].
  - destruct (A k I) as [v ->]. tauto.
  - rewrite (B k N). split; [discriminate|tauto].
Qed.

Lemma color_map_spec {K} `{Eqb K} ks (f : K -> res rgb) : (forall k, In k ks -> exists c, f k = Ok c) ->
  exists m, color_map ks f = Ok m /\ keyed m ks /\ forall k c, In k ks -> f k = Ok c -> dget m k = Some c.
Proof.
  intros A. destruct (fold_keyed f ks [] A) as (m&E&I1&I2). exists m. split; auto. split; auto.
  apply keyed_of; auto. intros k I. destruct (A k I) as [c Ec]. eauto.
Qed.

Lemma forces_known_all {T} `{NumOps T} (d : diagram T) es : produced d -> (forall e, In e es -> In e (edges d)) -> forces_known d es.
Proof.
  intros Hr S e I. apply S in I. assert (W := produced_wf d Hr). apply In_edges, has_edge_find in I as [a Ea]; auto.
  exists (ea_force a). unfold edge_force, edge_get. now rewrite Ea.
Qed.

(** ** Edge widths *)

Section Widths.
  Context {T : Type} `{NumOps T}.
  Implicit Types (d : diagram T) (w : dict ekey T).

  Lemma width_all_spec (es : list ekey) (x : T) : forall e,
    dget (width_all es x) e = if memb e es then Some x else None.
  Proof.
    unfold width_all. enough (G : forall m e, dget (fold_left (fun w (e : ekey) => dset w e x) es m) e
      = if memb e es then Some x else dget m e) by (intros; apply G).
    induction es as [|a es IH]; intros m e; cbn [fold_left]; auto.
    rewrite IH, dget_dset. unfold memb. cbn [existsb]. fold (memb e es). destruct (memb e es) eqn:E; [now rewrite orb_true_r|].
    rewrite orb_false_r. now destruct (eqb e a).
  Qed.

  Lemma width_all_keyed es (x : T) : keyed (width_all es x) es.
  Proof.
    intros e. unfold dmem. rewrite width_all_spec. destruct (memb e es) eqn:E.
    - apply memb_In in E. tauto.
    - apply memb_nIn in E. split; [discriminate|tauto].
  Qed.

  (** A dictionary is used as it is, and a number gives that width to all edges. *)
  Lemma c57_same : forall d es prev w (x : T),
    viewer_set_width d es prev (WDict w) = Ok (Some w)
    /\ (w <> [] -> plotter_set_width d es prev (WDict w) = Ok (Some w))
    /\ (exists w', viewer_set_width d es prev (WNumber x) = Ok (Some w') /\ keyed w' es
          /\ forall e, In e es -> dget w' e = Some x)
    /\ (edges d <> [] -> exists w', plotter_set_width d es prev (WNumber x) = Ok (Some w') /\ keyed w' (edges d)
          /\ forall e, In e (edges d) -> dget w' e = Some x).
  Proof.
    intros d es prev w x.
    assert (A : forall l e, In e l -> dget (width_all l x) e = Some x).
    { intros l e I. rewrite width_all_spec. apply memb_In in I. now rewrite I. }
    split; [reflexivity|]. split; [destruct w; [congruence|reflexivity]|]. split.
    - exists (width_all es x). split; [reflexivity|]. split; [apply width_all_keyed|apply A].
    - intros N. exists (width_all (edges d) x). split; [|split; [apply width_all_keyed|apply A]].
      unfold plotter_set_width. destruct (width_all (edges d) x) eqn:E; [|reflexivity]. exfalso.
      destruct (edges d) as [|e l]; [congruence|]. assert (X := A (e :: l) e (or_introl eq_refl)). rewrite E in X. discriminate.
  Qed.

  (** In the viewer, an edge without a width of its own has the default width. *)
  Lemma c57_default : forall (es : list ekey) (default : T) e, In e es ->
    dget (viewer_width es default None) e = Some default
    /\ dget (viewer_width es default (Some [])) e = Some default.
  Proof.
    intros es default e I. apply memb_In in I. cbn [viewer_width truthy_dict]. rewrite width_all_spec, I. auto.
  Qed.

  (** The plotter takes no notice of a pair of widths once there are widths. *)
  Lemma c57_ignored : forall d es w (low high : T), w <> [] ->
    plotter_set_width d es (Some w) (WRange low high) = Ok (Some w).
  Proof. intros d es [|]; [congruence|reflexivity]. Qed.

  (** The plotter cannot be given a width when the diagram has no edges. *)
  Lemma c57_no_edges : forall d es (x : T), edges d = [] ->
    plotter_set_width d es None (WNumber x) = Err TypeError.
  Proof. intros d es x E. unfold plotter_set_width. rewrite E. reflexivity. Qed.

  (** There is no range of forces without edges. *)
  Lemma c57_empty : forall d prev (low high : T),
    viewer_set_width d [] prev (WRange low high) = Err (ValueError "min() arg is an empty sequence").
  Proof. reflexivity. Qed.
End Widths.

Lemma max_by_R (f : R -> R) l : forall m,
  let r := max_by Rltb f m l in In r (m :: l) /\ forall x, In x (m :: l) -> (f x <= f r)%R.
Proof.
  induction l as [|a l IH]; intros m; cbn [max_by].
  - split; [now left|]. intros x [->|[]]. lra.
  - cbn zeta in *. destruct (IH (if Rltb (f m) (f a) then a else m)) as [I L].
    split.
    + destruct (Rltb_spec (f m) (f a)); destruct I as [I|I]; rewrite <- ?I; cbn; auto.
    + assert (B := L _ (or_introl eq_refl)).
      intros x [J|[J|J]]; [| |apply L; now right]; rewrite <- J; destruct (Rltb_spec (f m) (f a)); lra.
Qed.

Lemma min_by_R l : forall m,
  let r := max_by (fun a b => Rltb b a) (fun b => b) m l in In r (m :: l) /\ forall x, In x (m :: l) -> (r <= x)%R.
Proof.
  induction l as [|a l IH]; intros m; cbn [max_by].
  - split; [now left|]. intros x [->|[]]. lra.
  - cbn zeta in *. destruct (IH (if Rltb a m then a else m)) as [I L].
    split.
    + destruct (Rltb_spec a m); destruct I as [I|I]; rewrite <- ?I; cbn; auto.
    + assert (B := L _ (or_introl eq_refl)).
      intros x [J|[J|J]]; [| |apply L; now right]; rewrite <- J; destruct (Rltb_spec a m); lra.
Qed.

Lemma map_res_exists {A B} (f : A -> res B) l : (forall a, In a l -> exists b, f a = Ok b) ->
  exists bs, map_res f l = Ok bs /\ (forall b, In b bs <-> exists a, In a l /\ f a = Ok b) /\ List.length bs = List.length l.
Proof.
  induction l as [|a l IH]; intros A0; cbn [map_res].
  - exists []. split; auto. split; auto. intros b. split; [contradiction|intros (a&[]&_)].
  - destruct (A0 a (or_introl eq_refl)) as [b Eb]. rewrite Eb. cbn [bind].
    destruct IH as (bs&E&M&L); [intros; apply A0; now right|]. rewrite E. cbn [bind].
    exists (b :: bs). split; auto. split; [|cbn; lia]. intros b'. cbn [In]. rewrite M. split.
    + intros [<-|(a'&I&E')]; eauto.
    + intros (a'&[<-|I]&E'); [left; congruence|eauto].
Qed.

(** The widths given by a pair go from the first number, for the edge with the smallest
    force in magnitude, to the second one, for the largest, in proportion. *)
Lemma c57_range : forall (d : diagram R) es prev low high, es <> [] -> forces_known d es ->
  exists w m M, viewer_set_width d es prev (WRange low high) = Ok (Some w)
    /\ plotter_set_width d es None (WRange low high) = Ok (Some w)
    /\ keyed w es /\ force_range d es m M
    /\ forall e f, In e es -> edge_force d e = Ok f -> exists x, dget w e = Some x /\ proportional low high m M f x.
Proof.
  intros d es prev low high Ne Hf. unfold viewer_set_width, plotter_set_width. cbn [truthy_dict].
  unfold width_range.
  destruct (map_res_exists (fun e => let* f := edge_force d e in Ok (nabs f)) es) as (fs&Ef&Mf&Lf).
  { intros e I. destruct (Hf e I) as [f E]. rewrite E. cbn [bind]. eauto. }
  rewrite Ef. cbn [bind]. destruct fs as [|f0 fs]; [destruct es; [congruence|discriminate]|].
  cbn [py_min py_max bind]. change (nltb (T:=R)) with Rltb.
  destruct (min_by_R fs f0) as [Im Lm]. destruct (max_by_R (fun f => f) fs f0) as [IM LM]. cbn zeta in *.
  set (m := max_by (fun a b => Rltb b a) (fun b => b) f0 fs) in *. set (M := max_by Rltb (fun f => f) f0 fs) in *.
  destruct (fold_keyed (fun e => let* f := edge_force d e in
      Ok (width_between low high (width_ratio (nabs f) m M))) es []) as (w&Ew&W1&W2).
  { intros e I. destruct (Hf e I) as [f E]. rewrite E. cbn [bind]. eauto. }
  match goal with |- context [fold_res ?b es []] => replace (fold_res b es []) with (Ok w) end.
  2:{ rewrite <- Ew. clear. generalize (@nil (ekey * R)). induction es as [|e es IH]; intros l; cbn [fold_res]; auto.
      destruct (edge_force d e); cbn [bind]; auto. }
  cbn [bind]. exists w, m, M. split; auto. split; auto. split.
  { apply keyed_of; auto. intros e I. destruct (Hf e I) as [f E]. eexists. apply (W1 e _ I). rewrite E. cbn [bind]. reflexivity. }
  assert (Fa : forall e f, In e es -> edge_force d e = Ok f -> In (Rabs f) (f0 :: fs)).
  { intros e f I E. apply Mf. exists e. split; auto. rewrite E. reflexivity. }
  split.
  { split.
    - apply Mf in Im as (e&I&E). destruct (edge_force d e) as [f|] eqn:Ee; [|discriminate]. apply Ok_inj in E. exists e, f. auto.
    - apply Mf in IM as (e&I&E). destruct (edge_force d e) as [f|] eqn:Ee; [|discriminate]. apply Ok_inj in E. exists e, f. auto.
    - intros e f I E. assert (J := Fa e f I E). split; auto. }
  intros e f I E. eexists. split.
  - apply (W1 e _ I). rewrite E. cbn [bind]. reflexivity.
  - unfold proportional, width_between, width_ratio. cbn [neqb nsub nadd nmul ndiv n0 n1 nabs R_ops].
    destruct (Reqb_spec (M - m) 0) as [Z|Z]; split; intros X; try lra; field; lra.
Qed.

Lemma proportional_order : forall low high m M f g x y : R, (low <= high)%R -> (m <= Rabs f <= M)%R -> (m <= Rabs g <= M)%R ->
  proportional low high m M f x -> proportional low high m M g y ->
  (low <= x <= high)%R
  /\ (Rabs f <= Rabs g -> x <= y)%R
  /\ (Rabs f = M -> x = high)%R /\ (Rabs f = m -> m < M -> x = low)%R.
Proof.
  intros low high m M f g x y L [A1 A2] [B1 B2] [P1 P2] [Q1 Q2].
  destruct (Req_dec m M) as [E|N].
  - rewrite (P1 E), (Q1 E). repeat split; lra.
  - assert (mM : (m < M)%R) by lra. rewrite (P2 mM), (Q2 mM).
    assert (Hp : (0 < / (M - m))%R) by (apply Rinv_0_lt_compat; lra). unfold Rdiv.
    assert (Fi : ((M - m) * / (M - m) = 1)%R) by (apply Rinv_r; lra).
    repeat split.
    + assert (0 <= (Rabs f - m) * / (M - m) * (high - low))%R; [|lra].
      apply Rmult_le_pos; [apply Rmult_le_pos|]; lra.
    + assert ((Rabs f - m) * / (M - m) <= 1)%R.
      { rewrite <- Fi. apply Rmult_le_compat_r; lra. }
      assert ((Rabs f - m) * / (M - m) * (high - low) <= 1 * (high - low))%R by (apply Rmult_le_compat_r; lra). lra.
    + intros Hfg. apply Rplus_le_compat_l. apply Rmult_le_compat_r; [lra|]. apply Rmult_le_compat_r; lra.
    + intros ->. rewrite Fi. ring.
    + intros -> _. ring.
Qed.

(** The widths are between the two numbers, in the order of the forces, and both numbers
    occur unless all the forces are equal in magnitude. *)
Lemma c57_order : forall (d : diagram R) es prev low high w, (low <= high)%R -> es <> [] -> forces_known d es ->
  viewer_set_width d es prev (WRange low high) = Ok (Some w) ->
  (forall e f x, In e es -> edge_force d e = Ok f -> dget w e = Some x ->
     (low <= x <= high)%R
     /\ forall e' g y, In e' es -> edge_force d e' = Ok g -> dget w e' = Some y -> (Rabs f <= Rabs g)%R -> (x <= y)%R)
  /\ (exists e, In e es /\ dget w e = Some high)
  /\ ((exists e, In e es /\ dget w e = Some low)
      \/ forall e e' f g, In e es -> In e' es -> edge_force d e = Ok f -> edge_force d e' = Ok g -> Rabs f = Rabs g).
Proof.
  intros d es prev low high w L Ne Hf Hw.
  destruct (c57_range d es prev low high Ne Hf) as (w'&m&M&E&_&_&Fr&P). rewrite Hw in E. apply Ok_inj, Some_inj in E. subst w'.
  destruct Fr as [(el&fl&Il&El&Al) (eh&fh&Ih&Eh&Ah) Fall].
  split; [|split].
  - intros e f x I Ef Ex. destruct (P e f I Ef) as (x'&Ex'&Px). rewrite Ex in Ex'. apply Some_inj in Ex'. subst x'.
    assert (Bf := Fall e f I Ef). split.
    + destruct (proportional_order low high m M f f x x) as (Q1&Q2&Q3&Q4); eauto.
    + intros e' g y I' Eg Ey Lfg. destruct (P e' g I' Eg) as (y'&Ey'&Py). rewrite Ey in Ey'. apply Some_inj in Ey'. subst y'.
      destruct (proportional_order low high m M f g x y) as (Q1&Q2&Q3&Q4); eauto.
  - exists eh. split; auto. destruct (P eh fh Ih Eh) as (x&Ex&Px). rewrite Ex. f_equal.
    destruct (proportional_order low high m M fh fh x x) as (Q1&Q2&Q3&Q4); eauto.
  - destruct (Rle_lt_or_eq_dec m M) as [mM|mM].
    + assert (B := Fall el fl Il El). lra.
    + left. exists el. split; auto. destruct (P el fl Il El) as (x&Ex&Px). rewrite Ex. f_equal.
      destruct (proportional_order low high m M fl fl x x) as (Q1&Q2&Q3&Q4); eauto.
    + right. intros e e' f g I I' Ef Eg. assert (Bf := Fall e f I Ef). assert (Bg := Fall e' g I' Eg). lra.
Qed.

(** ** Arrows *)

Lemma arrow_gap (p f : rvec) scale gap tol (s : bool) : (0 <= scale)%R -> ~ (norm f < tol)%R ->
  exists a, gap_arrow p f scale gap tol s = Some a
    /\ a_end a -v a_start a = scale *v f
    /\ if s then a_end a = p -v gap *v unitv f else a_start a = p +v gap *v unitv f.
Proof.
  intros Sc L. unfold gap_arrow. change (nltb (T:=R)) with Rltb. destruct (Rltb_spec (norm f) tol) as [X|X]; [contradiction|].
  unfold translate_two. eexists. split; [reflexivity|]. cbn [a_start a_end]. split; [vring|].
  destruct s; [|reflexivity]. cbn [nmul nadd nopp n1 R_ops]. rewrite norm_scale, Rabs_pos_eq by auto.
  assert (Q := norm_times_unitv f). rewrite <- Q at 1. generalize (unitv f). generalize (norm f). intros. vring.
Qed.

Lemma arrow_skip (p f : rvec) scale gap tol (s : bool) : (norm f < tol)%R -> gap_arrow p f scale gap tol s = None.
Proof. intros L. unfold gap_arrow. change (nltb (T:=R)) with Rltb. destruct (Rltb_spec (norm f) tol); [auto|contradiction]. Qed.

Lemma viewer_arrow_gap (p f : rvec) scale tol s : viewer_arrow p f scale tol s = gap_arrow p f scale 0%R tol s.
Proof.
  unfold viewer_arrow, gap_arrow. destruct (nltb _ _); auto. unfold translate_two. destruct s.
  - f_equal. f_equal; vunf; f_equal; ring.
  - f_equal. f_equal; apply vec_eq; vunf; ring.
Qed.

Lemma acting_at (d : diagram R) w n f : force_at w d n = Ok f -> acting w d n = f.
Proof. destruct w; cbn [force_at acting]; unfold load, reaction; now intros ->. Qed.

(** A loop that draws the arrows of the nodes with given gaps and shifts *)
Lemma arrows_spec (d : diagram R) w ns scale tol (gap : Z -> R) (shift : Z -> bool)
    (one : Z -> rvec -> rvec -> res (option arrow)) :
  (forall n, In n ns -> In n (nodes d)) -> (0 <= scale)%R ->
  (forall n p f, In n ns -> (norm f < tol)%R -> one n p f = Ok None) ->
  (forall n p f, In n ns -> ~ (norm f < tol)%R -> one n p f = Ok (gap_arrow p f scale (gap n) tol (shift n))) ->
  exists l, arrows d w ns one = Ok l /\ arrows_of d w ns scale tol gap shift l.
Proof.
  intros In1 Sc One1 One2. unfold arrows.
  enough (G : forall acc, exists l, fold_res (fun acc n =>
      let* f := force_at w d n in let* p := node_coordinates d n in let* a := one n p f in
      Ok match a with Some a => acc ++ [(n, a)] | None => acc end) ns acc = Ok (acc ++ l)
      /\ arrows_of d w ns scale tol gap shift l).
  { destruct (G []) as (l&E&A). exists l. auto. }
  induction ns as [|n ns IH]; intros acc; cbn [fold_res].
  - exists []. rewrite app_nil_r. split; auto. split; [reflexivity|contradiction].
  - destruct (node_find d n (In1 n (or_introl eq_refl))) as [a Ea].
    assert (Eg : node_get d n = Ok a) by (now apply dgetr_Ok).
    assert (Ef : exists f, force_at w d n = Ok f).
    { destruct w; cbn [force_at]; unfold node_load, reaction_force; rewrite Eg; cbn [bind]; eauto. }
    destruct Ef as [f Ef]. rewrite Ef. cbn [bind].
    assert (Ep : node_coordinates d n = Ok (na_xyz a)) by (unfold node_coordinates; now rewrite Eg).
    rewrite Ep. cbn [bind].
    assert (IH' := fun acc => IH (fun m I => In1 m (or_intror I)) (fun m p g I => One1 m p g (or_intror I))
                        (fun m p g I => One2 m p g (or_intror I)) acc). clear IH.
    assert (Af := acting_at d w n f Ef).
    destruct (Rltb (norm f) tol) eqn:Lf.
    + assert (Lf' : (norm f < tol)%R) by (destruct (Rltb_spec (norm f) tol); [auto|discriminate]).
      rewrite (One1 n (na_xyz a) f (or_introl eq_refl) Lf'). cbn [bind].
      destruct (IH' acc) as (l&E&[A1 A2]). exists l. split; auto. split; auto.
      cbn [filter]. rewrite Af, magnitude_norm, Lf. exact A1.
    + assert (Lf' : ~ (norm f < tol)%R) by (destruct (Rltb_spec (norm f) tol); [discriminate|auto]).
      rewrite (One2 n (na_xyz a) f (or_introl eq_refl) Lf').
      destruct (arrow_gap (na_xyz a) f scale (gap n) tol (shift n) Sc Lf') as (r&Er&V&P). rewrite Er. cbn [bind].
      destruct (IH' (acc ++ [(n, r)])) as (l&E&[A1 A2]). exists ((n, r) :: l). split.
      { rewrite <- app_assoc in E. exact E. }
      split.
      * cbn [map fst filter]. rewrite Af, magnitude_norm, Lf. cbn [negb]. now rewrite A1.
      * intros m b [J|J]; [|now apply A2]. apply pair_equal_spec in J as [<- <-].
        assert (Pp : position d n = na_xyz a) by (unfold position; now rewrite Ep).
        split; rewrite Af; [auto|]. rewrite Pp, direction_unitv. exact P.
Qed.

(** The arrows of the loads are those of the nodes whose load is not below the tolerance;
    each is the scaled load and leaves its node, after a gap where there is one. *)
Lemma c70_loads : forall (d : diagram R) ns scale tol, (forall n, In n ns -> In n (nodes d)) -> (0 <= scale)%R ->
  (exists l, viewer_loads d ns scale tol = Ok l
     /\ arrows_of d Load (nodup Z.eq_dec ns) scale tol (fun _ => 0%R) (fun _ => false) l)
  /\ (forall size, exists l, plotter_loads d ns (fun n => Ok (size n)) scale tol = Ok l
     /\ arrows_of d Load ns scale tol size (fun _ => false) l)
  /\ (forall gap, ns <> [] -> exists l, gh_loads d (Some ns) scale gap tol = Ok l
     /\ arrows_of d Load ns scale tol (fun _ => gap) (fun _ => false) l)
  /\ (forall gap, exists l, gh_loads d None scale gap tol = Ok l
     /\ arrows_of d Load (nodes d) scale tol (fun _ => gap) (fun _ => false) l).
Proof.
  intros d ns scale tol In1 Sc. split; [|split; [|split]].
  - apply arrows_spec; auto.
    + intros n I. apply nodup_In in I. auto.
    + intros n p f _ L. rewrite viewer_arrow_gap. now rewrite arrow_skip.
    + intros n p f _ L. now rewrite viewer_arrow_gap.
  - intros size. apply arrows_spec; auto.
    + intros n p f _ L. change (nltb (T:=R)) with Rltb. destruct (Rltb_spec (norm f) tol); [auto|contradiction].
    + intros n p f _ L. change (nltb (T:=R)) with Rltb. destruct (Rltb_spec (norm f) tol); [contradiction|auto].
  - intros gap Ne. unfold gh_loads, or_all. destruct ns as [|n ns]; [congruence|].
    apply arrows_spec; auto. intros m p f _ L. now rewrite arrow_skip.
  - intros gap. unfold gh_loads, or_all. apply arrows_spec; auto. intros m p f _ L. now rewrite arrow_skip.
Qed.

Lemma leading_spec (d : diagram R) n es : connected_edges d n = Ok es -> es <> [] -> forces_known d es ->
  exists f, leading_force d n = Ok f /\ leads d n f.
Proof.
  intros Ec Ne Hf. unfold leading_force. rewrite Ec. cbn [bind].
  destruct (map_res_exists (edge_force d) es Hf) as (fs&Ef&Mf&Lf). rewrite Ef. cbn [bind].
  destruct fs as [|f0 fs]; [destruct es; [congruence|discriminate]|]. cbn [py_max].
  destruct (max_by_R Rabs fs f0) as [I L]. cbn zeta in *. change (nltb (T:=R)) with Rltb. change (nabs (T:=R)) with Rabs.
  set (f := max_by Rltb Rabs f0 fs) in *. exists f. split; auto. exists es. split; auto. split.
  - apply Mf in I as (e&I&E). eauto.
  - intros e g J E. apply L, Mf. eauto.
Qed.

Lemma reaction_shifts_spec (d : diagram R) ns : held_by_edges d ns ->
  exists s, reaction_shifts d ns = Ok s
    /\ forall n, In n ns -> exists f b, leads d n f /\ with_shift s n = Ok b /\ (b = true <-> (f < 0)%R).
Proof.
  intros C.
  assert (A : forall n, In n ns -> exists f, leading_force d n = Ok f /\ leads d n f).
  { intros n I. destruct (C n I) as (_&es&E&Ne&Hf). eapply leading_spec; eauto. }
  destruct (fold_keyed (reaction_shift d) ns []) as (s&Es&S1&_).
  { intros n I. destruct (A n I) as (f&E&_). unfold reaction_shift. rewrite E. cbn [bind]. eauto. }
  exists s. split; auto. intros n I. destruct (A n I) as (f&E&Ld). exists f, (Rltb f 0). split; auto. split.
  - unfold with_shift. apply dgetr_Ok. apply S1; auto. unfold reaction_shift. rewrite E. reflexivity.
  - destruct (Rltb_spec f 0); split; intros X; auto; try discriminate; contradiction.
Qed.

(** The arrows of the reactions arrive at their nodes where the most loaded edge is in
    compression, and leave them otherwise. *)
Lemma c70_reactions : forall (d : diagram R) ns scale tol, held_by_edges d ns -> (0 <= scale)%R ->
  exists arrives, (forall n, In n ns -> exists f, leads d n f /\ (arrives n = true <-> (f < 0)%R))
  /\ (exists l, viewer_residuals d ns scale tol = Ok l
        /\ arrows_of d Reaction (nodup Z.eq_dec ns) scale tol (fun _ => 0%R) arrives l)
  /\ (forall size, held_by_edges d (nodes d) -> exists l, plotter_reactions d ns (fun n => Ok (size n)) scale tol = Ok l
        /\ arrows_of d Reaction ns scale tol size arrives l)
  /\ (forall gap, ns <> [] -> exists l, gh_reactions d (Some ns) scale gap tol = Ok l
        /\ arrows_of d Reaction ns scale tol (fun _ => gap) arrives l).
Proof.
  intros d ns scale tol C Sc.
  set (arrives := fun n => match reaction_shift d n with Ok b => b | Err _ => false end).
  assert (Lk : forall ms s n, reaction_shifts d ms = Ok s -> held_by_edges d ms -> In n ms -> with_shift s n = Ok (arrives n)).
  { intros ms s n Es Cm I. unfold with_shift. apply dgetr_Ok.
    destruct (fold_keyed (reaction_shift d) ms []) as (s'&Es'&S1&_).
    { intros k J. destruct (Cm k J) as (_&es&E&Ne&Hf). destruct (leading_spec d k es E Ne Hf) as (f&Ef&_).
      unfold reaction_shift. rewrite Ef. cbn [bind]. eauto. }
    unfold reaction_shifts in Es. rewrite Es in Es'. apply Ok_inj in Es'. subst s'. apply S1; auto.
    unfold arrives. destruct (Cm n I) as (_&es&E&Ne&Hf). destruct (leading_spec d n es E Ne Hf) as (f&Ef&_).
    unfold reaction_shift. rewrite Ef. reflexivity. }
  assert (In1 : forall n, In n ns -> In n (nodes d)) by (intros n I; apply (C n I)).
  destruct (reaction_shifts_spec d ns C) as (s&Es&Hs).
  exists arrives. split; [|split; [|split]].
  - intros n I. destruct (Hs n I) as (f&b&Ld&Eb&Ib). rewrite (Lk ns s n Es C I) in Eb. apply Ok_inj in Eb. subst b. eauto.
  - unfold viewer_residuals. rewrite Es. cbn [bind]. apply arrows_spec; auto.
    + intros n I. apply nodup_In in I. auto.
    + intros n p f I L. apply nodup_In in I. rewrite (Lk ns s n Es C I). cbn [bind].
      rewrite viewer_arrow_gap. now rewrite arrow_skip.
    + intros n p f I L. apply nodup_In in I. rewrite (Lk ns s n Es C I). cbn [bind]. now rewrite viewer_arrow_gap.
  - intros size Ca. destruct (reaction_shifts_spec d (nodes d) Ca) as (sa&Esa&_).
    unfold plotter_reactions. rewrite Esa. cbn [bind]. apply arrows_spec; auto.
    + intros n p f _ L. change (nltb (T:=R)) with Rltb. destruct (Rltb_spec (norm f) tol); [auto|contradiction].
    + intros n p f I L. change (nltb (T:=R)) with Rltb. destruct (Rltb_spec (norm f) tol); [contradiction|].
      cbn [bind]. rewrite (Lk _ _ _ Esa Ca (In1 n I)). reflexivity.
  - intros gap Ne. unfold gh_reactions, or_all. destruct ns as [|n0 ns]; [congruence|]. rewrite Es. cbn [bind].
    apply arrows_spec; auto.
    + intros n p f _ L. change (nltb (T:=R)) with Rltb. destruct (Rltb_spec (norm f) tol); [auto|contradiction].
    + intros n p f I L. change (nltb (T:=R)) with Rltb. destruct (Rltb_spec (norm f) tol); [contradiction|].
      rewrite (Lk _ _ _ Es C I). reflexivity.
Qed.

Open Scope R_scope.

Lemma outside_any (d : diagram R) ns scale tol gap arrives l n e a : (0 <= scale)%R -> (forall m, 0 <= gap m)%R ->
  arrows_of d Reaction ns scale tol gap arrives l ->
  (exists f, leads d n f /\ (arrives n = true <-> (f < 0)%R)) ->
  connected_edges d n = Ok [e] -> incident d n = [e] -> load d n = v0 -> unbalanced d n = v0 ->
  In (n, a) l -> beyond d n e (a_start a) /\ beyond d n e (a_end a).
Proof.
  intros Sc Gp Ao (f&(es&Ec&(e'&I'&Ef)&_)&Ar) Ec' Ei Ld Ub Ia.
  rewrite Ec' in Ec. apply Ok_inj in Ec. subst es. destruct I' as [<-|[]].
  destruct (ao_each _ _ _ _ _ _ _ _ Ao n a Ia) as [V P]. cbn [acting] in *. rewrite direction_unitv in P.
  assert (Rn : reaction d n = (- f) *v unitv (position d (far_end e n) -v position d n)).
  { unfold unbalanced in Ub. rewrite Ei, Ld in Ub. cbn [map] in Ub. unfold vsum in Ub. cbn [fold_right fold_left] in Ub.
    unfold pull in Ub. unfold force in Ub. rewrite Ef in Ub. cbn [value] in Ub. rewrite direction_unitv in Ub.
    revert Ub. generalize (unitv (position d (far_end e n) -v position d n)) (reaction d n). intros u r Ub.
    apply vec_eq; assert (Q1 := f_equal (vx (T:=R)) Ub); assert (Q2 := f_equal (vy (T:=R)) Ub); assert (Q3 := f_equal (vz (T:=R)) Ub);
      vunf; revert Q1 Q2 Q3; vunf; intros; lra. }
  unfold beyond. set (w := position d (far_end e n) -v position d n) in *. set (p := position d n) in *.
  assert (G0 := Gp n). set (g := gap n) in *.
  assert (W : (0 <= dot (unitv w) w)%R).
  { rewrite <- (norm_times_unitv w) at 2. assert (N := norm_nonneg w). revert N. generalize (norm w) (unitv w). intros x [u1 u2 u3] N.
    vunf. assert (0 <= u1 * u1 + u2 * u2 + u3 * u3)%R by nra. nra. }
  assert (S0 : a_end a = a_start a +v scale *v reaction d n) by (rewrite <- V; vring).
  assert (S1 : a_start a = a_end a -v scale *v reaction d n) by (rewrite <- V; vring).
  assert (K : forall x, (0 <= x)%R -> (dot ((p -v x *v unitv w) -v p) w <= 0)%R).
  { intros x X. replace ((p -v x *v unitv w) -v p) with ((- x) *v unitv w) by vring.
    replace (dot ((- x) *v unitv w) w) with (- (x * dot (unitv w) w))%R; [nra|].
    generalize (unitv w). intros [u1 u2 u3]. destruct w as [w1 w2 w3]. vunf. ring. }
  assert (Un : unitv (unitv w) = unitv w) by apply unitv_unitv.
  destruct (Rtotal_order f 0) as [L|[Z|G]].
  - destruct (arrives n); [|assert (false = true) by (now apply Ar); discriminate].
    rewrite S1, P, Rn. rewrite unitv_pos, Un by lra. split.
    + replace (p -v g *v unitv w -v scale *v (- f *v unitv w)) with (p -v (g + scale * - f) *v unitv w) by vring.
      apply K. nra.
    + now apply K.
  - assert (Hb : arrives n = false) by (destruct (arrives n); [|auto]; assert (f < 0)%R by (now apply Ar); lra).
    rewrite Hb in P. rewrite S0, P, Rn, Z. replace (- 0 *v unitv w) with v0 by vring. rewrite unitv_v0.
    split; [replace (p +v g *v v0) with (p -v 0%R *v unitv w) by vring
           |replace (p +v g *v v0 +v scale *v v0) with (p -v 0%R *v unitv w) by vring]; apply K; lra.
  - assert (Hb : arrives n = false) by (destruct (arrives n); [|auto]; assert (f < 0)%R by (now apply Ar); lra).
    rewrite Hb in P. rewrite S0, P, Rn. rewrite unitv_neg, Un by lra. split.
    + replace (p +v g *v (-1 *v unitv w)) with (p -v g *v unitv w) by vring. now apply K.
    + replace (p +v g *v (-1 *v unitv w) +v scale *v (- f *v unitv w)) with (p -v (g + scale * f) *v unitv w) by vring.
      apply K. nra.
Qed.

Close Scope R_scope.

(** In a form in equilibrium, the arrow of the reaction of a node without load that has a
    single edge does not cover the edge: it is drawn on the other side of the node. *)
Lemma c70_outside : forall (d : diagram R) ns scale tol n e a, held_by_edges d ns -> (0 <= scale)%R -> In n ns ->
  connected_edges d n = Ok [e] -> incident d n = [e] -> load d n = v0 -> unbalanced d n = v0 ->
  (forall l, viewer_residuals d ns scale tol = Ok l -> In (n, a) l -> beyond d n e (a_start a) /\ beyond d n e (a_end a))
  /\ (forall size l, held_by_edges d (nodes d) -> (forall m, 0 <= size m)%R ->
        plotter_reactions d ns (fun n => Ok (size n)) scale tol = Ok l -> In (n, a) l ->
        beyond d n e (a_start a) /\ beyond d n e (a_end a))
  /\ (forall gap l, (0 <= gap)%R -> gh_reactions d (Some ns) scale gap tol = Ok l -> In (n, a) l ->
        beyond d n e (a_start a) /\ beyond d n e (a_end a)).
Proof.
  intros d ns scale tol n e a C Sc In1 Ec Ei Ld Ub.
  destruct (c70_reactions d ns scale tol C Sc) as (arrives&Ar&Vw&Pl&Gh). split; [|split].
  - intros l El. destruct Vw as (l'&El'&A). rewrite El in El'. apply Ok_inj in El'. subst l'.
    apply (outside_any d (nodup Z.eq_dec ns) scale tol (fun _ => 0%R) arrives); auto. intros; apply Rle_refl.
  - intros size l Ca Sz El. destruct (Pl size Ca) as (l'&El'&A). rewrite El in El'. apply Ok_inj in El'. subst l'.
    apply (outside_any d ns scale tol size arrives); auto.
  - intros gap l Gp El. assert (Ne : ns <> []) by (intros ->; contradiction).
    destruct (Gh gap Ne) as (l'&El'&A). rewrite El in El'. apply Ok_inj in El'. subst l'.
    apply (outside_any d ns scale tol (fun _ => gap) arrives); auto.
Qed.

(** ** Colors *)

(** Grouping by a name *)
Definition group_in (m : dict string (list ekey)) (g : string) (e : ekey) : dict string (list ekey) :=
  dset m g (match dget m g with Some l => l ++ [e] | None => [e] end).

Lemma group_in_perm m g e : Permutation (flat_map snd (group_in m g e)) (e :: flat_map snd m).
Proof.
  unfold group_in. induction m as [|[k l] m IH]; [apply Permutation_refl|].
  assert (Es : forall v, dset ((k, l) :: m) g v = if eqb g k then (k, v) :: m else (k, l) :: dset m g v) by reflexivity.
  assert (Eg : dget ((k, l) :: m) g = if eqb g k then Some l else dget m g) by reflexivity.
  rewrite Es, Eg. clear Es Eg. destruct (eqb_spec g k) as [->|N].
  - cbn [flat_map snd]. rewrite <- app_assoc. symmetry. apply Permutation_middle.
  - cbn [flat_map snd]. rewrite IH. symmetry. apply Permutation_middle.
Qed.

Lemma group_in_In m g e k l : NoDup (map fst m) -> In (k, l) (group_in m g e) ->
  In (k, l) m \/ (k = g /\ (l = [e] \/ exists l', In (g, l') m /\ l = l' ++ [e])).
Proof.
  intros ND I. apply In_dget in I; [|now apply NoDup_dset]. unfold group_in in I. rewrite dget_dset in I.
  destruct (eqb_spec k g) as [->|N]; [|left; now apply dget_In].
  apply Some_inj in I. right. split; auto. destruct (dget m g) as [l'|] eqn:E; [right; exists l'|left; auto].
  split; auto. now apply dget_In.
Qed.

Lemma group_spec (name : ekey -> string) es : forall m,
  NoDup (map fst m) -> (forall k l, In (k, l) m -> l <> [] /\ forall e, In e l -> name e = k) ->
  let m' := fold_left (fun m e => group_in m (name e) e) es m in
  Permutation (flat_map snd m') (es ++ flat_map snd m)
  /\ forall k l, In (k, l) m' -> l <> [] /\ forall e, In e l -> name e = k.
Proof.
  induction es as [|e es IH]; intros m ND A; cbn zeta; cbn [fold_left app]; [split; auto|].
  destruct (IH (group_in m (name e) e)) as [P B].
  - now apply NoDup_dset.
  - intros k l I. apply group_in_In in I as [I|[-> [->|(l'&I&->)]]]; auto.
    + split; [discriminate|]. intros e' [<-|[]]. auto.
    + split; [destruct l'; discriminate|]. intros e' J. apply in_app_iff in J as [J|[<-|[]]]; auto.
      apply (A _ _ I) in J. auto.
  - cbn zeta in *. split; auto. rewrite P, group_in_perm. symmetry. apply Permutation_middle.
Qed.

(** Every group is drawn in the color of its first edge. *)
Lemma viewer_draw_spec (gs : dict string (list ekey)) (cs : dict ekey rgb) :
  (forall k l, In (k, l) gs -> l <> [] /\ forall e, In e l -> exists c, dget cs e = Some c) ->
  exists out, viewer_draw gs cs = Ok out /\ flat_map snd out = flat_map snd gs
    /\ forall c l, In (c, l) out -> exists k e, In (k, l) gs /\ In e l /\ dget cs e = Some c.
Proof.
  intros A. unfold viewer_draw.
  enough (G : forall gs' acc, (forall k l, In (k, l) gs' -> In (k, l) gs) ->
     exists out, fold_res (fun out (g : string * list ekey) =>
      match snd g with
      | [] => Ok out
      | e :: _ => let* c := dgetr cs e in Ok (out ++ [(c, snd g)])
      end) gs' acc = Ok (acc ++ out) /\ flat_map snd out = flat_map snd gs'
     /\ forall c l, In (c, l) out -> exists k e, In (k, l) gs /\ In e l /\ dget cs e = Some c).
  { destruct (G gs []) as (out&E&B); auto. exists out. auto. }
  clear - A. induction gs' as [|[k l] gs' IH]; intros acc Sub; cbn [fold_res].
  - exists []. rewrite app_nil_r. split; auto. split; auto. contradiction.
  - destruct (A k l) as [Nl Cl]; [apply Sub; now left|]. destruct l as [|e l]; [congruence|]. cbn [snd].
    destruct (Cl e (or_introl eq_refl)) as [c Ec]. apply dgetr_Ok in Ec as Ec'. rewrite Ec'. cbn [bind].
    destruct (IH (acc ++ [(c, e :: l)])) as (out&E&F&B); [intros; apply Sub; now right|].
    exists ((c, e :: l) :: out). rewrite <- app_assoc in E. split; auto. split.
    + cbn [flat_map snd]. now rewrite F.
    + intros c' l' [J|J]; auto. apply pair_equal_spec in J as [<- <-]. exists k, e. split; [apply Sub; now left|]. split; auto. now left.
Qed.

Lemma fold_group {A} (f : dict string (list A) -> A -> res (dict string (list A)))
    (g : dict string (list A) -> A -> dict string (list A)) es :
  (forall m e, In e es -> f m e = Ok (g m e)) -> forall m, fold_res f es m = Ok (fold_left g es m).
Proof.
  induction es as [|e es IH]; intros A0 m; cbn [fold_res fold_left]; auto.
  rewrite A0 by (now left). cbn [bind]. apply IH. intros; apply A0; now right.
Qed.

(** The colors of the drawings are all different. *)
Lemma c71_palette : NoDup [red; blue; gray; white; black; green; violet; purple; lime; coral; orange].
Proof. repeat constructor; cbn; intuition discriminate. Qed.

(** The plotter draws the edges of a form by the sign of their force. *)
Lemma c71_plotter_form : forall d : diagram R, forces_known d (edges d) ->
  exists m, plotter_form_edges d = Ok m /\ keyed m (edges d)
    /\ forall e, In e (edges d) -> exists c, dget m e = Some c /\ stressed d gray e c.
Proof.
  intros d Hf.
  assert (A : forall e, In e (edges d) -> exists c, plotter_form_edge d e = Ok c /\ stressed d gray e c).
  { intros e I. destruct (Hf e I) as [f Ef]. unfold plotter_form_edge. rewrite Ef. cbn [bind neqb nltb ncopysign n0 n1 R_ops].
    destruct (Reqb_spec f 0) as [->|N]; [exists gray; split; [reflexivity|now constructor]|].
    rewrite Rabs_R1. destruct (Rlt_dec f 0) as [L|G].
    - exists blue. split; [|eapply in_compression; eauto]. destruct (Rltb_spec (-(1)) 0); [reflexivity|lra].
    - exists red. split; [|eapply in_tension; eauto; lra]. destruct (Rltb_spec 1 0); [lra|reflexivity]. }
  destruct (color_map_spec (edges d) (plotter_form_edge d)) as (m&Em&Km&Im).
  { intros e I. destruct (A e I) as (c&E&_). eauto. }
  exists m. split; auto. split; auto. intros e I. destruct (A e I) as (c&E&S). eauto.
Qed.

(** The viewer draws the edges of a form in two groups, with tension and compression in
    different colors; an edge without force is drawn as one in tension. *)
Lemma c71_viewer_form : forall (d : diagram R) es, forces_known d es ->
  (exists m, viewer_form_edges d es = Ok m /\ keyed m es
     /\ forall e, In e es -> exists c, dget m e = Some c /\ stressed d red e c)
  /\ exists out, viewer_draw_form d es = Ok out /\ drawn_as es out (stressed d red).
Proof.
  intros d es Hf.
  assert (Nn : forall f : R, nonneg f = negb (Rltb f 0)).
  { intros f. unfold nonneg. change (nltb (T:=R)) with Rltb. cbn [neqb n0 R_ops].
    destruct (Rltb_spec f 0), (Rltb_spec 0 f), (Reqb_spec f 0); cbn; auto; lra. }
  set (name := fun e => if Rltb (force d e) 0 then "compression"%string else "tension"%string).
  assert (A : forall e, In e es -> exists c, viewer_form_edge d e = Ok c /\ color (name e) = Ok c /\ stressed d red e c).
  { intros e I. destruct (Hf e I) as [f Ef]. unfold viewer_form_edge, name, force. rewrite Ef. cbn [bind value]. rewrite Nn.
    change (nltb (T:=R)) with Rltb. cbn [n0 R_ops]. destruct (Rltb_spec f 0) as [L|G]; cbn [negb].
    - exists blue. split; [reflexivity|]. split; [reflexivity|]. eapply in_compression; eauto.
    - exists red. split; [reflexivity|]. split; [reflexivity|]. destruct (Req_dec f 0) as [->|]; [now constructor|].
      eapply in_tension; eauto. lra. }
  destruct (color_map_spec es (viewer_form_edge d)) as (m&Em&Km&Im).
  { intros e I. destruct (A e I) as (c&E&_). eauto. }
  split.
  { exists m. split; auto. split; auto. intros e I. destruct (A e I) as (c&E&_&S). eauto. }
  unfold viewer_draw_form. unfold viewer_form_edges in *. rewrite Em. cbn [bind].
  assert (Eg : form_edges_by_type d es = Ok (fold_left (fun m e => group_in m (name e) e) es [])).
  { unfold form_edges_by_type. apply fold_group. intros gm e I.
    destruct (Hf e I) as [f Ef]. rewrite Ef. cbn [bind]. rewrite Nn. unfold name, force. rewrite Ef. cbn [value].
    change (nltb (T:=R)) with Rltb. cbn [n0 R_ops]. destruct (Rltb f 0); reflexivity. }
  rewrite Eg. cbn [bind]. destruct (group_spec name es [] (NoDup_nil _)) as [P G]; [contradiction|]. cbn zeta in *.
  set (gs := fold_left (fun m e => group_in m (name e) e) es []) in *. cbn [flat_map] in P. rewrite app_nil_r in P.
  assert (Mem : forall k l e, In (k, l) gs -> In e l -> In e es).
  { intros k l e I J. eapply Permutation_in; [apply P|]. apply in_flat_map. exists (k, l). auto. }
  destruct (viewer_draw_spec gs m) as (out&Eo&Fo&Co).
  { intros k l I. destruct (G k l I) as [Nl _]. split; auto. intros e J. destruct (A e (Mem k l e I J)) as (c&E&_).
    exists c. apply Im; eauto. }
  exists out. split; auto. split; [now rewrite Fo|]. intros c l e I J.
  destruct (Co c l I) as (k&e0&Ik&J0&E0). destruct (G k l Ik) as [_ Gn].
  destruct (A e (Mem k l e Ik J)) as (c'&_&N'&S'). destruct (A e0 (Mem k l e0 Ik J0)) as (c0&E0'&N0&_).
  rewrite (Im e0 c0 (Mem k l e0 Ik J0) E0') in E0. apply Some_inj in E0. subst c0.
  rewrite (Gn e J) in N'. rewrite (Gn e0 J0) in N0. rewrite N0 in N'. apply Ok_inj in N'. now subst.
Qed.

Section Topology.
  Context {T : Type} `{NumOps T}.
  Implicit Types (d : diagram T).

  Lemma edge_ends d e : produced d -> In e (edges d) -> In (fst e) (nodes d) /\ In (snd e) (nodes d).
  Proof.
    intros Hr I. assert (W := produced_wf d Hr). apply In_edges, has_edge_find in I as [a Ea]; auto. apply (wf_eends _ W e a Ea).
  Qed.

  Lemma has_trails_nil d : has_trails d = true <-> trails d <> [].
  Proof.
    unfold has_trails, number_of_trails, trails. destruct (d_trails d) as [|t l]; cbn; [|split; [discriminate|]; auto].
    - split; [discriminate|congruence].
  Qed.

  Lemma edge_kind_spec d e : produced d -> drawable d -> In e (edges d) ->
    exists name c, (forall v, edge_kind d v e = Ok (Some name)) /\ color name = Ok c /\ looks d e c
      /\ In name ["auxiliary_trail"; "edge_trail"; "edge_deviation"; "edge_deviation_indirect"]%string.
  Proof.
    intros Hr Dr I. unfold edge_kind. destruct (is_auxiliary_trail_edge d e) eqn:Ax.
    { exists "auxiliary_trail"%string, orange. split; [reflexivity|]. split; [reflexivity|]. split; [now constructor|cbn; auto]. }
    destruct (c67_edges d Hr) as (_&_&Ty&_). destruct (Ty e I) as [(Et&Ed&It)|(Et&Ed&It)]; rewrite Et; cbn [bind].
    { exists "edge_trail"%string, purple. split; [reflexivity|]. split; [reflexivity|]. split; [now apply looks_trail|cbn; auto]. }
    destruct (has_trails d) eqn:Ht.
    - apply has_trails_nil in Ht. destruct Dr as [Dr|Dr]; [contradiction|].
      destruct (edge_ends d e Hr I) as [I1 I2]. destruct (Dr _ I1) as [k1 E1]. destruct (Dr _ I2) as [k2 E2].
      unfold is_direct_deviation_edge, is_indirect_deviation_edge, is_deviation_edge_predicate, edge_sequence.
      rewrite Ed. cbn [bind negb]. rewrite E1, E2. cbn [bind fst snd]. destruct e as [u v]. cbn [fst snd] in *.
      destruct (Z.eqb_spec k1 k2) as [->|N]; cbn [negb].
      + exists "edge_deviation"%string, lime. split; [reflexivity|]. split; [reflexivity|]. split; [eapply looks_direct; eauto|cbn; auto].
      + exists "edge_deviation_indirect"%string, coral. split; [reflexivity|]. split; [reflexivity|].
        split; [eapply looks_indirect; eauto|cbn; auto].
    - rewrite Ed. cbn [bind]. exists "edge_deviation"%string, lime. split; [reflexivity|]. split; [reflexivity|].
      split; [|cbn; auto]. apply looks_untraced; auto. destruct (trails d) eqn:Et'; auto.
      exfalso. assert (X : has_trails d = true) by (apply has_trails_nil; congruence). congruence.
  Qed.

  (** An edge looks one way. *)
  Lemma c71_one_look : forall d e c c', produced d -> looks d e c -> looks d e c' -> c = c'.
  Proof.
    intros d e c c' Hr L L'.
    assert (X : In e (trail_edges d) -> In e (deviation_edges d) -> False).
    { intros I J. destruct (c67_edges d Hr) as (P&ND&_). assert (N := Permutation_NoDup P ND).
      apply (ChainFacts.NoDup_app_disj _ _ e N I J). }
    destruct L; inversion L'; subst; auto; try congruence; try (exfalso; auto; fail).
  Qed.

  Lemma fold_colors d es :
    forall acc v, (forall e, In e es -> exists name c, (forall v, edge_kind d v e = Ok (Some name)) /\ color name = Ok c) ->
    exists m v', fold_res (fun (acc : dict ekey rgb * local_var string) e =>
        let* v := edge_kind d (snd acc) e in
        let* name := read_var v in
        let* c := color name in
        Ok (dset (fst acc) e c, v)) es (acc, v) = Ok (m, v')
      /\ (forall e, In e es -> exists name c, (forall v, edge_kind d v e = Ok (Some name)) /\ color name = Ok c /\ dget m e = Some c)
      /\ (forall e, ~ In e es -> dget m e = dget acc e).
  Proof.
    induction es as [|e es IH]; intros acc v A; cbn [fold_res].
    - exists acc, v. split; auto. split; [contradiction|auto].
    - destruct (A e (or_introl eq_refl)) as (name&c&E&Ec). cbn [snd fst]. rewrite E. cbn [bind read_var]. rewrite Ec. cbn [bind].
      destruct (IH (dset acc e c) (Some name)) as (m&v'&Em&M1&M2); [intros; apply A; now right|].
      exists m, v'. split; auto. split.
      + intros e' I. destruct (in_dec (@eq_dec_K ekey _) e' es) as [J|J]; [now apply M1|].
        destruct I as [<-|I]; [|contradiction]. exists name, c. split; auto. split; auto. rewrite M2 by auto. apply dget_dset_same.
      + intros e' N. rewrite M2 by (intros J; apply N; now right). apply dget_dset_other. intros ->. apply N. now left.
  Qed.

  (** The viewer, and the plotter on request, draw every edge of a topology in the color
      of its kind; the viewer in at most four groups that make up the edges. *)
  Lemma c71_topology : forall d es, produced d -> drawable d -> (forall e, In e es -> In e (edges d)) ->
    (exists m, type_colors d es = Ok m /\ keyed m es /\ forall e, In e es -> exists c, dget m e = Some c /\ looks d e c)
    /\ exists out, viewer_draw_topology d es = Ok out /\ drawn_as es out (looks d).
  Proof.
    intros d es Hr Dr Sub.
    assert (A : forall e, In e es -> exists name c, (forall v, edge_kind d v e = Ok (Some name)) /\ color name = Ok c /\ looks d e c
      /\ In name ["auxiliary_trail"; "edge_trail"; "edge_deviation"; "edge_deviation_indirect"]%string).
    { intros e I. apply edge_kind_spec; auto. }
    destruct (fold_colors d es [] None) as (m&v&Em&M1&M2).
    { intros e I. destruct (A e I) as (name&c&E1&E2&_). eauto. }
    assert (Tc : type_colors d es = Ok m) .
    { unfold type_colors. exact (f_equal (fun r => let* r := r in Ok (fst r)) Em). }
    assert (Mc : forall e, In e es -> exists c, dget m e = Some c /\ looks d e c).
    { intros e I. destruct (M1 e I) as (name&c&E&Ec&G). destruct (A e I) as (name'&c'&E'&Ec'&L&_).
      specialize (E' None). rewrite E in E'. apply Ok_inj, Some_inj in E'. subst name'. rewrite Ec in Ec'. apply Ok_inj in Ec'.
      subst. eauto. }
    split.
    { exists m. split; auto. split; auto. apply keyed_of; auto. intros e I. destruct (Mc e I) as (c&G&_). eauto. }
    unfold viewer_draw_topology. rewrite Tc. cbn [bind].
    set (name := fun e => match edge_kind d None e with Ok (Some n) => n | _ => ""%string end).
    assert (Eg : edges_by_type d es = Ok (fold_left (fun m e => group_in m (group_of (name e)) e) es [])).
    { unfold edges_by_type. apply fold_group. intros gm e I. destruct (A e I) as (n&c&E&_). unfold name. rewrite E. reflexivity. }
    rewrite Eg. cbn [bind]. destruct (group_spec (fun e => group_of (name e)) es [] (NoDup_nil _)) as [P G]; [contradiction|].
    cbn zeta in *. set (gs := fold_left (fun m e => group_in m (group_of (name e)) e) es []) in *.
    cbn [flat_map] in P. rewrite app_nil_r in P.
    assert (Mem : forall k l e, In (k, l) gs -> In e l -> In e es).
    { intros k l e I J. eapply Permutation_in; [apply P|]. apply in_flat_map. exists (k, l). auto. }
    destruct (viewer_draw_spec gs m) as (out&Eo&Fo&Co).
    { intros k l I. destruct (G k l I) as [Nl _]. split; auto. intros e J. destruct (Mc e (Mem k l e I J)) as (c&E&_). eauto. }
    exists out. split; auto. split; [now rewrite Fo|]. intros c l e I J.
    destruct (Co c l I) as (k&e0&Ik&J0&E0). destruct (G k l Ik) as [_ Gn].
    assert (Ie := Mem k l e Ik J). assert (Ie0 := Mem k l e0 Ik J0).
    destruct (A e Ie) as (n&c1&K1&C1&L1&N1). destruct (A e0 Ie0) as (n0&c2&K2&C2&L2&N2).
    destruct (Mc e0 Ie0) as (c3&D3&L3). rewrite E0 in D3. apply Some_inj in D3. subst c3.
    assert (c = c2) by (eapply c71_one_look; eauto). subst c2.
    assert (Q : group_of n = group_of n0).
    { transitivity k; [|symmetry]; [rewrite <- (Gn e J)|rewrite <- (Gn e0 J0)]; unfold name; [rewrite K1|rewrite K2]; reflexivity. }
    assert (n = n0).
    { clear - Q N1 N2. cbn [In] in *.
      destruct N1 as [<-|[<-|[<-|[<-|[]]]]], N2 as [<-|[<-|[<-|[<-|[]]]]]; auto; discriminate Q. }
    subst n0. rewrite C1 in C2. apply Ok_inj in C2. now subst.
  Qed.
End Topology.

Lemma fold_states (d : diagram R) es :
  (forall e, In e es -> exists v name c, (forall v', exists v0, state_name d v' e = Ok (v0, name)) /\ color name = Ok c /\ state d e c /\ v = tt) ->
  forall acc v,
  exists m v', fold_res (fun (acc : dict ekey rgb * local_var bool) e =>
      let* (v, name) := state_name d (snd acc) e in
      let* c := color name in
      Ok (dset (fst acc) e c, v)) es (acc, v) = Ok (m, v')
    /\ (forall e, In e es -> exists c, dget m e = Some c /\ state d e c)
    /\ (forall e, ~ In e es -> dget m e = dget acc e).
Proof.
  induction es as [|e es IH]; intros A acc v; cbn [fold_res].
  - exists acc, v. split; auto. split; [contradiction|auto].
  - destruct (A e (or_introl eq_refl)) as (_&name&c&E&Ec&St&_). destruct (E v) as [v1 E1]. cbn [snd fst]. rewrite E1. cbn [bind].
    rewrite Ec. cbn [bind].
    destruct (IH (fun e' I => A e' (or_intror I)) (dset acc e c) v1) as (m&v'&Em&M1&M2).
    exists m, v'. split; auto. split.
    + intros e' I. destruct (in_dec (@eq_dec_K ekey _) e' es) as [J|J]; [now apply M1|].
      destruct I as [<-|I]; [|contradiction]. exists c. split; auto. rewrite M2 by auto. apply dget_dset_same.
    + intros e' N. rewrite M2 by (intros J; apply N; now right). apply dget_dset_other. intros ->. apply N. now left.
Qed.

(** By default the plotter draws the edges of a topology by the sign of their length or force. *)
Lemma c71_state : forall (d : diagram R) es, produced d -> (forall e, In e es -> In e (edges d)) ->
  exists m, state_colors d es = Ok m /\ keyed m es /\ forall e, In e es -> exists c, dget m e = Some c /\ state d e c.
Proof.
  intros d es Hr Sub. assert (W := produced_wf d Hr).
  assert (Cs : forall x : R, nltb (ncopysign n1 x) n0 = Rltb x 0).
  { intros x. cbn [nltb ncopysign n0 n1 R_ops]. rewrite Rabs_R1. destruct (Rlt_dec x 0) as [L|L];
      destruct (Rltb_spec x 0); try lra; match goal with |- Rltb ?a 0 = _ => destruct (Rltb_spec a 0) end; auto; lra. }
  destruct (fold_states d es) with (acc := @nil (ekey * rgb)) (v := @None bool) as (m&v&Em&M1&M2).
  { intros e I. apply Sub in I. exists tt. unfold state_name.
    destruct (is_auxiliary_trail_edge d e) eqn:Ax.
    { exists "auxiliary_trail"%string, orange. split; [eauto|]. split; [reflexivity|]. split; [now constructor|auto]. }
    assert (G : exists a, edge_get d e = Ok a).
    { apply In_edges, has_edge_find in I as [a Ea]; auto. exists a. unfold edge_get. now rewrite Ea. }
    destruct G as [a Ea].
    destruct (c67_edges d Hr) as (_&_&Ty&_). destruct (Ty e I) as [(Et&Ed&It)|(Et&Ed&It)]; rewrite Et; cbn [bind].
    - assert (El : edge_length_2 d e = Ok (ea_length a)) by (unfold edge_length_2; now rewrite Ea).
      exists (if Rltb (ea_length a) 0 then "compression" else "tension")%string, (if Rltb (ea_length a) 0 then blue else red).
      split; [|split; [destruct (Rltb _ _); reflexivity|split; [eapply state_trail; eauto|auto]]].
      intros v'. exists (Some true). cbn [read_var bind]. rewrite El. cbn [bind]. now rewrite Cs.
    - assert (El : edge_force d e = Ok (ea_force a)) by (unfold edge_force; now rewrite Ea).
      exists (if Rltb (ea_force a) 0 then "compression" else "tension")%string, (if Rltb (ea_force a) 0 then blue else red).
      split; [|split; [destruct (Rltb _ _); reflexivity|split; [eapply state_deviation; eauto|auto]]].
      intros v'. exists (Some false). rewrite Ed. cbn [read_var bind]. rewrite El. cbn [bind]. now rewrite Cs. }
  exists m. split; [exact (f_equal (fun r => let* r := r in Ok (fst r)) Em)|]. split; auto.
  apply keyed_of; auto. intros e I. destruct (M1 e I) as (c&E&_). eauto.
Qed.

Section Nodes.
  Context {T : Type} `{NumOps T}.
  Implicit Types (d : diagram T).

  (** Nodes are drawn by what they are: supports, origins or neither. *)
  Lemma c71_nodes : forall d ns, produced d -> (forall n, In n ns -> In n (nodes d)) ->
    (exists m, viewer_topology_nodes d ns = Ok m /\ node_colors d ns m green violet black)
    /\ (exists m, plotter_topology_nodes d ns = Ok m /\ node_colors d ns m green violet white)
    /\ (exists m, viewer_form_nodes d ns = Ok m /\ node_colors d ns m green black black)
    /\ (exists m, plotter_form_nodes d ns = Ok m /\ node_colors d ns m green white white).
  Proof.
    intros d ns Hr Sub. destruct (c67_nodes d Hr) as (_&_&_&_&K).
    assert (G : forall (f : Z -> res rgb) s o x,
      (forall n a, In n ns -> node_get d n = Ok a ->
         f n = Ok (match na_type a with Some TSupport => s | Some TOrigin => o | None => x end)) ->
      exists m, color_map ns f = Ok m /\ node_colors d ns m s o x).
    { intros f s o x Hf. destruct (color_map_spec ns f) as (m&Em&Km&Im).
      { intros n I. destruct (K n (Sub n I)) as (a&Ea&_). eauto. }
      exists m. split; auto. split; auto. intros n I. destruct (K n (Sub n I)) as (a&Ea&Ss&So&_).
      assert (E := Im n _ I (Hf n a I Ea)). rewrite Ss, So.
      destruct (na_type a) as [[]|]; repeat split; try congruence; intros X; try (intros Y); congruence. }
    split; [|split; [|split]]; apply G; intros n a I Ea.
    - unfold viewer_topology_node, is_node_support, is_node_origin. rewrite Ea. cbn [bind].
      destruct (na_type a) as [[]|]; reflexivity.
    - unfold plotter_topology_node. rewrite Ea. cbn [bind]. destruct (na_type a) as [[]|]; reflexivity.
    - unfold viewer_form_node, is_node_support. rewrite Ea. cbn [bind]. destruct (na_type a) as [[]|]; reflexivity.
    - unfold plotter_form_node, is_node_support. rewrite Ea. cbn [bind]. destruct (na_type a) as [[]|]; reflexivity.
  Qed.

  (** Trail edges are solid lines and deviation edges are dashed. *)
  Lemma c71_lines : forall d es, produced d -> (forall e, In e es -> In e (edges d)) ->
    exists l, line_styles d es = Ok l
      /\ Forall2 (fun e solid => (solid = true <-> In e (trail_edges d)) /\ (solid = false <-> In e (deviation_edges d))) es l.
  Proof.
    intros d es Hr. assert (W := produced_wf d Hr). unfold line_styles. induction es as [|e es IH]; intros Sub; cbn [map_res].
    - exists []. auto.
    - destruct IH as (l&El&F); [intros; apply Sub; now right|]. assert (I := Sub e (or_introl eq_refl)).
      assert (I' := I). apply In_edges, has_edge_find in I' as [a Ea]; auto. assert (X := wf_etype d W e a Ea).
      assert (Eg : edge_get d e = Ok a) by (unfold edge_get; now rewrite Ea). rewrite Eg. cbn [bind].
      assert (Tr : In e (trail_edges d) <-> ea_type a = Some ETrail).
      { rewrite In_trail_edges by auto. split; [intros (b&Eb&Tb); congruence|eauto]. }
      assert (De : In e (deviation_edges d) <-> ea_type a = Some EDeviation).
      { rewrite In_deviation_edges by auto. split; [intros (b&Eb&Tb); congruence|eauto]. }
      destruct (ea_type a) as [[]|]; [| |congruence]; rewrite El; cbn [bind].
      + exists (true :: l). split; auto. constructor; auto. rewrite Tr, De. split; split; congruence.
      + exists (false :: l). split; auto. constructor; auto. rewrite Tr, De. split; split; congruence.
  Qed.

  (** Crosses are drawn at the loaded nodes that are drawn. *)
  Lemma c71_crosses : forall d ns m, produced d ->
    exists l, crosses d ns m = Ok l /\ NoDup l
      /\ forall n, In n l <-> In n ns /\ exists q, node_load d n = Ok q /\ nltb m (length_vector q) = true.
  Proof.
    intros d ns m Hr. destruct (c67_loaded d m Hr) as (l&El&ND&Il). unfold crosses. rewrite El. cbn [bind].
    eexists. split; [reflexivity|]. split; [now apply NoDup_filter|]. intros n. rewrite filter_In, Il. unfold memb.
    rewrite existsb_exists. split.
    - intros [L (k&I&E)]. apply (proj1 (eqb_eq n k)) in E. subst. auto.
    - intros [I L]. split; auto. exists n. split; auto. apply eqb_eq. auto.
  Qed.

  (** ** Selections in Grasshopper *)

  Lemma points_drawn d ns : (forall n, In n ns -> In n (nodes d)) ->
    exists l, map_res (node_coordinates d) ns = Ok l /\ drawn_points d ns l.
  Proof.
    induction ns as [|n ns IH]; intros Sub; cbn [map_res]; [exists []; split; [auto|constructor]|].
    destruct (node_find d n (Sub n (or_introl eq_refl))) as [a Ea].
    assert (Eg : node_get d n = Ok a) by (now apply dgetr_Ok).
    assert (Ep : node_coordinates d n = Ok (na_xyz a)) by (unfold node_coordinates; now rewrite Eg).
    rewrite Ep. cbn [bind]. destruct IH as (l&El&F); [intros; apply Sub; now right|]. rewrite El. cbn [bind].
    eexists. split; [reflexivity|]. constructor; auto.
  Qed.

  Lemma lines_drawn d es : (forall e, In e es -> In (fst e) (nodes d) /\ In (snd e) (nodes d)) ->
    exists l, map_res (fun e => let* a := node_coordinates d (fst e) in let* b := node_coordinates d (snd e) in Ok (a, b)) es
              = Ok l /\ drawn_lines d es l.
  Proof.
    induction es as [|e es IH]; intros Sub; cbn [map_res]; [exists []; split; [auto|constructor]|].
    destruct (Sub e (or_introl eq_refl)) as [I1 I2].
    destruct (points_drawn d [fst e; snd e]) as (l&El&F); [intros n [<-|[<-|[]]]; auto|].
    inversion F as [|? p ? l' E1 F']; subst. inversion F' as [|? q ? l'' E2 _]; subst. rewrite E1, E2. cbn [bind].
    destruct IH as (l&El'&F1); [intros; apply Sub; now right|]. rewrite El'. cbn [bind].
    eexists. split; [reflexivity|]. constructor; auto.
  Qed.

  (** A selection of nodes or edges, or all of them, are drawn where they are, in order. *)
  Lemma c72_drawn : forall d, produced d ->
    (forall ns, ns <> [] -> (forall n, In n ns -> In n (nodes d)) ->
       exists l, gh_draw_nodes d (Some ns) = Ok l /\ drawn_points d ns l)
    /\ (exists l, gh_draw_nodes d None = Ok l /\ drawn_points d (nodes d) l)
    /\ (forall es, es <> [] -> (forall e, In e es -> In e (edges d)) ->
       exists l, gh_draw_edges d (Some es) = Ok l /\ drawn_lines d es l)
    /\ (exists l, gh_draw_edges d None = Ok l /\ drawn_lines d (edges d) l).
  Proof.
    intros d Hr. unfold gh_draw_nodes, gh_draw_edges, or_all. split; [|split; [|split]].
    - intros [|n ns] N Sub; [congruence|]. now apply points_drawn.
    - now apply points_drawn.
    - intros [|e es] N Sub; [congruence|]. apply lines_drawn. intros; apply edge_ends; auto.
    - apply lines_drawn. intros; apply edge_ends; auto.
  Qed.

  (** The edges or origins drawn are those of the selection that are of the kind asked for,
      in order, or all of that kind if nothing is selected. *)
  Lemma c72_kinds : forall d, produced d ->
    (forall es, (forall e, In e es -> In e (edges d)) ->
       draws_edges d (filter (fun e => memb e (trail_edges d)) es) (gh_draw_edges_trail d (Some es))
       /\ draws_edges d (filter (fun e => memb e (deviation_edges d)) es) (gh_draw_edges_deviation d (Some es)))
    /\ draws_edges d (trail_edges d) (gh_draw_edges_trail d None)
    /\ draws_edges d (deviation_edges d) (gh_draw_edges_deviation d None)
    /\ (forall ns, (forall n, In n ns -> In n (nodes d)) ->
       draws_nodes d (filter (fun n => memb n (origin_nodes d)) ns) (gh_draw_origins d (Some ns)))
    /\ draws_nodes d (origin_nodes d) (gh_draw_origins d None).
  Proof.
    intros d Hr. assert (W := produced_wf d Hr).
    destruct (c72_drawn d Hr) as (DN&_&DE&_).
    destruct (c67_edges d Hr) as (P&_&Ty&_). destruct (c67_nodes d Hr) as (_&_&_&On&K).
    assert (Sub : forall e, In e (trail_edges d ++ deviation_edges d) -> In e (edges d)).
    { intros e I. eapply Permutation_in; [symmetry; apply P|auto]. }
    assert (De : forall es, (forall e, In e es -> In e (edges d)) ->
      draws_edges d es match es with [] => Ok None | _ => let* l := gh_draw_edges d (Some es) in Ok (Some l) end).
    { intros es S. unfold draws_edges. destruct es as [|e es]; auto. destruct (DE (e :: es)) as (l&El&F); auto; [discriminate|].
      rewrite El. cbn [bind]. eauto. }
    assert (Dn : forall ns, (forall n, In n ns -> In n (nodes d)) ->
      draws_nodes d ns match ns with [] => Ok None | _ => let* l := gh_draw_nodes d (Some ns) in Ok (Some l) end).
    { intros ns S. unfold draws_nodes. destruct ns as [|n ns]; auto. destruct (DN (n :: ns)) as (l&El&F); auto; [discriminate|].
      rewrite El. cbn [bind]. eauto. }
    split; [|split; [|split; [|split]]].
    - intros es S. unfold gh_draw_edges_trail, gh_draw_edges_deviation, collection_keys. split.
      + rewrite (filter_res_Ok _ (fun e => memb e (trail_edges d))).
        * cbn [bind]. apply De. intros e I. apply filter_In in I as [I _]. auto.
        * intros e I. destruct (memb e (trail_edges d)) eqn:E; [apply memb_In in E|apply memb_nIn in E];
            destruct (Ty e (S e I)) as [(Et&_&It)|(Et&_&It)]; auto; try contradiction.
          destruct (edge_types d e W (S e I)) as [[]|[]]; contradiction.
      + rewrite (filter_res_Ok _ (fun e => memb e (deviation_edges d))).
        * cbn [bind]. apply De. intros e I. apply filter_In in I as [I _]. auto.
        * intros e I. destruct (memb e (deviation_edges d)) eqn:E; [apply memb_In in E|apply memb_nIn in E];
            destruct (Ty e (S e I)) as [(_&Ed&It)|(_&Ed&It)]; auto; try contradiction.
          destruct (edge_types d e W (S e I)) as [[]|[]]; contradiction.
    - unfold gh_draw_edges_trail, collection_keys. cbn [bind]. apply De. intros e I. apply Sub, in_app_iff. auto.
    - unfold gh_draw_edges_deviation, collection_keys. cbn [bind]. apply De. intros e I. apply Sub, in_app_iff. auto.
    - intros ns S. unfold gh_draw_origins, collection_keys.
      rewrite (filter_res_Ok _ (fun n => memb n (origin_nodes d))).
      + cbn [bind]. apply Dn. intros n I. apply filter_In in I as [I _]. auto.
      + intros n I. destruct (K n (S n I)) as (a&Ea&_&So&_&_&O1&O2).
        destruct (memb n (origin_nodes d)) eqn:E; [apply memb_In in E|apply memb_nIn in E]; [apply O1|apply O2]; tauto.
    - unfold gh_draw_origins, collection_keys. cbn [bind]. now apply Dn.
  Qed.

  (** The supports drawn are those of the selection, if it has any. *)
  Lemma c72_supports_partial : forall d ns, produced d -> (forall n, In n ns -> In n (nodes d)) ->
    (exists n, In n ns /\ In n (support_nodes d)) ->
    exists l, gh_draw_supports d (Some ns) = Ok l
      /\ drawn_points d (filter (fun n => memb n (support_nodes d)) ns) l.
  Proof.
    intros d ns Hr S (n&I&Is). destruct (c72_drawn d Hr) as (DN&_). destruct (c67_nodes d Hr) as (_&_&_&_&K).
    unfold gh_draw_supports, collection_keys. rewrite (filter_res_Ok _ (fun n => memb n (support_nodes d))).
    - cbn [bind]. apply DN.
      + intros E. assert (X : In n (filter (fun n => memb n (support_nodes d)) ns)).
        { apply filter_In. split; auto. now apply memb_In. }
        rewrite E in X. contradiction.
      + intros m J. apply filter_In in J as [J _]. auto.
    - intros m J. destruct (K m (S m J)) as (a&Ea&So&_&O1&O2&_).
      destruct (memb m (support_nodes d)) eqn:E; [apply memb_In in E|apply memb_nIn in E]; [apply O1|apply O2]; tauto.
  Qed.

  (** The trails are drawn through their nodes, from the origin on. *)
  Lemma c72_trails : forall d, produced d ->
    exists ls, gh_draw_trails d = Ok ls /\ Forall2 (fun kt l => drawn_points d (snd kt) l) (trails d) ls.
  Proof.
    intros d Hr. assert (W := produced_wf d Hr).
    assert (Sub : forall k t n, In (k, t) (trails d) -> In n t -> In n (nodes d)).
    { intros k t n I J. apply (wf_trails d W k t n); auto. apply In_dget; auto. apply (wf_tnodup _ W). }
    revert Sub. unfold gh_draw_trails. induction (trails d) as [|[k t] ts IH]; intros Sub; cbn [map_res].
    - exists []. split; [reflexivity|constructor].
    - cbn [snd]. destruct (points_drawn d t) as (l&El&F); [intros n I; apply (Sub k t n); auto; now left|].
      rewrite El. cbn [bind]. destruct IH as (ls&Els&Fs); [intros k' t' n I J; apply (Sub k' t' n); auto; now right|]. rewrite Els. cbn [bind].
      eexists. split; [reflexivity|]. constructor; auto.
  Qed.
End Nodes.

(** ** Visibility *)

(** Edges are shown as asked for when the object is made, and by the setter, which
    leaves the points alone. *)
Lemma c73_partial : forall points lines nodes edges b s,
  show_edges (new_flags points lines nodes edges) = Some edges
  /\ edges_drawn (new_flags points lines nodes edges) = edges
  /\ fl_points (new_flags points lines nodes edges) = nodes /\ fl_lines (new_flags points lines nodes edges) = edges
  /\ show_edges (set_show_edges b s) = Some b /\ edges_drawn (set_show_edges b s) = b
  /\ fl_lines (set_show_edges b s) = b /\ fl_points (set_show_edges b s) = fl_points s /\ show_nodes (set_show_edges b s) = show_nodes s
  /\ fl_points (set_show_nodes b s) = b /\ fl_lines (set_show_nodes b s) = fl_lines s.
Proof. intros. repeat split; try reflexivity; now destruct edges, b || destruct b || destruct edges. Qed.

(** Hiding the nodes hides the edges, and what was assigned cannot be read back. *)
Lemma c73_refuted : exists s, edges_drawn s = true /\ edges_drawn (set_show_nodes false s) = false
  /\ forall b, show_nodes (set_show_nodes b s) = None.
Proof. exists (new_flags true true true true). repeat split. Qed.
