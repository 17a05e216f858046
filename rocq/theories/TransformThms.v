(** * Form finding commutes with motions and scaling *)

From Coq Require Import String List ZArith Bool Lia Permutation Reals Lra.
From Verif Require Import Py PyFacts Num Diagram DiagramFacts Topology Equilibrium History HistoryFacts RVec SpecStatics SpecTransform.
Import ListNotations.
Open Scope R_scope.

Section Maps.
  Context {K V W : Type} `{Eqb K} (g : V -> W).
  Lemma dget_values (m : dict K V) k : dget (map_values g m) k = option_map g (dget m k).
  Proof. apply dget_map. Qed.
  Lemma dgetr_values (m : dict K V) k : dgetr (map_values g m) k = map_result g (dgetr m k).
  Proof. unfold dgetr. rewrite dget_values. now destruct (dget m k). Qed.
  Lemma dmem_values (m : dict K V) k : dmem (map_values g m) k = dmem m k.
  Proof. unfold dmem. rewrite dget_values. now destruct (dget m k). Qed.
  Lemma dset_values (m : dict K V) k x : dset (map_values g m) k (g x) = map_values g (dset m k x).
  Proof.
    induction m as [|[k' y] m IH]; auto. unfold map_values in *. cbn [map fst snd].
    unfold dset in *. cbn -[eqb] in *. destruct (eqb k k'); auto. cbn. now rewrite IH.
  Qed.
  Lemma dkeys_values (m : dict K V) : dkeys (map_values g m) = dkeys m.
  Proof. apply dkeys_map. Qed.
End Maps.

Lemma map_result_bind {A B A' B'} (g : A -> A') (h : B -> B') (x : res A) f f' :
  (forall a, f' (g a) = map_result h (f a)) -> bind (map_result g x) f' = map_result h (bind x f).
Proof. intros E. destruct x; cbn; auto. Qed.

Lemma map_result_id {A} (r : res A) : map_result (fun a => a) r = r.
Proof. now destruct r. Qed.

Lemma bind_map {A B A'} (g : A -> A') (x : res A) (f : A' -> res B) : bind (map_result g x) f = bind x (fun a => f (g a)).
Proof. now destruct x. Qed.

Lemma map_bind {A B B'} (h : B -> B') (x : res A) (f : A -> res B) : map_result h (bind x f) = bind x (fun a => map_result h (f a)).
Proof. now destruct x. Qed.

Lemma bind_ext {A B} (x : res A) (f f' : A -> res B) : (forall a, f a = f' a) -> bind x f = bind x f'.
Proof. intros E. destruct x; cbn; auto. Qed.

Lemma map_res_values {A B B'} (h : B -> B') (f : A -> res B) (f' : A -> res B') l :
  (forall a, f' a = map_result h (f a)) -> map_res f' l = map_result (map h) (map_res f l).
Proof.
  intros E. induction l as [|a l IH]; cbn; auto. rewrite E, IH. destruct (f a); cbn; auto. now destruct (map_res f l).
Qed.

Lemma fold_res_values {S S' A} (h : S -> S') (f : S -> A -> res S) (f' : S' -> A -> res S') l :
  (forall s a, f' (h s) a = map_result h (f s a)) -> forall s, fold_res f' l (h s) = map_result h (fold_res f l s).
Proof.
  intros E. induction l as [|a l IH]; intros s; cbn; auto. rewrite E. destruct (f s a); cbn; auto.
Qed.

Lemma filter_res_ext {A} (p q : A -> res bool) l : (forall a, p a = q a) -> filter_res p l = filter_res q l.
Proof. intros E. induction l as [|a l IH]; cbn; auto. now rewrite E, IH. Qed.

Section Transform.
  Context (s c : R) (Q : rvec -> rvec) (v : rvec).
  Context (Hs : 0 < s) (Hc : 0 < c) (HQ : isometry Q).
  Implicit Types (d : diagram R).

  Notation P := (moved_point s Q v).
  Notation G := (moved_force c Q).
  Notation tr := (moved s c Q v).

  (** ** Vector algebra *)

  Lemma Q0 : Q v0 = v0.
  Proof. replace v0 with (0 *v v0) at 1 by vring. rewrite (iso_scale _ HQ). vring. Qed.
  Lemma Qsub u w : Q (u -v w) = Q u -v Q w.
  Proof.
    replace (u -v w) with (u +v (-1) *v w) by vring. rewrite (iso_add _ HQ), (iso_scale _ HQ). vring.
  Qed.
  Lemma Qnorm u : norm (Q u) = norm u.
  Proof.
    unfold length_vector. f_equal. change (dot (Q u) (Q u) = dot u u). apply HQ.
  Qed.
  Lemma Qunit u : unitv (Q u) = Q (unitv u).
  Proof.
    destruct (vec_dec u) as [->|N]; [now rewrite Q0, unitv_v0, Q0|].
    assert (N' : Q u <> v0).
    { intros E. apply N. apply norm_0_iff. rewrite <- Qnorm, E. apply norm_v0. }
    rewrite !unitv_scale, Qnorm by auto. now rewrite (iso_scale _ HQ).
  Qed.
  Lemma Psub a b : P a -v P b = s *v Q (a -v b).
  Proof. unfold moved_point. rewrite Qsub. vring. Qed.
  Lemma Punit a b : vector_two_nodes (P a) (P b) = Q (vector_two_nodes a b).
  Proof. unfold vector_two_nodes. rewrite Psub, unitv_pos, Qunit; auto. Qed.
  Lemma Pdist a b : dist (P a) (P b) = s * dist a b.
  Proof. rewrite !dist_norm, Psub, norm_scale, Qnorm, Rabs_right; auto. lra. Qed.
  Lemma G0 : G v0 = v0.
  Proof. unfold moved_force. rewrite Q0. vring. Qed.
  Lemma Gadd u w : G (u +v w) = G u +v G w.
  Proof. unfold moved_force. rewrite (iso_add _ HQ). vring. Qed.
  Lemma Gscale t u : G (t *v u) = t *v G u.
  Proof. unfold moved_force. rewrite (iso_scale _ HQ). vring. Qed.
  Lemma Gunit u : unitv (G u) = Q (unitv u).
  Proof. unfold moved_force. rewrite unitv_pos, Qunit; auto. Qed.
  Lemma Gnorm u : norm (G u) = c * norm u.
  Proof. unfold moved_force. rewrite norm_scale, Qnorm, Rabs_right; auto. lra. Qed.

  (** ** Queries *)

  Lemma tr_nodes d : nodes (tr d) = nodes d.
  Proof. unfold nodes. cbn. apply dkeys_values. Qed.
  Lemma tr_edges d : edges (tr d) = edges d.
  Proof.
    unfold edges. cbn. unfold map_values at 1. rewrite flat_map_concat_map, map_map, <- flat_map_concat_map.
    apply flat_map_ext. intros [u nb]. cbn. unfold map_values. rewrite map_map. apply map_ext. auto.
  Qed.
  Lemma tr_node_get d n : node_get (tr d) n = map_result (moved_node s c Q v) (node_get d n).
  Proof. apply dgetr_values. Qed.
  Lemma tr_edge_find d e : edge_find (tr d) e = option_map (moved_edge s c Q v) (edge_find d e).
  Proof.
    unfold edge_find. cbn. rewrite dget_values. destruct (dget (d_edge d) (fst e)); auto. apply dget_values.
  Qed.
  Lemma tr_edge_get d e : edge_get (tr d) e = map_result (moved_edge s c Q v) (edge_get d e).
  Proof. unfold edge_get. rewrite tr_edge_find. now destruct (edge_find d e). Qed.
  Lemma tr_has_edge d e : has_edge (tr d) e = has_edge d e.
  Proof. unfold has_edge. rewrite tr_edge_find. now destruct (edge_find d e). Qed.
  Lemma tr_key d n m : trail_edge_key (tr d) n m = trail_edge_key d n m.
  Proof. unfold trail_edge_key. now rewrite tr_has_edge. Qed.
  Lemma tr_support d n : is_node_support (tr d) n = is_node_support d n.
  Proof. unfold is_node_support. rewrite tr_node_get. now destruct (node_get d n). Qed.
  Lemma tr_sequence d n : node_sequence (tr d) n = node_sequence d n.
  Proof. unfold node_sequence. rewrite tr_node_get. now destruct (node_get d n). Qed.
  Lemma tr_load d n : node_load (tr d) n = map_result G (node_load d n).
  Proof. unfold node_load. rewrite tr_node_get. now destruct (node_get d n). Qed.
  Lemma tr_force d e : edge_force (tr d) e = map_result (Rmult c) (edge_force d e).
  Proof. unfold edge_force. rewrite tr_edge_get. now destruct (edge_get d e). Qed.
  Lemma tr_edge_sequence d e : edge_sequence (tr d) e = edge_sequence d e.
  Proof. unfold edge_sequence. now rewrite !tr_sequence. Qed.
  Lemma tr_deviation d e : is_deviation_edge (tr d) e = is_deviation_edge d e.
  Proof. unfold is_deviation_edge. rewrite tr_edge_get. now destruct (edge_get d e). Qed.
  Lemma tr_connected d n : connected_edges (tr d) n = connected_edges d n.
  Proof.
    unfold connected_edges, neighbors. cbn [d_adj moved]. destruct (dgetr (d_adj d) n); cbn [bind]; auto.
    cbn [d_edge moved]. rewrite dgetr_values, bind_map. apply bind_ext. intros out. f_equal. apply map_ext.
    intros m. now rewrite dmem_values.
  Qed.
  Lemma tr_direct d n : connected_direct_deviation_edges (tr d) n = connected_direct_deviation_edges d n.
  Proof.
    unfold connected_direct_deviation_edges, connected_edges_predicate. rewrite tr_connected. apply bind_ext. intros l.
    apply filter_res_ext. intros e. unfold is_direct_deviation_edge, is_deviation_edge_predicate.
    now rewrite tr_deviation, tr_edge_sequence.
  Qed.
  Lemma tr_indirect d n : connected_indirect_deviation_edges (tr d) n = connected_indirect_deviation_edges d n.
  Proof.
    unfold connected_indirect_deviation_edges, connected_edges_predicate. rewrite tr_connected. apply bind_ext. intros l.
    apply filter_res_ext. intros e. unfold is_indirect_deviation_edge, is_deviation_edge_predicate.
    now rewrite tr_deviation, tr_edge_sequence.
  Qed.
  Lemma tr_sequence_last d : sequence_last (tr d) = sequence_last d.
  Proof.
    unfold sequence_last. cbn [d_node moved].
    match goal with |- bind (map_res ?f _) _ = _ =>
      assert (X : forall m, map_res f (map_values (moved_node s c Q v) m) = map_res f m) end.
    { induction m as [|[n a] m IH]; cbn; auto. unfold map_values in IH. now rewrite IH. }
    now rewrite X.
  Qed.
  Lemma tr_number d : number_of_sequences (tr d) = number_of_sequences d.
  Proof. unfold number_of_sequences. now rewrite tr_sequence_last. Qed.
  Lemma fold_res_ext {S A} (f g : S -> A -> res S) l : (forall x a, f x a = g x a) -> forall x, fold_res f l x = fold_res g l x.
  Proof. intros E. induction l as [|a l IH]; intros x; cbn; auto. rewrite E. destruct (g x a); cbn; auto. Qed.
  Lemma tr_ts d : trails_sequences (tr d) = trails_sequences d.
  Proof.
    unfold trails_sequences. apply fold_res_ext. intros x a. unfold trail_sequences, trail.
    cbn [d_trails moved trails]. f_equal. apply bind_ext. intros l. apply fold_res_ext. intros m n.
    now rewrite tr_sequence.
  Qed.

  (** ** The computation *)

  Definition tst (st : eqstate R) : eqstate R :=
    mkEq (map_values P (s_xyz st)) (map_values G (s_res st)) (map_values G (s_reac st))
         (map_values (Rmult c) (s_tforce st)) (map_values Q (s_tdir st)).

  Lemma tr_init d : init_state (tr d) = tst (init_state d).
  Proof.
    unfold init_state, tst. cbn. unfold map_values. rewrite !map_map. cbn. reflexivity.
  Qed.

  Lemma tr_vectors node xyz es :
    incoming_edge_vectors node (map_values P xyz) es = map_result (map Q) (incoming_edge_vectors node xyz es).
  Proof.
    apply map_res_values. intros e. cbv zeta. rewrite dgetr_values. apply map_result_bind. intros a.
    rewrite dgetr_values. apply map_result_bind. intros b. cbn [map_result]. f_equal. apply Punit.
  Qed.

  Lemma tr_resultant d node xyz es :
    deviation_edges_resultant_vector (tr d) node (map_values P xyz) es
    = map_result G (deviation_edges_resultant_vector d node xyz es).
  Proof.
    unfold deviation_edges_resultant_vector. rewrite tr_vectors.
    apply map_result_bind. intros vs.
    rewrite (map_res_values (Rmult c) (edge_force d)) by (intros; apply tr_force).
    apply map_result_bind. intros fs. cbn [map_result]. f_equal.
    replace v0 with (G v0) at 1 by apply G0. generalize v0.
    revert vs. induction fs as [|f fs IH]; intros [|w vs] r; cbn [combine map fold_left]; auto.
    rewrite <- IH. f_equal. cbn [fst snd]. rewrite Gadd, Gscale. unfold moved_force. f_equal. vring.
  Qed.

  Lemma tr_node_equilibrium d node r xyz ind :
    node_equilibrium (tr d) node (G r) (map_values P xyz) ind = map_result G (node_equilibrium d node r xyz ind).
  Proof.
    unfold node_equilibrium. rewrite tr_load. apply map_result_bind. intros q.
    unfold direct_resultant, indirect_resultant. rewrite tr_direct, tr_indirect.
    replace (bind (connected_direct_deviation_edges d node) _) with
      (map_result G (bind (connected_direct_deviation_edges d node) (deviation_edges_resultant_vector d node xyz))).
    2:{ rewrite map_bind. apply bind_ext. intros es. now rewrite tr_resultant. }
    apply map_result_bind. intros rd.
    match goal with |- bind ?x _ = map_result _ (bind ?y _) => replace x with (map_result G y) end.
    2:{ destruct ind; cbn [map_result]; [|now rewrite G0]. rewrite map_bind. apply bind_ext. intros es. now rewrite tr_resultant. }
    apply map_result_bind. intros ri. cbn [map_result]. f_equal. unfold trail_vector_out. cbn [fold_left].
    rewrite !Gscale, !Gadd, Gscale, G0. reflexivity.
  Qed.

  Lemma tr_trail_length a pos r :
    trail_edge_length (moved_edge s c Q v a) (P pos) (G r) = s * trail_edge_length a pos r.
  Proof.
    unfold trail_edge_length. cbn [ea_plane moved_edge ea_length].
    destruct (ea_plane a) as [[o nrm]|]; auto. unfold trail_length_from_plane.
    rewrite Gunit, (iso_dot _ HQ), Psub. destruct (nltb _ _); auto.
    replace (dot (Q nrm) (s *v Q (o -v pos))) with (s * dot nrm (o -v pos)).
    2:{ rewrite <- (iso_dot _ HQ). vunf. ring. }
    set (x := dot nrm (o -v pos)). set (y := dot nrm (unitv r)).
    change (ndiv (s * x) y) with (s * x / y). change (ndiv x y) with (x / y).
    unfold ntruthy. cbn [neqb n0 R_ops].
    destruct (Reqb_spec (x / y) 0) as [E|E]; destruct (Reqb_spec (s * x / y) 0) as [E'|E']; cbn [negb]; auto.
    - destruct E'. unfold Rdiv in *. rewrite Rmult_assoc, E. ring.
    - destruct E. unfold Rdiv in *. rewrite Rmult_assoc in E'. apply Rmult_integral in E' as [|]; lra.
    - unfold Rdiv. ring.
  Qed.

  Lemma tr_copysign x l : ncopysign (c * x) (s * l) = c * ncopysign x l.
  Proof.
    rewrite !ncopysign_R. rewrite Rabs_mult, (Rabs_right c) by lra.
    destruct (Rlt_dec l 0) as [L|L]; destruct (Rlt_dec (s * l) 0) as [L'|L']; try ring; exfalso; nra.
  Qed.

  Lemma tr_visit d ts kmax ind k st key :
    visit (tr d) ts kmax ind k (tst st) key = map_result tst (visit d ts kmax ind k st key).
  Proof.
    unfold visit. rewrite map_bind. apply bind_ext. intros m. destruct (dget m k) as [node|]; auto.
    cbn [s_xyz s_res tst]. rewrite dgetr_values. apply map_result_bind. intros pos.
    rewrite dgetr_values. apply map_result_bind. intros rin. rewrite tr_node_equilibrium. apply map_result_bind. intros rv.
    rewrite tr_support, map_bind. apply bind_ext. intros sup.
    destruct (sup || _).
    - cbn [map_result]. unfold tst. cbn. now rewrite dset_values.
    - rewrite map_bind. apply bind_ext. intros next. rewrite tr_key, tr_edge_get. apply map_result_bind. intros a.
      rewrite tr_trail_length, Gunit. cbn [map_result]. f_equal. unfold tst. cbn [s_xyz s_res s_reac s_tforce s_tdir].
      rewrite Gnorm, tr_copysign, !dset_values.
      replace (P pos +v s * trail_edge_length a pos rv *v Q (unitv rv))
        with (P (pos +v trail_edge_length a pos rv *v unitv rv)); [now rewrite dset_values|].
      unfold moved_point. rewrite (iso_add _ HQ), (iso_scale _ HQ). vring.
  Qed.

  Lemma tr_sweep d ts kmax ind st : sweep (tr d) ts kmax ind (tst st) = map_result tst (sweep d ts kmax ind st).
  Proof.
    unfold sweep. rewrite tr_number, map_bind. apply bind_ext. intros n. apply fold_res_values. intros x k.
    apply fold_res_values. intros y key. apply tr_visit.
  Qed.

  Lemma tr_distance a b : residual_distance (map_values P a) (map_values P b) = map_result (Rmult s) (residual_distance a b).
  Proof.
    unfold residual_distance. cbn [n0 R_ops]. replace 0 with (s * 0) at 1 by ring. generalize 0.
    induction b as [|[n p] b IH]; intros x; cbn [map_values map fold_res]; auto. cbn [fst snd].
    rewrite dgetr_values. destruct (dgetr a n) as [q|]; cbn [map_result bind]; auto.
    unfold map_values in IH. rewrite <- IH, Pdist. do 2 f_equal. cbn. ring.
  Qed.

  Lemma Rltb_scale x y : Rltb (s * x) (s * y) = Rltb x y.
  Proof. destruct (Rltb_spec x y) as [L|L]; destruct (Rltb_spec (s * x) (s * y)) as [L'|L']; auto; exfalso; nra. Qed.

  Definition tres (r : eqstate R * option nat * option R) := let '(st, t, x) := r in (tst st, t, option_map (Rmult s) x).

  Lemma tr_iterate d ts kmax eta n : forall t x st,
    iterate (tr d) ts kmax (s * eta) n t (option_map (Rmult s) x) (tst st) = map_result tres (iterate d ts kmax eta n t x st).
  Proof.
    induction n as [|n IH]; intros t x st; cbn [iterate]; auto.
    rewrite tr_sweep. apply map_result_bind. intros st'. destruct (Nat.eqb t 0); [apply IH|].
    cbn [tst s_xyz]. rewrite tr_distance. apply map_result_bind. intros dd. cbn [nltb R_ops]. rewrite Rltb_scale.
    destruct (Rltb dd eta); auto. apply (IH (S t) (Some dd)).
  Qed.

  Lemma tr_equilibrium_state d kmax tmax eta vb :
    equilibrium_state (tr d) kmax tmax (s * eta) vb = map_result tst (equilibrium_state d kmax tmax eta vb).
  Proof.
    unfold equilibrium_state, number_of_trails. cbn [d_trails moved]. destruct (negb _); auto.
    rewrite tr_ts, tr_sequence_last, map_bind. apply bind_ext. intros ts. rewrite map_bind. apply bind_ext. intros _.
    destruct (match kmax with Some km => _ | None => _ end); auto. rewrite tr_init.
    rewrite (tr_iterate d ts kmax eta _ 0 None). apply map_result_bind. intros [[st t] x]. cbn [tres].
    destruct t as [t|]; auto. destruct (negb _).
    - destruct x as [x|]; cbn [option_map]; auto. cbn [nltb R_ops]. rewrite Rltb_scale. now destruct (Rltb eta x).
    - destruct x; cbn [option_map]; now destruct (_ && _).
  Qed.

  (** ** Writing the form *)

  Definition commutes {A} (m m' : eff (diagram R) A) : Prop :=
    forall d, m' (tr d) = (tr (fst (m d)), snd (m d)).

  Lemma commutes_bind {A B} (m m' : eff (diagram R) A) (f f' : A -> eff (diagram R) B) :
    commutes m m' -> (forall a, commutes (f a) (f' a)) -> commutes (ebind m f) (ebind m' f').
  Proof.
    intros C F d. unfold ebind. rewrite C. destruct (m d) as [d' [a|e]]; cbn; auto. apply F.
  Qed.

  Lemma commutes_bind_v {A A' B} (h : A -> A') (m : eff (diagram R) A) (m' : eff (diagram R) A') (f : A -> eff (diagram R) B) f' :
    (forall d, m' (tr d) = (tr (fst (m d)), map_result h (snd (m d)))) -> (forall a, commutes (f a) (f' (h a))) ->
    commutes (ebind m f) (ebind m' f').
  Proof.
    intros C F d. unfold ebind. rewrite C. destruct (m d) as [d' [a|e]]; cbn; auto. apply F.
  Qed.

  Lemma commutes_loop {A B} (g : A -> B) (f : unit -> A -> eff (diagram R) unit) (f' : unit -> B -> eff (diagram R) unit) l :
    (forall x a, commutes (f x a) (f' x (g a))) -> forall x, commutes (eloop f l x) (eloop f' (map g l) x).
  Proof.
    intros F. induction l as [|a l IH]; intros x; cbn [eloop map]; [intros d; reflexivity|].
    apply commutes_bind; auto.
  Qed.

  Lemma commutes_node_set n h h' : (forall a, moved_node s c Q v (h a) = h' (moved_node s c Q v a)) ->
    commutes (node_set n h) (node_set n h').
  Proof.
    intros E d. unfold node_set. cbn [d_node moved]. rewrite dget_values.
    destruct (dget (d_node d) n) as [a|]; cbn [option_map]; [|reflexivity].
    rewrite <- E, dset_values. reflexivity.
  Qed.

  Lemma commutes_edge_set e h h' : (forall a, moved_edge s c Q v (h a) = h' (moved_edge s c Q v a)) ->
    commutes (edge_set e h) (edge_set e h').
  Proof.
    intros E d. unfold edge_set. cbn [d_edge moved]. rewrite dget_values.
    destruct (dget (d_edge d) (fst e)) as [nb|]; cbn [option_map]; [|reflexivity].
    rewrite dget_values. destruct (dget nb (snd e)) as [a|]; cbn [option_map]; [|reflexivity].
    rewrite <- E, !dset_values. reflexivity.
  Qed.

  Lemma tr_coordinates d n : node_coordinates (tr d) n = map_result P (node_coordinates d n).
  Proof. unfold node_coordinates. rewrite tr_node_get. now destruct (node_get d n). Qed.

  Lemma tr_form_update st : commutes (form_update st) (form_update (tst st)).
  Proof.
    unfold form_update. cbn [s_xyz s_tforce s_reac tst].
    apply commutes_bind; [apply commutes_loop; intros _ [n p]; cbn [fst snd]; now apply commutes_node_set|intros _].
    apply commutes_bind; [apply commutes_loop; intros _ [n p]; cbn [fst snd]; now apply commutes_edge_set|intros _].
    apply commutes_bind; [apply commutes_loop; intros _ [n p]; cbn [fst snd]; now apply commutes_node_set|intros _].
    apply (commutes_bind_v (fun es => es)); [intros d; unfold eget; cbn [fst snd map_result]; now rewrite tr_edges|]. intros es.
    rewrite <- (map_id es) at 2. apply commutes_loop. intros _ e.
    apply (commutes_bind_v P); [intros d; unfold eget; cbn [fst snd map_result]; now rewrite tr_coordinates|]. intros pu.
    apply (commutes_bind_v P); [intros d; unfold eget; cbn [fst snd map_result]; now rewrite tr_coordinates|]. intros pv. cbv zeta.
    apply (commutes_bind_v (Rmult c)); [intros d; unfold eget; cbn [fst snd map_result]; now rewrite tr_force|]. intros f.
    apply commutes_edge_set. intros a. unfold moved_edge, set_length. cbn [ea_type ea_length ea_force ea_plane].
    f_equal. rewrite Pdist, !ncopysign_R, Rabs_mult, (Rabs_right s) by lra.
    destruct (Rlt_dec f 0) as [L|L]; destruct (Rlt_dec (c * f) 0) as [L'|L']; try ring; exfalso; nra.
  Qed.

  Theorem static_moved d kmax tmax eta vb :
    static_equilibrium (tr d) kmax tmax (s * eta) vb = map_result tr (static_equilibrium d kmax tmax eta vb).
  Proof.
    unfold static_equilibrium. rewrite tr_equilibrium_state. apply map_result_bind. intros st.
    change (form_of_topology (tr d)) with (tr (form_of_topology d)). rewrite (tr_form_update st (form_of_topology d)).
    destruct (form_update st (form_of_topology d)) as [f [[]|e]]; reflexivity.
  Qed.
End Transform.

Lemma isometry_id : isometry (fun u => u).
Proof. constructor; auto. Qed.

(** ** Public queries of a moved diagram *)

(** What [moved] does to the public queries of a diagram. *)
Lemma c42_image : forall s c Q v d, image (fun p => s *v Q p +v v) (fun q => c *v Q q) Q s c d (moved s c Q v d).
Proof.
  intros s c Q v d. constructor; intros.
  - apply tr_nodes.
  - apply tr_edges.
  - reflexivity.
  - apply tr_coordinates.
  - apply tr_load.
  - unfold reaction_force. rewrite tr_node_get. now destruct (node_get d n).
  - unfold edge_length_2. rewrite tr_edge_get. now destruct (edge_get d e).
  - apply tr_force.
  - unfold edge_plane. rewrite tr_edge_get. destruct (edge_get d e) as [a|]; auto. cbn. now destruct (ea_plane a) as [[o w]|].
  - apply tr_support.
  - apply tr_sequence.
  - unfold is_trail_edge. rewrite tr_edge_get. now destruct (edge_get d e).
  - apply tr_deviation.
Qed.

(** Form finding commutes with a motion, a change of the unit of length and a change
    of the unit of force, all at once; errors are the same. *)
Lemma c42_moved : forall s c Q v d kmax tmax eta verbose, 0 < s -> 0 < c -> isometry Q ->
  static_equilibrium (moved s c Q v d) kmax tmax (s * eta) verbose
  = map_result (moved s c Q v) (static_equilibrium d kmax tmax eta verbose).
Proof. intros. now apply static_moved. Qed.

(** Translating the topology translates the form. *)
Lemma c42_translation : forall v d kmax tmax eta verbose,
  static_equilibrium (translated v d) kmax tmax eta verbose
  = map_result (translated v) (static_equilibrium d kmax tmax eta verbose).
Proof.
  intros. unfold translated. replace eta with (1 * eta) at 1 by ring. apply static_moved; try lra. apply isometry_id.
Qed.

Lemma image_ext P P' G G' N s c d d' : (forall p, P p = P' p) -> (forall q, G q = G' q) ->
  image P G N s c d d' -> image P' G' N s c d d'.
Proof.
  intros E F [I1 I2 I3 I4 I5 I6 I7 I8 I9]. constructor; auto; intros.
  - rewrite I4. destruct (node_coordinates d n); cbn; now rewrite ?E.
  - rewrite I5. destruct (node_load d n); cbn; now rewrite ?F.
  - rewrite I6. destruct (reaction_force d n); cbn; now rewrite ?F.
  - rewrite I9. destruct (edge_plane d e) as [[[o w]|]|]; cbn; now rewrite ?E.
Qed.

Lemma c42_translated : forall v d, image (fun p => p +v v) (fun q => q) (fun w => w) 1 1 d (translated v d).
Proof. intros v d. eapply image_ext; [| |apply c42_image]; intros p; cbn beta; vring. Qed.

(** Multiplying all loads and deviation forces by a positive factor keeps the shape
    and multiplies all forces and reactions. *)
Lemma c43_reloaded_form : forall c d kmax tmax eta verbose, 0 < c ->
  static_equilibrium (reloaded c d) kmax tmax eta verbose
  = map_result (reloaded c) (static_equilibrium d kmax tmax eta verbose).
Proof.
  intros. unfold reloaded. replace eta with (1 * eta) at 1 by ring. apply static_moved; try lra. apply isometry_id.
Qed.

Lemma c43_reloaded : forall c d, image (fun p => p) (fun q => c *v q) (fun w => w) 1 c d (reloaded c d).
Proof. intros c d. eapply image_ext; [| |apply c42_image]; intros p; cbn beta; vring. Qed.

(** Rotating or mirroring the topology rotates or mirrors the form. *)
Lemma c62_rotated_form : forall Q d kmax tmax eta verbose, isometry Q ->
  static_equilibrium (rotated Q d) kmax tmax eta verbose
  = map_result (rotated Q) (static_equilibrium d kmax tmax eta verbose).
Proof.
  intros. unfold rotated. replace eta with (1 * eta) at 1 by ring. apply static_moved; try lra. auto.
Qed.

Lemma c62_rotated : forall Q d, image Q Q Q 1 1 d (rotated Q d).
Proof.
  intros Q d. eapply image_ext; [| |apply c42_image]; intros p; cbn beta; vring.
Qed.

(** Multiplying all coordinates and lengths, and the threshold, by a positive factor
    enlarges the form and keeps all forces. *)
Lemma c63_enlarged_form : forall s d kmax tmax eta verbose, 0 < s ->
  static_equilibrium (enlarged s d) kmax tmax (s * eta) verbose
  = map_result (enlarged s) (static_equilibrium d kmax tmax eta verbose).
Proof. intros. unfold enlarged. apply static_moved; try lra. apply isometry_id. Qed.

Lemma c63_enlarged : forall s d, image (fun p => s *v p) (fun q => q) (fun w => w) s 1 d (enlarged s d).
Proof. intros s d. eapply image_ext; [| |apply c42_image]; intros p; cbn beta; vring. Qed.

Lemma Ok_eq {A} (a b : A) : Ok a = Ok b -> a = b.
Proof. congruence. Qed.

(** ** Flat structures *)

Definition mirror (u : rvec) : rvec := V3 (vx u) (vy u) (- vz u).

Lemma mirror_isometry : isometry mirror.
Proof. constructor; intros; unfold mirror; try (vring); vunf; ring. Qed.

Lemma mirror_fix u : vz u = 0 -> mirror u = u.
Proof. intros E. apply vec_eq; cbn; auto. rewrite E. ring. Qed.

Lemma map_values_id {K V} (g : V -> V) (m : dict K V) : (forall k x, In (k, x) m -> g x = x) -> map_values g m = m.
Proof.
  induction m as [|[k x] m IH]; intros E; auto. unfold map_values in *. cbn. rewrite (E k x) by now left.
  rewrite IH; auto. intros k' y I. apply (E k'). now right.
Qed.

(** A structure in the plane z = 0, loaded in that plane, finds a form in it. *)
Lemma c64_flat : forall d kmax tmax eta verbose form, reachable d -> flat d ->
  static_equilibrium d kmax tmax eta verbose = Ok form -> flat form.
Proof.
  intros d kmax tmax eta verbose form Hr F E. apply reachable_wf in Hr as W.
  assert (Fx : rotated mirror d = d).
  { destruct F as [Fc Fl Fr Fp]. unfold rotated, moved. destruct d as [dn de ad mx gk tl trs ax al av]. cbn in *. f_equal.
    - apply map_values_id. intros n a I.
      assert (Ea : dget dn n = Some a) by (apply In_dget; auto; apply W).
      unfold node_coordinates, node_load, reaction_force, node_get, dgetr in *. cbn in *.
      specialize (Fc n). specialize (Fl n). specialize (Fr n). rewrite Ea in *. cbn in *.
      specialize (Fc _ eq_refl). specialize (Fl _ eq_refl). specialize (Fr _ eq_refl).
      unfold moved_node, moved_point, moved_force. rewrite !mirror_fix by auto. destruct a; cbn. f_equal; vring.
    - apply map_values_id. intros u nb I.
      assert (Eu : dget de u = Some nb) by (apply In_dget; auto; assert (X := wf_ekeys _ W); cbn in X; rewrite X; apply W).
      apply map_values_id. intros w a J. assert (Ew : dget nb w = Some a) by (apply In_dget; auto; apply (wf_enodup _ W u nb Eu)).
      unfold moved_edge. specialize (Fp (u, w)). unfold edge_plane, edge_get, edge_find in Fp. cbn in Fp. rewrite Eu, Ew in Fp.
      cbn in Fp. destruct a as [ty l f pl]. cbn [ea_type ea_length ea_force ea_plane] in *. rewrite !Rmult_1_l. f_equal.
      destruct pl as [[o nrm]|]; auto. destruct (Fp o nrm eq_refl). unfold moved_point.
      rewrite !mirror_fix by auto. f_equal. f_equal. vring. }
  assert (E' := c62_rotated_form mirror d kmax tmax eta verbose mirror_isometry). rewrite Fx, E in E'. cbn in E'.
  apply Ok_eq in E'. assert (Im := c62_rotated mirror form). rewrite <- E' in Im.
  assert (Z : forall x : R, x = - x -> x = 0) by (intros; lra).
  assert (Zv : forall p : rvec, p = mirror p -> vz p = 0) by (intros p Ep; apply Z; exact (f_equal vz Ep)).
  destruct Im as [_ _ _ Ic Il Ir _ _ Ip _ _ _ _]. constructor.
  - intros n p En. specialize (Ic n). rewrite En in Ic. apply Ok_eq in Ic. auto.
  - intros n p En. specialize (Il n). rewrite En in Il. apply Ok_eq in Il. auto.
  - intros n p En. specialize (Ir n). rewrite En in Ir. apply Ok_eq in Ir. auto.
  - intros e o nrm En. specialize (Ip e). rewrite En in Ip. apply Ok_eq in Ip. cbn [option_map fst snd] in Ip.
    assert (X : forall A (a b : A), Some a = Some b -> a = b) by congruence. apply X in Ip.
    split; apply Zv; [exact (f_equal fst Ip)|exact (f_equal snd Ip)].
Qed.
