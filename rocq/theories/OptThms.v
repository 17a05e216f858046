(** * Properties of parameters, gradients and the optimizer *)

From Coq Require Import String List ZArith Bool Lia.
From Verif Require Import Py PyFacts Num Diagram DiagramFacts Topology Equilibrium EquilibriumNp Constraints Optimizer SpecOptimizer OptFacts.
Import ListNotations.
Open Scope Z_scope.

(** ** Arrays *)

Section Arrays.
  Context {A : Type}.
  Implicit Types (x : list A).

  Lemma length_set_nth x i v : List.length (set_nth x i v) = List.length x.
  Proof. revert i. induction x as [|a x IH]; intros [|i]; cbn; auto. Qed.

  Lemma nth_error_set_nth x i v : (i < List.length x)%nat -> nth_error (set_nth x i v) i = Some v.
  Proof. revert i. induction x as [|a x IH]; intros [|i] L; cbn in *; try lia; auto. apply IH. lia. Qed.

  Lemma nth_error_set_nth_other x i j v : i <> j -> nth_error (set_nth x i v) j = nth_error x j.
  Proof. revert i j. induction x as [|a x IH]; intros [|i] [|j] N; cbn; auto; try lia. Qed.

  Lemma set_nth_set_nth x i v w : set_nth (set_nth x i v) i w = set_nth x i w.
  Proof. revert i. induction x as [|a x IH]; intros [|i]; cbn; auto. now rewrite IH. Qed.

  Lemma set_nth_same x i v : nth_error x i = Some v -> set_nth x i v = x.
  Proof. revert i. induction x as [|a x IH]; intros [|i] E; cbn in *; try discriminate E; auto; [congruence|]. now rewrite IH. Qed.

  Lemma aget_Ok x i : 0 <= i < Z.of_nat (List.length x) -> exists v, aget x i = Ok v /\ nth_error x (Z.to_nat i) = Some v.
  Proof.
    intros I. unfold aget. destruct (Z.ltb_spec i 0); [lia|].
    destruct (nth_error x (Z.to_nat i)) as [v|] eqn:E; [eauto|]. apply nth_error_None in E. lia.
  Qed.

  Lemma aset_Ok x i v : 0 <= i < Z.of_nat (List.length x) -> aset x i v = Ok (set_nth x (Z.to_nat i) v).
  Proof. intros I. unfold aset. destruct (Z.ltb_spec i 0); [lia|]. destruct (Z.leb_spec (Z.of_nat (List.length x)) i); [lia|reflexivity]. Qed.

  Lemma aset_inv x i v y : aset x i v = Ok y -> 0 <= i < Z.of_nat (List.length x) /\ y = set_nth x (Z.to_nat i) v.
  Proof.
    unfold aset. destruct (Z.ltb_spec i 0); [discriminate|]. destruct (Z.leb_spec (Z.of_nat (List.length x)) i); [discriminate|].
    cbn. intros E. apply Ok_inj in E. auto.
  Qed.

  Lemma aset_Err x i v e : aset x i v = Err e -> e = IndexError /\ (i < 0 \/ Z.of_nat (List.length x) <= i).
  Proof.
    unfold aset. destruct (Z.ltb_spec i 0); cbn; [intros E; split; [congruence|auto]|].
    destruct (Z.leb_spec (Z.of_nat (List.length x)) i); [intros E; split; [congruence|auto]|discriminate].
  Qed.

  Lemma aget_aset x i j v y : aset x i v = Ok y -> aget y j = if Z.eqb i j then Ok v else aget x j.
  Proof.
    intros E. apply aset_inv in E as [I ->]. unfold aget. destruct (Z.eqb_spec i j) as [<-|N].
    - destruct (Z.ltb_spec i 0); [lia|]. rewrite nth_error_set_nth; [reflexivity|lia].
    - destruct (Z.ltb_spec j 0); [reflexivity|]. rewrite nth_error_set_nth_other; [reflexivity|lia].
  Qed.

  Lemma array_ext x y : List.length x = List.length y -> (forall i, 0 <= i < Z.of_nat (List.length x) -> aget x i = aget y i) -> x = y.
  Proof.
    revert y. induction x as [|a x IH]; intros [|b y] L E; cbn [List.length] in *; try discriminate L; [reflexivity|]. f_equal.
    - assert (X := E 0 ltac:(lia)). cbn in X. congruence.
    - apply IH; [lia|]. intros i I. assert (X := E (i + 1) ltac:(lia)). unfold aget in *.
      destruct (Z.ltb_spec (i + 1) 0); [lia|]. destruct (Z.ltb_spec i 0); [lia|].
      replace (Z.to_nat (i + 1)) with (S (Z.to_nat i)) in X by lia. exact X.
  Qed.
End Arrays.

Section Thms.
  Context {T : Type} `{NumOps T}.
  Implicit Types (d : diagram T) (o : optimizer T) (p : parameter T).

  (** ** Writing variables *)

  Lemma same_except_refl S d : same_except S d d.
  Proof. repeat split; auto. Qed.

  Lemma same_except_trans S d1 d2 d3 : same_except S d1 d2 -> same_except S d2 d3 -> same_except S d1 d3.
  Proof.
    intros (A1&A2&A3&A4&A5&A6&A7&A8&A9&A10&A11&A12&A13&A14) (B1&B2&B3&B4&B5&B6&B7&B8&B9&B10&B11&B12&B13&B14).
    unfold same_except. repeat (split; [first [congruence|intros; rewrite ?B3, ?B4, ?B7, ?B8, ?B9, ?B10, ?B11, ?B12, ?B13; auto]|]).
    intros s N. now rewrite B14, A14.
  Qed.

  Lemma edges_edge_set d u (nb nb' : dict Z (edge_attr T)) : dget (d_edge d) u = Some nb -> dkeys nb' = dkeys nb ->
    edges (with_edge d (dset (d_edge d) u nb')) = edges d.
  Proof.
    intros E K. unfold edges. cbn [d_edge with_edge]. induction (d_edge d) as [|[k x] l IH]; [discriminate E|].
    cbn [dget dset] in *. unfold dget, dset in *. fold (@dget Z (dict Z (edge_attr T)) _) in *. fold (@dset Z (dict Z (edge_attr T)) _) in *.
    destruct (eqb u k).
    - apply Some_inj in E. subst x. cbn [flat_map fst snd]. f_equal. unfold dkeys in K.
      rewrite <- !(map_map fst (fun v => (k, v))), K. reflexivity.
    - cbn [flat_map]. f_equal. apply IH, E.
  Qed.

  Lemma same_except_write S d s v : In s S -> same_except S d (write s v d).
  Proof.
    intros I. destruct s as [n a|[u w] a].
    - destruct (dget (d_node d) n) as [x|] eqn:E; [|rewrite write_node_None by auto; apply same_except_refl].
      assert (G : forall s, ~ In s S -> quantity (write (NodeSlot n a) v d) s = quantity d s).
      { intros s N. rewrite <- !slot_quantity. apply slot_get_write_other. intros <-. contradiction. }
      rewrite (write_node _ _ _ _ _ E) in *. set (x' := nattr_set a v x) in *.
      assert (Q : forall B (q : node_attr T -> B), q x' = q x -> forall m,
                (let* y := node_get (with_node d (dset (d_node d) n x')) m in Ok (q y)) = (let* y := node_get d m in Ok (q y))).
      { intros B q Eq m. unfold node_get, dgetr. cbn [d_node with_node]. rewrite dget_dset. destruct (eqb_spec m n) as [->|M]; [|reflexivity].
        rewrite E. cbn [bind]. now rewrite Eq. }
      assert (T1 : na_type x' = na_type x) by (unfold x'; now destruct a).
      assert (T2 : na_k x' = na_k x) by (unfold x'; now destruct a).
      assert (T3 : na_reac x' = na_reac x) by (unfold x'; now destruct a).
      split; [unfold nodes; cbn [d_node with_node]; apply dkeys_dset_in; eapply dget_In_keys, E|].
      repeat (split; [first [reflexivity|intros; reflexivity|idtac]|]); try exact G.
      + intros m. unfold is_node_support. apply (Q _ (fun y => opt_is ntype_eqb (na_type y) TSupport)). now rewrite T1.
      + intros m. unfold is_node_origin. apply (Q _ (fun y => opt_is ntype_eqb (na_type y) TOrigin)). now rewrite T1.
      + intros m. unfold node_sequence, node_get, dgetr. cbn [d_node with_node]. rewrite dget_dset. destruct (eqb_spec m n) as [->|M]; [|reflexivity].
        rewrite E. cbn [bind]. now rewrite T2.
      + intros m. unfold reaction_force. apply (Q _ na_reac). exact T3.
    - destruct (edge_find d (u, w)) as [x|] eqn:E; [|rewrite write_edge_None by auto; apply same_except_refl].
      assert (G : forall s, ~ In s S -> quantity (write (EdgeSlot (u, w) a) v d) s = quantity d s).
      { intros s N. rewrite <- !slot_quantity. apply slot_get_write_other. intros <-. contradiction. }
      assert (E' := E). unfold edge_find in E'. cbn [fst snd] in E'. destruct (dget (d_edge d) u) as [nb|] eqn:F; [|discriminate E'].
      rewrite (write_edge _ _ _ _ _ _ _ F E') in *. set (x' := eattr_set a v x) in *.
      set (d' := with_edge d (dset (d_edge d) u (dset nb w x'))) in *.
      assert (Q : forall B (q : edge_attr T -> B), q x' = q x -> forall e,
                (let* y := edge_get d' e in Ok (q y)) = (let* y := edge_get d e in Ok (q y))).
      { intros B q Eq [u' w']. unfold edge_get, edge_find. cbn [d_edge with_edge d' fst snd]. rewrite dget_dset. destruct (eqb_spec u' u) as [->|M]; [|reflexivity].
        rewrite F, dget_dset. destruct (eqb_spec w' w) as [->|M]; [|reflexivity]. rewrite E'. cbn [bind]. now rewrite Eq. }
      assert (T1 : ea_type x' = ea_type x) by (unfold x'; now destruct a).
      assert (T2 : ea_plane x' = ea_plane x) by (unfold x'; now destruct a).
      split; [reflexivity|].
      split; [apply edges_edge_set with (nb := nb); [exact F|]; apply dkeys_dset_in; eapply dget_In_keys, E'|].
      repeat (split; [first [reflexivity|intros; reflexivity|idtac]|]); try exact G.
      + intros e. unfold is_trail_edge. apply (Q _ (fun y => opt_is etype_eqb (ea_type y) ETrail)). now rewrite T1.
      + intros e. unfold is_deviation_edge. apply (Q _ (fun y => opt_is etype_eqb (ea_type y) EDeviation)). now rewrite T1.
      + intros e. unfold edge_plane. apply (Q _ ea_plane). exact T2.
  Qed.

  Lemma evolved_same_except S d d' : evolved S d d' -> same_except S d d'.
  Proof.
    intros (ws&I&->). revert d. induction ws as [|[s v] ws IH]; intros d; [apply same_except_refl|].
    cbn [writes fold_left fst snd]. eapply same_except_trans; [apply (same_except_write S d s v), I; now left|].
    apply IH. intros z J. apply I. now right.
  Qed.

  (** Writing variables into the diagram changes the addressed quantities and nothing
      else, even if it raises. *)
  Lemma c45_frame : forall o x d, same_except (addressed o) d (fst (update_parameters o x d)).
  Proof. intros o x d. apply evolved_same_except, update_evolved. Qed.

  (** Evaluating the objective does not change anything else either. *)
  Lemma c45_objective_frame : forall o tmax eta ys d, same_except (addressed o) d (after_evaluations o tmax eta ys d).
  Proof. intros. apply evolved_same_except, evaluations_evolved. Qed.

  Lemma update_reads x ps d : NoDup (map (fun kp : Z * parameter T => p_slot (snd kp)) ps) ->
    (forall s, In s (map (fun kp => p_slot (snd kp)) ps) -> exists y, slot_get d s = Ok y) ->
    (forall kp, In kp ps -> 0 <= fst kp < Z.of_nat (List.length x)) ->
    exists d', eloop (update_body x) ps tt d = (d', Ok tt)
      /\ (forall s, ~ In s (map (fun kp => p_slot (snd kp)) ps) -> slot_get d' s = slot_get d s)
      /\ forall k p, In (k, p) ps -> slot_get d' (p_slot p) = aget x k.
  Proof.
    revert d. induction ps as [|[k p] ps IH]; intros d ND P I.
    - exists d. split; [reflexivity|]. split; [auto|]. intros k p [].
    - cbn [map fst snd] in *. inversion ND as [|? ? N1 N2]; subst. rewrite update_cons.
      destruct (aget_Ok x k (I (k, p) (or_introl eq_refl))) as (v&Ev&_). rewrite Ev.
      destruct (P (p_slot p) (or_introl eq_refl)) as [y Ey]. rewrite Ey.
      destruct (IH (write (p_slot p) v d)) as (d'&E&F&G); auto.
      { intros s J. apply slot_get_write_Ok. apply P. now right. }
      { intros kp J. apply I. now right. }
      exists d'. split; [exact E|]. split.
      + intros s N. rewrite F by (intros Q; apply N; now right). apply slot_get_write_other. intros <-. apply N. now left.
      + intros k' p' [J|J]; [|now apply G]. injection J as <- <-. rewrite F by exact N1. rewrite slot_get_write by eauto. now rewrite Ev.
  Qed.

  Lemma params_array ps (f : parameter T -> res T) (a : list T) : NoDup (dkeys ps) ->
    (forall k p, In (k, p) ps -> 0 <= k < Z.of_nat (List.length a)) ->
    (forall k p, In (k, p) ps -> exists v, f p = Ok v) ->
    exists b, fold_res (fun x (kp : Z * parameter T) => let* v := f (snd kp) in aset x (fst kp) v) ps a = Ok b
      /\ List.length b = List.length a
      /\ (forall k p, In (k, p) ps -> aget b k = f p)
      /\ (forall i, ~ In i (dkeys ps) -> aget b i = aget a i).
  Proof.
    revert a. induction ps as [|[k p] ps IH]; intros a ND I F.
    - exists a. split; [reflexivity|]. split; [reflexivity|]. split; [intros k p []|auto].
    - unfold dkeys in *. cbn [map fst] in *. inversion ND as [|? ? N1 N2]; subst. cbn [fold_res fst snd].
      destruct (F k p (or_introl eq_refl)) as [v Ev]. rewrite Ev. cbn [bind].
      assert (K := I k p (or_introl eq_refl)). assert (S := aset_Ok a k v K). rewrite S. cbn [bind].
      destruct (IH (set_nth a (Z.to_nat k) v)) as (b&E&L&G&O); auto.
      { intros k' p' J. rewrite length_set_nth. apply (I k' p'). now right. }
      { intros k' p' J. apply (F k' p'). now right. }
      exists b. split; [exact E|]. split; [now rewrite L, length_set_nth|]. split.
      + intros k' p' [J|J]; [|eauto]. injection J as <- <-. rewrite O by exact N1. rewrite (aget_aset _ _ _ _ _ S), Z.eqb_refl. now rewrite Ev.
      + intros i N. rewrite O by (intros Q; apply N; now right). rewrite (aget_aset _ _ _ _ _ S).
        destruct (Z.eqb_spec k i) as [->|]; [destruct N; now left|reflexivity].
  Qed.

  (** Distinct keys in [0, n) of an [n]-element dictionary are all of [0, n). *)
  Lemma keys_cover {V} (ps : dict Z V) : NoDup (dkeys ps) -> (forall k, In k (dkeys ps) -> 0 <= k < Z.of_nat (List.length ps)) ->
    forall i, 0 <= i < Z.of_nat (List.length ps) -> In i (dkeys ps).
  Proof.
    intros ND R i I. set (l := map Z.of_nat (seq 0 (List.length ps))).
    assert (Inc : incl l (dkeys ps)).
    { apply NoDup_length_incl; auto.
      - unfold l, dkeys. now rewrite !map_length, seq_length.
      - intros k K. apply R in K. unfold l. apply in_map_iff. exists (Z.to_nat k). split; [lia|]. apply in_seq. lia. }
    apply Inc. unfold l. apply in_map_iff. exists (Z.to_nat i). split; [lia|]. apply in_seq. lia.
  Qed.

  (** ** Histories *)

  Lemma solve_keeps ad solver algorithm grad h iters eps kappa tmax eta o d :
    let o' := fst (fst (solve ad solver algorithm grad h iters eps kappa tmax eta (o, d))) in
    o_params o' = o_params o /\ o_cons o' = o_cons o /\ o_pkey o' = o_pkey o /\ o_ckey o' = o_ckey o.
  Proof.
    cbn zeta. unfold solve. destruct (prepare ad o d algorithm grad h iters eps kappa tmax eta) as [[[gf x] pr]|e]; [|now repeat split].
    destruct (run_strategy _ _ _) as [[d1 c1] [[x1 l1 e1 r1|l1 e1 r1|]|e]]; [| |now repeat split..].
    - destruct (nlopt_status r1); [|now repeat split]. destruct (gf x1 _ c1) as [c2 [g|e2]]; now repeat split.
    - destruct (optimization_parameters o d1) as [x1|]; [|now repeat split].
      destruct (nlopt_status r1); [|now repeat split]. destruct (gf x1 _ c1) as [c2 [g|e2]]; now repeat split.
  Qed.

  Lemma solve_again_keeps ad solver algorithm grad h iters eps kappa tmax eta o d :
    let o' := fst (solve_again ad solver algorithm grad h iters eps kappa tmax eta d o) in
    o_params o' = o_params o /\ o_cons o' = o_cons o /\ o_pkey o' = o_pkey o /\ o_ckey o' = o_ckey o.
  Proof.
    assert (K := solve_keeps ad solver algorithm grad h iters eps kappa tmax eta o d). unfold solve_again.
    destruct (solve ad solver algorithm grad h iters eps kappa tmax eta (o, d)) as [[o' d'] r]. exact K.
  Qed.

  Lemma obtained_inv o : obtained o -> NoDup (dkeys (o_params o)) /\ (forall k, In k (dkeys (o_params o)) -> 0 <= k <= o_pkey o) /\ -1 <= o_pkey o.
  Proof.
    induction 1 as [|o p M (A&B&C)|o k M (A&B&C)|o c M (A&B&C)|o k M (A&B&C)|o ad solver algorithm grad h iters eps kappa tmax eta d M (A&B&C)].
    - split; [constructor|]. split; [intros k []|cbn; lia].
    - cbn [add_parameter fst with_params o_params o_pkey]. split; [now apply NoDup_dset|]. split; [|lia].
      intros k K. apply In_dkeys_dset in K as [->|K]; [lia|]. apply B in K. lia.
    - unfold remove_parameter. destruct (dmem (o_params o) k); [|auto]. cbn [fst with_params o_params o_pkey].
      split; [now apply NoDup_ddel|]. split; [|exact C]. intros k' K. apply In_dkeys_ddel in K. now apply B.
    - cbn. auto.
    - unfold remove_constraint. destruct (dmem (o_cons o) k); auto.
    - destruct (solve_again_keeps ad solver algorithm grad h iters eps kappa tmax eta o d) as (->&_&->&_). auto.
  Qed.

  Lemma length_repeat {A} (a : A) n : List.length (repeat a n) = n.
  Proof. apply repeat_length. Qed.

  (** With the keys in range, writing a vector of variables and reading it back
      yields the vector. *)
  Lemma c45_round_trip : forall o x d, obtained o -> keys_in_range o -> NoDup (addressed o) ->
    (forall s, In s (addressed o) -> present d s) -> Z.of_nat (List.length x) = number_of_parameters o ->
    exists d', update_parameters o x d = (d', Ok tt) /\ optimization_parameters o d' = Ok x
      /\ forall k p, In (k, p) (o_params o) -> quantity d' (p_slot p) = aget x k.
  Proof.
    intros o x d M K ND P L. assert (P' := fun s I => proj1 (present_slot d s) (P s I)). destruct (obtained_inv o M) as (NK&_&_). unfold number_of_parameters, keys_in_range in *.
    destruct (update_reads x (o_params o) d ND P') as (d'&E&_&G).
    { intros [k p] J. rewrite L. apply K. unfold dkeys. apply in_map_iff. now exists (k, p). }
    exists d'. split; [exact E|]. split; [|intros k p J; rewrite <- slot_quantity; now apply G]. unfold optimization_parameters.
    destruct (params_array (o_params o) (start_value d') (repeat n0 (List.length (o_params o)))) as (b&Eb&Lb&Gb&_); auto.
    { intros k p J. rewrite repeat_length. apply K. unfold dkeys. apply in_map_iff. now exists (k, p). }
    { intros k p J. unfold start_value. rewrite (G k p J).
      destruct (aget_Ok x k) as (v&Ev&_); [|eauto]. rewrite L. apply K. unfold dkeys. apply in_map_iff. now exists (k, p). }
    rewrite Eb. f_equal. rewrite repeat_length in Lb. apply array_ext; [lia|]. intros i I.
    assert (J : In i (dkeys (o_params o))) by (apply keys_cover; auto; lia).
    unfold dkeys in J. apply in_map_iff in J as ([k p]&<-&J). cbn [fst]. rewrite (Gb k p J). now apply G.
  Qed.

  (** ** Removing parameters *)

  Lemma fold_set_Err ps (f : parameter T -> res T) (a : list T) e : (forall k p, In (k, p) ps -> exists v, f p = Ok v) ->
    fold_res (fun x (kp : Z * parameter T) => let* v := f (snd kp) in aset x (fst kp) v) ps a = Err e ->
    e = IndexError /\ exists k p, In (k, p) ps /\ (k < 0 \/ Z.of_nat (List.length a) <= k).
  Proof.
    revert a. induction ps as [|[k p] ps IH]; intros a F E; [discriminate E|]. cbn [fold_res fst snd] in E.
    destruct (F k p (or_introl eq_refl)) as [v Ev]. rewrite Ev in E. cbn [bind] in E.
    destruct (aset a k v) as [a'|e'] eqn:S; cbn [bind] in E.
    - destruct (IH a') as [A (k'&p'&J&B)]; [intros; eapply F; right; eauto|exact E|].
      apply aset_inv in S as [_ ->]. rewrite length_set_nth in B. split; [exact A|]. exists k', p'. split; [now right|exact B].
    - injection E as ->. apply aset_Err in S as [A B]. split; [exact A|]. exists k, p. split; [now left|exact B].
  Qed.

  (** After any history, if the quantities exist, the optimizer produces one variable
      per remaining parameter exactly when the keys of the remaining parameters are
      below their number; otherwise it raises IndexError. *)
  Lemma c52_variables_partial : forall o d, obtained o -> (forall s, In s (addressed o) -> present d s) ->
    (keys_in_range o /\ exists x, optimization_parameters o d = Ok x
       /\ Z.of_nat (List.length x) = number_of_parameters o
       /\ forall k p, In (k, p) (o_params o) -> aget x k = quantity d (p_slot p))
    \/ (~ keys_in_range o /\ optimization_parameters o d = Err IndexError).
  Proof.
    intros o d M P. destruct (obtained_inv o M) as (NK&B&_). unfold optimization_parameters.
    assert (F : forall k p, In (k, p) (o_params o) -> exists v, start_value d p = Ok v).
    { intros k p J. rewrite start_quantity. apply P. unfold addressed. apply in_map_iff. now exists (k, p). }
    destruct (fold_res (fun x kp => let* v := start_value d (snd kp) in aset x (fst kp) v) (o_params o)
                (repeat n0 (List.length (o_params o)))) as [x|e] eqn:E.
    - left. assert (R : keys_in_range o).
      { intros k K. unfold number_of_parameters. split; [apply B, K|]. destruct (Z_lt_ge_dec k (Z.of_nat (List.length (o_params o)))) as [L|L]; [exact L|exfalso].
        unfold dkeys in K. apply in_map_iff in K as ([k' p]&<-&J). cbn [fst] in *.
        assert (Len : forall l a b, fold_res (fun x (kp : Z * parameter T) => let* v := start_value d (snd kp) in aset x (fst kp) v) l a = Ok b ->
                 List.length b = List.length a /\ forall k p, In (k, p) l -> 0 <= k < Z.of_nat (List.length a)).
        { induction l as [|[k0 p0] l IH]; intros a b Eb; cbn [fold_res fst snd] in Eb.
          - apply Ok_inj in Eb. subst. split; [reflexivity|intros k p0 []].
          - apply bind_Ok in Eb as (a'&Ea&Eb). apply bind_Ok in Ea as (v&Ev&Ea). apply aset_inv in Ea as [I ->].
            destruct (IH _ _ Eb) as [L1 L2]. rewrite length_set_nth in L1, L2. split; [exact L1|].
            intros k1 p1 [J1|J1]; [injection J1 as <- <-; exact I|eauto]. }
        destruct (Len _ _ _ E) as [_ Y]. assert (Y' := Y _ _ J). rewrite repeat_length in Y'. lia. }
      split; [exact R|]. destruct (params_array (o_params o) (start_value d) (repeat n0 (List.length (o_params o)))) as (b&Eb&Lb&Gb&_); auto.
      { intros k p J. rewrite repeat_length. apply R. unfold dkeys. apply in_map_iff. now exists (k, p). }
      rewrite E in Eb. apply Ok_inj in Eb. subst b. exists x. split; [reflexivity|]. rewrite repeat_length in Lb.
      split; [unfold number_of_parameters; lia|]. intros k p J. rewrite <- start_quantity. now apply Gb.
    - right. destruct (fold_set_Err _ _ _ _ F E) as [-> (k&p&J&X)]. split; [|reflexivity].
      intros R. assert (Y : In k (dkeys (o_params o))) by (unfold dkeys; apply in_map_iff; now exists (k, p)).
      apply R in Y. rewrite repeat_length in X. unfold number_of_parameters in Y. lia.
  Qed.

  Lemma proxy_params_gen (cs : list (constraint T)) (ps : list (parameter T)) o : o_params (fst (eloop (fun _ p => add_parameter p) ps tt
       (fst (eloop (fun _ c => add_constraint c) cs tt o)))) =
     o_params (fst (eloop (fun _ p => add_parameter p) ps tt o)) /\ True.
  Proof.
    split; [|exact I]. revert o. induction cs as [|c cs IH]; intros o; [reflexivity|].
    cbn [eloop]. unfold ebind, add_constraint at 1. cbn [fst]. rewrite IH.
    clear IH cs. set (o' := with_cons o _ _). assert (A : o_params o' = o_params o) by reflexivity.
    assert (B : o_pkey o' = o_pkey o) by reflexivity. clearbody o'. clear c. revert o o' A B.
    induction ps as [|p ps IH]; intros o o' A B; [exact A|]. cbn [eloop]. unfold ebind, add_parameter at 1 3. cbn [fst].
    apply IH; cbn; congruence.
  Qed.

  Lemma add_parameters_obtained ps o : obtained o -> obtained (fst (eloop (fun _ (p : parameter T) => add_parameter p) ps tt o)).
  Proof.
    revert o. induction ps as [|p ps IH]; intros o M; [exact M|]. cbn [eloop]. unfold ebind, add_parameter at 1.
    apply IH. apply (obtained_add_parameter o p M).
  Qed.

  Lemma add_constraints_obtained cs o : obtained o -> obtained (fst (eloop (fun _ (c : constraint T) => add_constraint c) cs tt o)).
  Proof.
    revert o. induction cs as [|c cs IH]; intros o M; [exact M|]. cbn [eloop]. unfold ebind, add_constraint at 1.
    apply IH. apply (obtained_add_constraint o c M).
  Qed.

  Lemma proxy_obtained (cs : list (constraint T)) (ps : list (parameter T)) : obtained (proxy_optimizer cs ps).
  Proof. apply add_parameters_obtained, add_constraints_obtained, obtained_new. Qed.

  Fixpoint numbered {A} (k : Z) (l : list A) : list (Z * A) :=
    match l with [] => [] | a :: l => (k, a) :: numbered (k + 1) l end.

  Lemma add_parameters_params ps : forall o, (forall k, In k (dkeys (o_params o)) -> k <= o_pkey o) ->
    o_params (fst (eloop (fun _ (p : parameter T) => add_parameter p) ps tt o)) = o_params o ++ numbered (o_pkey o + 1) ps.
  Proof.
    induction ps as [|p ps IH]; intros o B; [now rewrite app_nil_r|]. cbn [eloop numbered]. unfold ebind, add_parameter at 1. rewrite IH.
    - cbn [with_params o_params o_pkey]. rewrite dset_new by (intros K; apply B in K; lia). now rewrite <- app_assoc.
    - cbn [with_params o_params o_pkey]. intros k K. apply In_dkeys_dset in K as [->|K]; [lia|]. apply B in K. lia.
  Qed.

  Lemma proxy_params (cs : list (constraint T)) (ps : list (parameter T)) : o_params (proxy_optimizer cs ps) = numbered 0 ps.
  Proof.
    unfold proxy_optimizer. rewrite (proj1 (proxy_params_gen cs ps new_optimizer)). rewrite add_parameters_params; [reflexivity|intros k []].
  Qed.

  Lemma In_numbered {A} (l : list A) : forall k i a, In (i, a) (numbered k l) <-> k <= i /\ nth_error l (Z.to_nat (i - k)) = Some a.
  Proof.
    induction l as [|b l IH]; intros k i a; cbn [numbered In].
    - split; [tauto|]. intros [_ E]. destruct (Z.to_nat (i - k)); discriminate E.
    - rewrite IH. split.
      + intros [E|[L E]]; [injection E as <- <-; rewrite Z.sub_diag; split; [lia|reflexivity]|].
        split; [lia|]. replace (Z.to_nat (i - k)) with (S (Z.to_nat (i - (k + 1)))) by lia. exact E.
      + intros [L E]. destruct (Z.eq_dec i k) as [->|N].
        * rewrite Z.sub_diag in E. cbn in E. left. congruence.
        * right. split; [lia|]. replace (Z.to_nat (i - k)) with (S (Z.to_nat (i - (k + 1)))) in E by lia. exact E.
  Qed.

  Lemma length_numbered {A} (l : list A) k : List.length (numbered k l) = List.length l.
  Proof. revert k. induction l; intros; cbn; auto. Qed.

  (** Parameters that were only ever added yield their start values in order. *)
  Lemma c52_added_partial : forall (cs : list (constraint T)) (ps : list (parameter T)) d, (forall p, In p ps -> exists v, quantity d (p_slot p) = Ok v) ->
    exists x, optimization_parameters (proxy_optimizer cs ps) d = Ok x
      /\ Forall2 (fun p v => quantity d (p_slot p) = Ok v) ps x.
  Proof.
    intros cs ps d P.
    assert (K : keys_in_range (proxy_optimizer cs ps)).
    { intros k J. unfold number_of_parameters. rewrite proxy_params in *. unfold dkeys in J. apply in_map_iff in J as ([k' p]&<-&J).
      apply In_numbered in J as [L E]. rewrite length_numbered. cbn [fst].
      assert (X : nth_error ps (Z.to_nat (k' - 0)) <> None) by congruence. apply nth_error_Some in X. lia. }
    destruct (c52_variables_partial (proxy_optimizer cs ps) d (proxy_obtained cs ps)) as [(_&x&E&L&G)|[N _]]; [|exists x|contradiction].
    { intros s J. unfold addressed in J. rewrite proxy_params in J. apply in_map_iff in J as ([k p]&<-&J). cbn [snd].
      apply In_numbered in J as [_ J]. apply P. eapply nth_error_In, J. }
    split; [exact E|]. unfold number_of_parameters in L. rewrite proxy_params, length_numbered in L. rewrite proxy_params in G.
    clear E K. revert x L G. assert (Q : forall k (x : list T), Z.of_nat (List.length x) = Z.of_nat (List.length ps) ->
      (forall i p, In (i, p) (numbered k ps) -> aget x (i - k) = quantity d (p_slot p)) -> Forall2 (fun p v => quantity d (p_slot p) = Ok v) ps x).
    { clear P. induction ps as [|p ps IH]; intros k [|v x] L G; cbn [List.length] in L; try lia; [constructor|]. constructor.
      - rewrite <- (G k p (or_introl eq_refl)), Z.sub_diag. reflexivity.
      - apply (IH (k + 1)); [lia|]. intros i q J. rewrite <- (G i q (or_intror J)). apply In_numbered in J as [J _].
        unfold aget. destruct (Z.ltb_spec (i - (k + 1)) 0); [lia|]. destruct (Z.ltb_spec (i - k) 0); [lia|].
        replace (Z.to_nat (i - k)) with (S (Z.to_nat (i - (k + 1)))) by lia. reflexivity. }
    intros x L G. apply (Q 0 x L). intros i p J. rewrite Z.sub_0_r. now apply G.
  Qed.
End Thms.
