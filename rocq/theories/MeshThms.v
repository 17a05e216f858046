(** * Diagrams from quad meshes (C56) *)

From Coq Require Import String List ZArith Bool Lia Permutation.
From Verif Require Import Py PyFacts Num Diagram DiagramFacts RVec Topology History HistoryFacts SpecDiagram DiagramThms
  Constraints Mesh SpecMesh.
Import ListNotations.
Open Scope Z_scope.

Lemma pairwise_path : forall l, pairwise l = path_edges l.
Proof.
  induction l as [|a l IH]; [reflexivity|]. destruct l as [|b l]; [reflexivity|].
  change (pairwise (a :: b :: l)) with ((a, b) :: pairwise (b :: l)). rewrite IH. reflexivity.
Qed.

Lemma path_edges_app : forall l u v r, path_edges (l ++ u :: v :: r) = path_edges (l ++ [u]) ++ (u, v) :: path_edges (v :: r).
Proof.
  induction l as [|a l IH]; intros u v r; [reflexivity|].
  destruct l as [|b l].
  - reflexivity.
  - change (path_edges ((a :: b :: l) ++ u :: v :: r)) with ((a, b) :: path_edges ((b :: l) ++ u :: v :: r)).
    rewrite IH. reflexivity.
Qed.

Lemma path_edges_In : forall l e, In e (path_edges l) -> In (fst e) l /\ In (snd e) l.
Proof.
  intros l [u v] I. unfold path_edges in I. split.
  - exact (in_combine_l _ _ _ _ I).
  - apply in_combine_r in I. destruct l; [contradiction|]. right. exact I.
Qed.

Lemma last_cons_ne : forall (a b : Z) p, last (a :: p) b = last p a.
Proof. intros a b p. revert a b. induction p as [|c p IH]; intros a b; [reflexivity|]. change (last (a :: c :: p) b) with (last (c :: p) b). rewrite !IH. reflexivity. Qed.

(** The middle of a list of two or more *)
Lemma middle : forall p : list Z, (2 <= List.length p)%nat ->
  exists l u v r, p = l ++ u :: v :: r /\ List.length l = (Nat.div (List.length p) 2 - 1)%nat
    /\ (List.length r = List.length l \/ List.length r = S (List.length l)).
Proof.
  intros p L. set (n := (Nat.div (List.length p) 2 - 1)%nat).
  assert (D := Nat.div_mod (List.length p) 2 ltac:(discriminate)).
  assert (M := Nat.mod_upper_bound (List.length p) 2 ltac:(discriminate)).
  set (q := Nat.div (List.length p) 2) in *. set (m := Nat.modulo (List.length p) 2) in *.
  assert (K : List.length (skipn n p) = (List.length p - n)%nat) by apply skipn_length.
  assert (F : List.length (firstn n p) = n) by (apply firstn_length_le; lia).
  destruct (skipn n p) as [|u [|v r]] eqn:S; cbn [List.length] in K; try lia.
  exists (firstn n p), u, v, r. rewrite <- S, firstn_skipn, F. split; [reflexivity|]. split; [reflexivity|]. lia.
Qed.




(** The code does with a polyedge what the specification says. *)
Lemma split_edges_splits : forall s p tr dv, split_edges s p = Ok (tr, dv) -> splits s p tr dv.
Proof.
  intros s [|a p] tr dv E; [discriminate|]. cbn [split_edges] in E.
  rewrite last_cons_ne in E. destruct (Z.eqb_spec a (last p a)) as [L|L].
  { apply Ok_inj, pair_equal_spec in E as [<- <-]. rewrite pairwise_path. apply split_closed. congruence. }
  destruct (memb a s) eqn:A, (memb (last p a) s) eqn:B; cbn [negb andb] in E;
    (apply memb_In in A || apply memb_nIn in A); (apply memb_In in B || apply memb_nIn in B).
  - destruct p as [|x p]; [cbn in L; congruence|].
    change (nth 1 (a :: x :: p) a) with x in E.
    destruct (memb x s) eqn:X; (apply memb_In in X || apply memb_nIn in X).
    + apply Ok_inj, pair_equal_spec in E as [<- <-]. eapply split_along; eauto.
    + destruct (middle (a :: x :: p)) as (l&u&v&r&P&N&Len); [cbn; lia|].
      rewrite <- N in E. rewrite P in E.
      rewrite skipn_app, skipn_all, Nat.sub_diag in E. cbn [skipn app firstn bind] in E.
      rewrite firstn_app, skipn_app in E. replace (List.length l + 1 - List.length l)%nat with 1%nat in E by lia.
      rewrite firstn_all2 in E by lia. rewrite skipn_all2 in E by lia.
      cbn [firstn skipn app] in E. apply Ok_inj, pair_equal_spec in E as [<- <-]. rewrite !pairwise_path.
      eapply split_both; eauto.
  - apply Ok_inj, pair_equal_spec in E as [<- <-]. rewrite pairwise_path. apply (split_one s a p _ eq_refl L). tauto.
  - apply Ok_inj, pair_equal_spec in E as [<- <-]. rewrite pairwise_path. apply (split_one s a p _ eq_refl L). tauto.
  - apply Ok_inj, pair_equal_spec in E as [<- <-]. rewrite pairwise_path. eapply split_free; eauto.
Qed.

Lemma split_edges_total : forall s p, p <> [] -> exists tr dv, split_edges s p = Ok (tr, dv).
Proof.
  intros s [|a p] N; [congruence|]. cbn [split_edges].
  rewrite last_cons_ne. destruct (Z.eqb_spec a (last p a)) as [L|L]; [eauto|].
  destruct (memb a s), (memb (last p a) s); cbn [negb andb]; eauto.
  destruct p as [|x p]; [cbn in L; congruence|].
  change (nth 1 (a :: x :: p) a) with x. destruct (memb x s); eauto.
  destruct (middle (a :: x :: p)) as (l&u&v&r&P&N'&Len); [cbn; lia|].
  rewrite <- N'. rewrite P. rewrite skipn_app, skipn_all, Nat.sub_diag. cbn [skipn app firstn bind]. eauto.
Qed.

Lemma app_inv_middle : forall (l l' r r' : list Z), List.length l = List.length l' -> l ++ r = l' ++ r' -> l = l' /\ r = r'.
Proof.
  induction l as [|a l IH]; intros [|a' l'] r r' L E; cbn in *; try discriminate; auto.
  injection E as -> E. injection L as L. destruct (IH l' r r' L E) as [-> ->]. auto.
Qed.

(** Every polyedge is split in exactly one way. *)
Lemma splits_edges : forall s p tr dv, splits s p tr dv -> split_edges s p = Ok (tr, dv).
Proof.
  intros s p tr dv S. destruct (split_edges_total s p) as (tr'&dv'&E); [destruct S; discriminate|].
  apply split_edges_splits in E as S'. rewrite E. f_equal.
  destruct S; inversion S'; subst; try reflexivity; try congruence; try tauto.
  all: repeat match goal with H : context [last (?x :: ?p) ?a] |- _ => rewrite (last_cons_ne x a p) in H end.
  all: try congruence; try tauto.
  assert (L : List.length l = List.length l0).
  { assert (Q : List.length (l ++ u :: v :: r) = List.length (l0 ++ u0 :: v0 :: r0)) by congruence.
    rewrite !app_length in Q. cbn [List.length] in Q. lia. }
  assert (Q : l ++ u :: v :: r = l0 ++ u0 :: v0 :: r0) by congruence.
  destruct (app_inv_middle _ _ _ _ L Q) as [-> Q']. injection Q' as -> -> ->. reflexivity.
Qed.

(** Every polyedge is split in exactly one way. *)
Lemma c56_unique : forall s p, p <> [] ->
  exists tr dv, splits s p tr dv /\ forall tr' dv', splits s p tr' dv' -> tr' = tr /\ dv' = dv.
Proof.
  intros s p N. destruct (split_edges_total s p N) as (tr&dv&E). exists tr, dv.
  split; [now apply split_edges_splits|]. intros tr' dv' S. apply splits_edges in S. rewrite E in S.
  apply Ok_inj, pair_equal_spec in S as [-> ->]. auto.
Qed.

(** Each edge of a polyedge becomes a trail or a deviation edge exactly once, unless both ends and the second vertex are
    supports: then the polyedge contributes no edge. *)
Lemma c56_no_loss : forall s p tr dv, splits s p tr dv ->
  Permutation (tr ++ dv) (path_edges p)
  \/ (exists a x r, p = a :: x :: r /\ In a s /\ In x s /\ In (last p a) s /\ tr = [] /\ dv = []).
Proof.
  intros s p tr dv S. destruct S as [a p L|a p b L N A B|a p b L N C|a x p b l u v r L N A B X E Len|a x p b L N A B X].
  - left. apply Permutation_refl.
  - left. apply Permutation_refl.
  - left. rewrite app_nil_r. apply Permutation_refl.
  - left. rewrite E, path_edges_app, <- app_assoc. apply Permutation_app_head.
    rewrite Permutation_app_comm. apply Permutation_refl.
  - right. exists a, x, p. rewrite last_cons_ne, L. auto 7.
Qed.

Lemma In_py_set : forall l x, In x (py_set l) <-> In x l.
Proof.
  induction l as [|a l IH]; intros x; [reflexivity|]. cbn [py_set].
  destruct (memb a l) eqn:M.
  - apply memb_In in M. rewrite IH. cbn [In]. split; auto. intros [<-|I]; auto.
  - cbn [In]. rewrite IH. reflexivity.
Qed.

Lemma splits_ext : forall s s' p tr dv, (forall x, In x s <-> In x s') -> splits s p tr dv -> splits s' p tr dv.
Proof.
  intros s s' p tr dv E S.
  destruct S as [a p L|a p b L N A B|a p b L N C|a x p b l u v r L N A B X P Len|a x p b L N A B X]; rewrite ?E in *.
  - now apply split_closed.
  - eapply split_free; eauto.
  - eapply split_one; eauto. 
  - eapply split_both; eauto.
  - eapply split_along; eauto.
Qed.

Lemma all_edges_Ok : forall s ps, (forall p, In p ps -> p <> []) ->
  exists tr dv, all_edges s ps = Ok (tr, dv)
    /\ (forall e, In e tr <-> exists p t v, In p ps /\ splits s p t v /\ In e t)
    /\ (forall e, In e dv <-> exists p t v, In p ps /\ splits s p t v /\ In e v).
Proof.
  intros s ps N. unfold all_edges.
  assert (G : forall acc, exists tr dv,
    fold_res (fun acc p => let* (tr, dv) := split_edges s p in Ok (fst acc ++ tr, snd acc ++ dv)) ps acc = Ok (tr, dv)
    /\ (forall e, In e tr <-> In e (fst acc) \/ exists p t v, In p ps /\ splits s p t v /\ In e t)
    /\ (forall e, In e dv <-> In e (snd acc) \/ exists p t v, In p ps /\ splits s p t v /\ In e v)).
  { induction ps as [|p ps IH]; intros [tr0 dv0].
    - exists tr0, dv0. split; [reflexivity|].
      split; intros e; split; auto; intros [I|(p&t&v&[]&_)]; exact I.
    - destruct (split_edges_total s p) as (t&v&E); [apply N; now left|].
      destruct (IH ltac:(intros q I; apply N; now right) (tr0 ++ t, dv0 ++ v)) as (tr&dv&F&A&B).
      exists tr, dv. cbn [fold_res]. rewrite E. cbn [bind fst snd] in *. split; [exact F|].
      apply split_edges_splits in E as S.
      assert (U : forall t' v', splits s p t' v' -> t' = t /\ v' = v).
      { intros t' v' S'. apply splits_edges in S'. rewrite E in S'. apply Ok_inj, pair_equal_spec in S' as [-> ->]. auto. }
      split; intros e; [rewrite A|rewrite B]; rewrite in_app_iff; split.
      + intros [[I|I]|(q&t'&v'&I1&I2&I3)]; auto; right.
        * exists p, t, v. split; [now left|auto].
        * exists q, t', v'. split; [now right|auto].
      + intros [I|(q&t'&v'&[<-|I1]&I2&I3)]; auto.
        * destruct (U _ _ I2) as [-> _]. auto.
        * right. exists q, t', v'. auto.
      + intros [[I|I]|(q&t'&v'&I1&I2&I3)]; auto; right.
        * exists p, t, v. split; [now left|auto].
        * exists q, t', v'. split; [now right|auto].
      + intros [I|(q&t'&v'&[<-|I1]&I2&I3)]; auto.
        * destruct (U _ _ I2) as [_ ->]. auto.
        * right. exists q, t', v'. auto. }
  destruct (G ([], [])) as (tr&dv&F&A&B). exists tr, dv. split; [exact F|].
  cbn [fst snd In] in A, B. split; intros e; [rewrite A|rewrite B]; tauto.
Qed.

Lemma splits_In : forall s p tr dv e, splits s p tr dv -> In e tr \/ In e dv -> In (fst e) p /\ In (snd e) p.
Proof.
  intros s p tr dv e S I. apply path_edges_In.
  destruct (c56_no_loss s p tr dv S) as [P|(a&x&r&_&_&_&_&->&->)]; [|destruct I as [[]|[]]].
  apply (Permutation_in _ P), in_app_iff. exact I.
Qed.

Section MeshThms.
  Context {T : Type} `{NumOps T}.
  Implicit Types (d : diagram T).

  Lemma same_edges_trans d1 d2 d3 : nodes d1 = nodes d2 \/ (forall n, In n (nodes d1) -> In n (nodes d2)) ->
    same_edges d1 d2 -> same_edges d2 d3 -> same_edges d1 d3.
  Proof.
    intros N (A1&A2&A3) (B1&B2&B3). split; [congruence|]. split; [intros e; rewrite B2; auto|].
    intros n I. rewrite B3; auto. destruct N as [<-|N]; auto.
  Qed.

  Lemma nodes_loop : forall (vs : list (Z * vec T)) x d, reachable d -> NoDup (map fst vs) ->
    (forall v, In v (map fst vs) -> ~ In v (nodes d)) ->
    exists d' y, eloop (fun _ vp => add_node (Some (fst vp)) (snd vp)) vs x d = (d', Ok y) /\ reachable d'
      /\ nodes d' = nodes d ++ map fst vs
      /\ (forall k p, In (k, p) vs -> node_get d' k = Ok (fresh_node p))
      /\ (forall n, ~ In n (map fst vs) -> same_node d d' n)
      /\ edges d' = edges d.
  Proof.
    induction vs as [|[k p] vs IH]; intros x d R N F.
    - exists d, x. cbn. rewrite app_nil_r. repeat split; auto. intros k p [].
    - cbn [map fst] in N, F. inversion N as [|? ? N1 N2]; subst.
      destruct (c03_add_node d k p R) as (d1&E&_&_&O&SE&_&_&New).
      destruct New as [Nd G]; [apply F; now left|].
      assert (R1 : reachable d1).
      { assert (Q : fst (call (OpAddNode (Some k) p) d) = d1)
          by (cbn [call]; unfold ignore, ebind; rewrite E; reflexivity).
        rewrite <- Q. apply reachable_step; cbn; auto. }
      destruct (IH k d1 R1 N2) as (d'&y&E'&R'&Nd'&G'&O'&Ed').
      { intros v I J. rewrite Nd in J. apply in_app_iff in J as [J|[<-|[]]]; [|contradiction]. apply (F v); auto. now right. }
      exists d', y. cbn [eloop]. unfold ebind. cbn [fst snd]. rewrite E. split; [exact E'|]. split; [exact R'|].
      split; [rewrite Nd', Nd, <- app_assoc; reflexivity|].
      split.
      { intros k0 p0 [Q|I]; [injection Q as <- <-; rewrite (O' k N1); exact G|now apply G']. }
      split.
      { intros n M. cbn [map fst In] in M. unfold same_node. rewrite O', O; auto. }
      rewrite Ed'. apply SE.
  Qed.

  Lemma supports_loop : forall (ss : list Z) x d, reachable d -> (forall n, In n ss -> In n (nodes d)) ->
    exists d', eloop (fun _ s => add_support (RKey s)) ss x d = (d', Ok tt) /\ reachable d'
      /\ nodes d' = nodes d /\ edges d' = edges d
      /\ (forall n, In n (nodes d) -> node_coordinates d' n = node_coordinates d n)
      /\ (forall n, In n ss -> is_node_support d' n = Ok true)
      /\ (forall n, ~ In n ss -> same_node d d' n).
  Proof.
    induction ss as [|s ss IH]; intros [] d R F.
    - exists d. repeat split; auto. intros n [].
    - destruct (c09_add_support d (RKey s) R) as [(n&d1&K&I&E&Nd&Su&Co&_&_&_&O&SE&_&_)|[(n&K&I&_)|(p&K&_)]];
        [|exfalso; injection K as <-; apply I, F; now left|discriminate].
      cbn in K. injection K as <-.
      assert (R1 : reachable d1).
      { assert (Q : fst (call (OpAddSupport (RKey s)) d) = d1) by (cbn [call]; rewrite E; reflexivity).
        rewrite <- Q. apply reachable_step; cbn; auto. }
      destruct (IH tt d1 R1) as (d'&E'&R'&Nd'&Ed'&Co'&Su'&O').
      { intros n J. rewrite Nd. apply F. now right. }
      exists d'. cbn [eloop]. unfold ebind. rewrite E. split; [exact E'|]. split; [exact R'|].
      split; [congruence|]. split; [rewrite Ed'; apply SE|].
      assert (Sup : is_node_support d' s = Ok true).
      { destruct (in_dec Z.eq_dec s ss) as [J|J]; [now apply Su'|].
        unfold is_node_support in *. rewrite (O' s J). exact Su. }
      split.
      { intros n J. rewrite Co' by (rewrite Nd; auto). destruct (Z.eq_dec n s) as [->|Q]; [exact Co|].
        unfold node_coordinates. rewrite (O n Q). reflexivity. }
      split.
      { intros n [<-|J]; auto. }
      intros n M. cbn [In] in M. unfold same_node. rewrite O', O; auto.
  Qed.

  (** What add_edge stored for an element *)
  Definition stored d (e : ekey) (el : edge_elem T) : Prop :=
    match el with
    | TrailEdge l pl => is_trail_edge d e = Ok true /\ is_deviation_edge d e = Ok false
        /\ edge_length_2 d e = Ok l /\ edge_plane d e = Ok pl
    | DeviationEdge f => is_trail_edge d e = Ok false /\ is_deviation_edge d e = Ok true /\ edge_force d e = Ok f
    end.

  Lemma stored_ext d d' e el : edge_get d' e = edge_get d e -> stored d e el -> stored d' e el.
  Proof.
    intros E. destruct el; unfold stored, is_trail_edge, is_deviation_edge, edge_length_2, edge_plane, edge_force;
      rewrite E; auto.
  Qed.

  Lemma edges_loop : forall (body : ekey -> eff (diagram T) ekey) (el : ekey -> edge_elem T) es x d, reachable d ->
    (forall e, In e es -> In (fst e) (nodes d) /\ In (snd e) (nodes d)) ->
    (forall d', nodes d' = nodes d -> (forall n, same_node d d' n) ->
       forall e, In e es -> body e d' = add_edge (RKey (fst e)) (RKey (snd e)) (el e) d') ->
    exists d' y, eloop (fun _ e => body e) es x d = (d', Ok y) /\ reachable d'
      /\ nodes d' = nodes d /\ (forall n, same_node d d' n)
      /\ (forall e, In e (edges d') <-> In e es \/ In e (edges d))
      /\ (forall e, In e es -> stored d' e (el e))
      /\ (forall e, ~ In e es -> edge_get d' e = edge_get d e).
  Proof.
    induction es as [|e es IH]; intros x d R F B.
    - exists d, x. cbn [eloop]. split; [reflexivity|]. split; [exact R|]. split; [reflexivity|].
      split; [intros n; reflexivity|]. split; [intros e; cbn; tauto|]. split; [intros e []|auto].
    - destruct (F e) as [Fu Fv]; [now left|]. destruct e as [u v]. cbn [fst snd] in *.
      destruct (c07_add_edge_writes d u v (el (u, v)) R Fu Fv) as (d1&E&Nd&Sn&_&_&Ed&O&Wr).
      assert (R1 : reachable d1).
      { assert (Q : fst (call (OpAddEdge (RKey u) (RKey v) (el (u, v))) d) = d1)
          by (cbn [call]; unfold ignore, ebind; rewrite E; reflexivity).
        rewrite <- Q. apply reachable_step; cbn; auto. }
      assert (St : stored d1 (u, v) (el (u, v))).
      { unfold stored. destruct (el (u, v)) as [l pl|f]; intuition. }
      destruct (IH (u, v) d1 R1) as (d'&y&E'&R'&Nd'&Sn'&Ed'&St'&O').
      { intros e J. rewrite Nd. apply F. now right. }
      { intros d2 N2 S2 e J. apply B; [congruence| |now right]. intros n. unfold same_node. rewrite S2. apply Sn. }
      exists d', y. cbn [eloop]. unfold ebind at 1. rewrite (B d eq_refl (fun n => eq_refl) (u, v) (or_introl eq_refl)).
      cbn [fst snd]. rewrite E. split; [exact E'|]. split; [exact R'|]. split; [congruence|].
      split; [intros n; unfold same_node; rewrite Sn'; apply Sn|].
      split. { intros e. rewrite Ed', Ed. cbn [In]. intuition. }
      split.
      { intros e J. destruct (in_dec (fun a b : ekey => ltac:(decide equality; apply Z.eq_dec)) e es) as [K|K]; [now apply St'|].
        destruct J as [<-|J]; [|contradiction]. eapply stored_ext; [apply O'; exact K|exact St]. }
      intros e J. cbn [In] in J. rewrite O', O; auto.
  Qed.

  (** from_dualquadmesh succeeds on a mesh with supports at its vertices, and makes a diagram with exactly the vertices, the
      supports, the trail edges and the deviation edges that the polyedges yield, with the requested lengths and forces. *)
  Lemma c56_diagram : forall ord (m : quadmesh T) s trail_length trail_state deviation_force deviation_state,
    (forall l, Permutation (ord l) l) -> sound_mesh m s ->
    exists d, from_dualquadmesh ord m s trail_length trail_state deviation_force deviation_state = Ok d /\ reachable d
      /\ nodes d = map fst (qm_vertices m)
      /\ (forall k p, In (k, p) (qm_vertices m) -> node_coordinates d k = Ok p)
      /\ (forall k, In k (nodes d) -> (is_node_support d k = Ok true <-> In k s))
      /\ (forall e, In e (edges d) <-> mesh_trail m s e \/ mesh_deviation m s e)
      /\ (forall u v, mesh_trail m s (u, v) -> is_trail_edge d (u, v) = Ok true
            /\ exists a b l, node_coordinates d u = Ok a /\ node_coordinates d v = Ok b
                 /\ edge_length_2 d (u, v) = Ok l /\ mesh_length trail_length trail_state a b l)
      /\ (forall e, mesh_deviation m s e -> ~ mesh_trail m s e ->
            is_deviation_edge d e = Ok true /\ edge_force d e = Ok (nmul deviation_state deviation_force)).
  Proof.
    intros ord m s tl ts df ds Po [Un Pa Su]. unfold from_dualquadmesh.
    destruct (all_edges_Ok (py_set s) (qm_polyedges m)) as (tr&dv&AE&Tr&Dv); [intros p I; now apply Pa|].
    rewrite AE. cbn [bind].
    assert (EX : forall x, In x (py_set s) <-> In x s) by apply In_py_set.
    assert (Tr' : forall e, In e tr <-> mesh_trail m s e).
    { intros e. rewrite Tr. unfold mesh_trail. split; intros (p&t&v&I1&I2&I3); exists p, t, v; (split; [exact I1|]); (split; [|exact I3]).
      - eapply splits_ext; [exact EX|exact I2].
      - eapply splits_ext; [intros x; symmetry; apply EX|exact I2]. }
    assert (Dv' : forall e, In e dv <-> mesh_deviation m s e).
    { intros e. rewrite Dv. unfold mesh_deviation. split; intros (p&t&v&I1&I2&I3); exists p, t, v; (split; [exact I1|]); (split; [|exact I3]).
      - eapply splits_ext; [exact EX|exact I2].
      - eapply splits_ext; [intros x; symmetry; apply EX|exact I2]. }
    assert (Ends : forall e, In e tr \/ In e dv -> In (fst e) (map fst (qm_vertices m)) /\ In (snd e) (map fst (qm_vertices m))).
    { intros e [I|I]; [apply Tr in I|apply Dv in I]; destruct I as (p&t&v&I1&I2&I3);
        destruct (splits_In _ _ _ _ e I2) as [A B]; auto; destruct (Pa p I1) as [_ V]; auto. }
    assert (R0 : reachable empty_diagram) by (exists []; split; [constructor|reflexivity]).
    destruct (nodes_loop (qm_vertices m) 0 empty_diagram R0 Un ltac:(intros v _ []))
      as (d1&y1&E1&R1&N1&G1&_&Ed1).
    cbn [nodes d_node empty_diagram dkeys map app] in N1. change (edges empty_diagram) with (@nil ekey) in Ed1.
    destruct (supports_loop (ord (py_set s)) tt d1 R1) as (d2&E2&R2&N2&Ed2&Co2&Su2&O2).
    { intros n I. rewrite N1. apply Su, EX. eapply Permutation_in; [apply Po|exact I]. }
    set (del := fun _ : ekey => DeviationEdge (nmul ds df)).
    destruct (edges_loop (fun e => add_edge (RKey (fst e)) (RKey (snd e)) (del e)) del dv (0, 0) d2 R2)
      as (d3&y3&E3&R3&N3&S3&Ed3&St3&_).
    { intros e I. rewrite N2, N1. apply Ends. now right. }
    { reflexivity. }
    assert (Co : forall k, In k (map fst (qm_vertices m)) -> exists p, In (k, p) (qm_vertices m) /\ node_coordinates d3 k = Ok p).
    { intros k I. apply in_map_iff in I as ([k' p]&<-&I). exists p. split; [exact I|].
      unfold node_coordinates. rewrite S3. fold (node_coordinates d2 (fst (k', p))).
      rewrite Co2; [|rewrite N1; apply in_map_iff; exists (k', p); auto].
      unfold node_coordinates. cbn [fst]. rewrite (G1 _ _ I). reflexivity. }
    set (len := fun e => match signed_length tl ts e d3 with Ok l => l | Err _ => n0 end).
    set (tel := fun e => TrailEdge (len e) None).
    assert (Len : forall e, In e tr -> exists a b, node_coordinates d3 (fst e) = Ok a /\ node_coordinates d3 (snd e) = Ok b
      /\ signed_length tl ts e d3 = Ok (len e) /\ mesh_length tl ts a b (len e)).
    { intros e I. destruct (Ends e (or_introl I)) as [A B]. destruct (Co _ A) as (a&_&Ca), (Co _ B) as (b&_&Cb).
      exists a, b. split; [exact Ca|]. split; [exact Cb|]. unfold len, signed_length, mesh_length. rewrite Ca, Cb. cbn [bind].
      destruct tl as [g|]; [destruct (ntruthy g)|]; auto. }
    destruct (edges_loop (fun e => do* l := eget (signed_length tl ts e) in add_edge (RKey (fst e)) (RKey (snd e)) (TrailEdge l None))
                tel tr (0, 0) d3 R3) as (d4&y4&E4&R4&N4&S4&Ed4&St4&O4).
    { intros e I. rewrite N3, N2, N1. apply Ends. now left. }
    { intros d' Nd Sd e I. unfold ebind, eget. destruct (Len e I) as (a&b&_&_&L&_).
      assert (Q : signed_length tl ts e d' = signed_length tl ts e d3).
      { unfold signed_length, node_coordinates. rewrite !Sd. reflexivity. }
      rewrite Q, L. reflexivity. }
    exists d4. unfold ebind at 1. rewrite E1. unfold ebind at 1. rewrite E2. unfold ebind at 1.
    change (fun (_ : ekey) (e : ekey) => add_edge (RKey (fst e)) (RKey (snd e)) (DeviationEdge (nmul ds df)))
      with (fun (_ : ekey) (e : ekey) => add_edge (RKey (fst e)) (RKey (snd e)) (del e)).
    rewrite E3. unfold ebind at 1. rewrite E4. split; [reflexivity|]. split; [exact R4|].
    assert (ND : nodes d4 = map fst (qm_vertices m)) by (rewrite N4, N3, N2, N1; reflexivity).
    assert (G : forall n, node_get d4 n = node_get d2 n) by (intros n; rewrite S4; apply S3).
    split; [exact ND|].
    split.
    { intros k p I. unfold node_coordinates. rewrite G. fold (node_coordinates d2 k).
      rewrite Co2; [|rewrite N1; apply in_map_iff; exists (k, p); auto].
      unfold node_coordinates. rewrite (G1 _ _ I). reflexivity. }
    split.
    { intros k I. rewrite ND in I. unfold is_node_support. rewrite G.
      destruct (in_dec Z.eq_dec k (ord (py_set s))) as [J|J].
      - split; [intros _; apply EX; eapply Permutation_in; [apply Po|exact J]|intros _; apply Su2; exact J].
      - apply in_map_iff in I as ([k' p]&Q&I). cbn in Q. subst k'. rewrite (O2 k J), (G1 k p I). cbn.
        split; [discriminate|]. intros K. exfalso. apply J. eapply Permutation_in; [apply Permutation_sym, Po|now apply EX]. }
    split. { intros e. rewrite Ed4, Ed3, Ed2, Ed1, Tr', Dv'. cbn [In]. tauto. }
    split.
    { intros u v I. apply Tr' in I. destruct (St4 _ I) as (A&_&C&_). split; [exact A|].
      destruct (Len _ I) as (a&b&Ca&Cb&_&M). exists a, b, (len (u, v)). unfold node_coordinates. rewrite !S4. auto. }
    intros e I J. apply Dv' in I. rewrite <- Tr' in J.
    assert (X : stored d4 e (del e)) by (eapply stored_ext; [apply O4; exact J|now apply St3]).
    destruct X as (_&A&B). auto.
  Qed.

End MeshThms.
