(** * Facts about parameters, arrays and the objective *)

From Coq Require Import String List ZArith Bool Lia.
From Verif Require Import Py PyFacts Num Diagram Topology Equilibrium EquilibriumNp Constraints Optimizer SpecOptimizer.
Import ListNotations.
Open Scope Z_scope.

Lemma slot_dec (s s' : slot) : {s = s'} + {s <> s'}.
Proof. repeat decide equality. Defined.

Ltac fnd := cbn [d_edge with_edge]; first [apply dget_dset_same|rewrite dget_dset_other by auto; eassumption|eassumption].

Section Facts.
  Context {T : Type} `{NumOps T}.
  Implicit Types (d : diagram T) (o : optimizer T) (s : slot) (v w : T).

  (** ** Attributes *)

  Lemma nattr_get_set a v (x : node_attr T) : nattr_get a (nattr_set a v x) = v.
  Proof. now destruct a. Qed.
  Lemma nattr_get_other a b v (x : node_attr T) : a <> b -> nattr_get b (nattr_set a v x) = nattr_get b x.
  Proof. destruct a, b; intros N; try reflexivity; now destruct N. Qed.
  Lemma nattr_set_set a v w (x : node_attr T) : nattr_set a w (nattr_set a v x) = nattr_set a w x.
  Proof. now destruct a. Qed.
  Lemma nattr_set_comm a b v w (x : node_attr T) : a <> b -> nattr_set b w (nattr_set a v x) = nattr_set a v (nattr_set b w x).
  Proof. destruct a, b; intros N; try reflexivity; now destruct N. Qed.
  Lemma eattr_get_set a v (x : edge_attr T) : eattr_get a (eattr_set a v x) = v.
  Proof. now destruct a. Qed.
  Lemma eattr_get_other a b v (x : edge_attr T) : a <> b -> eattr_get b (eattr_set a v x) = eattr_get b x.
  Proof. destruct a, b; intros N; try reflexivity; now destruct N. Qed.
  Lemma eattr_set_set a v w (x : edge_attr T) : eattr_set a w (eattr_set a v x) = eattr_set a w x.
  Proof. now destruct a. Qed.
  Lemma eattr_set_comm a b v w (x : edge_attr T) : a <> b -> eattr_set b w (eattr_set a v x) = eattr_set a v (eattr_set b w x).
  Proof. destruct a, b; intros N; try reflexivity; now destruct N. Qed.

  (** ** Slots *)

  Lemma slot_quantity d s : slot_get d s = quantity d s.
  Proof.
    destruct s as [n a|e a]; cbn [slot_get quantity]; unfold node_coordinates, node_load, edge_force, edge_length_2.
    - destruct a, (node_get d n); reflexivity.
    - destruct a, (edge_get d e); reflexivity.
  Qed.

  Lemma start_quantity d p : start_value d p = quantity d (p_slot p).
  Proof. apply slot_quantity. Qed.

  Lemma present_slot d s : present d s <-> exists y, slot_get d s = Ok y.
  Proof. unfold present. now rewrite slot_quantity. Qed.

  Definition write s v d : diagram T := fst (slot_set s v d).

  Lemma slot_set_cases s v d :
    (exists y, slot_get d s = Ok y /\ slot_set s v d = (write s v d, Ok tt))
    \/ (slot_get d s = Err KeyError /\ slot_set s v d = (d, Err KeyError)).
  Proof.
    unfold write. destruct s as [n a|[u w] a]; cbn [slot_get slot_set].
    - unfold node_get, dgetr, node_set. destruct (dget (d_node d) n) as [x|]; cbn; eauto.
    - unfold edge_get, edge_find, edge_set. cbn [fst snd]. destruct (dget (d_edge d) u) as [nb|]; [|cbn; auto].
      destruct (dget nb w) as [x|]; cbn; eauto.
  Qed.

  Lemma write_node n a v d x : dget (d_node d) n = Some x ->
    write (NodeSlot n a) v d = with_node d (dset (d_node d) n (nattr_set a v x)).
  Proof. intros E. unfold write. cbn [slot_set]. unfold node_set. now rewrite E. Qed.

  Lemma write_node_None n a v d : dget (d_node d) n = None -> write (NodeSlot n a) v d = d.
  Proof. intros E. unfold write. cbn [slot_set]. unfold node_set. now rewrite E. Qed.

  Lemma write_edge u (w : Z) a v d nb x : dget (d_edge d) u = Some nb -> dget nb w = Some x ->
    write (EdgeSlot (u, w) a) v d = with_edge d (dset (d_edge d) u (dset nb w (eattr_set a v x))).
  Proof. intros E F. unfold write. cbn [slot_set]. unfold edge_set. cbn [fst snd]. now rewrite E, F. Qed.

  Lemma write_edge_None u (w : Z) a v d : edge_find d (u, w) = None -> write (EdgeSlot (u, w) a) v d = d.
  Proof.
    intros E. unfold write. cbn [slot_set]. unfold edge_set, edge_find in *. cbn [fst snd] in *.
    destruct (dget (d_edge d) u) as [nb|]; [|reflexivity]. now rewrite E.
  Qed.

  Lemma slot_get_write s v d : (exists y, slot_get d s = Ok y) -> slot_get (write s v d) s = Ok v.
  Proof.
    intros [y E]. destruct s as [n a|[u w] a]; cbn [slot_get] in *.
    - unfold node_get, dgetr in *. destruct (dget (d_node d) n) as [x|] eqn:F; [|discriminate E].
      rewrite (write_node _ _ _ _ _ F). cbn [d_node with_node]. rewrite dget_dset_same. cbn [bind]. now rewrite nattr_get_set.
    - unfold edge_get, edge_find in *. cbn [fst snd] in *. destruct (dget (d_edge d) u) as [nb|] eqn:F; [|discriminate E].
      destruct (dget nb w) as [x|] eqn:G; [|discriminate E].
      rewrite (write_edge _ _ _ _ _ _ _ F G). cbn [d_edge with_edge]. rewrite dget_dset_same, dget_dset_same. cbn [bind].
      now rewrite eattr_get_set.
  Qed.

  Lemma slot_get_write_other s s' v d : s <> s' -> slot_get (write s v d) s' = slot_get d s'.
  Proof.
    intros N. destruct s as [n a|[u w] a].
    - destruct (dget (d_node d) n) as [x|] eqn:F; [|now rewrite write_node_None]. rewrite (write_node _ _ _ _ _ F).
      destruct s' as [m b|e b]; [|reflexivity]. cbn [slot_get]. unfold node_get, dgetr. cbn [d_node with_node].
      rewrite dget_dset. destruct (eqb_spec m n) as [->|M]; [|reflexivity].
      rewrite F. cbn [bind]. rewrite nattr_get_other; [reflexivity|congruence].
    - destruct (edge_find d (u, w)) as [x|] eqn:F; [|now rewrite write_edge_None].
      unfold edge_find in F. cbn [fst snd] in F. destruct (dget (d_edge d) u) as [nb|] eqn:G; [|discriminate F].
      rewrite (write_edge _ _ _ _ _ _ _ G F). destruct s' as [m b|[u' w'] b]; [reflexivity|].
      cbn [slot_get]. unfold edge_get, edge_find. cbn [d_edge with_edge fst snd].
      rewrite dget_dset. destruct (eqb_spec u' u) as [->|M]; [|reflexivity]. rewrite G.
      rewrite dget_dset. destruct (eqb_spec w' w) as [->|M']; [|reflexivity].
      rewrite F. cbn [bind]. rewrite eattr_get_other; [reflexivity|congruence].
  Qed.

  Lemma slot_get_write_Ok s s' v d : (exists y, slot_get d s' = Ok y) <-> (exists y, slot_get (write s v d) s' = Ok y).
  Proof.
    destruct (slot_dec s s') as [<-|N]; [|now rewrite slot_get_write_other].
    split; [intros E; rewrite slot_get_write; eauto|].
    intros E. destruct (slot_set_cases s v d) as [(y&G&_)|(G&F)]; [eauto|].
    unfold write in E. rewrite F in E. exact E.
  Qed.

  Lemma write_write s v v' d : write s v' (write s v d) = write s v' d.
  Proof.
    destruct s as [n a|[u w] a].
    - destruct (dget (d_node d) n) as [x|] eqn:F; [|now rewrite (write_node_None n a v)].
      rewrite (write_node _ _ v _ _ F), (write_node _ _ v' _ _ F). erewrite write_node by (cbn [d_node with_node]; apply dget_dset_same).
      cbn [d_node with_node]. rewrite nattr_set_set. unfold with_node. cbn. now rewrite dset_dset.
    - destruct (edge_find d (u, w)) as [x|] eqn:F; [|now rewrite (write_edge_None u w a v)].
      unfold edge_find in F. cbn [fst snd] in F. destruct (dget (d_edge d) u) as [nb|] eqn:G; [|discriminate F].
      rewrite (write_edge _ _ _ v _ _ _ G F), (write_edge _ _ _ v' _ _ _ G F).
      erewrite write_edge by (cbn [d_edge with_edge]; apply dget_dset_same).
      cbn [d_edge with_edge]. rewrite eattr_set_set. unfold with_edge. cbn. now rewrite !dset_dset.
  Qed.

  Lemma write_comm s s' v v' d : s <> s' -> write s v (write s' v' d) = write s' v' (write s v d).
  Proof.
    intros N. destruct s as [n a|[u w] a], s' as [m b|[u' w'] b].
    - destruct (dget (d_node d) n) as [x|] eqn:F.
      2: { assert (G : dget (d_node (write (NodeSlot m b) v' d)) n = None).
           { destruct (dget (d_node d) m) as [y|] eqn:G; [|now rewrite write_node_None]. rewrite (write_node _ _ _ _ _ G).
             cbn [d_node with_node]. rewrite dget_dset. destruct (eqb_spec n m) as [->|]; [congruence|auto]. }
           now rewrite (write_node_None _ _ _ _ G), (write_node_None _ _ _ _ F). }
      destruct (dget (d_node d) m) as [y|] eqn:G.
      2: { rewrite (write_node_None _ _ _ _ G). symmetry. apply write_node_None.
           rewrite (write_node _ _ _ _ _ F). cbn [d_node with_node]. rewrite dget_dset. destruct (eqb_spec m n) as [->|]; [congruence|auto]. }
      rewrite (write_node _ _ v _ _ F), (write_node _ _ v' _ _ G). destruct (Z.eq_dec n m) as [->|M].
      + rewrite F in G. apply Some_inj in G. subst y.
        erewrite !write_node by (cbn [d_node with_node]; apply dget_dset_same).
        unfold with_node. cbn. rewrite !dset_dset. rewrite nattr_set_comm; [reflexivity|congruence].
      + erewrite (write_node n) by (cbn [d_node with_node]; rewrite dget_dset_other by auto; exact F).
        erewrite (write_node m) by (cbn [d_node with_node]; rewrite dget_dset_other by auto; exact G).
        unfold with_node. cbn. f_equal. apply dset_comm; [now auto|right; eapply dget_In_keys; eassumption].
    - destruct (dget (d_node d) n) as [x|] eqn:F; destruct (edge_find d (u', w')) as [y|] eqn:G.
      + assert (G' := G). unfold edge_find in G. cbn [fst snd] in G. destruct (dget (d_edge d) u') as [nb|] eqn:K; [|discriminate G].
        rewrite (write_node _ _ _ _ _ F), (write_edge _ _ _ _ _ _ _ K G).
        erewrite write_node by exact F. erewrite write_edge by (cbn [d_edge with_node]; eauto). reflexivity.
      + rewrite (write_edge_None _ _ _ _ _ G). rewrite (write_node _ _ _ _ _ F). now rewrite write_edge_None.
      + assert (G' := G). unfold edge_find in G. cbn [fst snd] in G. destruct (dget (d_edge d) u') as [nb|] eqn:K; [|discriminate G].
        rewrite (write_node_None _ _ _ _ F), (write_edge _ _ _ _ _ _ _ K G). now rewrite write_node_None.
      + now rewrite (write_edge_None _ _ _ _ _ G), (write_node_None _ _ _ _ F), (write_edge_None _ _ _ _ _ G).
    - destruct (dget (d_node d) m) as [x|] eqn:F; destruct (edge_find d (u, w)) as [y|] eqn:G.
      + assert (G' := G). unfold edge_find in G. cbn [fst snd] in G. destruct (dget (d_edge d) u) as [nb|] eqn:K; [|discriminate G].
        rewrite (write_node _ _ _ _ _ F), (write_edge _ _ _ _ _ _ _ K G).
        erewrite (write_node m) by exact F. erewrite write_edge by (cbn [d_edge with_node]; eauto). reflexivity.
      + rewrite (write_edge_None _ _ _ _ _ G). rewrite (write_node _ _ _ _ _ F). now rewrite write_edge_None.
      + assert (G' := G). unfold edge_find in G. cbn [fst snd] in G. destruct (dget (d_edge d) u) as [nb|] eqn:K; [|discriminate G].
        rewrite (write_node_None _ _ _ _ F), (write_edge _ _ _ _ _ _ _ K G). now rewrite write_node_None.
      + now rewrite (write_edge_None _ _ _ _ _ G), (write_node_None _ _ _ _ F), (write_edge_None _ _ _ _ _ G).
    - destruct (edge_find d (u, w)) as [x|] eqn:F.
      2: { rewrite (write_edge_None _ _ _ _ _ F). apply write_edge_None.
           assert (X := slot_get_write_Ok (EdgeSlot (u', w') b) (EdgeSlot (u, w) a) v' d). cbn [slot_get] in X. unfold edge_get in X.
           destruct (edge_find (write (EdgeSlot (u', w') b) v' d) (u, w)) as [z|]; [|reflexivity].
           destruct (proj2 X ltac:(eexists; reflexivity)) as [z' X']. rewrite F in X'. discriminate X'. }
      destruct (edge_find d (u', w')) as [y|] eqn:G.
      2: { rewrite (write_edge_None _ _ _ _ _ G). symmetry. apply write_edge_None.
           assert (X := slot_get_write_Ok (EdgeSlot (u, w) a) (EdgeSlot (u', w') b) v d). cbn [slot_get] in X. unfold edge_get in X.
           destruct (edge_find (write (EdgeSlot (u, w) a) v d) (u', w')) as [z|]; [|reflexivity].
           destruct (proj2 X ltac:(eexists; reflexivity)) as [z' X']. rewrite G in X'. discriminate X'. }
      unfold edge_find in F, G. cbn [fst snd] in F, G.
      destruct (dget (d_edge d) u) as [nb|] eqn:Fu; [|discriminate F].
      destruct (dget (d_edge d) u') as [nb'|] eqn:Gu; [|discriminate G].
      rewrite (write_edge _ _ _ _ _ _ _ Fu F), (write_edge _ _ _ _ _ _ _ Gu G).
      destruct (Z.eq_dec u u') as [<-|M].
      + rewrite Fu in Gu. apply Some_inj in Gu. subst nb'. destruct (Z.eq_dec w w') as [<-|M'].
        * rewrite F in G. apply Some_inj in G. subst y.
          erewrite !write_edge by (cbn [d_edge with_edge]; apply dget_dset_same).
          unfold with_edge. cbn. rewrite !dset_dset. rewrite eattr_set_comm; [reflexivity|congruence].
        * erewrite (write_edge u w) by fnd.
          erewrite (write_edge u w') by fnd.
          unfold with_edge. cbn. rewrite !dset_dset. f_equal. f_equal. apply dset_comm; [now auto|left; eapply dget_In_keys; eassumption].
      + erewrite (write_edge u w) by fnd.
        erewrite (write_edge u' w') by fnd.
        unfold with_edge. cbn. f_equal. apply dset_comm; [now auto|left; eapply dget_In_keys; eassumption].
  Qed.

  (** ** Writing several slots *)

  Definition writes (ws : list (slot * T)) d : diagram T := fold_left (fun d sv => write (fst sv) (snd sv) d) ws d.

  (** [d'] is [d] after writing some of the slots [S]. *)
  Definition evolved (S : list slot) d d' : Prop := exists ws, incl (map fst ws) S /\ d' = writes ws d.

  Lemma evolved_refl S d : evolved S d d.
  Proof. exists []. split; [intros x []|reflexivity]. Qed.

  Lemma evolved_trans S d1 d2 d3 : evolved S d1 d2 -> evolved S d2 d3 -> evolved S d1 d3.
  Proof.
    intros (w1&I1&->) (w2&I2&->). exists (w1 ++ w2). split; [rewrite map_app; now apply incl_app|].
    unfold writes. now rewrite fold_left_app.
  Qed.

  Lemma evolved_write S d s v : In s S -> evolved S d (write s v d).
  Proof. intros I. exists [(s, v)]. split; [intros x [<-|[]]; exact I|reflexivity]. Qed.

  Definition update_body (x : list T) : unit -> Z * parameter T -> eff (diagram T) unit :=
    fun _ kp => do* v := eget (fun _ => aget x (fst kp)) in slot_set (p_slot (snd kp)) v.

  Lemma update_cons x k p ps d :
    eloop (update_body x) ((k, p) :: ps) tt d =
    match aget x k with
    | Err e => (d, Err e)
    | Ok v => match slot_get d (p_slot p) with
              | Err e => (d, Err e)
              | Ok _ => eloop (update_body x) ps tt (write (p_slot p) v d)
              end
    end.
  Proof.
    cbn [eloop]. unfold update_body at 1, ebind, eget. cbn [fst snd]. destruct (aget x k) as [v|e]; [|reflexivity].
    destruct (slot_set_cases (p_slot p) v d) as [(y&E&F)|(E&F)]; rewrite E, F; [|reflexivity].
    reflexivity.
  Qed.

  Lemma update_evolved x ps d : evolved (map (fun kp => p_slot (snd kp)) ps) d (fst (eloop (update_body x) ps tt d)).
  Proof.
    assert (G : forall S, incl (map (fun kp => p_slot (snd kp)) ps) S -> forall d, evolved S d (fst (eloop (update_body x) ps tt d))).
    { induction ps as [|[k p] ps IH]; intros S I d0; [apply evolved_refl|]. rewrite update_cons.
      destruct (aget x k) as [v|e]; [|apply evolved_refl]. destruct (slot_get d0 (p_slot p)) as [y|e]; [|apply evolved_refl].
      eapply evolved_trans; [apply (evolved_write S _ (p_slot p) v); apply I; now left|]. apply IH.
      intros z J. apply I. now right. }
    apply G, incl_refl.
  Qed.

  (** Writing a slot before an update that writes it makes no difference. *)
  Lemma update_absorbs x ps s v d : In s (map (fun kp => p_slot (snd kp)) ps) ->
    snd (eloop (update_body x) ps tt (write s v d)) = snd (eloop (update_body x) ps tt d)
    /\ (snd (eloop (update_body x) ps tt d) = Ok tt ->
        fst (eloop (update_body x) ps tt (write s v d)) = fst (eloop (update_body x) ps tt d)).
  Proof.
    revert d. induction ps as [|[k p] ps IH]; intros d I; [destruct I|]. rewrite !update_cons.
    destruct (aget x k) as [u|e]; [|split; [reflexivity|discriminate]]. set (s' := p_slot p) in *.
    assert (P := slot_get_write_Ok s s' v d).
    destruct (slot_set_cases s' u d) as [(y&E&_)|(E&_)].
    - destruct (proj1 P (ex_intro _ y E)) as [y' E']. rewrite E, E'. destruct (slot_dec s' s) as [->|N].
      + rewrite write_write. now split.
      + rewrite write_comm by auto. apply IH. cbn [map fst snd] in I. destruct I as [I|I]; [|exact I].
        exfalso. apply N. exact I.
    - rewrite E. destruct (slot_set_cases s' u (write s v d)) as [(y&E'&_)|(E'&_)]; [|rewrite E'; split; [reflexivity|discriminate]].
      destruct (proj2 P (ex_intro _ y E')) as [y' F]. rewrite E in F. discriminate F.
  Qed.

  Lemma update_evolved_absorbs o x d d' : evolved (addressed o) d d' ->
    snd (update_parameters o x d') = snd (update_parameters o x d)
    /\ (snd (update_parameters o x d) = Ok tt -> fst (update_parameters o x d') = fst (update_parameters o x d)).
  Proof.
    intros (ws&I&->). revert d. induction ws as [|[s v] ws IH]; intros d; [now split|].
    cbn [writes fold_left fst snd]. destruct (IH ltac:(intros z J; apply I; now right) (write s v d)) as [A B].
    unfold writes in A, B. destruct (update_absorbs x (o_params o) s v d) as [C D]; [apply I; now left|].
    change (eloop (update_body x) (o_params o) tt) with (update_parameters o x) in C, D. split; [now rewrite A|].
    intros E. rewrite B by (rewrite C; exact E). now apply D.
  Qed.

  (** ** The objective *)

  Lemma optimize_form_fst o tmax eta x d : fst (optimize_form o tmax eta x d) = fst (update_parameters o x d).
  Proof. unfold optimize_form, ebind. destruct (update_parameters o x d) as [d' [u|e]]; reflexivity. Qed.

  Lemma optimize_form_evolved o tmax eta x d d' : evolved (addressed o) d d' ->
    snd (optimize_form o tmax eta x d') = snd (optimize_form o tmax eta x d)
    /\ evolved (addressed o) d (fst (optimize_form o tmax eta x d')).
  Proof.
    intros E. split.
    - destruct (update_evolved_absorbs o x d d' E) as [A B]. unfold optimize_form, ebind.
      destruct (update_parameters o x d') as [d1 r1], (update_parameters o x d) as [d2 r2]. cbn [fst snd] in A, B. subst r1.
      destruct r2 as [[]|e]; [|reflexivity]. now rewrite B.
    - rewrite optimize_form_fst. eapply evolved_trans; [exact E|]. apply update_evolved.
  Qed.

  Lemma evaluations_evolved o tmax eta ys d : evolved (addressed o) d (after_evaluations o tmax eta ys d).
  Proof.
    unfold after_evaluations. assert (G : forall d', evolved (addressed o) d d' ->
      evolved (addressed o) d (fold_left (fun d y => fst (optimize_form o tmax eta y d)) ys d')); [|apply G, evolved_refl].
    induction ys as [|y ys IH]; intros d' E; [exact E|]. cbn [fold_left]. apply IH. now apply optimize_form_evolved.
  Qed.

  (** The objective value at a point does not depend on the points evaluated before,
      and neither does the diagram after a successful evaluation. *)
  Lemma c46_objective : forall o tmax eta ys x d,
    snd (optimize_form o tmax eta x (after_evaluations o tmax eta ys d)) = snd (optimize_form o tmax eta x d)
    /\ forall v, snd (optimize_form o tmax eta x d) = Ok v ->
       fst (optimize_form o tmax eta x (after_evaluations o tmax eta ys d)) = fst (optimize_form o tmax eta x d).
  Proof.
    intros o tmax eta ys x d. assert (E := evaluations_evolved o tmax eta ys d).
    destruct (optimize_form_evolved o tmax eta x _ _ E) as [A _]. split; [exact A|]. intros v V.
    destruct (update_evolved_absorbs o x _ _ E) as [_ B]. rewrite !optimize_form_fst. apply B.
    unfold optimize_form, ebind in V. destruct (update_parameters o x d) as [d1 [[]|e]]; [reflexivity|discriminate V].
  Qed.
End Facts.
