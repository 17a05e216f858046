(** * Frames, trail walks and the trail search *)

From Coq Require Import String List ZArith Bool Lia Permutation.
From Verif Require Import Py PyFacts Num Diagram DiagramFacts Topology.
Import ListNotations.
Open Scope Z_scope.

Section Facts.
  Context {T : Type} `{NumOps T}.
  Implicit Types (d : diagram T).

  (** ** Frames: only "type" and "_k" of nodes may differ *)

  Definition kof d n : option Z := match dget (d_node d) n with Some a => na_k a | None => None end.
  Definition tof d n : option ntype := match dget (d_node d) n with Some a => na_type a | None => None end.

  Definition frame d d' : Prop :=
    d' = with_node d (d_node d') /\ nodes d' = nodes d
    /\ forall n a, dget (d_node d) n = Some a ->
         exists a', dget (d_node d') n = Some a'
           /\ na_xyz a' = na_xyz a /\ na_load a' = na_load a /\ na_reac a' = na_reac a.

  Lemma with_node_node d : with_node d (d_node d) = d.
  Proof. now destruct d. Qed.

  Lemma frame_refl d : frame d d.
  Proof. split; [now rewrite with_node_node|]. split; [auto|]. intros n a Ha. exists a. auto. Qed.

  Lemma frame_trans d1 d2 d3 : frame d1 d2 -> frame d2 d3 -> frame d1 d3.
  Proof.
    intros (E1&N1&A1) (E2&N2&A2). split; [|split].
    - rewrite E2, E1. reflexivity.
    - congruence.
    - intros n a Ha. destruct (A1 n a Ha) as (a'&Ha'&X&Y&Z1).
      destruct (A2 n a' Ha') as (a''&Ha''&X'&Y'&Z'). exists a''. intuition congruence.
  Qed.

  Lemma frame_edge d d' : frame d d' -> d_edge d' = d_edge d.
  Proof. intros (E&_). now rewrite E. Qed.
  Lemma frame_adj d d' : frame d d' -> d_adj d' = d_adj d.
  Proof. intros (E&_). now rewrite E. Qed.
  Lemma frame_nodes d d' : frame d d' -> nodes d' = nodes d.
  Proof. intros (_&N&_). auto. Qed.
  Lemma frame_trails d d' : frame d d' -> d_trails d' = d_trails d.
  Proof. intros (E&_). now rewrite E. Qed.

  Lemma frame_wf d d' : frame d d' -> wf d -> wf d'.
  Proof. intros (E&N&_) W. rewrite E. apply wf_with_node; auto. Qed.

  Lemma frame_node_set n f d :
    (forall a, na_xyz (f a) = na_xyz a /\ na_load (f a) = na_load a /\ na_reac (f a) = na_reac a) ->
    frame d (fst (node_set n f d)).
  Proof.
    intros Hf. unfold node_set. destruct (dget (d_node d) n) as [a|] eqn:E; cbn; [|apply frame_refl].
    split; [reflexivity|]. split.
    - unfold nodes. cbn. apply dkeys_dset_in. eapply dget_In_keys; eauto.
    - intros m b Hb. cbn. rewrite dget_dset. cbn. destruct (Z.eqb_spec m n) as [->|Hn]; eauto.
      rewrite E in Hb. injection Hb as <-. exists (f a). split; auto.
  Qed.

  Lemma kof_node_set n f d m :
    kof (fst (node_set n f d)) m =
    match dget (d_node d) n with
    | Some a => if Z.eqb m n then na_k (f a) else kof d m
    | None => kof d m
    end.
  Proof.
    unfold node_set. destruct (dget (d_node d) n) as [a|] eqn:E; cbn; auto.
    unfold kof. cbn. rewrite dget_dset. cbn. now destruct (Z.eqb m n).
  Qed.

  Lemma tof_node_set n f d m :
    tof (fst (node_set n f d)) m =
    match dget (d_node d) n with
    | Some a => if Z.eqb m n then na_type (f a) else tof d m
    | None => tof d m
    end.
  Proof.
    unfold node_set. destruct (dget (d_node d) n) as [a|] eqn:E; cbn; auto.
    unfold tof. cbn. rewrite dget_dset. cbn. now destruct (Z.eqb m n).
  Qed.

  Lemma node_set_total n f d : In n (nodes d) -> snd (node_set n f d) = Ok tt.
  Proof.
    intros I. apply node_find in I as [a Ha]. unfold node_set. now rewrite Ha.
  Qed.

  Lemma In_dec_nodes d n : In n (nodes d) -> exists a, dget (d_node d) n = Some a.
  Proof. apply node_find. Qed.

  (** ** Sequences written along a list of nodes *)

  Lemma set_sequences_frame l : forall s d, frame d (fst (set_sequences s l d)).
  Proof.
    induction l as [|n l IH]; cbn; intros s d; [apply frame_refl|].
    unfold ebind.
    assert (F := frame_node_set n (fun a => set_k a s) d).
    destruct (node_set n (fun a => set_k a s) d) as [d' [u|e]]; cbn in *.
    - eapply frame_trans; [apply F; auto|]. apply IH.
    - apply F; auto.
  Qed.

  Lemma set_sequences_total l : forall s d, incl l (nodes d) -> snd (set_sequences s l d) = Ok tt.
  Proof.
    induction l as [|n l IH]; cbn; intros s d I; auto. unfold ebind.
    assert (F := frame_node_set n (fun a => set_k a s) d).
    assert (E := node_set_total n (fun a => set_k a s) d (I n (or_introl eq_refl))).
    destruct (node_set n (fun a => set_k a s) d) as [d' r]; cbn in *. subst r.
    apply IH. rewrite (frame_nodes d d'); [|apply F; auto]. intros x Hx. apply I. now right.
  Qed.

  Lemma set_sequences_tof l : forall s d m, tof (fst (set_sequences s l d)) m = tof d m.
  Proof.
    induction l as [|n l IH]; cbn; intros s d m; auto. unfold ebind.
    assert (K := tof_node_set n (fun a => set_k a s) d m).
    destruct (node_set n (fun a => set_k a s) d) as [d' [u|e]] eqn:E; cbn in *.
    - rewrite IH, K. destruct (dget (d_node d) n) as [a|] eqn:E'; auto.
      destruct (Z.eqb_spec m n) as [->|]; auto. unfold tof. now rewrite E'.
    - rewrite K. destruct (dget (d_node d) n) as [a|] eqn:E'; auto.
      destruct (Z.eqb_spec m n) as [->|]; auto. unfold tof. now rewrite E'.
  Qed.

  Lemma set_sequences_kof_out l : forall s d m, ~ In m l -> kof (fst (set_sequences s l d)) m = kof d m.
  Proof.
    induction l as [|n l IH]; cbn; intros s d m I; auto. unfold ebind.
    assert (K := kof_node_set n (fun a => set_k a s) d m).
    assert (Hmn : (m =? n) = false) by (apply Z.eqb_neq; intuition).
    rewrite Hmn in K.
    destruct (node_set n (fun a => set_k a s) d) as [d' [u|e]] eqn:E; cbn in *.
    - rewrite IH by tauto. rewrite K. now destruct (dget (d_node d) n).
    - rewrite K. now destruct (dget (d_node d) n).
  Qed.

  Lemma set_sequences_kof_in l : forall s d m, incl l (nodes d) -> In m l ->
    exists i, nth_error l i = Some m /\ kof (fst (set_sequences s l d)) m = Some (s + Z.of_nat i).
  Proof.
    induction l as [|n l IH]; intros s d m I Hm; [contradiction|]. cbn [set_sequences]. unfold ebind.
    assert (K := kof_node_set n (fun a => set_k a s) d m).
    assert (F := frame_node_set n (fun a => set_k a s) d).
    assert (Et := node_set_total n (fun a => set_k a s) d (I n (or_introl eq_refl))).
    destruct (In_dec_nodes d n (I n (or_introl eq_refl))) as [a Ha]. rewrite Ha in K.
    destruct (node_set n (fun a => set_k a s) d) as [d' r] eqn:E; cbn in Et, K, F. subst r. cbn [fst].
    assert (I' : incl l (nodes d')).
    { rewrite (frame_nodes d d'); [|apply F; auto]. intros x Hx. apply I. now right. }
    destruct (in_dec Z.eq_dec m l) as [Il|Il].
    - destruct (IH (s + 1) d' m I' Il) as [i [E1 E2]]. exists (S i). split; auto.
      rewrite E2. f_equal. lia.
    - destruct Hm as [->|]; [|contradiction]. exists 0%nat. split; auto.
      rewrite set_sequences_kof_out by auto. rewrite K, Z.eqb_refl. cbn. f_equal. lia.
  Qed.

  (** ** Trail adjacency *)

  (** [a] and [b] are joined by a trail edge, as the trail search sees it. *)
  Definition tjoin d (a b : Z) : bool :=
    match edge_find d (a, b) with
    | Some at' => opt_is etype_eqb (ea_type at') ETrail
    | None => match edge_find d (b, a) with
              | Some at' => opt_is etype_eqb (ea_type at') ETrail
              | None => false
              end
    end.

  Lemma is_trail_between_Ok d a l b :
    wf d -> dget (d_adj d) a = Some l -> In b l -> is_trail_between d a b = Ok (tjoin d a b).
  Proof.
    intros W E I. apply (wf_adj _ W a l b E) in I. rewrite !has_edge_find in I.
    unfold is_trail_between, is_trail_edge, edge_get, tjoin.
    destruct (edge_find d (a, b)) as [x|] eqn:E1; cbn; auto.
    destruct (edge_find d (b, a)) as [y|] eqn:E2; cbn; auto.
    destruct I as [[? X]|[? X]]; discriminate.
  Qed.

  Lemma tjoin_adj d a b l : wf d -> tjoin d a b = true -> dget (d_adj d) a = Some l -> In b l.
  Proof.
    intros W J E. apply (wf_adj _ W a l b E). rewrite !has_edge_find.
    unfold tjoin in J. destruct (edge_find d (a, b)) as [x|] eqn:E1; eauto.
    destruct (edge_find d (b, a)) as [y|] eqn:E2; eauto. discriminate.
  Qed.

  Lemma tjoin_nodes d a b : wf d -> tjoin d a b = true -> In a (nodes d) /\ In b (nodes d).
  Proof.
    intros W J. unfold tjoin in J. destruct (edge_find d (a, b)) as [x|] eqn:E1.
    - apply (wf_eends _ W) in E1. auto.
    - destruct (edge_find d (b, a)) as [y|] eqn:E2; [|discriminate].
      apply (wf_eends _ W) in E2. cbn in E2. tauto.
  Qed.

  Lemma tjoin_frame d d' a b : d_edge d' = d_edge d -> tjoin d' a b = tjoin d a b.
  Proof. intros E. unfold tjoin, edge_find. now rewrite E. Qed.

  (** pick_next returns the first candidate, in the given order *)
  Lemma pick_next_spec d vis n l :
    wf d -> dget (d_adj d) n = Some l ->
    forall nbrs, incl nbrs l ->
    pick_next d vis n nbrs
    = Ok (find (fun m => negb (memb m vis) && tjoin d n m) nbrs).
  Proof.
    intros W E. induction nbrs as [|m nbrs IH]; intros I; cbn; auto.
    destruct (memb m vis) eqn:M; cbn.
    - apply IH. intros x Hx. apply I. now right.
    - rewrite (is_trail_between_Ok d n l m W E (I m (or_introl eq_refl))). cbn.
      destruct (tjoin d n m); cbn; auto. apply IH. intros x Hx. apply I. now right.
  Qed.

  (** ** Walks *)

  Fixpoint chained (R : Z -> Z -> Prop) (l : list Z) : Prop :=
    match l with
    | [] => True
    | a :: l' => match l' with [] => True | b :: _ => R a b /\ chained R l' end
    end.

  Lemma chained_snoc R l a b : chained R (l ++ [a]) -> R a b -> chained R (l ++ [a; b]).
  Proof.
    intros Hc Hab. induction l as [|x l IH]; [cbn; auto|].
    destruct l as [|y l].
    - cbn in *. tauto.
    - destruct Hc as [X Y]. split; [exact X|]. apply IH. exact Y.
  Qed.

  Definition tj d a b : Prop := tjoin d a b = true.

  (** What the walk from a support returns (in the order walked). *)
  Record walked d (s : Z) (tr : list Z) (o : Z) : Prop := {
    wk_head : exists r, tr = s :: r;
    wk_last : exists r, tr = r ++ [o];
    wk_nodes : incl tr (nodes d);
    wk_chain : chained (tj d) tr;
    wk_end : (NoDup tr /\ forall m, tj d o m -> In m tr)
             \/ (exists l, tr = l ++ [o; o] /\ NoDup (l ++ [o]) /\ tj d o o)
  }.

  Lemma find_None_all {A} (f : A -> bool) l : find f l = None -> forall x, In x l -> f x = false.
  Proof. apply find_none. Qed.

  Lemma walk_inv d : wf d -> forall fuel tr n,
    (List.length (nodes d) < fuel + List.length tr)%nat ->
    NoDup (tr ++ [n]) -> incl (tr ++ [n]) (nodes d) -> chained (tj d) (tr ++ [n]) ->
    exists ext o, walk fuel d tr (rev tr) n = Ok (tr ++ n :: ext, rev (tr ++ n :: ext), o)
      /\ (exists r, tr ++ n :: ext = r ++ [o])
      /\ incl (tr ++ n :: ext) (nodes d)
      /\ chained (tj d) (tr ++ n :: ext)
      /\ ((NoDup (tr ++ n :: ext) /\ forall m, tj d o m -> In m (tr ++ n :: ext))
          \/ (exists l, tr ++ n :: ext = l ++ [o; o] /\ NoDup (l ++ [o]) /\ tj d o o)).
  Proof.
    intros W. induction fuel as [|fuel IH]; intros tr n Hfuel ND I C.
    - exfalso. assert (L := NoDup_incl_length ND I). rewrite app_length in L. cbn in *. lia.
    - cbn [walk].
      assert (In1 : In n (nodes d)) by (apply I, in_or_app; right; now left).
      destruct (wf_adj_dict d n W In1) as [l El].
      unfold neighbors, dgetr. rewrite El. cbn [bind].
      rewrite (pick_next_spec d (rev tr) n l W El (rev l)) by (intros x Hx; now apply in_rev).
      cbn [bind].
      destruct (find _ (rev l)) as [m|] eqn:Ef.
      + apply find_some in Ef as [Im Hm]. apply andb_true_iff in Hm as [Hm1 Hm2].
        apply negb_true_iff, memb_nIn in Hm1. rewrite <- in_rev in Hm1.
        destruct (Z.eqb_spec n m) as [->|Hne].
        * exists [m], m. rewrite <- app_assoc. cbn [app].
          split; [|split; [|split; [|split]]].
          -- do 2 f_equal. f_equal. rewrite rev_app_distr. reflexivity.
          -- exists (tr ++ [m]). now rewrite <- app_assoc.
          -- intros x Hx. apply I. apply in_app_iff in Hx. apply in_app_iff. cbn in *. tauto.
          -- apply chained_snoc; auto.
          -- right. exists tr. auto.
        * assert (Hni : ~ In m (tr ++ [n])) by (rewrite in_app_iff; cbn; intros [|[|[]]]; auto).
          destruct (IH (tr ++ [n]) m) as (ext&o&Hw&Hl&Hi&Hc&He).
          -- rewrite app_length. cbn. lia.
          -- apply Permutation_NoDup with (l := m :: tr ++ [n]);
               [apply Permutation_cons_append|now constructor].
          -- intros x Hx. apply in_app_iff in Hx as [Hx|[<-|[]]]; auto.
             apply tjoin_nodes in Hm2; tauto.
          -- rewrite <- app_assoc. cbn. apply chained_snoc; auto.
          -- rewrite rev_app_distr in Hw. cbn [rev app] in Hw.
             exists (m :: ext), o. rewrite <- !app_assoc in *. cbn [app] in *. auto.
      + exists [], n. split; [|split; [|split; [|split]]]; auto.
        * rewrite rev_app_distr. reflexivity.
        * exists tr. reflexivity.
        * left. split; auto. intros m Hm.
          destruct (in_dec Z.eq_dec m tr) as [|Hni]; [apply in_or_app; now left|].
          exfalso. assert (Im := tjoin_adj d n m l W Hm El). apply in_rev in Im.
          apply find_None_all with (x := m) in Ef; auto.
          rewrite Hm in Ef. apply andb_false_iff in Ef as [Ef|Ef]; [|discriminate].
          apply negb_false_iff, memb_In in Ef. apply in_rev in Ef. contradiction.
  Qed.

  Lemma walk_walked d s : wf d -> In s (nodes d) ->
    exists tr o, walk (walk_fuel d) d [] [] s = Ok (tr, rev tr, o) /\ walked d s tr o.
  Proof.
    intros W I. destruct (walk_inv d W (walk_fuel d) [] s) as (ext&o&Hw&Hl&Hi&Hc&He).
    - unfold walk_fuel, nodes, dkeys. rewrite map_length. cbn. lia.
    - cbn. constructor; [auto|constructor].
    - cbn. intros x [<-|[]]; auto.
    - cbn. auto.
    - cbn [app rev] in *. exists (s :: ext), o. split; auto. constructor; eauto.
  Qed.

  Lemma walk_with_node d x fuel : forall tr vis n,
    walk fuel (with_node d x) tr vis n = walk fuel d tr vis n.
  Proof.
    assert (P : forall vis n nbrs, pick_next (with_node d x) vis n nbrs = pick_next d vis n nbrs).
    { intros vis n. induction nbrs as [|m nbrs IH]; cbn; auto. destruct (memb m vis); auto.
      change (is_trail_between (with_node d x) n m) with (is_trail_between d n m).
      destruct (is_trail_between d n m) as [[]|]; cbn; auto. }
    induction fuel as [|fuel IH]; cbn; auto. intros tr vis n.
    change (neighbors (with_node d x) n) with (neighbors d n).
    destruct (neighbors d n) as [nb|]; cbn; auto. rewrite P.
    destruct (pick_next d vis n (rev nb)) as [[m|]|]; cbn; auto.
    destruct (Z.eqb n m); auto.
  Qed.

  Lemma walk_frame d d' s : frame d d' ->
    walk (walk_fuel d') d' [] [] s = walk (walk_fuel d) d [] [] s.
  Proof.
    intros (E&N&_). unfold walk_fuel.
    assert (L : List.length (d_node d') = List.length (d_node d)).
    { unfold nodes, dkeys in N. apply (f_equal (@List.length Z)) in N. now rewrite !map_length in N. }
    rewrite L. rewrite E at 1. apply walk_with_node.
  Qed.

  (** ** One step of the search *)

  Definition is_sup d n : bool := opt_is ntype_eqb (tof d n) TSupport.

  Lemma is_node_support_Ok d n : In n (nodes d) -> is_node_support d n = Ok (is_sup d n).
  Proof.
    intros I. apply node_find in I as [a Ha]. unfold is_node_support, node_get, dgetr, is_sup, tof.
    now rewrite Ha.
  Qed.

  Lemma build_body_skip acc s d : In s (nodes d) -> is_sup d s = false -> build_body acc s d = (d, Ok acc).
  Proof.
    intros I E. unfold build_body, ebind, eget. now rewrite (is_node_support_Ok d s I), E.
  Qed.

  Lemma build_body_run acc s d tr o :
    wf d -> In s (nodes d) -> is_sup d s = true ->
    walk (walk_fuel d) d [] [] s = Ok (tr, rev tr, o) -> incl tr (nodes d) -> In o tr ->
    exists d', build_body acc s d = (d', Ok (dset (fst acc) o (rev tr), rev tr ++ snd acc))
      /\ frame d d'
      /\ (forall n, tof d' n = if Z.eqb n o then Some TOrigin else tof d n)
      /\ (forall n, ~ In n tr -> kof d' n = kof d n)
      /\ (forall n, In n tr -> exists i, nth_error (rev tr) i = Some n /\ kof d' n = Some (Z.of_nat i)).
  Proof.
    intros W I E Hw Hi Ho. unfold build_body.
    assert (F1 := frame_node_set o (fun a => set_type a TOrigin) d).
    assert (T1 := node_set_total o (fun a => set_type a TOrigin) d (Hi o Ho)).
    assert (K1 := fun m => kof_node_set o (fun a => set_type a TOrigin) d m).
    assert (Y1 := fun m => tof_node_set o (fun a => set_type a TOrigin) d m).
    unfold ebind at 1, eget at 1. rewrite (is_node_support_Ok d s I), E. cbn [negb].
    unfold ebind at 1, eget. rewrite Hw.
    unfold ebind at 1.
    destruct (node_set o (fun a => set_type a TOrigin) d) as [d1 r1]. cbn [fst snd] in *. subst r1.
    assert (F1' : frame d d1) by (apply F1; auto).
    assert (Hi1 : incl (rev tr) (nodes d1)).
    { rewrite (frame_nodes d d1 F1'). intros x Hx. apply Hi. now apply in_rev. }
    assert (F2 := set_sequences_frame (rev tr) 0 d1).
    assert (T2 := set_sequences_total (rev tr) 0 d1 Hi1).
    assert (Y2 := set_sequences_tof (rev tr) 0 d1).
    assert (K2 := set_sequences_kof_out (rev tr) 0 d1).
    assert (K3 := fun m => set_sequences_kof_in (rev tr) 0 d1 m Hi1).
    unfold ebind.
    destruct (set_sequences 0 (rev tr) d1) as [d2 r2]. cbn [fst snd] in *. subst r2.
    exists d2. destruct (In_dec_nodes d o (Hi o Ho)) as [a Ha].
    split; [reflexivity|]. split; [eapply frame_trans; eauto|]. split; [|split].
    - intros n. rewrite Y2, Y1, Ha. now destruct (Z.eqb n o).
    - intros n Hn. rewrite K2, K1, Ha by (now rewrite <- in_rev).
      destruct (Z.eqb_spec n o) as [->|]; auto. unfold kof. now rewrite Ha.
    - intros n Hn. destruct (K3 n) as [i [X Y]]; [now rewrite <- in_rev|]. exists i. split; auto.
  Qed.

  Lemma walked_In_o d s tr o : walked d s tr o -> In o tr.
  Proof. intros Wk. destruct (wk_last _ _ _ _ Wk) as [r ->]. apply in_or_app. right. now left. Qed.
  Lemma walked_In_s d s tr o : walked d s tr o -> In s tr.
  Proof. intros Wk. destruct (wk_head _ _ _ _ Wk) as [r ->]. now left. Qed.

  (** The search never raises; the walked relation is that of the diagram. *)
  Lemma build_body_total acc s d : wf d -> In s (nodes d) ->
    exists d' acc', build_body acc s d = (d', Ok acc') /\ frame d d'
      /\ ((is_sup d s = false /\ acc' = acc /\ d' = d)
          \/ (is_sup d s = true /\ exists tr o, walked d s tr o
               /\ acc' = (dset (fst acc) o (rev tr), rev tr ++ snd acc)
               /\ (forall n, tof d' n = if Z.eqb n o then Some TOrigin else tof d n)
               /\ (forall n, ~ In n tr -> kof d' n = kof d n)
               /\ (forall n, In n tr -> exists i, nth_error (rev tr) i = Some n /\ kof d' n = Some (Z.of_nat i)))).
  Proof.
    intros W I. destruct (is_sup d s) eqn:E.
    - destruct (walk_walked d s W I) as (tr&o&Hw&Wk).
      destruct (build_body_run acc s d tr o W I E Hw (wk_nodes _ _ _ _ Wk) (walked_In_o _ _ _ _ Wk))
        as (d'&Hb&F&R). exists d', (dset (fst acc) o (rev tr), rev tr ++ snd acc).
      split; auto. split; auto. right. split; auto. exists tr, o. tauto.
    - exists d, acc. rewrite build_body_skip by auto. split; auto. split; [apply frame_refl|]. auto.
  Qed.

  Lemma walked_frame d d' s tr o : frame d d' -> walked d s tr o <-> walked d' s tr o.
  Proof.
    intros F.
    assert (J : forall a b, tj d' a b <-> tj d a b).
    { intros a b. unfold tj. rewrite (tjoin_frame d d') by (now apply frame_edge). tauto. }
    assert (Cc : forall l, chained (tj d') l <-> chained (tj d) l).
    { induction l as [|x [|y l] IH]; cbn in *; try tauto. rewrite J, IH. tauto. }
    split; intros [A B C D E]; constructor; auto.
    - now rewrite (frame_nodes d d').
    - now rewrite Cc.
    - destruct E as [[X Y]|(l&X&Y&Z1)]; [left|right].
      + split; auto. intros m Hm. apply Y. now apply J.
      + exists l. rewrite J. auto.
    - now rewrite <- (frame_nodes d d').
    - now rewrite <- Cc.
    - destruct E as [[X Y]|(l&X&Y&Z1)]; [left|right].
      + split; auto. intros m Hm. apply Y. now apply J.
      + exists l. rewrite <- J. auto.
  Qed.

  (** ** Invariant of the loop over supports *)

  Record search_inv (d0 : diagram T) (acc : dict Z (list Z) * list Z) d : Prop := {
    si_frame : frame d0 d;
    si_nodup : NoDup (dkeys (fst acc));
    si_trails : forall o p, dget (fst acc) o = Some p ->
        exists s, walked d0 s (rev p) o /\ is_sup d0 s = true;
    si_origin : forall o p, dget (fst acc) o = Some p -> tof d o = Some TOrigin;
    si_types : forall n, tof d n = tof d0 n
        \/ (tof d n = Some TOrigin /\ exists p, dget (fst acc) n = Some p);
    si_visited : forall n, In n (snd acc) ->
        exists s tr o, walked d0 s tr o /\ is_sup d0 s = true /\ In n tr;
    si_k_in : forall n, In n (snd acc) -> exists k, kof d n = Some k /\ 0 <= k;
    si_k_out : forall n, ~ In n (snd acc) -> kof d n = kof d0 n;
    si_sub : forall o p n, dget (fst acc) o = Some p -> In n p -> In n (snd acc)
  }.

  Lemma search_inv_init d : search_inv d ([], []) d.
  Proof.
    constructor; cbn; auto; try discriminate; try contradiction.
    - apply frame_refl.
    - constructor.
  Qed.

  Lemma search_inv_step d0 acc s d : wf d0 -> In s (nodes d0) -> search_inv d0 acc d ->
    exists d' acc', build_body acc s d = (d', Ok acc') /\ search_inv d0 acc' d'.
  Proof.
    intros W0 I [F ND Tr Or Ty Vi Ki Ko Su].
    assert (W : wf d) by (eapply frame_wf; eauto).
    assert (I' : In s (nodes d)) by (now rewrite (frame_nodes d0 d)).
    destruct (build_body_total acc s d W I') as (d'&acc'&Hb&F'&[(E&->&->)|(E&tr&o&Wk&->&T1&K1&K2)]).
    - exists d, acc. split; auto. constructor; auto.
    - exists d', (dset (fst acc) o (rev tr), rev tr ++ snd acc). split; auto.
      assert (E0 : is_sup d0 s = true).
      { destruct (Ty s) as [X|[X _]]; unfold is_sup in *; rewrite X in E; auto; discriminate. }
      apply (walked_frame d0 d s tr o F) in Wk.
      constructor; cbn [fst snd].
      + eapply frame_trans; eauto.
      + now apply NoDup_dset.
      + intros o' p. rewrite dget_dset. cbn. destruct (Z.eqb_spec o' o) as [->|n].
        * injection 1 as <-. exists s. rewrite rev_involutive. auto.
        * apply Tr.
      + intros o' p. rewrite dget_dset, T1. cbn. destruct (Z.eqb_spec o' o) as [->|n]; auto.
        apply Or.
      + intros n. rewrite T1. cbn. destruct (Z.eqb_spec n o) as [->|Hn].
        * right. split; auto. exists (rev tr). rewrite dget_dset_same. auto.
        * destruct (Ty n) as [|[X [p Hp]]]; auto. right. split; auto. exists p.
          rewrite dget_dset_other; auto.
      + intros n. rewrite in_app_iff. intros [Hn|Hn]; auto.
        exists s, tr, o. split; auto. split; auto. now apply in_rev.
      + intros n Hn. destruct (in_dec Z.eq_dec n tr) as [Ht|Ht].
        * destruct (K2 n Ht) as [i [_ X]]. exists (Z.of_nat i). split; auto. lia.
        * rewrite K1 by auto. apply Ki. apply in_app_iff in Hn as [Hn|Hn]; auto.
          apply in_rev in Hn. contradiction.
      + intros n Hn. rewrite in_app_iff in Hn. rewrite K1; [apply Ko; tauto|].
        intros Ht. apply Hn. left. now rewrite <- in_rev.
      + intros o' p n. rewrite dget_dset, in_app_iff. cbn. destruct (Z.eqb_spec o' o) as [->|Hn].
        * injection 1 as <-. auto.
        * intros X Y. right. eapply Su; eauto.
  Qed.

  Lemma search_inv_loop d0 : wf d0 -> forall l acc d, incl l (nodes d0) -> search_inv d0 acc d ->
    exists d' acc', eloop build_body l acc d = (d', Ok acc') /\ search_inv d0 acc' d'.
  Proof.
    intros W0. induction l as [|s l IH]; intros acc d I Hs; cbn.
    - exists d, acc. auto.
    - destruct (search_inv_step d0 acc s d W0 (I s (or_introl eq_refl)) Hs) as (d1&acc1&Hb&Hs1).
      unfold ebind. rewrite Hb. apply IH; auto. intros x Hx. apply I. now right.
  Qed.

  Definition unassigned d (vis : list Z) : list Z := filter (fun n => negb (memb n vis)) (nodes d).

  Lemma build_search_total ord d : wf d ->
    exists d' acc, build_search ord d = (d', Ok (fst acc, ord (unassigned d (snd acc))))
      /\ search_inv d acc d'
      /\ eloop build_body (nodes d) ([], []) d = (d', Ok acc).
  Proof.
    intros W. destruct (search_inv_loop d W (nodes d) ([], []) d) as (d'&acc&Hl&Hs).
    - apply incl_refl.
    - apply search_inv_init.
    - exists d', acc. split; auto. unfold build_search, ebind, eget. rewrite Hl.
      unfold eret, unassigned. now rewrite (frame_nodes d d' (si_frame _ _ _ Hs)).
  Qed.
End Facts.
