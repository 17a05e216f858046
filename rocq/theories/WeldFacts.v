(** * Assembling diagrams from lines (C06) and rounding over the reals (C04) *)

From Coq Require Import String List ZArith Bool Lia Permutation Reals Lra.
From Verif Require Import Py PyFacts Num Diagram DiagramFacts Topology SpecDiagram SpecTopology
  TopologyFacts BuildFacts History HistoryFacts DiagramThms.
Import ListNotations.
Open Scope Z_scope.

Section Weld.
  Context {T : Type} `{NumOps T}.
  Implicit Types (d : diagram T).

  (** The line [l] runs between the ends of the edge [e]. *)
  Definition runs d (l : line) (e : ekey) : Prop :=
    node_key d (RXyz (fst (fst l))) = Some (fst e) /\ node_key d (RXyz (snd (fst l))) = Some (snd e).

  (** The points and edges added so far. *)
  Record welded (n : nat) (pts : list (vec T)) (ls : list line) d : Prop := {
    we_wf : wf d;
    we_tol : d_tol d = n;
    we_nodes : dvalues (d_gkey d) = nodes d;
    we_pts : forall g, In g (dkeys (d_gkey d)) <-> In g (map (gkey d) pts);
    we_at : forall k, In k (nodes d) -> exists p, In p pts /\ node_get d k = Ok (fresh_node p)
              /\ node_key d (RXyz p) = Some k;
    we_edges : forall e, In e (edges d) <-> exists l, In l ls
                 /\ node_key d (RXyz (fst (fst l))) = Some (fst e)
                 /\ node_key d (RXyz (snd (fst l))) = Some (snd e);
    we_data : forall pre l post e, ls = pre ++ l :: post -> runs d l e -> (forall l', In l' post -> ~ runs d l' e) ->
                carries d e (snd l)
  }.

  Lemma carries_ext d d' e el : edge_get d' e = edge_get d e -> carries d e el -> carries d' e el.
  Proof.
    intros E. unfold carries, is_trail_edge, is_deviation_edge, edge_length_2, edge_plane, edge_force. rewrite E. auto.
  Qed.

  Lemma carries_merge d e el a : edge_get d e = Ok (edge_merge el a) -> carries d e el.
  Proof.
    intros E. unfold carries, is_trail_edge, is_deviation_edge, edge_length_2, edge_plane, edge_force. rewrite E.
    destruct el; cbn; auto.
  Qed.

  Lemma gkey_tol d d' p : d_tol d' = d_tol d -> gkey d' p = gkey d p.
  Proof. unfold gkey. now intros ->. Qed.

  Lemma welded_resolve n pts ls d p : welded n pts ls d ->
    (forall l, In l ls -> In (fst (fst l)) pts /\ In (snd (fst l)) pts) ->
    exists d' k, resolve_end (RXyz p) d = (d', Ok k) /\ welded n (pts ++ [p]) ls d'
      /\ node_key d' (RXyz p) = Some k /\ In k (nodes d')
      /\ (forall q, In q pts -> node_key d' (RXyz q) = node_key d (RXyz q)).
  Proof.
    intros [W Ht Hn Hp Ha He Hd] Hl.
    destruct (node_key d (RXyz p)) as [k|] eqn:E.
    - exists d, k. rewrite (resolve_end_old d _ k E). split; auto.
      assert (Ig : In (gkey d p) (dkeys (d_gkey d))) by (eapply dget_In_keys; exact E).
      split; [|split; [auto|split; [now apply (wf_gkey _ W (gkey d p))|auto]]].
      constructor; auto.
      + intros g. rewrite Hp, map_app, in_app_iff. cbn. split; auto.
        intros [I|[<-|[]]]; auto. now apply Hp.
      + intros m I. destruct (Ha m I) as (q&Q1&Q2&Q3). exists q. split; auto. apply in_or_app. auto.
    - destruct (add_node_new d None p (d_max d + 1) W eq_refl (auto_fresh d W))
        as (d'&Ea&N&G&O&Ed&_&St&Gk&_).
      exists d', (d_max d + 1). rewrite (resolve_end_new d p E). split; auto.
      assert (Et : d_tol d' = d_tol d) by apply St.
      assert (Gp : forall q, gkey d' q = gkey d q) by (intros; now apply gkey_tol).
      assert (Kp : node_key d' (RXyz p) = Some (d_max d + 1)) by now apply (node_key_set d d' p).
      assert (Ng : ~ In (gkey d p) (dkeys (d_gkey d))) by (apply dget_None; exact E).
      assert (Old : forall q, In q pts -> node_key d' (RXyz q) = node_key d (RXyz q)).
      { intros q I. cbn. rewrite Gp, Gk. apply dget_dset_other. intros Eq. apply Ng.
        rewrite <- Eq. apply Hp. now apply in_map. }
      split; [|split; [auto|split; [rewrite N; apply in_or_app; right; now left|auto]]].
      constructor.
      + assert (X := wf_add_node None p d W). now rewrite Ea in X.
      + congruence.
      + rewrite Gk, N, <- Hn, dset_new by auto. unfold dvalues. now rewrite map_app.
      + intros g. rewrite Gk, dset_new by auto. unfold dkeys. rewrite !map_app, !in_app_iff. cbn.
        fold (dkeys (d_gkey d)). rewrite Hp, Gp.
        assert (Em : map (gkey d') pts = map (gkey d) pts) by (apply map_ext; auto).
        rewrite Em. reflexivity.
      + intros m I. rewrite N, in_app_iff in I. destruct I as [I|[<-|[]]].
        * destruct (Ha m I) as (q&Q1&Q2&Q3). exists q.
          split; [apply in_or_app; auto|]. split; [|now rewrite Old].
          rewrite <- Q2. apply node_get_ext, O. intros ->. now apply (auto_fresh d W).
        * exists p. split; [apply in_or_app; right; now left|]. auto.
      + intros e. destruct Ed as [-> _]. rewrite He. split.
        * intros (l&I&A&B). exists l. destruct (Hl l I) as [L1 L2].
          rewrite (Old _ L1), (Old _ L2). auto.
        * intros (l&I&A&B). exists l. destruct (Hl l I) as [L1 L2].
          rewrite (Old _ L1) in A. rewrite (Old _ L2) in B. auto.
      + intros pre l post e Es Rn Nl. assert (Rd : forall l', In l' ls -> runs d' l' e <-> runs d l' e).
        { intros l' I. unfold runs. destruct (Hl l' I) as [L1 L2]. now rewrite (Old _ L1), (Old _ L2). }
        apply (carries_ext d); [apply Ed|]. apply (Hd pre l post e Es).
        * apply Rd; [rewrite Es; apply in_or_app; right; now left|exact Rn].
        * intros l' I Rn'. apply (Nl l' I), Rd; [rewrite Es; apply in_or_app; right; now right|exact Rn'].
  Qed.

  Lemma welded_step n ls0 d l : welded n (flat_map line_ends ls0) ls0 d ->
    welded n (flat_map line_ends (ls0 ++ [l])) (ls0 ++ [l]) (fst (call (line_op l) d)).
  Proof.
    intros We.
    assert (Hl : forall pts, incl (flat_map line_ends ls0) pts -> forall l', In l' ls0 ->
      In (fst (fst l')) pts /\ In (snd (fst l')) pts).
    { intros pts I l' I'. split; apply I, in_flat_map; exists l'; split; auto; cbn; auto. }
    destruct l as [[a b] el].
    destruct (welded_resolve n _ ls0 d a We) as (d1&u&R1&We1&K1&I1&O1).
    { apply Hl. intros x; auto. }
    destruct (welded_resolve n _ ls0 d1 b We1) as (d2&v&R2&We2&K2&I2&O2).
    { apply Hl. intros x; rewrite in_app_iff; auto. }
    assert (Iu : In u (nodes d2)).
    { destruct We2 as [W2 _ _ _ _ _ _]. apply (wf_gkey _ W2 (gkey d2 a)).
      rewrite <- O2 in K1; [exact K1|]. apply in_or_app. right. now left. }
    destruct We2 as [W2 T2 N2 P2 A2 E2 D2].
    destruct (graph_add_edge_Ok d2 u v el Iu I2 W2) as (d3&Hg&X1&X2&X3&X4&X5&X6&X7&X8&X9&W3).
    assert (Ec : fst (call (line_op (a, b, el)) d) = d3).
    { cbn. unfold ignore, ebind, add_edge, ebind. cbn in *. now rewrite R1, R2, Hg. }
    rewrite Ec.
    assert (Ef : forall l : line, flat_map line_ends (ls0 ++ [l])
      = (flat_map line_ends ls0 ++ [fst (fst l)]) ++ [snd (fst l)]).
    { intros l. rewrite flat_map_app. cbn. now rewrite <- app_assoc. }
    rewrite Ef. cbn [fst snd].
    assert (Gp : forall q, gkey d3 q = gkey d2 q) by (intros; now apply gkey_tol).
    assert (Kq : forall q, node_key d3 (RXyz q) = node_key d2 (RXyz q)) by (intros q; cbn; now rewrite Gp, X3).
    constructor; auto.
    - congruence.
    - unfold nodes. now rewrite X3, X1.
    - intros g. rewrite X3, P2. assert (Em : map (gkey d3) ((flat_map line_ends ls0 ++ [a]) ++ [b])
        = map (gkey d2) ((flat_map line_ends ls0 ++ [a]) ++ [b])) by (apply map_ext; auto).
      rewrite Em. reflexivity.
    - intros k I. unfold nodes in I. rewrite X1 in I. destruct (A2 k I) as (p&Q1&Q2&Q3).
      exists p. split; auto. rewrite Kq. split; auto. rewrite <- Q2. apply node_get_ext. now rewrite X1.
    - intros e. rewrite In_edges, has_edge_find by auto. rewrite X9.
      assert (Ka : node_key d2 (RXyz a) = Some u).
      { rewrite O2; auto. apply in_or_app. right. now left. }
      destruct (@eqb_spec ekey _ e (u, v)) as [->|Hne].
      + split; [intros _|intros _; eauto]. exists (a, b, el).
        split; [apply in_or_app; right; now left|]. cbn [fst snd]. rewrite !Kq. auto.
      + rewrite <- has_edge_find, <- In_edges, E2 by auto. split.
        * intros (l&I&Q1&Q2). exists l. rewrite !Kq. split; [apply in_or_app; auto|auto].
        * intros (l&I&Q1&Q2). rewrite !Kq in *. apply in_app_iff in I as [I|[<-|[]]]; [eauto|].
          exfalso. apply Hne. cbn [fst snd] in *. destruct e. cbn in *. congruence.
    - assert (Ka : node_key d2 (RXyz a) = Some u).
      { rewrite O2; auto. apply in_or_app. right. now left. }
      assert (Rq : forall l' e, runs d3 l' e <-> runs d2 l' e) by (intros l' e; unfold runs; now rewrite !Kq).
      assert (Ru : forall e, runs d2 (a, b, el) e <-> e = (u, v)).
      { intros [x y]. unfold runs. cbn [fst snd]. rewrite Ka, K2. split; [intros [A B]; congruence|intros A; split; congruence]. }
      intros pre l post e Es Rn Nl. apply Rq in Rn. destruct post as [|l1 post] using rev_ind; [|clear IHpost].
      + apply app_inj_tail in Es as [_ <-]. apply Ru in Rn. subst e. apply (carries_merge _ _ _ (edge_old d2 (u, v))).
        unfold edge_get. now rewrite X9, eqb_refl.
      + rewrite app_comm_cons, app_assoc in Es. apply app_inj_tail in Es as [Es <-].
        assert (Ne : e <> (u, v)).
        { intros Eu. apply (Nl (a, b, el)); [apply in_or_app; right; now left|]. now apply Rq, Ru. }
        apply (carries_ext d2); [unfold edge_get; rewrite X9; destruct (@eqb_spec ekey _ e (u, v)); [contradiction|reflexivity]|].
        apply (D2 pre l post e Es Rn). intros l' I Rn'. apply (Nl l'); [apply in_or_app; now left|now apply Rq].
  Qed.

  Lemma welded_assemble n ls : welded n (flat_map line_ends ls) ls (assemble n ls).
  Proof.
    induction ls as [|l ls IH] using rev_ind.
    - constructor; try reflexivity.
      + apply (wf_run [OpSetTol n]); [repeat constructor|apply wf_empty].
      + intros k [].
      + intros e. split; [intros []|]. intros (l&[]&_).
      + intros [|x pre] l post e E; discriminate E.
    - assert (E : assemble n (ls ++ [l]) = fst (call (line_op l) (assemble n ls))).
      { unfold assemble. rewrite map_app. cbn [map]. rewrite app_comm_cons, run_app. reflexivity. }
      rewrite E. now apply welded_step.
  Qed.

  Lemma gvalues_inj d g g' k : NoDup (dvalues (d_gkey d)) ->
    dget (d_gkey d) g = Some k -> dget (d_gkey d) g' = Some k -> g = g'.
  Proof.
    intros N E E'. apply dget_In in E, E'. revert N E E'. generalize (d_gkey d) as l.
    induction l as [|[g0 k0] l IH]; cbn; [tauto|]. intros N [E|E] [E'|E'].
    - congruence.
    - inversion N; subst. exfalso. apply H2. injection E as -> ->.
      apply in_map_iff. exists (g', k). auto.
    - inversion N; subst. exfalso. apply H2. injection E' as -> ->.
      apply in_map_iff. exists (g, k). auto.
    - inversion N; subst. auto.
  Qed.

  (** A diagram assembled from lines has exactly one node per distinct rounded end. *)
  Lemma c06_welding : forall (n : nat) (ls : list line),
    let d := assemble n ls in
    let pts := flat_map line_ends ls in
    (forall p, In p pts -> exists k, node_key d (RXyz p) = Some k /\ In k (nodes d))
    /\ (forall p q, In p pts -> In q pts ->
          (node_key d (RXyz p) = node_key d (RXyz q) <-> rounded n p = rounded n q))
    /\ List.length (nodes d) = List.length (distinct rounded_dec (map (rounded n) pts))
    /\ (forall k, In k (nodes d) -> exists p, In p pts /\ node_get d k = Ok (fresh_node p)
          /\ node_key d (RXyz p) = Some k)
    /\ (forall u v, In (u, v) (edges d) <-> exists a b el, In (a, b, el) ls
          /\ node_key d (RXyz a) = Some u /\ node_key d (RXyz b) = Some v).
  Proof.
    intros n ls d pts. destruct (welded_assemble n ls) as [W Ht Hn Hp Ha He _].
    fold d in W, Ht, Hn, Hp, Ha, He. fold pts in Hp, Ha.
    assert (K : forall p, In p pts -> exists k, node_key d (RXyz p) = Some k /\ In k (nodes d)).
    { intros p I. assert (Ig : In (gkey d p) (dkeys (d_gkey d))) by (apply Hp; now apply in_map).
      apply In_keys_dget in Ig as [k Ek]. exists k. split; [exact Ek|]. now apply (wf_gkey _ W (gkey d p)). }
    split; auto. split; [|split; [|split; auto]].
    - intros p q Ip Iq. rewrite <- Ht, gkey_rounded. split.
      + intros E. destruct (K p Ip) as (k&Ek&_).
        assert (Nv : NoDup (dvalues (d_gkey d))) by (rewrite Hn; apply W).
        assert (Ek' : node_key d (RXyz q) = Some k) by congruence.
        exact (gvalues_inj d _ _ k Nv Ek Ek').
      + intros E. unfold node_key. now rewrite E.
    - rewrite <- Hn. unfold dvalues. rewrite map_length.
      rewrite <- (map_length fst). fold (dkeys (d_gkey d)).
      rewrite <- (map_length (fun x : gcoord * gcoord * gcoord => (d_tol d, (fst (fst x), (snd (fst x), snd x))))).
      apply Permutation_length, NoDup_Permutation; [apply W| |].
      + apply FinFun.Injective_map_NoDup; [|apply NoDup_nodup].
        intros [[a b] c] [[a' b'] c'] E. cbn in E. congruence.
      + intros g. rewrite Hp, !in_map_iff. unfold distinct. rewrite <- Ht. split.
        * intros (p&<-&I). exists (rounded (d_tol d) p). split; auto. apply nodup_In. now apply in_map.
        * intros (x&<-&I). apply nodup_In, in_map_iff in I as (p&<-&I). exists p. auto.
    - intros u v. rewrite He. split.
      + intros ([[a b] el]&I&A&B). exists a, b, el. auto.
      + intros (a&b&el&I&A&B). exists (a, b, el). auto.
  Qed.

  (** The edge of a line is of the kind of the last line given between the same rounded ends, in the same direction, and
      has its length and plane, or its force. *)
  Lemma c06_data : forall (n : nat) (pre post : list line) a b el,
    let d := assemble n (pre ++ (a, b, el) :: post) in
    (forall a' b' el', In (a', b', el') post -> ~ (rounded n a' = rounded n a /\ rounded n b' = rounded n b)) ->
    exists u v, node_key d (RXyz a) = Some u /\ node_key d (RXyz b) = Some v /\ In (u, v) (edges d) /\ carries d (u, v) el.
  Proof.
    intros n pre post a b el d Nl. set (ls := pre ++ (a, b, el) :: post) in *.
    assert (Il : In (a, b, el) ls) by (apply in_or_app; right; now left).
    destruct (c06_welding n ls) as (K&Q&_&_&E). fold d in K, Q, E.
    assert (Ends : forall l, In l ls -> In (fst (fst l)) (flat_map line_ends ls) /\ In (snd (fst l)) (flat_map line_ends ls)).
    { intros l I. split; apply in_flat_map; exists l; split; auto; cbn; auto. }
    destruct (Ends _ Il) as [Ia Ib]. cbn [fst snd] in Ia, Ib.
    destruct (K a Ia) as (u&Ku&_). destruct (K b Ib) as (v&Kv&_). exists u, v. split; [exact Ku|]. split; [exact Kv|].
    split; [apply E; exists a, b, el; auto|].
    apply (we_data _ _ _ _ (welded_assemble n ls) pre (a, b, el) post); [reflexivity|split; assumption|].
    intros [[a' b'] el'] I [A B]. fold d in A, B. cbn [fst snd] in A, B.
    assert (I' : In (a', b', el') ls) by (apply in_or_app; right; now right). destruct (Ends _ I') as [Ia' Ib']. cbn [fst snd] in Ia', Ib'.
    apply (Nl a' b' el' I). split; apply Q; congruence.
  Qed.
End Weld.

(** ** Rounding of real coordinates *)

Section Rounding.
  Open Scope R_scope.

  Lemma Rround_close r : Rabs (IZR (Rround_half_even r) - r) <= / 2.
  Proof.
    unfold Rround_half_even. destruct (base_Int_part r) as [B1 B2].
    set (f := Int_part r) in *.
    destruct (Rlt_dec (r - IZR f) (/ 2)) as [L|L].
    - rewrite Rabs_left1; lra.
    - destruct (Rlt_dec (/ 2) (r - IZR f)) as [L'|L'].
      + rewrite plus_IZR. rewrite Rabs_right; lra.
      + assert (r - IZR f = / 2) by lra. destruct (Z.even f).
        * rewrite Rabs_left1; lra.
        * rewrite plus_IZR, Rabs_right; lra.
  Qed.

  (** The number that is looked up for a coordinate is the nearest multiple of the last decimal, and the even one of two that are equally near. *)
  Lemma c04_rounding : forall p (x : R), exists k, nround p x = GFin k
    /\ Rabs (IZR k - x * 10 ^ p) <= / 2 /\ (Rabs (IZR k - x * 10 ^ p) = / 2 -> Z.even k = true).
  Proof.
    intros p x. cbn [nround R_ops]. eexists. split; [reflexivity|]. split; [apply Rround_close|].
    set (r := x * 10 ^ p). unfold Rround_half_even. destruct (base_Int_part r) as [B1 B2]. set (f := Int_part r) in *.
    destruct (Rlt_dec (r - IZR f) (/ 2)) as [L|L].
    - intros E. exfalso. rewrite Rabs_left1 in E; lra.
    - destruct (Rlt_dec (/ 2) (r - IZR f)) as [L'|L'].
      + intros E. exfalso. rewrite plus_IZR, Rabs_right in E; lra.
      + intros _. destruct (Z.even f) eqn:Ev; [exact Ev|]. rewrite Z.even_add, Ev. reflexivity.
  Qed.

  Lemma nround_close p x y : nround (T:=R) p x = nround p y -> Rabs (x - y) <= / pow 10 p.
  Proof.
    cbn. intros E. injection E as E. assert (P : 0 < pow 10 p) by (apply pow_lt; lra).
    assert (A := Rround_close (x * 10 ^ p)). assert (B := Rround_close (y * 10 ^ p)). rewrite E in A.
    apply Rmult_le_reg_r with (pow 10 p); auto. rewrite Rinv_l by lra.
    rewrite <- (Rabs_right (10 ^ p)) at 1 by lra. rewrite <- Rabs_mult.
    unfold Rabs in *. repeat destruct Rcase_abs; lra.
  Qed.

  (** Over the reals: the node found was registered within one unit of the last
      rounded decimal of the queried point, in every coordinate. *)
  Lemma c04_lookup_distance : forall (ops : list (op R)) p k, Forall valid_op ops ->
    node_key (run empty_diagram ops) (RXyz p) = Some k ->
    exists ops1 ops2 p', ops = (ops1 ++ ops2)%list
      /\ node_coordinates (run empty_diagram ops1) k = Ok p'
      /\ Rabs (vx p' - vx p) <= / pow 10 (d_tol (run empty_diagram ops))
      /\ Rabs (vy p' - vy p) <= / pow 10 (d_tol (run empty_diagram ops))
      /\ Rabs (vz p' - vz p) <= / pow 10 (d_tol (run empty_diagram ops)).
  Proof.
    intros ops p k V E. destruct (c04_lookup ops p k V E) as (_&ops1&ops2&p'&->&A&B).
    exists ops1, ops2, p'. split; auto. split; auto. unfold rounded in B. injection B as Bx By Bz.
    repeat split; apply nround_close; cbn; congruence.
  Qed.
End Rounding.
