(** * What text labels say *)

From Coq Require Import String List ZArith Bool Lia Reals Lra Permutation.
From Verif Require Import Py PyFacts Num Diagram DiagramFacts Topology Optimizer SpecDiagram SpecTopology History HistoryFacts
  BuildFacts TypedFacts QueryThms Equilibrium EqThms SpecEquilibrium FormFacts RVec SpecStatics StaticsThms Artists SpecArtists ArtistThms
  Labels SpecLabels.
Import ListNotations.
Open Scope Z_scope.

Section Labels.
  Context {T : Type} `{NumOps T}.
  Implicit Types (d : diagram T).

  Lemma text_labels_spec {K} `{Eqb K} (f : formatter K) ks (P : K -> label T -> Prop) :
    (forall k, In k ks -> exists l, f k = Ok l /\ P k l) ->
    exists m, text_labels f ks = Ok m /\ labels_of m ks P.
  Proof.
    intros A. destruct (fold_keyed f ks []) as (m&E&I1&I2).
    { intros k I. destruct (A k I) as (l&El&_). eauto. }
    exists m. split; auto. split.
    - apply keyed_of; auto. intros k I. destruct (A k I) as (l&El&_). eauto.
    - intros k I. destruct (A k I) as (l&El&Pl). eauto.
  Qed.

  Lemma node_known d n : In n (nodes d) -> exists a, node_get d n = Ok a /\ node_coordinates d n = Ok (na_xyz a).
  Proof.
    intros I. destruct (node_find d n I) as [a Ea]. assert (Eg : node_get d n = Ok a) by (now apply dgetr_Ok).
    exists a. split; auto. unfold node_coordinates. now rewrite Eg.
  Qed.

  Lemma edge_known d e : produced d -> In e (edges d) -> exists a, edge_get d e = Ok a
    /\ edge_force d e = Ok (ea_force a) /\ edge_length_2 d e = Ok (ea_length a)
    /\ In (fst e) (nodes d) /\ In (snd e) (nodes d).
  Proof.
    intros Hr I. assert (W := produced_wf d Hr). assert (I' := I). apply In_edges, has_edge_find in I' as [a Ea]; auto.
    assert (Eg : edge_get d e = Ok a) by (unfold edge_get; now rewrite Ea). exists a.
    unfold edge_force, edge_length_2. rewrite Eg. cbn [bind]. repeat split; auto; apply (edge_ends d e Hr I).
  Qed.

  (** Formatters of nodes *)
  Lemma node_format d t : In t ["xyz"; "keyxyz"]%string -> exists f : formatter Z,
    (forall tbl, dget ([("xyz", gkey_format d); ("keyxyz", key_gkey_format d)]%string ++ tbl) t = Some f)
    /\ forall n, In n (nodes d) -> exists l, f n = Ok l /\ node_says d t n l.
  Proof.
    intros [<-|[<-|[]]]; eexists; (split; [intros tbl; reflexivity|]); intros n I; destruct (node_known d n I) as (a&_&Ep).
    - unfold gkey_format. rewrite Ep. eexists. split; [reflexivity|]. now constructor.
    - unfold key_gkey_format, gkey_format. rewrite Ep. eexists. split; [reflexivity|]. now constructor.
  Qed.

  Lemma node_type_says d n : produced d -> In n (nodes d) -> exists l, node_type_format d n = Ok l /\ node_says d "type" n l.
  Proof.
    intros Hr I. destruct (c67_nodes d Hr) as (_&_&_&_&K). destruct (K n I) as (a&Ea&S&O&_).
    unfold node_type_format. rewrite Ea. cbn [bind]. eexists. split; [reflexivity|].
    destruct (na_type a) as [[]|].
    - apply says_support, S, eq_refl.
    - apply says_origin, O, eq_refl.
    - apply says_no_type; [rewrite S|rewrite O]; discriminate.
  Qed.

  (** Formatters of edges *)
  Lemma state_says d e (is_trail : ekey -> res bool) : produced d -> In e (edges d) -> is_trail e = is_trail_edge d e ->
    exists s, state_format d is_trail e = Ok [Number s] /\ combinatorial_state d e s.
  Proof.
    intros Hr I Et. destruct (edge_known d e Hr I) as (a&Eg&Ef&El&_). unfold state_format. rewrite Et.
    destruct (c67_edges d Hr) as (_&_&Ty&_). destruct (Ty e I) as [(->&_&It)|(->&_&It)]; cbn [bind].
    - rewrite El. cbn [bind]. eexists. split; [reflexivity|]. now constructor.
    - rewrite Ef. cbn [bind]. eexists. split; [reflexivity|]. now constructor 2.
  Qed.

  Lemma edge_type_says d e : produced d -> In e (edges d) -> exists l, edge_type_format d e = Ok l /\ edge_says d "type" e l.
  Proof.
    intros Hr I. destruct (edge_known d e Hr I) as (a&Eg&_). unfold edge_type_format. rewrite Eg. cbn [bind].
    eexists. split; [reflexivity|]. destruct (c67_edges d Hr) as (_&_&Ty&_). unfold is_trail_edge, is_deviation_edge in Ty.
    destruct (Ty e I) as [(E&_&It)|(_&E&It)]; rewrite Eg in E; cbn [bind] in E; apply Ok_inj in E;
      destruct (ea_type a) as [[]|]; cbn in E; try discriminate; now constructor.
  Qed.

  Lemma edge_format c d t : produced d ->
    In t ["force"; "length"; "forcelength"; "type"]%string \/ c = IsTopology /\ In t ["state"; "forcelengthstate"]%string ->
    let force := force_format d in
    let length := length_format d in
    let state := state_format d (method_is_trail_edge c d) in
    exists f : formatter ekey,
      dget [("force", force); ("length", length); ("state", state);
            ("forcelength", force_length_format force length);
            ("forcelengthstate", force_length_state_format force length state);
            ("type", edge_type_format d)]%string t = Some f
      /\ forall e, In e (edges d) -> exists l, f e = Ok l /\ edge_says d t e l.
  Proof.
    intros Hr Ht force length state.
    assert (F : forall e, In e (edges d) -> exists a, force e = Ok [Number (nabs (ea_force a))]
      /\ length e = Ok [Number (nabs (ea_length a))] /\ edge_force d e = Ok (ea_force a) /\ edge_length_2 d e = Ok (ea_length a)).
    { intros e I. destruct (edge_known d e Hr I) as (a&Eg&Ef&El&_). exists a. unfold force, length, force_format, length_format.
      rewrite Ef, El. auto. }
    destruct Ht as [[<-|[<-|[<-|[<-|[]]]]]|(->&[<-|[<-|[]]])]; eexists; (split; [reflexivity|]); intros e I;
      destruct (F e I) as (a&Ef&El&Qf&Ql).
    - eexists. split; [exact Ef|]. now constructor.
    - eexists. split; [exact El|]. now constructor.
    - unfold force_length_format. rewrite Ef, El. eexists. split; [reflexivity|]. now constructor.
    - now apply edge_type_says.
    - destruct (state_says d e (method_is_trail_edge IsTopology d) Hr I eq_refl) as (s&Es&Cs). eexists. split; [exact Es|].
      now constructor.
    - destruct (state_says d e (method_is_trail_edge IsTopology d) Hr I eq_refl) as (s&Es&Cs). fold state in Es.
      unfold force_length_state_format. rewrite Ef, El, Es. eexists. split; [reflexivity|]. now constructor.
  Qed.

  (** What a label says is determined: there is one right label. *)
  Lemma c96_one : forall d t, produced d ->
    (forall n l l', node_says d t n l -> node_says d t n l' -> l = l')
    /\ (forall e l l', edge_says d t e l -> edge_says d t e l' -> l = l')
    /\ (forall e l l', form_edge_says d t e l -> form_edge_says d t e l' -> l = l').
  Proof.
    intros d t Hr. destruct (c67_nodes d Hr) as (_&_&Dj&_&_). destruct (c67_edges d Hr) as (P&ND&_).
    assert (N := Permutation_NoDup P ND).
    assert (Dj' : forall e, In e (trail_edges d) -> In e (deviation_edges d) -> False).
    { intros e I J. exact (ChainFacts.NoDup_app_disj _ _ e N I J). }
    assert (St : forall e s s', combinatorial_state d e s -> combinatorial_state d e s' -> s = s').
    { intros e s s' A B. destruct A; inversion B; subst; try (exfalso; eauto; fail); congruence. }
    split; [|split].
    - intros n l l' A B. destruct A; inversion B; subst; try congruence; try contradiction;
        exfalso; match goal with S : In _ (support_nodes _), O : In _ (origin_nodes _) |- _ => exact (proj2 (Dj _ S) O) end.
    - intros e l l' A B. destruct A; inversion B; subst; try congruence; try (exfalso; eauto; fail);
        repeat match goal with X : combinatorial_state _ _ ?s, Y : combinatorial_state _ _ ?s' |- _ =>
          first [constr_eq s s'; clear Y | assert (s = s') by (eapply St; eauto); subst] end; congruence.
    - intros e l l' A B. destruct A; inversion B; subst; congruence.
  Qed.

  (** The plotter of topologies labels all nodes and all edges with what is asked for. *)
  Lemma c96_topology : forall d, produced d ->
    (forall t, In t ["xyz"; "keyxyz"; "type"]%string ->
       exists m, topology_nodetext d (TextTag t) = Ok (Some m) /\ labels_of m (nodes d) (node_says d t))
    /\ (forall t, In t ["sequence"; "keysequence"]%string -> (forall n, In n (nodes d) -> exists k, node_sequence d n = Ok k) ->
       exists m, topology_nodetext d (TextTag t) = Ok (Some m) /\ labels_of m (nodes d) (node_says d t))
    /\ (forall t, In t ["force"; "length"; "state"; "forcelength"; "forcelengthstate"; "type"]%string ->
       exists m, topology_edgetext d (TextTag t) = Ok (Some m) /\ labels_of m (edges d) (edge_says d t)).
  Proof.
    intros d Hr. unfold topology_nodetext, topology_edgetext, plotter_labels. split; [|split].
    - intros t Ht. assert (X : exists f, dget [("xyz", gkey_format d); ("keyxyz", key_gkey_format d); ("type", node_type_format d);
                    ("sequence", sequence_format d); ("keysequence", key_sequence_format d)]%string t = Some f
        /\ forall n, In n (nodes d) -> exists l, f n = Ok l /\ node_says d t n l).
      { assert (Ht' : In t ["xyz"; "keyxyz"]%string \/ t = "type"%string) by (cbn in Ht |- *; intuition).
        destruct Ht' as [Ht'|Et].
        - destruct (node_format d t Ht') as (f&Ef&Sf). exists f. split; auto.
          exact (Ef [("type", node_type_format d); ("sequence", sequence_format d); ("keysequence", key_sequence_format d)]%string).
        - subst t. eexists. split; [reflexivity|]. intros n I. now apply node_type_says. }
      destruct X as (f&->&Sf). destruct (text_labels_spec f (nodes d) _ Sf) as (m&->&L). exists m. auto.
    - intros t Ht Sq. assert (X : exists f, dget [("xyz", gkey_format d); ("keyxyz", key_gkey_format d); ("type", node_type_format d);
                    ("sequence", sequence_format d); ("keysequence", key_sequence_format d)]%string t = Some f
        /\ forall n, In n (nodes d) -> exists l, f n = Ok l /\ node_says d t n l).
      { destruct Ht as [<-|[<-|[]]]; eexists; (split; [reflexivity|]); intros n I; destruct (Sq n I) as [k Ek].
        - unfold sequence_format. rewrite Ek. eexists. split; [reflexivity|]. now constructor.
        - unfold key_sequence_format, sequence_format. rewrite Ek. eexists. split; [reflexivity|]. now constructor. }
      destruct X as (f&->&Sf). destruct (text_labels_spec f (nodes d) _ Sf) as (m&->&L). exists m. auto.
    - intros t Ht. destruct (edge_format IsTopology d t Hr) as (f&Ef&Sf).
      { cbn in Ht |- *. intuition. }
      cbn [method_is_trail_edge] in Ef. cbn zeta in Ef |- *. change (method_is_trail_edge IsTopology d) with (is_trail_edge d) in Ef. rewrite Ef.
      destruct (text_labels_spec f (edges d) _ Sf) as (m&->&L). exists m. auto.
  Qed.

  (** The plotter of forms: coordinates, forces with their sign, and distances between the ends *)
  Lemma c96_form : forall d, produced d ->
    (forall t, In t ["xyz"; "keyxyz"]%string ->
       exists m, form_nodetext d (TextTag t) = Ok (Some m) /\ labels_of m (nodes d) (node_says d t))
    /\ (forall t, In t ["force"; "length"; "forcelength"]%string ->
       exists m, form_edgetext d (TextTag t) = Ok (Some m) /\ labels_of m (edges d) (form_edge_says d t)).
  Proof.
    intros d Hr. unfold form_nodetext, form_edgetext, plotter_labels. split.
    - intros t Ht. destruct (node_format d t Ht) as (f&Ef&Sf). specialize (Ef []). cbn [app] in Ef. rewrite Ef.
      destruct (text_labels_spec f (nodes d) _ Sf) as (m&->&L). exists m. auto.
    - intros t Ht. cbn zeta.
      assert (X : exists f, dget [("force", form_force_format d); ("length", form_length_format d);
          ("forcelength", force_length_format (form_force_format d) (form_length_format d))]%string t = Some f
        /\ forall e, In e (edges d) -> exists l, f e = Ok l /\ form_edge_says d t e l).
      { destruct Ht as [<-|[<-|[<-|[]]]]; eexists; (split; [reflexivity|]); intros [u v] I;
          destruct (edge_known d (u, v) Hr I) as (a&Eg&Ef&_&Iu&Iv); cbn [fst snd] in Iu, Iv;
          destruct (node_known d u Iu) as (au&_&Eu); destruct (node_known d v Iv) as (av&_&Ev).
        - unfold form_force_format. rewrite Ef. eexists. split; [reflexivity|]. now constructor.
        - unfold form_length_format. cbn [fst snd]. rewrite Eu, Ev. eexists. split; [reflexivity|]. now constructor.
        - unfold force_length_format, form_force_format, form_length_format. cbn [fst snd]. rewrite Ef, Eu, Ev.
          eexists. split; [reflexivity|]. now constructor. }
      destruct X as (f&->&Sf). destruct (text_labels_spec f (edges d) _ Sf) as (m&->&L). exists m. auto.
  Qed.

  (** With nothing given or any other tag, also "key", the plotters leave the texts to the library, which
      takes the keys. *)
  Lemma c96_left : forall d t,
    topology_nodetext d TextNone = Ok None /\ topology_edgetext d TextNone = Ok None
    /\ form_nodetext d TextNone = Ok None /\ form_edgetext d TextNone = Ok None
    /\ (~ In t ["xyz"; "keyxyz"; "type"; "sequence"; "keysequence"]%string -> topology_nodetext d (TextTag t) = Ok None)
    /\ (~ In t ["force"; "length"; "state"; "forcelength"; "forcelengthstate"; "type"]%string -> topology_edgetext d (TextTag t) = Ok None)
    /\ (~ In t ["xyz"; "keyxyz"]%string -> form_nodetext d (TextTag t) = Ok None)
    /\ (~ In t ["force"; "length"; "forcelength"]%string -> form_edgetext d (TextTag t) = Ok None).
  Proof.
    assert (X : forall K (EK : Eqb K) (tbl : dict string (formatter K)) (ks : list K) t, ~ In t (map fst tbl) ->
      plotter_labels tbl ks (@TextTag T K t) = Ok None).
    { intros K EK tbl ks t N. unfold plotter_labels. now rewrite (proj2 (dget_None tbl t)). }
    intros d t. repeat split; intros N; apply X; exact N.
  Qed.

  (** ** Viewer *)

  Lemma texts_get {K} `{Eqb K} (f : K -> label T) ks : forall k, In k ks -> dget (texts f ks) k = Some (f k).
  Proof.
    unfold texts. enough (G : forall m k, dget (fold_left (fun m k => dset m k (f k)) ks m) k
      = if memb k ks then Some (f k) else dget m k).
    { intros k I. rewrite G. apply memb_In in I. now rewrite I. }
    induction ks as [|a ks IH]; intros m k; cbn [fold_left]; auto.
    rewrite IH, dget_dset. unfold memb. cbn [existsb]. fold (memb k ks). destruct (memb k ks) eqn:E; [now rewrite orb_true_r|].
    rewrite orb_false_r. destruct (eqb k a) eqn:Q; auto. apply (proj1 (eqb_eq k a)) in Q. now subst.
  Qed.

  Lemma draw_nodes_ok d ns (m : dict Z (label T)) : (forall n, In n ns -> In n (nodes d)) ->
    exists out, map_res (fun n => let* p := node_coordinates d n in Ok (dget m n, p)) ns = Ok out
      /\ texts_at_nodes d ns out (fun n o => o = dget m n).
  Proof.
    induction ns as [|n ns IH]; intros Sub; cbn [map_res].
    - exists []. split; [reflexivity|constructor].
    - destruct (node_known d n (Sub n (or_introl eq_refl))) as (a&_&Ep). rewrite Ep. cbn [bind].
      destruct IH as (out&Eo&F); [intros; apply Sub; now right|]. rewrite Eo. cbn [bind].
      eexists. split; [reflexivity|]. constructor; auto.
  Qed.

  Lemma draw_edges_ok d es (m : dict ekey (label T)) : produced d -> (forall e, In e es -> In e (edges d)) ->
    exists out, map_res (fun e : ekey => let* p := edge_midpoint d e in
        Ok (match dget m e with Some l => inl l | None => inr (fst e) end, p)) es = Ok out
      /\ texts_at_edges d es out (fun e o => o = match dget m e with Some l => inl l | None => inr (fst e) end).
  Proof.
    intros Hr. induction es as [|e es IH]; intros Sub; cbn [map_res].
    - exists []. split; [reflexivity|constructor].
    - destruct (edge_known d e Hr (Sub e (or_introl eq_refl))) as (a&_&_&_&Iu&Iv).
      destruct (node_known d _ Iu) as (au&_&Eu); destruct (node_known d _ Iv) as (av&_&Ev).
      unfold edge_midpoint at 1. rewrite Eu, Ev. cbn [bind].
      destruct IH as (out&Eo&F); [intros; apply Sub; now right|]. rewrite Eo. cbn [bind].
      eexists. split; [reflexivity|]. constructor; auto. cbn [fst snd]. split; auto. exists (na_xyz au), (na_xyz av). auto.
  Qed.

  Lemma Forall2_in {A B} (P Q : A -> B -> Prop) (l : list A) : forall l' : list B,
    (forall a b, In a l -> P a b -> Q a b) -> Forall2 P l l' -> Forall2 Q l l'.
  Proof.
    intros l' I F. induction F; constructor.
    - apply I; auto. now left.
    - apply IHF. intros a b J. apply I. now right.
  Qed.

  Lemma get_labels {K} `{Eqb K} (m keys : dict K (label T)) ks P k : labels_of m ks P -> In k ks ->
    exists l, dget (get_text keys (Some m)) k = Some l /\ P k l.
  Proof.
    intros [_ L] I. destruct (L k I) as (l&E&Pl). exists l. split; auto.
    destruct m as [|x m]; [discriminate|exact E].
  Qed.

  (** The viewer draws the texts asked for next to the nodes and the edges that it shows; for edges of forms there is no state. *)
  Lemma c96_viewer_partial : forall d ns es, produced d ->
    (forall n, In n ns -> In n (nodes d)) -> (forall e, In e es -> In e (edges d)) ->
    (forall t, In t ["key"; "xyz"; "keyxyz"]%string -> exists out, viewer_nodetext d ns (TextTag t) = Ok out
       /\ texts_at_nodes d ns out (fun n o => exists l, o = Some l /\ node_says d t n l))
    /\ (forall c t, In t ["key"; "force"; "length"; "forcelength"; "type"]%string
         \/ c = IsTopology /\ In t ["state"; "forcelengthstate"]%string -> exists out, viewer_edgetext c d es (TextTag t) = Ok out
       /\ texts_at_edges d es out (fun e o => exists l, o = inl l /\ edge_says d t e l)).
  Proof.
    intros d ns es Hr Sn Se. split.
    - intros t Ht. unfold viewer_nodetext.
      assert (X : exists cur, set_text (node_keys d) (viewer_node_textlabel d ns) None (TextTag t) = Ok cur
        /\ forall n, In n ns -> exists l, dget (get_text (node_keys d) cur) n = Some l /\ node_says d t n l).
      { destruct Ht as [<-|Ht].
        - eexists. split; [reflexivity|]. intros n I. exists [Key n]. split; [|constructor].
          assert (G := texts_get (fun n => [@Key T n]) (nodes d) n (Sn n I)).
          fold (node_keys d) in G. unfold get_text. now destruct (node_keys d).
        - destruct (node_format d t Ht) as (f&Ef&Sf). cbn [set_text].
          assert (Q : String.eqb t "key" = false) by (destruct Ht as [<-|[<-|[]]]; reflexivity). rewrite Q.
          unfold viewer_node_textlabel, plotter_labels. specialize (Ef [("type"%string, viewer_node_type_format)]). cbn [app] in Ef. rewrite Ef.
          destruct (text_labels_spec f ns (node_says d t)) as (m&Em&L); [intros n I; apply Sf; auto|]. rewrite Em. cbn [bind].
          eexists. split; [reflexivity|]. intros n I. now apply (get_labels m _ ns). }
      destruct X as (cur&->&G). cbn [bind]. destruct (draw_nodes_ok d ns (get_text (node_keys d) cur) Sn) as (out&Eo&F).
      exists out. split; auto. unfold texts_at_nodes in *. eapply Forall2_in; [|exact F]. cbn beta. intros n [o p] I [-> Ep].
      split; auto.
    - intros c t Ht. unfold viewer_edgetext.
      assert (X : exists cur, set_text (edge_keys d) (viewer_edge_textlabel c d es) None (TextTag t) = Ok cur
        /\ forall e, In e es -> exists l, dget (get_text (edge_keys d) cur) e = Some l /\ edge_says d t e l).
      { assert (Ht' : t = "key"%string \/ t <> "key"%string /\ (In t ["force"; "length"; "forcelength"; "type"]%string
           \/ c = IsTopology /\ In t ["state"; "forcelengthstate"]%string)).
        { destruct Ht as [[<-|Ht]|(Ec&Ht)]; [now left|right|right]; (split; [|tauto]); intros ->; cbn in Ht;
            decompose [or] Ht; try discriminate; contradiction. }
        clear Ht. destruct Ht' as [->|(Nk&Ht)].
        - eexists. split; [reflexivity|]. intros [u v] I. exists [Key u; Word "-"%string; Key v]. split; [|constructor].
          assert (G := texts_get (fun e : ekey => [@Key T (fst e); Word "-"%string; Key (snd e)]) (edges d) (u, v) (Se _ I)).
          fold (edge_keys d) in G. unfold get_text. now destruct (edge_keys d).
        - destruct (edge_format c d t Hr Ht) as (f&Ef&Sf). cbn [set_text].
          apply String.eqb_neq in Nk. rewrite Nk.
          unfold viewer_edge_textlabel, plotter_labels. cbn zeta in Ef |- *. rewrite Ef.
          destruct (text_labels_spec f es (edge_says d t)) as (m&Em&L); [intros n I; apply Sf; auto|]. rewrite Em. cbn [bind].
          eexists. split; [reflexivity|]. intros e I. now apply (get_labels m _ es). }
      destruct X as (cur&->&G). cbn [bind]. destruct (draw_edges_ok d es (get_text (edge_keys d) cur) Hr Se) as (out&Eo&F).
      exists out. split; auto. unfold texts_at_edges in *. eapply Forall2_in; [|exact F]. cbn beta. intros e [o p] I [-> Ep].
      split; auto. destruct (G e I) as (l&El&Sl). cbn [fst]. rewrite El. eauto.
  Qed.

  (** The viewer draws the texts of a dictionary that is given, if it has any, and the keys if nothing or another tag is given.
      An edge that the dictionary does not have gets the number of its first node. *)
  Lemma c96_given : forall c d ns es, produced d ->
    (forall n, In n ns -> In n (nodes d)) -> (forall e, In e es -> In e (edges d)) ->
    (forall m, m <> [] -> exists out, viewer_nodetext d ns (TextDict m) = Ok out
       /\ texts_at_nodes d ns out (fun n o => o = dget m n))
    /\ (forall m, m <> [] -> exists out, viewer_edgetext c d es (TextDict m) = Ok out
       /\ texts_at_edges d es out (fun e o => o = match dget m e with Some l => inl l | None => inr (fst e) end))
    /\ (forall t, t = TextNone \/ t = TextDict [] \/ (exists s, t = TextTag s /\ ~ In s ["xyz"; "keyxyz"; "type"]%string) ->
        viewer_nodetext d ns t = viewer_nodetext d ns (TextTag "key"))
    /\ (forall t, t = TextNone \/ t = TextDict []
          \/ (exists s, t = TextTag s /\ ~ In s ["force"; "length"; "state"; "forcelength"; "forcelengthstate"; "type"]%string) ->
        viewer_edgetext c d es t = viewer_edgetext c d es (TextTag "key")).
  Proof.
    assert (X : forall K (EK : Eqb K) (tbl : dict string (formatter K)) (ks : list K) t, ~ In t (map fst tbl) ->
      plotter_labels tbl ks (@TextTag T K t) = Ok None).
    { intros K EK tbl ks t N. unfold plotter_labels. now rewrite (proj2 (dget_None tbl t)). }
    intros c d ns es Hr Sn Se. split; [|split; [|split]].
    - intros m Nm. unfold viewer_nodetext. cbn [set_text bind].
      destruct m as [|x m]; [congruence|]. cbn [get_text]. now apply draw_nodes_ok.
    - intros m Nm. unfold viewer_edgetext. cbn [set_text bind].
      destruct m as [|x m]; [congruence|]. cbn [get_text]. now apply draw_edges_ok.
    - intros t Ht. unfold viewer_nodetext.
      assert (G : exists cur, set_text (node_keys d) (viewer_node_textlabel d ns) None t = Ok cur
        /\ get_text (node_keys d) cur = node_keys d).
      { destruct Ht as [->|[->|(s&->&N)]]; cbn [set_text]; [eauto|eauto|].
        destruct (String.eqb s "key"); [eexists; split; [reflexivity|]; now destruct (node_keys d)|].
        unfold viewer_node_textlabel. rewrite X by exact N. eauto. }
      destruct G as (cur&->&G). cbn [set_text bind]. rewrite G. cbn. now destruct (node_keys d).
    - intros t Ht. unfold viewer_edgetext.
      assert (G : exists cur, set_text (edge_keys d) (viewer_edge_textlabel c d es) None t = Ok cur
        /\ get_text (edge_keys d) cur = edge_keys d).
      { destruct Ht as [->|[->|(s&->&N)]]; cbn [set_text]; [eauto|eauto|].
        destruct (String.eqb s "key"); [eexists; split; [reflexivity|]; now destruct (edge_keys d)|].
        unfold viewer_edge_textlabel. rewrite X by exact N. eauto. }
      destruct G as (cur&->&G). cbn [set_text bind]. rewrite G. cbn. now destruct (edge_keys d).
  Qed.

  (** Asking the viewer for the types of nodes, or for the state of the edges of a form, ends with an exception, and so does giving a
      dictionary to a plotter. *)
  Lemma c96_refuted : forall d,
    (forall ns, ns <> [] -> viewer_nodetext d ns (TextTag "type") = Err AttributeError)
    /\ (produced d -> forall e es t, In t ["state"; "forcelengthstate"]%string -> In e (edges d) ->
          viewer_edgetext IsForm d (e :: es) (TextTag t) = Err AttributeError)
    /\ (forall m, topology_nodetext d (TextDict m) = Err TypeError /\ form_nodetext d (TextDict m) = Err TypeError)
    /\ (forall m, topology_edgetext d (TextDict m) = Err TypeError /\ form_edgetext d (TextDict m) = Err TypeError).
  Proof.
    intros d. split; [|split; [|split]].
    - intros [|n ns] N; [congruence|]. reflexivity.
    - intros Hr e es t Ht I. destruct (edge_known d e Hr I) as (a&Eg&Ef&El&_).
      destruct Ht as [<-|[<-|[]]]; [reflexivity|].
      unfold viewer_edgetext. cbn [set_text]. change (String.eqb "forcelengthstate" "key") with false. cbn iota.
      unfold viewer_edge_textlabel, plotter_labels. cbn zeta.
      match goal with |- context [dget ?tbl ?s] => let x := eval cbv in (map fst tbl) in
        change (dget tbl s) with (Some (force_length_state_format (force_format d) (length_format d) (state_format d (method_is_trail_edge IsForm d)))) end.
      cbn iota. unfold text_labels. cbn [fold_res].
      assert (E : force_length_state_format (force_format d) (length_format d) (state_format d (method_is_trail_edge IsForm d)) e = Err AttributeError).
      { unfold force_length_state_format, force_format, length_format. rewrite Ef, El. reflexivity. }
      rewrite E. reflexivity.
    - intros m. split; reflexivity.
    - intros m. split; reflexivity.
  Qed.
End Labels.

(** The numbers that viewer and plotter show for an edge of a form that was found: the same length, and the same force but for its sign *)
Lemma c96_agree : forall (d : diagram R) kmax tmax eta verbose form e f l, reachable d ->
  static_equilibrium d kmax tmax eta verbose = Ok form -> In e (edges form) ->
  form_edge_says form "force" e [Number f] -> form_edge_says form "length" e [Number l] ->
  edge_says form "force" e [Number (Rabs f)] /\ edge_says form "length" e [Number l].
Proof.
  intros d kmax tmax eta verbose form e f l Hr E I Hf Hl.
  destruct (c40_signed_lengths d kmax tmax eta verbose form e Hr E I) as (x&Ex&Ax&_).
  split; [inversion Hf; subst; now constructor|].
  assert (S : Rabs x = l).
  { rewrite Ax. inversion Hl as [|u v a b Ea Eb|]; subst. unfold span, position. cbn [fst snd]. now rewrite Ea, Eb. }
  rewrite <- S. exact (says_length form e x Ex).
Qed.
