(** * Properties of text labels (C96)

    Generated by tools/gen_props.py from the lemmas of LabelThms.v.  The vocabulary is in
    SpecLabels.v. *)

From Coq Require Import String List ZArith Bool Floats Reals.
From Verif Require Import Py PyFacts Num Diagram DiagramFacts Topology Equilibrium History HistoryFacts Fixtures SpecDiagram SpecTopology SpecEquilibrium
  RVec SpecStatics SpecArtists Labels SpecLabels LabelThms Witness WitnessEq.
Import ListNotations.
Open Scope Z_scope.

Section Generic.
  Context {T : Type} `{NumOps T}.
  Implicit Types (d : diagram T).

  (** What a label says is determined: there is one right label. *)
  Theorem C96_one : forall d t, produced d ->
    (forall n l l', node_says d t n l -> node_says d t n l' -> l = l')
    /\ (forall e l l', edge_says d t e l -> edge_says d t e l' -> l = l')
    /\ (forall e l l', form_edge_says d t e l -> form_edge_says d t e l' -> l = l').
  Proof. exact c96_one. Qed.
  (** The plotter of topologies labels all nodes and all edges with what is asked for. *)
  Theorem C96_topology : forall d, produced d ->
    (forall t, In t ["xyz"; "keyxyz"; "type"]%string ->
       exists m, topology_nodetext d (TextTag t) = Ok (Some m) /\ labels_of m (nodes d) (node_says d t))
    /\ (forall t, In t ["sequence"; "keysequence"]%string -> (forall n, In n (nodes d) -> exists k, node_sequence d n = Ok k) ->
       exists m, topology_nodetext d (TextTag t) = Ok (Some m) /\ labels_of m (nodes d) (node_says d t))
    /\ (forall t, In t ["force"; "length"; "state"; "forcelength"; "forcelengthstate"; "type"]%string ->
       exists m, topology_edgetext d (TextTag t) = Ok (Some m) /\ labels_of m (edges d) (edge_says d t)).
  Proof. exact c96_topology. Qed.
  (** The plotter of forms: coordinates, forces with their sign, and distances between the ends *)
  Theorem C96_form : forall d, produced d ->
    (forall t, In t ["xyz"; "keyxyz"]%string ->
       exists m, form_nodetext d (TextTag t) = Ok (Some m) /\ labels_of m (nodes d) (node_says d t))
    /\ (forall t, In t ["force"; "length"; "forcelength"]%string ->
       exists m, form_edgetext d (TextTag t) = Ok (Some m) /\ labels_of m (edges d) (form_edge_says d t)).
  Proof. exact c96_form. Qed.
  (** With nothing given or any other tag, also "key", the plotters leave the texts to the library, which
      takes the keys. *)
  Theorem C96_left : forall d t,
    topology_nodetext d TextNone = Ok None /\ topology_edgetext d TextNone = Ok None
    /\ form_nodetext d TextNone = Ok None /\ form_edgetext d TextNone = Ok None
    /\ (~ In t ["xyz"; "keyxyz"; "type"; "sequence"; "keysequence"]%string -> topology_nodetext d (TextTag t) = Ok None)
    /\ (~ In t ["force"; "length"; "state"; "forcelength"; "forcelengthstate"; "type"]%string -> topology_edgetext d (TextTag t) = Ok None)
    /\ (~ In t ["xyz"; "keyxyz"]%string -> form_nodetext d (TextTag t) = Ok None)
    /\ (~ In t ["force"; "length"; "forcelength"]%string -> form_edgetext d (TextTag t) = Ok None).
  Proof. exact c96_left. Qed.
  (** The viewer draws the texts asked for next to the nodes and the edges that it shows; for edges of forms there is no state. *)
  Theorem C96_viewer_partial : forall d ns es, produced d ->
    (forall n, In n ns -> In n (nodes d)) -> (forall e, In e es -> In e (edges d)) ->
    (forall t, In t ["key"; "xyz"; "keyxyz"]%string -> exists out, viewer_nodetext d ns (TextTag t) = Ok out
       /\ texts_at_nodes d ns out (fun n o => exists l, o = Some l /\ node_says d t n l))
    /\ (forall c t, In t ["key"; "force"; "length"; "forcelength"; "type"]%string
         \/ c = IsTopology /\ In t ["state"; "forcelengthstate"]%string -> exists out, viewer_edgetext c d es (TextTag t) = Ok out
       /\ texts_at_edges d es out (fun e o => exists l, o = inl l /\ edge_says d t e l)).
  Proof. exact c96_viewer_partial. Qed.
  (** The viewer draws the texts of a dictionary that is given, if it has any, and the keys if nothing or another tag is given.
      An edge that the dictionary does not have gets the number of its first node. *)
  Theorem C96_given : forall c d ns es, produced d ->
    (forall n, In n ns -> In n (nodes d)) -> (forall e, In e es -> In e (edges d)) ->
    (forall m, m <> [] -> exists out, viewer_nodetext d ns (TextDict m) = Ok out
       /\ texts_at_nodes d ns out (fun n o => o = dget m n))
    /\ (forall m, m <> [] -> exists out, viewer_edgetext c d es (TextDict m) = Ok out
       /\ texts_at_edges d es out (fun e o => o = match dget m e with Some l => inl l | None => inr (fst e) end))
    /\ (forall t, t = TextNone \/ t = TextDict [] \/ (exists s, t = TextTag s /\ ~ In s ["xyz"; "keyxyz"; "type"]%string) ->
        viewer_nodetext d ns t = viewer_nodetext d ns (TextTag "key"))
    /\ (forall t, t = TextNone \/ t = TextDict []
          \/ (exists s, t = TextTag s /\ ~ In s ["force"; "length"; "state"; "forcelength"; "forcelengthstate"; "type"]%string) ->
        viewer_edgetext c d es t = viewer_edgetext c d es (TextTag "key")).
  Proof. exact c96_given. Qed.
  (** Asking the viewer for the types of nodes, or for the state of the edges of a form, ends with an exception, and so does giving a
      dictionary to a plotter. *)
  Theorem C96_refuted : forall d,
    (forall ns, ns <> [] -> viewer_nodetext d ns (TextTag "type") = Err AttributeError)
    /\ (produced d -> forall e es t, In t ["state"; "forcelengthstate"]%string -> In e (edges d) ->
          viewer_edgetext IsForm d (e :: es) (TextTag t) = Err AttributeError)
    /\ (forall m, topology_nodetext d (TextDict m) = Err TypeError /\ form_nodetext d (TextDict m) = Err TypeError)
    /\ (forall m, topology_edgetext d (TextDict m) = Err TypeError /\ form_edgetext d (TextDict m) = Err TypeError).
  Proof. exact c96_refuted. Qed.
End Generic.

(** The numbers that viewer and plotter show for an edge of a form that was found: the same length, and the same force but for its sign *)
Theorem C96_agree : forall (d : diagram R) kmax tmax eta verbose form e f l, reachable d ->
  static_equilibrium d kmax tmax eta verbose = Ok form -> In e (edges form) ->
  form_edge_says form "force" e [Number f] -> form_edge_says form "length" e [Number l] ->
  edge_says form "force" e [Number (Rabs f)] /\ edge_says form "length" e [Number l].
Proof. exact c96_agree. Qed.
Print Assumptions C96_one.
Print Assumptions C96_topology.
Print Assumptions C96_form.
Print Assumptions C96_left.
Print Assumptions C96_viewer_partial.
Print Assumptions C96_given.
Print Assumptions C96_refuted.
Print Assumptions C96_agree.

(** ** The hypotheses can be met *)

(** Labels of the tower: its sequences, states and types *)
Example C96_nonvacuous : produced tower_built
  /\ (forall n, In n (nodes tower_built) -> exists k, node_sequence tower_built n = Ok k)
  /\ topology_nodetext tower_built (TextTag "keysequence")
     = Ok (Some (map (fun nk => (fst nk, [Key (fst nk); Word newline; Key (snd nk)])) [(0, 2); (1, 1); (2, 0); (3, 2); (4, 1); (5, 0)]))
  /\ (exists out, viewer_edgetext IsTopology tower_built [(0, 1); (1, 4)] (TextTag "state") = Ok out
      /\ map fst out = [inl [Number (-1)%float]; inl [Number (-1)%float]])
  /\ (exists out, viewer_edgetext IsForm tower_built [(1, 4)] (TextTag "force") = Ok out /\ map fst out = [inl [Number 1%float]])
  /\ In (1, 4) (edges tower_built).
Proof.
  split; [left; apply tower_built_reachable|].
  split; [intros n I; vm_compute in I; repeat (destruct I as [<-|I]; [eexists; vm_compute; reflexivity|]); contradiction|].
  split; [vm_compute; reflexivity|].
  split; [eexists; split; vm_compute; reflexivity|].
  split; [eexists; split; vm_compute; reflexivity|]. vm_compute. tauto.
Qed.

(** A form that was found, and the labels of one of its edges *)
Example C96_agree_nonvacuous : exists form f l, static_equilibrium rchain None 100 (/ 1000000)%R false = Ok form
  /\ In (0, 1) (edges form) /\ form_edge_says form "force" (0, 1) [Number f] /\ form_edge_says form "length" (0, 1) [Number l].
Proof.
  destruct rchain_forms as (form&E). exists form.
  assert (P : produced form) by (right; do 5 eexists; split; [apply rchain_reachable|exact E]).
  assert (I : In (0, 1) (edges form)).
  { destruct (EqThms.c37_frame _ _ _ _ _ _ rchain_reachable E) as (_&Ef&_). rewrite Ef. lazy. left. reflexivity. }
  destruct (edge_known form (0, 1) P I) as (a&_&Ef&_&Iu&Iv). cbn [fst snd] in Iu, Iv.
  destruct (node_known form 0 Iu) as (au&_&Eu). destruct (node_known form 1 Iv) as (av&_&Ev).
  exists (ea_force a). eexists. split; [exact E|]. split; [exact I|]. split; [exact (form_says_force form (0, 1) _ Ef)|].
  exact (form_says_length form 0 1 _ _ Eu Ev).
Qed.
