(** * Properties of text labels (C96)

    Generated by tools/gen_props.py from the lemmas of LabelThms.v.  The vocabulary is in
    SpecLabels.v. *)

From Coq Require Import String List ZArith Bool Floats Reals.
From Verif Require Import Py PyFacts Num Diagram DiagramFacts Topology Equilibrium History HistoryFacts Fixtures SpecDiagram SpecTopology SpecEquilibrium
  RVec SpecStatics SpecArtists Labels SpecLabels LabelThms Witness WitnessEq.
Import ListNotations.
Open Scope Z_scope.

Section Generic.
  Context {T : Type} `{NumOps T}.
  Implicit Types (d : diagram T).

  @thm c96_one
  @thm c96_topology
  @thm c96_form
  @thm c96_left
  @thm c96_viewer_partial
  @thm c96_given
  @thm c96_refuted
End Generic.

@thm c96_agree
@assume

(** ** The hypotheses can be met *)

(** Labels of the tower: its sequences, states and types *)
Example C96_nonvacuous : produced tower_built
  /\ (forall n, In n (nodes tower_built) -> exists k, node_sequence tower_built n = Ok k)
  /\ topology_nodetext tower_built (TextTag "keysequence")
     = Ok (Some (map (fun nk => (fst nk, [Key (fst nk); Word newline; Key (snd nk)])) [(0, 2); (1, 1); (2, 0); (3, 2); (4, 1); (5, 0)]))
  /\ (exists out, viewer_edgetext IsTopology tower_built [(0, 1); (1, 4)] (TextTag "state") = Ok out
      /\ map fst out = [inl [Number (-1)%float]; inl [Number (-1)%float]])
  /\ (exists out, viewer_edgetext IsForm tower_built [(1, 4)] (TextTag "force") = Ok out /\ map fst out = [inl [Number 1%float]])
  /\ In (1, 4) (edges tower_built).
Proof.
  split; [left; apply tower_built_reachable|].
  split; [intros n I; vm_compute in I; repeat (destruct I as [<-|I]; [eexists; vm_compute; reflexivity|]); contradiction|].
  split; [vm_compute; reflexivity|].
  split; [eexists; split; vm_compute; reflexivity|].
  split; [eexists; split; vm_compute; reflexivity|]. vm_compute. tauto.
Qed.

(** A form that was found, and the labels of one of its edges *)
Example C96_agree_nonvacuous : exists form f l, static_equilibrium rchain None 100 (/ 1000000)%R false = Ok form
  /\ In (0, 1) (edges form) /\ form_edge_says form "force" (0, 1) [Number f] /\ form_edge_says form "length" (0, 1) [Number l].
Proof.
  destruct rchain_forms as (form&E). exists form.
  assert (P : produced form) by (right; do 5 eexists; split; [apply rchain_reachable|exact E]).
  assert (I : In (0, 1) (edges form)).
  { destruct (EqThms.c37_frame _ _ _ _ _ _ rchain_reachable E) as (_&Ef&_). rewrite Ef. lazy. left. reflexivity. }
  destruct (edge_known form (0, 1) P I) as (a&_&Ef&_&Iu&Iv). cbn [fst snd] in Iu, Iv.
  destruct (node_known form 0 Iu) as (au&_&Eu). destruct (node_known form 1 Iv) as (av&_&Ev).
  exists (ea_force a). eexists. split; [exact E|]. split; [exact I|]. split; [exact (form_says_force form (0, 1) _ Ef)|].
  exact (form_says_length form 0 1 _ _ Eu Ev).
Qed.
