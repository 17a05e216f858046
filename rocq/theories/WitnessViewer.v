(** * Concrete instances for viewer objects *)

From Coq Require Import String List ZArith Bool Lia Permutation Floats Reals Lra.
From Verif Require Import Py PyFacts Num Diagram DiagramFacts Topology Equilibrium History HistoryFacts Fixtures
  SpecDiagram SpecTopology SpecEquilibrium FormFacts RVec EqThms SpecStatics StaticsFacts StaticsThms
  Artists SpecArtists ArtistThms Labels LabelThms ViewerObject SpecViewer ViewerThms Witness WitnessEq WitnessDraw.
Import ListNotations.
Open Scope Z_scope.

(** The defaults of the class: 10, 0.015, 1, 1e-3, 1, 1e-3 (viewers/diagramobject.py:107-114) *)
Definition standard : defaults float := mkDefaults 10%float 0x1.eb851eb851eb8p-7%float 1%float 0x1.0624dd2f1a9fcp-10%float 1%float 0x1.0624dd2f1a9fcp-10%float.

(** A strut with a small load *)
Definition slight : diagram float :=
  made [node zf 0 0 0 0; node zf 1 0 2 0; trail_e zf 0 1 (-1); sup 0; OpAddLoad (RKey 1) (V3 0%float (-0x1p-11)%float 0%float)].
Lemma slight_reachable : reachable slight.
Proof. made_reachable. Qed.

(** The same nodes and edges in another place *)
Definition slight_moved : diagram float :=
  made [node zf 0 5 0 0; node zf 1 5 2 0; trail_e zf 0 1 (-1); sup 0; OpAddLoad (RKey 1) (V3 0%float (-0x1p-11)%float 0%float)].
Lemma slight_moved_reachable : reachable slight_moved.
Proof. made_reachable. Qed.

(** A tolerance of zero is replaced by the default: a load that is not below zero is not drawn. *)
Lemma c99_refuted : exists (d : diagram float) o dr o', reachable d /\ new_object IsTopology standard d no_options = (o, Ok dr)
  /\ o' = used IsTopology standard o [ULoadTol (Some 0%float)]
  /\ shows standard LoadTol o' 0x1.0624dd2f1a9fcp-10%float /\ snd (draw_loads standard o') = Ok []
  /\ exists l, viewer_loads d (nodes d) 1%float 0%float = Ok l /\ map fst l = [0; 1].
Proof.
  exists slight. do 3 eexists. split; [apply slight_reachable|]. split; [vm_compute; reflexivity|]. split; [reflexivity|].
  split; [vm_compute; reflexivity|]. split; [vm_compute; reflexivity|]. eexists. split; vm_compute; reflexivity.
Qed.

(** When edges have been drawn, a selection that leaves one of them out cannot be drawn, and
    a selection with more edges is drawn without these. *)
Lemma c101_edges_refuted : exists (d : diagram float) o dr e, reachable d
  /\ new_object IsTopology standard d no_options = (o, Ok dr) /\ In e (edges d)
  /\ snd (draw_edges IsTopology standard (used IsTopology standard o [UEdges (Some [e])])) = Err KeyError
  /\ exists o1 dr1 out, new_object IsTopology standard d
        (mkOptions None (Some [e]) None WNone None None None None false true true true) = (o1, Ok dr1)
     /\ snd (draw_edges IsTopology standard (used IsTopology standard o1 [UEdges None; UWidth (WNumber 1%float)])) = Ok out
     /\ length (flat_map snd out) = 1%nat /\ length (edges d) <> 1%nat.
Proof.
  exists tower_built. do 2 eexists. exists (0, 1). split; [apply tower_built_reachable|]. split; [vm_compute; reflexivity|].
  split; [vm_compute; tauto|]. split; [vm_compute; reflexivity|].
  do 3 eexists. split; [vm_compute; reflexivity|]. split; [vm_compute; reflexivity|]. split; [reflexivity|]. vm_compute. discriminate.
Qed.

(** When nodes have been drawn, they are drawn in the same places after another diagram has
    been assigned, while the edges are drawn in their new places. *)
Lemma c101_refuted : exists (d d' : diagram float) o dr o' cyl ps cs els, reachable d /\ reachable d'
  /\ new_object IsTopology standard d no_options = (o, Ok dr)
  /\ o' = used IsTopology standard o [UDrawNodes; UDiagram d']
  /\ snd (draw_nodes IsTopology o') = Ok (ps, cs, els) /\ node_coordinates d 0 = Ok (nth 0 ps vzero)
  /\ nth 0 ps vzero = V3 0%float 0%float 0%float /\ node_coordinates d' 0 = Ok (V3 5%float 0%float 0%float)
  /\ snd (draw_edges IsTopology standard o') = Ok [(purple, [cyl])] /\ cy_center cyl = V3 5%float 1%float 0%float.
Proof.
  exists slight, slight_moved. do 7 eexists. split; [apply slight_reachable|]. split; [apply slight_moved_reachable|].
  split; [vm_compute; reflexivity|]. split; [reflexivity|]. split; [vm_compute; reflexivity|].
  split; [vm_compute; reflexivity|]. split; [reflexivity|]. split; [vm_compute; reflexivity|]. split; vm_compute; reflexivity.
Qed.

(** The same defaults over the reals *)
Definition metric : defaults R := mkDefaults 10%R (3 / 200)%R 1%R (/ 1000)%R 1%R (/ 1000)%R.
Definition hidden_edges : options R := mkOptions None None None WNone None None None None false false true true.

Lemma widths_all (es : list ekey) w : forall e, In e es -> exists x : R, dget (viewer_width es w None) e = Some x.
Proof.
  intros e I. unfold viewer_width. exists w. rewrite width_all_spec. apply memb_In in I. now rewrite I.
Qed.

Lemma rchain_pictured : exists form, static_equilibrium rchain None 100 (/ 1000000)%R false = Ok form
  /\ produced form /\ edges form <> [] /\ presentable IsForm form (edges form)
  /\ viewer_set_width form (edges form) None (op_width (@no_options R)) = Ok None
  /\ (forall e, In e (edges form) -> exists x, dget (viewer_width (edges form) (df_width metric) None) e = Some x)
  /\ (0 <= given (op_lscale (@no_options R)) (df_lscale metric))%R /\ held_by_edges form (nodes form).
Proof.
  destruct rchain_support as (form&E&Hh&_). exists form. split; [exact E|].
  assert (P : produced form) by (right; do 5 eexists; split; [apply rchain_reachable|exact E]). split; [exact P|].
  split.
  { destruct (EqThms.c37_frame _ _ _ _ _ _ rchain_reachable E) as (_&Ef&_). rewrite Ef. lazy. discriminate. }
  split.
  { split; [|apply forces_known_all; [exact P|intros e I; exact I]]. intros e I. destruct (edge_known form e P I) as (a&_&_&_&Iu&Iv). split; assumption. }
  split; [reflexivity|]. split; [apply widths_all|]. split; [cbn; lra|exact Hh].
Qed.

Lemma rchain_hidden : exists form o dr, static_equilibrium rchain None 100 (/ 1000000)%R false = Ok form
  /\ new_object IsForm metric form hidden_edges = (o, Ok dr) /\ presentable IsForm form (edges form)
  /\ In (1, 2) (edges form) /\ edges form <> [(1, 2)].
Proof.
  destruct rchain_pictured as (form&E&P&_&Pr&_&W&Sc&Hh).
  destruct (c100_made IsForm metric form hidden_edges None P Pr (fun n I => I) eq_refl W Sc Sc (fun _ _ => Hh)) as (o&dr&En&_).
  exists form, o, dr. split; [exact E|]. split; [exact En|]. split; [exact Pr|].
  destruct (EqThms.c37_frame _ _ _ _ _ _ rchain_reachable E) as (_&Ef&_). rewrite Ef. split; lazy; [right; left; reflexivity|discriminate].
Qed.
