(** * Properties of viewer objects (C99 to C101)

    Generated by tools/gen_props.py from the lemmas of ViewerThms.v and WitnessViewer.v.  The
    vocabulary is in SpecViewer.v. *)

From Coq Require Import String List ZArith Bool Floats Reals Lra.
From Verif Require Import Py PyFacts Num Diagram DiagramFacts Topology Equilibrium History HistoryFacts Fixtures SpecDiagram SpecTopology SpecEquilibrium
  RVec SpecStatics Artists SpecArtists ArtistThms Labels ViewerObject SpecViewer ViewerThms Witness WitnessEq WitnessDraw WitnessViewer.
Import ListNotations.
Open Scope Z_scope.

Section Generic.
  Context {T : Type} `{NumOps T}.
  Implicit Types (d : diagram T) (o : vobj T) (df : defaults T).

  @thm c99_partial
  @thm c99_stays
  @thm c99_new
  @thm c73_objects
  @thm c73_new
  @thm c101_nodes
  @thm c101_assigned
End Generic.

@thm c99_refuted
@thm c100_made
@thm c101_lines
@thm c101_edges_partial
@thm c101_edges_refuted
@thm c101_refuted
@assume

(** ** The hypotheses can be met *)

(** A setting that is assigned before another is and drawings are made *)
Example C99_nonvacuous : exists o dr, new_object IsTopology standard tower_built no_options = (o, Ok dr)
  /\ ntruthy 3%float = true
  /\ (forall u, In u [USize (Some 4%float); UDrawLoads; ULoadScale None; UDrawEdges] -> leaves LoadScale u)
  /\ shows standard LoadScale o 1%float
  /\ option_of (mkOptions None None None WNone (Some 2%float) None None None false true true true) LoadScale = Some 2%float
  /\ option_of (@no_options float) LoadScale = None.
Proof.
  do 2 eexists. split; [vm_compute; reflexivity|]. split; [reflexivity|].
  split; [intros u I x; destruct I as [<-|[<-|[<-|[<-|[]]]]]; discriminate|].
  split; [vm_compute; reflexivity|]. split; reflexivity.
Qed.

(** A form that was found is drawn with all its edges, loads and reactions. *)
Example C100_nonvacuous : exists form, static_equilibrium rchain None 100 (/ 1000000)%R false = Ok form
  /\ produced form /\ edges form <> [] /\ presentable IsForm form (edges form)
  /\ viewer_set_width form (edges form) None (op_width (@no_options R)) = Ok None
  /\ (forall e, In e (edges form) -> exists x, dget (viewer_width (edges form) (df_width metric) None) e = Some x)
  /\ (0 <= given (op_lscale (@no_options R)) (df_lscale metric))%R /\ held_by_edges form (nodes form).
Proof. exact rchain_pictured. Qed.

(** An object for the nodes of a tower, which are selected after a drawing *)
Example C101_nonvacuous : exists o dr, produced tower_built /\ new_object IsTopology standard tower_built no_options = (o, Ok dr)
  /\ (forall u, In u [UDrawNodes (T:=float); UNodes (Some [2]); UDrawLoads] -> same_diagram u)
  /\ (forall n, In n [4; 1] -> In n (nodes tower_built)).
Proof.
  do 2 eexists. split; [left; apply tower_built_reachable|]. split; [vm_compute; reflexivity|].
  split; [intros u [<-|[<-|[<-|[]]]]; exact I|].
  intros n I; destruct I as [<-|[<-|[]]]; vm_compute; tauto.
Qed.

(** An object that is made without drawing its edges *)
Example C101_edges_nonvacuous : exists form o dr,
  static_equilibrium rchain None 100 (/ 1000000)%R false = Ok form
  /\ new_object IsForm metric form hidden_edges = (o, Ok dr) /\ presentable IsForm form (edges form)
  /\ (forall u, In u [UDrawNodes; UDrawLoads (T:=R)] -> no_edges u)
  /\ In (1, 2) (edges form) /\ edges form <> [(1, 2)]
  /\ exists x, dget (viewer_width [(1, 2)] (df_width metric) None) (1, 2) = Some x.
Proof.
  destruct rchain_hidden as (form&o&dr&E&En&P&I&Ne). exists form, o, dr. split; [exact E|]. split; [exact En|]. split; [exact P|].
  split; [intros u [<-|[<-|[]]]; exact Logic.I|]. split; [exact I|]. split; [exact Ne|]. eexists. reflexivity.
Qed.
