(** * Call histories

    The public mutating calls on a TopologyDiagram as data, so that properties
    can quantify over every history of calls. *)

From Coq Require Import List ZArith Bool Permutation.
From Verif Require Import Py Num Diagram Topology.
Import ListNotations.
Open Scope Z_scope.

(** One public call. *)
Inductive op (T : Type) : Type :=
| OpAddNode (key : option Z) (p : vec T)                    (* node_mixins.py:16-26 *)
| OpAddEdge (u v : nref T) (el : edge_elem T)               (* edge_mixins.py:14-46 *)
| OpAddSupport (r : nref T)                                 (* topology.py:90-111 *)
| OpAddLoad (r : nref T) (q : vec T)                        (* topology.py:113-129 *)
| OpNodeXyz (k : Z) (p : vec T)                             (* node_mixins.py:53-59 *)
| OpSetCoords (k : Z) (p : vec T)                           (* compas node_attributes(k, "xyz", p) *)
| OpSetLength (e : ekey) (l : T)                            (* compas edge_attribute(e, "length", l) *)
| OpSetForce (e : ekey) (f : T)                             (* compas edge_attribute(e, "force", f) *)
| OpSetTol (n : nat)                                        (* diagram.py:55-59 *)
| OpSetAuxLength (l : T)                                    (* topology.py:62-66 *)
| OpSetAuxVector (v : vec T)                                (* topology.py:80-84 *)
| OpBuildTrails (ord : list Z -> list Z) (auxiliary : bool) (* topology.py:310-418 *)
| OpShiftTrail (key sequence : Z).                          (* topology.py:285-308 *)
Arguments OpAddNode {T} _ _.
Arguments OpAddEdge {T} _ _ _.
Arguments OpAddSupport {T} _.
Arguments OpAddLoad {T} _ _.
Arguments OpNodeXyz {T} _ _.
Arguments OpSetCoords {T} _ _.
Arguments OpSetLength {T} _ _.
Arguments OpSetForce {T} _ _.
Arguments OpSetTol {T} _.
Arguments OpSetAuxLength {T} _.
Arguments OpSetAuxVector {T} _.
Arguments OpBuildTrails {T} _ _.
Arguments OpShiftTrail {T} _ _.

Section History.
  Context {T : Type} `{NumOps T}.

  Definition ignore {A} (m : eff (diagram T) A) : eff (diagram T) unit :=
    do* _ := m in eret tt.

  (** The effect of one call: the diagram afterwards and whether it raised. *)
  Definition call (o : op T) : eff (diagram T) unit :=
    match o with
    | OpAddNode key p => ignore (add_node key p)
    | OpAddEdge u v el => ignore (add_edge u v el)
    | OpAddSupport r => add_support r
    | OpAddLoad r q => add_load r q
    | OpNodeXyz k p => update_node_xyz k p
    | OpSetCoords k p => node_set k (fun a => set_xyz a p)
    | OpSetLength e l => edge_set e (fun a => set_length a l)
    | OpSetForce e f => edge_set e (fun a => set_force a f)
    | OpSetTol n => fun d => (with_tol d n, Ok tt)
    | OpSetAuxLength l => fun d => (with_aux_length d l, Ok tt)
    | OpSetAuxVector v => fun d => (with_aux_vector d v, Ok tt)
    | OpBuildTrails ord aux => build_trails ord aux
    | OpShiftTrail k s => shift_trail k s
    end.

  (** A history: exceptions are caught by the caller, who carries on. *)
  Definition run (d : diagram T) (ops : list (op T)) : diagram T :=
    fold_left (fun d o => fst (call o d)) ops d.

  (** A script: stops at the first exception. *)
  Fixpoint script (d : diagram T) (ops : list (op T)) : res (diagram T) :=
    match ops with
    | [] => Ok d
    | o :: ops => match call o d with
                  | (d', Ok tt) => script d' ops
                  | (_, Err e) => Err e
                  end
    end.

  (** The iteration order of a Python set is some order of its elements. *)
  Definition valid_op (o : op T) : Prop :=
    match o with OpBuildTrails ord _ => forall l, Permutation (ord l) l | _ => True end.

  (** Diagrams that can be built with the public API, by any history of calls. *)
  Definition reachable (d : diagram T) : Prop :=
    exists ops, Forall valid_op ops /\ d = run empty_diagram ops.
End History.
