(** * Files: a counterexample and the file of the repository *)

From Coq Require Import String List ZArith Bool Floats.
From Verif Require Import Py PyFacts Num Diagram Topology History Equilibrium Fixtures Witness Serialize Files SpecFiles FilesThms.
Import ListNotations.
Open Scope Z_scope.

(** A topology with trails is written and read: its trails cannot be asked for, and
    shifting one of them raises, although the diagram in memory does both. *)
Lemma c86_refuted : exists (d : diagram float) o key sequence,
  reachable d /\ from_json (topology_file d) = Ok o
  /\ (trail d key = Ok [2; 1; 0] /\ o_trail o key = Err KeyError)
  /\ (snd (call (OpShiftTrail key sequence) d) = Ok tt
      /\ snd (o_call (OpShiftTrail key sequence) o) = Err KeyError).
Proof.
  exists tower_built. eexists. exists 2, 1. split; [made_reachable|]. split; [apply topology_read|].
  split; split; vm_compute; reflexivity.
Qed.

(** examples/03_bridge_2d.json, the member "data" *)
Definition bridge_file : pytree float := (
  PDict
    [(KStr "node", PDict [(KStr "7", PDict [(KStr "y", PNum (16.0)); (KStr "z", PNum (0.0)); (KStr "x", PNum (6.5))]);
         (KStr "3", PDict [(KStr "y", PNum (16.0)); (KStr "z", PNum (0.0)); (KStr "x", PNum (-6.5))]);
         (KStr "5", PDict [(KStr "y", PNum (48.0)); (KStr "z", PNum (0.0)); (KStr "x", PNum (6.5))]);
         (KStr "0", PDict [(KStr "y", PNum (32.0)); (KStr "z", PNum (0.0)); (KStr "x", PNum (-6.5))]);
         (KStr "4", PDict [(KStr "y", PNum (32.0)); (KStr "z", PNum (0.0)); (KStr "x", PNum (6.5))]);
         (KStr "2", PDict [(KStr "y", PNum (0.0)); (KStr "z", PNum (0.0)); (KStr "x", PNum (-6.5))]);
         (KStr "1", PDict [(KStr "y", PNum (48.0)); (KStr "z", PNum (0.0)); (KStr "x", PNum (-6.5))]);
         (KStr "6", PDict [(KStr "y", PNum (0.0)); (KStr "z", PNum (0.0)); (KStr "x", PNum (6.5))])]);
     (KStr "adjacency", PDict [(KStr "7", PDict [(KStr "6", PNone); (KStr "3", PNone); (KStr "4", PNone)]);
         (KStr "3", PDict [(KStr "2", PNone); (KStr "0", PNone); (KStr "7", PNone); (KStr "4", PNone)]);
         (KStr "5", PDict [(KStr "4", PNone)]);
         (KStr "0", PDict [(KStr "1", PNone); (KStr "3", PNone); (KStr "4", PNone)]);
         (KStr "4", PDict [(KStr "3", PNone); (KStr "0", PNone); (KStr "7", PNone); (KStr "5", PNone)]);
         (KStr "2", PDict [(KStr "3", PNone)]);
         (KStr "1", PDict [(KStr "0", PNone)]);
         (KStr "6", PDict [(KStr "7", PNone)])]);
     (KStr "max_int_key", PInt (7)%Z);
     (KStr "edge", PDict [(KStr "7", PDict [(KStr "3", PDict [(KStr "force", PNum (5.0)); (KStr "type", PStr "deviation")]); (KStr "4", PDict [(KStr "length", PNum (12.0)); (KStr "type", PStr "trail")])]);
         (KStr "3", PDict [(KStr "0", PDict [(KStr "length", PNum (12.0)); (KStr "type", PStr "trail")]); (KStr "4", PDict [(KStr "force", PNum (-5.0)); (KStr "type", PStr "deviation")])]);
         (KStr "5", PDict []);
         (KStr "0", PDict [(KStr "1", PDict [(KStr "length", PNum (12.0)); (KStr "type", PStr "trail")]); (KStr "4", PDict [(KStr "force", PNum (5.0)); (KStr "type", PStr "deviation")])]);
         (KStr "4", PDict [(KStr "5", PDict [(KStr "length", PNum (12.0)); (KStr "type", PStr "trail")])]);
         (KStr "2", PDict [(KStr "3", PDict [(KStr "length", PNum (12.0)); (KStr "type", PStr "trail")])]);
         (KStr "1", PDict []);
         (KStr "6", PDict [(KStr "7", PDict [(KStr "length", PNum (12.0)); (KStr "type", PStr "trail")])])]);
     (KStr "edge_attributes", PDict [(KStr "length", PNum (0.0)); (KStr "type", PNone); (KStr "force", PNum (0.0))]);
     (KStr "node_attributes", PDict [(KStr "qx", PNum (0.0)); (KStr "qy", PNum (0.0)); (KStr "z", PNum (0.0)); (KStr "rx", PNum (0.0)); (KStr "rz", PNum (0.0)); (KStr "x", PNum (0.0)); (KStr "qz", PNum (0.0)); (KStr "y", PNum (0.0)); (KStr "_k", PNone); (KStr "ry", PNum (0.0)); (KStr "type", PNone)]);
     (KStr "attributes", PDict [(KStr "_aux_vector", PList [PNum (1.0); PNum (1.0); PNum (1.0)]); (KStr "tol", PTol 3);
         (KStr "gkey_node", PDict [(KGeo (3%nat, (GFin (6500)%Z, (GFin (16000)%Z, (GFin (0)%Z)))), PInt 7%Z);
           (KGeo (3%nat, (GFin (6500)%Z, (GFin (0)%Z, (GFin (0)%Z)))), PInt 6%Z);
           (KGeo (3%nat, (GFin (-6500)%Z, (GFin (16000)%Z, (GFin (0)%Z)))), PInt 3%Z);
           (KGeo (3%nat, (GFin (6500)%Z, (GFin (0)%Z, (GFin (16000)%Z)))), PInt 7%Z);
           (KGeo (3%nat, (GFin (6500)%Z, (GFin (0)%Z, (GFin (48000)%Z)))), PInt 5%Z);
           (KGeo (3%nat, (GFin (6500)%Z, (GFin (0)%Z, (GFin (32000)%Z)))), PInt 4%Z);
           (KGeo (3%nat, (GFin (-6500)%Z, (GFin (0)%Z, (GFin (48000)%Z)))), PInt 1%Z);
           (KGeo (3%nat, (GFin (-6500)%Z, (GFin (0)%Z, (GFin (16000)%Z)))), PInt 3%Z);
           (KGeo (3%nat, (GFin (-6500)%Z, (GFin (0)%Z, (GFin (0)%Z)))), PInt 2%Z);
           (KGeo (3%nat, (GFin (-6500)%Z, (GFin (48000)%Z, (GFin (0)%Z)))), PInt 1%Z);
           (KGeo (3%nat, (GFin (6500)%Z, (GFin (48000)%Z, (GFin (0)%Z)))), PInt 5%Z);
           (KGeo (3%nat, (GFin (6500)%Z, (GFin (32000)%Z, (GFin (0)%Z)))), PInt 4%Z);
           (KGeo (3%nat, (GFin (-6500)%Z, (GFin (0)%Z, (GFin (32000)%Z)))), PInt 0%Z);
           (KGeo (3%nat, (GFin (-6500)%Z, (GFin (32000)%Z, (GFin (0)%Z)))), PInt 0%Z)]);
         (KStr "name", PStr "Network"); (KStr "_auxiliary_trails", PDict []); (KStr "_trails", PDict []);
         (KStr "_aux_length", PNum (-1.0))])])%string%float.

(** examples/03_bridge_2d.py:36-61: the file is read, supports and loads are added, the
    trails are built and a form is found. *)
Definition bridge_script : list (op float) :=
  [sup 1; sup 5; load zf 2 0 (-1) 0; load zf 6 0 (-1) 0; build].

Example bridge_runs :
  match from_json bridge_file with
  | Err _ => False
  | Ok o =>
      let '(o', rs) := o_run o bridge_script in
      rs = [Ok tt; Ok tt; Ok tt; Ok tt; Ok tt]
      /\ o_trail o' 2 = Ok [2; 3; 0; 1] /\ o_trail o' 6 = Ok [6; 7; 4; 5]
      /\ match o_static_equilibrium o' None 100 0x1.4f8b588e368f1p-17%float false with
         | Ok form => List.length (nodes form) = 8%nat /\ node_coordinates form 2 = Ok (V3 (-6.5) 0 0)%float
         | Err _ => False
         end
  end.
Proof. vm_compute. repeat split. Qed.
