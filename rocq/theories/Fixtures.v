(** * The fixtures of /repo/tests/conftest.py, over any scalar type

    Built with the public calls of the model.  [z] injects integers. *)

From Coq Require Import List ZArith Bool Floats Reals.
From Verif Require Import Py Num Diagram Topology History Equilibrium.
Import ListNotations.
Open Scope Z_scope.

Definition id_order (l : list Z) : list Z := l.

Section Fixtures.
  Context {T : Type} `{NumOps T} (z : Z -> T).

  Definition v (x y w : Z) : vec T := V3 (z x) (z y) (z w).
  (** half of an integer *)
  Definition hf (x : Z) : T := ndiv (z x) (z 2).
  Definition node (k x y w : Z) : op T := OpAddNode (Some k) (v x y w).
  Definition trail_e (a b l : Z) : op T := OpAddEdge (RKey a) (RKey b) (TrailEdge (z l) None).
  Definition dev_e (a b f : Z) : op T := OpAddEdge (RKey a) (RKey b) (DeviationEdge (z f)).
  Definition sup (k : Z) : op T := OpAddSupport (RKey k).
  Definition load (k x y w : Z) : op T := OpAddLoad (RKey k) (v x y w).
  Definition build : op T := OpBuildTrails id_order false.
  Definition build_aux : op T := OpBuildTrails id_order true.

  (** compression_strut (conftest.py:19-37) *)
  Definition compression_strut : list (op T) :=
    [ node 0 0 0 0; node 1 0 2 0; trail_e 0 1 (-1); sup 0; load 1 0 (-1) 0 ].

  (** tension_chain (conftest.py:40-64) *)
  Definition chain (l q : Z) : list (op T) :=
    [ node 0 0 0 0; node 1 1 0 0; node 2 2 0 0; node 3 3 0 0;
      OpAddEdge (RKey 0) (RKey 1) (TrailEdge (z l) (Some (V3 (hf 3) (z 0) (z 0), v 1 0 0)));
      trail_e 1 2 l;
      OpAddEdge (RKey 2) (RKey 3) (TrailEdge (z l) (Some (v 4 0 0, v 1 0 0)));
      sup 3; load 0 q 0 0 ].
  Definition tension_chain : list (op T) := chain 1 (-1).

  (** compression_chain (conftest.py:67-91) *)
  Definition compression_chain : list (op T) := chain (-1) 1.

  (** threebar_funicular (conftest.py:94-121) *)
  Definition threebar_funicular : list (op T) :=
    [ node 0 0 0 0; node 1 1 0 0;
      OpAddNode (Some 2) (V3 (hf 5) (z 0) (z 0));
      OpAddNode (Some 3) (V3 (hf 7) (z 0) (z 0));
      trail_e 0 1 (-1); dev_e 1 2 (-1); trail_e 2 3 (-1);
      sup 0; sup 3; load 1 0 (-1) 0; load 2 0 (-1) 0 ].

  (** braced_tower_2d (conftest.py:124-165) *)
  Definition braced_tower_2d : list (op T) :=
    [ node 0 0 0 0; node 1 0 1 0; node 2 0 2 0; node 3 1 0 0; node 4 1 1 0; node 5 1 2 0;
      trail_e 0 1 (-1); trail_e 1 2 (-1); trail_e 3 4 (-1); trail_e 4 5 (-1);
      dev_e 1 4 (-1); dev_e 2 5 (-1); dev_e 1 5 1; dev_e 1 3 1; dev_e 2 4 1;
      sup 0; sup 3; load 2 0 (-1) 0; load 5 0 (-1) 0 ].

  (** tree_2d_needs_auxiliary_trails (conftest.py:167-197); the deviation forces
      -sqrt(4) and -sqrt(2) *)
  Definition tree_2d : list (op T) :=
    [ node 1 (-2) 2 0; node 2 2 2 0; node 3 0 1 0; node 4 0 0 0;
      trail_e 3 4 (-1);
      OpAddEdge (RKey 1) (RKey 3) (DeviationEdge (nopp (nsqrt (z 4))));
      OpAddEdge (RKey 2) (RKey 3) (DeviationEdge (nopp (nsqrt (z 2))));
      dev_e 1 2 2; sup 4; load 1 0 (-1) 0; load 2 0 (-1) 0 ].

  (** support_missing_topology (conftest.py:199-222) *)
  Definition support_missing : list (op T) :=
    [ node 0 0 0 0; node 1 0 1 0; node 2 0 2 0; node 3 0 3 0; node 4 0 4 0;
      trail_e 0 1 1; trail_e 1 2 1; dev_e 3 4 1; load 0 0 (-1) 0; sup 2 ].

  (** no_trails_topology (conftest.py:225-246) *)
  Definition no_trails : list (op T) :=
    [ node 0 0 0 0; node 1 0 1 0; node 2 0 2 0;
      dev_e 0 1 1; dev_e 1 2 1; load 0 0 (-1) 0; sup 2 ].

  (** unsupported_topology (conftest.py:249-266) *)
  Definition unsupported : list (op T) :=
    [ node 0 0 0 0; node 1 0 1 0; trail_e 0 1 (-1); load 0 0 (-1) 0 ].
End Fixtures.
