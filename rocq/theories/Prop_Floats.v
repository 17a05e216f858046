(** * Properties of coordinates and lengths as binary64 floats (C04, C40)

    Generated by tools/gen_props.py from the lemmas of FloatFacts.v.  The vocabulary is in
    SpecFloats.v. *)

From Coq Require Import String List ZArith Bool Reals Floats SpecFloat.
From Verif Require Import Py PyFacts Num Diagram Topology History HistoryFacts SpecDiagram Equilibrium SpecEquilibrium SpecFloats FloatFacts Fixtures Witness WitnessEq.
Import ListNotations.
Open Scope Z_scope.

Section Rounding.
  Local Open Scope R_scope.
(** The number that is looked up for a coordinate is the nearest multiple of the last decimal, and the even one of two that are equally near. *)
Theorem C04_rounding_float : forall p (x : float) r, number x = Some r ->
  exists k, nround p x = GFin k /\ Rabs (IZR k - r * 10 ^ p) <= / 2 /\ (Rabs (IZR k - r * 10 ^ p) = / 2 -> Z.even k = true).
Proof. exact c04_rounding_float. Qed.
(** Over floats: the node found was registered at coordinates that agree with those of the query to the decimals of the diagram. *)
Theorem C04_lookup_float : forall (ops : list (op float)) p k, Forall valid_op ops ->
  node_key (run empty_diagram ops) (RXyz p) = Some k ->
  exists ops1 ops2 p', ops = (ops1 ++ ops2)%list
    /\ node_coordinates (run empty_diagram ops1) k = Ok p'
    /\ agree (d_tol (run empty_diagram ops)) (vx p') (vx p)
    /\ agree (d_tol (run empty_diagram ops)) (vy p') (vy p)
    /\ agree (d_tol (run empty_diagram ops)) (vz p') (vz p).
Proof. exact c04_lookup_float. Qed.
(** Over floats: the length attribute of an edge of the form is the distance of its ends, with the sign of its force; a force of minus zero counts as negative. *)
Theorem C40_lengths_float : forall (d : diagram float) kmax tmax eta verbose form e, reachable d ->
  static_equilibrium d kmax tmax eta verbose = Ok form -> In e (edges form) ->
  exists pu pv x l, node_coordinates form (fst e) = Ok pu /\ node_coordinates form (snd e) = Ok pv
    /\ edge_force form e = Ok x /\ edge_length_2 form e = Ok l
    /\ option_map Rabs (number l) = option_map Rabs (number (distance_point_point pu pv))
    /\ (number l <> None -> negative l = negative x).
Proof. exact c40_lengths_float. Qed.
End Rounding.
Print Assumptions C04_rounding_float.
Print Assumptions C04_lookup_float.
Print Assumptions C40_lengths_float.

(** ** The hypotheses can be met *)

(** A tie is looked up at the even neighbour; a node of the tower is found next to where it is; minus zero is negative. *)
Example C04_float_nonvacuous : nround 3 0x1p-4%float = GFin 62 /\ nround 1 (0x1.8p-2)%float = GFin 4
  /\ node_key tower (RXyz (V3 0x1p-12%float 0x1p0%float 0x0p0%float)) = Some 1
  /\ number 0x1.8p-2%float = Some (1 * IZR 6755399441055744 * powerRZ 2 (-54))%R
  /\ negative (-0x0p0)%float = true /\ number (0x1p0 / 0x0p0)%float = None.
Proof. repeat split. Qed.

(** The tower has a form, with edges in tension and in compression. *)
Example C40_float_nonvacuous : exists form l l', reachable float_tower
  /\ static_equilibrium float_tower None 100 0x1.4f8b588e368f1p-17%float false = Ok form
  /\ edge_length_2 form (1, 5) = Ok l /\ edge_length_2 form (1, 4) = Ok l' /\ negative l = false /\ negative l' = true.
Proof.
  eexists. eexists. eexists. split; [apply float_tower_reachable|]. split; [vm_compute; reflexivity|].
  split; [vm_compute; reflexivity|]. split; [vm_compute; reflexivity|]. split; vm_compute; reflexivity.
Qed.
