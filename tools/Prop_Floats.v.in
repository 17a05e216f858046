(** * Properties of coordinates and lengths as binary64 floats (C04, C40)

    Generated by tools/gen_props.py from the lemmas of FloatFacts.v.  The vocabulary is in
    SpecFloats.v. *)

From Coq Require Import String List ZArith Bool Reals Floats SpecFloat.
From Verif Require Import Py PyFacts Num Diagram Topology History HistoryFacts SpecDiagram Equilibrium SpecEquilibrium SpecFloats FloatFacts Fixtures Witness WitnessEq.
Import ListNotations.
Open Scope Z_scope.

Section Rounding.
  Local Open Scope R_scope.
@thm c04_rounding_float
@thm c04_lookup_float
@thm c40_lengths_float
End Rounding.
@assume

(** ** The hypotheses can be met *)

(** A tie is looked up at the even neighbour; a node of the tower is found next to where it is; minus zero is negative. *)
Example C04_float_nonvacuous : nround 3 0x1p-4%float = GFin 62 /\ nround 1 (0x1.8p-2)%float = GFin 4
  /\ node_key tower (RXyz (V3 0x1p-12%float 0x1p0%float 0x0p0%float)) = Some 1
  /\ number 0x1.8p-2%float = Some (1 * IZR 6755399441055744 * powerRZ 2 (-54))%R
  /\ negative (-0x0p0)%float = true /\ number (0x1p0 / 0x0p0)%float = None.
Proof. repeat split. Qed.

(** The tower has a form, with edges in tension and in compression. *)
Example C40_float_nonvacuous : exists form l l', reachable float_tower
  /\ static_equilibrium float_tower None 100 0x1.4f8b588e368f1p-17%float false = Ok form
  /\ edge_length_2 form (1, 5) = Ok l /\ edge_length_2 form (1, 4) = Ok l' /\ negative l = false /\ negative l' = true.
Proof.
  eexists. eexists. eexists. split; [apply float_tower_reachable|]. split; [vm_compute; reflexivity|].
  split; [vm_compute; reflexivity|]. split; [vm_compute; reflexivity|]. split; vm_compute; reflexivity.
Qed.
