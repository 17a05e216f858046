(** * Properties of what influences the form (C74 - C76, C88)

    Generated by tools/gen_props.py from the lemmas of InfluenceThms.v, IterThms.v,
    SymmetryThms.v, WitnessInfluence.v and WitnessSymmetry.v.  The vocabulary is in
    SpecInfluence.v and SpecSymmetry.v. *)

From Coq Require Import String List ZArith Bool Lia Permutation Floats Reals Lra.
From Verif Require Import Py PyFacts Num Diagram DiagramFacts Topology Equilibrium History Fixtures SpecDiagram SpecTopology SpecEquilibrium
  RVec SpecStatics SpecInfluence SpecTransform SpecSymmetry InfluenceThms IterThms SymmetryThms
  Witness WitnessEq WitnessInfluence WitnessSymmetry.
Import ListNotations.
Open Scope Z_scope.

(** ** Names, orders and directions *)

@thm c74_renamed_partial
@thm c74_refuted
@assume

(** ** Symmetric structures *)

@thm c88_symmetric_partial
@thm c88_axis_partial
@thm c88_refuted
@assume

(** ** Earlier and later on the trails *)

Section Generic.
  Context {T : Type} `{NumOps T}.
  Implicit Types (d : diagram T).

  @thm c75_upstream
  @thm c75_later

  (** ** Passes and thresholds *)

  @thm c76_more_passes_partial
End Generic.

@thm c75_matched
@thm c76_looser
@thm c76_refuted
@assume

(** ** The hypotheses can be met *)

(** The funicular of three bars, and the same with other names, in another order and with the
    edges turned round *)
Example C74_nonvacuous : exists (d d' form form' : diagram R) pi, reachable d /\ ready d /\ reachable d' /\ ready d' /\ direct_only d
  /\ renamed pi d d' /\ nodes d = [0; 1; 2; 3] /\ pi 0 = 13
  /\ static_equilibrium d None 100 (/ 1000000)%R false = Ok form /\ static_equilibrium d' None 100 (/ 1000000)%R false = Ok form'.
Proof.
  destruct funicular_forms as (f&E). destruct rother_forms as (f'&E'). exists funicular, rother, f, f', swap.
  split; [exact funicular_reachable|]. split; [exact funicular_ready|]. split; [exact rother_reachable|]. split; [exact rother_ready|].
  split; [exact (proj1 funicular_direct)|]. split; [exact rother_renamed|]. split; [lazy; reflexivity|]. split; [reflexivity|].
  split; assumption.
Qed.

(** A chain of bars with a load added at the second node *)
Example C75_nonvacuous : exists (d form form' : diagram R) o, reachable d /\ ready d /\ direct_only d /\ late d 1 o
  /\ upstream d (up_to d 1) /\ same_upstream (up_to d 1) d (fst (call o d))
  /\ up_to d 1 1 /\ node_load (fst (call o d)) 1 <> node_load d 1
  /\ static_equilibrium d None 100 (/ 1000000)%R false = Ok form
  /\ static_equilibrium (fst (call o d)) None 100 (/ 1000000)%R false = Ok form'.
Proof.
  destruct rchain_forms as (f&E). destruct rloaded_forms as (f'&E'). destruct rloaded_same as (U&S&I&N).
  exists rchain, f, f', later_load.
  split; [exact rchain_reachable|]. split; [exact rchain_ready|]. split; [exact rchain_direct|]. split; [exact later_load_late|].
  split; [exact U|]. split; [exact S|]. split; [exact I|]. split; [exact N|]. split; [exact E|exact E'].
Qed.

(** The funicular of three bars, alone and beside a strut *)
Example C75_matched_nonvacuous : exists (d d' form form' : diagram R) M, reachable d /\ ready d /\ reachable d' /\ ready d'
  /\ matched M d d' /\ M 0 0 /\ nodes d' <> nodes d
  /\ static_equilibrium d None 100 (/ 1000000)%R false = Ok form /\ static_equilibrium d' None 100 (/ 1000000)%R false = Ok form'.
Proof.
  destruct funicular_forms as (f&E). destruct rboth_forms as (f'&E'). exists funicular, rboth, f, f', itself.
  split; [exact funicular_reachable|]. split; [exact funicular_ready|]. split; [exact rboth_reachable|]. split; [exact rboth_ready|].
  split; [exact rboth_matched|]. split; [split; [reflexivity|left; reflexivity]|]. split; [lazy; discriminate|].
  split; assumption.
Qed.

(** Columns with an indirect deviation edge *)
Example C76_nonvacuous : exists (d form : diagram R) eta, reachable d /\ indirect_at d 1 <> [] /\ (0 < eta)%R
  /\ static_equilibrium d None 100 eta false = Ok form.
Proof.
  destruct rcolumns_forms as (eta&f&P&E). exists rcolumns, f, eta. split; [exact rcolumns_reachable|].
  split; [rewrite rcolumns_indirect; discriminate|]. split; [exact P|exact E].
Qed.

(** Three columns tied to each other, mirrored about the plane through the middle one *)
Example C88_nonvacuous : exists pi Q v (d form : diagram R), isometry Q /\ reachable d /\ ready d /\ direct_only d
  /\ symmetric pi (fun p => Q p +v v) Q d /\ static_equilibrium d None 100 (/ 1000000)%R false = Ok form
  /\ nodes d = [0; 1; 2; 3; 4; 5] /\ pi 0 = 4 /\ pi 3 = 3.
Proof.
  destruct rtriple_form as (f&E&_). exists across, turned, shifted, rtriple, f.
  split; [exact turned_isometry|]. split; [exact rtriple_reachable|]. split; [exact rtriple_ready|].
  split; [exact rtriple_direct|]. split; [exact rtriple_symmetric|]. split; [exact E|].
  split; [lazy; reflexivity|]. split; reflexivity.
Qed.
