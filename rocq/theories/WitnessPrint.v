(** * Concrete runs of the optimizer that print *)

From Coq Require Import String List ZArith Bool Lia Floats.
From Verif Require Import Py PyFacts Num Diagram Topology Equilibrium EquilibriumNp History Fixtures SpecDiagram Constraints Optimizer
  SpecOptimizer OptFacts OptThms SolveThms Messages SolveOut SpecReport Witness WitnessEq WitnessOpt.
Import ListNotations.
Open Scope Z_scope.

(** A solver that fails at once *)
Definition fails : problem float -> list float -> strategy float := fun _ _ => SRuntime.

Lemma has_failed {T} (ls : list (printed T)) : existsb (fun l => match l with Failed => true | _ => false end) ls = true -> In Failed ls.
Proof. intros C. apply existsb_exists in C. destruct C as ([]&I&X); try discriminate X. exact I. Qed.

(** After a run that failed, and said so, the text of the optimizer still shows the status of an earlier run, and its other
    results are those of the earlier run too. *)
Lemma c104_refuted : exists solver solver' o (d : diagram float) o1 d1 form1 ls o2 d2 form2,
  reachable d /\ obtained o
  /\ solve no_ad solver "SLSQP" "FD" 0x1p-20%float 100 None None 100 neps6 (o, d) = ((o1, d1), Ok form1)
  /\ solve_out no_ad solver' "SLSQP" "FD" 0x1p-20%float 100 None None 100 neps6 true (o1, d1) = (ls, ((o2, d2), Ok form2))
  /\ In Failed ls /\ snd (optimizer_repr o2) = Some "NLOPT_SUCCESS"%string /\ o_penalty o2 = o_penalty o1.
Proof.
  destruct (solve no_ad stays "SLSQP" "FD" 0x1p-20%float 100 None None 100 neps6 (tower_optimizer, float_tower)) as [[o1 d1] r1] eqn:E1.
  assert (A : exists form, r1 = Ok form).
  { replace r1 with (snd (solve no_ad stays "SLSQP" "FD" 0x1p-20%float 100 None None 100 neps6 (tower_optimizer, float_tower))) by (rewrite E1; reflexivity). eexists. vm_compute. reflexivity. }
  destruct A as [form1 ->].
  destruct (solve_out no_ad fails "SLSQP" "FD" 0x1p-20%float 100 None None 100 neps6 true (o1, d1)) as [ls [[o2 d2] r2]] eqn:E2.
  assert (P : (o1, d1) = fst (solve no_ad stays "SLSQP" "FD" 0x1p-20%float 100 None None 100 neps6 (tower_optimizer, float_tower))) by (rewrite E1; reflexivity).
  assert (Q : exists form, r2 = Ok form).
  { change r2 with (snd (snd (ls, ((o2, d2), r2)))). rewrite <- E2, P. eexists. vm_compute. reflexivity. }
  destruct Q as [form2 ->].
  assert (C : existsb (fun l => match l with Failed => true | _ => false end) ls = true).
  { change ls with (fst (ls, ((o2, d2), @Ok (diagram float) form2))). rewrite <- E2, P. vm_compute. reflexivity. }
  assert (D : o_status o2 = Some "NLOPT_SUCCESS"%string).
  { change o2 with (fst (fst (snd (ls, ((o2, d2), @Ok (diagram float) form2))))). rewrite <- E2, P. vm_compute. reflexivity. }
  assert (F : o_penalty o2 = o_penalty o1).
  { change o2 with (fst (fst (snd (ls, ((o2, d2), @Ok (diagram float) form2))))). rewrite <- E2. change o1 with (fst (o1, d1)) at 2. rewrite P. vm_compute. reflexivity. }
  exists stays, fails, tower_optimizer, float_tower, o1, d1, form1, ls, o2, d2, form2.
  split; [exact float_tower_reachable|]. split; [exact tower_obtained|]. split; [exact E1|]. split; [exact E2|].
  split; [exact (has_failed ls C)|]. split; [exact D|exact F].
Qed.
