(** * What the number of passes and the threshold do *)

From Coq Require Import String List ZArith Bool Lia Reals Lra.
From Verif Require Import Py PyFacts Num Diagram DiagramFacts Topology Equilibrium History HistoryFacts SpecDiagram SpecTopology
  SpecEquilibrium EqFacts FormFacts EqThms RVec.
Import ListNotations.
Open Scope Z_scope.

Section Any.
  Context {T : Type} `{NumOps T}.
  Implicit Types (d : diagram T).

  (** Passes added after a stop are not made. *)
  Lemma iterate_more d ts kmax eta : forall n m t od st st' s x,
    (forall y, od = Some y -> nltb y eta = false) ->
    iterate d ts kmax eta n t od st = Ok (st', s, Some x) -> nltb x eta = true ->
    (n <= m)%nat -> iterate d ts kmax eta m t od st = Ok (st', s, Some x).
  Proof.
    induction n as [|n IH]; intros m t od st st' s x I E L Le.
    - cbn in E. injection E as _ _ E2. apply I in E2. congruence.
    - destruct m as [|m]; [lia|]. cbn [iterate] in E |- *. apply bind_Ok in E as (s1&Es&E). rewrite Es. cbn [bind].
      destruct (Nat.eqb t 0); [apply IH; auto; lia|].
      apply bind_Ok in E as (y&Ey&E). rewrite Ey. cbn [bind].
      destruct (nltb y eta) eqn:Ly; auto. apply IH; auto; [congruence|lia].
  Qed.

  (** C76: a larger limit on the number of passes leaves a form that was found as it is,
      unless the last pass moved it by exactly the threshold. *)
  Lemma c76_more_passes_partial : forall d kmax tmax tmax' eta verbose verbose' form, 2 <= tmax <= tmax' ->
    static_equilibrium d kmax tmax eta verbose = Ok form ->
    static_equilibrium d kmax tmax' eta verbose' = Ok form
    \/ exists ts x, trails_sequences d = Ok ts /\ moves d ts kmax (Z.to_nat tmax - 1) x
         /\ nltb x eta = false /\ nltb eta x = false.
  Proof.
    intros d kmax tmax tmax' eta verbose verbose' form B E. unfold static_equilibrium in *. apply bind_Ok in E as (st&Es&E).
    unfold equilibrium_state in Es |- *. destruct (negb _); [discriminate|].
    apply bind_Ok in Es as (ts&Ets&Es). rewrite Ets. cbn [bind].
    apply bind_Ok in Es as (kl&Ekl&Es). rewrite Ekl. cbn [bind].
    destruct (match kmax with Some km => km <? 0 | None => false end); [discriminate|].
    apply bind_Ok in Es as ([[st1 ot] od]&Ei&Es).
    assert (Ei' := Ei). apply iterate_spec in Ei'; [|reflexivity].
    destruct Ei' as [(s&y&_&P&_&L&_&_&->&->)|(F&_&Eo&O)].
    - left. erewrite iterate_more; [|discriminate|exact Ei|exact L|lia]. cbn [bind].
      assert (Q : (s =? 0)%nat = false) by (apply Nat.eqb_neq; lia). rewrite Q in *. cbn [negb] in *. rewrite Es. cbn. exact E.
    - right. cbn [Nat.add] in *. destruct (Z.to_nat tmax) as [|[|n]] eqn:En; [lia|lia|].
      cbn [Nat.eqb orb] in O. destruct O as (y&->&My). subst ot. cbn [negb Nat.eqb] in Es.
      destruct (nltb eta y) eqn:Ly; [discriminate|]. exists ts, y. split; auto. split; auto. split; auto.
      destruct (F (S n)) as (y'&My'&Ly'); [lia|lia|]. replace (S (S n) - 1)%nat with (S n) in My by lia.
      now rewrite (moves_fun _ _ _ _ _ _ My' My) in Ly'.
  Qed.
End Any.

Lemma nltb_true (x y : R) : nltb x y = true <-> (x < y)%R.
Proof. change (nltb x y) with (Rltb x y). destruct (Rltb_spec x y); split; intros; auto; try discriminate; contradiction. Qed.
Lemma nltb_false (x y : R) : nltb x y = false <-> (y <= x)%R.
Proof. change (nltb x y) with (Rltb x y). destruct (Rltb_spec x y); split; intros; auto; try discriminate; lra. Qed.

(** A looser threshold stops at the same pass or at an earlier one. *)
Lemma iterate_looser (d : diagram R) ts kmax eta eta' : (eta <= eta')%R -> forall n t od st st1 ot od1,
  iterate d ts kmax eta n t od st = Ok (st1, ot, od1) ->
  exists st2 ot2 od2, iterate d ts kmax eta' n t od st = Ok (st2, ot2, od2)
    /\ (ot2 = ot /\ od2 = od1 \/ exists s x, ot2 = Some s /\ od2 = Some x /\ (1 <= s)%nat /\ (x < eta')%R).
Proof.
  intros Le. induction n as [|n IH]; intros t od st st1 ot od1 E.
  - cbn in E. injection E as <- <- <-. do 3 eexists. split; [reflexivity|]. left. auto.
  - cbn [iterate] in E |- *. apply bind_Ok in E as (s1&Es&E). rewrite Es. cbn [bind].
    destruct (Nat.eqb_spec t 0); [eapply IH; eauto|].
    apply bind_Ok in E as (y&Ey&E). rewrite Ey. cbn [bind].
    destruct (nltb y eta') eqn:L'.
    + do 3 eexists. split; [reflexivity|]. right. exists t, y. split; auto. split; auto. split; [lia|]. now apply nltb_true in L'.
    + destruct (nltb y eta) eqn:L; [|eapply IH; eauto].
      exfalso. apply nltb_true in L. apply nltb_false in L'. lra.
Qed.

(** C76: a form that is found with a threshold is found with every larger one. *)
Lemma c76_looser : forall (d : diagram R) kmax tmax eta eta' verbose form, reachable d -> (eta <= eta')%R ->
  static_equilibrium d kmax tmax eta verbose = Ok form ->
  exists form', static_equilibrium d kmax tmax eta' verbose = Ok form'.
Proof.
  intros d kmax tmax eta eta' verbose form Hr Le E. unfold static_equilibrium in E. apply bind_Ok in E as (st&Es&_).
  assert (X : exists st', equilibrium_state d kmax tmax eta' verbose = Ok st').
  { unfold equilibrium_state in Es |- *. destruct (negb _); [discriminate|].
    apply bind_Ok in Es as (ts&Ets&Es). rewrite Ets. cbn [bind].
    apply bind_Ok in Es as (kl&Ekl&Es). rewrite Ekl. cbn [bind].
    destruct (match kmax with Some km => km <? 0 | None => false end); [discriminate|].
    apply bind_Ok in Es as ([[st1 ot] od]&Ei&Es).
    destruct (iterate_looser d ts kmax eta eta' Le _ _ _ _ _ _ _ Ei) as (st2&ot2&od2&Ei2&O). rewrite Ei2. cbn [bind].
    destruct O as [[-> ->]|(s&x&->&->&Ps&Lx)].
    - destruct ot as [s|]; [|discriminate]. destruct (negb _).
      + destruct od as [y|]; [|discriminate]. destruct (nltb eta y) eqn:L; [discriminate|].
        assert (L' : nltb eta' y = false) by (apply nltb_false; apply nltb_false in L; lra). rewrite L'. eauto.
      + destruct (verbose && _); [discriminate|eauto].
    - assert (Q : (s =? 0)%nat = false) by (apply Nat.eqb_neq; lia). rewrite Q. cbn [negb].
      assert (L' : nltb eta' x = false) by (apply nltb_false; lra). rewrite L'. eauto. }
  destruct X as (st'&E'). eapply static_of_state; eauto. now apply reachable_wf.
Qed.
