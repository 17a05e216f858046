(** * Properties of form finding with arrays *)

From Coq Require Import String List ZArith Bool Lia Permutation Reals Lra.
From Verif Require Import Py PyFacts Num Diagram DiagramFacts Topology SpecDiagram SpecTopology
  TopologyFacts BuildFacts ChainFacts ChainFacts2 History HistoryFacts DiagramThms TopologyThms SequenceThms
  Equilibrium EquilibriumNp SpecEquilibrium EqFacts FormFacts ReadyThms RVec EqThms SpecNumpy NpFacts.
Import ListNotations.
Open Scope R_scope.

Implicit Types (d form : diagram R).

(** An iteration in which no division by zero occurs is the same in both programs. *)
Lemma c41_iteration : forall d ts t a b, reachable d -> ready d ->
  trails_sequences d = Ok ts -> after d ts None t = Ok a -> after d ts None (S t) = Ok b ->
  divides_safely d (negb (Nat.eqb t 0)) a b ->
  exists env, np_containers d = Ok env /\ sweep_numpy d env ts (negb (Nat.eqb t 0)) a = Ok b.
Proof.
  intros d ts t a b Hr Rd Ets Ea Eb Sf. apply reachable_wf in Hr as W.
  destruct (containers_ok d W Rd) as (env&Ee&En). exists env. split; auto.
  destruct (ready_ts d W Rd) as (ts'&Ets'&Hts). rewrite Ets in Ets'. apply Ok_inj in Ets'. subst ts'.
  apply sweep_same; auto; [apply inv_dom; now apply (after_inv d ts None t)|].
  cbn [after] in Eb. rewrite Ea in Eb. exact Eb.
Qed.

(** ** The residual *)

Lemma fold_res_both {S S' A} (Rl : S -> S' -> Prop) (f : S -> A -> res S) (g : S' -> A -> res S') l :
  (forall s s' x y a, In a l -> Rl s s' -> f s a = Ok x -> g s' a = Ok y -> Rl x y) ->
  forall s s' x y, Rl s s' -> fold_res f l s = Ok x -> fold_res g l s' = Ok y -> Rl x y.
Proof.
  induction l as [|a l IH]; intros St s s' x y H0 E E'; cbn [fold_res] in *.
  - apply Ok_inj in E, E'. now subst.
  - apply bind_Ok in E as (s1&E1&E). apply bind_Ok in E' as (s1'&E1'&E').
    eapply (IH (fun s s' x y b J => St s s' x y b (or_intror J)) s1 s1'); eauto. eapply St; eauto. now left.
Qed.

Lemma sqrd_sub_sym (a b : rvec) : length_vector_sqrd (a -v b) = length_vector_sqrd (b -v a).
Proof. vunf. ring. Qed.

(** The root of the sum of the squares is at most the sum of the distances. *)
Lemma residual_le a b x y : residual_distance (T:=R) a b = Ok x -> residual_numpy a b = Ok y -> 0 <= y <= x.
Proof.
  unfold residual_distance, residual_numpy. intros E E'. apply bind_Ok in E' as (s&E'&Es). apply Ok_inj in Es. subst y.
  assert (Q : 0 <= x /\ 0 <= s <= x * x).
  { refine (fold_res_both (fun u w => 0 <= u /\ 0 <= w <= u * u) _ _ b _ n0 n0 x s _ E E').
    - intros u w u1 w1 [k p] _ (P1&P2&P3) F G. cbn [fst snd] in F, G.
      apply bind_Ok in F as (q&Eq&F). apply bind_Ok in G as (q'&Eq'&G). rewrite Eq in Eq'. apply Ok_inj in Eq'. subst q'.
      apply Ok_inj in F, G. subst u1 w1. cbn [nadd R_ops]. rewrite sqrd_sub_sym, <- norm_sq, <- dist_norm.
      assert (N := norm_nonneg (p -v q)). rewrite <- dist_norm in N. set (z := dist q p) in *. nra.
    - cbn [n0 R_ops]. lra. }
  split; [apply sqrt_pos|]. cbn [nsqrt R_ops]. rewrite <- (sqrt_square x) by lra. apply sqrt_le_1; nra.
Qed.

Lemma residual_numpy_total d a b : dkeys a = nodes d -> dkeys b = nodes d -> exists x, residual_numpy (T:=R) a b = Ok x.
Proof.
  intros A B. unfold residual_numpy. assert (Inc : incl (dkeys b) (dkeys a)) by (rewrite A, B; apply incl_refl).
  clear A B. generalize (@n0 R _). induction b as [|[k p] b IH]; intros acc; cbn [fold_res fst snd bind]; [eauto|].
  assert (I : In k (dkeys a)) by (apply Inc; now left). apply In_keys_dget in I as [q Eq].
  unfold dgetr at 1. rewrite Eq. cbn [bind]. apply IH. intros x J. apply Inc. now right.
Qed.

(** Every displacement is at most the residual. *)
Lemma residual_numpy_bound d a b x n p q : dkeys a = nodes d -> dkeys b = nodes d -> NoDup (nodes d) ->
  residual_numpy a b = Ok x -> dget a n = Some p -> dget b n = Some q -> dist p q <= x.
Proof.
  unfold residual_numpy. intros _ B N E Ep Eq. apply bind_Ok in E as (s&E&Es). apply Ok_inj in Es. subst x. cbn [nsqrt R_ops].
  assert (Gen : forall l acc s, fold_res (fun (acc : R) (kp : Z * rvec) => let* lp := dgetr a (fst kp) in
      Ok (nadd acc (length_vector_sqrd (lp -v snd kp)))) l acc = Ok s ->
      acc <= s /\ forall k q, In (k, q) l -> forall p, dget a k = Some p -> acc + dist p q * dist p q <= s).
  { clear. induction l as [|[k q] l IH]; intros acc s E; cbn [fold_res] in E.
    - apply Ok_inj in E. subst. split; [lra|]. intros k q [].
    - apply bind_Ok in E as (acc1&E1&E). apply bind_Ok in E1 as (p1&Ep1&E1). apply Ok_inj in E1. subst acc1.
      cbn [fst snd nadd R_ops] in *. destruct (IH _ _ E) as [L1 L2].
      rewrite sqrd_sub_sym, <- norm_sq, <- dist_norm in L1, L2.
      assert (P := Rle_0_sqr (dist p1 q)). unfold Rsqr in P. split; [lra|].
      intros k' q' [I|I] p Ep.
      + injection I as -> ->. apply dgetr_Ok in Ep1. rewrite Ep in Ep1. apply Some_inj in Ep1. subst p1. exact L1.
      + specialize (L2 k' q' I p Ep). lra. }
  destruct (Gen b 0 s E) as [L0 L]. apply dget_In in Eq. specialize (L n q Eq p Ep).
  assert (P := norm_nonneg (q -v p)). rewrite <- dist_norm in P.
  rewrite <- (sqrt_square (dist p q)) by auto. apply sqrt_le_1; nra.
Qed.

(** ** Iterations *)

Lemma after_next d ts t st : wf d -> ready d -> ts_ok d ts -> after d ts None t = Ok st ->
  exists s1, sweep d ts None (negb (Nat.eqb t 0)) st = Ok s1 /\ after d ts None (S t) = Ok s1 /\ inv d s1.
Proof.
  intros W Rd Hts E. destruct (after_total d ts None W Rd Hts (S t)) as (s1&E1&I1). exists s1. split; auto.
  cbn [after] in E1. rewrite E in E1. exact E1.
Qed.

Definition accepted (eta : R) (od : option R) : Prop :=
  match od with Some x => nltb eta x = false | None => False end.

Definition below (x y : option R) : Prop :=
  match x, y with Some x, Some y => x <= y | None, None => True | _, _ => False end.

Lemma below_accepted eta x y : below y x -> accepted eta x -> accepted eta y.
Proof.
  destruct x as [x|], y as [y|]; cbn; auto; try contradiction. intros B.
  destruct (Rltb_spec eta x) as [L|L]; [intros X; discriminate X|]. intros _. destruct (Rltb_spec eta y); auto. exfalso. lra.
Qed.

(** If the reference program accepts, the other one does, no later. *)
Lemma iterate_both d ts env eta : wf d -> ready d -> ts_ok d ts -> env_ok d env ->
  forall n t od od' st r, (1 <= t)%nat -> runs_safely d ts (t + n) -> after d ts None t = Ok st -> below od' od ->
  iterate d ts None eta n t od st = Ok r -> accepted eta (snd r) ->
  exists r', iterate_numpy d env ts eta n t od' st = Ok r' /\ accepted eta (snd r')
    /\ exists s s', (t <= s <= s')%nat /\ (s' <= t + n)%nat
      /\ after d ts None s = Ok (fst (fst r')) /\ after d ts None s' = Ok (fst (fst r)).
Proof.
  intros W Rd Hts En. induction n as [|n IH]; intros t od od' st r Pt Sf E B It Ac; cbn [iterate iterate_numpy] in *.
  - apply Ok_inj in It. subst r. eexists. split; [reflexivity|]. cbn [fst snd] in *. split.
    + eapply below_accepted; eauto.
    + exists t, t. split; [lia|]. split; [lia|]. auto.
  - destruct (after_next d ts t st W Rd Hts E) as (s1&Es&E1&I1).
    assert (Is := after_inv d ts None t st W E).
    assert (En1 : sweep_numpy d env ts (negb (Nat.eqb t 0)) st = Ok s1).
    { apply sweep_same; auto; [now apply inv_dom|]. apply (Sf t); auto. lia. }
    rewrite Es in It. rewrite En1. cbn [bind] in *.
    assert (Sf1 : runs_safely d ts (S t + n)) by (replace (S t + n)%nat with (t + S n)%nat by lia; exact Sf).
    assert (Et : Nat.eqb t 0 = false) by (apply Nat.eqb_neq; lia). rewrite Et in *.
    destruct (residual_distance (s_xyz st) (s_xyz s1)) as [x|] eqn:Ex; [|discriminate It].
    destruct (residual_numpy_total d (s_xyz st) (s_xyz s1)) as [y Ey]; [apply Is|apply I1|].
    assert (L := residual_le _ _ _ _ Ex Ey). rewrite Ey. cbn [bind] in *. cbn [nltb R_ops] in *.
    destruct (Rltb_spec x eta) as [Lx|Lx].
    + destruct (Rltb_spec y eta) as [Ly|Ly]; [|exfalso; lra]. apply Ok_inj in It. subst r.
      eexists. split; [reflexivity|]. cbn [fst snd] in *. split.
      * apply (below_accepted eta (Some x)); auto. cbn. lra.
      * exists (S t), (S t). split; [lia|]. split; [lia|]. auto.
    + assert (Bxy : below (Some y) (Some x)) by (cbn; lra).
      destruct (IH (S t) (Some x) (Some y) s1 r (le_n_S _ _ (Nat.le_0_l t)) Sf1 E1 Bxy It Ac) as (r'&A1&A2&s&s'&A5&A6&A7&A8).
      destruct (Rltb_spec y eta) as [Ly|Ly].
      * eexists. split; [reflexivity|]. cbn [fst snd]. split.
        -- cbn. destruct (Rltb_spec eta y); auto. exfalso. lra.
        -- exists (S t), s'. split; [lia|]. split; [lia|]. auto.
      * exists r'. split; auto. split; auto. exists s, s'. split; [lia|]. split; [lia|]. auto.
Qed.

(** What the loop returns. *)
Lemma iterate_numpy_spec d ts env eta : wf d -> ready d -> ts_ok d ts -> env_ok d env ->
  forall n t od st st' ot od', (1 <= t)%nat -> (1 <= n)%nat -> runs_safely d ts (t + n) -> after d ts None t = Ok st ->
  iterate_numpy d env ts eta n t od st = Ok (st', ot, od') ->
  exists s x a, (t <= s)%nat /\ (s < t + n)%nat /\ ot = Some s /\ od' = Some x
    /\ after d ts None s = Ok a /\ after d ts None (S s) = Ok st' /\ residual_numpy (s_xyz a) (s_xyz st') = Ok x
    /\ (x < eta \/ s = (t + n - 1)%nat).
Proof.
  intros W Rd Hts En. induction n as [|n IH]; intros t od st st' ot od' Pt Pn Sf E It; [lia|]. cbn [iterate_numpy] in It.
  destruct (after_next d ts t st W Rd Hts E) as (s1&Es&E1&I1).
  assert (Is := after_inv d ts None t st W E).
  assert (En1 : sweep_numpy d env ts (negb (Nat.eqb t 0)) st = Ok s1).
  { apply sweep_same; auto; [now apply inv_dom|]. apply (Sf t); auto. lia. }
  rewrite En1 in It. cbn [bind] in It.
  assert (Et : Nat.eqb t 0 = false) by (apply Nat.eqb_neq; lia). rewrite Et in *.
  destruct (residual_numpy (s_xyz st) (s_xyz s1)) as [y|] eqn:Ey; [|discriminate It]. cbn [bind nltb R_ops] in It.
  destruct (Rltb_spec y eta) as [Ly|Ly].
  - injection It as <- <- <-. exists t, y, st. split; [lia|]. split; [lia|]. auto 10.
  - destruct n as [|n].
    + cbn [iterate_numpy] in It. injection It as <- <- <-. exists t, y, st. split; [lia|]. split; [lia|].
      split; auto. split; auto. split; auto. split; auto. split; auto. right. lia.
    + apply IH in It; auto; try lia.
      2:{ replace (S t + S n)%nat with (t + S (S n))%nat by lia; exact Sf. }
      destruct It as (s&x&a&B1&B2&B3&B4&B5&B6&B7&B8). exists s, x, a. split; [lia|]. split; [lia|].
      do 5 (split; auto). destruct B8; auto. right. lia.
Qed.

(** ** The form *)

Lemma eloop_ext {S A} (P : S -> Prop) (f g : unit -> A -> eff S unit) l : forall s,
  P s -> (forall a s, In a l -> P s -> f tt a s = g tt a s /\ P (fst (f tt a s))) ->
  eloop f l tt s = eloop g l tt s.
Proof.
  induction l as [|a l IH]; intros s Ps H; cbn [eloop]; auto. unfold ebind.
  destruct (H a s (or_introl eq_refl) Ps) as [E Q]. rewrite <- E. destruct (f tt a s) as [s' [[]|e]]; auto.
  apply IH; auto. intros b s0 J. apply H. now right.
Qed.

Lemma ebind_step {S A B} (m : eff S A) (k : A -> eff S B) s s' a : m s = (s', Ok a) -> ebind m k s = k a s'.
Proof. unfold ebind. now intros ->. Qed.

Lemma edge_set_nodes d e f : d_node (fst (edge_set e f d)) = d_node d.
Proof.
  unfold edge_set. destruct (dget (d_edge d) (fst e)) as [nb|]; auto. destruct (dget nb (snd e)); auto.
Qed.

Lemma form_update_same d st : wf d -> inv d st ->
  form_update_numpy st (form_of_topology d) = form_update st (form_of_topology d).
Proof.
  intros W I. unfold form_update, form_update_numpy. set (f0 := form_of_topology d).
  destruct (node_loop (fun p a => set_xyz a p) (s_xyz st) f0) as (x1&E1&K1&X1).
  { rewrite (iv_xyz _ _ I). apply (wf_nodup _ W). }
  { rewrite (iv_xyz _ _ I). apply incl_refl. }
  rewrite !(ebind_step _ _ _ _ _ E1). set (f1 := with_node f0 x1) in *.
  destruct (edge_loop (fun f a => set_force a f) (s_tforce st) f1) as (x2&E2&K2&X2).
  { apply (iv_tforce _ _ I). }
  { intros e J. apply (iv_tforce_in _ _ I), In_edges, has_edge_find in J; auto. }
  rewrite !(ebind_step _ _ _ _ _ E2). set (f2 := with_edge f1 x2) in *.
  assert (N2 : nodes f2 = nodes d) by exact K1.
  destruct (node_loop (fun p a => set_reac a p) (s_reac st) f2) as (x3&E3&K3&X3).
  { apply (iv_reac _ _ I). }
  { rewrite N2. apply (iv_reac_in _ _ I). }
  rewrite !(ebind_step _ _ _ _ _ E3). set (f3 := with_node f2 x3) in *.
  assert (A3 : forall n, In n (nodes d) -> node_coordinates f3 n = dgetr (s_xyz st) n).
  { intros n J. unfold node_coordinates, node_get, dgetr. change (d_node f3) with x3. rewrite X3. change (d_node f2) with x1.
    rewrite X1. change (d_node f0) with (d_node d). assert (J' := J). apply In_keys_dget in J' as [b Eb]. rewrite Eb.
    rewrite <- (iv_xyz _ _ I) in J. apply In_keys_dget in J as [p Ep]. rewrite Ep. cbn [bind].
    now destruct (dget (s_reac st) n). }
  rewrite !(ebind_step (eget (fun d => Ok (edges d))) _ f3 f3 (edges f3) eq_refl).
  assert (E3' : edges f3 = edges d) by (change (edges f3) with (edges f2); rewrite K2; reflexivity). rewrite E3'.
  apply eloop_ext with (P := fun f => d_node f = d_node f3); auto.
  intros e f Ie Pf. assert (Q : forall n, In n (nodes d) -> node_coordinates f n = dgetr (s_xyz st) n).
  { intros n J. rewrite <- A3 by auto. unfold node_coordinates, node_get. now rewrite Pf. }
  apply In_edges, has_edge_find in Ie as [a Ea]; auto. destruct (wf_eends _ W _ _ Ea) as [I1 I2].
  assert (D1 : exists p, dgetr (s_xyz st) (fst e) = Ok p).
  { rewrite <- (iv_xyz _ _ I) in I1. apply In_keys_dget in I1 as [p Ep]. exists p. now apply dgetr_Ok. }
  assert (D2 : exists p, dgetr (s_xyz st) (snd e) = Ok p).
  { rewrite <- (iv_xyz _ _ I) in I2. apply In_keys_dget in I2 as [p Ep]. exists p. now apply dgetr_Ok. }
  destruct D1 as [p1 P1], D2 as [p2 P2]. unfold ebind, eget. rewrite !Q, P1, P2 by auto.
  replace (dist p1 p2) with (norm (p1 -v p2)) by (rewrite dist_sym; reflexivity).
  split; auto. destruct (edge_force f e) as [x|]; [|exact Pf]. rewrite edge_set_nodes. exact Pf.
Qed.

Lemma shows_form d st form : wf d -> inv d st -> form_update st (form_of_topology d) = (form, Ok tt) -> shows d st form.
Proof.
  intros W I E. destruct (form_update_spec d st W I) as (f&Ef&N&Ed&An&Ae&_). rewrite E in Ef. injection Ef as <-.
  split; [|split].
  - intros n J. assert (J' := J). apply In_keys_dget in J' as [b Eb]. rewrite <- (iv_xyz _ _ I) in J.
    apply In_keys_dget in J as [p Ep]. exists p. split; auto. unfold node_coordinates, node_get, dgetr. rewrite An, Eb. cbn [bind].
    unfold node_after. rewrite Ep. now destruct (dget (s_reac st) n).
  - intros e f J. assert (Ie : In e (edges d)) by (apply (iv_tforce_in _ _ I); eapply dget_In_keys; eauto).
    apply In_edges, has_edge_find in Ie as [a Ea]; auto. unfold edge_force, edge_get. rewrite Ae, Ea. cbn.
    unfold force_after. now rewrite J.
  - intros n r J. assert (In1 : In n (nodes d)) by (apply (iv_reac_in _ _ I); eapply dget_In_keys; eauto).
    apply In_keys_dget in In1 as [b Eb]. unfold reaction_force, node_get, dgetr. rewrite An, Eb. cbn [bind].
    unfold node_after. now rewrite J.
Qed.

Lemma equilibrium_state_numpy_unfold d tmax eta verbose ts env : ready d ->
  trails_sequences d = Ok ts -> np_containers d = Ok env ->
  equilibrium_state_numpy d tmax eta verbose =
    let* r := iterate_numpy d env ts eta (Z.to_nat tmax) 0 None (init_state d) in
      let '(st, t, distance) := r in
      match t with
      | None => Err UnboundLocalError
      | Some t =>
          if negb (Nat.eqb t 0) then
            match distance with
            | None => Err UnboundLocalError
            | Some dist => if nltb eta dist then Err (ValueError "Over iters") else Ok st
            end
          else if verbose && match distance with None => true | Some _ => false end
               then Err UnboundLocalError
               else Ok st
      end.
Proof.
  intros Rd Ets Een. unfold equilibrium_state_numpy. rewrite Ets, Een. cbn [bind].
  assert (X : (0 <? number_of_trails d)%Z = true).
  { apply Z.ltb_lt. unfold number_of_trails. assert (Y := rd_some _ Rd). unfold trails in Y.
    destruct (d_trails d); [congruence|cbn; lia]. }
  rewrite X. reflexivity.
Qed.

(** ** General topologies *)

(** Whenever the reference program succeeds without dividing by zero, the other one
    succeeds too, after at most as many iterations, with the form of that iteration. *)
Lemma c41_numpy_succeeds : forall d tmax eta verbose form ts, reachable d -> ready d ->
  trails_sequences d = Ok ts -> runs_safely d ts (Z.to_nat tmax) ->
  static_equilibrium d None tmax eta verbose = Ok form ->
  exists form' t t' a a', static_equilibrium_numpy d tmax eta verbose = Ok form'
    /\ (1 <= t <= t')%nat /\ (t' <= Z.to_nat tmax)%nat
    /\ after d ts None t = Ok a /\ after d ts None t' = Ok a' /\ shows d a form' /\ shows d a' form.
Proof.
  intros d tmax eta verbose form ts Hr Rd Ets Sf E. apply reachable_wf in Hr as W.
  destruct (ready_ts d W Rd) as (ts'&Ets'&Hts). rewrite Ets in Ets'. apply Ok_inj in Ets'. subst ts'.
  destruct (containers_ok d W Rd) as (env&Een&En).
  unfold static_equilibrium in E. apply bind_Ok in E as (st&Es&E).
  destruct (form_update st (form_of_topology d)) as [f [[]|e]] eqn:Ef; [|discriminate E]. apply Ok_inj in E. subst f.
  rewrite (equilibrium_state_unfold d None tmax eta verbose ts W Rd I Ets) in Es.
  assert (Goal' : exists st' t t', equilibrium_state_numpy d tmax eta verbose = Ok st'
    /\ (1 <= t <= t')%nat /\ (t' <= Z.to_nat tmax)%nat /\ after d ts None t = Ok st' /\ after d ts None t' = Ok st).
  { rewrite (equilibrium_state_numpy_unfold d tmax eta verbose ts env Rd Ets Een).
    destruct (Z.to_nat tmax) as [|n] eqn:Et; [discriminate Es|]. cbn [iterate iterate_numpy Nat.eqb negb] in *.
    destruct (after_next d ts 0 (init_state d) W Rd Hts eq_refl) as (s1&Q1&Q2&Q3). cbn [Nat.eqb negb] in Q1.
    assert (N1 : sweep_numpy d env ts false (init_state d) = Ok s1).
    { apply sweep_same; auto; [apply inv_dom, inv_init|]. apply (Sf 0%nat); auto. lia. }
    rewrite Q1 in Es. rewrite N1. cbn [bind] in *. destruct n as [|n].
    - cbn [iterate iterate_numpy bind Nat.eqb negb] in *. exists st, 1%nat, 1%nat.
      destruct verbose; cbn [andb] in *; [discriminate Es|]. apply Ok_inj in Es. subst s1. split; auto.
    - apply bind_Ok in Es as ([[st1 ot] od]&Ei&Es).
      assert (S1 := iterate_spec d ts None eta (S n) 1 None s1 st1 ot od Q2 Ei).
      assert (Ho : exists u x, ot = Some (S u) /\ od = Some x).
      { destruct S1 as [(s&x&B&P&M&L&F&A'&->&->)|(F&A'&->&O2)].
        - destruct s as [|s]; [lia|]. eauto.
        - cbn [Nat.eqb orb Nat.add] in O2. destruct O2 as (x&->&_). cbn [Nat.add]. eauto. }
      destruct Ho as (u&x&->&->). cbn [Nat.eqb negb] in Es.
      destruct (nltb eta x) eqn:L; [discriminate Es|]. apply Ok_inj in Es. subst st1.
      destruct (iterate_both d ts env eta W Rd Hts En (S n) 1 None None s1 _ (le_n 1) Sf Q2 I Ei L)
        as ([[st2 ot2] od2]&A1&A2&s&s'&B1&B2&B3&B4). cbn [fst snd] in *.
      rewrite A1. cbn [bind].
      destruct (iterate_numpy_spec d ts env eta W Rd Hts En (S n) 1 None s1 st2 ot2 od2) as (v&y&a&C1&C2&->&->&_); auto; [lia|].
      destruct v as [|v]; [lia|]. cbn [Nat.eqb negb]. cbn [accepted] in A2. rewrite A2.
      exists st2, s, s'. split; [reflexivity|]. split; [lia|]. split; [lia|]. auto. }
  destruct Goal' as (st'&t&t'&A1&A2&A3&A4&A5).
  assert (I1 := after_inv d ts None t st' W A4). assert (I2 := after_inv d ts None t' st W A5).
  destruct (form_update_spec d st' W I1) as (f'&Ef'&_).
  exists f', t, t', st', st. unfold static_equilibrium_numpy. rewrite A1. cbn [bind].
  rewrite form_update_same, Ef' by auto. split; auto. split; auto. split; auto. split; auto. split; auto.
  split; eapply shows_form; eauto.
Qed.

(** The last iteration of a successful run moves no node by more than the threshold. *)
Lemma c41_numpy_displacement : forall d tmax eta verbose form ts, reachable d -> ready d ->
  trails_sequences d = Ok ts -> runs_safely d ts (Z.to_nat tmax) -> (2 <= tmax)%Z ->
  static_equilibrium_numpy d tmax eta verbose = Ok form ->
  exists t a b, (1 <= t)%nat /\ (Z.of_nat t < tmax)%Z /\ after d ts None t = Ok a /\ after d ts None (S t) = Ok b
    /\ shows d b form
    /\ forall n p q, at_position a n p -> at_position b n q -> dist p q <= eta.
Proof.
  intros d tmax eta verbose form ts Hr Rd Ets Sf L2 E. apply reachable_wf in Hr as W.
  destruct (ready_ts d W Rd) as (ts'&Ets'&Hts). rewrite Ets in Ets'. apply Ok_inj in Ets'. subst ts'.
  destruct (containers_ok d W Rd) as (env&Een&En).
  unfold static_equilibrium_numpy in E. apply bind_Ok in E as (st&Es&E).
  rewrite (equilibrium_state_numpy_unfold d tmax eta verbose ts env Rd Ets Een) in Es.
  destruct (Z.to_nat tmax) as [|[|n]] eqn:Et; [lia|lia|].
  change (iterate_numpy d env ts eta (S (S n)) 0 None (init_state d))
    with (let* st' := sweep_numpy d env ts false (init_state d) in iterate_numpy d env ts eta (S n) 1 None st') in Es.
  destruct (after_next d ts 0 (init_state d) W Rd Hts eq_refl) as (s1&Q1&Q2&Q3). cbn [Nat.eqb negb] in Q1.
  assert (N1 : sweep_numpy d env ts false (init_state d) = Ok s1).
  { apply sweep_same; auto; [apply inv_dom, inv_init|]. apply (Sf 0%nat); auto. lia. }
  rewrite N1 in Es. cbn [bind] in Es. apply bind_Ok in Es as ([[st2 ot2] od2]&Ei&Es).
  destruct (iterate_numpy_spec d ts env eta W Rd Hts En (S n) 1 None s1 st2 ot2 od2) as (v&y&a&C1&C2&->&->&B5&B6&B7&_); auto; [lia|].
  destruct v as [|v]; [lia|]. cbn [Nat.eqb negb nltb R_ops] in Es.
  destruct (Rltb_spec eta y) as [Ly|Ly]; [discriminate Es|]. apply Ok_inj in Es. subst st2.
  assert (I1 := after_inv d ts None _ st W B6). assert (I0 := after_inv d ts None _ a W B5).
  exists (S v), a, st. split; [lia|]. split; [lia|]. split; auto. split; auto. split.
  - rewrite form_update_same in E by auto.
    destruct (form_update st (form_of_topology d)) as [f [[]|e]] eqn:Ef; [|discriminate E]. apply Ok_inj in E. subst f.
    now apply shows_form.
  - intros m p q Ep Eq. apply Rle_trans with y; [|lra].
    apply (residual_numpy_bound d (s_xyz a) (s_xyz st) y m p q); auto; [apply I0|apply I1|apply W].
Qed.

(** ** Direct topologies *)

Lemma residual_self d a : dkeys a = nodes d -> NoDup (nodes d) ->
  residual_distance (T:=R) a a = Ok 0 /\ residual_numpy (T:=R) a a = Ok 0.
Proof.
  intros A N. rewrite <- A in N. unfold residual_distance, residual_numpy.
  assert (Q : forall l, incl l a ->
     fold_res (fun (acc : R) (kp : Z * rvec) => let* lp := dgetr a (fst kp) in Ok (nadd acc (dist lp (snd kp)))) l 0 = Ok 0
     /\ fold_res (fun (acc : R) (kp : Z * rvec) => let* lp := dgetr a (fst kp) in
          Ok (nadd acc (length_vector_sqrd (lp -v snd kp)))) l 0 = Ok 0).
  { induction l as [|[k p] l IH]; intros Inc; cbn [fold_res fst snd]; auto.
    assert (Ek : dget a k = Some p) by (apply In_dget; auto; apply Inc; now left).
    assert (Q1 : dgetr a k = Ok p) by now apply dgetr_Ok.
    destruct (IH (fun x J => Inc x (or_intror J))) as [IH1 IH2].
    rewrite !Q1. cbn [bind]. rewrite dist_self, vsub_self.
    replace (nadd 0 0) with 0 by (cbn; ring). replace (nadd 0 (length_vector_sqrd v0)) with 0 by (vunf; ring). auto. }
  destruct (Q a (incl_refl _)) as [Q1 Q2]. change (@n0 R R_ops) with 0. rewrite Q1, Q2. cbn [bind nsqrt R_ops].
  now rewrite sqrt_0.
Qed.

Lemma state_direct : forall d eta0 form0, reachable d -> ready d -> direct_only d ->
  static_equilibrium d None 1 eta0 false = Ok form0 -> form_is_sound d form0 ->
  forall tmax eta verbose, equilibrium_state_numpy d tmax eta verbose = equilibrium_state d None tmax eta verbose.
Proof.
  intros d eta0 form0 Hr Rd Di E0 (Snd1&Snd2). apply reachable_wf in Hr as W.
  destruct (ready_ts d W Rd) as (ts&Ets&Hts). destruct (containers_ok d W Rd) as (env&Een&En).
  assert (E0' := E0). apply static_Ok in E0' as (st1&Es1&I1&N1&Ed1&An&Ae&_); auto.
  rewrite (one_iteration d None eta0 ts W Rd I Ets) in Es1.
  assert (Sw : forall t a b, after d ts None t = Ok a -> after d ts None (S t) = Ok b -> b = st1).
  { intros t a b _ E. rewrite (direct_after d ts None t W Rd Hts Di) in E. rewrite Es1 in E. now apply Ok_inj in E. }
  assert (Safe : forall later a, divides_safely d later a st1).
  { intros later a. constructor.
    - intros u v p q Iuv _ Pu Pv. apply In_deviation_edges in Iuv as (at1&Ea&Ta); auto.
      destruct (wf_eends _ W _ _ Ea) as [Iu Iv]. cbn [fst snd] in *.
      assert (C : forall n p, In n (nodes d) -> at_position st1 n p -> node_coordinates form0 n = Ok p).
      { intros n p0 J Pn. unfold node_coordinates, node_get, dgetr. rewrite An. apply In_keys_dget in J as [b Eb].
        rewrite Eb. cbn [bind]. unfold node_after, at_position in *. rewrite Pn. now destruct (dget (s_reac st1) n). }
      apply (Snd1 u v p q); auto. apply In_deviation_edges; eauto.
    - intros u v p q _ Iuv Ns. exfalso. apply Ns. destruct Iuv as [Iuv|Iuv]; [|symmetry]; now apply Di.
    - intros e f Ef. assert (Ie : In e (edges d)) by (apply (iv_tforce_in _ _ I1); eapply dget_In_keys; eauto).
      apply In_edges, has_edge_find in Ie as [a1 Ea]; auto.
      assert (Ty : ea_type a1 = Some ETrail).
      { destruct (ea_type a1) as [[]|] eqn:Ty; auto; exfalso;
          destruct (after_fixed d ts None 1 st1 W Rd Hts Es1) as (_&_&F3); rewrite F3 in Ef; try discriminate Ef;
          intros n m F _ ->; destruct (trail_key_edge d n m W Rd F) as (b&Eb&Tb&_); congruence. }
      apply (Snd2 e f); [apply In_trail_edges; eauto|].
      unfold edge_force, edge_get. rewrite Ae, Ea. cbn. unfold force_after. now rewrite Ef. }
  assert (It : forall eta n t od st, after d ts None t = Ok st ->
    iterate_numpy d env ts eta n t od st = iterate d ts None eta n t od st).
  { intros eta. induction n as [|n IH]; intros t od st E; cbn [iterate iterate_numpy]; auto.
    destruct (after_next d ts t st W Rd Hts E) as (s1&Es&E1&_). assert (s1 = st1) by (exact (Sw t st s1 E E1)). subst s1.
    assert (En1 : sweep_numpy d env ts (negb (Nat.eqb t 0)) st = Ok st1).
    { apply sweep_same; auto. apply inv_dom. now apply (after_inv d ts None t). }
    rewrite Es, En1. cbn [bind]. destruct t as [|t]; cbn [Nat.eqb]; [now apply IH|].
    assert (st = st1).
    { destruct (after_total d ts None W Rd Hts t) as (s0&E0'&_). exact (Sw t s0 st E0' E). }
    subst st. destruct (residual_self d (s_xyz st1)) as [-> ->]; [apply I1|apply W|]. cbn [bind].
    destruct (nltb 0 eta); auto. }
  intros tmax eta verbose.
  rewrite (equilibrium_state_unfold d None tmax eta verbose ts W Rd I Ets).
  rewrite (equilibrium_state_numpy_unfold d tmax eta verbose ts env Rd Ets Een). now rewrite It by reflexivity.
Qed.

(** On a direct topology whose form (of a single iteration) has no coincident ends
    of a deviation edge and no trail edge without force, the two programs are the
    same function of the number of iterations and the threshold, errors included. *)
Lemma c41_direct : forall d eta0 form0, reachable d -> ready d -> direct_only d ->
  static_equilibrium d None 1 eta0 false = Ok form0 -> form_is_sound d form0 ->
  forall tmax eta verbose, static_equilibrium_numpy d tmax eta verbose = static_equilibrium d None tmax eta verbose.
Proof.
  intros d eta0 form0 Hr Rd Di E0 Snd tmax eta verbose. apply reachable_wf in Hr as W.
  unfold static_equilibrium, static_equilibrium_numpy. rewrite (state_direct d eta0 form0 Hr Rd Di E0 Snd).
  destruct (equilibrium_state d None tmax eta verbose) as [st|e] eqn:Es; [|reflexivity]. cbn [bind].
  apply equilibrium_state_Ok in Es as (ts&t&_&_&A&_). now rewrite (form_update_same d st W (after_inv d ts None t st W A)).
Qed.
