(** * What the counters count *)

From Coq Require Import String List ZArith Bool Lia Permutation.
From Verif Require Import Py PyFacts Num Diagram DiagramFacts Topology TopologyFacts History HistoryFacts SpecDiagram SpecTopology ChainFacts
  TopologyThms SequenceThms SpecEquilibrium ReadyThms QueryThms DiagramThms.
Import ListNotations.
Open Scope Z_scope.

Definition ekey_dec : forall e e' : ekey, {e = e'} + {e <> e'}.
Proof. decide equality; apply Z.eq_dec. Defined.

Lemma counts_list {A} (P : A -> Prop) l : NoDup l -> (forall x, In x l <-> P x) -> counts P (Z.of_nat (List.length l)).
Proof. intros N E. exists l. auto. Qed.

Lemma same_length {A} (l l' : list A) : NoDup l -> NoDup l' -> (forall x, In x l <-> In x l') -> List.length l = List.length l'.
Proof.
  intros N N' E. apply Nat.le_antisymm; apply NoDup_incl_length; auto; intros x I; now apply E.
Qed.

(** The pairs of consecutive items *)
Fixpoint pairs (p : list Z) : list ekey :=
  match p with
  | a :: (b :: _) as q => (a, b) :: pairs q
  | _ => []
  end.

Lemma In_pairs p a b : In (a, b) (pairs p) <-> consecutive p a b.
Proof.
  induction p as [|x p IH]; [split; [intros []|intros ([|y l]&r&E); discriminate E]|].
  destruct p as [|y p]; [split; [intros []|intros ([|z [|w l]]&r&E); discriminate E]|].
  change (pairs (x :: y :: p)) with ((x, y) :: pairs (y :: p)). cbn [In]. rewrite IH. split.
  - intros [E|(l&r&E)]; [injection E as <- <-; exists [], p; reflexivity|]. exists (x :: l), r. cbn. now rewrite E.
  - intros ([|z l]&r&E); cbn in E; [injection E as -> -> ->; now left|]. right. injection E as -> E. exists l, r. exact E.
Qed.

Lemma pairs_fst p a b : In (a, b) (pairs p) -> In a p /\ In b p.
Proof. intros I. apply In_pairs in I as (l&r&->). split; apply in_or_app; right; cbn; auto. Qed.

Lemma pairs_length p : p <> [] -> (List.length (pairs p) + 1 = List.length p)%nat.
Proof.
  induction p as [|x p IH]; [congruence|]. intros _. destruct p as [|y p]; [reflexivity|].
  change (pairs (x :: y :: p)) with ((x, y) :: pairs (y :: p)). cbn [List.length] in *. rewrite <- IH by discriminate. lia.
Qed.

Lemma pairs_NoDup p : NoDup p -> NoDup (map fst (pairs p)).
Proof.
  induction p as [|x p IH]; intros N; [constructor|]. destruct p as [|y p]; [constructor|].
  change (pairs (x :: y :: p)) with ((x, y) :: pairs (y :: p)). inversion N; subst. cbn [map fst]. constructor; [|auto].
  intros I. apply in_map_iff in I as ([a b]&E&I). cbn in E. subst. apply pairs_fst in I. tauto.
Qed.

(* the first nodes of the pairs of several lists *)
Lemma all_pairs_NoDup P : NoDup (concat P) -> NoDup (map fst (flat_map pairs P)).
Proof.
  induction P as [|p P IH]; intros N; [constructor|]. cbn [flat_map concat] in *. rewrite map_app. apply NoDup_app_intro.
  - apply pairs_NoDup. eapply NoDup_concat_In with (P := p :: P); [exact N|now left].
  - apply IH. clear - N. induction p as [|a p IHp]; [exact N|]. apply IHp. now inversion N.
  - intros x I1 I2. apply in_map_iff in I1 as ([a b]&<-&I1). apply in_map_iff in I2 as ([c e]&E&I2). cbn in E. subst c.
    apply pairs_fst in I1 as [I1 _]. apply in_flat_map in I2 as (q&Iq&I2). apply pairs_fst in I2 as [I2 _].
    eapply NoDup_app_disj; [exact N|exact I1|]. apply in_concat. eauto.
Qed.

Lemma all_pairs_length P : (forall p, In p P -> p <> []) -> (List.length (flat_map pairs P) + List.length P = List.length (concat P))%nat.
Proof.
  induction P as [|p P IH]; intros NE; [reflexivity|]. cbn [flat_map concat List.length]. rewrite !app_length.
  assert (L := pairs_length p (NE p (or_introl eq_refl))). rewrite <- IH by (intros; apply NE; now right). lia.
Qed.

Section Counts.
  Context {T : Type} `{NumOps T}.
  Implicit Types (d : diagram T).

  (** ** C81 — counters *)

  (** Each counter counts what its name says. *)
  Lemma c81_counts : forall d, reachable d ->
    counts (fun n => is_node_support d n = Ok true) (number_of_support_nodes d)
    /\ counts (fun e => is_trail_edge d e = Ok true) (number_of_trail_edges d)
    /\ counts (fun e => is_deviation_edge d e = Ok true) (number_of_deviation_edges d)
    /\ counts (fun key => exists tr, In (key, tr) (trails d)) (number_of_trails d)
    /\ counts (fun e => is_auxiliary_trail_edge d e = true) (number_of_auxiliary_trails d)
    /\ (exists m, number_of_loaded_nodes d = Ok m
          /\ counts (fun n => exists q, node_load d n = Ok q /\ nltb neps6 (length_vector q) = true) m)
    /\ number_of_trail_edges d + number_of_deviation_edges d = Z.of_nat (List.length (edges d)).
  Proof.
    intros d R. assert (W := reachable_wf d R). assert (Pd : produced d) by now left.
    destruct (c67_edges d Pd) as (Pm&NE&Ek&Em).
    assert (ND : NoDup (trail_edges d ++ deviation_edges d)) by (eapply Permutation_NoDup; eauto).
    assert (Ie : forall e, In e (trail_edges d) \/ In e (deviation_edges d) -> In e (edges d)).
    { intros e X. apply (Permutation_in _ (Permutation_sym Pm)). now apply in_or_app. }
    assert (Ex : forall e, In e (trail_edges d) -> In e (deviation_edges d) -> False) by (intros e; apply NoDup_app_disj; exact ND).
    split; [|split; [|split; [|split; [|split; [|split]]]]].
    - apply counts_list; [apply (c67_nodes d Pd)|]. intros n. now apply In_support_is.
    - apply counts_list; [eapply NoDup_app_l; exact ND|]. intros e. split.
      + intros I. destruct (Ek e (Ie e (or_introl I))) as [(A&_)|(_&_&B)]; [exact A|destruct (Ex e I B)].
      + intros E. destruct (in_dec ekey_dec e (edges d)) as [I|I].
        * destruct (Ek e I) as [(_&_&A)|(B&_)]; [exact A|congruence].
        * destruct (Em e I). congruence.
    - apply counts_list; [eapply NoDup_app_r; exact ND|]. intros e. split.
      + intros I. destruct (Ek e (Ie e (or_intror I))) as [(_&_&B)|(_&A&_)]; [destruct (Ex e B I)|exact A].
      + intros E. destruct (in_dec ekey_dec e (edges d)) as [I|I].
        * destruct (Ek e I) as [(_&B&_)|(_&_&A)]; [congruence|exact A].
        * destruct (Em e I). congruence.
    - unfold number_of_trails. rewrite <- (map_length fst). apply counts_list; [apply (wf_tnodup _ W)|].
      intros k. rewrite in_map_iff. split; [intros ([k' tr]&<-&I); exists tr; exact I|intros [tr I]; exists (k, tr); auto].
    - destruct (reachable_registered d R) as [_ (ps&E&N)]. unfold number_of_auxiliary_trails. rewrite E, map_length.
      apply counts_list; [exact N|]. intros e. unfold is_auxiliary_trail_edge. rewrite (@memb_In ekey _), E. unfold dvalues. rewrite map_map. cbn.
      now rewrite map_id.
    - destruct (c67_loaded d neps6 Pd) as (l&E&N&K). unfold number_of_loaded_nodes. rewrite E. cbn. eexists. split; [reflexivity|].
      now apply counts_list.
    - unfold number_of_trail_edges, number_of_deviation_edges. rewrite (Permutation_length Pm), app_length. lia.
  Qed.

  (** Once every node has a sequence, the deviation edges are direct or indirect. *)
  Lemma c81_deviations : forall d, reachable d -> sequenced d ->
    exists i j, number_of_direct_deviation_edges d = Ok i /\ number_of_indirect_deviation_edges d = Ok j
      /\ counts (fun e => In e (deviation_edges d) /\ node_sequence d (fst e) = node_sequence d (snd e)) i
      /\ counts (fun e => In e (deviation_edges d) /\ node_sequence d (fst e) <> node_sequence d (snd e)) j
      /\ i + j = number_of_deviation_edges d.
  Proof.
    intros d R S. destruct (c22_direct_indirect d R S) as (ds&is&Ed&Ei&Kd&Ki&Pm&ND&_).
    assert (N2 : NoDup (ds ++ is)) by (eapply Permutation_NoDup; [apply Permutation_sym; exact Pm|exact ND]).
    assert (Nd : forall u v, In (u, v) (deviation_edges d) -> In u (nodes d) /\ In v (nodes d)).
    { intros u v I. assert (W := reachable_wf d R). apply In_deviation_edges in I as (a&Ea&_); [|exact W]. exact (wf_eends _ W _ _ Ea). }
    unfold number_of_direct_deviation_edges, number_of_indirect_deviation_edges. rewrite Ed, Ei. cbn.
    eexists. eexists. split; [reflexivity|]. split; [reflexivity|]. split; [|split].
    - apply counts_list; [eapply NoDup_app_l; exact N2|]. intros [u v]. rewrite Kd. cbn. split.
      + intros (I&k&A&B). split; [exact I|congruence].
      + intros (I&E). split; [exact I|]. destruct (S u (proj1 (Nd u v I))) as [k Ek]. exists k. split; congruence.
    - apply counts_list; [eapply NoDup_app_r; exact N2|]. intros [u v]. rewrite Ki. cbn. split.
      + intros (I&j&k&A&B&Ne). split; [exact I|congruence].
      + intros (I&E). split; [exact I|]. destruct (S u (proj1 (Nd u v I))) as [j Ej]. destruct (S v (proj2 (Nd u v I))) as [k Ek].
        exists j, k. split; [exact Ej|]. split; [exact Ek|]. congruence.
    - unfold number_of_deviation_edges. rewrite <- (Permutation_length Pm), app_length. lia.
  Qed.

  (** A topology that is ready for form finding has one support per trail, and one trail edge less than nodes on each. *)
  Lemma c81_ready : forall d, reachable d -> ready d ->
    number_of_trails d = number_of_support_nodes d
    /\ number_of_trail_edges d + number_of_trails d = Z.of_nat (List.length (nodes d)).
  Proof.
    intros d R Rd. assert (W := reachable_wf d R). destruct (rd_chains _ Rd) as [Sg L2 Dj Nn Ej Sp].
    assert (NE : forall p, In p (stored d) -> p <> []) by (intros p I ->; specialize (L2 [] I); cbn in L2; lia).
    assert (Ls : number_of_trails d = Z.of_nat (List.length (stored d))) by (unfold number_of_trails, stored, trails; now rewrite map_length).
    split.
    - rewrite Ls. unfold number_of_support_nodes. f_equal. rewrite <- (map_length (fun p => List.last p 0)). apply same_length.
      + assert (G : forall P, NoDup (concat P) -> (forall p, In p P -> p <> []) -> NoDup (map (fun p => List.last p 0) P)).
        { induction P as [|p P IH]; intros N E; [constructor|]. cbn [map]. constructor.
          - intros I. apply in_map_iff in I as (q&El&Iq). destruct (exists_last (E p (or_introl eq_refl))) as (p'&a&->).
            destruct (exists_last (E q (or_intror Iq))) as (q'&b&->). rewrite !last_last in El. subst b. cbn [concat] in N.
            eapply NoDup_app_disj; [exact N| |]; [apply in_or_app; right; left; reflexivity|].
            apply in_concat. exists (q' ++ [a]). split; [exact Iq|]. apply in_or_app. right. now left.
          - apply IH; [eapply NoDup_app_r; exact N|]. intros q Iq. apply E. now right. }
        now apply G.
      + apply (c67_nodes d (or_introl R)).
      + intros n. rewrite Sp, in_map_iff. split.
        * intros (p&<-&I). exists p. split; [exact I|]. destruct (exists_last (NE p I)) as (p'&a&->). rewrite last_last. now exists p'.
        * intros (p&I&l&->). exists (l ++ [n]). rewrite last_last. auto.
    - assert (Lc : List.length (concat (stored d)) = List.length (nodes d)).
      { apply same_length; [exact Dj|apply (wf_nodup _ W)|]. intros n. split; [apply Nn|apply (rd_covers _ Rd)]. }
      assert (La := all_pairs_length _ NE).
      assert (Lt : List.length (trail_edges d) = List.length (flat_map pairs (stored d))).
      { set (L := flat_map pairs (stored d)). set (g := fun e : ekey => if in_dec ekey_dec e L then e else (snd e, fst e)).
        assert (InL : forall a b, In (a, b) L <-> exists p, In p (stored d) /\ consecutive p a b).
        { intros a b. unfold L. rewrite in_flat_map. split; intros (p&I&C); exists p; (split; [exact I|]); now apply In_pairs. }
        assert (Te : forall e, In e (trail_edges d) -> In e (edges d)).
        { intros e I. destruct (c67_edges d (or_introl R)) as (Pm&_). apply (Permutation_in _ (Permutation_sym Pm)), in_or_app. now left. }
        assert (G : forall e, In e (trail_edges d) -> In (g e) L).
        { intros [u v] I. unfold g. destruct (in_dec ekey_dec (u, v) L) as [J|J]; [exact J|]. cbn [fst snd].
          destruct (proj1 (Ej u v) (or_introl I)) as (p&Ip&[C|C]); apply InL; [|now exists p].
          destruct J. apply InL. now exists p. }
        rewrite <- (map_length g). apply same_length.
        - destruct (c67_edges d (or_introl R)) as (Pm&NDe&_). apply NoDup_map_inj; [eapply NoDup_app_l; exact (Permutation_NoDup Pm NDe)|].
          intros [u v] [x y] I J E. unfold g in E. destruct (in_dec ekey_dec (u, v) L), (in_dec ekey_dec (x, y) L); cbn in E; injection E as -> ->; try reflexivity.
          + destruct (Sg _ _ (Te _ I) (Te _ J)).
          + destruct (Sg _ _ (Te _ I) (Te _ J)).
        - apply (NoDup_map_inv fst). apply all_pairs_NoDup. exact Dj.
        - intros [a b]. split.
          + intros I. apply in_map_iff in I as (e&<-&I). now apply G.
          + intros I. destruct (proj2 (Ej a b)) as [J|J]; [apply InL in I as (p&Ip&C); exists p; auto| |].
            * apply in_map_iff. exists (a, b). split; [|exact J]. unfold g. now destruct (in_dec ekey_dec (a, b) L).
            * apply in_map_iff. exists (b, a). split; [|exact J]. unfold g. cbn. destruct (in_dec ekey_dec (b, a) L) as [X|X]; [|reflexivity].
              exfalso. apply InL in I as (p&Ip&C), X as (q&Iq&C').
              assert (a_in : In a p /\ In a q).
              { split; [apply (pairs_fst p a b)|apply (pairs_fst q b a)]; now apply In_pairs. }
              assert (q = p) as -> by (apply (concat_disjoint (stored d) q p a Dj); tauto).
              assert (Np := NoDup_concat_In _ _ Dj Ip). apply consecutive_nth in C as (i&A1&A2), C' as (j&B1&B2).
              assert (j = S i) by (eapply NoDup_nth_error_inj; eauto). assert (i = S j) by (eapply NoDup_nth_error_inj; eauto). lia. }
      rewrite Ls. unfold number_of_trail_edges. rewrite Lt, <- Lc, <- La. lia.
  Qed.
End Counts.
