(** * build_trails on well-posed topologies *)

From Coq Require Import String List ZArith Bool Lia Permutation.
From Verif Require Import Py PyFacts Num Diagram DiagramFacts Topology SpecTopology TopologyFacts BuildFacts.
Import ListNotations.
Open Scope Z_scope.

(** ** Lists *)

Lemma NoDup_nth_error_inj {A} (l : list A) i j x :
  NoDup l -> nth_error l i = Some x -> nth_error l j = Some x -> i = j.
Proof.
  intros ND Hi Hj. rewrite NoDup_nth_error in ND. apply ND.
  - apply nth_error_Some. congruence.
  - congruence.
Qed.

Lemma chained_nth R l i x y :
  chained R l -> nth_error l i = Some x -> nth_error l (S i) = Some y -> R x y.
Proof.
  revert i. induction l as [|a l IH]; intros i C Hx Hy; [destruct i; discriminate|].
  destruct l as [|b l]; [destruct i; cbn in Hy; [discriminate|destruct i; discriminate]|].
  destruct C as [C1 C2]. destruct i as [|i].
  - cbn in *. congruence.
  - apply (IH i); auto.
Qed.

Lemma consecutive_nth p a b :
  consecutive p a b <-> exists i, nth_error p i = Some a /\ nth_error p (S i) = Some b.
Proof.
  split.
  - intros (l&r&->). exists (List.length l). split.
    + rewrite nth_error_app2, Nat.sub_diag by lia. reflexivity.
    + rewrite nth_error_app2 by lia. replace (S (List.length l) - List.length l)%nat with 1%nat by lia.
      reflexivity.
  - intros (i&Ha&Hb). destruct (nth_error_split p i Ha) as (l&r&->&Hl).
    exists l. destruct r as [|c r].
    + rewrite nth_error_app2 in Hb by lia. replace (S i - List.length l)%nat with 1%nat in Hb by lia.
      discriminate.
    + exists r. rewrite nth_error_app2 in Hb by lia.
      replace (S i - List.length l)%nat with 1%nat in Hb by lia. cbn in Hb. injection Hb as ->. auto.
Qed.

Lemma nth_error_rev {A} (l : list A) i :
  (i < List.length l)%nat -> nth_error (rev l) i = nth_error l (List.length l - 1 - i).
Proof.
  revert i. induction l as [|a l IH]; cbn [List.length]; intros i Hi; [lia|]. cbn [rev].
  destruct (Nat.eq_dec i (List.length l)) as [->|Hne].
  - rewrite nth_error_app2 by (rewrite rev_length; lia). rewrite rev_length, Nat.sub_diag.
    replace (S (List.length l) - 1 - List.length l)%nat with 0%nat by lia. reflexivity.
  - rewrite nth_error_app1 by (rewrite rev_length; lia). rewrite IH by lia.
    replace (S (List.length l) - 1 - i)%nat with (S (List.length l - 1 - i)) by lia. reflexivity.
Qed.

Lemma consecutive_rev p a b : consecutive (rev p) a b <-> consecutive p b a.
Proof.
  assert (Dir : forall q x y, consecutive q x y -> consecutive (rev q) y x).
  { intros q x y (l&r&->). exists (rev r), (rev l). rewrite rev_app_distr. cbn.
    now rewrite <- !app_assoc. }
  split; intros C; apply Dir in C; auto. now rewrite rev_involutive in C.
Qed.

Lemma NoDup_concat_In {A} (P : list (list A)) p : NoDup (concat P) -> In p P -> NoDup p.
Proof.
  induction P as [|q P IH]; cbn; intros ND I; [contradiction|].
  destruct I as [->|I].
  - clear IH. induction p as [|a p IH]; [constructor|]. cbn in ND.
    inversion ND as [|? ? Hn ND']; subst. constructor; auto.
    intros X. apply Hn. apply in_or_app. auto.
  - apply IH; auto. clear -ND. induction q as [|a q IH]; auto. apply IH. cbn in ND. now inversion ND.
Qed.

Lemma NoDup_app_disj {A} (l1 l2 : list A) x : NoDup (l1 ++ l2) -> In x l1 -> In x l2 -> False.
Proof.
  induction l1 as [|a l1 IH]; cbn; [tauto|]. inversion 1 as [|? ? Hn ND]; subst.
  intros [->|I1] I2; auto. apply Hn. apply in_or_app. auto.
Qed.

Lemma NoDup_app_r {A} (l1 l2 : list A) : NoDup (l1 ++ l2) -> NoDup l2.
Proof. induction l1 as [|a l1 IH]; cbn; auto. inversion 1; subst; auto. Qed.

Lemma NoDup_app_l {A} (l1 l2 : list A) : NoDup (l1 ++ l2) -> NoDup l1.
Proof.
  induction l1 as [|a l1 IH]; cbn; [constructor|]. inversion 1 as [|? ? Hn ND]; subst.
  constructor; auto. intros I. apply Hn. apply in_or_app. auto.
Qed.

Lemma concat_disjoint {A} (P : list (list A)) p q x :
  NoDup (concat P) -> In p P -> In q P -> In x p -> In x q -> p = q.
Proof.
  induction P as [|r P IH]; cbn; intros ND Ip Iq Xp Xq; [contradiction|].
  assert (C : forall s, In s P -> In x s -> In x (concat P)).
  { intros s Is Xs. apply in_concat. exists s. auto. }
  destruct Ip as [->|Ip], Iq as [->|Iq]; auto.
  - exfalso. eapply NoDup_app_disj; eauto.
  - exfalso. eapply NoDup_app_disj; eauto.
  - apply IH; auto. eapply NoDup_app_r; eauto.
Qed.

Section Facts.
  Context {T : Type} `{NumOps T}.
  Implicit Types (d : diagram T).

  Lemma chains_tj d P a b : wf d -> chains d P ->
    (tj d a b <-> exists p, In p P /\ (consecutive p a b \/ consecutive p b a)).
  Proof.
    intros W C. rewrite <- (ch_edges _ _ C a b). split.
    - now apply tjoin_joined.
    - apply joined_tjoin; auto. apply C.
  Qed.

  (** A walk from the support of a chain is that chain reversed. *)
  Lemma walked_chain d P p s tr o :
    wf d -> chains d P -> In p P -> ends_in p s -> walked d s tr o -> tr = rev p.
  Proof.
    intros W C Ip Es [Hh Hl Hn Hc He].
    assert (NDp : NoDup p) by (eapply NoDup_concat_In; [apply C|auto]).
    assert (NDc : NoDup (rev p)) by (now apply NoDup_rev).
    assert (Hadj : forall x y, In x (rev p) -> tj d x y ->
              consecutive (rev p) x y \/ consecutive (rev p) y x).
    { intros x y Ix J. apply (chains_tj d P) in J as [q [Iq Cq]]; auto.
      assert (q = p).
      { apply (concat_disjoint P q p x); auto; [apply C| |now apply in_rev].
        destruct Cq as [(l&r&->)|(l&r&->)]; apply in_or_app; right; cbn; auto. }
      subst q. rewrite !consecutive_rev. tauto. }
    destruct He as [[NDt Hmax]|(l&_&_&Hoo)].
    2:{ exfalso. eapply tj_irrefl; eauto. apply C. }
    assert (Pre : forall i x, nth_error tr i = Some x -> nth_error (rev p) i = Some x).
    { intros i. induction i as [i IH] using lt_wf_ind. intros x Hx. destruct i as [|i].
      - destruct Hh as [r ->]. cbn in Hx. injection Hx as <-. destruct Es as [q ->].
        rewrite rev_app_distr. reflexivity.
      - destruct (nth_error tr i) as [y|] eqn:Ey.
        2:{ apply nth_error_None in Ey. assert (nth_error tr (S i) <> None) by congruence.
            apply nth_error_Some in H0. lia. }
        assert (Hy := IH i (Nat.lt_succ_diag_r i) y Ey).
        assert (J := chained_nth _ _ i y x Hc Ey Hx).
        destruct (Hadj y x) as [Cn|Cn]; auto.
        + eapply nth_error_In; eauto.
        + apply consecutive_nth in Cn as (j&A&B).
          rewrite (NoDup_nth_error_inj _ i j y NDc Hy A). exact B.
        + apply consecutive_nth in Cn as (j&A&B).
          assert (E := NoDup_nth_error_inj _ i (S j) y NDc Hy B). subst i.
          destruct (nth_error tr j) as [w|] eqn:Ew.
          2:{ apply nth_error_None in Ew. assert (nth_error tr (S j) <> None) by congruence.
              apply nth_error_Some in H0. lia. }
          assert (Hw := IH j (le_S _ _ (le_n _)) w Ew). rewrite A in Hw. injection Hw as <-.
          exfalso. assert (X := NoDup_nth_error_inj _ j (S (S j)) x NDt Ew Hx). lia. }
    assert (Len : (List.length tr <= List.length (rev p))%nat).
    { destruct (Nat.le_gt_cases (List.length tr) (List.length (rev p))) as [|Hgt]; auto.
      destruct (nth_error tr (List.length (rev p))) as [x|] eqn:Ex.
      - apply Pre in Ex. assert (X : nth_error (rev p) (List.length (rev p)) <> None) by congruence.
        apply nth_error_Some in X. lia.
      - apply nth_error_None in Ex. lia. }
    assert (Full : List.length tr = List.length (rev p)).
    { destruct (Nat.eq_dec (List.length tr) (List.length (rev p))) as [|Hne]; auto. exfalso.
      destruct Hl as [r Hr].
      assert (Ho : nth_error tr (List.length tr - 1) = Some o).
      { rewrite Hr, app_length. cbn. replace (List.length r + 1 - 1)%nat with (List.length r) by lia.
        rewrite nth_error_app2, Nat.sub_diag by lia. reflexivity. }
      destruct (nth_error (rev p) (List.length tr)) as [m|] eqn:Em.
      2:{ apply nth_error_None in Em. lia. }
      assert (Lt : (0 < List.length tr)%nat) by (rewrite Hr, app_length; cbn; lia).
      assert (J : tj d o m).
      { apply (chains_tj d P); auto. exists p. split; auto. right. apply consecutive_rev.
        apply consecutive_nth. exists (List.length tr - 1)%nat. split; [now apply Pre|].
        replace (S (List.length tr - 1)) with (List.length tr) by lia. exact Em. }
      apply Hmax in J. apply In_nth_error in J as [j Hj].
      assert (X := Pre j m Hj). assert (Y := NoDup_nth_error_inj _ _ _ m NDc X Em). subst j.
      assert (Z1 : nth_error tr (List.length tr) <> None) by congruence.
      apply nth_error_Some in Z1. lia. }
    clear -Pre Full. revert Pre Full. generalize (rev p). clear p.
    induction tr as [|x tr IH]; intros q Pre Full; destruct q as [|y q]; cbn in Full; try lia; auto.
    assert (E := Pre 0%nat x eq_refl). cbn in E. injection E as ->. f_equal. apply IH; [|lia].
    intros i z Hz. apply (Pre (S i) z Hz).
  Qed.

  (** ** The loop over supports *)

  Definition ends_b (s : Z) (p : list Z) : bool :=
    match rev p with [] => false | x :: _ => Z.eqb x s end.

  Lemma ends_b_spec s p : ends_b s p = true <-> ends_in p s.
  Proof.
    unfold ends_b, ends_in. split.
    - destruct (rev p) as [|x r] eqn:E; [discriminate|]. rewrite Z.eqb_eq. intros ->.
      exists (rev r). rewrite <- (rev_involutive p), E. reflexivity.
    - intros [l ->]. rewrite rev_app_distr. cbn. apply Z.eqb_refl.
  Qed.

  (** The chains whose supports are in [l], in the order of [l]. *)
  Definition chains_at (P : list (list Z)) (l : list Z) : list (list Z) :=
    flat_map (fun s => match find (ends_b s) P with Some p => [p] | None => [] end) l.

  Lemma chains_at_app P l1 l2 : chains_at P (l1 ++ l2) = chains_at P l1 ++ chains_at P l2.
  Proof. apply flat_map_app. Qed.

  Lemma In_chains_at P l p : In p (chains_at P l) -> In p P /\ exists s, In s l /\ ends_in p s.
  Proof.
    unfold chains_at. rewrite in_flat_map. intros [s [Is I]].
    destruct (find (ends_b s) P) as [q|] eqn:E; [|contradiction].
    destruct I as [->|[]]. apply find_some in E as [Ip E]. apply ends_b_spec in E. eauto.
  Qed.

  Lemma ends_in_In p s : ends_in p s -> In s p.
  Proof. intros [l ->]. apply in_or_app. right. now left. Qed.

  Lemma ends_in_inj p s s' : ends_in p s -> ends_in p s' -> s = s'.
  Proof. intros [l ->] [l' E]. now apply app_inj_tail in E as [_ ->]. Qed.

  Lemma find_chain P s p : NoDup (concat P) -> In p P -> ends_in p s -> find (ends_b s) P = Some p.
  Proof.
    intros ND I E. destruct (find (ends_b s) P) as [q|] eqn:F.
    - apply find_some in F as [Iq Eq]. apply ends_b_spec in Eq. f_equal.
      apply (concat_disjoint P q p s); auto; now apply ends_in_In.
    - exfalso. apply find_none with (x := p) in F; auto.
      apply ends_b_spec in E. congruence.
  Qed.

  Record chain_inv (d0 : diagram T) P (done : list Z) (acc : dict Z (list Z) * list Z) d : Prop := {
    ci_frame : frame d0 d;
    ci_trails : fst acc = map (fun p => (hd 0 p, p)) (chains_at P done);
    ci_visited : forall n, In n (snd acc) <-> In n (concat (chains_at P done));
    ci_types : forall n, tof d n = if memb n (map (hd 0) (chains_at P done)) then Some TOrigin else tof d0 n;
    ci_k_out : forall n, ~ In n (concat (chains_at P done)) -> kof d n = kof d0 n;
    ci_k_in : forall p i n, In p (chains_at P done) -> nth_error p i = Some n -> kof d n = Some (Z.of_nat i)
  }.

  Lemma hd_In p : (2 <= List.length p)%nat -> In (hd 0 p) p.
  Proof. destruct p; cbn; [lia|auto]. Qed.

  Lemma hd_last_ne p s : NoDup p -> (2 <= List.length p)%nat -> ends_in p s -> hd 0 p <> s.
  Proof.
    intros ND L [l ->]. destruct l as [|a l]; cbn in *; [lia|].
    inversion ND as [|? ? Hn _]; subst. intros ->. apply Hn. apply in_or_app. right. now left.
  Qed.

  Lemma chain_inv_step d0 P done s todo acc d :
    wf d0 -> chains d0 P -> nodes d0 = done ++ s :: todo -> chain_inv d0 P done acc d ->
    exists d' acc', build_body acc s d = (d', Ok acc') /\ chain_inv d0 P (done ++ [s]) acc' d'.
  Proof.
    intros W0 C Hn [F Tr Vi Ty Ko Ki].
    assert (W : wf d) by (eapply frame_wf; eauto).
    assert (I0 : In s (nodes d0)) by (rewrite Hn; apply in_or_app; right; now left).
    assert (I : In s (nodes d)) by (now rewrite (frame_nodes d0 d)).
    assert (NDn := wf_nodup _ W0). rewrite Hn in NDn.
    assert (Hs : ~ In s done).
    { intros X. eapply NoDup_app_disj; eauto. now left. }
    destruct (is_sup d0 s) eqn:E0.
    - (* a support: the end of a chain *)
      assert (X : In s (support_nodes d0)) by (now apply In_support_nodes).
      apply (ch_supports _ _ C) in X as (p&Ip&Ep).
      assert (Lp := ch_length _ _ C p Ip).
      assert (NDp : NoDup p) by (eapply NoDup_concat_In; [apply C|auto]).
      assert (Qs : chains_at P (done ++ [s]) = chains_at P done ++ [p]).
      { rewrite chains_at_app. cbn. rewrite (find_chain P s p (ch_disjoint _ _ C) Ip Ep). reflexivity. }
      assert (Hother : forall q, In q (chains_at P done) -> forall x, In x q -> In x p -> False).
      { intros q Iq x Xq Xp. apply In_chains_at in Iq as [Iq (s'&Is'&Es')].
        assert (q = p) by (apply (concat_disjoint P q p x); auto; apply C). subst q.
        rewrite (ends_in_inj p s s' Ep Es') in Hs. contradiction. }
      assert (Es : is_sup d s = true).
      { unfold is_sup. rewrite Ty. destruct (memb s (map (hd 0) (chains_at P done))) eqn:M.
        - exfalso. apply memb_In in M. apply in_map_iff in M as (q&Eq&Iq).
          apply (Hother q Iq s); [|now apply ends_in_In].
          rewrite <- Eq. apply hd_In. apply (ch_length _ _ C). now apply In_chains_at in Iq.
        - exact E0. }
      destruct (build_body_total acc s d W I) as (d'&acc'&Hb&F'&[(X&_)|(_&tr&o&Wk&->&T1&K1&K2)]);
        [congruence|].
      apply (walked_frame d0 d s tr o F) in Wk.
      assert (Etr := walked_chain d0 P p s tr o W0 C Ip Ep Wk). subst tr.
      assert (Eo : o = hd 0 p).
      { destruct (wk_last _ _ _ _ Wk) as [r Hr]. apply (f_equal (@rev Z)) in Hr.
        rewrite rev_involutive, rev_app_distr in Hr. rewrite Hr. reflexivity. }
      subst o. rewrite rev_involutive in *.
      exists d', (dset (fst acc) (hd 0 p) p, p ++ snd acc). split; auto.
      assert (Hnew : ~ In (hd 0 p) (dkeys (fst acc))).
      { rewrite Tr. unfold dkeys. rewrite map_map. cbn. intros M. apply in_map_iff in M as (q&Eq&Iq).
        apply (Hother q Iq (hd 0 p)); [|now apply hd_In].
        rewrite <- Eq. apply hd_In. apply (ch_length _ _ C). now apply In_chains_at in Iq. }
      constructor; cbn [fst snd]; rewrite ?Qs.
      + eapply frame_trans; eauto.
      + rewrite dset_new by auto. rewrite Tr, map_app. reflexivity.
      + intros n. rewrite concat_app, !in_app_iff, Vi. cbn. rewrite app_nil_r. tauto.
      + intros n. rewrite T1, Ty, map_app. cbn. unfold memb. rewrite existsb_app. cbn.
        rewrite orb_false_r. fold (memb n (map (hd 0) (chains_at P done))).
        destruct (Z.eqb n (hd 0 p)); rewrite ?orb_true_r, ?orb_false_r; auto.
      + intros n. rewrite concat_app, in_app_iff. cbn. rewrite app_nil_r. intros X.
        rewrite K1 by (rewrite <- in_rev; tauto). apply Ko. tauto.
      + intros q i n. rewrite in_app_iff. intros [Iq|[<-|[]]] Hq.
        * rewrite K1; [eapply Ki; eauto|]. rewrite <- in_rev. intros X.
          apply (Hother q Iq n); auto. eapply nth_error_In; eauto.
        * destruct (K2 n) as (j&Hj&->).
          { rewrite <- in_rev. eapply nth_error_In; eauto. }
          now rewrite (NoDup_nth_error_inj p i j n NDp Hq Hj).
    - (* not a support *)
      assert (Hf : find (ends_b s) P = None).
      { destruct (find (ends_b s) P) as [p|] eqn:Hf; auto. exfalso.
        apply find_some in Hf as [Ip Ep]. apply ends_b_spec in Ep.
        assert (X : In s (support_nodes d0)) by (apply (ch_supports _ _ C); eauto).
        apply In_support_nodes in X; auto. congruence. }
      assert (Qs : chains_at P (done ++ [s]) = chains_at P done).
      { rewrite chains_at_app. cbn. now rewrite Hf, app_nil_r. }
      assert (Es : is_sup d s = false).
      { unfold is_sup. rewrite Ty. destruct (memb s _); auto. }
      exists d, acc. rewrite build_body_skip by auto. split; auto.
      constructor; rewrite ?Qs; auto.
  Qed.

  Lemma chain_inv_loop d0 P : wf d0 -> chains d0 P ->
    forall todo done acc d, nodes d0 = done ++ todo -> chain_inv d0 P done acc d ->
    exists d' acc', eloop build_body todo acc d = (d', Ok acc') /\ chain_inv d0 P (nodes d0) acc' d'.
  Proof.
    intros W C. induction todo as [|s todo IH]; intros done acc d Hn Hi; cbn.
    - exists d, acc. rewrite app_nil_r in Hn. rewrite Hn. auto.
    - destruct (chain_inv_step d0 P done s todo acc d W C Hn Hi) as (d1&acc1&Hb&Hi1).
      unfold ebind. rewrite Hb. apply (IH (done ++ [s])); auto. rewrite Hn, <- app_assoc. reflexivity.
  Qed.

  Lemma chain_inv_init d P : chain_inv d P [] ([], []) d.
  Proof.
    constructor; cbn; auto.
    - apply frame_refl.
    - tauto.
    - intros p i n [].
  Qed.

  Lemma chains_supports_nodes d P p : wf d -> chains d P -> In p P ->
    exists s, ends_in p s /\ In s (nodes d).
  Proof.
    intros W C I. assert (L := ch_length _ _ C p I).
    destruct (rev p) as [|s r] eqn:E.
    - apply (f_equal (@List.length Z)) in E. rewrite rev_length in E. cbn in E. lia.
    - exists s. assert (Ep : ends_in p s).
      { exists (rev r). rewrite <- (rev_involutive p), E. reflexivity. }
      split; auto. apply (ch_nodes _ _ C). apply in_concat. exists p. split; auto. now apply ends_in_In.
  Qed.

  Lemma In_chains_at_all d P p : wf d -> chains d P -> (In p (chains_at P (nodes d)) <-> In p P).
  Proof.
    intros W C. split; [intros I; now apply In_chains_at in I|]. intros I.
    destruct (chains_supports_nodes d P p W C I) as (s&Es&Is).
    unfold chains_at. apply in_flat_map. exists s. split; auto.
    rewrite (find_chain P s p (ch_disjoint _ _ C) I Es). now left.
  Qed.

  Lemma In_concat_chains d P n : wf d -> chains d P ->
    (In n (concat (chains_at P (nodes d))) <-> In n (concat P)).
  Proof.
    intros W C. rewrite !in_concat. split; intros (p&I&X); exists p; split; auto;
      now apply (In_chains_at_all d P p W C).
  Qed.

  Lemma NoDup_chains_at d P : chains d P -> forall l, NoDup l -> NoDup (chains_at P l).
  Proof.
    intros C. induction l as [|s l IH]; intros ND; cbn; [constructor|].
    inversion ND as [|? ? Hn ND']; subst. destruct (find (ends_b s) P) as [p|] eqn:E; cbn; auto.
    constructor; auto. intros I. apply In_chains_at in I as [_ (s'&Is'&Es')].
    apply find_some in E as [_ E]. apply ends_b_spec in E.
    rewrite (ends_in_inj p s s' E Es') in Hn. contradiction.
  Qed.

  (** Distinct chains in a list with disjoint elements have disjoint concatenation. *)
  Lemma Permutation_chains_at d P : wf d -> chains d P -> Permutation (chains_at P (nodes d)) P.
  Proof.
    intros W C. apply NoDup_Permutation.
    - eapply NoDup_chains_at; eauto. apply (wf_nodup _ W).
    - assert (L := ch_length _ _ C). assert (D := ch_disjoint _ _ C). clear C.
      induction P as [|p P IH]; constructor.
      + intros I. assert (Lp := L p (or_introl eq_refl)). cbn in D.
        destruct p as [|a p]; [cbn in Lp; lia|].
        eapply (NoDup_app_disj (a :: p) (concat P) a); auto; [now left|].
        apply in_concat. exists (a :: p). split; auto. now left.
      + apply IH; [intros q Iq; apply L; now right|]. cbn in D. eapply NoDup_app_r; eauto.
    - intros p. now apply In_chains_at_all.
  Qed.

  (** ** build_trails on chains that cover the diagram *)

  Definition trails_of (Q : list (list Z)) : dict Z (list Z) := map (fun p => (hd 0 p, p)) Q.

  Theorem build_chains ord d P : wf d -> same_set_order ord -> chains d P -> covers d P -> P <> [] ->
    exists d', build_trails_plain ord d = (d', Ok tt)
      /\ frame (with_trails d (trails_of (chains_at P (nodes d)))) d'
      /\ (forall n, tof d' n = if memb n (map (hd 0) P) then Some TOrigin else tof d n)
      /\ (forall p i n, In p P -> nth_error p i = Some n -> kof d' n = Some (Z.of_nat i)).
  Proof.
    intros W Ho C Cov NE.
    destruct (build_plain_cases ord d W Ho) as (ds&acc&r&->&Hs&Hl&Cases).
    destruct (chain_inv_loop d P W C (nodes d) [] ([], []) d eq_refl (chain_inv_init d P))
      as (ds'&acc'&Hl'&[F Tr Vi Ty Ko Ki]).
    rewrite Hl in Hl'. injection Hl' as <- <-.
    destruct P as [|p0 P']; [congruence|]. set (P := p0 :: P') in *.
    assert (Ip0 : In p0 P) by (now left). assert (Lp0 := ch_length _ _ C p0 Ip0).
    assert (Hall : forall n, In n (nodes d) -> In n (snd acc)).
    { intros n Hn. apply Vi. apply In_concat_chains; auto. }
    assert (Hmem : forall n, memb n (map (hd 0) (chains_at P (nodes d))) = memb n (map (hd 0) P)).
    { intros n. apply Bool.eq_true_iff_eq. rewrite !memb_In, !in_map_iff.
      split; intros (q&E&I); exists q; split; auto; now apply (In_chains_at_all d P q W C). }
    destruct Cases as [[X _]|[[_ [X _]]|[[_ [_ [(n&Hn&X) _]]]|[_ [_ [_ ->]]]]]].
    - exfalso. destruct p0 as [|a [|b p0]]; cbn in Lp0; try lia.
      assert (J : trail_joined d a b).
      { apply (ch_edges _ _ C). exists (a :: b :: p0). split; auto. left. exists [], p0. reflexivity. }
      unfold trail_joined in J. rewrite X in J. cbn in J. tauto.
    - exfalso. destruct (chains_supports_nodes d P p0 W C Ip0) as (s&Es&Is).
      assert (Y : In s (support_nodes ds)).
      { apply In_support_nodes; [eapply frame_wf; eauto|]. unfold is_sup. rewrite Ty, Hmem.
        destruct (memb s (map (hd 0) P)) eqn:M.
        - exfalso. apply memb_In, in_map_iff in M as (q&Eq&Iq).
          assert (q = p0).
          { apply (concat_disjoint P q p0 s); auto; [apply C| |now apply ends_in_In].
            rewrite <- Eq. apply hd_In. now apply (ch_length _ _ C). }
          subst q. eapply hd_last_ne; eauto. eapply NoDup_concat_In; [apply C|auto].
        - assert (Z1 : In s (support_nodes d)) by (apply (ch_supports _ _ C); eauto).
          now apply In_support_nodes in Z1. }
      rewrite X in Y. contradiction.
    - exfalso. auto.
    - exists (with_trails ds (fst acc)). split; auto. split; [|split].
      + destruct F as (E&N&A). rewrite Tr. split; [|split].
        * rewrite E. reflexivity.
        * exact N.
        * exact A.
      + intros n. change (tof (with_trails ds (fst acc)) n) with (tof ds n). now rewrite Ty, Hmem.
      + intros p i n I Hp. change (kof (with_trails ds (fst acc)) n) with (kof ds n).
        eapply Ki; eauto. now apply (In_chains_at_all d P p W C).
  Qed.
End Facts.
