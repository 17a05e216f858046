(** * Lemmas about dictionaries, folds and effects *)

From Coq Require Import List ZArith Bool Lia Permutation.
From Verif Require Import Py.
Import ListNotations.

Section Eqb.
  Context {K : Type} `{Eqb K}.

  Lemma eqb_refl (k : K) : eqb k k = true.
  Proof. destruct (eqb_spec k k); congruence. Qed.

  Lemma eqb_eq (a b : K) : eqb a b = true <-> a = b.
  Proof. destruct (eqb_spec a b); split; congruence. Qed.

  Lemma eqb_neq (a b : K) : eqb a b = false <-> a <> b.
  Proof. destruct (eqb_spec a b); split; congruence. Qed.

  Lemma eqb_neq_sym (a b : K) : a <> b -> eqb b a = false.
  Proof. intros. apply eqb_neq. congruence. Qed.

  Lemma eq_dec_K (a b : K) : {a = b} + {a <> b}.
  Proof. destruct (eqb_spec a b); auto. Qed.

  Lemma memb_In (k : K) l : memb k l = true <-> In k l.
  Proof.
    unfold memb. rewrite existsb_exists. split.
    - intros [x [Hx E]]. apply eqb_eq in E. now subst.
    - intros. exists k. split; auto. apply eqb_refl.
  Qed.

  Lemma memb_nIn (k : K) l : memb k l = false <-> ~ In k l.
  Proof. rewrite <- memb_In. destruct (memb k l); split; congruence. Qed.
End Eqb.

Section DictFacts.
  Context {K V : Type} `{Eqb K}.
  Implicit Types (d : dict K V) (k : K) (v : V).

  Lemma dget_dset_same d k v : dget (dset d k v) k = Some v.
  Proof.
    induction d as [|[k' v'] d IH]; cbn.
    - now rewrite eqb_refl.
    - destruct (eqb k k') eqn:E; cbn; rewrite E; auto.
  Qed.

  Lemma dget_dset_other d k k' v : k' <> k -> dget (dset d k v) k' = dget d k'.
  Proof.
    intros Hne. induction d as [|[k1 v1] d IH]; cbn.
    - destruct (eqb_spec k' k); congruence.
    - destruct (eqb_spec k k1) as [->|n]; cbn.
      + destruct (eqb_spec k' k1); congruence.
      + destruct (eqb k' k1); auto.
  Qed.

  Lemma dget_dset d k k' v :
    dget (dset d k v) k' = if eqb k' k then Some v else dget d k'.
  Proof.
    destruct (eqb_spec k' k) as [->|n].
    - apply dget_dset_same.
    - now apply dget_dset_other.
  Qed.

  Lemma dget_In_keys d k v : dget d k = Some v -> In k (dkeys d).
  Proof.
    unfold dkeys in *.
    induction d as [|[k' v'] d IH]; cbn; [congruence|].
    destruct (eqb_spec k k') as [->|n]; auto.
  Qed.

  Lemma dget_In d k v : dget d k = Some v -> In (k, v) d.
  Proof.
    induction d as [|[k' v'] d IH]; cbn; [congruence|].
    destruct (eqb_spec k k') as [->|n]; intros E; [left; congruence|auto].
  Qed.

  Lemma In_keys_dget d k : In k (dkeys d) -> exists v, dget d k = Some v.
  Proof.
    unfold dkeys in *.
    induction d as [|[k' v'] d IH]; cbn; [tauto|].
    destruct (eqb_spec k k') as [->|n]; eauto.
    intros [E|I]; [congruence|auto].
  Qed.

  Lemma dget_None d k : dget d k = None <-> ~ In k (dkeys d).
  Proof.
    split.
    - intros E I. apply In_keys_dget in I as [v Hv]. congruence.
    - intros N. destruct (dget d k) eqn:E; auto.
      apply dget_In_keys in E. tauto.
  Qed.

  Lemma dmem_In d k : dmem d k = true <-> In k (dkeys d).
  Proof.
    unfold dmem. destruct (dget d k) eqn:E.
    - split; auto. intros _. eapply dget_In_keys; eauto.
    - apply dget_None in E. split; [discriminate|tauto].
  Qed.

  Lemma dmem_nIn d k : dmem d k = false <-> ~ In k (dkeys d).
  Proof. rewrite <- dmem_In. destruct (dmem d k); split; congruence. Qed.

  Lemma In_dget d k v : NoDup (dkeys d) -> In (k, v) d -> dget d k = Some v.
  Proof.
    unfold dkeys in *.
    induction d as [|[k' v'] d IH]; cbn; [tauto|].
    inversion 1 as [|? ? Hni Hnd]; subst. intros [E|I].
    - injection E as -> ->. now rewrite eqb_refl.
    - destruct (eqb_spec k k') as [->|n]; auto.
      exfalso. apply Hni. change k' with (fst (k', v)). now apply in_map.
  Qed.

  Lemma dkeys_dset_in d k v : In k (dkeys d) -> dkeys (dset d k v) = dkeys d.
  Proof.
    unfold dkeys in *.
    induction d as [|[k' v'] d IH]; cbn; [tauto|].
    destruct (eqb_spec k k') as [->|n]; cbn; auto.
    intros [E|I]; [congruence|]. now rewrite IH.
  Qed.

  Lemma dkeys_dset_new d k v : ~ In k (dkeys d) -> dkeys (dset d k v) = dkeys d ++ [k].
  Proof.
    unfold dkeys in *.
    induction d as [|[k' v'] d IH]; cbn; auto.
    intros N. destruct (eqb_spec k k') as [->|n]; cbn.
    - tauto.
    - now rewrite IH by tauto.
  Qed.

  Lemma dset_new d k v : ~ In k (dkeys d) -> dset d k v = d ++ [(k, v)].
  Proof.
    unfold dkeys in *.
    induction d as [|[k' v'] d IH]; cbn; auto.
    intros N. destruct (eqb_spec k k') as [->|n]; cbn.
    - tauto.
    - now rewrite IH by tauto.
  Qed.

  Lemma In_dkeys_dset d k v k' : In k' (dkeys (dset d k v)) <-> k' = k \/ In k' (dkeys d).
  Proof.
    rewrite <- !dmem_In. unfold dmem. rewrite dget_dset.
    destruct (eqb_spec k' k) as [->|n].
    - split; auto.
    - split; auto. intros [E|E]; auto; congruence.
  Qed.

  Lemma NoDup_dset d k v : NoDup (dkeys d) -> NoDup (dkeys (dset d k v)).
  Proof.
    intros N. destruct (in_dec eq_dec_K k (dkeys d)) as [I|I].
    - now rewrite dkeys_dset_in.
    - rewrite dkeys_dset_new by auto. apply Permutation_NoDup with (l := k :: dkeys d).
      + apply Permutation_cons_append.
      + now constructor.
  Qed.

  Lemma In_dset_inv d k v k' v' : In (k', v') (dset d k v) -> (k' = k /\ v' = v) \/ In (k', v') d.
  Proof.
    induction d as [|[k1 v1] d IH]; cbn.
    - intros [E|[]]. left. split; congruence.
    - destruct (eqb_spec k k1) as [->|n]; cbn.
      + intros [E|I]; [left; split; congruence|auto].
      + intros [E|I]; auto. apply IH in I as [|]; auto.
  Qed.

  Lemma dset_same d k v : dget d k = Some v -> dset d k v = d.
  Proof.
    induction d as [|[k1 v1] d IH]; cbn; [congruence|].
    destruct (eqb_spec k k1) as [->|n]; intros E; [congruence|].
    now rewrite IH.
  Qed.

  Lemma dset_dset d k v v' : dset (dset d k v) k v' = dset d k v'.
  Proof.
    induction d as [|[k1 v1] d IH]; cbn.
    - now rewrite eqb_refl.
    - destruct (eqb k k1) eqn:E; cbn; rewrite E; congruence.
  Qed.

  Lemma dset_comm d k1 k2 v1 v2 :
    k1 <> k2 -> In k1 (dkeys d) \/ In k2 (dkeys d) ->
    dset (dset d k1 v1) k2 v2 = dset (dset d k2 v2) k1 v1.
  Proof.
    intros Hne. induction d as [|[k v] d IH]; cbn; [tauto|].
    intros Hin.
    destruct (eqb_spec k1 k) as [->|n1]; destruct (eqb_spec k2 k) as [->|n2]; cbn.
    - congruence.
    - rewrite eqb_refl. destruct (eqb_spec k2 k); congruence.
    - rewrite eqb_refl. destruct (eqb_spec k1 k); congruence.
    - destruct (eqb_spec k1 k); [congruence|]. destruct (eqb_spec k2 k); [congruence|].
      rewrite IH; auto. destruct Hin as [[|]|[|]]; auto; congruence.
  Qed.

  Lemma dget_ddel_same d k : NoDup (dkeys d) -> dget (ddel d k) k = None.
  Proof.
    unfold dkeys in *.
    induction d as [|[k1 v1] d IH]; cbn; auto.
    inversion 1; subst. destruct (eqb_spec k k1) as [->|n].
    - now apply dget_None.
    - cbn. destruct (eqb_spec k k1); [congruence|auto].
  Qed.

  Lemma dget_ddel_other d k k' : k' <> k -> dget (ddel d k) k' = dget d k'.
  Proof.
    intros Hne. induction d as [|[k1 v1] d IH]; cbn; auto.
    destruct (eqb_spec k k1) as [->|n]; cbn.
    - destruct (eqb_spec k' k1); congruence.
    - destruct (eqb k' k1); auto.
  Qed.

  Lemma In_dkeys_ddel d k k' : In k' (dkeys (ddel d k)) -> In k' (dkeys d).
  Proof.
    unfold dkeys in *.
    induction d as [|[k1 v1] d IH]; cbn; auto.
    destruct (eqb k k1); cbn; tauto.
  Qed.

  Lemma NoDup_ddel d k : NoDup (dkeys d) -> NoDup (dkeys (ddel d k)).
  Proof.
    unfold dkeys in *.
    induction d as [|[k1 v1] d IH]; cbn; auto.
    inversion 1; subst. destruct (eqb k k1); cbn; auto.
    constructor; auto. intros I. now apply In_dkeys_ddel in I.
  Qed.

  Lemma dgetr_Ok d k v : dgetr d k = Ok v <-> dget d k = Some v.
  Proof. unfold dgetr. destruct (dget d k); split; congruence. Qed.

  Lemma dgetr_Err d k e : dgetr d k = Err e <-> dget d k = None /\ e = KeyError.
  Proof. unfold dgetr. destruct (dget d k); split; intuition congruence. Qed.

  Lemma dget_app d1 d2 k :
    dget (d1 ++ d2) k = match dget d1 k with Some v => Some v | None => dget d2 k end.
  Proof.
    induction d1 as [|[k1 v1] d1 IH]; cbn; auto. destruct (eqb k k1); auto.
  Qed.

  Lemma length_dset d k v :
    List.length (dset d k v) = if dmem d k then List.length d else S (List.length d).
  Proof.
    unfold dmem. induction d as [|[k1 v1] d IH]; cbn; auto.
    destruct (eqb k k1); cbn; auto. rewrite IH. destruct (dget d k); auto.
  Qed.
End DictFacts.

Lemma dget_map {K V W} `{Eqb K} (f : V -> W) (d : dict K V) k :
  dget (map (fun kv => (fst kv, f (snd kv))) d) k = option_map f (dget d k).
Proof.
  induction d as [|[k1 v1] d IH]; cbn; auto. destruct (eqb k k1); auto.
Qed.

Lemma dkeys_map {K V W} (f : V -> W) (d : dict K V) :
  dkeys (map (fun kv => (fst kv, f (snd kv))) d) = dkeys d.
Proof. unfold dkeys. rewrite map_map. apply map_ext. auto. Qed.

(** ** Results *)

Lemma bind_Ok {A B} (x : res A) (f : A -> res B) b :
  bind x f = Ok b -> exists a, x = Ok a /\ f a = Ok b.
Proof. destruct x; cbn; [eauto|discriminate]. Qed.

Lemma fold_res_app {S A} (body : S -> A -> res S) l1 l2 s :
  fold_res body (l1 ++ l2) s = bind (fold_res body l1 s) (fold_res body l2).
Proof.
  revert s. induction l1 as [|a l1 IH]; cbn; auto.
  intros. destruct (body s a); cbn; auto.
Qed.

Lemma fold_res_inv {S A} (body : S -> A -> res S) (P : S -> Prop) l s s' :
  (forall s a s', In a l -> P s -> body s a = Ok s' -> P s') ->
  P s -> fold_res body l s = Ok s' -> P s'.
Proof.
  revert s. induction l as [|a l IH]; cbn; intros s Hb Hs E.
  - now injection E as <-.
  - apply bind_Ok in E as [s1 [E1 E2]]. eapply IH; [|eapply Hb; eauto|eassumption].
    intros. eapply Hb; eauto.
Qed.

Lemma map_res_Ok {A B} (f : A -> res B) l bs :
  map_res f l = Ok bs <-> Forall2 (fun a b => f a = Ok b) l bs.
Proof.
  revert bs. induction l as [|a l IH]; cbn; intros bs.
  - split; [now injection 1 as <-|now inversion 1].
  - split.
    + intros E. apply bind_Ok in E as [b [Eb E]]. apply bind_Ok in E as [bs' [El E]].
      injection E as <-. constructor; auto. now apply IH.
    + inversion 1 as [|? ? ? ? Hb Hbs]; subst. rewrite Hb; cbn. apply IH in Hbs. now rewrite Hbs.
Qed.

Lemma map_res_total {A B} (f : A -> res B) l :
  (forall a, In a l -> exists b, f a = Ok b) -> exists bs, map_res f l = Ok bs.
Proof.
  induction l as [|a l IH]; cbn; intros Hf; [eauto|].
  destruct (Hf a) as [b Eb]; auto. destruct IH as [bs Ebs]; auto.
  rewrite Eb, Ebs. cbn. eauto.
Qed.

Lemma filter_res_Ok {A} (p : A -> res bool) (q : A -> bool) l :
  (forall a, In a l -> p a = Ok (q a)) -> filter_res p l = Ok (filter q l).
Proof.
  induction l as [|a l IH]; cbn; intros Hp; auto.
  rewrite Hp by auto. cbn. rewrite IH by auto. cbn. now destruct (q a).
Qed.

Lemma filter_res_In {A} (p : A -> res bool) l r a :
  filter_res p l = Ok r -> (In a r <-> In a l /\ p a = Ok true).
Proof.
  revert r. induction l as [|b l IH]; cbn; intros r.
  - injection 1 as <-. cbn. tauto.
  - intros E. apply bind_Ok in E as [x [Ex E]]. apply bind_Ok in E as [r' [Er E]].
    injection E as <-. specialize (IH _ Er). destruct x; cbn; rewrite IH.
    + split; [intros [->|]|intros [[->|] ?]]; tauto.
    + split; [tauto|]. intros [[->|] ?]; [congruence|tauto].
Qed.

Lemma filter_res_all {A} (p : A -> res bool) l r :
  filter_res p l = Ok r -> forall a, In a l -> exists b, p a = Ok b.
Proof.
  revert r. induction l as [|b l IH]; cbn; intros r E a; [tauto|].
  apply bind_Ok in E as [x [Ex E]]. apply bind_Ok in E as [r' [Er E]].
  intros [->|I]; eauto.
Qed.

Lemma filter_res_filter {A} (p : A -> res bool) l r :
  filter_res p l = Ok r -> r = filter (fun a => match p a with Ok b => b | Err _ => false end) l.
Proof.
  revert r. induction l as [|b l IH]; cbn; intros r E; [congruence|].
  apply bind_Ok in E as [x [Ex E]]. apply bind_Ok in E as [r' [Er E]].
  rewrite Ex. injection E as <-. rewrite (IH _ Er). now destruct x.
Qed.

(** ** Effects *)

Lemma ebind_Ok {S A B} (m : eff S A) (f : A -> eff S B) s s' b :
  ebind m f s = (s', Ok b) -> exists s1 a, m s = (s1, Ok a) /\ f a s1 = (s', Ok b).
Proof. unfold ebind. destruct (m s) as [s1 [a|e]]; [eauto|congruence]. Qed.

(** A property of the object preserved by a computation, raising or not. *)
Definition preserves {S A} (P : S -> Prop) (m : eff S A) : Prop :=
  forall s, P s -> P (fst (m s)).

Lemma preserves_eret {S A} (P : S -> Prop) (a : A) : preserves P (eret a).
Proof. easy. Qed.

Lemma preserves_eraise {S A} (P : S -> Prop) e : preserves P (@eraise S A e).
Proof. easy. Qed.

Lemma preserves_eget {S A} (P : S -> Prop) (f : S -> res A) : preserves P (eget f).
Proof. easy. Qed.

Lemma preserves_ebind {S A B} (P : S -> Prop) (m : eff S A) (f : A -> eff S B) :
  preserves P m -> (forall a, preserves P (f a)) -> preserves P (ebind m f).
Proof.
  intros Hm Hf s Hs. unfold ebind. specialize (Hm s Hs).
  destruct (m s) as [s1 [a|e]]; cbn in *; auto. now apply Hf.
Qed.

Lemma preserves_eloop {S X A} (P : S -> Prop) (body : X -> A -> eff S X) l x :
  (forall x a, In a l -> preserves P (body x a)) -> preserves P (eloop body l x).
Proof.
  revert x. induction l as [|a l IH]; cbn; intros x Hb.
  - apply preserves_eret.
  - apply preserves_ebind; auto.
Qed.

Lemma eloop_app {S X A} (body : X -> A -> eff S X) l1 l2 x s :
  eloop body (l1 ++ l2) x s = ebind (eloop body l1 x) (fun x => eloop body l2 x) s.
Proof.
  revert x s. induction l1 as [|a l1 IH]; cbn; intros; auto.
  unfold ebind. destruct (body x a s) as [s1 [x1|e]]; auto.
  rewrite IH. reflexivity.
Qed.

(** Invariant of a loop that relates the object and the accumulator. *)
Lemma eloop_Ok_inv {S X A} (body : X -> A -> eff S X) (P : S -> X -> Prop) l x s s' x' :
  (forall s x a s' x', In a l -> P s x -> body x a s = (s', Ok x') -> P s' x') ->
  P s x -> eloop body l x s = (s', Ok x') -> P s' x'.
Proof.
  revert x s. induction l as [|a l IH]; cbn; intros x s Hb Hp E.
  - unfold eret in E. now injection E as <- <-.
  - apply ebind_Ok in E as [s1 [x1 [E1 E2]]].
    eapply IH; [|eapply Hb; eauto|eassumption]. intros. eapply Hb; eauto.
Qed.

Lemma Some_inj {A} (a b : A) : Some a = Some b -> a = b.
Proof. congruence. Qed.
Lemma Ok_inj {A} (a b : A) : Ok a = Ok b -> a = b.
Proof. congruence. Qed.
