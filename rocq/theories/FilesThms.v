(** * Theorems about diagrams in files *)

From Coq Require Import String List ZArith Bool Lia.
From Verif Require DiagramThms.
From Verif Require Import Py PyFacts Num Diagram Topology History Equilibrium Optimizer Constraints Serialize SerializeThms Files SpecFiles.
Import ListNotations.
Open Scope Z_scope.

#[local] Arguments dget {K V _} !d k /.
#[local] Arguments dset {K V _} !d k v /.

Definition text_key (z : Z) : pkey := KStr (repr_int z).

Lemma text_key_inj x y : text_key x = text_key y -> x = y.
Proof.
  intros E. injection E as E. apply (f_equal word_int) in E. rewrite !word_int_repr in E. now injection E.
Qed.

Lemma KInt_inj x y : KInt x = KInt y -> x = y.
Proof. congruence. Qed.

(** Dictionaries with other keys *)
Definition rekey {V} (f : Z -> pkey) (m : dict Z V) : dict pkey V := map (fun kv => (f (fst kv), snd kv)) m.

Section Rekey.
  Context {V : Type} (f : Z -> pkey) (inj : forall x y, f x = f y -> x = y).

  Lemma eqb_rekey x y : eqb (f x) (f y) = eqb x y.
  Proof using inj.
    destruct (eqb_spec (f x) (f y)) as [E|E], (eqb_spec x y) as [E'|E']; auto; exfalso; auto.
    congruence.
  Qed.

  Lemma dget_rekey (m : dict Z V) k : dget (rekey f m) (f k) = dget m k.
  Proof using inj.
    induction m as [|[k' v] m IH]; [reflexivity|]. cbn [rekey map dget fst snd]. rewrite eqb_rekey. destruct (eqb k k'); [reflexivity|exact IH].
  Qed.

  Lemma dgetr_rekey (m : dict Z V) k : dgetr (rekey f m) (f k) = dgetr m k.
  Proof using inj. unfold dgetr. now rewrite dget_rekey. Qed.

  Lemma dset_rekey (m : dict Z V) k v : dset (rekey f m) (f k) v = rekey f (dset m k v).
  Proof using inj.
    induction m as [|[k' v'] m IH]; [reflexivity|]. cbn [rekey map dset fst snd]. rewrite eqb_rekey. destruct (eqb k k'); cbn [map fst snd]; [reflexivity|].
    f_equal. exact IH.
  Qed.

  Lemma dkeys_rekey (m : dict Z V) : dkeys (rekey f m) = map f (dkeys m).
  Proof using. unfold dkeys, rekey. now rewrite !map_map. Qed.

  Lemma dvalues_rekey (m : dict Z V) : dvalues (rekey f m) = map snd m.
  Proof using. unfold dvalues, rekey. now rewrite map_map. Qed.

  Lemma length_rekey (m : dict Z V) : List.length (rekey f m) = List.length m.
  Proof using. unfold rekey. now rewrite map_length. Qed.
End Rekey.

Lemma fold_res_ext {S A} (f g : S -> A -> res S) l : (forall s a, f s a = g s a) -> forall s, fold_res f l s = fold_res g l s.
Proof.
  intros E. induction l as [|a l IH]; cbn; auto. intros s. rewrite E. destruct (g s a); cbn; auto.
Qed.

Lemma fold_res_map {S A B} (f : S -> B -> res S) (h : A -> B) l : forall s,
  fold_res f (map h l) s = fold_res (fun s a => f s (h a)) l s.
Proof.
  induction l as [|a l IH]; cbn; auto. intros s. destruct (f s (h a)); cbn; auto.
Qed.

Lemma map_res_map {A B C} (f : B -> res C) (h : A -> B) (g : A -> C) l :
  (forall a, f (h a) = Ok (g a)) -> map_res f (map h l) = Ok (map g l).
Proof.
  intros E. induction l as [|a l IH]; cbn; auto. now rewrite E, IH.
Qed.

Section FilesThms.
  Context {T : Type} `{NumOps T}.

  (** ** Reading what was written *)

  Lemma node_key_text z : node_key_of (T := T) (KStr (repr_int z)) = Ok z.
  Proof. unfold node_key_of. rewrite literal_int. reflexivity. Qed.

  Lemma vec_written v : vec_of (json (vec_data (T := T) v)) = Ok v.
  Proof. destruct v. reflexivity. Qed.

  Lemma node_written a : node_of (json (node_data (T := T) a)) = Ok a.
  Proof. destruct a as [[x y z] [qx qy qz] [rx ry rz] k t]. destruct k, t as [[]|]; reflexivity. Qed.

  Lemma edge_written a : edge_of (json (edge_data (T := T) a)) = Ok a.
  Proof. destruct a as [t l f [[[px py pz] [vx vy vz]]|]]; destruct t as [[]|]; reflexivity. Qed.

  Lemma keys_written {A} (write : A -> pytree T) (read : pytree T -> res A) :
    (forall a, read (json (write a)) = Ok a) ->
    forall m, read_keys read (json (repr_keys write m)) = Ok m.
  Proof.
    intros E m. unfold read_keys, repr_keys. cbn [json items_of bind]. rewrite map_map.
    rewrite (map_res_map _ _ (fun kv => kv)); [now rewrite map_id|].
    intros [k a]. cbn [fst snd json_key]. rewrite node_key_text. cbn [bind]. rewrite E. reflexivity.
  Qed.

  Lemma adjacency_written l :
    adjacency_of (T := T) (json (PDict (map (fun v => (KStr (repr_int v), PNone)) l))) = Ok l.
  Proof.
    unfold adjacency_of. cbn [json items_of bind]. rewrite map_map.
    rewrite (map_res_map _ _ (fun v => v)); [now rewrite map_id|].
    intros v. cbn [fst json_key]. apply node_key_text.
  Qed.

  Lemma trail_written tr : trail_of (T := T) (json (PTuple (map PInt tr))) = Ok tr.
  Proof.
    unfold trail_of. cbn [json list_of bind]. rewrite map_map.
    rewrite (map_res_map _ _ (fun z => z)); [now rewrite map_id|]. reflexivity.
  Qed.

  Definition keyed (f g : Z -> pkey) (d : diagram T) : object T :=
    mkObject (base_of d) (rekey f (d_trails d)) (rekey g (d_aux d)).

  Lemma topology_read d : from_json (topology_file (T := T) d) = Ok (keyed text_key text_key d).
  Proof.
    unfold from_json, topology_file, object_of, object_data. set (o := in_memory d).
    cbn [json map fst snd json_key app].
    unfold field, field_or. cbn [items_of bind]. unfold dgetr.
    cbn [dget eqb Eqb_pkey pkey_eqb String.eqb Ascii.eqb Bool.eqb bind items_of].
    rewrite !keys_written; [|apply adjacency_written|apply keys_written, edge_written|apply node_written].
    cbn [bind int_of tol_of num_of].
    rewrite map_map. rewrite (map_res_map _ _ (fun gn => gn)); [|intros []; reflexivity]. cbn [bind].
    rewrite map_map, (map_res_map _ _ (fun kt => (json_key (fst kt), snd kt))).
    2:{ intros [k t]. cbn [fst snd]. rewrite trail_written. reflexivity. }
    cbn [bind].
    rewrite map_map, (map_res_map _ _ (fun kt => (json_key (fst kt), snd kt))).
    2:{ intros [k [u v]]. reflexivity. }
    cbn [bind]. change (PList (map json [PNum (vx (d_aux_vector (o_base o))); PNum (vy (d_aux_vector (o_base o))); PNum (vz (d_aux_vector (o_base o)))]))
      with (json (vec_data (d_aux_vector (o_base o)))).
    try rewrite vec_written. cbn [bind]. rewrite map_id. subst o. unfold in_memory, keyed, base_of, int_keys, rekey.
    cbn [o_base o_trails o_aux]. rewrite !map_map. destruct d as [? ? ? ? ? ? ? ? ? []]; reflexivity.
  Qed.

  Lemma form_read d : from_json (form_file (T := T) d)
    = Ok (in_memory (form_of_topology d)).
  Proof.
    unfold from_json, form_file, object_of, object_data. set (o := in_memory d).
    cbn [json map fst snd json_key app].
    unfold field, field_or. cbn [items_of bind]. unfold dgetr.
    cbn [dget eqb Eqb_pkey pkey_eqb String.eqb Ascii.eqb Bool.eqb bind items_of].
    rewrite !keys_written; [|apply adjacency_written|apply keys_written, edge_written|apply node_written].
    cbn [bind int_of tol_of num_of].
    rewrite map_map. rewrite (map_res_map _ _ (fun gn => gn)); [|intros []; reflexivity]. cbn [bind map_res].
    rewrite map_id. destruct d; reflexivity.
  Qed.

  (** ** Form finding *)

  Section Form.
    Context (f g : Z -> pkey) (inj : forall x y, f x = f y -> x = y) (d : diagram T).

    Lemma sequences_keyed :
      o_trails_sequences (keyed f g d) = let* ts := trails_sequences d in Ok (rekey f ts).
    Proof using inj.
      unfold o_trails_sequences, trails_sequences, trails. cbn [keyed o_trails o_base].
      assert (A : forall (l : dict Z (list Z)) (m : dict Z (dict Z Z)),
        fold_res (fun m kt =>
          let* tr := dgetr (rekey f (d_trails d)) (fst kt) in
          let* s := fold_res (fun m n => let* k := node_sequence (base_of d) n in Ok (dset m k n)) tr [] in
          Ok (dset m (fst kt) s)) (rekey f l) (rekey f m)
        = let* ts := fold_res (fun m kt => let* s := trail_sequences d (fst kt) in Ok (dset m (fst kt) s)) l m in
          Ok (rekey f ts)).
      { induction l as [|kt l IH]; intros m; [reflexivity|].
        cbn [fold_res rekey map fst]. rewrite dgetr_rekey by exact inj. unfold trail_sequences at 1, trail at 1.
        destruct (dgetr (d_trails d) (fst kt)) as [tr|e]; [|reflexivity]. cbn [bind].
        change (node_sequence (base_of d)) with (node_sequence d).
        destruct (fold_res (fun m n => let* k := node_sequence d n in Ok (dset m k n)) tr []) as [s|e]; [|reflexivity]. cbn [bind].
        rewrite dset_rekey by exact inj. apply IH. }
      apply (A (d_trails d) []).
    Qed.

    Lemma visit_keyed ts kmax ind k st key :
      o_visit (base_of d) (rekey f ts) kmax ind k st (f key) = visit d ts kmax ind k st key.
    Proof using inj.
      unfold o_visit, visit at 2. rewrite dgetr_rekey by exact inj.
      destruct (dgetr ts key) as [m|e]; reflexivity.
    Qed.

    Lemma sweep_keyed ts kmax ind st :
      o_sweep (keyed f g d) (rekey f ts) kmax ind st = sweep d ts kmax ind st.
    Proof using inj.
      unfold o_sweep, sweep. cbn [keyed o_base o_trails].
      change (number_of_sequences (base_of d)) with (number_of_sequences d).
      destruct (number_of_sequences d) as [n|e]; [|reflexivity]. cbn [bind].
      apply fold_res_ext. intros s k. rewrite dkeys_rekey, fold_res_map.
      apply fold_res_ext. intros s' key. apply visit_keyed.
    Qed.

    Lemma iterate_keyed ts kmax eta n : forall t dist st,
      o_iterate (keyed f g d) (rekey f ts) kmax eta n t dist st = iterate d ts kmax eta n t dist st.
    Proof using inj.
      induction n as [|n IH]; intros t dist st; [reflexivity|]. cbn [o_iterate iterate].
      rewrite sweep_keyed. destruct (sweep d ts kmax (negb (Nat.eqb t 0)) st) as [st'|e]; [|reflexivity].
      cbn [bind]. destruct (Nat.eqb t 0); [apply IH|].
      destruct (residual_distance (s_xyz st) (s_xyz st')) as [x|e]; [|reflexivity]. cbn [bind].
      destruct (nltb x eta); [reflexivity|apply IH].
    Qed.

    Lemma forms_keyed : same_forms (keyed f g d) d.
    Proof using inj.
      intros kmax tmax eta verbose. unfold o_static_equilibrium, static_equilibrium.
      assert (E : o_equilibrium_state (keyed f g d) kmax tmax eta verbose = equilibrium_state d kmax tmax eta verbose).
      { unfold o_equilibrium_state, equilibrium_state, number_of_trails.
        cbn [keyed o_trails]. rewrite length_rekey. destruct (negb _); [reflexivity|].
        rewrite sequences_keyed. destruct (trails_sequences d) as [ts|e]; [|reflexivity]. cbn [bind].
        change (sequence_last (o_base (keyed f g d))) with (sequence_last d).
        destruct (sequence_last d); [|reflexivity]. cbn [bind].
        destruct (match kmax with Some km => Z.ltb km 0 | None => false end); [reflexivity|].
        rewrite iterate_keyed. reflexivity. }
      rewrite E. reflexivity.
    Qed.
  End Form.

  Lemma contents_keyed f g d : same_contents (keyed f g d) d.
  Proof.
    unfold same_contents, o_is_auxiliary_trail_edge, o_all_trails, o_auxiliary_trails. cbn [keyed o_base o_trails o_aux].
    rewrite !dvalues_rekey. destruct d. repeat split; reflexivity.
  Qed.

  Lemma trails_keyed g d : same_trails (keyed KInt g d) d.
  Proof. intros key. unfold o_trail, trail. cbn [keyed o_trails]. apply dgetr_rekey, KInt_inj. Qed.

  (** ** Calls *)

  (** A computation that does not see the trails and auxiliary trails *)
  Definition blind {A} (m : eff (diagram T) A) : Prop :=
    forall d, m (base_of d) = (base_of (fst (m d)), snd (m d))
              /\ d_trails (fst (m d)) = d_trails d /\ d_aux (fst (m d)) = d_aux d.

  Lemma blind_ret {A} (a : A) : blind (eret a).
  Proof. intros d. auto. Qed.
  Lemma blind_raise {A} e : blind (A := A) (eraise e).
  Proof. intros d. auto. Qed.
  Lemma blind_get {A} (f : diagram T -> res A) : (forall d, f (base_of d) = f d) -> blind (eget f).
  Proof. intros E d. unfold eget. cbn [fst snd]. rewrite E. auto. Qed.
  Lemma blind_bind {A B} (m : eff (diagram T) A) (k : A -> eff (diagram T) B) :
    blind m -> (forall a, blind (k a)) -> blind (ebind m k).
  Proof.
    intros M K d. unfold ebind. destruct (M d) as (E&Et&Ea). rewrite E.
    destruct (m d) as [d1 [a|e]]; cbn [fst snd] in *; [|auto].
    destruct (K a d1) as (E1&Et1&Ea1). rewrite E1. split; [auto|]. split; congruence.
  Qed.
  Lemma blind_loop {X A} (body : X -> A -> eff (diagram T) X) l :
    (forall x a, blind (body x a)) -> forall x, blind (eloop body l x).
  Proof.
    intros B. induction l as [|a l IH]; intros x; cbn [eloop]; [apply blind_ret|].
    apply blind_bind; auto.
  Qed.

  Ltac see :=
    lazymatch goal with
    | |- blind (ebind _ _) => apply blind_bind; [|intros]; see
    | |- blind (eget _) => apply blind_get; intros; try reflexivity
    | |- blind (eret _) => apply blind_ret
    | |- blind (eraise _) => apply blind_raise
    | |- blind (match ?b with _ => _ end) => destruct b; see
    | |- blind (eloop _ _ _) => apply blind_loop; intros; see
    | |- _ => idtac
    end.

  Lemma blind_node_set n f : blind (node_set n f).
  Proof.
    intros d. unfold node_set. change (d_node (base_of d)) with (d_node d).
    destruct (dget (d_node d) n); repeat split; reflexivity.
  Qed.

  Lemma blind_edge_set e f : blind (edge_set e f).
  Proof.
    intros d. unfold edge_set. change (d_edge (base_of d)) with (d_edge d).
    destruct (dget (d_edge d) (fst e)) as [x|]; [|repeat split; reflexivity].
    destruct (dget x (snd e)); repeat split; reflexivity.
  Qed.

  Lemma blind_add_node key p : blind (add_node key p).
  Proof.
    intros d. unfold add_node, graph_add_node. change (d_max (base_of d)) with (d_max d).
    set (k := match key with Some k => k | None => d_max d + 1 end).
    cbn [d_node with_max base_of with_aux with_trails].
    destruct (dget (d_node d) k); repeat split; reflexivity.
  Qed.

  Lemma blind_resolve_end r : blind (resolve_end r).
  Proof.
    intros d. unfold resolve_end. change (node_key (base_of d) r) with (node_key d r).
    destruct (node_key d r); [repeat split; reflexivity|].
    destruct r; [repeat split; reflexivity|apply blind_add_node].
  Qed.

  Lemma adj_add_base (d : diagram T) u v :
    adj_add (base_of d) u v = base_of (adj_add d u v)
    /\ d_trails (adj_add d u v) = d_trails d /\ d_aux (adj_add d u v) = d_aux d.
  Proof.
    unfold adj_add. change (d_adj (base_of d)) with (d_adj d).
    destruct (dget (d_adj d) u) as [l|]; [|repeat split; reflexivity].
    destruct (memb v l); repeat split; reflexivity.
  Qed.

  Lemma blind_graph_add_edge u v el : blind (graph_add_edge u v el).
  Proof.
    intros d. unfold graph_add_edge. change (has_node (base_of d)) with (has_node d).
    destruct (negb (has_node d u)); [repeat split; reflexivity|].
    destruct (negb (has_node d v)); [repeat split; reflexivity|]. cbn zeta. cbn [fst snd].
    change (d_edge (base_of d)) with (d_edge d).
    set (x := dset (d_edge d) u _). change (with_edge (base_of d) x) with (base_of (with_edge d x)).
    destruct (adj_add_base (with_edge d x) u v) as (E&Et&Ea). rewrite E.
    destruct (adj_add_base (adj_add (with_edge d x) u v) v u) as (E1&Et1&Ea1). rewrite E1.
    split; [reflexivity|]. rewrite Et1, Ea1, Et, Ea. auto.
  Qed.

  Lemma blind_add_edge ru rv el : blind (add_edge ru rv el).
  Proof. unfold add_edge. see; auto using blind_resolve_end, blind_graph_add_edge. Qed.

  Lemma blind_add_support r : blind (add_support r).
  Proof.
    intros d. unfold add_support. change (node_key (base_of d) r) with (node_key d r).
    destruct (node_key d r); [apply blind_node_set|repeat split; reflexivity].
  Qed.

  Lemma blind_add_load r q : blind (add_load r q).
  Proof.
    intros d. unfold add_load. change (node_key (base_of d) r) with (node_key d r).
    destruct (node_key d r); [apply blind_node_set|repeat split; reflexivity].
  Qed.

  Lemma blind_node_xyz k p : blind (update_node_xyz k p).
  Proof.
    intros d. unfold update_node_xyz.
    change (gkey (base_of d) p) with (gkey d p). change (d_gkey (base_of d)) with (d_gkey d).
    assert (B : blind (do* _ := add_node (Some k) p in eret tt)) by (see; apply blind_add_node).
    destruct (dmem (d_gkey d) (gkey d p)).
    - change (with_gkey (base_of d) (ddel (d_gkey d) (gkey d p)))
        with (base_of (with_gkey d (ddel (d_gkey d) (gkey d p)))).
      destruct (B (with_gkey d (ddel (d_gkey d) (gkey d p)))) as (E&Et&Ea). auto.
    - apply B.
  Qed.

  Lemma blind_set_sequences l : forall s, blind (set_sequences s l).
  Proof.
    induction l as [|n l IH]; intros s; cbn [set_sequences]; see; auto using blind_node_set.
  Qed.

  Lemma pick_next_base (d : diagram T) visited node nbrs :
    pick_next (base_of d) visited node nbrs = pick_next d visited node nbrs.
  Proof.
    induction nbrs as [|n l IH]; [reflexivity|]. cbn [pick_next]. rewrite IH. reflexivity.
  Qed.

  Lemma walk_base (d : diagram T) fuel : forall tr visited node, walk fuel (base_of d) tr visited node = walk fuel d tr visited node.
  Proof.
    induction fuel as [|fuel IH]; intros tr visited node; [reflexivity|]. cbn [walk].
    change (neighbors (base_of d) node) with (neighbors d node).
    destruct (neighbors d node) as [l|e]; [|reflexivity]. cbn [bind]. rewrite pick_next_base.
    destruct (pick_next d visited node (rev l)) as [[nbr|]|e]; try reflexivity. cbn [bind].
    destruct (Z.eqb node nbr); [reflexivity|apply IH].
  Qed.

  Lemma blind_build_search ord : blind (build_search ord).
  Proof.
    unfold build_search. see. unfold build_body. see; auto using blind_node_set, blind_set_sequences.
    apply walk_base.
  Qed.

  Lemma blind_aux_body dir acc node : blind (aux_body dir acc node).
  Proof.
    unfold aux_body. see; auto using blind_add_node, blind_add_support, blind_add_edge.
  Qed.

  Lemma blind_call c :
    match c with OpBuildTrails _ _ | OpShiftTrail _ _ => True | c => blind (call (T := T) c) end.
  Proof.
    destruct c; cbn [call]; unfold ignore; see;
      auto using blind_add_node, blind_add_edge, blind_add_support, blind_add_load,
        blind_node_xyz, blind_node_set, blind_edge_set.
    all: intros d; repeat split; reflexivity.
  Qed.

  (** The object follows the diagram *)
  Lemma on_base_keyed {A} (m : eff (diagram T) A) f g d : blind m ->
    on_base m (keyed f g d) = (keyed f g (fst (m d)), snd (m d)).
  Proof.
    intros B. destruct (B d) as (E&Et&Ea). unfold on_base. cbn [keyed o_base o_trails o_aux]. rewrite E.
    unfold keyed. now rewrite Et, Ea.
  Qed.

  Lemma bind_keyed {A B} (m : eff (diagram T) A) (k : A -> eff (object T) B) f g d : blind m ->
    ebind (on_base m) k (keyed f g d)
    = match m d with (d', Ok a) => k a (keyed f g d') | (d', Err e) => (keyed f g d', Err e) end.
  Proof.
    intros M. unfold ebind. rewrite on_base_keyed by auto. destruct (m d) as [d' [a|e]]; reflexivity.
  Qed.

  Lemma finish_keyed trs un f g d :
    o_build_finish trs un (keyed f g d)
    = (keyed (match snd (build_finish trs un d) with Ok _ => KInt | Err _ => f end) g (fst (build_finish trs un d)),
       snd (build_finish trs un d)).
  Proof.
    unfold o_build_finish, build_finish.
    rewrite bind_keyed by (see). unfold eget at 1. unfold ebind at 2 4 6. unfold eget at 2 4 6.
    destruct (Nat.eqb _ 0); [reflexivity|].
    rewrite bind_keyed by (see). unfold eget at 1. unfold ebind. unfold eget.
    destruct (Nat.eqb _ 0); [reflexivity|].
    destruct (negb _); reflexivity.
  Qed.

  Lemma plain_keyed ord f g d :
    o_build_trails_plain ord (keyed f g d)
    = (keyed (match snd (build_trails_plain ord d) with Ok _ => KInt | Err _ => f end) g (fst (build_trails_plain ord d)),
       snd (build_trails_plain ord d)).
  Proof.
    unfold o_build_trails_plain, build_trails_plain. rewrite bind_keyed by apply blind_build_search.
    unfold ebind. destruct (build_search ord d) as [d' [r|e]]; [|reflexivity]. apply finish_keyed.
  Qed.

  Lemma bind_at {A B} (m : eff (diagram T) A) (k : A -> eff (diagram T) B) d :
    ebind m k d = match m d with (d', Ok a) => k a d' | (d', Err e) => (d', Err e) end.
  Proof. reflexivity. Qed.

  Lemma build_keyed ord aux f g d : exists g', (g' = g \/ g' = KInt) /\
    o_build_trails ord aux (keyed f g d)
    = (keyed (match snd (build_trails ord aux d) with Ok _ => KInt | Err _ => f end) g' (fst (build_trails ord aux d)),
       snd (build_trails ord aux d)).
  Proof.
    unfold o_build_trails, build_trails. destruct aux; [|exists g; split; [auto|apply plain_keyed]].
    rewrite bind_keyed by apply blind_build_search. rewrite (bind_at (build_search ord)).
    destruct (build_search ord d) as [d1 [r|e]]; [|exists g; split; [auto|reflexivity]].
    rewrite bind_keyed by (apply blind_get; reflexivity). rewrite bind_at. unfold eget.
    rewrite bind_keyed by (apply blind_loop; intros; apply blind_aux_body). rewrite bind_at.
    destruct (eloop (aux_body (normalize_vector (d_aux_vector d1))) (snd r) [] d1) as [d2 [ax|e]]; [|exists g; split; [auto|reflexivity]].
    unfold ebind. exists KInt. split; [auto|]. apply (plain_keyed ord f KInt (with_aux d2 ax)).
  Qed.

  Lemma shift_keyed key s g d :
    o_shift_trail key s (keyed KInt g d) = (keyed KInt g (fst (shift_trail key s d)), snd (shift_trail key s d)).
  Proof.
    unfold o_shift_trail, shift_trail. rewrite bind_keyed by (apply blind_get; reflexivity).
    rewrite bind_at.
    change (eget (fun d0 : diagram T => is_node_origin d0 key) d) with (d, is_node_origin d key).
    destruct (is_node_origin d key) as [b|e]; [|reflexivity]. destruct (negb b); [reflexivity|].
    unfold ebind, eget, o_has_trails, has_trails, number_of_trails. cbn [keyed o_trails]. rewrite length_rekey.
    destruct (negb _); [reflexivity|].
    change (mkObject (base_of d) (rekey KInt (d_trails d)) (rekey g (d_aux d))) with (keyed KInt g d).
    rewrite (trails_keyed g d key). destruct (trail d key) as [tr|e]; [|reflexivity].
    apply on_base_keyed, blind_set_sequences.
  Qed.

  Lemma call_keyed c f g d : (names_trail c -> f = KInt) ->
    exists f' g', (f' = f \/ f' = KInt) /\ (g' = g \/ g' = KInt)
      /\ o_call c (keyed f g d) = (keyed f' g' (fst (call c d)), snd (call c d))
      /\ match c with OpBuildTrails _ _ => snd (call c d) = Ok tt -> f' = KInt | _ => True end.
  Proof.
    intros N. pose proof (blind_call c) as B.
    destruct c; cbn [o_call]; try (exists f, g; split; [auto|split; [auto|split; [|exact I]]]; apply on_base_keyed, B).
    - destruct (build_keyed ord auxiliary f g d) as (g'&G&E).
      exists (match snd (build_trails ord auxiliary d) with Ok _ => KInt | Err _ => f end), g'.
      cbn [call]. split; [destruct (snd (build_trails ord auxiliary d)); auto|]. split; [exact G|]. split; [exact E|].
      intros ->. reflexivity.
    - rewrite (N I). exists KInt, g. cbn [call]. split; [auto|]. split; [auto|]. split; [apply shift_keyed|exact I].
  Qed.

  Lemma keys_inj (f : Z -> pkey) : f = text_key \/ f = KInt -> forall x y, f x = f y -> x = y.
  Proof. intros [->| ->]; [apply text_key_inj|apply KInt_inj]. Qed.

  Lemma run_keyed cs : forall f g d, Forall (fun c => names_trail c -> f = KInt) cs ->
    exists f' g', (f' = f \/ f' = KInt) /\ (g' = g \/ g' = KInt)
      /\ o_run (keyed f g d) cs = (keyed f' g' (run d cs), answers d cs).
  Proof.
    induction cs as [|c cs IH]; intros f g d A; cbn [o_run answers]; [exists f, g; auto|].
    inversion A as [|? ? Ac Acs]; subst.
    destruct (call_keyed c f g d Ac) as (f1&g1&F1&G1&E&_). rewrite E.
    destruct (IH f1 g1 (fst (call c d))) as (f2&g2&F2&G2&E2).
    { revert Acs. apply Forall_impl. intros c' N I. destruct F1 as [->| ->]; auto. }
    exists f2, g2. split; [destruct F1, F2; subst; auto|]. split; [destruct G1, G2; subst; auto|].
    rewrite E2. reflexivity.
  Qed.

  Lemma run_keyed_built a ord aux b : forall f g d,
    Forall (fun c => names_trail c -> f = KInt) a ->
    snd (call (OpBuildTrails ord aux) (run d a)) = Ok tt ->
    exists g', (g' = g \/ g' = KInt)
      /\ o_run (keyed f g d) (a ++ OpBuildTrails ord aux :: b)
         = (keyed KInt g' (run d (a ++ OpBuildTrails ord aux :: b)), answers d (a ++ OpBuildTrails ord aux :: b)).
  Proof.
    induction a as [|c a IH]; intros f g d A S; cbn [app o_run answers].
    - destruct (call_keyed (OpBuildTrails ord aux) f g d) as (f1&g1&_&G1&E&K); [intros []|].
      rewrite (K S) in E. rewrite E.
      destruct (run_keyed b KInt g1 (fst (call (OpBuildTrails ord aux) d))) as (f2&g2&F2&G2&E2).
      { apply Forall_forall. auto. }
      rewrite E2. exists g2. split; [destruct G1, G2; subst; auto|].
      replace f2 with KInt by (destruct F2; auto). reflexivity.
    - inversion A as [|? ? Ac Acs]; subst.
      destruct (call_keyed c f g d Ac) as (f1&g1&F1&G1&E&_). rewrite E.
      destruct (IH f1 g1 (fst (call c d))) as (g2&G2&E2).
      { revert Acs. apply Forall_impl. intros c' N I. destruct F1 as [->| ->]; auto. }
      { exact S. }
      rewrite E2. exists g2. split; [destruct G1, G2; subst; auto|]. reflexivity.
  Qed.

  (** What form_update writes are attributes of nodes and edges *)
  Definition bare_kept (d d' : diagram T) : Prop := form_of_topology d = d -> form_of_topology d' = d'.

  Lemma bare_kept_trans a b c : bare_kept a b -> bare_kept b c -> bare_kept a c.
  Proof. unfold bare_kept. auto. Qed.

  Lemma bare_node_set n f : DiagramThms.steps bare_kept (node_set (T := T) n f).
  Proof.
    intros d E. unfold node_set. destruct (dget (d_node d) n); [|exact E].
    destruct d. unfold form_of_topology in *. cbn in *. injection E as E1 E2 E3 E4. rewrite <- E1, <- E2, <- E3, <- E4. reflexivity.
  Qed.

  Lemma bare_edge_set e f : DiagramThms.steps bare_kept (edge_set (T := T) e f).
  Proof.
    intros d E. unfold edge_set. destruct (dget (d_edge d) (fst e)) as [x|]; [|exact E].
    destruct (dget x (snd e)); [|exact E].
    destruct d. unfold form_of_topology in *. cbn in *. injection E as E1 E2 E3 E4. rewrite <- E1, <- E2, <- E3, <- E4. reflexivity.
  Qed.

  Lemma form_update_bare st : DiagramThms.steps bare_kept (form_update (T := T) st).
  Proof.
    assert (Tr : forall a b c, bare_kept a b -> bare_kept b c -> bare_kept a c) by apply bare_kept_trans.
    assert (Rf : forall a, bare_kept a a) by (intros a E; exact E).
    unfold form_update.
    repeat first
      [ apply DiagramThms.steps_ebind; [exact Tr| |intros]
      | apply DiagramThms.steps_eloop; [exact Rf|exact Tr|intros]
      | apply DiagramThms.steps_eget; exact Rf
      | apply bare_node_set | apply bare_edge_set ].
  Qed.

  (** ** C86 *)

  (** A diagram kept in memory: calls, forms and trails of the object are those of the
      diagram. *)
  Lemma c86_memory : forall d cs,
    let '(o, rs) := o_run (in_memory d) cs in
    rs = answers d cs /\ same_contents o (run d cs) /\ same_forms o (run d cs) /\ same_trails o (run d cs).
  Proof.
    intros d cs. change (in_memory d) with (keyed KInt KInt d).
    destruct (run_keyed cs KInt KInt d) as (f&g&F&G&E); [apply Forall_forall; auto|].
    rewrite E. replace f with KInt by (destruct F; auto).
    split; [reflexivity|]. split; [apply contents_keyed|]. split; [apply forms_keyed, KInt_inj|apply trails_keyed].
  Qed.

  (** Every topology diagram can be written and read.  What was read has the same contents,
      and it answers every later history of calls in the same way, with the same contents
      and the same forms afterwards, as long as no call asks for a trail by its key. *)
  Lemma c86_topology_partial : forall d, exists o,
    from_json (topology_file d) = Ok o
    /\ forall cs, Forall (fun c => ~ names_trail c) cs ->
         let '(o', rs) := o_run o cs in
         rs = answers d cs /\ same_contents o' (run d cs) /\ same_forms o' (run d cs).
  Proof.
    intros d. exists (keyed text_key text_key d). split; [apply topology_read|].
    intros cs A. destruct (run_keyed cs text_key text_key d) as (f&g&F&_&E).
    { revert A. apply Forall_impl. intros c N I. contradiction. }
    rewrite E. split; [reflexivity|]. split; [apply contents_keyed|]. apply forms_keyed, keys_inj, F.
  Qed.

  (** Once the trails are built again, the trails too can be asked for by key, and calls
      that do so give the same answers. *)
  Lemma c86_rebuilt_partial : forall d o before ord aux after,
    from_json (topology_file d) = Ok o ->
    Forall (fun c => ~ names_trail c) before ->
    snd (call (OpBuildTrails ord aux) (run d before)) = Ok tt ->
    let cs := before ++ OpBuildTrails ord aux :: after in
    let '(o', rs) := o_run o cs in
    rs = answers d cs /\ same_contents o' (run d cs) /\ same_forms o' (run d cs) /\ same_trails o' (run d cs).
  Proof.
    intros d o before ord aux after R A S. rewrite topology_read in R. apply Ok_inj in R. subst o.
    cbn zeta. destruct (run_keyed_built before ord aux after text_key text_key d) as (g&_&E); [|exact S|].
    { revert A. apply Forall_impl. intros c N I. contradiction. }
    rewrite E. split; [reflexivity|]. split; [apply contents_keyed|]. split; [apply forms_keyed, KInt_inj|apply trails_keyed].
  Qed.

  (** What was read has no trail with an integer key. *)
  Lemma c86_lost : forall d o key,
    from_json (topology_file d) = Ok o -> o_trail o key = Err KeyError.
  Proof.
    intros d o key R. rewrite topology_read in R. apply Ok_inj in R. subst o.
    unfold o_trail, dgetr. cbn [keyed o_trails].
    assert (E : dget (rekey text_key (d_trails d)) (KInt key) = None); [|now rewrite E].
    induction (d_trails d) as [|[k v] m IH]; [reflexivity|]. exact IH.
  Qed.

  (** A diagram without trails comes back as it was, and so does everything done with it
      later. *)
  Lemma c86_unbuilt : forall d,
    trails d = [] -> auxiliary_trails d = [] ->
    from_json (topology_file d) = Ok (in_memory d).
  Proof.
    intros d Et Ea. rewrite topology_read. unfold keyed, in_memory. unfold trails in Et. unfold auxiliary_trails in Ea.
    rewrite Et, Ea. reflexivity.
  Qed.

  (** A form diagram comes back as it was. *)
  Lemma c86_form : forall d kmax tmax eta verbose form,
    static_equilibrium d kmax tmax eta verbose = Ok form ->
    from_json (form_file form) = Ok (in_memory form).
  Proof.
    intros d kmax tmax eta verbose form E. rewrite form_read. do 2 f_equal.
    unfold static_equilibrium in E. destruct (equilibrium_state d kmax tmax eta verbose) as [st|e]; [|discriminate].
    cbn [bind] in E. pose proof (form_update_bare st (form_of_topology d)) as F.
    destruct (form_update st (form_of_topology d)) as [x [[]|e]]; [|discriminate]. apply Ok_inj in E. subst x.
    cbn [fst] in F. apply F. reflexivity.
  Qed.
End FilesThms.
