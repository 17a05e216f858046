(** * Parameters and constraints survive serialization (C55) *)

From Coq Require Import String Ascii List ZArith Bool Lia DecimalString DecimalZ DecimalPos Reals Floats FloatAxioms SpecFloat.
From Verif Require Import Py PyFacts Num Diagram Optimizer Constraints Serialize SpecSerialize.
Import ListNotations.
Open Scope Z_scope.

(** ** The text of integers *)

Fixpoint all_words (s : string) : bool :=
  match s with EmptyString => true | String c s => word_char c && all_words s end.

Lemma uint_words : forall d, all_words (NilEmpty.string_of_uint d) = true.
Proof. induction d; cbn [NilEmpty.string_of_uint all_words]; rewrite ?IHd; reflexivity. Qed.

Lemma nil_zero_words : forall d, all_words (NilZero.string_of_uint d) = true.
Proof. intros [| | | | | | | | | |]; try reflexivity; intros; apply uint_words. Qed.

Lemma repr_int_words : forall z, all_words (repr_int z) = true.
Proof.
  intros z. unfold repr_int. destruct (Z.to_int z); cbn [NilZero.string_of_int].
  - apply nil_zero_words.
  - cbn [all_words]. rewrite nil_zero_words. reflexivity.
Qed.

Lemma repr_int_nonempty : forall z, repr_int z <> EmptyString.
Proof.
  intros z. unfold repr_int. destruct (Z.to_int z) as [d|d]; cbn [NilZero.string_of_int]; [|discriminate].
  destruct d; discriminate.
Qed.

Lemma word_int_repr : forall z, word_int (repr_int z) = Some z.
Proof.
  intros z. unfold word_int, repr_int. rewrite NilZero.isi.
  - cbn [option_map]. rewrite DecimalZ.of_to. reflexivity.
  - destruct z; cbn; try discriminate. intros E. injection E as E.
    pose proof (Unsigned.of_to p) as O. rewrite E in O. discriminate.
  - destruct z; cbn; try discriminate. intros E. injection E as E.
    pose proof (Unsigned.of_to p) as O. rewrite E in O. discriminate.
Qed.

(** A run of word characters followed by another character is one token. *)
Lemma tokens_word : forall w s, all_words w = true -> w <> EmptyString ->
  (forall t ts, tokens s = t :: ts -> exists c, t = TChar c) ->
  tokens (w ++ s) = TWord w :: tokens s.
Proof.
  induction w as [|c w IH]; intros s A N S; [congruence|].
  cbn [all_words] in A. apply andb_prop in A. destruct A as [A1 A2].
  cbn [append tokens]. rewrite A1. destruct w as [|c' w'].
  - cbn [append]. destruct (tokens s) as [|t ts] eqn:E; [reflexivity|].
    destruct (S t ts eq_refl) as [x ->]. reflexivity.
  - rewrite IH; auto; discriminate.
Qed.

(** The tokens of a text without the spaces *)
Definition solid (s : string) : list token := filter (fun t => negb (is_space t)) (tokens s).

Lemma solid_word : forall z s, (forall t ts, tokens s = t :: ts -> exists c, t = TChar c) ->
  solid (repr_int z ++ s) = TWord (repr_int z) :: solid s.
Proof.
  intros z s S. unfold solid. rewrite tokens_word; auto using repr_int_words, repr_int_nonempty.
Qed.

Lemma char_first : forall c s, word_char c = false ->
  forall t ts, tokens (String c s) = t :: ts -> exists c', t = TChar c'.
Proof. intros c s W t ts E. cbn [tokens] in E. rewrite W in E. injection E as <- _. eauto. Qed.

Lemma append_assoc_s : forall a b c : string, ((a ++ b) ++ c = a ++ (b ++ c))%string.
Proof. induction a as [|x a IH]; intros b c; cbn; [reflexivity|]. rewrite IH. reflexivity. Qed.

Lemma read_items_repr : forall close l ts, In close [")"%char; "]"%char] ->
  l <> [] -> read_items close (solid (repr_items l ++ String close EmptyString) ++ ts) = Some (l, false, ts).
Proof.
  intros close l ts C. induction l as [|z l IH]; intros N; [congruence|].
  assert (W : word_char close = false) by (destruct C as [<-|[<-|[]]]; reflexivity).
  assert (SP : is_space (TChar close) = false) by (destruct C as [<-|[<-|[]]]; reflexivity).
  destruct l as [|z' l].
  - cbn [repr_items]. rewrite solid_word by (apply char_first; exact W).
    unfold solid at 1. cbn [tokens]. rewrite W. cbn [filter]. rewrite SP. cbn [negb app].
    cbn [read_items]. rewrite word_int_repr, Ascii.eqb_refl. reflexivity.
  - change (repr_items (z :: z' :: l)) with (repr_int z ++ String "," (String " " (repr_items (z' :: l))))%string.
    rewrite append_assoc_s. cbn [append].
    rewrite solid_word by (apply char_first; reflexivity).
    unfold solid at 1. cbn [tokens]. change (word_char ",") with false. change (word_char " ") with false.
    cbn [filter is_space]. change (Ascii.eqb "," " ") with false. change (Ascii.eqb " " " ") with true. cbn [negb].
    change (filter _ (tokens ?s)) with (solid s).
    cbn [app read_items]. rewrite word_int_repr.
    destruct (Ascii.eqb "," close) eqn:E; [exfalso; destruct C as [<-|[<-|[]]]; discriminate|].
    change (Ascii.eqb "," ",") with true. cbn iota.
    rewrite IH by discriminate. reflexivity.
Qed.

Section SerializeThms.
  Context {T : Type} `{NumOps T}.

  Lemma literal_int : forall z, literal_eval (T := T) (VStr (repr_int z)) = Ok (VInt z).
  Proof.
    intros z. unfold literal_eval. change (filter _ (tokens ?s)) with (solid s).
    assert (E : solid (repr_int z) = [TWord (repr_int z)]).
    { assert (A : forall w : string, (w ++ "")%string = w) by (induction w as [|c w IH]; cbn; [|rewrite IH]; reflexivity).
      rewrite <- (A (repr_int z)) at 1. rewrite solid_word; [reflexivity|]. discriminate. }
    rewrite E. cbn [literal_tokens].
    destruct (String.eqb_spec (repr_int z) "None") as [N|N].
    - exfalso. pose proof (word_int_repr z) as W. rewrite N in W. discriminate.
    - rewrite word_int_repr. reflexivity.
  Qed.

  Lemma literal_tuple : forall l, literal_eval (T := T) (VStr (repr_tuple l)) = Ok (VTuple l).
  Proof.
    intros l. unfold literal_eval. change (filter _ (tokens ?s)) with (solid s).
    destruct l as [|z [|z' l]].
    - reflexivity.
    - cbn [repr_tuple]. unfold solid. cbn [append tokens]. change (word_char "(") with false.
      cbn [filter]. change (is_space (TChar "(")) with false. cbn [negb].
      change (filter _ (tokens ?s)) with (solid s).
      rewrite solid_word by (apply char_first; reflexivity).
      change (solid ",)") with [TChar ","; TChar ")"]. cbn [literal_tokens read_items].
      rewrite word_int_repr. reflexivity.
    - change (repr_tuple (z :: z' :: l)) with (String "(" (repr_items (z :: z' :: l) ++ ")"))%string.
      unfold solid. cbn [tokens]. change (word_char "(") with false.
      cbn [filter]. change (is_space (TChar "(")) with false. cbn [negb].
      change (filter _ (tokens ?s)) with (solid s). cbn [literal_tokens].
      change (Ascii.eqb "(" "(") with true. cbn iota.
      rewrite <- (app_nil_r (solid _)). rewrite read_items_repr; [reflexivity|left; reflexivity|discriminate].
  Qed.

  Lemma literal_list : forall l, literal_eval (T := T) (VStr (repr_list l)) = Ok (VList l).
  Proof.
    intros l. unfold literal_eval. change (filter _ (tokens ?s)) with (solid s).
    destruct l as [|z l]; [reflexivity|].
    change (repr_list (z :: l)) with (String "[" (repr_items (z :: l) ++ "]"))%string.
    unfold solid. cbn [tokens]. change (word_char "[") with false.
    cbn [filter]. change (is_space (TChar "[")) with false. cbn [negb].
    change (filter _ (tokens ?s)) with (solid s). cbn [literal_tokens].
    change (Ascii.eqb "[" "(") with false. change (Ascii.eqb "[" "[") with true. cbn iota.
    rewrite <- (app_nil_r (solid _)). rewrite read_items_repr; [reflexivity|right; left; reflexivity|discriminate].
  Qed.

  (** The text of a key reads back as the key: every integer, and every tuple or list of integers of any length. *)
  Lemma c55_key_text : forall k : pyval T, (exists z, k = VInt z) \/ (exists l, k = VTuple l) \/ (exists l, k = VList l) ->
    exists s, py_repr k = Ok (VStr s) /\ literal_eval (VStr s) = Ok k.
  Proof.
    intros k [[z ->]|[[l ->]|[l ->]]]; (eexists; split; [reflexivity|]);
      [apply literal_int|apply literal_tuple|apply literal_list].
  Qed.

  (** Different keys have different texts. *)
  Lemma c55_key_distinct : forall k k' : pyval T, is_key k -> is_key k' -> py_repr k = py_repr k' -> k = k'.
  Proof.
    intros k k' K K' E.
    assert (R : forall k : pyval T, is_key k -> exists s, py_repr k = Ok (VStr s) /\ literal_eval (VStr s) = Ok k).
    { intros k0 [[z ->]|[u [v ->]]]; apply c55_key_text; eauto. }
    destruct (R k K) as [s [P L]], (R k' K') as [s' [P' L']].
    rewrite E in P. rewrite P in P'. injection P' as ->. congruence.
  Qed.

  Lemma bound_read : forall b : option T, read_bound (bound_value b) = Ok (bound_value b).
  Proof. intros [x|]; reflexivity. Qed.

  Lemma json_bound : forall b : option T, json_value (bound_value b) = bound_value b.
  Proof. intros [x|]; reflexivity. Qed.

  (** Reading back the data of a parameter, directly or through JSON text, gives the same parameter: key, bounds and
      attribute, whatever the class, the integers in the key and the bounds. *)
  Lemma c55_parameter : forall p : parameter T, parameter_survives (parameter_object p).
  Proof.
    intros [[k a|[u v] a] low up]; unfold parameter_survives, parameter_object, make_parameter;
      cbn [p_slot p_low p_up fst snd].
    - eexists. split; [reflexivity|].
      intros d' [->| ->]; unfold parameter_from_data, json_dict;
        cbn [map fst snd json_value po_key po_up po_low po_attr po_class dgetr dget eqb Eqb_string String.eqb Ascii.eqb Bool.eqb bind py_int py_str];
        rewrite ?json_bound, !bound_read; reflexivity.
    - unfold parameter_data; cbn [po_class po_key po_up po_low po_attr py_repr bind].
      eexists. split; [reflexivity|].
      intros d' [->| ->]; unfold parameter_from_data, json_dict;
        cbn [map fst snd json_value po_key po_up po_low po_attr po_class dgetr dget eqb Eqb_string String.eqb Ascii.eqb Bool.eqb bind];
        rewrite literal_tuple; cbn [bind py_tuple py_str];
        rewrite ?json_bound, !bound_read; reflexivity.
  Qed.

  (** What is read back is the parameter of the caller: its key, bounds and the attribute it drives. *)
  Lemma c55_parameter_fields : forall p : parameter T, exists d p',
    parameter_data (parameter_object p) = Ok d
    /\ parameter_from_data (po_class (parameter_object p)) d = Ok p'
    /\ po_key p' = match p_slot p with NodeSlot n _ => VInt n | EdgeSlot (u, v) _ => VTuple [u; v] end
    /\ po_low p' = match p_low p with Some x => VFloat x | None => VNone end
    /\ po_up p' = match p_up p with Some x => VFloat x | None => VNone end
    /\ po_attr p' = VStr (match p_slot p with
                          | NodeSlot _ AX => "x" | NodeSlot _ AY => "y" | NodeSlot _ AZ => "z"
                          | NodeSlot _ AQX => "qx" | NodeSlot _ AQY => "qy" | NodeSlot _ AQZ => "qz"
                          | EdgeSlot _ AForce => "force" | EdgeSlot _ ALength => "length" end).
  Proof.
    intros p. destruct (c55_parameter p) as [d [D R]].
    exists d, (parameter_object p). split; [exact D|]. split; [apply R; left; reflexivity|].
    destruct p as [[k a|[u v] a] low up]; unfold parameter_object, make_parameter;
      cbn [p_slot p_low p_up po_key po_up po_low po_attr fst snd];
      (split; [reflexivity|]); (split; [destruct low; reflexivity|]); (split; [destruct up; reflexivity|]);
      destruct a; reflexivity.
  Qed.

  (** Missing: targets given as plain lists or tuples of coordinates, and targets that are infinite or NaN (the full
      statement is refuted below).  Reading back the data of a constraint whose target is a compas geometry object or a
      finite number gives the same constraint: key, target and weight. *)
  Lemma c55_constraint_partial : forall c : cobj T, is_key (co_key c) -> fits c -> storable (co_target c) -> constraint_survives c.
  Proof.
    intros [cl k t w] K F S. cbn [co_key co_target co_class] in *. unfold fits in F. cbn [co_target co_class] in F.
    assert (R : exists s, py_repr k = Ok (VStr s) /\ literal_eval (VStr s) = Ok k).
    { apply c55_key_text. destruct K as [[z ->]|[u [v ->]]]; eauto. }
    destruct R as [s [P L]].
    unfold constraint_survives, constraint_data. cbn [co_key co_target co_class co_weight]. rewrite P. cbn [bind].
    destruct t as [p|p|a b|a b|l|l|x]; cbn [storable] in S; [| | | | |contradiction|].
    1-5: assert (C : is_float_class cl = false) by (destruct cl, F; try reflexivity; congruence);
      rewrite C; cbn [to_data dtype bind];
      eexists; (split; [reflexivity|]);
      intros d' [->| ->]; unfold constraint_from_data, json_dict;
        cbn [map fst snd json_value dgetr dget eqb Eqb_string String.eqb Ascii.eqb Bool.eqb bind];
        rewrite L; cbn [bind]; rewrite C; reflexivity.
    assert (C : is_float_class cl = true) by (destruct F as [-> | ->]; reflexivity).
    rewrite C. cbn [target_value bind py_repr].
    eexists. split; [reflexivity|].
    intros d' [->| ->]; unfold constraint_from_data, json_dict;
      cbn [map fst snd json_value dgetr dget eqb Eqb_string String.eqb Ascii.eqb Bool.eqb bind];
      rewrite L; cbn [bind]; rewrite C; cbn [literal_eval]; rewrite S; reflexivity.
  Qed.

  (** A target of coordinates in a plain list or tuple can be used in an optimization but not written. *)
  Lemma c55_plain_target : forall cl k (points : list (vec T)) w, is_key k -> is_float_class cl = false ->
    constraint_data (mkCobj cl k (Plain points) w) = Err AttributeError.
  Proof.
    intros cl k points w [[z ->]|[u [v ->]]] F; unfold constraint_data;
      cbn [co_key co_class co_target py_repr bind]; rewrite F; reflexivity.
  Qed.

End SerializeThms.

(** ** Which numbers are finite *)

(** Every constraint of the exact model survives: real numbers are finite. *)
Lemma c55_goals : forall c : constraint R, constraint_survives (goal_object c).
Proof.
  intros [g w]. apply c55_constraint_partial; destruct g; unfold goal_object, fits, is_key, storable;
    cbn [c_goal c_weight co_key co_target co_class]; eauto.
  all: try (split; discriminate).
  all: unfold finite; cbn [neqb nsub n0 R_ops]; rewrite Rminus_diag_eq by reflexivity;
    unfold Reqb; destruct (Req_EM_T 0 0); congruence.
Qed.

(** Read back, it is of the same class and has the node or edge, the target and the weight the user gave. *)
Lemma c55_goal_fields : forall c : constraint R, exists d c',
  constraint_data (goal_object c) = Ok d
  /\ constraint_from_data (co_class (goal_object c)) d = Ok c'
  /\ co_weight c' = c_weight c
  /\ (co_class c', co_key c', co_target c') = match c_goal c with
     | PointGoal n p => (CPoint, VInt n, GPoint p)
     | LineGoal n a b => (CLine, VInt n, GLine a b)
     | PlaneGoal n o m => (CPlane, VInt n, GPlane o m)
     | PolylineGoal n l => (CPolyline, VInt n, GPolyline l)
     | TrailForceGoal (u, v) f => (CTrailForce, VTuple [u; v], Number f)
     | ReactionGoal n r => (CReaction, VInt n, GVector r)
     | LengthGoal (u, v) l => (CLength, VTuple [u; v], Number l)
     | DirectionGoal (u, v) r => (CDirection, VTuple [u; v], GVector r)
     end.
Proof.
  intros c. destruct (c55_goals c) as [d [D S]]. exists d, (goal_object c). split; [exact D|].
  split; [apply S; now left|]. destruct c as [[]w]; try destruct edge; split; reflexivity.
Qed.

Lemma sf_sub_self : forall s m e, SF64sub (S754_finite s m e) (S754_finite s m e) = S754_zero false.
Proof. intros s m e. unfold SF64sub, SFsub. rewrite Z.sub_diag. reflexivity. Qed.

(** A float is finite when it is neither an infinity nor NaN. *)
Lemma c55_finite : forall x : float, finite x = true <-> x <> infinity /\ x <> neg_infinity /\ x <> nan.
Proof.
  intros x. unfold finite. cbn [neqb nsub n0 F_ops].
  rewrite FloatAxioms.eqb_spec, sub_spec.
  assert (I : forall y, x = y <-> Prim2SF x = Prim2SF y).
  { intros y. split; [congruence|apply Prim2SF_inj]. }
  rewrite !I. change (Prim2SF infinity) with (S754_infinity false).
  change (Prim2SF neg_infinity) with (S754_infinity true). change (Prim2SF nan) with S754_nan.
  destruct (Prim2SF x) as [s|s| |s m e].
  - destruct s; cbn; split; auto; repeat split; congruence.
  - destruct s; cbn; split; intros; try discriminate; intuition congruence.
  - cbn; split; intros; try discriminate; intuition congruence.
  - rewrite sf_sub_self. cbn. split; auto. intros _. repeat split; discriminate.
Qed.

(** ** Constraints that do not survive *)

(** A point constraint with a tuple as target, as in examples/03_bridge_2d.py:75-77 *)
Definition bridge_target : cobj float :=
  mkCobj CPoint (VInt 1) (Plain [V3 (-20.67) 42.7 0]%float) 1%float.

(** A length to be made as large as possible *)
Definition endless : cobj float := mkCobj CLength (VTuple [0; 1]) (Number infinity) 1%float.

(** The full statement of C55 is false: the data of a constraint whose target is a plain tuple cannot be written, and the
    data of one whose target is infinite is written but cannot be read. *)
Lemma c55_refuted :
  (exists c : cobj float, is_key (co_key c) /\ fits c /\ constraint_data c = Err AttributeError)
  /\ (exists (c : cobj float) d e, is_key (co_key c) /\ fits c /\ constraint_data c = Ok d /\ constraint_from_data (co_class c) d = Err e).
Proof.
  split.
  - exists bridge_target. split; [left; eexists; reflexivity|]. split; [split; discriminate|reflexivity].
  - exists endless. eexists. eexists. split; [right; do 2 eexists; reflexivity|]. split; [right; reflexivity|].
    split; [reflexivity|vm_compute; reflexivity].
Qed.
