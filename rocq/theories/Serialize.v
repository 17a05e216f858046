(** * Serialization of parameters and constraints

    Model of the [data] properties of compas_cem/optimization/parameters/edge.py and
    node.py and of compas_cem/optimization/constraints/constraint.py, with Python's
    [repr] and [ast.literal_eval] on the keys written out character by character.

    [compas.data.Data.from_data] is [obj = cls(); obj.data = data]; every class
    modelled here can be made without arguments.  The text of a float is a token
    ([VFloatText]): CPython guarantees that reading the text of a finite float back
    gives the same float, while the texts inf and nan are no literals. *)

From Coq Require Import String Ascii List ZArith Bool DecimalString.
From Verif Require Import Py Num Diagram Optimizer Constraints.
Import ListNotations.
Open Scope Z_scope.


(** ** Python values that occur in data dictionaries *)
Inductive pyval (T : Type) : Type :=
| VNone
| VInt (z : Z)
| VFloat (x : T)
| VStr (s : string)
| VFloatText (x : T)            (* the string repr(x) *)
| VTuple (l : list Z)
| VList (l : list Z)
| VVec (p : vec T)              (* the list [x, y, z], data of a compas Point or Vector *)
| VVecs (ps : list (vec T)).    (* the points in the data of a compas Line, Plane or Polyline *)
Arguments VNone {T}.
Arguments VInt {T} _.
Arguments VFloat {T} _.
Arguments VStr {T} _.
Arguments VFloatText {T} _.
Arguments VTuple {T} _.
Arguments VList {T} _.
Arguments VVec {T} _.
Arguments VVecs {T} _.

(** ** repr *)

(** [repr(z)] of an int: decimal digits after an optional minus sign *)
Definition repr_int (z : Z) : string := NilZero.string_of_int (Z.to_int z).

(** [", ".join(map(repr, l))] *)
Fixpoint repr_items (l : list Z) : string :=
  match l with
  | [] => ""
  | [z] => repr_int z
  | z :: l => repr_int z ++ ", " ++ repr_items l
  end%string.

Definition repr_tuple (l : list Z) : string :=
  match l with
  | [z] => "(" ++ repr_int z ++ ",)"
  | _ => "(" ++ repr_items l ++ ")"
  end%string.

Definition repr_list (l : list Z) : string := ("[" ++ repr_items l ++ "]")%string.

(** [repr(v)]; strings and coordinate lists never occur as keys and raise here *)
Definition py_repr {T} (v : pyval T) : res (pyval T) :=
  match v with
  | VNone => Ok (VStr "None")
  | VInt z => Ok (VStr (repr_int z))
  | VFloat x => Ok (VFloatText x)
  | VTuple l => Ok (VStr (repr_tuple l))
  | VList l => Ok (VStr (repr_list l))
  | VStr _ | VFloatText _ | VVec _ | VVecs _ => Err TypeError
  end.

(** ** ast.literal_eval *)

(** The literals read here: None, decimal integers, tuples and lists of those.  (Not
    modelled: other literals, nested ones, and the rule against leading zeros.) *)
Inductive token : Type :=
| TWord (w : string)       (* a maximal run of digits, minus signs and letters *)
| TChar (c : ascii).

Definition word_char (c : ascii) : bool :=
  let n := N_of_ascii c in
  (N.leb 48 n && N.leb n 57) || N.eqb n 45
  || (N.leb 65 n && N.leb n 90) || (N.leb 97 n && N.leb n 122).

Fixpoint tokens (s : string) : list token :=
  match s with
  | EmptyString => []
  | String c s =>
      if word_char c then
        match tokens s with
        | TWord w :: ts => TWord (String c w) :: ts
        | ts => TWord (String c EmptyString) :: ts
        end
      else TChar c :: tokens s
  end.

Definition is_space (t : token) : bool :=
  match t with TChar c => Ascii.eqb c " " | _ => false end.

Definition word_int (w : string) : option Z := option_map Z.of_int (NilZero.int_of_string w).

(** The items up to the closing bracket, whether a comma precedes it, and the rest *)
Fixpoint read_items (close : ascii) (ts : list token) : option (list Z * bool * list token) :=
  match ts with
  | TChar c :: ts => if Ascii.eqb c close then Some ([], false, ts) else None
  | TWord w :: TChar c :: ts =>
      match word_int w with
      | None => None
      | Some z =>
          if Ascii.eqb c close then Some ([z], false, ts)
          else if Ascii.eqb c "," then
            match read_items close ts with
            | Some (l, comma, ts) => Some (z :: l, match l with [] => true | _ => comma end, ts)
            | None => None
            end
          else None
      end
  | _ => None
  end.

Definition literal_tokens {T} (ts : list token) : res (pyval T) :=
  let malformed := Err (ValueError "malformed node or string") in
  match ts with
  | [TWord w] =>
      if String.eqb w "None" then Ok VNone
      else match word_int w with Some z => Ok (VInt z) | None => malformed end
  | TChar c :: ts =>
      if Ascii.eqb c "(" then
        match read_items ")" ts with
        | Some ([z], false, []) => Ok (VInt z)          (* a parenthesized integer *)
        | Some (l, _, []) => Ok (VTuple l)
        | _ => malformed
        end
      else if Ascii.eqb c "[" then
        match read_items "]" ts with
        | Some (l, _, []) => Ok (VList l)
        | _ => malformed
        end
      else malformed
  | _ => malformed
  end.

Section Serialize.
  Context {T : Type} `{NumOps T}.

  (** Is a number neither an infinity nor NaN?  [x - x] is not zero (it is NaN)
      exactly for those. *)
  Definition finite (x : T) : bool := neqb (nsub x x) n0.

  Definition literal_eval (v : pyval T) : res (pyval T) :=
    match v with
    | VStr s => literal_tokens (filter (fun t => negb (is_space t)) (tokens s))
    | VFloatText x => if finite x then Ok (VFloat x) else Err (ValueError "malformed node or string")
    | _ => Err (ValueError "malformed node or string")
    end.

  (** The conversions [tuple(v)], [int(v)], [float(v)], [str(v)] on the values that
      can stand in the data of a parameter or constraint; all others raise here.
      (Python's int() also truncates floats, and tuple() splits strings.) *)
  Definition py_tuple (v : pyval T) : res (pyval T) :=
    match v with VTuple l | VList l => Ok (VTuple l) | _ => Err TypeError end.
  Definition py_int (v : pyval T) : res (pyval T) :=
    match v with VInt z => Ok (VInt z) | _ => Err TypeError end.
  Definition py_float (v : pyval T) : res (pyval T) :=
    match v with VFloat x => Ok (VFloat x) | _ => Err TypeError end.
  Definition py_str (v : pyval T) : res (pyval T) :=
    match v with VStr s => Ok (VStr s) | _ => Err TypeError end.

  (** [json.loads(json.dumps(v))]: tuples come back as lists *)
  Definition json_value (v : pyval T) : pyval T :=
    match v with VTuple l => VList l | v => v end.
  Definition json_dict (d : dict string (pyval T)) : dict string (pyval T) :=
    map (fun kv => (fst kv, json_value (snd kv))) d.

  (** ** Parameters *)

  (** NodeParameter and EdgeParameter with their subclasses *)
  Inductive pclass : Type := NodeClass (a : nattr) | EdgeClass (a : eattr).

  (** The instance attributes set by Parameter.__init__ (parameter.py:17-22) *)
  Record pobj : Type := mkPobj {
    po_class : pclass;
    po_key : pyval T;
    po_up : pyval T;
    po_low : pyval T;
    po_attr : pyval T
  }.

  (** The names in parameters/origin.py:19,32,45, load.py:19,32,45, deviation.py:18, trail.py:18 *)
  Definition nattr_name (a : nattr) : string :=
    match a with AX => "x" | AY => "y" | AZ => "z" | AQX => "qx" | AQY => "qy" | AQZ => "qz" end%string.
  Definition eattr_name (a : eattr) : string :=
    match a with AForce => "force" | ALength => "length" end%string.
  Definition class_attr (c : pclass) : string :=
    match c with NodeClass a => nattr_name a | EdgeClass a => eattr_name a end.

  Definition bound_value (b : option T) : pyval T :=
    match b with Some x => VFloat x | None => VNone end.

  (** cls(key, bound_low, bound_up) (deviation.py:16-18 and alike) *)
  Definition make_parameter (c : pclass) (key : pyval T) (low up : option T) : pobj :=
    mkPobj c key (bound_value up) (bound_value low) (VStr (class_attr c)).

  (** EdgeParameter.data (parameters/edge.py:31-60), NodeParameter.data (node.py:29-57) *)
  Definition parameter_data (p : pobj) : res (dict string (pyval T)) :=
    match po_class p with
    | NodeClass _ =>
        Ok [("_key", po_key p); ("_bound_up", po_up p); ("_bound_low", po_low p);
            ("_attr_name", po_attr p)]%string
    | EdgeClass _ =>
        let* k := py_repr (po_key p) in
        Ok [("_key", k); ("_bound_up", po_up p); ("_bound_low", po_low p);
            ("_attr_name", po_attr p)]%string
    end.

  (** [if bound is not None: bound = float(bound)] *)
  Definition read_bound (v : pyval T) : res (pyval T) :=
    match v with VNone => Ok VNone | v => py_float v end.

  (** The setters of data (parameters/edge.py:62-80, node.py:59-76) on a new
      object of class [c] *)
  Definition parameter_from_data (c : pclass) (d : dict string (pyval T)) : res pobj :=
    let* k0 := dgetr d "_key"%string in
    let* k := match c with
              | NodeClass _ => py_int k0
              | EdgeClass _ => let* k1 := literal_eval k0 in py_tuple k1
              end in
    let* a0 := dgetr d "_attr_name"%string in
    let* a := py_str a0 in
    let* u0 := dgetr d "_bound_up"%string in
    let* u := read_bound u0 in
    let* l0 := dgetr d "_bound_low"%string in
    let* l := read_bound l0 in
    Ok (mkPobj c k u l a).

  (** The parameter object of the model in Optimizer.v *)
  Definition parameter_object (p : parameter T) : pobj :=
    match p_slot p with
    | NodeSlot k a => make_parameter (NodeClass a) (VInt k) (p_low p) (p_up p)
    | EdgeSlot k a => make_parameter (EdgeClass a) (VTuple [fst k; snd k]) (p_low p) (p_up p)
    end.

  (** ** Constraints *)

  Inductive cclass : Type :=
  | CPoint | CLine | CPlane | CPolyline | CTrailForce | CReaction | CLength | CDirection.

  (** What a user passes as target: a compas.geometry object, plain lists or tuples of
      coordinates, or a number *)
  Inductive target : Type :=
  | GPoint (p : vec T)
  | GVector (p : vec T)
  | GLine (a b : vec T)
  | GPlane (point normal : vec T)
  | GPolyline (points : list (vec T))
  | Plain (points : list (vec T))
  | Number (x : T).

  (** The instance attributes set by Constraint.__init__ (constraint.py:20-24) *)
  Record cobj : Type := mkCobj {
    co_class : cclass;
    co_key : pyval T;
    co_target : target;
    co_weight : T
  }.

  (** [target.to_data()] and [target.dtype]: only compas objects have them *)
  Definition to_data (t : target) : res (pyval T) :=
    match t with
    | GPoint p | GVector p => Ok (VVec p)
    | GLine a b | GPlane a b => Ok (VVecs [a; b])
    | GPolyline l => Ok (VVecs l)
    | Plain _ | Number _ => Err AttributeError
    end.
  Definition dtype (t : target) : res string :=
    match t with
    | GPoint _ => Ok "compas.geometry/Point"%string
    | GVector _ => Ok "compas.geometry/Vector"%string
    | GLine _ _ => Ok "compas.geometry/Line"%string
    | GPlane _ _ => Ok "compas.geometry/Plane"%string
    | GPolyline _ => Ok "compas.geometry/Polyline"%string
    | Plain _ | Number _ => Err AttributeError
    end.

  (** [cls_from_dtype(dtype).from_data(data)] (compas.data.encoders).  compas.geometry.Plane
      keeps a unit normal; the given normal is taken to be one. *)
  Definition from_dtype (dt : string) (v : pyval T) : res target :=
    if String.eqb dt "compas.geometry/Point" then
      match v with VVec p => Ok (GPoint p) | _ => Err TypeError end
    else if String.eqb dt "compas.geometry/Vector" then
      match v with VVec p => Ok (GVector p) | _ => Err TypeError end
    else if String.eqb dt "compas.geometry/Line" then
      match v with VVecs [a; b] => Ok (GLine a b) | _ => Err TypeError end
    else if String.eqb dt "compas.geometry/Plane" then
      match v with VVecs [a; b] => Ok (GPlane a b) | _ => Err TypeError end
    else if String.eqb dt "compas.geometry/Polyline" then
      match v with VVecs l => Ok (GPolyline l) | _ => Err TypeError end
    else Err (ValueError "unknown dtype").

  (** FloatConstraint is the base of TrailEdgeForceConstraint and
      DeviationEdgeLengthConstraint, VectorConstraint of the others *)
  Definition is_float_class (c : cclass) : bool :=
    match c with CTrailForce | CLength => true | _ => false end.

  (** The number stored as the target of a FloatConstraint *)
  Definition target_value (t : target) : res (pyval T) :=
    match t with Number x => Ok (VFloat x) | _ => Err TypeError end.

  (** Constraint.data (constraint.py:58-80), FloatConstraint.data (constraint.py:167-186);
      the repr of an object that is no number is not modelled and raises here *)
  Definition constraint_data (c : cobj) : res (dict string (pyval T)) :=
    let* k := py_repr (co_key c) in
    if is_float_class (co_class c) then
      let* t0 := target_value (co_target c) in
      let* t := py_repr t0 in
      Ok [("key", k); ("target", t); ("weight", VFloat (co_weight c))]%string
    else
      let* t := to_data (co_target c) in
      let* dt := dtype (co_target c) in
      Ok [("key", k); ("weight", VFloat (co_weight c)); ("target", t); ("target_dtype", VStr dt)]%string.

  (** The setters of data (constraint.py:82-102, 188-203) on a new object of class [c] *)
  Definition constraint_from_data (c : cclass) (d : dict string (pyval T)) : res cobj :=
    let* k0 := dgetr d "key"%string in
    let* k := literal_eval k0 in
    if is_float_class c then
      let* t0 := dgetr d "target"%string in
      let* t := literal_eval t0 in
      let* w0 := dgetr d "weight"%string in
      let* w := py_float w0 in
      match t, w with
      | VFloat x, VFloat w => Ok (mkCobj c k (Number x) w)
      | _, _ => Err TypeError
      end
    else
      let* w0 := dgetr d "weight"%string in
      let* w := py_float w0 in
      let* dt := dgetr d "target_dtype"%string in
      let* t0 := dgetr d "target"%string in
      match w, dt with
      | VFloat w, VStr dt => let* t := from_dtype dt t0 in Ok (mkCobj c k t w)
      | _, _ => Err TypeError
      end.

  (** The constraint object of the model in Constraints.v, with compas targets *)
  Definition goal_object (c : constraint T) : cobj :=
    let node k := VInt k in
    let edge (e : ekey) := VTuple [fst e; snd e] in
    let w := c_weight c in
    match c_goal c with
    | PointGoal n p => mkCobj CPoint (node n) (GPoint p) w
    | LineGoal n a b => mkCobj CLine (node n) (GLine a b) w
    | PlaneGoal n o nrm => mkCobj CPlane (node n) (GPlane o nrm) w
    | PolylineGoal n l => mkCobj CPolyline (node n) (GPolyline l) w
    | TrailForceGoal e f => mkCobj CTrailForce (edge e) (Number f) w
    | ReactionGoal n r => mkCobj CReaction (node n) (GVector r) w
    | LengthGoal e l => mkCobj CLength (edge e) (Number l) w
    | DirectionGoal e v => mkCobj CDirection (edge e) (GVector v) w
    end.

End Serialize.

Arguments pobj : clear implicits.
Arguments target : clear implicits.
Arguments cobj : clear implicits.
