(** * Vocabulary of the properties of text labels

    Only public queries of a diagram are used here. *)

From Coq Require Import String List ZArith Bool.
From Verif Require Import Py Num Diagram Topology SpecArtists Labels.
Import ListNotations.
Open Scope Z_scope.

Section Spec.
  Context {T : Type} `{NumOps T}.
  Implicit Types (d : diagram T).

  (** The label [l] of the node [n] says what the tag asks for. *)
  Inductive node_says d : string -> Z -> label T -> Prop :=
  | says_key n : node_says d "key" n [Key n]
  | says_xyz n p : node_coordinates d n = Ok p -> node_says d "xyz" n [Point p]
  | says_keyxyz n p : node_coordinates d n = Ok p -> node_says d "keyxyz" n [Key n; Word newline; Point p]
  | says_support n : In n (support_nodes d) -> node_says d "type" n [Word "support"]
  | says_origin n : In n (origin_nodes d) -> node_says d "type" n [Word "_origin"]
  | says_no_type n : ~ In n (support_nodes d) -> ~ In n (origin_nodes d) -> node_says d "type" n [Word "None"]
  | says_sequence n k : node_sequence d n = Ok k -> node_says d "sequence" n [Key k]
  | says_keysequence n k : node_sequence d n = Ok k -> node_says d "keysequence" n [Key n; Word newline; Key k].

  (** One with the sign of the length of a trail edge, or of the force of a deviation edge *)
  Inductive combinatorial_state d : ekey -> T -> Prop :=
  | state_of_trail e l : In e (trail_edges d) -> edge_length_2 d e = Ok l -> combinatorial_state d e (ncopysign n1 l)
  | state_of_deviation e f : In e (deviation_edges d) -> edge_force d e = Ok f -> combinatorial_state d e (ncopysign n1 f).

  (** The label [l] of the edge [e] says what the tag asks for: magnitudes of forces and lengths. *)
  Inductive edge_says d : string -> ekey -> label T -> Prop :=
  | says_ends u v : edge_says d "key" (u, v) [Key u; Word "-"; Key v]
  | says_force e f : edge_force d e = Ok f -> edge_says d "force" e [Number (nabs f)]
  | says_length e l : edge_length_2 d e = Ok l -> edge_says d "length" e [Number (nabs l)]
  | says_state e s : combinatorial_state d e s -> edge_says d "state" e [Number s]
  | says_forcelength e f l : edge_force d e = Ok f -> edge_length_2 d e = Ok l ->
      edge_says d "forcelength" e [Word "f: "; Number (nabs f); Word newline; Word "l: "; Number (nabs l)]
  | says_all e f l s : edge_force d e = Ok f -> edge_length_2 d e = Ok l -> combinatorial_state d e s ->
      edge_says d "forcelengthstate" e
        [Word "f: "; Number (nabs f); Word newline; Word "l: "; Number (nabs l); Word newline; Word "s: "; Number s]
  | says_trail e : In e (trail_edges d) -> edge_says d "type" e [Word "trail"]
  | says_deviation e : In e (deviation_edges d) -> edge_says d "type" e [Word "deviation"].

  (** The same for the plotter of forms: forces with their sign, and lengths that are distances *)
  Inductive form_edge_says d : string -> ekey -> label T -> Prop :=
  | form_says_force e f : edge_force d e = Ok f -> form_edge_says d "force" e [Number f]
  | form_says_length u v a b : node_coordinates d u = Ok a -> node_coordinates d v = Ok b ->
      form_edge_says d "length" (u, v) [Number (distance_point_point a b)]
  | form_says_both u v f a b : edge_force d (u, v) = Ok f -> node_coordinates d u = Ok a -> node_coordinates d v = Ok b ->
      form_edge_says d "forcelength" (u, v)
        [Word "f: "; Number f; Word newline; Word "l: "; Number (distance_point_point a b)].

  (** There is exactly one label for each of [ks], and it says what [P] demands. *)
  Definition labels_of {K} `{Eqb K} (m : dict K (label T)) (ks : list K) (P : K -> label T -> Prop) : Prop :=
    keyed m ks /\ forall k, In k ks -> exists l, dget m k = Some l /\ P k l.

  (** Texts are drawn for the nodes one after the other, where the nodes are. *)
  Definition texts_at_nodes d (ns : list Z) (out : list (option (label T) * vec T)) (P : Z -> option (label T) -> Prop) : Prop :=
    Forall2 (fun n lp => P n (fst lp) /\ node_coordinates d n = Ok (snd lp)) ns out.
  (** The same for edges: half way between their ends *)
  Definition texts_at_edges d (es : list ekey) (out : list ((label T + Z) * vec T)) (P : ekey -> label T + Z -> Prop) : Prop :=
    Forall2 (fun (e : ekey) lp => P e (fst lp) /\ exists a b, node_coordinates d (fst e) = Ok a /\ node_coordinates d (snd e) = Ok b
      /\ snd lp = scale_vector (add_vectors a b) (ndiv n1 (nadd n1 n1))) es out.
End Spec.
