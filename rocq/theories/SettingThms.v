(** * Properties of the inputs and results of the Grasshopper components *)

From Coq Require Import String List ZArith Bool Lia.
From Verif Require Import Py PyFacts Num Diagram Topology Equilibrium Constraints Optimizer SpecOptimizer ReportThms
  Artists Components SpecComponents.
Import ListNotations.
Open Scope Z_scope.

Lemma somes_connected {A} (l : list (option A)) : somes l = connected l.
Proof. unfold connected. induction l as [|[a|] l IH]; cbn; congruence. Qed.

(** [map_res] computes item by item. *)
Lemma map_res_each {A B} (f : A -> res B) l : forall bs,
  map_res f l = Ok bs <-> List.length bs = List.length l /\ forall i a b, nth_error l i = Some a -> nth_error bs i = Some b -> f a = Ok b.
Proof.
  induction l as [|a l IH]; intros bs; cbn [map_res List.length].
  - split; [intros E; injection E as <-; split; [reflexivity|intros [|i] x y; discriminate]|].
    intros [L _]. destruct bs; [reflexivity|discriminate L].
  - split.
    + intros E. destruct (f a) as [b|e] eqn:Fa; [|discriminate E]. cbn in E. destruct (map_res f l) as [bs'|e] eqn:Fl; [|discriminate E].
      injection E as <-. destruct (proj1 (IH bs') eq_refl) as [L K]. split; [cbn; lia|].
      intros [|i] x y Ex Ey; cbn in Ex, Ey; [congruence|eauto].
    + intros [L K]. destruct bs as [|b bs]; [discriminate L|]. rewrite (K O a b eq_refl eq_refl). cbn.
      assert (E : map_res f l = Ok bs). { apply IH. split; [cbn in L; lia|]. intros i x y Ex Ey. apply (K (S i)); assumption. }
      now rewrite E.
Qed.

Section Settings.
  Context {T : Type} `{NumOps T}.
  Implicit Types (d : diagram T).

  (** ** C80 — inputs that are not given *)

  Lemma or_int_used x dflt z : setting x dflt z -> z <> 0 -> or_int x dflt = z.
  Proof. intros [->|[-> ->]] N; cbn; [|reflexivity]. destruct (Z.eqb_spec z 0); congruence. Qed.

  Lemma or_float_used x dflt v : setting x dflt v -> neqb v n0 = false -> or_float x dflt = v.
  Proof. intros [->|[-> ->]] N; cbn; [now rewrite N|reflexivity]. Qed.

  Lemma or_string_used x dflt v : setting x dflt v -> v <> ""%string -> or_string x dflt = v.
  Proof. intros [->|[-> ->]] N; cbn; [|reflexivity]. destruct (String.eqb_spec v ""); congruence. Qed.

  (** Form finding uses the passes and the threshold that are given, and 100 and 1e-6 otherwise. *)
  Lemma c80_form_finding_partial : forall d kmax tmax eta t e, setting tmax 100 t -> setting eta neps6 e -> t <> 0 -> neqb e n0 = false ->
    gh_form_finding d kmax tmax eta = static_equilibrium d kmax t e false.
  Proof. intros. unfold gh_form_finding. now rewrite (or_int_used _ _ t), (or_float_used _ _ e). Qed.

  (** A constraint has the weight that is given, and 1 otherwise. *)
  Lemma c80_weight_partial : forall K V (goal : K -> V -> goal T) k v weight w, setting weight n1 w -> neqb w n0 = false ->
    gh_constraint goal (Some k) (Some v) weight = Some (mkConstraint (goal k v) w).
  Proof. intros. unfold gh_constraint. now rewrite (or_float_used _ _ w). Qed.

  (** Constrained form finding is the optimization with the constraints and parameters that are not None, by
      automatic differentiation, and with the settings that are given or their defaults. *)
  Lemma c80_constrained_partial : forall ad solver e8 h d cs ps algorithm iters eps kappa tmax eta a i ep ka t et,
    cs <> [] -> ps <> [] ->
    setting algorithm "SLSQP"%string a -> setting iters 100 i -> setting eps neps6 ep -> setting kappa e8 ka -> setting tmax 100 t -> setting eta neps6 et ->
    a <> ""%string -> i <> 0 -> neqb ep n0 = false -> neqb ka n0 = false -> t <> 0 -> neqb et n0 = false ->
    gh_constrained ad solver e8 h true (Some d) cs ps algorithm iters eps kappa tmax eta
    = Some (solve ad solver a "AD" h i (Some ep) (Some ka) t et
              (after_calls (map AddConstraint (connected cs) ++ map AddParameter (connected ps)), d)).
  Proof.
    intros. unfold gh_constrained. rewrite (or_string_used _ _ a), (or_int_used iters _ i), (or_float_used eps _ ep), (or_float_used kappa _ ka),
      (or_int_used tmax _ t), (or_float_used eta _ et) by assumption.
    destruct cs; [congruence|]. destruct ps; [congruence|]. cbn [nonempty andb]. rewrite !somes_connected, c69_proxy. reflexivity.
  Qed.

  (** ** C82 — results *)

  Lemma chosen_all {A} (keys : option (list A)) all es : chosen keys all es -> or_all keys all = es.
  Proof. intros [[-> NE]|[[->| ->] ->]]; [|reflexivity|reflexivity]. cbn. destruct es; congruence. Qed.

  (** The lengths and the forces of the edges asked for, in order; of all edges if none are. *)
  Lemma c82_edges : forall d keys es, chosen keys (edges d) es ->
    forall ls fs, gh_results_edges d keys = Ok (ls, fs)
      <-> List.length ls = List.length es /\ List.length fs = List.length es
          /\ (forall i e l, nth_error es i = Some e -> nth_error ls i = Some l -> edge_length_2 d e = Ok l)
          /\ (forall i e f, nth_error es i = Some e -> nth_error fs i = Some f -> edge_force d e = Ok f).
  Proof.
    intros d keys es C ls fs. unfold gh_results_edges. rewrite (chosen_all _ _ _ C). split.
    - intros E. destruct (map_res (edge_length_2 d) es) as [l|] eqn:El; [|discriminate E]. cbn in E.
      destruct (map_res (edge_force d) es) as [f|] eqn:Ef; [|discriminate E]. injection E as <- <-.
      apply map_res_each in El as [L1 K1]. apply map_res_each in Ef as [L2 K2]. auto.
    - intros (L1&L2&K1&K2). assert (E1 : map_res (edge_length_2 d) es = Ok ls) by (apply map_res_each; auto).
      assert (E2 : map_res (edge_force d) es = Ok fs) by (apply map_res_each; auto). rewrite E1. cbn. now rewrite E2.
  Qed.

  (** The reaction forces at the nodes asked for, in order; at all supports if none are. *)
  Lemma c82_reactions : forall d keys ns, chosen keys (support_nodes d) ns ->
    forall rs, gh_results_supports d keys = Ok rs
      <-> List.length rs = List.length ns /\ forall i n r, nth_error ns i = Some n -> nth_error rs i = Some r -> reaction_force d n = Ok r.
  Proof. intros d keys ns C rs. unfold gh_results_supports. rewrite (chosen_all _ _ _ C). apply map_res_each. Qed.
End Settings.
