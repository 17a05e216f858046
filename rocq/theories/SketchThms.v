(** * Properties of the drawing components *)

From Coq Require Import String List ZArith Bool Lia Permutation Reals Lra.
From Verif Require Import Py PyFacts Num Diagram DiagramFacts Topology SpecDiagram SpecTopology History HistoryFacts BuildFacts TypedFacts QueryThms
  RVec SpecStatics Equilibrium SpecEquilibrium FormFacts Artists SpecArtists ArtistThms Components SpecComponents.
Import ListNotations.
Open Scope Z_scope.

(** ** Selections *)

Lemma tagged_filter {A} `{Eqb A} (L : list (A * bool)) : NoDup (map fst L) ->
  filter (fun x => memb x (map fst (filter snd L))) (map fst L) = map fst (filter snd L).
Proof.
  intros N. set (S := map fst (filter snd L)) at 1.
  assert (G : forall x b, In (x, b) L -> memb x S = b).
  { intros x b I. destruct b.
    - apply memb_In. apply in_map_iff. exists (x, true). split; [reflexivity|]. apply filter_In. auto.
    - apply memb_nIn. intros J. apply in_map_iff in J as ([y c]&E&J). cbn in E. subst y. apply filter_In in J as [J C]. cbn in C. subst c.
      clear - N I J. induction L as [|[z t] L IH]; [destruct I|]. cbn in N. inversion N as [|? ? Nz N']; subst.
      destruct I as [I|I], J as [J|J].
      + congruence.
      + injection I as -> ->. apply Nz, in_map_iff. exists (x, true). auto.
      + injection J as -> ->. apply Nz, in_map_iff. exists (x, false). auto.
      + auto. }
  clearbody S. clear N. induction L as [|[x b] L IH]; [reflexivity|]. cbn [map filter fst snd].
  rewrite (G x b (or_introl eq_refl)). destruct b; cbn [map fst]; [f_equal|]; apply IH; intros; apply G; now right.
Qed.

Section Generic.
  Context {T : Type} `{NumOps T}.
  Implicit Types (d : diagram T).

  Lemma node_tags d (p : node_attr T -> bool) : NoDup (nodes d) ->
    filter (fun n => memb n (map fst (filter (fun na => p (snd na)) (d_node d)))) (nodes d) = map fst (filter (fun na => p (snd na)) (d_node d)).
  Proof.
    intros N. set (L := map (fun na => (fst na, p (snd na))) (d_node d)).
    assert (E1 : nodes d = map fst L) by (unfold L; rewrite map_map; reflexivity).
    assert (E2 : map fst (filter (fun na => p (snd na)) (d_node d)) = map fst (filter snd L)).
    { unfold L. clear. induction (d_node d) as [|[k a] l IH]; [reflexivity|]. cbn [filter map snd fst]. destruct (p a); cbn; congruence. }
    rewrite E2, E1. apply tagged_filter. exact (eq_ind _ (fun l => NoDup l) N _ E1).
  Qed.

  Lemma edge_tags d t : NoDup (edges d) -> filter (fun e => memb e (edges_of_type d t)) (edges d) = edges_of_type d t.
  Proof.
    intros N. set (L := flat_map (fun ue => map (fun va => ((fst ue, fst va), opt_is etype_eqb (ea_type (snd va)) t)) (snd ue)) (d_edge d)).
    assert (E1 : edges d = map fst L).
    { unfold L, edges. clear. induction (d_edge d) as [|[u l] es IH]; [reflexivity|]. cbn [flat_map]. rewrite map_app, <- IH, map_map. reflexivity. }
    assert (E2 : edges_of_type d t = map fst (filter snd L)).
    { unfold L, edges_of_type. clear. induction (d_edge d) as [|[u l] es IH]; [reflexivity|]. cbn [flat_map fst snd]. rewrite filter_app, map_app, <- IH.
      f_equal. clear. induction l as [|[v a] l IH]; [reflexivity|]. cbn [filter map snd fst]. destruct (opt_is etype_eqb (ea_type a) t); cbn; congruence. }
    rewrite E2, E1. apply tagged_filter. exact (eq_ind _ (fun l => NoDup l) N _ E1).
  Qed.
End Generic.

(** ** C84 — the drawing components *)

(* the selection the component hands on *)
Lemma handed {A} (ns all sel : list A) : chosen (Some ns) all sel ->
  (if nonempty ns then Some ns else None) = Some sel /\ sel <> [] \/ (if nonempty ns then Some ns else None) = None /\ sel = all.
Proof.
  intros [[E N]|[[E|E] ->]]; [injection E as ->; left|discriminate E|injection E as ->; now right].
  destruct sel; [congruence|]. split; [reflexivity|discriminate].
Qed.

Lemma or_float_setting (x : option R) def v : setting x def v -> v <> 0%R -> or_float x def = v.
Proof.
  intros [->|[-> ->]] N; [|reflexivity]. unfold or_float. change (neqb v n0) with (Reqb v 0). destruct (Reqb_spec v 0); [contradiction|reflexivity].
Qed.

Lemma nodes_ok (d : diagram R) l r : draws_nodes d l r -> exists o, r = Ok o.
Proof. unfold draws_nodes. destruct l; [intros ->; eauto|intros (x&->&_); eauto]. Qed.
Lemma edges_ok (d : diagram R) l r : draws_edges d l r -> exists o, r = Ok o.
Proof. unfold draws_edges. destruct l; [intros ->; eauto|intros (x&->&_); eauto]. Qed.

Section Draw.
  Variables (d : diagram R) (ns sel : list Z) (es esel : list ekey).
  Hypotheses (Hp : produced d) (Hn : chosen (Some ns) (nodes d) sel) (He : chosen (Some es) (edges d) esel)
    (In_n : incl sel (nodes d)) (In_e : incl esel (edges d)) (Hs : exists n, In n sel /\ In n (support_nodes d)).
  Let sns := if nonempty ns then Some ns else None.
  Let ses := if nonempty es then Some es else None.

  Lemma sketch_points : exists l, gh_draw_nodes d sns = Ok l /\ drawn_points d sel l.
  Proof using Hp Hn In_n.
    destruct (c72_drawn d Hp) as (A&B&_). destruct (handed _ _ _ Hn) as [[E N]|[E Es]]; fold sns in E; rewrite E; [apply A; auto|rewrite Es; exact B].
  Qed.
  Lemma sketch_lines : exists l, gh_draw_edges d ses = Ok l /\ drawn_lines d esel l.
  Proof using Hp He In_e.
    destruct (c72_drawn d Hp) as (_&_&A&B). destruct (handed _ _ _ He) as [[E N]|[E Es]]; fold ses in E; rewrite E; [apply A; auto|rewrite Es; exact B].
  Qed.
  Lemma sketch_supports : exists l, gh_draw_supports d sns = Ok l /\ drawn_points d (filter (fun n => memb n (support_nodes d)) sel) l.
  Proof using Hp Hn In_n Hs.
    destruct (handed _ _ _ Hn) as [[E N]|[E Es]]; fold sns in E; rewrite E.
    - apply c72_supports_partial; auto.
    - subst sel. unfold gh_draw_supports, collection_keys. cbn [bind].
      assert (F : filter (fun n => memb n (support_nodes d)) (nodes d) = support_nodes d) by exact (node_tags d (fun a => opt_is ntype_eqb (na_type a) TSupport) (wf_nodup _ (produced_wf d Hp))).
      rewrite F. destruct (c72_drawn d Hp) as (A&_). apply A.
      + destruct Hs as (n&_&I). intros X. rewrite X in I. destruct I.
      + intros n I. destruct (c67_nodes d Hp) as (_&_&X&_). apply (X n I).
  Qed.
  Lemma sketch_origins : draws_nodes d (filter (fun n => memb n (origin_nodes d)) sel) (gh_draw_origins d sns).
  Proof using Hp Hn In_n.
    destruct (c72_kinds d Hp) as (_&_&_&A&B). destruct (handed _ _ _ Hn) as [[E N]|[E Es]]; fold sns in E; rewrite E; [apply A; auto|].
    rewrite Es.
    assert (F : filter (fun n => memb n (origin_nodes d)) (nodes d) = origin_nodes d) by exact (node_tags d (fun a => opt_is ntype_eqb (na_type a) TOrigin) (wf_nodup _ (produced_wf d Hp))).
    rewrite F. exact B.
  Qed.
  Lemma sketch_kinds : draws_edges d (filter (fun e => memb e (trail_edges d)) esel) (gh_draw_edges_trail d ses)
    /\ draws_edges d (filter (fun e => memb e (deviation_edges d)) esel) (gh_draw_edges_deviation d ses).
  Proof using Hp He In_e.
    destruct (c72_kinds d Hp) as (A&B&C&_). destruct (handed _ _ _ He) as [[E N]|[E Es]]; fold ses in E; rewrite E; [apply A; auto|].
    rewrite Es. destruct (c67_edges d Hp) as (_&Ne&_). unfold trail_edges, deviation_edges in *. rewrite !edge_tags by exact Ne. auto.
  Qed.
  Lemma sketch_loads scale gap tol : (0 <= scale)%R ->
    exists l, gh_loads d sns scale gap tol = Ok l /\ arrows_of d Load sel scale tol (fun _ => gap) (fun _ => false) l.
  Proof using Hn In_n.
    intros S. destruct (c70_loads d sel scale tol In_n S) as (_&_&A&B).
    destruct (handed _ _ _ Hn) as [[E N]|[E Es]]; fold sns in E; rewrite E; [apply A; exact N|]. rewrite Es. apply B.
  Qed.
  Lemma sketch_reactions scale tol : held_by_edges d sel -> (0 <= scale)%R ->
    exists arrives, (forall n, In n sel -> exists f, leads d n f /\ (arrives n = true <-> (f < 0)%R))
      /\ forall gap, exists l, gh_reactions d sns scale gap tol = Ok l /\ arrows_of d Reaction sel scale tol (fun _ => gap) arrives l.
  Proof using Hn Hs In_n.
    intros Hh S. destruct (c70_reactions d sel scale tol Hh S) as (ar&La&_&_&A). exists ar. split; [exact La|]. intros gap.
    assert (N : sel <> []) by (destruct Hs as (n&I&_); destruct sel; [destruct I|discriminate]).
    destruct (handed _ _ _ Hn) as [[E _]|[E Es]]; fold sns in E; rewrite E; [apply A; exact N|].
    destruct (A gap N) as (l&El&Al). exists l. split; [|exact Al]. rewrite <- El, Es. unfold gh_reactions, or_all.
    destruct (nodes d) as [|n l']; [congruence|reflexivity].
  Qed.
End Draw.

(** The form component draws the nodes and edges asked for, or all, the supports among the nodes, and the arrows of
    their loads and reactions with the scale and from the magnitude that are given, or 1 and 1e-3. *)
Lemma c84_form_partial : forall (d : diagram R) ns sel es esel e3 gap force_min force_scale tol scale, produced d ->
  chosen (Some ns) (nodes d) sel -> chosen (Some es) (edges d) esel -> incl sel (nodes d) -> incl esel (edges d) ->
  (exists n, In n sel /\ In n (support_nodes d)) -> held_by_edges d sel ->
  setting force_min e3 tol -> setting force_scale 1%R scale -> tol <> 0%R -> (0 < scale)%R ->
  exists points supports lines loads reactions arrives,
    gh_artist_form e3 gap d ns es force_min force_scale = Ok (points, supports, lines, loads, reactions)
    /\ drawn_points d sel points /\ drawn_points d (filter (fun n => memb n (support_nodes d)) sel) supports
    /\ drawn_lines d esel lines
    /\ arrows_of d Load sel scale tol (fun _ => gap) (fun _ => false) loads
    /\ arrows_of d Reaction sel scale tol (fun _ => gap) arrives reactions
    /\ forall n, In n sel -> exists f, leads d n f /\ (arrives n = true <-> (f < 0)%R).
Proof.
  intros d ns sel es esel e3 gap fm fs tol scale Hp Hn He In_n In_e Hs Hh Sm Ss Nt Ps.
  assert (Ps' : (0 <= scale)%R) by lra. assert (Ns : scale <> 0%R) by lra.
  destruct (sketch_points d ns sel Hp Hn In_n) as (pts&Ep&Dp).
  destruct (sketch_lines d es esel Hp He In_e) as (lns&El&Dl).
  destruct (sketch_supports d ns sel Hp Hn In_n Hs) as (sup&Es&Ds).
  destruct (sketch_loads d ns sel Hn In_n scale gap tol Ps') as (lds&Eo&Do).
  destruct (sketch_reactions d ns sel Hn In_n Hs scale tol Hh Ps') as (ar&La&Re). destruct (Re gap) as (rcs&Er&Dr).
  exists pts, sup, lns, lds, rcs, ar. split; [|auto 10].
  assert (Eb := or_float_setting _ _ _ Ss Ns). change 1%R with (n1 : R) in Eb.
  unfold gh_artist_form. rewrite (or_float_setting _ _ _ Sm Nt), Eb.
  rewrite Ep. cbn [bind]. rewrite El. cbn [bind]. rewrite Es. cbn [bind]. rewrite Eo. cbn [bind]. rewrite Er. reflexivity.
Qed.

(** The topology component draws the nodes and edges asked for, or all, the origins and the supports among the nodes, the
    trail and the deviation edges among the edges, the trails, and the arrows of the loads. *)
Lemma c84_topology_partial : forall (d : diagram R) ns sel es esel e3 gap force_min force_scale tol scale, produced d ->
  chosen (Some ns) (nodes d) sel -> chosen (Some es) (edges d) esel -> incl sel (nodes d) -> incl esel (edges d) ->
  (exists n, In n sel /\ In n (support_nodes d)) ->
  setting force_min e3 tol -> setting force_scale 1%R scale -> tol <> 0%R -> (0 < scale)%R ->
  exists points origins supports lines tlines dlines polylines loads,
    gh_artist_topology e3 gap d ns es force_min force_scale = Ok (points, origins, supports, lines, tlines, dlines, polylines, loads)
    /\ drawn_points d sel points /\ draws_nodes d (filter (fun n => memb n (origin_nodes d)) sel) (Ok origins)
    /\ drawn_points d (filter (fun n => memb n (support_nodes d)) sel) supports
    /\ drawn_lines d esel lines
    /\ draws_edges d (filter (fun e => memb e (trail_edges d)) esel) (Ok tlines)
    /\ draws_edges d (filter (fun e => memb e (deviation_edges d)) esel) (Ok dlines)
    /\ Forall2 (fun kt l => drawn_points d (snd kt) l) (trails d) polylines
    /\ arrows_of d Load sel scale tol (fun _ => gap) (fun _ => false) loads.
Proof.
  intros d ns sel es esel e3 gap fm fs tol scale Hp Hn He In_n In_e Hs Sm Ss Nt Ps.
  assert (Ps' : (0 <= scale)%R) by lra. assert (Ns : scale <> 0%R) by lra.
  destruct (sketch_points d ns sel Hp Hn In_n) as (pts&Ep&Dp).
  destruct (sketch_lines d es esel Hp He In_e) as (lns&El&Dl).
  destruct (sketch_supports d ns sel Hp Hn In_n Hs) as (sup&Es&Ds).
  destruct (sketch_loads d ns sel Hn In_n scale gap tol Ps') as (lds&Eo&Do).
  assert (Or := sketch_origins d ns sel Hp Hn In_n).
  destruct (sketch_kinds d es esel Hp He In_e) as [Tk Dk].
  destruct (c72_trails d Hp) as (pls&Et&Dt).
  assert (X : exists o, gh_draw_origins d (if nonempty ns then Some ns else None) = Ok o).
  { exact (nodes_ok _ _ _ Or). }
  assert (Y : exists o, gh_draw_edges_trail d (if nonempty es then Some es else None) = Ok o).
  { exact (edges_ok _ _ _ Tk). }
  assert (Z : exists o, gh_draw_edges_deviation d (if nonempty es then Some es else None) = Ok o).
  { exact (edges_ok _ _ _ Dk). }
  destruct X as (o&Eor), Y as (tl&Etl), Z as (dl&Edl). rewrite Eor in Or. rewrite Etl in Tk. rewrite Edl in Dk.
  exists pts, o, sup, lns, tl, dl, pls, lds. split; [|auto 10].
  assert (Eb := or_float_setting _ _ _ Ss Ns). change 1%R with (n1 : R) in Eb.
  unfold gh_artist_topology. rewrite (or_float_setting _ _ _ Sm Nt), Eb.
  rewrite Ep. cbn [bind]. rewrite Eor. cbn [bind]. rewrite Es. cbn [bind]. rewrite El. cbn [bind]. rewrite Etl. cbn [bind].
  rewrite Edl. cbn [bind]. rewrite Et. cbn [bind]. rewrite Eo. reflexivity.
Qed.
