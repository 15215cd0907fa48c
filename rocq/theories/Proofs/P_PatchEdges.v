(** The edges of the triangles of a flat dodecagonal object: C123. *)
From Coq Require Import Reals List ZArith.
From Verif Require Import Base.Res Model.Tau Model.Arr Model.Num Model.DodeDedup Model.DodeIntersect Model.IcoSurface Model.DodeSurface Model.MachineDedup Model.MachineBorder
  Spec.LinAlg Spec.Value Spec.RVec Spec.Shape Spec.Mean Spec.DodeSpec Spec.Sets Spec.Space Spec.Tetra Spec.Plane Spec.Surface Spec.Outline Spec.Grid Spec.SolidFloat Spec.Samples Spec.DodeSamples.
Import ListNotations.
Local Open Scope R_scope.

From Coq Require Import Lia Lra.
From Verif Require Import Proofs.DodeOverlapLemmas Proofs.PlaneLemmas Proofs.P_DodeOverlap Proofs.DodeSurfaceLemmas Proofs.OutlineLemmas Proofs.Frontier Proofs.P_DodeSurface Proofs.P_DodeSolidFloat Proofs.P_SmallPatch.

Lemma sharp_tris o : (forall t, In t o -> parea t <> 0) -> Forall (fun t => forall a b c, t = [a; b; c] -> ~ flat3 (dp a) (dp b) (dp c)) o.
Proof. intros Ar. apply Forall_forall. intros t Ht u v w ->. apply parea_flat, Ar, Ht. Qed.

(** C123 in dode2: in a flat edge-to-edge object made of triangles that are not flat, two
    edges with the same midpoint have the same end points. *)
Lemma L_C123_dode_midpoints : forall (h : R) (o : obj4), tris o -> level h (concat o) ->
  (forall t, In t o -> parea t <> 0) -> edge_to_edge (map (map dp) o) ->
  forall e g, In e (edges_of 3 o) -> In g (edges_of 3 o) -> dpcentre e = dpcentre g -> same_set (map dppoint e) (map dppoint g).
Proof. intros h o To Le Ar EE e g He Hg E. exact (mid_same h o To Le (sharp_tris o Ar) EE e g He Hg (eq_sym E)). Qed.

(** With small coordinates, generator_unique_edges() of dode2 run with int64 and float64
    returns edges of the triangles only, and every one of them exactly once. *)
Lemma L_C123_dode_edges : forall (la : linalg) (q : Z) (h : R) (o : obj4),
  (0 < q <= 4000)%Z -> tris o -> Forall (grids 6 q 4) o -> level h (concat o) -> (forall t, In t o -> parea t <> 0) -> edge_to_edge (map (map dp) o) -> done_name (concat o) ->
  exists r, md_generator_unique_edges (@Bmath la) 3 o = Ok r /\ incl r (edges_of 3 o) /\ NoDup r /\
    forall e, In e (edges_of 3 o) -> exists! u, In u r /\ same_set (map dppoint u) (map dppoint e).
Proof.
  intros la q h o Hq To G Le Ar EE O. pose proof (good3 h o To Le (sharp_tris o Ar)) as G3.
  apply (L_C116_edges la q 4 o); try assumption; try lia.
  - rewrite Forall_forall in *. intros t Ht. split; [apply (G3 t Ht)|exact (G t Ht)].
  - eapply Forall_impl; [|exact G3]. intros t (_ & _ & N). exact N.
  - intros e g He Hg. destruct (patch_told q o Hq To G e g He Hg) as [E|A]; [left|right; exact A]. exact (L_C123_dode_midpoints h o To Le Ar EE e g He Hg E).
Qed.

(** The conditions are met by a triangle cut into two: of the six edges one is shared. *)
Example E_C123_dode_ex : tris halves /\ Forall (grids 6 1 4) halves /\ level 0 (concat halves) /\ (forall t, In t halves -> parea t <> 0) /\ edge_to_edge (map (map dp) halves) /\ done_name (concat halves) /\
  length (edges_of 3 halves) = 6%nat /\ exists r, md_generator_unique_edges Bnum 3 halves = Ok r /\ incl r (edges_of 3 halves) /\ NoDup r.
Proof.
  destruct E_C121_ex as (T & F & P & _ & O & _). destruct P as (Ne & _ & Le & Ar & EE & _).
  split; [exact T|]. split; [exact F|]. split; [exact Le|]. split; [exact Ar|]. split; [exact EE|]. split; [exact O|]. split; [reflexivity|].
  destruct (L_C123_dode_edges textbook 1 0 halves ltac:(lia) T F Le Ar EE O) as (r & Er & I & N & _). exists r. auto.
Qed.
