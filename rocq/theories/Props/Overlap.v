(** The intersection of two objects is the right part of space (ico2/intsct.py,
    two_occupation_domains.intersection) in exact arithmetic: C69. *)
From Coq Require Import Reals List ZArith Lia Lra Bool.
From Verif Require Import Base.Res Model.Tau Model.Arr Model.Num Model.IcoNumeric Model.IcoMath1 Model.IcoIntersect
  Spec.Value Spec.RVec Spec.Shape Spec.IcoSpec Spec.Sets Spec.Space Spec.Tetra Spec.Samples Spec.Region Spec.Overlap.
Import ListNotations.
Local Open Scope R_scope.
From Verif Require Import Proofs.P_Overlap.
Import ListNotations.
Local Open Scope R_scope.

(** Nothing spurious: every point of the result lies in a tetrahedron of each object, up
    to 1e-6 in barycentric coordinates.  No assumption on the triangulation, the samples
    or the position of the tetrahedra. *)
Theorem C69_sound : forall delaunay draws o1 o2 r p, tets o1 -> tets o2 ->
  intersection Rnum delaunay draws false (A4 o1) (A4 o2) = Ok (Some r) -> region r p ->
  exists t1 t2, In t1 o1 /\ In t2 o2 /\ near (1/1000000) (map pp t1) p /\ near (1/1000000) (map pp t2) p.
Proof. exact L_C69_sound. Qed.
Print Assumptions C69_sound.

(** Nothing lost: a point that lies in both objects lies in the result, or in a pair of
    tetrahedra whose whole common part is thinner than 2e-4.  [decided_pair]: no edge is
    nearly, but not exactly, parallel to a face; [covers]: whenever the triangulation
    succeeds, its non-flat tetrahedra cover the hull of the points. *)
Theorem C69_complete : forall delaunay draws o1 o2 r p, tets o1 -> tets o2 ->
  (forall t, In t o1 \/ In t o2 -> pvol t <> 0) ->
  (forall t1 t2, In t1 o1 -> In t2 o2 -> decided_pair t1 t2) ->
  (forall q l, delaunay q = Some l -> covers q l) ->
  intersection Rnum delaunay draws false (A4 o1) (A4 o2) = Ok r ->
  region o1 p -> region o2 p ->
  (exists r', r = Some r' /\ region r' p) \/
  (exists t1 t2, In t1 o1 /\ In t2 o2 /\ hull (map pp t1) p /\ hull (map pp t2) p /\ thin t1 t2).
Proof. exact L_C69_complete. Qed.
Print Assumptions C69_complete.

(** If no vertex and no crossing point lies in the tolerance shell, the result is inside
    both objects exactly. *)
Theorem C69_sound_exact : forall delaunay draws o1 o2 r p, tets o1 -> tets o2 ->
  (forall t1 t2, In t1 o1 -> In t2 o2 -> clear_pair t1 t2 /\ clear_pair t2 t1) ->
  intersection Rnum delaunay draws false (A4 o1) (A4 o2) = Ok (Some r) -> region r p -> region o1 p /\ region o2 p.
Proof. exact L_C69_sound_exact. Qed.
Print Assumptions C69_sound_exact.

(** kind='simple' replaces the pieces by the whole tetrahedron when the volumes agree, and
    gives points far outside the second object if that object covers a part twice. *)
Theorem C69_simple_refuted : exists o1 o2 r p, tets o1 /\ tets o2 /\
  intersection Bnum (fun _ => None) (fun _ _ => []) true (A4 o1) (A4 o2) = Ok (Some r) /\ region r p /\
  forall t2, In t2 o2 -> ~ near (1/2) (map pp t2) p.
Proof. exact L_C69_simple_refuted. Qed.
Print Assumptions C69_simple_refuted.

(** Two tetrahedra that overlap without containing one another meet the hypotheses, and
    have a common point. *)
Example C69_ex : tets [tetA] /\ tets [tetB] /\ pvol tetA <> 0 /\ pvol tetB <> 0 /\ decided_pair tetA tetB /\
  (forall q l, (fun _ : list (list R) => @None (list simplex)) q = Some l -> covers q l) /\
  region [tetA] (0, (2*TAU-3)*TAU/2, (2*TAU-3)/2) /\ region [tetB] (0, (2*TAU-3)*TAU/2, (2*TAU-3)/2).
Proof. exact E_C69_ex. Qed.

(** Any tetrahedron and itself. *)
Example C69_clear_ex : clear_pair tetA tetA.
Proof. exact E_C69_clear_ex. Qed.

(** A run in exact arithmetic: a tetrahedron contained in another. *)
Example C69_run : tets [tetS] /\ tets [tetA] /\ pvol tetS <> 0 /\ pvol tetA <> 0 /\ decided_pair tetS tetA /\
  intersection Rnum (fun _ => None) (fun _ _ => []) false (A4 [tetS]) (A4 [tetA]) = Ok (Some [tetS]).
Proof. exact E_C69_run. Qed.
