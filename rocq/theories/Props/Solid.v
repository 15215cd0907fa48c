(** The surface of a solid (ico2/utils.py generator_surface_1): C90. *)
From Coq Require Import Reals List ZArith Lia Lra Bool.
From Verif Require Import Base.Res Model.Tau Model.Arr Model.Num Model.IcoSurface
  Spec.Value Spec.RVec Spec.Shape Spec.Mean Spec.IcoSpec Spec.Sets Spec.Space Spec.Region Spec.Surface Spec.Solid Spec.Samples.
Import ListNotations.
Local Open Scope R_scope.
From Verif Require Import Proofs.P_Solid.
Import ListNotations.
Local Open Scope R_scope.

(** C90: in exact arithmetic, the triangles returned for a face-to-face object cover
    exactly the topological boundary of the region it occupies. *)
Theorem C90_surface : forall o, solid o ->
  exists r, generator_surface_1 Rnum o = Ok r /\ NoDup r /\ incl r (all_faces o) /\ forall x, skin r x <-> boundary3 (region o) x.
Proof. exact L_C90_surface. Qed.
Print Assumptions C90_surface.

(** A dent: two tetrahedra glued along a face; six faces remain. *)
Example C90_ex : solid dented /\ exists r, generator_surface_1 Bnum dented = Ok r /\ length r = 6%nat /\ ~ In [o6; x1; x2] r.
Proof. exact E_C90_ex. Qed.

Theorem C90_binary64_refuted : exists o r x, solid o /\ generator_surface_1 Bnum o = Ok r /\ skin r x /\ ~ boundary3 (region o) x.
Proof. exact L_C90_binary64_refuted. Qed.
Print Assumptions C90_binary64_refuted.
