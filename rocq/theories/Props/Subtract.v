(** Subtraction of objects (ico2/two_occupation_domains.py subtraction): C92. *)
From Coq Require Import Reals List ZArith Lia Lra Bool Permutation.
From Verif Require Import Base.Res Model.Tau Model.Arr Model.Num Model.IcoNumeric Model.IcoIntersect Model.IcoSurface Model.Subtract
  Spec.Value Spec.RVec Spec.Shape Spec.Mean Spec.IcoSpec Spec.Sets Spec.Space Spec.Tetra Spec.Region Spec.Surface Spec.Solid Spec.Overlap Spec.Samples Spec.Convex Spec.Subtract.
Import ListNotations.
Local Open Scope R_scope.
From Verif Require Import Proofs.P_Subtract.
Import ListNotations.
Local Open Scope R_scope.

(** Whatever the arithmetic, triangulation and sampling: when one tetrahedron minus an
    object is returned, exactly one vertex v of the tetrahedron tests outside the object,
    and the result consists of tetrahedra joining v to surface triangles of the common part
    whose vertices test as lying on the surface of the object. *)
Theorem C92_pieces : forall N delaunay draws argsort t o s r, permutes argsort -> length t = 4%nat -> goods 6 t -> tets o ->
  tetrahedron_not_obj_1 N delaunay draws argsort t o s = Ok (Some r) ->
  exists c v, intersection_two_obj_1 N delaunay draws false [t] o = Ok (Some c) /\ one_out N o t v /\ tets r /\
    forall u, In u r -> exists f, u = v :: f /\ In f (all_faces c) /\ Forall (on_skin N s) f.
Proof. exact L_C92_pieces. Qed.
Print Assumptions C92_pieces.

(** The test on the volumes: let V be the exact volume of the tetrahedron less that of the
    common part.  Either all the tetrahedra are returned and their volumes add up to V, or
    they do not, and the volumes of the returned choice plus those of all the choices tried before add up to V. *)
Theorem C92_volume : forall N delaunay draws argsort t o s r, permutes argsort -> length t = 4%nat -> goods 6 t -> tets o ->
  tetrahedron_not_obj_1 N delaunay draws argsort t o s = Ok (Some r) ->
  exists c, intersection_two_obj_1 N delaunay draws false [t] o = Ok (Some c) /\
    (total r = pvol t - total c \/
     exists l ks l1 l2, tets l /\ ks = seq 1 (length l - 2) /\ total l <> pvol t - total c /\ subseq r l /\
       concat (map (fun k => combinations k l) ks) = l1 ++ r :: l2 /\ Rsum (map total l1) + total r = pvol t - total c).
Proof. exact L_C92_volume. Qed.
Print Assumptions C92_volume.

(** In particular the volume returned is never more than that. *)
Theorem C92_bound : forall N delaunay draws argsort t o s r, permutes argsort -> length t = 4%nat -> goods 6 t -> tets o ->
  tetrahedron_not_obj_1 N delaunay draws argsort t o s = Ok (Some r) ->
  exists c, intersection_two_obj_1 N delaunay draws false [t] o = Ok (Some c) /\ total r <= pvol t - total c.
Proof. exact L_C92_bound. Qed.
Print Assumptions C92_bound.

(** With two vertices outside the object nothing is ever returned. *)
Theorem C92_two_outside : forall N delaunay draws argsort t o s v w l1 l2 l3, permutes argsort -> length t = 4%nat -> goods 6 t -> tets o ->
  t = l1 ++ v :: l2 ++ w :: l3 -> outside_obj N o v -> outside_obj N o w -> exists e, tetrahedron_not_obj_1 N delaunay draws argsort t o s = Raise e.
Proof. exact L_C92_two_outside. Qed.
Print Assumptions C92_two_outside.

(** With no vertex outside, no object is returned, even if the tetrahedron sticks out elsewhere. *)
Theorem C92_none_outside : forall N delaunay draws argsort t o s r, permutes argsort -> length t = 4%nat -> goods 6 t -> tets o ->
  (forall v, In v t -> in_obj N o v) -> tetrahedron_not_obj_1 N delaunay draws argsort t o s = Ok r -> r = None.
Proof. exact L_C92_none_outside. Qed.
Print Assumptions C92_none_outside.

(** The other function for a tetrahedron never returns an object. *)
Theorem C92_second : forall N delaunay draws t o r, tetrahedron_not_obj_2 N delaunay draws t o = Ok r -> r = None.
Proof. exact L_C92_second. Qed.
Print Assumptions C92_second.

(** A whole object minus another is only ever returned when every tetrahedron of the first
    has exactly one vertex outside the second. *)
Theorem C92_whole : forall N delaunay draws argsort o1 o2 r, permutes argsort -> tets o1 -> tets o2 ->
  subtraction_1 N delaunay draws argsort (A4 o1) (A4 o2) = Ok (Some r) -> forall t, In t o1 -> exists v, one_out N o2 t v /\ exists f, In (v :: f) r.
Proof. exact L_C92_whole. Qed.
Print Assumptions C92_whole.

(** Two objects that do not meet: in exact arithmetic, when no vertex or crossing is within
    the tolerance, the intersection is None whatever the triangulation and sampling ... *)
Theorem C92_no_common : forall delaunay draws simple o1 o2, tets o1 -> tets o2 -> o2 <> [] ->
  (forall t1 t2, In t1 o1 -> In t2 o2 -> clear_pair t1 t2 /\ clear_pair t2 t1) -> (forall p, ~ (region o1 p /\ region o2 p)) ->
  intersection Rnum delaunay draws simple (A4 o1) (A4 o2) = Ok None.
Proof. exact L_C92_no_common. Qed.
Print Assumptions C92_no_common.

(** ... and so subtraction raises although the answer is the first object itself. *)
Theorem C92_disjoint : forall delaunay draws argsort t o1 o2 s, tets (t :: o1) -> tets o2 -> o2 <> [] ->
  (forall t2, In t2 o2 -> clear_pair t t2 /\ clear_pair t2 t) -> (forall p, hull (map pp t) p -> ~ region o2 p) ->
  generator_surface_1 Rnum o2 = Ok s ->
  subtraction_1 Rnum delaunay draws argsort (A4 (t :: o1)) (A4 o2) = Raise AttributeError.
Proof. exact L_C92_disjoint. Qed.
Print Assumptions C92_disjoint.

(** In binary64, subtracting a tetrahedron with a common base and apex inside: three pieces
    are needed, the first choice of a single piece is returned since the volumes tried happen
    to add up; a point of the difference is lost. *)
Theorem C92_difference_refuted : exists o1 o2 r p, tets o1 /\ tets o2 /\ (forall p, region o2 p -> region o1 p) /\
  subtraction_1 Bnum (fun _ => None) (fun _ _ _ => []) (by_value Bnum) (A4 o1) (A4 o2) = Ok (Some r) /\
  region o1 p /\ ~ region o2 p /\ ~ region r p /\ total r < total o1 - total o2.
Proof. exact L_C92_difference_refuted. Qed.
Print Assumptions C92_difference_refuted.

(** A corner cut off in binary64, with a triangulation of the six points of the common part. *)
Example C92_run : permutes (by_value Bnum) /\ tets [tetP] /\ tets [tetB] /\
  subtraction_1 Bnum (fun q => if Nat.eqb (length q) 6 then Some [(0, 2, 4, 1)%nat; (2, 4, 1, 3)%nat; (4, 1, 3, 5)%nat] else None)
    (fun _ _ _ => []) (by_value Bnum) (A4 [tetP]) (A4 [tetB]) = Ok (Some [tip]).
Proof. exact E_C92_run. Qed.

(** Two vertices outside, and none. *)
Example C92_vertices : outside_obj Bnum [tetN] (at3 1 1 0 0) /\ outside_obj Bnum [tetN] (at3 1 0 1 0) /\ (forall v, In v tetP -> in_obj Bnum [tetP] v).
Proof. exact E_C92_vertices. Qed.

(** Two tetrahedra far apart. *)
Example C92_apart : tets [tetP] /\ tets [tetF] /\ clear_pair tetP tetF /\ clear_pair tetF tetP /\ (forall p, hull (map pp tetP) p -> ~ region [tetF] p) /\
  exists s, generator_surface_1 Rnum [tetF] = Ok s.
Proof. exact E_C92_apart. Qed.
