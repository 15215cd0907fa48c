(** De-duplication, equivalence tests, surfaces and edges on the machine: the code of
    IcoDedup.v, IcoSurface.v, DodeDedup.v and DodeIntersect.v with the int64 arithmetic of
    Machine.v.  Sums of coordinates are int64; midpoints are compared in floating point, any
    [num] ([Bmath la] on the machine). *)
From Coq Require Import List ZArith Bool Arith.
From Verif Require Import Base.Res Model.Tau Model.Arr Model.Machine Model.Vectors Model.Unique Model.Num Model.IcoDedup Model.DodeDedup Model.IcoNumeric Model.DodeNumeric
  Model.IcoSurface Model.DodeIntersect Model.MachineVec Model.MachineInter Model.MachineDodeInter.
Import ListNotations.
Local Open Scope res_scope.

(** Number of points of vstack([a,b]) that differ in perpendicular space. *)
Definition m_stacked_points (a b : vecs) : res nat :=
  d <- m_remove_doubling_in_perp_space (A3 (a ++ b)) ;; Ok (length d).
(** ico2/utils.py:723-731, 755-763, 765-773 *)
Definition m_equivalent_tetrahedra (a b : vecs) : res bool := n <- m_stacked_points a b ;; Ok (n =? 4).
Definition m_equivalent_triangles (a b : vecs) : res bool := n <- m_stacked_points a b ;; Ok (n =? 3).
Definition m_equivalent_edges (a b : vecs) : res bool := n <- m_stacked_points a b ;; Ok (n =? 2).
(** ico2/utils.py:775-781 *)
Definition m_equivalent_vertices (u v : vec) : res bool :=
  a <- m_projection3 u ;; b <- m_projection3 v ;; Ok (vec_eqb a b).
(** ico2/utils.py:963-971 *)
Definition m_check_connectivity_tetrahedra (a b : vecs) : res bool := n <- m_stacked_points a b ;; Ok (n =? 5).

(** Number of points of vstack([a,b]) that differ in perpendicular space, in dode2. *)
Definition md_stacked_points (a b : vecs) : res nat :=
  d <- md_remove_doubling_in_perp_space (A3 (a ++ b)) ;; Ok (length d).
(** dode2/utils.py:508-516, 518-526 *)
Definition md_equivalent_triangles (a b : vecs) : res bool := n <- md_stacked_points a b ;; Ok (n =? 3).
Definition md_equivalent_edges (a b : vecs) : res bool := n <- md_stacked_points a b ;; Ok (n =? 2).
(** dode2/utils.py:528-534 *)
Definition md_equivalent_vertices (u v : vec) : res bool :=
  a <- md_projection3 u ;; b <- md_projection3 v ;; Ok (vec_eqb a b).

Section Midpoints.
Variable N : num.
(** ico2/utils.py:247-250, 351-354, 451-454: the centroid is computed in int64, its projection
    in floating point. *)
Definition m_centre (t : vecs) : res (pt N) := c <- m_centroid t ;; internal N c.
(** ico2/utils.py:203-322 *)
Definition m_generator_surface_1 (o : obj4) : res obj4 :=
  ts <- mapM get_tetrahedron_surface o ;;
  let triangles := concat ts in
  if length o =? 1 then Ok triangles else
  xyz <- mapM m_centre triangles ;;
  lst <- lonely N (sort (cmp_pt N) (indexed xyz)) ;;
  mapM (get triangles) lst.
(** ico2/utils.py:324-366 *)
Definition m_generator_unique_triangles (o : obj4) : res obj4 :=
  ts <- mapM get_tetrahedron_surface o ;;
  let triangles := concat ts in
  if length o =? 1 then Ok triangles else
  a <- mapM m_centre triangles ;;
  mapM (get triangles) (unique_index (cmp_pt N) a).
(** ico2/utils.py:430-462; n2 as in IcoSurface.v *)
Definition m_generator_unique_edges (n2 : nat) (o : obj4) : res obj4 :=
  edges <- (if n2 =? 3 then e <- generator_all_edges n2 o ;; notNone e
            else if n2 =? 2 then Ok o
            else if n2 =? 4 then e <- generator_all_edges n2 o ;; notNone e
            else Raise UnboundLocalError) ;;
  a <- mapM m_centre edges ;;
  mapM (get edges) (unique_index (cmp_pt N) a).

(** dode2/utils.py:264-265 *)
Definition md_centre (e : vecs) : res (pt N) := c <- md_centroid e ;; dinternal N c.
(** dode2/utils.py:244-273; n2 as in DodeIntersect.v *)
Definition md_generator_unique_edges (n2 : nat) (o : obj4) : res obj4 :=
  edges <- (if n2 =? 3 then e <- dgenerator_all_edges n2 o ;; notNone e
            else if n2 =? 2 then Ok o
            else if n2 =? 4 then e <- dgenerator_all_edges n2 o ;; notNone e
            else Raise UnboundLocalError) ;;
  a <- mapM md_centre edges ;;
  mapM (get edges) (unique_index (cmp_pt N) a).
End Midpoints.
