(** ico2/intsct.py and ico2/two_occupation_domains.py: intersection of convex objects. *)
From Coq Require Import List ZArith Bool Arith.
From Verif Require Import Base.Res Model.Tau Model.Arr Model.IcoScalar Model.Vectors Model.IcoMath1 Model.Num
  Model.IcoNumeric Model.IcoVolume Model.IcoDedup Model.IcoIntersect Model.IcoSurface.
Import ListNotations.
Local Open Scope res_scope.

Section Convex.
Variable N : num.
Variable delaunay : list (list (F N)) -> option (list simplex).

(** ico2/intsct.py:686-692, 713-719: the loop over the tetrahedra stops at the first that
    contains the vertex. *)
Fixpoint inside_obj (v : vec) (o : obj4) : res bool :=
  match o with
  | [] => Ok false
  | t :: o => b <- inside_outside_tetrahedron_tau N v t ;; if b then Ok true else inside_obj v o
  end.
(** intsct.py:682-698, 709-725: point_a1, point_b1; counter1a, counter1b is the length (an
    unassigned point_a1 is the empty list). *)
Fixpoint vertices_in_obj (vs : vecs) (o : obj4) : res vecs :=
  match vs with
  | [] => Ok []
  | v :: vs => b <- inside_obj v o ;; r <- vertices_in_obj vs o ;; Ok (if b then v :: r else r)
  end.

(** intsct.py:741-751, 752-762: for every triangle, every edge.  (The source checks the
    crossing before calling intersection_segment_surface, which checks it again.) *)
Fixpoint cross_edges (tr : vecs) (es : obj4) : res vecs :=
  match es with
  | [] => Ok []
  | ed :: es => b <- check_intersection_segment_surface_numerical_6d_tau N ed tr ;;
      p <- (if b then tmp <- intersection_segment_surface N ed tr ;; Ok (olist tmp) else Ok []) ;;
      r <- cross_edges tr es ;; Ok (p ++ r)
  end.
Fixpoint cross_faces (fs es : obj4) : res vecs :=
  match fs with
  | [] => Ok []
  | tr :: fs => p <- cross_edges tr es ;; r <- cross_faces fs es ;; Ok (p ++ r)
  end.

(** intsct.py:640-779.  point_a1 and point_b1 are unbound when no vertex is inside. *)
Definition intersection_two_obj_convex (o1 o2 : obj4) : res (option obj4) :=
  surf1 <- generator_surface_1 N o1 ;; surf2 <- generator_surface_1 N o2 ;;
  edge1 <- generator_unique_edges N 3 surf1 ;; edge2 <- generator_unique_edges N 3 surf2 ;;
  vertices1 <- remove_doubling_in_perp_space (A4 edge1) ;; a1 <- vertices_in_obj vertices1 o2 ;;
  vertices2 <- remove_doubling_in_perp_space (A4 edge2) ;; b1 <- vertices_in_obj vertices2 o1 ;;
  if length a1 =? length vertices1 then Ok (Some o1)
  else if length b1 =? length vertices2 then Ok (Some o2)
  else
    p1 <- cross_faces surf1 edge2 ;; p2 <- cross_faces surf2 edge1 ;;
    match p1 ++ p2 with
    | [] => Ok None
    | p =>
        point1 <- remove_doubling_in_perp_space (A3 p) ;;
        match a1, b1 with
        | [], _ | _, [] => Raise UnboundLocalError
        | _, _ => points <- remove_doubling_in_perp_space (A3 (point1 ++ a1 ++ b1)) ;;
            tetrahedralization_points N delaunay points
        end
    end.

(** ico2/two_occupation_domains.py:65-92 *)
Definition intersection_convex (a1 a2 : arr) : res (option obj4) :=
  match a1, a2 with
  | A4 o1, A4 o2 => intersection_two_obj_convex o1 o2
  | _, _ => Ok None
  end.
End Convex.
