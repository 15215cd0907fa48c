(** dode2/utils.py: de-duplication, equivalence tests, edges, connectivity and the
    (unfinished) merging of triangles.  remove_doubling (dode2/utils.py:141-164),
    get_triangle_edge (275-296), remove_vectors (628-648) and remove_vector
    (650-668) have the same text as in ico2/utils.py and use no scalar arithmetic:
    the definitions of Model/IcoDedup.v are reused for them. *)
From Coq Require Import List ZArith Bool Arith.
From Verif Require Import Base.Res Model.Tau Model.Arr Model.DodeScalar Model.Vectors Model.DodeMath1 Model.Unique Model.IcoDedup.
Import ListNotations.
Local Open Scope res_scope.

(** dode2/utils.py:166-200 *)
Definition dremove_doubling_in_perp_space (a : arr) : res vecs :=
  vts <- notNone (remove_doubling a) ;;
  p <- mapM dprojection3 vts ;;
  mapM (get vts) (unique_index cmp_vec p).

(** dode2/utils.py:215-242; n2 is the second entry of obj.shape. *)
Definition dgenerator_all_edges (n2 : nat) (o : obj4) : res (option obj4) :=
  if n2 =? 3 then e <- mapM get_triangle_edge o ;; Ok (Some (concat e)) else Ok None.

(** Number of points of vstack([a,b]) that differ in perpendicular space. *)
Definition dstacked_points (a b : vecs) : res nat :=
  d <- dremove_doubling_in_perp_space (A3 (a ++ b)) ;; Ok (length d).

(** dode2/utils.py:508-516, 518-526 *)
Definition dequivalent_triangles (a b : vecs) : res bool := n <- dstacked_points a b ;; Ok (n =? 3).
Definition dequivalent_edges (a b : vecs) : res bool := n <- dstacked_points a b ;; Ok (n =? 2).

(** dode2/utils.py:528-534 *)
Definition dequivalent_vertices (u v : vec) : res bool :=
  a <- dprojection3 u ;; b <- dprojection3 v ;; Ok (vec_eqb a b).

(** dode2/utils.py:464-506.  check1 compares the size of a with itself (line 469);
    the last branch returns None. *)
Definition dcheck1 (a b : vecs) (n : nat) : res bool :=
  let n1 := length a in
  let n2 := length a in
  if n1 =? n2 then m <- dstacked_points a b ;; Ok (m =? n) else Ok false.

Definition dequivalent (o1 o2 : arr) : res (option bool) :=
  match o1, o2 with
  | A3 a, A3 b => r <- dcheck1 a b (length a) ;; Ok (Some r)
  | A4 a, A4 b =>
      if (length a =? 1) && (length b =? 1) then
        a0 <- get a 0 ;; b0 <- get b 0 ;; r <- dcheck1 a0 b0 (length a0) ;; Ok (Some r)
      else Ok (Some false)
  | A2 u, A2 v => r <- dequivalent_vertices u v ;; Ok (Some r)
  | _, _ => Ok None
  end.

(** dode2/utils.py:709-717: triangle_1 is stacked with itself. *)
Definition check_connectivity_triangles (a b : vecs) : res bool := n <- dstacked_points a a ;; Ok (n =? 4).

(** dode2/utils.py:719-740: the loop at line 726 runs over the undefined name edges1. *)
Definition get_common_edge_in_two_triangles (a b : vecs) : res (option vecs) :=
  _ <- get_triangle_edge a ;; _ <- get_triangle_edge b ;; Raise NameError.

(** dode2/utils.py:684-707.  What follows the call at line 690 is not reached. *)
Definition merge_two_triangles (a b : vecs) : res (option vecs) :=
  c <- check_connectivity_triangles a b ;;
  if c then
    let vtx1 := remove_vectors a b in
    let vtx2 := remove_vectors b a in
    get_common_edge_in_two_triangles a b
  else Ok None.

(** dode2/utils.py:677-682 *)
Definition merge_two_triangles_in_obj (o : obj4) : obj4 := o.
