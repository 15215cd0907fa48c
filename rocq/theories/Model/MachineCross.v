(** Crossing points on the machine: int64 arithmetic of Machine.v, the tests in
    floating point, any [num] ([Bmath la] on the machine). *)
From Coq Require Import List ZArith.
From Verif Require Import Base.Res Model.Tau Model.Arr Model.Machine Model.Vectors Model.Num Model.IcoNumeric Model.IcoIntersect Model.DodeIntersect Model.MachineVec.
Import ListNotations.
Local Open Scope res_scope.

Section Cross.
Variable N : num.

(** ico2/intsct.py:286-331 *)
Definition m_intersection_segment_surface (seg sur : vecs) : res (option vec) :=
  b <- check_intersection_segment_surface_numerical_6d_tau N seg sur ;;
  if b then
    s1 <- get seg 1 ;; s0 <- get seg 0 ;; vec6AB <- m_sub_vectors s1 s0 ;; vecAB <- m_projection3 vec6AB ;;
    f1 <- get sur 1 ;; f0 <- get sur 0 ;; tmp <- m_sub_vectors f1 f0 ;; vecCD <- m_projection3 tmp ;;
    f2 <- get sur 2 ;; tmp <- m_sub_vectors f2 f0 ;; vecCE <- m_projection3 tmp ;;
    tmp <- m_sub_vectors s0 f0 ;; vecCA <- m_projection3 tmp ;;
    vecP <- m_outer_product vecAB vecCE ;; vecQ <- m_outer_product vecCA vecCD ;;
    bunbo <- m_inner_product vecP vecCD ;; bunshi <- m_inner_product vecQ vecCE ;;
    n <- notNone bunshi ;; d <- notNone bunbo ;; t <- m_div n d ;; t <- notNone t ;;
    tmp <- m_mul_vector vec6AB t ;; p <- m_add_vectors s0 tmp ;; Ok (Some p)
  else Ok None.

(** dode2/intsct.py:194-248 *)
Definition md_intersection_two_segment (s1 s2 : vecs) : res (option vec) :=
  b <- dcheck_intersection_two_segment_numerical_6d_tau N s1 s2 ;;
  if b then
    p1 <- get s1 1 ;; p0 <- get s1 0 ;; vec6AB <- md_sub_vectors p1 p0 ;; vecAB <- md_projection3 vec6AB ;;
    q1 <- get s2 1 ;; q0 <- get s2 0 ;; tmp <- md_sub_vectors q1 q0 ;; vecCD <- md_projection3 tmp ;;
    tmp <- md_sub_vectors q0 p0 ;; vecAC <- md_projection3 tmp ;;
    let dotp u v := d <- inner_product_ md_add md_mul u v ;; notNone d in
    tmp1 <- dotp vecAB vecCD ;; tmp2 <- dotp vecCD vecAB ;; tmp3 <- md_mul tmp1 tmp2 ;;
    tmp1 <- dotp vecAB vecAB ;; tmp2 <- dotp vecCD vecCD ;; tmp4 <- md_mul tmp1 tmp2 ;;
    bunbo <- md_sub tmp3 tmp4 ;;
    tmp1 <- dotp vecAC vecCD ;; tmp2 <- dotp vecCD vecAB ;; tmp3 <- md_mul tmp1 tmp2 ;;
    tmp1 <- dotp vecCD vecCD ;; tmp2 <- dotp vecAC vecAB ;; tmp4 <- md_mul tmp1 tmp2 ;;
    bunshi <- md_sub tmp3 tmp4 ;;
    s <- md_div bunshi bunbo ;; s <- notNone s ;;
    tmp <- mul_vector_ md_mul vec6AB s ;; p <- md_add_vectors p0 tmp ;; Ok (Some p)
  else Ok None.

(** ico2/intsct.py:410-474: the crossing points of the edges of either tetrahedron with the
    faces of the other, then the vertices of either inside the other *)
Definition m_edge_point (t1 t2 : vecs) (c : (nat * nat) * (nat * nat * nat)) : res (option vec) :=
  seg <- pick2 t1 (fst c) ;; sur <- pick3 t2 (snd c) ;; m_intersection_segment_surface seg sur.
Fixpoint m_edge_points (t1 t2 : vecs) (cs : list ((nat * nat) * (nat * nat * nat))) : res vecs :=
  match cs with
  | [] => Ok []
  | c :: cs => o1 <- m_edge_point t1 t2 c ;; o2 <- m_edge_point t2 t1 c ;;
      r <- m_edge_points t1 t2 cs ;; Ok (olist o1 ++ olist o2 ++ r)
  end.
Definition m_collect (t1 t2 : vecs) : res vecs :=
  e <- m_edge_points t1 t2 pairs_ix ;; a <- vertices_inside N t1 t2 ;; b <- vertices_inside N t2 t1 ;;
  Ok (e ++ a ++ b).

(** dode2/intsct.py:250-316, 358-402 *)
Fixpoint md_segment_edges (seg sur : vecs) (cs : list (nat * nat)) : res vecs :=
  match cs with
  | [] => Ok []
  | c :: cs => e <- pick2 sur c ;; o <- md_intersection_two_segment seg e ;;
      r <- md_segment_edges seg sur cs ;; Ok (olist o ++ r)
  end.
Definition md_intersection_segment_surface (seg sur : vecs) : res vecs :=
  b <- dcheck_intersection_segment_surface_numerical_6d_tau N seg sur ;;
  if b then md_segment_edges seg sur tedge_ix else Ok [].
Definition md_edge_points (t1 t2 : vecs) (c : nat * nat) : res vecs :=
  seg <- pick2 t1 c ;; sur <- pick3 t2 (0, 1, 2)%nat ;; md_intersection_segment_surface seg sur.
Fixpoint md_edge_hits (t1 t2 : vecs) (cs : list (nat * nat)) : res (list vecs) :=
  match cs with
  | [] => Ok []
  | c :: cs => p1 <- md_edge_points t1 t2 c ;; p2 <- md_edge_points t2 t1 c ;;
      r <- md_edge_hits t1 t2 cs ;; Ok (hit p1 ++ hit p2 ++ r)
  end.
Definition md_collect (t1 t2 : vecs) : res (nat * vecs) :=
  h <- md_edge_hits t1 t2 tedge_ix ;;
  match h with
  | [] => Raise UnboundLocalError
  | _ => a <- dvertices_inside N t1 t2 ;; b <- dvertices_inside N t2 t1 ;;
      Ok (length h + length a + length b, concat h ++ a ++ b)%nat
  end.
End Cross.
