(** ico2/utils.py: de-duplication, equivalence tests, faces and edges, removal of
    vectors, connectivity. *)
From Coq Require Import List ZArith Bool Arith.
From Verif Require Import Base.Res Model.Tau Model.Arr Model.IcoScalar Model.Vectors Model.IcoMath1 Model.Unique.
Import ListNotations.
Local Open Scope res_scope.

(** np.all(u==v) for two vectors *)
Fixpoint vec_eqb (u v : vec) : bool :=
  match u, v with
  | [], [] => true
  | x :: u', y :: v' => tau_eqb x y && vec_eqb u' v'
  | _, _ => false
  end.

(** ico2/utils.py:136-159 *)
Definition remove_doubling (a : arr) : option vecs :=
  match a with
  | A4 o => Some (unique cmp_vec (concat o))
  | A3 vs => Some (unique cmp_vec vs)
  | _ => None
  end.

(** ico2/utils.py:161-196.  The reshape at line 177 is assigned to a misspelt name
    and has no effect; remove_doubling reshapes again.  Other ndim: len(None). *)
Definition remove_doubling_in_perp_space (a : arr) : res vecs :=
  vts <- notNone (remove_doubling a) ;;
  p <- mapM projection3 vts ;;
  mapM (get vts) (unique_index cmp_vec p).

(** ico2/utils.py:368-386 *)
Definition get_tetrahedron_surface (t : vecs) : res obj4 :=
  mapM (mapM (get t)) [[0;1;2];[0;1;3];[0;2;3];[1;2;3]]%nat.

(** ico2/utils.py:464-482 *)
Definition get_triangle_edge (t : vecs) : res obj4 :=
  mapM (mapM (get t)) [[0;1];[0;2];[1;2]]%nat.

(** ico2/utils.py:485-507 *)
Definition get_tetrahedron_edge (t : vecs) : res obj4 :=
  mapM (mapM (get t)) [[0;1];[0;2];[0;3];[1;2];[1;3];[2;3]]%nat.

(** ico2/utils.py:394-427; n2 is the second entry of obj.shape. *)
Definition generator_all_edges (n2 : nat) (o : obj4) : res (option obj4) :=
  if n2 =? 3 then e <- mapM get_triangle_edge o ;; Ok (Some (concat e))
  else if n2 =? 4 then e <- mapM get_tetrahedron_edge o ;; Ok (Some (concat e))
  else Ok None.

(** Number of points of vstack([a,b]) that differ in perpendicular space. *)
Definition stacked_points (a b : vecs) : res nat :=
  d <- remove_doubling_in_perp_space (A3 (a ++ b)) ;; Ok (length d).

(** ico2/utils.py:723-731, 755-763, 765-773.  (The code after the return statement
    of equivalent_tetrahedra is a string.) *)
Definition equivalent_tetrahedra (a b : vecs) : res bool := n <- stacked_points a b ;; Ok (n =? 4).
Definition equivalent_triangles (a b : vecs) : res bool := n <- stacked_points a b ;; Ok (n =? 3).
Definition equivalent_edges (a b : vecs) : res bool := n <- stacked_points a b ;; Ok (n =? 2).

(** ico2/utils.py:775-781 *)
Definition equivalent_vertices (u v : vec) : res bool :=
  a <- projection3 u ;; b <- projection3 v ;; Ok (vec_eqb a b).

(** ico2/utils.py:678-721.  check1 compares the size of a with itself (line 684);
    the last branch returns None. *)
Definition check1 (a b : vecs) (n : nat) : res bool :=
  let n1 := length a in
  let n2 := length a in
  if n1 =? n2 then m <- stacked_points a b ;; Ok (m =? n) else Ok false.

Definition equivalent (o1 o2 : arr) : res (option bool) :=
  match o1, o2 with
  | A3 a, A3 b => r <- check1 a b (length a) ;; Ok (Some r)
  | A4 a, A4 b =>
      if (length a =? 1) && (length b =? 1) then
        a0 <- get a 0 ;; b0 <- get b 0 ;; r <- check1 a0 b0 (length a0) ;; Ok (Some r)
      else Ok (Some false)
  | A2 u, A2 v => r <- equivalent_vertices u v ;; Ok (Some r)
  | _, _ => Ok None
  end.

(** ico2/utils.py:963-971 *)
Definition check_connectivity_tetrahedra (a b : vecs) : res bool := n <- stacked_points a b ;; Ok (n =? 5).

(** ico2/utils.py:995-1017: first face of the first tetrahedron that is equivalent to
    some face of the second. *)
Fixpoint some_equivalent (t : vecs) (l : obj4) : res bool :=
  match l with
  | [] => Ok false
  | u :: r => b <- equivalent_triangles t u ;; if b then Ok true else some_equivalent t r
  end.
Fixpoint first_common (l1 l2 : obj4) : res (option vecs) :=
  match l1 with
  | [] => Ok None
  | t :: r => b <- some_equivalent t l2 ;; if b then Ok (Some t) else first_common r l2
  end.
Definition get_common_triangle_in_two_tetrahedra (a b : vecs) : res (option vecs) :=
  s1 <- get_tetrahedron_surface a ;; s2 <- get_tetrahedron_surface b ;; first_common s1 s2.

(** ico2/utils.py:882-902 *)
Definition remove_vectors (vts1 vts2 : vecs) : vecs :=
  let out := filter (fun v => negb (existsb (vec_eqb v) vts2)) vts1 in
  if negb (length out =? 0) then out else vts1.

(** ico2/utils.py:904-921 *)
Definition remove_vector (vts : vecs) (vt : vec) : vecs :=
  let out := filter (fun v => negb (vec_eqb v vt)) vts in
  if negb (length out =? 0) then out else vts.
