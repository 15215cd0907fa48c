(** dode2/intsct.py and the parts of dode2/numericalc.py and dode2/utils.py it uses:
    intersection of triangles and of objects.  Floats are any [num]; scipy's Delaunay is
    an argument.  triangle_area_numerical (dode2/numericalc.py:462-487) has the same text
    as in ico2: [area3] of Model/IcoNumeric.v is reused, as are [pick2] and the inner loop
    over the second object ([inner_loop] of Model/IcoIntersect.v), which do not depend on
    the dimension. *)
From Coq Require Import List ZArith Bool Arith.
From Verif Require Import Base.Res Model.Tau Model.Arr Model.DodeScalar Model.Vectors Model.DodeMath1 Model.Num
  Model.IcoNumeric Model.DodeNumeric Model.DodeArea Model.Unique Model.IcoDedup Model.DodeDedup Model.IcoIntersect Model.IcoSurface.
Import ListNotations.
Local Open Scope res_scope.

(** Edges 0-1, 0-2, 1-2: dode2/numericalc.py:312, dode2/intsct.py:158-161, 296, 353-356. *)
Definition tedge_ix : list (nat * nat) := [(0,1);(0,2);(1,2)].

Section Numeric.
Variable N : num.

(** dode2/numericalc.py:686-700; 0.5 is exact in binary64 *)
Definition half : F N := flit N 1 2.
Definition dprojection3_numerical (vn : list (F N)) : res (pt N) :=
  a0 <- get vn 0 ;; a1 <- get vn 1 ;; a3 <- get vn 3 ;; a2 <- get vn 2 ;; a5 <- get vn 5 ;;
  Ok (fsub N (fadd N (fmul N (fneg N (fsin N)) a0) a1) (fmul N half a3),
      fsub N (fadd N (fmul N (fneg N half) a0) a2) (fmul N (fsin N) a3),
      a5).
(** dode2/numericalc.py:635-643, 645-654 *)
Definition dinternal (v : vec) : res (pt N) := dprojection3_numerical (dnumerical_vector N v).
Definition dinternals (vs : vecs) : res (list (pt N)) := mapM dinternal vs.

(** dode2/numericalc.py:533-566.  The auxiliary triangles have a fourth row of zeros
    that triangle_area_numerical does not read. *)
Definition in_tri (p a b c : pt N) : bool :=
  let area0 := area3 N a b c in
  flt N (fabs N (fsub N (fsub N (fsub N area0 (area3 N p b c)) (area3 N a p c)) (area3 N a b p)))
        (fmul N (EPS N) area0).
Definition inside_outside_triangle (p : pt N) (t : list (pt N)) : res bool :=
  a <- get t 0 ;; b <- get t 1 ;; c <- get t 2 ;; Ok (in_tri p a b c).
(** dode2/numericalc.py:519-531 *)
Definition inside_outside_triangle_tau (v : vec) (t : vecs) : res bool :=
  p <- dinternal v ;; q <- dinternals t ;; inside_outside_triangle p q.

(** dode2/numericalc.py:349-433: A--B and C--D.  x**2 is x*x. *)
Definition seg_seg (a b c d : pt N) : bool :=
  let AB := psub N b a in let AC := psub N c a in let CD := psub N d c in
  let t1 := fsub N (fmul N (pdot N AC CD) (pdot N CD AB)) (fmul N (pdot N CD CD) (pdot N AC AB)) in
  let t2 := fsub N (fmul N (pdot N AB CD) (pdot N CD AB)) (fmul N (pdot N AB AB) (pdot N CD CD)) in
  if flt N (fabs N t2) (EPS N) then false else
  let s := fdiv N t1 t2 in
  let t := fdiv N (fadd N (fneg N (pdot N AC CD)) (fmul N s (pdot N AB CD))) (pdot N CD CD) in
  if fle N (fZ N 0) s && fle N s (fZ N 1) && fle N (fZ N 0) t && fle N t (fZ N 1) then
    let gap i := let x := fadd N (fsub N (comp N AC i) (fmul N s (comp N AB i))) (fmul N t (comp N CD i)) in fmul N x x in
    flt N (fadd N (fadd N (fadd N (fZ N 0) (gap 0)) (gap 1)) (gap 2)) (EPS N)
  else false.
Definition dcheck_intersection_two_segment_numerical (ln1 ln2 : list (pt N)) : res bool :=
  a <- get ln1 0 ;; b <- get ln1 1 ;; c <- get ln2 0 ;; d <- get ln2 1 ;; Ok (seg_seg a b c d).
(** dode2/numericalc.py:327-347 *)
Definition dcheck_intersection_two_segment_numerical_6d_tau (s1 s2 : vecs) : res bool :=
  l1 <- dinternals s1 ;; l2 <- dinternals s2 ;; dcheck_intersection_two_segment_numerical l1 l2.

(** dode2/numericalc.py:250-325 (the code after the two string literals): the segment
    against the three edges of the triangle *)
Fixpoint some_edge_meets (ln tr : list (pt N)) (cs : list (nat * nat)) : res bool :=
  match cs with
  | [] => Ok false
  | (i, j) :: cs => p <- get tr i ;; q <- get tr j ;;
      b <- dcheck_intersection_two_segment_numerical ln [p; q] ;;
      if b then Ok true else some_edge_meets ln tr cs
  end.
Definition dcheck_intersection_segment_surface_numerical (ln tr : list (pt N)) : res bool :=
  some_edge_meets ln tr tedge_ix.
(** dode2/numericalc.py:231-247 *)
Definition dcheck_intersection_segment_surface_numerical_6d_tau (seg tri : vecs) : res bool :=
  ln <- dinternals seg ;; tr <- dinternals tri ;; dcheck_intersection_segment_surface_numerical ln tr.
End Numeric.

Section Intersect.
Variable N : num.
(** scipy.spatial.Delaunay on points of the plane: None is an exception, otherwise the triangles. *)
Variable delaunay : list (list (F N)) -> option (list (nat * nat * nat)).

(** dode2/intsct.py:53-78 *)
Definition dfarther (c : vec) (dd : F N) (v : vec) : res (F N) :=
  a <- dsub_vectors v c ;; p <- dprojection3 a ;;
  let d := dlength_numerical N p in Ok (if flt N dd d then d else dd).
Definition dball_radius_obj (a : arr) (c : vec) : res (F N) :=
  vs <- dremove_doubling_in_perp_space a ;; foldM (dfarther c) (fZ N 0) vs.
(** dode2/intsct.py:80-83 *)
Definition dball_radius (t : vecs) (c : vec) : res (F N) := dball_radius_obj (A3 t) c.
(** dode2/intsct.py:85-88 *)
Definition ddistance_in_perp_space (u v : vec) : res (F N) :=
  a <- dsub_vectors u v ;; p <- dprojection3 a ;; Ok (dlength_numerical N p).
(** dode2/intsct.py:90-97 *)
Definition rough_check_intersection_triangle_obj (t : vecs) (center : vec) (distance : F N) : res bool :=
  cen1 <- dcentroid t ;; dd1 <- dball_radius t cen1 ;; dd0 <- ddistance_in_perp_space cen1 center ;;
  Ok (fle N dd0 (fadd N dd1 distance)).

(** dode2/intsct.py:100-115: both loops stop at the first vertex outside *)
Fixpoint dall_inside (vs t : vecs) : res bool :=
  match vs with
  | [] => Ok true
  | v :: vs => b <- inside_outside_triangle_tau N v t ;; if b then dall_inside vs t else Ok false
  end.
(** dode2/intsct.py:163-187 *)
Definition dedge_meets (t1 t2 : vecs) (c : nat * nat) : res bool :=
  seg <- pick2 t1 c ;; dcheck_intersection_segment_surface_numerical_6d_tau N seg t2.
Fixpoint dsome_meet (t1 t2 : vecs) (cs : list (nat * nat)) : res bool :=
  match cs with
  | [] => Ok false
  | c :: cs => b <- dedge_meets t1 t2 c ;;
      if b then Ok true else
      b' <- dedge_meets t2 t1 c ;; if b' then Ok true else dsome_meet t1 t2 cs
  end.
(** dode2/intsct.py:99-192 *)
Definition check_intersection_two_triangles (t1 t2 : vecs) : res Z :=
  b2 <- dall_inside t1 t2 ;; b3 <- dall_inside t2 t1 ;;
  if b2 then Ok 1%Z else if b3 then Ok 2%Z else
  m <- dsome_meet t1 t2 tedge_ix ;; Ok (if m then 3%Z else 0%Z).

(** dode2/intsct.py:194-248; dot_product of two vectors is inner_product
    (dode2/math1.py:308-309), None for unequal lengths *)
Definition dintersection_two_segment (s1 s2 : vecs) : res (option vec) :=
  b <- dcheck_intersection_two_segment_numerical_6d_tau N s1 s2 ;;
  if b then
    p1 <- get s1 1 ;; p0 <- get s1 0 ;; vec6AB <- dsub_vectors p1 p0 ;; vecAB <- dprojection3 vec6AB ;;
    q1 <- get s2 1 ;; q0 <- get s2 0 ;; tmp <- dsub_vectors q1 q0 ;; vecCD <- dprojection3 tmp ;;
    tmp <- dsub_vectors q0 p0 ;; vecAC <- dprojection3 tmp ;;
    let dotp u v := d <- dinner_product u v ;; notNone d in
    tmp1 <- dotp vecAB vecCD ;; tmp2 <- dotp vecCD vecAB ;; tmp3 <- dmul tmp1 tmp2 ;;
    tmp1 <- dotp vecAB vecAB ;; tmp2 <- dotp vecCD vecCD ;; tmp4 <- dmul tmp1 tmp2 ;;
    bunbo <- dsub tmp3 tmp4 ;;
    tmp1 <- dotp vecAC vecCD ;; tmp2 <- dotp vecCD vecAB ;; tmp3 <- dmul tmp1 tmp2 ;;
    tmp1 <- dotp vecCD vecCD ;; tmp2 <- dotp vecAC vecAB ;; tmp4 <- dmul tmp1 tmp2 ;;
    bunshi <- dsub tmp3 tmp4 ;;
    s <- ddiv bunshi bunbo ;; s <- notNone s ;;
    tmp <- dmul_vector vec6AB s ;; p <- dadd_vectors p0 tmp ;; Ok (Some p)
  else Ok None.

(** dode2/intsct.py:250-316: the list of the points found; the empty list is the result
    None *)
Fixpoint segment_edges (seg sur : vecs) (cs : list (nat * nat)) : res vecs :=
  match cs with
  | [] => Ok []
  | c :: cs => e <- pick2 sur c ;; o <- dintersection_two_segment seg e ;;
      r <- segment_edges seg sur cs ;; Ok (olist o ++ r)
  end.
Definition dintersection_segment_surface (seg sur : vecs) : res vecs :=
  b <- dcheck_intersection_segment_surface_numerical_6d_tau N seg sur ;;
  if b then segment_edges seg sur tedge_ix else Ok [].

(** dode2/intsct.py:358-382: the arrays of points found, one per edge that meets the
    other triangle; counter is their number, tmp their concatenation (unassigned if there
    is none) *)
Definition dedge_points (t1 t2 : vecs) (c : nat * nat) : res vecs :=
  seg <- pick2 t1 c ;; sur <- pick3 t2 (0, 1, 2) ;; dintersection_segment_surface seg sur.
Definition hit (p : vecs) : list vecs := match p with [] => [] | _ => [p] end.
Fixpoint dedge_hits (t1 t2 : vecs) (cs : list (nat * nat)) : res (list vecs) :=
  match cs with
  | [] => Ok []
  | c :: cs => p1 <- dedge_points t1 t2 c ;; p2 <- dedge_points t2 t1 c ;;
      r <- dedge_hits t1 t2 cs ;; Ok (hit p1 ++ hit p2 ++ r)
  end.
(** dode2/intsct.py:385-402 *)
Fixpoint dvertices_inside (vs t : vecs) : res vecs :=
  match vs with
  | [] => Ok []
  | v :: vs => b <- inside_outside_triangle_tau N v t ;; r <- dvertices_inside vs t ;;
      Ok (if b then v :: r else r)
  end.
(** counter and tmp at line 404; tmp.reshape at line 382 raises if tmp is unassigned *)
Definition dcollect (t1 t2 : vecs) : res (nat * vecs) :=
  h <- dedge_hits t1 t2 tedge_ix ;;
  match h with
  | [] => Raise UnboundLocalError
  | _ => a <- dvertices_inside t1 t2 ;; b <- dvertices_inside t2 t1 ;;
      Ok (length h + length a + length b, concat h ++ a ++ b)
  end.

(** dode2/utils.py:591-620 (decomposition 578-589: None if Delaunay raises) *)
Definition take2 (l : list (F N)) : list (F N) := firstn 2 l.
Fixpoint dkeep_simplices (p : vecs) (l : list (nat * nat * nat)) : res obj4 :=
  match l with
  | [] => Ok []
  | s :: l => t <- pick3 p s ;; vol <- triangle_area_6d_3 t ;;
      r <- dkeep_simplices p l ;; Ok (if is_zero2 vol then r else t :: r)
  end.
Definition triangulation_points (p : vecs) : res (option obj4) :=
  q <- mapM (fun v => w <- dprojection3 v ;; Ok (take2 (dnumerical_vector N w))) p ;;
  match delaunay q with
  | None => Ok None
  | Some l => o <- dkeep_simplices p l ;; Ok (match o with [] => None | _ => Some o end)
  end.

(** dode2/intsct.py:318-420 *)
Definition intersection_two_triangles (t1 t2 : vecs) : res (option obj4) :=
  '(counter, tmp) <- dcollect t1 t2 ;;
  if Nat.leb 3 counter then
    pts <- dremove_doubling_in_perp_space (A3 tmp) ;;
    if Nat.ltb 3 (length pts) then triangulation_points pts
    else if Nat.eqb (length pts) 3 then Ok (Some [pts]) else Ok None
  else Ok None.
End Intersect.

(** dode2/intsct.py:422-560 for any tests and any pairwise intersection.  The loop over
    obj2 (lines 467-514) is the one of ico2. *)
Section TwoObjects.
Variable rough : vecs -> res bool.
Variable classify : vecs -> vecs -> res Z.
Variable inter : nat -> nat -> vecs -> vecs -> res (option obj4).
Variable simple : bool.
Definition dcontribution (i : nat) (t1 : vecs) (o2 : obj4) : res obj4 :=
  r <- rough t1 ;;
  if r then
    '(inside, tmp) <- inner_loop classify inter i 0 t1 o2 None ;;
    let first := if inside then [t1] else [] in
    match tmp with
    | None => Ok first
    | Some tmp =>
        if simple then
          vol1 <- triangle_area_6d_3 t1 ;; vol2 <- obj_area_6d (A4 tmp) ;; vol2 <- notNone vol2 ;;
          Ok (first ++ (if tau_eqb vol1 vol2 then [t1] else tmp))
        else Ok (first ++ tmp)
    end
  else Ok [].
Fixpoint douter_loop (i : nat) (o1 o2 : obj4) : res obj4 :=
  match o1 with
  | [] => Ok []
  | t1 :: o1 => c <- dcontribution i t1 o2 ;; r <- douter_loop (S i) o1 o2 ;; Ok (c ++ r)
  end.
Definition dcommon_pieces (o1 o2 : obj4) : res (option obj4) :=
  c <- douter_loop 0 o1 o2 ;; Ok (match c with [] => None | _ => Some c end).
End TwoObjects.

Section Objects.
Variable N : num.
Variable delaunay : list (list (F N)) -> option (list (nat * nat * nat)).

(** dode2/intsct.py:422-560; select is reduced to the test select=='simple'.  As in ico2,
    common4 is a list whose being unassigned is the empty list. *)
Definition dintersection_two_obj_1 (simple : bool) (o1 o2 : obj4) : res (option obj4) :=
  cent2 <- dcentroid_obj o2 ;; dd2 <- dball_radius_obj N (A4 o2) cent2 ;;
  dcommon_pieces (fun t => rough_check_intersection_triangle_obj N t cent2 dd2)
    (check_intersection_two_triangles N)
    (fun _ _ => intersection_two_triangles N delaunay) simple o1 o2.

(** dode2/two_occupation_domains.py:23-62 *)
Definition dintersection (simple : bool) (a1 a2 : arr) : res (option obj4) :=
  match a1, a2 with
  | A4 o1, A4 o2 => dintersection_two_obj_1 simple o1 o2
  | _, _ => Ok None
  end.

(** The projected centroid of an edge (dode2/utils.py:264-265). *)
Definition dcentre (e : vecs) : res (pt N) := c <- dcentroid e ;; dinternal N c.
(** dode2/utils.py:244-273: edges whose centroids differ in (numerical) perpendicular
    space.  n2: second entry of obj.shape; len(None) for n2=4 is a TypeError, other values
    leave `edges` unbound.  [cmp_pt]: order of rows of floats, as in ico2.
    An empty object makes np.unique raise only in old numpy; here it gives no edges. *)
Definition dgenerator_unique_edges (n2 : nat) (o : obj4) : res obj4 :=
  edges <- (if n2 =? 3 then e <- dgenerator_all_edges n2 o ;; notNone e
            else if n2 =? 2 then Ok o
            else if n2 =? 4 then e <- dgenerator_all_edges n2 o ;; notNone e
            else Raise UnboundLocalError) ;;
  a <- mapM dcentre edges ;;
  mapM (get edges) (unique_index (cmp_pt N) a).

(** dode2/intsct.py:562-700.  inside_outside_ttriangle_tau (line 611) is not defined, so
    the first vertex of obj1 tested against the first triangle of obj2 raises.  [inside_tt]
    is the missing function.  What follows the first loop is not modelled: it is reached
    only if obj1 has no vertex or obj2 no triangle. *)
Fixpoint some_triangle (inside_tt : option (vec -> vecs -> res bool)) (v : vec) (o2 : obj4) : res bool :=
  match o2 with
  | [] => Ok false
  | t :: o2 =>
      match inside_tt with
      | None => Raise NameError
      | Some f => b <- f v t ;; if b then Ok true else some_triangle inside_tt v o2
      end
  end.
Definition dconvex_vertices (inside_tt : option (vec -> vecs -> res bool)) (o1 o2 : obj4) : res vecs :=
  e1 <- dgenerator_unique_edges 3 o1 ;; e2 <- dgenerator_unique_edges 3 o2 ;;
  vertices1 <- dremove_doubling_in_perp_space (A4 e1) ;;
  foldM (fun a1 v => b <- some_triangle inside_tt v o2 ;; Ok (if b then a1 ++ [v] else a1)) [] vertices1.
(** dode2/two_occupation_domains.py:64-93; [rest] stands for intsct.py:633-700. *)
Definition dintersection_convex (inside_tt : option (vec -> vecs -> res bool)) (rest : obj4 -> obj4 -> vecs -> res (option obj4))
  (a1 a2 : arr) : res (option obj4) :=
  match a1, a2 with
  | A4 o1, A4 o2 => p <- dconvex_vertices inside_tt o1 o2 ;; rest o1 o2 p
  | _, _ => Ok None
  end.
End Objects.

(** dode2/intsct.py:708-761 and dode2/two_occupation_domains.py:95-118.  The first statement
    reads generator_surface_1, whose import is commented out (intsct.py:43); [surface] is
    that name, [rest] what follows. *)
Definition dsubtraction (surface : option (obj4 -> res obj4)) (rest : obj4 -> obj4 -> obj4 -> res (option obj4))
  (a1 a2 : arr) : res (option obj4) :=
  match a1, a2 with
  | A4 o1, A4 o2 => match surface with None => Raise NameError | Some f => s <- f o2 ;; rest o1 o2 s end
  | _, _ => Ok None
  end.
