(** ico2/intsct.py and the parts of ico2/utils.py it uses: intersection of
    tetrahedra and of objects.  Floats are any [num]; scipy's Delaunay and
    random.sample are arguments. *)
From Coq Require Import List ZArith Bool Arith.
From Verif Require Import Base.Res Model.Tau Model.Arr Model.IcoScalar Model.Vectors Model.IcoMath1 Model.Num
  Model.IcoNumeric Model.IcoVolume Model.IcoDedup.
Import ListNotations.
Local Open Scope res_scope.

Definition simplex : Set := (nat * nat * nat * nat)%type.

(** ico2/intsct.py:154-178, 380-404: an edge (two vertex indices) and a face (three),
    written out as a product; same order as in the source. *)
Definition edge_ix : list (nat * nat) := [(0,1);(0,2);(0,3);(1,2);(1,3);(2,3)].
Definition face_ix : list (nat * nat * nat) := [(0,1,2);(0,1,3);(0,2,3);(1,2,3)].
Definition pairs_ix : list ((nat * nat) * (nat * nat * nat)) := list_prod edge_ix face_ix.

(** np.stack([t[i],t[j]]) and np.stack([t[i],t[j],t[k]]) *)
Definition pick2 (t : vecs) (e : nat * nat) : res vecs :=
  let '(i, j) := e in a <- get t i ;; b <- get t j ;; Ok [a; b].
Definition pick3 (t : vecs) (f : nat * nat * nat) : res vecs :=
  let '(i, j, k) := f in a <- get t i ;; b <- get t j ;; c <- get t k ;; Ok [a; b; c].

Section Intersect.
Variable N : num.
(** scipy.spatial.Delaunay on float points: None is an exception, otherwise the simplices. *)
Variable delaunay : list (list (F N)) -> option (list simplex).

(** ico2/intsct.py:67-94 *)
Definition farther (c : vec) (dd : F N) (v : vec) : res (F N) :=
  a <- sub_vectors v c ;; p <- projection3 a ;;
  let d := length_numerical N p in Ok (if flt N dd d then d else dd).
Definition ball_radius_obj (a : arr) (c : vec) : res (F N) :=
  vs <- remove_doubling_in_perp_space a ;; foldM (farther c) (fZ N 0) vs.
(** ico2/intsct.py:96-99 *)
Definition ball_radius (t : vecs) (c : vec) : res (F N) := ball_radius_obj (A3 t) c.
(** ico2/intsct.py:101-104 *)
Definition distance_in_perp_space (u v : vec) : res (F N) :=
  a <- sub_vectors u v ;; p <- projection3 a ;; Ok (length_numerical N p).
(** ico2/intsct.py:106-113 *)
Definition rough_check_intersection_tetrahedron_obj (t : vecs) (center : vec) (distance : F N) : res bool :=
  cen1 <- centroid t ;; dd1 <- ball_radius t cen1 ;; dd0 <- distance_in_perp_space cen1 center ;;
  Ok (fle N dd0 (fadd N dd1 distance)).

(** ico2/intsct.py:180-206: are all vertices inside the other tetrahedron?  Both loops
    stop at the first vertex outside. *)
Fixpoint all_inside (vs t : vecs) : res bool :=
  match vs with
  | [] => Ok true
  | v :: vs => b <- inside_outside_tetrahedron_tau N v t ;; if b then all_inside vs t else Ok false
  end.
(** ico2/intsct.py:212-238 *)
Definition edge_meets (t1 t2 : vecs) (c : (nat * nat) * (nat * nat * nat)) : res bool :=
  seg <- pick2 t1 (fst c) ;; sur <- pick3 t2 (snd c) ;;
  check_intersection_segment_surface_numerical_6d_tau N seg sur.
Fixpoint some_meet (t1 t2 : vecs) (cs : list ((nat * nat) * (nat * nat * nat))) : res bool :=
  match cs with
  | [] => Ok false
  | c :: cs => b <- edge_meets t1 t2 c ;;
      if b then Ok true else
      b' <- edge_meets t2 t1 c ;; if b' then Ok true else some_meet t1 t2 cs
  end.
(** ico2/intsct.py:115-241 *)
Definition check_intersection_two_tetrahedron_4 (t1 t2 : vecs) : res Z :=
  b2 <- all_inside t1 t2 ;; b3 <- all_inside t2 t1 ;;
  if b2 then Ok 1%Z else if b3 then Ok 2%Z else
  m <- some_meet t1 t2 pairs_ix ;; Ok (if m then 3%Z else 0%Z).

(** ico2/intsct.py:286-331.  The result of shape (1,6,3) is the vector itself. *)
Definition intersection_segment_surface (seg sur : vecs) : res (option vec) :=
  b <- check_intersection_segment_surface_numerical_6d_tau N seg sur ;;
  if b then
    s1 <- get seg 1 ;; s0 <- get seg 0 ;; vec6AB <- sub_vectors s1 s0 ;; vecAB <- projection3 vec6AB ;;
    f1 <- get sur 1 ;; f0 <- get sur 0 ;; tmp <- sub_vectors f1 f0 ;; vecCD <- projection3 tmp ;;
    f2 <- get sur 2 ;; tmp <- sub_vectors f2 f0 ;; vecCE <- projection3 tmp ;;
    tmp <- sub_vectors s0 f0 ;; vecCA <- projection3 tmp ;;
    vecP <- outer_product vecAB vecCE ;; vecQ <- outer_product vecCA vecCD ;;
    bunbo <- inner_product vecP vecCD ;; bunshi <- inner_product vecQ vecCE ;;
    n <- notNone bunshi ;; d <- notNone bunbo ;; t <- div n d ;; t <- notNone t ;;
    tmp <- mul_vector vec6AB t ;; p <- add_vectors s0 tmp ;; Ok (Some p)
  else Ok None.

Definition olist {A} (o : option A) : list A := match o with Some a => [a] | None => [] end.
(** ico2/intsct.py:410-440: for every combination, first the edge of tetrahedron_1,
    then the edge of tetrahedron_2 *)
Definition edge_point (t1 t2 : vecs) (c : (nat * nat) * (nat * nat * nat)) : res (option vec) :=
  seg <- pick2 t1 (fst c) ;; sur <- pick3 t2 (snd c) ;; intersection_segment_surface seg sur.
Fixpoint edge_points (t1 t2 : vecs) (cs : list ((nat * nat) * (nat * nat * nat))) : res vecs :=
  match cs with
  | [] => Ok []
  | c :: cs => o1 <- edge_point t1 t2 c ;; o2 <- edge_point t2 t1 c ;;
      r <- edge_points t1 t2 cs ;; Ok (olist o1 ++ olist o2 ++ r)
  end.
(** ico2/intsct.py:447-474: the vertices vs that are inside t *)
Fixpoint vertices_inside (vs t : vecs) : res vecs :=
  match vs with
  | [] => Ok []
  | v :: vs => b <- inside_outside_tetrahedron_tau N v t ;; r <- vertices_inside vs t ;;
      Ok (if b then v :: r else r)
  end.
Definition collect (t1 t2 : vecs) : res vecs :=
  e <- edge_points t1 t2 pairs_ix ;; a <- vertices_inside t1 t2 ;; b <- vertices_inside t2 t1 ;;
  Ok (e ++ a ++ b).

(** ico2/utils.py:841-880 (decomposition: 828-839).  Without points the variable tmp is
    never assigned; when Delaunay raises, decomposition returns None and the loop over
    it raises. *)
Definition is_zero2 (t : tau) : bool := Z.eqb (ta t) 0 && Z.eqb (tb t) 0.
Definition pick4 (p : vecs) (s : simplex) : res vecs :=
  let '(i, j, k, l) := s in
  a <- get p i ;; b <- get p j ;; c <- get p k ;; d <- get p l ;; Ok [a; b; c; d].
Fixpoint keep_simplices (p : vecs) (l : list simplex) : res obj4 :=
  match l with
  | [] => Ok []
  | s :: l => t <- pick4 p s ;; vol <- tetrahedron_volume_6d_3 t ;;
      r <- keep_simplices p l ;; Ok (if is_zero2 vol then r else t :: r)
  end.
Definition tetrahedralization_points (p : vecs) : res (option obj4) :=
  match p with
  | [] => Raise UnboundLocalError
  | _ =>
      q <- mapM (fun v => w <- projection3 v ;; Ok (numerical_vector N w)) p ;;
      match delaunay q with
      | None => Raise TypeError
      | Some l => o <- keep_simplices p l ;; Ok (match o with [] => None | _ => Some o end)
      end
  end.

(** ico2/intsct.py:333-505.  [draws]: the samples of coplanar_check (math1.py:574-632
    calls coplanar_check_numeric_tau); its None result counts as "not coplanar".
    obj_volume_6d(None) raises AttributeError. *)
Definition intersection_two_tetrahedron_4 (draws : list (nat * nat * nat)) (t1 t2 : vecs) : res (option obj4) :=
  pts <- collect t1 t2 ;;
  if Nat.leb 4 (length pts) then
    pts <- remove_doubling_in_perp_space (A3 pts) ;;
    if Nat.leb 4 (length pts) then
      c <- coplanar_check_numeric_tau N draws pts ;;
      match c with
      | Some true => Ok None
      | _ =>
          tmp4 <- (if Nat.eqb (length pts) 4 then Ok (Some [pts]) else tetrahedralization_points pts) ;;
          match tmp4 with
          | None => Raise AttributeError
          | Some o => v <- obj_volume_6d (A4 o) ;; _ <- notNone v ;; Ok (Some o)
          end
      end
    else Ok None
  else Ok None.
End Intersect.

(** ico2/intsct.py:507-638 for any tests and any pairwise intersection, which get the
    positions of the tetrahedra in their objects (the samples drawn may differ from call
    to call). *)
Section TwoObjects.
Variable rough : vecs -> res bool.
Variable classify : vecs -> vecs -> res Z.
Variable inter : nat -> nat -> vecs -> vecs -> res (option obj4).
Variable simple : bool.

(** The inner loop: (t1 lies in some t2, tmp_common4 or None). *)
Definition oapp (a : option obj4) (b : obj4) : option obj4 :=
  match a with None => Some b | Some a => Some (a ++ b) end.
Fixpoint inner_loop (i j : nat) (t1 : vecs) (o2 : obj4) (acc : option obj4) : res (bool * option obj4) :=
  match o2 with
  | [] => Ok (false, acc)
  | t2 :: o2 =>
      flag <- classify t1 t2 ;;
      if Z.eqb flag 1 then Ok (true, acc)
      else if Z.eqb flag 2 then inner_loop i (S j) t1 o2 (oapp acc [t2])
      else if Z.eqb flag 3 then
        p <- inter i j t1 t2 ;;
        inner_loop i (S j) t1 o2 (match p with None => acc | Some q => oapp acc q end)
      else inner_loop i (S j) t1 o2 acc
  end.
(** What tetrahedron1 contributes to common4. *)
Definition contribution (i : nat) (t1 : vecs) (o2 : obj4) : res obj4 :=
  r <- rough t1 ;;
  if r then
    '(inside, tmp) <- inner_loop i 0 t1 o2 None ;;
    let first := if inside then [t1] else [] in
    match tmp with
    | None => Ok first
    | Some tmp =>
        if simple then
          vol1 <- tetrahedron_volume_6d_3 t1 ;; vol2 <- obj_volume_6d (A4 tmp) ;; vol2 <- notNone vol2 ;;
          Ok (first ++ (if tau_eqb vol1 vol2 then [t1] else tmp))
        else Ok (first ++ tmp)
    end
  else Ok [].
Fixpoint outer_loop (i : nat) (o1 o2 : obj4) : res obj4 :=
  match o1 with
  | [] => Ok []
  | t1 :: o1 => c <- contribution i t1 o2 ;; r <- outer_loop (S i) o1 o2 ;; Ok (c ++ r)
  end.
Definition common_pieces (o1 o2 : obj4) : res (option obj4) :=
  c <- outer_loop 0 o1 o2 ;; Ok (match c with [] => None | _ => Some c end).
End TwoObjects.

Section Objects.
Variable N : num.
Variable delaunay : list (list (F N)) -> option (list simplex).
Variable draws : nat -> nat -> list (nat * nat * nat).

(** ico2/intsct.py:507-638; kind is reduced to the test kind=='simple'.  Simplification:
    common4 is a list that grows; its being unassigned is the empty list (pieces are
    never empty arrays, see C35). *)
Definition intersection_two_obj_1 (simple : bool) (o1 o2 : obj4) : res (option obj4) :=
  cent2 <- centroid_obj o2 ;; dd2 <- ball_radius_obj N (A4 o2) cent2 ;;
  common_pieces (fun t => rough_check_intersection_tetrahedron_obj N t cent2 dd2)
    (check_intersection_two_tetrahedron_4 N)
    (fun i j => intersection_two_tetrahedron_4 N delaunay (draws i j)) simple o1 o2.

(** ico2/two_occupation_domains.py:24-61 *)
Definition intersection (simple : bool) (a1 a2 : arr) : res (option obj4) :=
  match a1, a2 with
  | A4 o1, A4 o2 => intersection_two_obj_1 simple o1 o2
  | _, _ => Ok None
  end.
End Objects.

(** ico2/intsct.py:786-842 for any surface generator and any per-tetrahedron subtraction
    (which gets the position of the tetrahedron, the tetrahedron, obj2 and its surface). *)
Section Subtraction.
Variable surface : obj4 -> res obj4.
Variable not_obj : nat -> vecs -> obj4 -> obj4 -> res (option obj4).
Fixpoint subtract_loop (i : nat) (o1 o2 s2 : obj4) (out : option obj4) : res (option obj4) :=
  match o1 with
  | [] => Ok out
  | t :: o1 => a <- not_obj i t o2 s2 ;;
      match a with
      | None => Ok None
      | Some q => subtract_loop (S i) o1 o2 s2 (oapp out q)
      end
  end.
Definition subtraction_two_obj (o1 o2 : obj4) : res (option obj4) :=
  s2 <- surface o2 ;; subtract_loop 0 o1 o2 s2 None.
(** ico2/two_occupation_domains.py:93-118 *)
Definition subtraction (a1 a2 : arr) : res (option obj4) :=
  match a1, a2 with
  | A4 o1, A4 o2 => subtraction_two_obj o1 o2
  | _, _ => Ok None
  end.
End Subtraction.
