(** The intersection of two dodecagonal objects on the machine: the code of DodeIntersect.v with
    the int64 arithmetic of Machine.v.  Tests are done in floating point, any [num] ([Bmath la]
    on the machine), as there. *)
From Coq Require Import List ZArith Bool Arith.
From Verif Require Import Base.Res Model.Tau Model.Arr Model.Machine Model.Vectors Model.Unique Model.Num Model.IcoNumeric Model.DodeNumeric Model.IcoDedup
  Model.IcoIntersect Model.DodeIntersect Model.MachineVec Model.MachineCross.
Import ListNotations.
Local Open Scope res_scope.

(** dode2/utils.py:166-200; rows are compared as int64 *)
Definition md_remove_doubling_in_perp_space (a : arr) : res vecs :=
  vts <- notNone (remove_doubling a) ;;
  p <- mapM md_projection3 vts ;;
  mapM (get vts) (unique_index cmp_vec p).
(** dode2/math1.py:537-556 *)
Definition md_centroid_obj := centroid_obj_ md_add md_mul.

Section Inter.
Variable N : num.
Variable delaunay : list (list (F N)) -> option (list (nat * nat * nat)).

(** dode2/intsct.py:53-97 *)
Definition md_farther (c : vec) (dd : F N) (v : vec) : res (F N) :=
  a <- md_sub_vectors v c ;; p <- md_projection3 a ;;
  let d := dlength_numerical N p in Ok (if flt N dd d then d else dd).
Definition md_ball_radius_obj (a : arr) (c : vec) : res (F N) :=
  vs <- md_remove_doubling_in_perp_space a ;; foldM (md_farther c) (fZ N 0) vs.
Definition md_distance_in_perp_space (u v : vec) : res (F N) :=
  a <- md_sub_vectors u v ;; p <- md_projection3 a ;; Ok (dlength_numerical N p).
Definition md_rough_check_intersection_triangle_obj (t : vecs) (center : vec) (distance : F N) : res bool :=
  cen1 <- md_centroid t ;; dd1 <- md_ball_radius_obj (A3 t) cen1 ;; dd0 <- md_distance_in_perp_space cen1 center ;;
  Ok (fle N dd0 (fadd N dd1 distance)).

(** dode2/utils.py:578-620 *)
Fixpoint md_keep_simplices (p : vecs) (l : list (nat * nat * nat)) : res obj4 :=
  match l with
  | [] => Ok []
  | s :: l => t <- pick3 p s ;; vol <- md_triangle_area_6d_3 t ;;
      r <- md_keep_simplices p l ;; Ok (if is_zero2 vol then r else t :: r)
  end.
Definition md_triangulation_points (p : vecs) : res (option obj4) :=
  q <- mapM (fun v => w <- md_projection3 v ;; Ok (take2 N (dnumerical_vector N w))) p ;;
  match delaunay q with
  | None => Ok None
  | Some l => o <- md_keep_simplices p l ;; Ok (match o with [] => None | _ => Some o end)
  end.

(** dode2/intsct.py:318-420 *)
Definition md_intersection_two_triangles (t1 t2 : vecs) : res (option obj4) :=
  '(counter, tmp) <- md_collect N t1 t2 ;;
  if Nat.leb 3 counter then
    pts <- md_remove_doubling_in_perp_space (A3 tmp) ;;
    if Nat.ltb 3 (length pts) then md_triangulation_points pts
    else if Nat.eqb (length pts) 3 then Ok (Some [pts]) else Ok None
  else Ok None.
End Inter.

(** dode2/intsct.py:422-560; as [dcontribution], [douter_loop] and [dcommon_pieces] there *)
Section TwoObjects.
Variable rough : vecs -> res bool.
Variable classify : vecs -> vecs -> res Z.
Variable inter : nat -> nat -> vecs -> vecs -> res (option obj4).
Variable simple : bool.
Definition md_contribution (i : nat) (t1 : vecs) (o2 : obj4) : res obj4 :=
  r <- rough t1 ;;
  if r then
    '(inside, tmp) <- inner_loop classify inter i 0 t1 o2 None ;;
    let first := if inside then [t1] else [] in
    match tmp with
    | None => Ok first
    | Some tmp =>
        if simple then
          vol1 <- md_triangle_area_6d_3 t1 ;; vol2 <- md_obj_area_6d (A4 tmp) ;; vol2 <- notNone vol2 ;;
          Ok (first ++ (if tau_eqb vol1 vol2 then [t1] else tmp))
        else Ok (first ++ tmp)
    end
  else Ok [].
Fixpoint md_outer_loop (i : nat) (o1 o2 : obj4) : res obj4 :=
  match o1 with
  | [] => Ok []
  | t1 :: o1 => c <- md_contribution i t1 o2 ;; r <- md_outer_loop (S i) o1 o2 ;; Ok (c ++ r)
  end.
Definition md_common_pieces (o1 o2 : obj4) : res (option obj4) :=
  c <- md_outer_loop 0 o1 o2 ;; Ok (match c with [] => None | _ => Some c end).
End TwoObjects.

Section Objects.
Variable N : num.
Variable delaunay : list (list (F N)) -> option (list (nat * nat * nat)).
Definition md_intersection_two_obj_1 (simple : bool) (o1 o2 : obj4) : res (option obj4) :=
  cent2 <- md_centroid_obj o2 ;; dd2 <- md_ball_radius_obj N (A4 o2) cent2 ;;
  md_common_pieces (fun t => md_rough_check_intersection_triangle_obj N t cent2 dd2)
    (check_intersection_two_triangles N)
    (fun _ _ => md_intersection_two_triangles N delaunay) simple o1 o2.
(** dode2/two_occupation_domains.py:23-62 *)
Definition md_intersection (simple : bool) (a1 a2 : arr) : res (option obj4) :=
  match a1, a2 with
  | A4 o1, A4 o2 => md_intersection_two_obj_1 simple o1 o2
  | _, _ => Ok None
  end.
End Objects.
