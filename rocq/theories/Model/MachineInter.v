(** The intersection of two icosahedral objects on the machine: the code of IcoIntersect.v with
    the int64 arithmetic of Machine.v.  Tests are done in floating point, any [num] ([Bmath la]
    on the machine), as there. *)
From Coq Require Import List ZArith Bool Arith.
From Verif Require Import Base.Res Model.Tau Model.Arr Model.Machine Model.Vectors Model.Unique Model.Num Model.IcoNumeric Model.IcoVolume Model.IcoDedup
  Model.IcoIntersect Model.MachineVec Model.MachineCross.
Import ListNotations.
Local Open Scope res_scope.

(** ico2/utils.py:161-196; rows are compared as int64 *)
Definition m_remove_doubling_in_perp_space (a : arr) : res vecs :=
  vts <- notNone (remove_doubling a) ;;
  p <- mapM m_projection3 vts ;;
  mapM (get vts) (unique_index cmp_vec p).
(** ico2/math1.py:553-572 *)
Definition m_centroid_obj := centroid_obj_ m_add m_mul.

Section Inter.
Variable N : num.
Variable delaunay : list (list (F N)) -> option (list simplex).

(** ico2/intsct.py:67-113 *)
Definition m_farther (c : vec) (dd : F N) (v : vec) : res (F N) :=
  a <- m_sub_vectors v c ;; p <- m_projection3 a ;;
  let d := length_numerical N p in Ok (if flt N dd d then d else dd).
Definition m_ball_radius_obj (a : arr) (c : vec) : res (F N) :=
  vs <- m_remove_doubling_in_perp_space a ;; foldM (m_farther c) (fZ N 0) vs.
Definition m_distance_in_perp_space (u v : vec) : res (F N) :=
  a <- m_sub_vectors u v ;; p <- m_projection3 a ;; Ok (length_numerical N p).
Definition m_rough_check_intersection_tetrahedron_obj (t : vecs) (center : vec) (distance : F N) : res bool :=
  cen1 <- m_centroid t ;; dd1 <- m_ball_radius_obj (A3 t) cen1 ;; dd0 <- m_distance_in_perp_space cen1 center ;;
  Ok (fle N dd0 (fadd N dd1 distance)).

(** ico2/utils.py:828-880 *)
Fixpoint m_keep_simplices (p : vecs) (l : list simplex) : res obj4 :=
  match l with
  | [] => Ok []
  | s :: l => t <- pick4 p s ;; vol <- m_tetrahedron_volume_6d_3 t ;;
      r <- m_keep_simplices p l ;; Ok (if is_zero2 vol then r else t :: r)
  end.
Definition m_tetrahedralization_points (p : vecs) : res (option obj4) :=
  match p with
  | [] => Raise UnboundLocalError
  | _ =>
      q <- mapM (fun v => w <- m_projection3 v ;; Ok (numerical_vector N w)) p ;;
      match delaunay q with
      | None => Raise TypeError
      | Some l => o <- m_keep_simplices p l ;; Ok (match o with [] => None | _ => Some o end)
      end
  end.

(** ico2/intsct.py:333-505 *)
Definition m_intersection_two_tetrahedron_4 (draws : list (nat * nat * nat)) (t1 t2 : vecs) : res (option obj4) :=
  pts <- m_collect N t1 t2 ;;
  if Nat.leb 4 (length pts) then
    pts <- m_remove_doubling_in_perp_space (A3 pts) ;;
    if Nat.leb 4 (length pts) then
      c <- coplanar_check_numeric_tau N draws pts ;;
      match c with
      | Some true => Ok None
      | _ =>
          tmp4 <- (if Nat.eqb (length pts) 4 then Ok (Some [pts]) else m_tetrahedralization_points pts) ;;
          match tmp4 with
          | None => Raise AttributeError
          | Some o => v <- m_obj_volume_6d (A4 o) ;; _ <- notNone v ;; Ok (Some o)
          end
      end
    else Ok None
  else Ok None.
End Inter.

(** ico2/intsct.py:507-638; as [contribution], [outer_loop] and [common_pieces] there *)
Section TwoObjects.
Variable rough : vecs -> res bool.
Variable classify : vecs -> vecs -> res Z.
Variable inter : nat -> nat -> vecs -> vecs -> res (option obj4).
Variable simple : bool.
Definition m_contribution (i : nat) (t1 : vecs) (o2 : obj4) : res obj4 :=
  r <- rough t1 ;;
  if r then
    '(inside, tmp) <- inner_loop classify inter i 0 t1 o2 None ;;
    let first := if inside then [t1] else [] in
    match tmp with
    | None => Ok first
    | Some tmp =>
        if simple then
          vol1 <- m_tetrahedron_volume_6d_3 t1 ;; vol2 <- m_obj_volume_6d (A4 tmp) ;; vol2 <- notNone vol2 ;;
          Ok (first ++ (if tau_eqb vol1 vol2 then [t1] else tmp))
        else Ok (first ++ tmp)
    end
  else Ok [].
Fixpoint m_outer_loop (i : nat) (o1 o2 : obj4) : res obj4 :=
  match o1 with
  | [] => Ok []
  | t1 :: o1 => c <- m_contribution i t1 o2 ;; r <- m_outer_loop (S i) o1 o2 ;; Ok (c ++ r)
  end.
Definition m_common_pieces (o1 o2 : obj4) : res (option obj4) :=
  c <- m_outer_loop 0 o1 o2 ;; Ok (match c with [] => None | _ => Some c end).
End TwoObjects.

Section Objects.
Variable N : num.
Variable delaunay : list (list (F N)) -> option (list simplex).
Variable draws : nat -> nat -> list (nat * nat * nat).
Definition m_intersection_two_obj_1 (simple : bool) (o1 o2 : obj4) : res (option obj4) :=
  cent2 <- m_centroid_obj o2 ;; dd2 <- m_ball_radius_obj N (A4 o2) cent2 ;;
  m_common_pieces (fun t => m_rough_check_intersection_tetrahedron_obj N t cent2 dd2)
    (check_intersection_two_tetrahedron_4 N)
    (fun i j => m_intersection_two_tetrahedron_4 N delaunay (draws i j)) simple o1 o2.
(** ico2/two_occupation_domains.py:24-61 *)
Definition m_intersection (simple : bool) (a1 a2 : arr) : res (option obj4) :=
  match a1, a2 with
  | A4 o1, A4 o2 => m_intersection_two_obj_1 simple o1 o2
  | _, _ => Ok None
  end.
End Objects.
