(** ico2/numericalc.py, over any [num].  Arrays of floats of shape (3,) are
    triples [pt], arrays of shape (n,3) are lists of them. *)
From Coq Require Import List ZArith Bool Arith.
From Verif Require Import Base.Res Model.Tau Model.Arr Model.Num.
Import ListNotations.
Local Open Scope res_scope.

Section Numeric.
Variable N : num.
Let F := F N.
Let pt := pt N.
Let EPS := EPS N.

(** numericalc.py:163-175.  Simplification: a zero denominator gives inf/nan with
    a warning in numpy; here it gives whatever [fdiv] gives. *)
Definition numeric_value (t : tau) : F :=
  fdiv N (fadd N (fZ N (ta t)) (fmul N (fZ N (tb t)) (ftau N))) (fZ N (tc t)).

(** numericalc.py:177-193, 195-211 *)
Definition numerical_vector (v : vec) : list F := map numeric_value v.
Definition numerical_vectors (vs : vecs) : list (list F) := map numerical_vector vs.

(** np.linalg.norm of an array of any length: sqrt(x.dot(x)) *)
Definition norm_list (l : list F) : F := fsqrt N (fdot N l l).
(** numericalc.py:213-227 *)
Definition length_numerical (v : vec) : F := norm_list (numerical_vector v).

(** numericalc.py:624-635 *)
Definition projection3_numerical (vn : list F) : res pt :=
  a0 <- get vn 0 ;; a1 <- get vn 1 ;; a2 <- get vn 2 ;;
  a3 <- get vn 3 ;; a4 <- get vn 4 ;; a5 <- get vn 5 ;;
  Ok (fadd N (fneg N (fadd N a1 a2)) (fmul N (ftau N) (fsub N a0 a4)),
      fadd N (fneg N (fadd N a0 a4)) (fmul N (ftau N) (fadd N a3 a5)),
      fadd N (fsub N a3 a5) (fmul N (ftau N) (fsub N a1 a2))).
(** numericalc.py:637-649 *)
Definition projection3_sets_numerical (vns : list (list F)) : res (list pt) :=
  mapM projection3_numerical vns.

(** numericalc.py:594-608: parallel and perpendicular components *)
Definition projection_numerical (vn : list F) : res (pt * pt) :=
  a0 <- get vn 0 ;; a1 <- get vn 1 ;; a2 <- get vn 2 ;;
  a3 <- get vn 3 ;; a4 <- get vn 4 ;; a5 <- get vn 5 ;;
  Ok ((fadd N (fsub N a0 a4) (fmul N (ftau N) (fadd N a1 a2)),
       fadd N (fadd N a3 a5) (fmul N (ftau N) (fadd N a0 a4)),
       fsub N (fsub N a1 a2) (fmul N (ftau N) (fsub N a3 a5))),
      (fadd N (fneg N (fadd N a1 a2)) (fmul N (ftau N) (fsub N a0 a4)),
       fadd N (fneg N (fadd N a0 a4)) (fmul N (ftau N) (fadd N a3 a5)),
       fadd N (fsub N a3 a5) (fmul N (ftau N) (fsub N a1 a2)))).

(** numericalc.py:573-581, 583-592 *)
Definition internal (v : vec) : res pt := projection3_numerical (numerical_vector v).
Definition internals (vs : vecs) : res (list pt) := mapM internal vs.

(** numericalc.py:31-82.  [draws] is the list of the index triples random.sample
    returns, one per iteration (its length is num_iteration); None is the error
    return when no draw gives a usable normal vector. *)
Definition small (v : pt) : bool :=
  let '(x, y, z) := v in
  flt N (fabs N x) EPS && flt N (fabs N y) EPS && flt N (fabs N z) EPS.
Definition triple_normal (pns : list pt) (d : nat * nat * nat) : res pt :=
  let '(i, j, k) := d in
  p1 <- get pns j ;; p0 <- get pns i ;; p2 <- get pns k ;;
  Ok (pcross N (psub N p1 p0) (psub N p2 p0)).
Fixpoint first_good (pns : list pt) (draws : list (nat * nat * nat)) : res (option (nat * nat * nat * pt)) :=
  match draws with
  | [] => Ok None
  | d :: draws => n <- triple_normal pns d ;; if small n then first_good pns draws else Ok (Some (d, n))
  end.
Definition others (n : nat) (d : nat * nat * nat) : list nat :=
  let '(i, j, k) := d in filter (fun x => negb (existsb (Nat.eqb x) [i; j; k])) (seq 0 n).
Fixpoint all_near (pns : list pt) (n : pt) (p0 : pt) (l : list nat) : res bool :=
  match l with
  | [] => Ok true
  | i :: l => p <- get pns i ;;
      if flt N (fabs N (pdot N n (psub N p p0))) (f1e10 N) then all_near pns n p0 l else Ok false
  end.
Definition coplanar_check_numeric (draws : list (nat * nat * nat)) (pns : list pt) : res (option bool) :=
  if Nat.ltb 3 (length pns) then
    g <- first_good pns draws ;;
    match g with
    | None => Ok None
    | Some (d, n) => p0 <- get pns (fst (fst d)) ;;
        b <- all_near pns n p0 (others (length pns) d) ;; Ok (Some b)
    end
  else Ok (Some true).
(** numericalc.py:13-29 *)
Definition coplanar_check_numeric_tau (draws : list (nat * nat * nat)) (vs : vecs) : res (option bool) :=
  p <- internals vs ;; coplanar_check_numeric draws p.

(** numericalc.py:84-120 *)
Definition on_segment (p a b : pt) : bool :=
  let pa := psub N p a in let ba := psub N b a in
  let lpa := pnorm N pa in let lba := pnorm N ba in
  if flt N (fZ N 0) lba && flt N (fabs N (fsub N (pdot N pa ba) (fmul N lpa lba))) EPS then
    let s := fdiv N lpa lba in fle N (fZ N 0) s && fle N s (fZ N 1)
  else false.
Definition point_on_segment (point : vec) (seg : vecs) : res bool :=
  p <- internal point ;; l <- internals seg ;;
  a <- get l 0 ;; b <- get l 1 ;; Ok (on_segment p a b).

(** numericalc.py:396-421 *)
Definition sq3 (v : pt) : F :=
  let '(x, y, z) := v in
  fadd N (fadd N (fabs N (fmul N x x)) (fabs N (fmul N y y))) (fabs N (fmul N z z)).
Definition area3 (a b c : pt) : F :=
  fdiv N (fsqrt N (sq3 (pcross N (psub N c a) (psub N b a)))) (fZ N 2).
Definition triangle_area_numerical (t : list pt) : res F :=
  a <- get t 0 ;; b <- get t 1 ;; c <- get t 2 ;; Ok (area3 a b c).
(** numericalc.py:122-161 *)
Definition on_surface (p a b c : pt) : bool :=
  flt N (fabs N (fsub N (area3 a b c)
     (fadd N (fadd N (area3 p b c) (area3 a p c)) (area3 a b p)))) EPS.
Definition on_out_surface (point : vec) (triangle : vecs) : res bool :=
  p <- internal point ;; t <- internals triangle ;;
  a <- get t 0 ;; b <- get t 1 ;; c <- get t 2 ;; Ok (on_surface p a b c).

(** numericalc.py:249-298 *)
Definition seg_tri (a b c d e : pt) : bool :=
  let AB := psub N b a in let CD := psub N d c in let CE := psub N e c in let CA := psub N a c in
  let P := pcross N AB CE in let Q := pcross N CA CD in
  let bunbo := pdot N P CD in
  if flt N (fabs N bunbo) EPS then false else
  let lo := fsub N (fZ N 0) EPS in let hi := fadd N (fZ N 1) EPS in
  let u := fdiv N (pdot N P CA) bunbo in
  if fle N lo u && fle N u hi then
    let v := fdiv N (pdot N Q AB) bunbo in
    if fle N lo v && fle N (fadd N u v) hi then
      let t := fdiv N (pdot N Q CE) bunbo in
      fle N lo t && fle N t hi
    else false
  else false.
Definition check_intersection_segment_surface_numerical (ln tr : list pt) : res bool :=
  b <- get ln 1 ;; a <- get ln 0 ;; d <- get tr 1 ;; c <- get tr 0 ;; e <- get tr 2 ;;
  Ok (seg_tri a b c d e).
(** numericalc.py:231-247 *)
Definition check_intersection_segment_surface_numerical_6d_tau (seg tri : vecs) : res bool :=
  ln <- internals seg ;; tr <- internals tri ;;
  check_intersection_segment_surface_numerical ln tr.

(** numericalc.py:322-366.  ln2[2] is read first, so two end points are never
    enough; what follows is modelled for longer arrays. *)
Definition comp (p : pt) (i : nat) : F :=
  let '(x, y, z) := p in match i with 0%nat => x | 1%nat => y | _ => z end.
Definition cross2 (p q : pt) (i j : nat) : F :=
  fsub N (fmul N (comp p i) (comp q j)) (fmul N (comp q i) (comp p j)).
Fixpoint two_segment_loop (AB CD CA : pt) (cs : list (nat * nat * nat)) (out : Z) : Z :=
  match cs with
  | [] => out
  | (c0, c1, c2) :: cs =>
      let bunbo := cross2 AB CD c0 c1 in
      let next := two_segment_loop AB CD CA cs (out + 1) in
      if flt N (fabs N bunbo) EPS then
        let t := fdiv N (cross2 AB CA c0 c1) bunbo in
        if fle N (fZ N 0) t && fle N t (fZ N 1) then
          let s := fdiv N (cross2 CD CA c0 c1) bunbo in
          if fle N (fZ N 0) s && fle N s (fZ N 1) then
            if fle N (fabs N (fsub N (fadd N (fmul N (fneg N s) (comp AB c2)) (fmul N t (comp CD c2))) (comp CA c2))) EPS
            then out else next
          else next
        else next
      else next
  end.
Definition check_intersection_two_segment_numerical (ln1 ln2 : list pt) : res Z :=
  b1 <- get ln1 1 ;; a1 <- get ln1 0 ;; c2 <- get ln2 2 ;; a2 <- get ln2 0 ;; b2 <- get ln2 1 ;;
  Ok (two_segment_loop (psub N b1 a1) (psub N c2 a2) (psub N a1 b2)
        [(0, 1, 2); (1, 2, 0); (2, 0, 1)]%nat 0).

(** numericalc.py:550-562 *)
Definition vol4 (a b c d : pt) : F :=
  fdiv N (fabs N (pdet N (psub N b a) (psub N c a) (psub N d a))) (fZ N 6).
Definition tetrahedron_volume_numerical (t : list pt) : res F :=
  b <- get t 1 ;; a <- get t 0 ;; c <- get t 2 ;; d <- get t 3 ;; Ok (vol4 a b c d).
(** numericalc.py:513-548 *)
Definition obj_volume_numerical (o : list (list pt)) : res F :=
  foldM (fun v t => w <- tetrahedron_volume_numerical t ;; Ok (fadd N v w)) (fZ N 0) o.
Definition tetrahedron_volume_6d_numerical (t : vecs) : res F :=
  a <- internals t ;; tetrahedron_volume_numerical a.
Definition obj_volume_6d_numerical (o : obj4) : res F :=
  foldM (fun v t => w <- tetrahedron_volume_6d_numerical t ;; Ok (fadd N v w)) (fZ N 0) o.

(** numericalc.py:470-506 *)
Definition in_tet (p a b c d : pt) : bool :=
  let vol0 := vol4 a b c d in
  flt N (fabs N (fsub N (fsub N (fsub N (fsub N vol0 (vol4 p b c d)) (vol4 a p c d)) (vol4 a b p d)) (vol4 a b c p)))
        (fmul N EPS vol0).
Definition inside_outside_tetrahedron (p : pt) (t : list pt) : res bool :=
  b <- get t 1 ;; a <- get t 0 ;; c <- get t 2 ;; d <- get t 3 ;; Ok (in_tet p a b c d).
(** numericalc.py:453-468 *)
Definition inside_outside_tetrahedron_tau (v : vec) (t : vecs) : res bool :=
  p <- internal v ;; q <- internals t ;; inside_outside_tetrahedron p q.

(** numericalc.py:433-451 *)
Fixpoint some_contains (p : pt) (o : list (list pt)) : res bool :=
  match o with
  | [] => Ok false
  | t :: o => b <- inside_outside_tetrahedron p t ;; if b then Ok true else some_contains p o
  end.
Definition inside_outside_obj (p : pt) (o : list (list pt)) : res bool :=
  b <- some_contains p o ;; Ok (negb b).
(** numericalc.py:423-431.  numerical_vectors unpacks the shape into three names,
    so it raises on anything but a 3-d array; then [ln] is not defined. *)
Definition inside_outside_obj_tau (v : vec) (o : arr) : res bool :=
  match o with
  | A3 _ => Raise NameError
  | _ => Raise ValueError
  end.
End Numeric.
