(** Functions that refer to names which do not exist, or call others with arguments
    they reject.  A global name that a module does not define is an argument of type
    [option]: None in the code as it is.  The rest of the function is modelled in full
    where that is of use to say what it would compute. *)
From Coq Require Import List ZArith Bool Arith.
From Verif Require Import Base.Res Model.Tau Model.Arr Model.Num Model.IcoScalar Model.DodeScalar Model.Vectors Model.IcoMath1 Model.DodeMath1
  Model.IcoSymmetry Model.DodeSymmetry Model.Unique Model.IcoDedup Model.DodeDedup Model.IcoNumeric Model.DodeNumeric Model.IcoIntersect Model.IcoSurface.
Import ListNotations.
Local Open Scope res_scope.

(** Reading a global name. *)
Definition name {A} (g : option A) : res A := match g with Some a => Ok a | None => Raise NameError end.
(** Reading an attribute of a module. *)
Definition attribute {A} (g : option A) : res A := match g with Some a => Ok a | None => Raise AttributeError end.
(** Calling a function of one parameter with the given positional arguments. *)
Definition call1 {A B} (f : A -> res B) (args : list A) : res B :=
  match args with [a] => f a | _ => Raise TypeError end.

Section Scalars.
Variables add mul : tau -> tau -> res tau.

(** ico2/math1.py:656-699, dode2/math1.py:640-683: [c] at line 674 (658) is not defined. *)
Definition det_matrix_ (c : option vec) (m : vecs) : res tau :=
  let at2 i j := r <- get m i ;; get r j in
  let mul2 i j k l := x <- at2 i j ;; y <- at2 k l ;; mul x y in
  t3 <- mul2 0 0 1 1 ;; z <- at2 2 2 ;; t1 <- mul t3 z ;;
  t3 <- mul2 0 2 1 0 ;; c <- name c ;; z <- get c 1 ;; t2 <- mul t3 z ;;
  t1 <- add t1 t2 ;;
  t3 <- mul2 0 1 1 2 ;; z <- at2 2 0 ;; t3 <- mul t3 z ;;
  t1 <- add t1 t3 ;;
  t3 <- mul2 0 2 1 1 ;; z <- at2 2 0 ;; t2 <- mul t3 z ;;
  t1 <- sub_ add mul t1 t2 ;;
  t3 <- mul2 0 1 1 0 ;; z <- at2 2 2 ;; t2 <- mul t3 z ;;
  t1 <- sub_ add mul t1 t2 ;;
  t3 <- mul2 0 0 1 2 ;; z <- at2 2 1 ;; t2 <- mul t3 z ;;
  sub_ add mul t1 t2.

(** ico2/utils.py:1086-1094, dode2/utils.py:793-801: [tmp2] is not defined.  [tmp2 out]:
    what the name would denote when [out] is the array built so far. *)
Definition middle_position_ (tmp2 : vec -> option vec) (p q : vec) : res vec :=
  foldM (fun out i =>
    x <- get p i ;; y <- get q i ;; v <- add x y ;; v <- mul v (T 1 0 2) ;;
    if negb (i =? 0) then t <- name (tmp2 out) ;; Ok (t ++ [v]) else Ok [v]) [] (seq 0 6).
End Scalars.

Definition det_matrix := det_matrix_ add mul None.
Definition ddet_matrix := det_matrix_ dadd dmul None.
Definition middle_position := middle_position_ add mul (fun _ => None).
Definition dmiddle_position := middle_position_ dadd dmul (fun _ => None).

(** A Python value passed where an array is expected: an array or a function. *)
Inductive value := VArray (a : arr) | VFunction (f : arr -> vec -> res (option arr)).
(** ico2/utils.py:161-196 begins with vts.ndim; functions have no such attribute. *)
Definition remove_doubling_of (v : value) : res vecs :=
  match v with VArray a => remove_doubling_in_perp_space a | VFunction _ => Raise AttributeError end.
(** ico2/symmetry.py:112-114: a is the function, not its result *)
Definition generator_equivalent_vectors (vs : arr) (centre : vec) : res vecs :=
  let a := VFunction generator_obj_symmetric_obj in remove_doubling_of a.

(** ico2/intsct.py:243-286: check_intersection_two_segment_numerical is not imported. *)
Definition intersection_two_segment (check : option (vecs -> vecs -> res nat)) (s1 s2 : vecs) : res (option vec) :=
  f <- name check ;; flg <- f s1 s2 ;;
  if negb (flg =? 3) then
    b <- get s1 1 ;; a <- get s1 0 ;; vec6AB <- sub_vectors b a ;; vecAB <- projection3 vec6AB ;;
    d <- get s2 1 ;; c <- get s2 0 ;; cd6 <- sub_vectors d c ;; vecCD <- projection3 cd6 ;;
    ca6 <- sub_vectors a c ;; vecCA <- projection3 ca6 ;;
    ab0 <- get vecAB 0 ;; cd1 <- get vecCD 1 ;; tmp1 <- mul ab0 cd1 ;;
    cd0 <- get vecCD 0 ;; ab1 <- get vecAB 1 ;; tmp2 <- mul cd0 ab1 ;; bunbo <- sub tmp1 tmp2 ;;
    ca1 <- get vecCA 1 ;; tmp1 <- mul cd0 ca1 ;;
    ca0 <- get vecCA 0 ;; tmp2 <- mul ca0 cd1 ;; tmp1 <- sub tmp1 tmp2 ;;
    s <- div tmp1 bunbo ;; s <- notNone s ;;
    tmp <- mul_vector_ mul vec6AB s ;; r <- add_vectors a tmp ;; Ok (Some r)
  else Ok None.

Section Numbers.
Variable N : num.

(** ico2/utils.py:938-961.  np.stack(tmp,line_segment) passes an array as axis:
    TypeError.  Iterating over None: TypeError. *)
Fixpoint try_merge (common line : vecs) (vs : vecs) : res (option vecs) :=
  match vs with
  | [] => Ok None
  | v :: vs => on <- point_on_segment N v line ;;
      if on then let tmp := remove_vector common v in Raise TypeError else try_merge common line vs
  end.
Definition merge_two_tetrahedra (t1 t2 : vecs) : res (option vecs) :=
  c <- check_connectivity_tetrahedra t1 t2 ;;
  if c then
    let vtx1 := remove_vectors t1 t2 in
    let vtx2 := remove_vectors t2 t1 in
    common <- get_common_triangle_in_two_tetrahedra t1 t2 ;; common <- notNone common ;;
    try_merge common (vtx1 ++ vtx2) common
  else Ok None.

(** numericalc.py:163-175 applied to a (3,3) array: row 0 + row 1 * TAU over row 2, an
    array; [ftau] is TAU of ico2, the value does not matter here. *)
Definition row (t : tau) : list (F N) := [fZ N (ta t); fZ N (tb t); fZ N (tc t)].
Definition numeric_value_array (a : vec) : res (list (F N)) :=
  r0 <- get a 0 ;; r1 <- get a 1 ;; r2 <- get a 2 ;;
  Ok (map (fun '(x, (y, z)) => fdiv N (fadd N x (fmul N y (ftau N))) z) (combine (row r0) (combine (row r1) (row r2)))).
(** '%8.6f' % a for an array: only arrays of size 1 convert to a float. *)
Definition as_float (a : list (F N)) : res (F N) := match a with [x] => Ok x | _ => Raise TypeError end.
(** write_xyz_smpl of ico2/occupation_domain.py:1277-1294 (dode2: 1257-1274): the data
    lines it can write, given the projection and the formatting. *)
Definition write_xyz_smpl (proj : vec -> res vec) (show : F N -> vec -> list nat) (a : vecs) : res (list (list nat)) :=
  mapM (fun v => xyz <- proj v ;; n <- numeric_value_array xyz ;; x <- as_float n ;; Ok (show x v)) a.
(** ico2/occupation_domain.py:1261-1300, dode2/occupation_domain.py:1241-1280 *)
Definition simple_hand_step1_ (dedup : arr -> res vecs) proj show (o : arr) : res vecs :=
  od1a <- dedup o ;; _ <- write_xyz_smpl proj show od1a ;; Ok od1a.
Definition simple_hand_step1 := simple_hand_step1_ remove_doubling_in_perp_space projection3.
Definition dsimple_hand_step1 := simple_hand_step1_ dremove_doubling_in_perp_space dprojection3.

(** Indexing with a possibly negative index. *)
Definition pyitem {A} (l : list A) (i : Z) : res A :=
  if (0 <=? i)%Z then get l (Z.to_nat i)
  else if (0 <=? i + Z.of_nat (length l))%Z then get l (Z.to_nat (i + Z.of_nat (length l))) else Raise IndexError.
(** ico2/occupation_domain.py:1302-1335, dode2/occupation_domain.py:1282-1315.
    [tetra]: the attribute tetrahedralization_points of intsct.  Simplification: a
    triangulation that is None makes np.vstack raise ValueError (only the last one if
    it is also the first is returned, as the array None). *)
Definition pick_points (o : vecs) (l : list Z) : res vecs :=
  match l with [] => Raise IndexError | _ => mapM (fun i => pyitem o (i - 1)) l end.
Definition simple_hand_step2_ (tetra : option (vecs -> res (option obj4))) (o : vecs) (merge_list : list (list Z)) : res (option obj4) :=
  match merge_list with
  | [] => Raise UnboundLocalError
  | l :: ls =>
      p <- pick_points o l ;; f <- attribute tetra ;; od1 <- f p ;;
      foldM (fun od1 l =>
        p <- pick_points o l ;; f <- attribute tetra ;; od2 <- f p ;;
        match od1, od2 with Some a, Some b => Ok (Some (a ++ b)) | _, _ => Raise ValueError end) od1 ls
  end.
(** ico2: intsct imports the name; dode2: it does not. *)
Definition simple_hand_step2 delaunay := simple_hand_step2_ (Some (tetrahedralization_points N delaunay)).
Definition dsimple_hand_step2 := simple_hand_step2_ None.

(** ico2/occupation_domain.py:1337-1530, up to line 1433, where projection_numerical
    (one parameter, numericalc.py:594) is called with six.  For the centrings 'i' and
    'f' generator_equivalent_vec (two parameters) is called with one.  The order of the
    translations is not recorded. *)
Inductive centering := CI | CF | COther.
Definition numeric_components (pos : vec) : res (list (F N)) :=
  mapM (fun i => t <- get pos i ;; Ok (fdiv N (fadd N (fZ N (ta t)) (fmul N (ftau N) (fZ N (tb t)))) (fZ N (tc t)))) (seq 0 6).
Definition site_symmetry_translations (c : centering) : res (list (list Z)) :=
  match c with
  | CI | CF => Raise TypeError
  | COther => Ok ([0;0;0;0;0;0]%Z :: fold_right (fun _ acc => flat_map (fun r => map (fun i => i :: r) [-1;0;1]%Z) acc) [[]] (seq 0 6))
  end.
Definition ico_site_symmetry (proj : F N -> res (list (F N)))
  (rest : list (list (list Z)) -> list (list Z) -> list (F N) -> list (F N) -> res (list nat * list nat)) (pos : vec) (c : centering) :=
  let symop := icosasymop in
  traop <- site_symmetry_translations c ;;
  xyz <- numeric_components pos ;;
  xyzi <- call1 proj xyz ;;
  rest symop traop xyz xyzi.

(** dode2/numericalc.py:499-517: the loop variable is called tetrahedron, the body
    uses triangle. *)
Definition dinside_outside_obj (inside : list (F N) -> list (list (F N)) -> bool) (triangle : option (list (list (F N))))
  (point : list (F N)) (o : list (list (list (F N)))) : res bool :=
  let fix loop o := match o with
    | [] => Ok 0
    | _ :: o => t <- name triangle ;; if inside point t then Ok 1 else loop o
    end in
  flg <- loop o ;; Ok (flg =? 0).
(** dode2/numericalc.py:489-497: [ln] is not defined. *)
Definition dinside_outside_obj_tau inside triangle (ln : option (list (F N))) (internal : list (F N) -> list (F N))
  (point : vec) (o : obj4) : res bool :=
  let p := dnumerical_vector N point in
  let q := map (map (dnumerical_vector N)) o in
  l <- name ln ;;
  dinside_outside_obj inside triangle (internal l) (map (map internal) q).
End Numbers.

(** dode2/occupation_domain.py:1122-1137: utils has no generator_surface_1. *)
Definition dgenerate_border_edges (surface : option (obj4 -> res (option obj4))) (clean : option obj4 -> res (option obj4)) (o : obj4) : res (option obj4) :=
  f <- attribute surface ;; s <- f o ;; clean s.
