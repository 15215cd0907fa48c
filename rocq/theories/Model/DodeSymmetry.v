(** dode2/symmetry.py *)
From Coq Require Import List ZArith Bool Arith.
From Verif Require Import Base.Res Model.Tau Model.Arr Model.Unique Model.Num Model.DodeScalar Model.Vectors Model.IcoMath1
  Model.DodeMath1 Model.DodeNumeric.
Import ListNotations.
Local Open Scope Z_scope.
Local Open Scope res_scope.

(** dode2/symmetry.py:140-152: twelve-fold rotation and mirror *)
Definition dm1 : list (list Z) :=
  [[ 0; 1; 0; 0; 0; 0];
   [ 0; 0; 1; 0; 0; 0];
   [ 0; 0; 0; 1; 0; 0];
   [-1; 0; 1; 0; 0; 0];
   [ 0; 0; 0; 0; 1; 0];
   [ 0; 0; 0; 0; 0; 1]].
Definition dm2 : list (list Z) :=
  [[ 0; 0; 0; 1; 0; 0];
   [ 0; 0; 1; 0; 0; 0];
   [ 0; 1; 0; 0; 0; 0];
   [ 1; 0; 0; 0; 0; 0];
   [ 0; 0; 0; 0; 1; 0];
   [ 0; 0; 0; 0; 0; 1]].

(** dode2/symmetry.py:136-161; matrixpow is dode2/math1.py:618-638, the same text as
    in ico2.  np.dot of (float) matrices with integer entries is modelled over Z. *)
Definition dodesymop : list (list (list Z)) :=
  flat_map (fun i1 =>
  map (fun i2 =>
    let s1 := matrixpow dm1 i2 in
    let s2 := matrixpow dm2 i1 in
    matmul s2 s1)
  (seq 0 12)) (seq 0 2).

Definition dsymop_vec := symop_vec_ dadd dmul.                  (* dode2/symmetry.py:59-64 *)
Definition dsymop_vecs := symop_vecs_ dadd dmul.                (* dode2/symmetry.py:48-57 *)
Definition dsymop_obj := symop_obj_ dadd dmul.                  (* dode2/symmetry.py:28-46 *)

(** dode2/symmetry.py:66-86, 88-91, 119-122 *)
Definition dgenerator_obj_symmetric_obj (o : arr) (centre : vec) : res (option arr) :=
  generator_obj_symmetric_obj_ dadd dmul dodesymop o centre.

(** dode2/symmetry.py:113-117 *)
Definition dgenerator_obj_symmetric_triangle_0 (o : arr) (centre : vec) (i : Z) :=
  op <- getz dodesymop i ;; dsymop_obj op o centre.

(** dode2/symmetry.py:163-165 *)
Definition dgenerator_symmetric_vec_0 (v centre : vec) (i : Z) : res vec :=
  op <- getz dodesymop i ;; dsymop_vec op v centre.

(** dode2/symmetry.py:96-111: on 3-d and 4-d arrays the name
    index_of_symmetry_operation is undefined. *)
Definition dgenerator_obj_symmetric_triangle_specific_symop
    (o : arr) (centre : vec) (l : list nat) : res (option arr) :=
  match o with
  | A3 _ | A4 _ => Raise NameError
  | _ => Ok None
  end.

(** dode2/symmetry.py:124-128: the function object itself is passed on;
    remove_doubling_in_perp_space reads .ndim of a function. *)
Definition dgenerator_equivalent_vectors (vs : arr) (centre : vec) : res (option vecs) :=
  Raise AttributeError.

(** dode2/symmetry.py:167-190: the zero translation first, then all of them with
    components in -1,0,1 (four of them for ndim 4, otherwise five). *)
Definition lst3 : list Z := [-1; 0; 1].
Definition tint (i : Z) : tau := T i 0 1.
Definition translation (ndim : Z) : list vec :=
  [t0; t0; t0; t0; t0; t0] ::
  (if ndim =? 4 then
     flat_map (fun i1 => flat_map (fun i2 => flat_map (fun i3 => map (fun i4 =>
       [tint i1; tint i2; tint i3; tint i4; t0; t0]) lst3) lst3) lst3) lst3
   else
     flat_map (fun i1 => flat_map (fun i2 => flat_map (fun i3 => flat_map (fun i4 => map (fun i5 =>
       [tint i1; tint i2; tint i3; tint i4; tint i5; t0]) lst3) lst3) lst3) lst3) lst3).

(** dode2/symmetry.py:434-447: list(set(l1)) sorted *)
Definition remove_overlaps (l : list nat) : list nat := unique Nat.compare l.

(** dode2/symmetry.py:449-464 *)
Definition find_overlaps (l1 l2 : list nat) : bool :=
  let l3 := remove_overlaps (l1 ++ l2) in
  if (length l1 + length l2 =? length l3)%nat then false else true.

Section Site.
Variable N : num.

(** dode2/symmetry.py:217-224 (and 357-365): first translation that brings the
    image back on the site; EPS=1e-6 (line 25). *)
Fixpoint some_translation (site site1 : vec) (traop : list vec) : res bool :=
  match traop with
  | [] => Ok false
  | top :: r =>
      site2 <- dadd_vectors site1 top ;;
      tmp <- dsub_vectors site site2 ;;
      if flt N (dlength_numerical N tmp) (EPS N) then Ok true
      else some_translation site site1 r
  end.

Definition V0 : vec := [t0; t0; t0; t0; t0; t0].

(** dode2/symmetry.py:212-225: the loop over enumerate(symop), from index i *)
Fixpoint site_loop (site : vec) (traop : list vec) (i : nat) (ops : list (list (list Z))) : res (list nat) :=
  match ops with
  | [] => Ok []
  | op :: r =>
      site1 <- dsymop_vec op site V0 ;;
      b <- some_translation site site1 traop ;;
      l <- site_loop site traop (S i) r ;;
      Ok (if b then i :: l else l)
  end.

(** dode2/symmetry.py:194-225 *)
Definition site_symmetry (site : vec) (ndim : Z) : res (list nat) :=
  l <- site_loop site (translation ndim) 0 dodesymop ;;
  Ok (remove_overlaps l).

(** dode2/symmetry.py:246-254: index of a product in symop; nothing is appended
    when the product is not in the list. *)
Definition zrow_eqb (a b : list Z) : bool := (length a =? length b)%nat && forallb (fun '(x, y) => x =? y) (combine a b).
Definition zmat_eqb (a b : list (list Z)) : bool :=
  (length a =? length b)%nat && forallb (fun '(x, y) => zrow_eqb x y) (combine a b).
Fixpoint find_op (m : list (list Z)) (i : nat) (ops : list (list (list Z))) : option nat :=
  match ops with
  | [] => None
  | op :: r => if zmat_eqb m op then Some i else find_op m (S i) r
  end.
Fixpoint coset_row (op2 : list (list Z)) (list1 : list nat) : res (list nat) :=
  match list1 with
  | [] => Ok []
  | i1 :: r =>
      op1 <- get dodesymop i1 ;;
      l <- coset_row op2 r ;;
      Ok (match find_op (matmul op2 op1) 0 dodesymop with Some i3 => i3 :: l | None => l end)
  end.
Definition coset_rows (list1 list2 : list nat) : res (list (list nat)) :=
  mapM (fun i2 => op <- get dodesymop i2 ;; coset_row op list1) list2.

(** dode2/symmetry.py:263-279: the while loop over i3; rest pairs list2_new[i3] with
    list4[i3].  a is list4[i2]. *)
Fixpoint greedy (a d : list nat) (list5 : list nat) (rest : list (nat * list nat)) : list nat :=
  match rest with
  | [] => list5
  | (i, b) :: r =>
      if (length d =? 0)%nat then
        if find_overlaps a b then greedy a d list5 r
        else greedy a (a ++ b) (list5 ++ [i]) r
      else
        if find_overlaps d b then greedy a d list5 r
        else greedy a (d ++ b) (list5 ++ [i]) r
  end.

(** dode2/symmetry.py:256-285: for i2 in range(len(list4)-1), with break.  None is
    the unbound list5 (no iteration at all). *)
Fixpoint coset_loop (n1 : nat) (last : option (list nat)) (rest : list (nat * list nat)) : option (list nat) :=
  match rest with
  | [] => last
  | [_] => last
  | (i, a) :: r =>
      let list5 := greedy a [] [0%nat; i] r in
      if (length dodesymop =? length list5 * n1)%nat then Some list5
      else coset_loop n1 (Some list5) r
  end.

(** dode2/symmetry.py:232-287, given list1.  range(len(symop)) minus list1, as a set;
    remove_overlaps sorts it. *)
Definition coset_of (list1 : list nat) : res (list nat) :=
  let list2 := filter (fun i => negb (existsb (Nat.eqb i) list1)) (seq 0 (length dodesymop)) in
  let list2_new := remove_overlaps list2 in
  if (length dodesymop =? length list1)%nat then Ok [0%nat]
  else
    list4 <- coset_rows list1 list2_new ;;
    match coset_loop (length list1) None (combine list2_new list4) with
    | Some l => Ok l
    | None => Raise UnboundLocalError
    end.

(** dode2/symmetry.py:227-287 *)
Definition coset (site : vec) (ndim : Z) : res (list nat) :=
  list1 <- site_symmetry site ndim ;; coset_of list1.

(** dode2/symmetry.py:289-427 with verbose=0 (the verbose branch only prints);
    list2 collects the indices for which no translation was found, in order. *)
Fixpoint site_split (site : vec) (traop : list vec) (i : nat) (ops : list (list (list Z)))
    : res (list nat * list nat) :=
  match ops with
  | [] => Ok ([], [])
  | op :: r =>
      site1 <- dsymop_vec op site V0 ;;
      b <- some_translation site site1 traop ;;
      l <- site_split site traop (S i) r ;;
      Ok (if b then (i :: fst l, snd l) else (fst l, i :: snd l))
  end.
Definition site_symmetry_and_coset (site : vec) (ndim : Z) : res (list nat * list nat) :=
  l <- site_split site (translation ndim) 0 dodesymop ;;
  let list1_new := remove_overlaps (fst l) in
  let list2_new := remove_overlaps (snd l) in
  if (length dodesymop =? length list1_new)%nat then Ok (list1_new, [0%nat])
  else
    list4 <- coset_rows list1_new list2_new ;;
    match coset_loop (length list1_new) None (combine list2_new list4) with
    | Some l => Ok (list1_new, l)
    | None => Raise UnboundLocalError
    end.
End Site.

(** dode2/symmetry.py:492-521, the two matrices (before .T) *)
Definition sim_pos : list (list Z) :=
  [[ 1; 0; 0;-1; 0; 0];
   [ 1; 1; 0; 0; 0; 0];
   [ 0; 1; 1; 1; 0; 0];
   [ 0; 0; 1; 1; 0; 0];
   [ 0; 0; 0; 0; 1; 0];
   [ 0; 0; 0; 0; 0; 1]].
Definition sim_neg : list (list Z) :=
  [[ 0; 1;-1; 1; 0; 0];
   [ 0; 0; 1;-1; 0; 0];
   [ 1;-1; 1; 0; 0; 0];
   [-1; 1;-1; 1; 0; 0];
   [ 0; 0; 0; 0; 1; 0];
   [ 0; 0; 0; 0; 0; 1]].
(** ndarray.T of a matrix *)
Definition transp (m : list (list Z)) : list (list Z) :=
  map (fun j => map (fun r => nth j r 0) m) (seq 0 (ncols m)).

(** dode2/symmetry.py:492-521 *)
Definition similarity (m : Z) : list (list Z) :=
  if 0 <? m then matrixpow (transp sim_pos) (Z.to_nat m)
  else if m <? 0 then matrixpow (transp sim_neg) (Z.to_nat (- m))
  else identity 6.

(** dode2/symmetry.py:485-490, 477-483, 469-475.  dot_product_1 returns None for a
    vector that has not six components; assigning None to a row of an int64 array
    raises TypeError. *)
Definition similarity_vec (vt : vec) (m : Z) : res (option vec) := ddot_product_1 (similarity m) vt.
Definition similarity_triangle (t : vecs) (m : Z) : res vecs :=
  mapM (fun vt => r <- similarity_vec vt m ;; notNone r) t.
Definition similarity_obj (o : obj4) (m : Z) : res obj4 := mapM (fun t => similarity_triangle t m) o.

(** dode2/occupation_domain.py:25-47 and 49-70 *)
Definition dsymmetric (o : arr) (centre : vec) : res (option arr) :=
  match o with
  | A3 _ | A4 _ => dgenerator_obj_symmetric_obj o centre
  | _ => Ok None
  end.
Definition dsymmetric_0 (o : arr) (centre : vec) (i : Z) : res (option arr) :=
  match o with
  | A3 _ | A4 _ => dgenerator_obj_symmetric_triangle_0 o centre i
  | _ => Ok None
  end.
