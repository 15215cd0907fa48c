(** ico2/symmetry.py *)
From Coq Require Import List ZArith.
From Verif Require Import Base.Res Model.Tau Model.Arr Model.IcoScalar Model.Vectors Model.IcoMath1.
Import ListNotations.
Local Open Scope Z_scope.
Local Open Scope res_scope.

(** ico2/symmetry.py:122-155, the five generators *)
Definition sm1 : list (list Z) :=
  [[ 1; 0; 0; 0; 0; 0];
   [ 0; 0; 1; 0; 0; 0];
   [ 0; 0; 0; 1; 0; 0];
   [ 0; 0; 0; 0; 1; 0];
   [ 0; 0; 0; 0; 0; 1];
   [ 0; 1; 0; 0; 0; 0]].
Definition sm2 : list (list Z) :=
  [[-1; 0; 0; 0; 0; 0];
   [ 0;-1; 0; 0; 0; 0];
   [ 0; 0; 0; 0; 0;-1];
   [ 0; 0; 0; 0;-1; 0];
   [ 0; 0; 0;-1; 0; 0];
   [ 0; 0;-1; 0; 0; 0]].
Definition sm3 : list (list Z) :=
  [[ 0; 0; 0; 0; 0;-1];
   [ 0;-1; 0; 0; 0; 0];
   [ 0; 0; 0; 1; 0; 0];
   [ 0; 0; 1; 0; 0; 0];
   [ 0; 0; 0; 0;-1; 0];
   [-1; 0; 0; 0; 0; 0]].
Definition sm4 : list (list Z) :=
  [[ 0; 1; 0; 0; 0; 0];
   [ 0; 0; 1; 0; 0; 0];
   [ 1; 0; 0; 0; 0; 0];
   [ 0; 0; 0; 0; 0; 1];
   [ 0; 0; 0;-1; 0; 0];
   [ 0; 0; 0; 0;-1; 0]].
Definition sm5 : list (list Z) :=
  [[-1; 0; 0; 0; 0; 0];
   [ 0;-1; 0; 0; 0; 0];
   [ 0; 0;-1; 0; 0; 0];
   [ 0; 0; 0;-1; 0; 0];
   [ 0; 0; 0; 0;-1; 0];
   [ 0; 0; 0; 0; 0;-1]].

(** ico2/symmetry.py:156-172: nested loops m<2, l<3, k<2, j<2, i<5, innermost i.
    np.dot of (float) matrices with integer entries is modelled over Z. *)
Definition icosasymop : list (list (list Z)) :=
  flat_map (fun m =>
  flat_map (fun l =>
  flat_map (fun k =>
  flat_map (fun j =>
  map (fun i =>
    let s1 := matrixpow sm1 i in
    let s2 := matrixpow sm2 j in
    let s3 := matrixpow sm3 k in
    let s4 := matrixpow sm4 l in
    let s5 := matrixpow sm5 m in
    matmul (matmul (matmul (matmul s5 s4) s3) s2) s1)
  (seq 0 5)) (seq 0 2)) (seq 0 2)) (seq 0 3)) (seq 0 2).

Definition symop_vec := symop_vec_ add mul.                  (* ico2/symmetry.py:51-57 *)
Definition symop_vecs := symop_vecs_ add mul.                (* ico2/symmetry.py:40-49 *)
Definition symop_obj := symop_obj_ add mul.                  (* ico2/symmetry.py:20-38 *)

(** ico2/symmetry.py:63-82, 84-88 *)
Definition generator_obj_symmetric_obj (o : arr) (centre : vec) : res (option arr) :=
  generator_obj_symmetric_obj_ add mul icosasymop o centre.

(** ico2/symmetry.py:105-107 *)
Definition generator_obj_symmetric_tetrahedron_0 (o : arr) (centre : vec) (i : Z) :=
  op <- getz icosasymop i ;; symop_obj op o centre.

(** ico2/symmetry.py:90-103: on 3-d and 4-d arrays the name
    index_of_symmetry_operation is undefined. *)
Definition generator_obj_symmetric_tetrahedron_specific_symop
    (o : arr) (centre : vec) (l : list nat) : res (option arr) :=
  match o with
  | A3 _ | A4 _ => Raise NameError
  | _ => Ok None
  end.

(** ico2/symmetry.py:112-114: the function object itself is passed on;
    remove_doubling_in_perp_space reads .ndim of a function. *)
Definition generator_equivalent_vectors (vs : arr) (centre : vec) : res (option vecs) :=
  Raise AttributeError.
