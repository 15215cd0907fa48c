(** ico2/math1.py with its own scalar arithmetic. *)
From Coq Require Import List ZArith.
From Verif Require Import Base.Res Model.Tau Model.Arr Model.IcoScalar Model.Vectors.
Import ListNotations.
Local Open Scope res_scope.

Definition add_vectors := add_vectors_ add.               (* ico2/math1.py:138-156 *)
Definition sub_vectors := sub_vectors_ add mul.           (* ico2/math1.py:158-178 *)
Definition mul_vector := mul_vector_ mul.                 (* ico2/math1.py:180-201 *)
Definition outer_product := outer_product_ add mul.       (* ico2/math1.py:231-257 *)
Definition inner_product := inner_product_ add mul.       (* ico2/math1.py:259-283 *)
Definition dot_product_1 := dot_product_1_ add mul.       (* ico2/math1.py:341-373 *)
Definition mtrixcal := mtrixcal_ add mul.                 (* ico2/math1.py:491-525 *)
Definition centroid := centroid_ add mul.                 (* ico2/math1.py:527-551 *)
Definition centroid_obj := centroid_obj_ add mul.         (* ico2/math1.py:553-572 *)

(** Constants of ico2/math1.py:418-422 *)
Definition m0 := T 0 0 1.
Definition m1 := T 1 0 1.
Definition m2 := T (-1) 0 1.
Definition m3 := T 0 1 1.
Definition m4 := T 0 (-1) 1.

(** ico2/math1.py:403-429: returns (par,perp); the source stacks the two 3-d
    vectors in one (2,3,3) array. *)
Definition projection (vt : vec) : res (vec * vec) :=
  v1e <- mtrixcal m1 m3 m3 m0 m2 m0 vt ;;
  v2e <- mtrixcal m3 m0 m0 m1 m3 m1 vt ;;
  v3e <- mtrixcal m0 m1 m2 m4 m0 m3 vt ;;
  v1i <- mtrixcal m3 m2 m2 m0 m4 m0 vt ;;
  v2i <- mtrixcal m2 m0 m0 m3 m2 m3 vt ;;
  v3i <- mtrixcal m0 m3 m4 m1 m0 m2 vt ;;
  Ok ([v1e; v2e; v3e], [v1i; v2i; v3i]).

(** ico2/math1.py:431-458 *)
Definition projection3 (vt : vec) : res vec :=
  v1i <- mtrixcal m3 m2 m2 m0 m4 m0 vt ;;
  v2i <- mtrixcal m2 m0 m0 m3 m2 m3 vt ;;
  v3i <- mtrixcal m0 m3 m4 m1 m0 m2 vt ;;
  Ok [v1i; v2i; v3i].

(** Constants of ico2/math1.py:472-474 *)
Definition p1 := T 1 0 2.
Definition p2 := T (-1) 2 10.
Definition p3 := T 1 (-2) 10.

(** ico2/math1.py:460-481 *)
Definition projection_perp (vt : vec) : res vec :=
  h1 <- mtrixcal p1 p3 p3 p3 p3 p3 vt ;;
  h2 <- mtrixcal p3 p1 p3 p2 p2 p3 vt ;;
  h3 <- mtrixcal p3 p3 p1 p3 p2 p2 vt ;;
  h4 <- mtrixcal p3 p2 p3 p1 p3 p2 vt ;;
  h5 <- mtrixcal p3 p2 p2 p3 p1 p3 vt ;;
  h6 <- mtrixcal p3 p3 p2 p2 p3 p1 vt ;;
  Ok [h1; h2; h3; h4; h5; h6].

(** ico2/math1.py:634-654 for n >= 0 on a square matrix (integer entries):
    identity times ma, n times. *)
Definition dotrow (r : list Z) (m : list (list Z)) (j : nat) : Z :=
  fold_right Z.add 0%Z (map (fun '(x, row) => (x * nth j row 0)%Z) (combine r m)).

Definition matmul (a b : list (list Z)) : list (list Z) :=
  map (fun r => map (dotrow r b) (seq 0 (ncols b))) a.

Definition identity (n : nat) : list (list Z) :=
  map (fun i => map (fun j => if Nat.eqb i j then 1%Z else 0%Z) (seq 0 n)) (seq 0 n).

Fixpoint matrixpow (ma : list (list Z)) (n : nat) : list (list Z) :=
  match n with
  | O => identity (length ma)
  | S n' => matmul (matrixpow ma n') ma
  end.
