(** dode2/math1.py with its own scalar arithmetic. *)
From Coq Require Import List ZArith.
From Verif Require Import Base.Res Model.Tau Model.Arr Model.DodeScalar Model.Vectors.
Import ListNotations.
Local Open Scope res_scope.

Definition dadd_vectors := add_vectors_ dadd.               (* dode2/math1.py:144-162 *)
Definition dsub_vectors := sub_vectors_ dadd dmul.          (* dode2/math1.py:164-184 *)
Definition dmul_vector := mul_vector_ dmul.                 (* dode2/math1.py:186-207 *)
Definition douter_product := outer_product_ dadd dmul.      (* dode2/math1.py:237-263 *)
Definition dinner_product := inner_product_ dadd dmul.      (* dode2/math1.py:265-289 *)
Definition ddot_product_1 := dot_product_1_ dadd dmul.      (* dode2/math1.py:347-379 *)
Definition dmtrixcal := mtrixcal_ dadd dmul.                (* dode2/math1.py:483-509 *)
Definition dcentroid := centroid_ dadd dmul.                (* dode2/math1.py:511-535 *)
Definition dcentroid_obj := centroid_obj_ dadd dmul.        (* dode2/math1.py:537-556 *)

(** Constants of dode2/math1.py:423-429 *)
Definition M0 := T 0 0 1.
Definition M1 := T 1 0 1.
Definition M2 := T (-1) 0 1.
Definition M3 := T 1 0 2.
Definition M4 := T (-1) 0 2.
Definition M5 := T 0 1 1.
Definition M6 := T 0 (-1) 1.

(** dode2/math1.py:409-437: returns (par,perp); the source stacks the two 3-d
    vectors in one (2,3,3) array. *)
Definition dprojection (vt : vec) : res (vec * vec) :=
  v1e <- dmtrixcal M5 M1 M0 M4 M0 M0 vt ;;
  v2e <- dmtrixcal M4 M0 M1 M5 M0 M0 vt ;;
  v1i <- dmtrixcal M6 M1 M0 M4 M0 M0 vt ;;
  v2i <- dmtrixcal M4 M0 M1 M6 M0 M0 vt ;;
  v3e <- dmtrixcal M0 M0 M0 M0 M1 M0 vt ;;
  v3i <- dmtrixcal M0 M0 M0 M0 M0 M1 vt ;;
  Ok ([v1e; v2e; v3e], [v1i; v2i; v3i]).

(** dode2/math1.py:439-467 *)
Definition dprojection3 (vt : vec) : res vec :=
  v1i <- dmtrixcal M6 M1 M0 M4 M0 M0 vt ;;
  v2i <- dmtrixcal M4 M0 M1 M6 M0 M0 vt ;;
  v3i <- dmtrixcal M0 M0 M0 M0 M0 M1 vt ;;
  Ok [v1i; v2i; v3i].

(** dode2/math1.py:469-481: a bare return *)
Definition dprojection_perp (vt : vec) : res (option vec) := Ok None.
