(** The accuracy asked of np.dot and np.linalg.det in the binary64 theorems: C108. *)
From Coq Require Import Reals List ZArith Permutation.
From Flocq Require Import IEEE754.Binary IEEE754.Bits.
From Verif Require Import Base.Res Model.Tau Model.Num Model.IcoNumeric Model.LinAlg Model.Lapack
  Spec.LinAlg Spec.Lapack Spec.Space Spec.Tetra Spec.IcoSpec Spec.Sets Spec.Samples Spec.Overlap Spec.Convex Spec.Float.
Import ListNotations.
Local Open Scope R_scope.
From Verif Require Import Proofs.P_LinAlg.
Import ListNotations.
Local Open Scope R_scope.

(** C108: adding the three products in any order, with or without fused multiply-adds, gives
    a scalar product within the bounds ... *)
Theorem C108_dot : forall p, Permutation (uses p) [0; 1; 2]%nat -> dot_ok (run p).
Proof. exact L_C108_dot. Qed.
Print Assumptions C108_dot.

(** ... and so does the textbook determinant, with the scalar product taken left to right. *)
Theorem C108_textbook : linalg_ok textbook.
Proof. exact L_C108_textbook. Qed.
Print Assumptions C108_textbook.

(** C108: what numpy computes as a determinant, the exponential of the sum of the logarithms of
    LAPACK's pivots with the sign counted apart, is within the bounds as soon as the factors,
    the logarithm and the exponential are as accurate as their libraries promise ... *)
Theorem C108_numpy_det : forall lg ex g, log_ok lg -> exp_ok ex -> getrf_ok g -> det_ok (det_numpy lg ex g).
Proof. exact L_C108_numpy_det. Qed.
Print Assumptions C108_numpy_det.

(** ... and elimination with partial pivoting is: dividing by the pivot or multiplying by its
    reciprocal, with or without fused multiply-adds, right- or left-looking. *)
Theorem C108_getrf : forall recip fused late, getrf_ok (getrf recip fused late).
Proof. exact L_C108_getrf. Qed.
Print Assumptions C108_getrf.

(** C108: so numpy's np.dot and np.linalg.det together are within the bounds. *)
Theorem C108_numpy : forall p lg ex recip fused late, Permutation (uses p) [0; 1; 2]%nat -> log_ok lg -> exp_ok ex ->
  linalg_ok (mkLinalg (run p) (det_numpy lg ex (getrf recip fused late))).
Proof. exact L_C108_numpy. Qed.
Print Assumptions C108_numpy.

(** Logarithms and exponentials that accurate exist (the correctly rounded ones); rows
    interchanged at both steps: the second row gives the first pivot, then the third. *)
Example C108_numpy_ex : (exists lg ex, log_ok lg /\ exp_ok ex) /\
  let f := getrf true false true (B64 1, B64 2, B64 3) (B64 7, B64 8, B64 10) (B64 4, B64 9, B64 6) in
  ipiv1 f = 2%nat /\ ipiv2 f = 3%nat /\ bits_of_b64 (u11 f) = bits_of_b64 (B64 7).
Proof. exact E_C108_numpy_ex. Qed.

(** C108: whatever the accuracy of la and la', two installations within the bounds give the
    same answer to the test of a point in a tetrahedron, unless the point is off by a barycentric
    weight smaller than 1e-6. *)
Theorem C108_same_inside : forall la la', linalg_ok la -> linalg_ok la' ->
  forall A D v t ws, tame A D (v :: t) -> length t = 4%nat -> plump A D t ->
  bary ws (map pp t) (pp v) -> (forall w, In w ws -> 0 <= w \/ w <= - (1/1000000)) ->
  inside_outside_tetrahedron_tau (@Bmath la) v t = inside_outside_tetrahedron_tau (@Bmath la') v t.
Proof. exact L_C108_same_inside. Qed.
Print Assumptions C108_same_inside.

(** C108 fails beyond these bounds: the order of the additions does change the number np.dot
    returns, so equality of the numbers themselves is not portable. *)
Theorem C108_order_refuted : exists p q l m, Permutation (uses p) [0; 1; 2]%nat /\ Permutation (uses q) [0; 1; 2]%nat /\
  length l = 3%nat /\ length m = 3%nat /\ run p l m <> run q l m.
Proof. exact L_C108_order_refuted. Qed.
Print Assumptions C108_order_refuted.

(** Fused multiply-adds from the last product backwards; the vectors (1, 2, 3) and (4, 5, 6). *)
Example C108_ex : let p := Fma 0 (Fma 1 (Prod 2)) in Permutation (uses p) [0; 1; 2]%nat /\
  row_le 6 (B64 1, B64 2, B64 3) /\ row_le 6 (B64 4, B64 5, B64 6) /\ bits_of_b64 (run p (map B64 [1; 2; 3]%Z) (map B64 [4; 5; 6]%Z)) = bits_of_b64 (B64 32).
Proof. exact E_C108_ex. Qed.
