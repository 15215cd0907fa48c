(** The accuracy asked of np.dot and np.linalg.det in the binary64 theorems: C108. *)
From Coq Require Import Reals List ZArith Permutation.
From Flocq Require Import IEEE754.Binary IEEE754.Bits.
From Verif Require Import Base.Res Model.Tau Model.Num Model.IcoNumeric Model.LinAlg Model.Lapack
  Spec.LinAlg Spec.Lapack Spec.Space Spec.Tetra Spec.IcoSpec Spec.Sets Spec.Samples Spec.Overlap Spec.Convex Spec.Float.
Import ListNotations.
Local Open Scope R_scope.

From Coq Require Import Lra Lia.
From Flocq Require Import Core.
From Verif Require Import Proofs.LinAlgLemmas Proofs.DetLemmas Proofs.GetrfLemmas Proofs.CorrectRounding Proofs.P_Float.

(** C108: adding the three products in any order, with or without fused multiply-adds, gives
    a scalar product within the bounds ... *)
Lemma L_C108_dot : forall p, Permutation (uses p) [0; 1; 2]%nat -> dot_ok (run p).
Proof. exact plan_ok. Qed.
(** ... and so does the textbook determinant, with the scalar product taken left to right. *)
Lemma L_C108_textbook : linalg_ok textbook.
Proof. exact textbook_ok. Qed.
(** C108: what numpy computes as a determinant, the exponential of the sum of the logarithms of
    LAPACK's pivots with the sign counted apart, is within the bounds as soon as the factors,
    the logarithm and the exponential are as accurate as their libraries promise ... *)
Lemma L_C108_numpy_det : forall lg ex g, log_ok lg -> exp_ok ex -> getrf_ok g -> det_ok (det_numpy lg ex g).
Proof. exact det_numpy_ok. Qed.
(** ... and elimination with partial pivoting is: dividing by the pivot or multiplying by its
    reciprocal, with or without fused multiply-adds, right- or left-looking. *)
Lemma L_C108_getrf : forall recip fused late, getrf_ok (getrf recip fused late).
Proof. exact getrf_accurate. Qed.
(** C108: so numpy's np.dot and np.linalg.det together are within the bounds. *)
Lemma L_C108_numpy : forall p lg ex recip fused late, Permutation (uses p) [0; 1; 2]%nat -> log_ok lg -> exp_ok ex ->
  linalg_ok (mkLinalg (run p) (det_numpy lg ex (getrf recip fused late))).
Proof. intros p lg ex recip fused late Hp HL HE. split; [exact (plan_ok p Hp)|exact (det_numpy_ok lg ex _ HL HE (getrf_accurate recip fused late))]. Qed.
(** Logarithms and exponentials that accurate exist (the correctly rounded ones); rows
    interchanged at both steps: the second row gives the first pivot, then the third. *)
Example E_C108_numpy_ex : (exists lg ex, log_ok lg /\ exp_ok ex) /\
  let f := getrf true false true (B64 1, B64 2, B64 3) (B64 7, B64 8, B64 10) (B64 4, B64 9, B64 6) in
  ipiv1 f = 2%nat /\ ipiv2 f = 3%nat /\ bits_of_b64 (u11 f) = bits_of_b64 (B64 7).
Proof. split; [exists (fun x => of_R (ln (v64 x))), (fun x => of_R (exp (v64 x))); split; [exact log_cr|exact exp_cr]|]. vm_compute. split; [reflexivity|]. split; reflexivity. Qed.
(** C108: whatever the accuracy of la and la', two installations within the bounds give the
    same answer to the test of a point in a tetrahedron, unless the point is off by a barycentric
    weight smaller than 1e-6. *)
Lemma L_C108_same_inside : forall la la', linalg_ok la -> linalg_ok la' ->
  forall A D v t ws, tame A D (v :: t) -> length t = 4%nat -> plump A D t ->
  bary ws (map pp t) (pp v) -> (forall w, In w ws -> 0 <= w \/ w <= - (1/1000000)) ->
  inside_outside_tetrahedron_tau (@Bmath la) v t = inside_outside_tetrahedron_tau (@Bmath la') v t.
Proof.
  intros la la' LA LA' A D v t ws Ht L Pl B C.
  destruct (Forall_Exists_dec (fun w => 0 <= w) (fun w => Rle_dec 0 w) ws) as [P|P].
  - assert (H : hull (map pp t) (pp v)) by (destruct B as (B1 & B2 & B3); exists ws; repeat split; assumption).
    rewrite (L_C93_inside la LA A D v t Ht L Pl H), (L_C93_inside la' LA' A D v t Ht L Pl H). reflexivity.
  - apply Exists_exists in P. destruct P as (w & I & N). destruct (C w I) as [Q|Q]; [contradiction|].
    rewrite (L_C93_outside la LA A D v t ws w Ht L Pl B I Q), (L_C93_outside la' LA' A D v t ws w Ht L Pl B I Q). reflexivity.
Qed.
(** C108 fails beyond these bounds: the order of the additions does change the number np.dot
    returns, so equality of the numbers themselves is not portable. *)
Lemma L_C108_order_refuted : exists p q l m, Permutation (uses p) [0; 1; 2]%nat /\ Permutation (uses q) [0; 1; 2]%nat /\
  length l = 3%nat /\ length m = 3%nat /\ run p l m <> run q l m.
Proof.
  exists (Sum (Sum (Prod 0) (Prod 1)) (Prod 2)), (Sum (Prod 0) (Sum (Prod 1) (Prod 2))), (map B64 [2^53; 1; 1])%Z, (map B64 [1; 1; 1])%Z.
  split; [reflexivity|]. split; [reflexivity|]. split; [reflexivity|]. split; [reflexivity|]. intros E.
  apply (f_equal (fun x => bits_of_b64 x)) in E. vm_compute in E. discriminate E.
Qed.
(** Fused multiply-adds from the last product backwards; the vectors (1, 2, 3) and (4, 5, 6). *)
Example E_C108_ex : let p := Fma 0 (Fma 1 (Prod 2)) in Permutation (uses p) [0; 1; 2]%nat /\
  row_le 6 (B64 1, B64 2, B64 3) /\ row_le 6 (B64 4, B64 5, B64 6) /\ bits_of_b64 (run p (map B64 [1; 2; 3]%Z) (map B64 [4; 5; 6]%Z)) = bits_of_b64 (B64 32).
Proof.
  cbv zeta. split; [reflexivity|]. assert (R6 : forall z, (Z.abs z <= 6)%Z -> fin_le 6 (B64 z)).
  { intros z Hz. destruct (MachineLemmas.f64_exact z ltac:(lia)) as [V Fz]. split; [exact Fz|]. change (B64 z) with (Machine.f64 z). rewrite V, <- abs_IZR. apply IZR_le. exact Hz. }
  split; [split; [|split]; apply R6; lia|]. split; [split; [|split]; apply R6; lia|]. vm_compute. reflexivity.
Qed.
