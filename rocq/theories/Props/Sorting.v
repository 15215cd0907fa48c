(** Sorting of sets of vectors: C98. *)
From Coq Require Import Reals List ZArith Lia Lra Bool Permutation.
From Verif Require Import Base.Res Model.Tau Model.Arr Model.Num Model.IcoNumeric Model.DodeIntersect Model.Sorting
  Spec.Value Spec.RVec Spec.Shape Spec.IcoSpec Spec.DodeSpec Spec.Space Spec.Plane Spec.Samples Spec.Float Spec.SortSpec.
Import ListNotations.
Local Open Scope R_scope.
Local Existing Instance textbook.
From Verif Require Import Proofs.P_Sorting.
Import ListNotations.
Local Open Scope R_scope.

(** C98: whatever the arithmetic, sorting a set of 6-dimensional vectors returns the same
    vectors, each as often as it was given. *)
Theorem C98_permutes : forall N argsort vs, arranges argsort -> Forall (fun v => length v = 6%nat) vs ->
  (exists r, sort_vctors N argsort (A3 vs) = Ok r /\ Permutation r vs) /\
  (exists r, dsort_vctors N argsort (A3 vs) = Ok r /\ Permutation r vs).
Proof. exact L_C98_permutes. Qed.
Print Assumptions C98_permutes.

(** In exact arithmetic the result is in ascending order of the first perpendicular coordinate. *)
Theorem C98_sorted : forall argsort vs, arranges argsort -> orders (fle Rnum) argsort -> Forall (fun v => length v = 6%nat) vs ->
  (forall r, sort_vctors Rnum argsort (A3 vs) = Ok r ->
     forall i j v w, (i < j)%nat -> nth_error r i = Some v -> nth_error r j = Some w -> first (pp v) <= first (pp w)) /\
  (forall r, dsort_vctors Rnum argsort (A3 vs) = Ok r ->
     forall i j v w, (i < j)%nat -> nth_error r i = Some v -> nth_error r j = Some w -> first (dp v) <= first (dp w)).
Proof. exact L_C98_sorted. Qed.
Print Assumptions C98_sorted.

(** In binary64 it is in that order up to 20 A / 2^51 for coordinates of size A. *)
Theorem C98_binary64 : forall A argsort vs, 1 <= A <= 1000000 -> Forall (coefs A) vs -> arranges argsort -> orders (fle Bnum) argsort ->
  (forall r, sort_vctors Bnum argsort (A3 vs) = Ok r ->
     forall i j v w, (i < j)%nat -> nth_error r i = Some v -> nth_error r j = Some w -> first (pp v) <= first (pp w) + 20 * A / 2^51) /\
  (forall r, dsort_vctors Bnum argsort (A3 vs) = Ok r ->
     forall i j v w, (i < j)%nat -> nth_error r i = Some v -> nth_error r j = Some w -> first (dp v) <= first (dp w) + 20 * A / 2^51).
Proof. exact L_C98_binary64. Qed.
Print Assumptions C98_binary64.

(** For large coordinates the order in binary64 is wrong: two vectors whose first coordinates
    differ by more than 1/4 come in descending order, whatever the sorting algorithm. *)
Theorem C98_large_refuted : exists vs, Forall (good 6) vs /\ forall argsort, arranges argsort -> orders (fle Bnum) argsort ->
  exists v w, sort_vctors Bnum argsort (A3 vs) = Ok [v; w] /\ first (pp w) + 1/4 < first (pp v).
Proof. exact L_C98_large_refuted. Qed.
Print Assumptions C98_large_refuted.

(** A sorting algorithm as required exists, in exact arithmetic and in binary64. *)
Example C98 : arranges (argsort_of (fle Rnum)) /\ orders (fle Rnum) (argsort_of (fle Rnum)) /\ arranges (argsort_of (fle Bnum)) /\ orders (fle Bnum) (argsort_of (fle Bnum)) /\
  Forall (coefs 4) [narrow; iv [0; 1; 0; 0; 0; 0]%Z; iv [1; 0; 0; 0; 0; 0]%Z] /\
  sort_vctors Bnum (argsort_of (fle Bnum)) (A3 [narrow; iv [0; 1; 0; 0; 0; 0]; iv [1; 0; 0; 0; 0; 0]])%Z = Ok [iv [0; 1; 0; 0; 0; 0]; narrow; iv [1; 0; 0; 0; 0; 0]]%Z.
Proof. exact E_C98. Qed.
