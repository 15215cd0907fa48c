(** One symmetry operation, selected by its index, applied to an object (symmetric_0 of
    occupation_domain.py and generator_*_0 of symmetry.py, both packages): C79. *)
From Coq Require Import List ZArith Lia Bool.
From Verif Require Import Base.Res Model.Tau Model.Arr Model.Vectors Model.IcoMath1 Model.IcoSymmetry Model.IcoVolume Model.DodeMath1 Model.DodeSymmetry
  Spec.Shape Spec.Samples Spec.DodeSamples.
Import ListNotations.
Local Open Scope nat_scope.
From Verif Require Import Proofs.P_Symop0.
Import ListNotations.

(** C79: symmetric_0(obj, centre, i) is the i-th block of symmetric(obj, centre). *)
Theorem C79_block : forall o c r i, symmetric (A4 o) c = Ok (Some (A4 r)) -> i < 120 ->
  symmetric_0 (A4 o) c (Z.of_nat i) = Ok (Some (A4 (firstn (length o) (skipn (i * length o) r)))).
Proof. exact L_C79_block. Qed.
Print Assumptions C79_block.

Theorem C79_block_single : forall t c r i, symmetric (A3 t) c = Ok (Some (A4 r)) -> i < 120 ->
  exists b, nth_error r i = Some b /\ symmetric_0 (A3 t) c (Z.of_nat i) = Ok (Some (A3 b)).
Proof. exact L_C79_block_single. Qed.
Print Assumptions C79_block_single.

(** Python's negative indices count from the last operation; all others raise; arrays of
    other dimensions give None. *)
Theorem C79_index : forall o c i, match o with A3 _ | A4 _ => True | _ => False end ->
  ((-120 <= i < 0)%Z -> symmetric_0 o c i = symmetric_0 o c (i + 120)) /\
  ((i < -120 \/ 120 <= i)%Z -> symmetric_0 o c i = Raise IndexError).
Proof. exact L_C79_index. Qed.
Print Assumptions C79_index.

Theorem C79_other_ndim : forall o c i, match o with A3 _ | A4 _ => False | _ => True end -> symmetric_0 o c i = Ok None.
Proof. exact L_C79_other_ndim. Qed.
Print Assumptions C79_other_ndim.

(** The same for the 24 dodecagonal operations. *)
Theorem C79_dblock : forall o c r i, dsymmetric (A4 o) c = Ok (Some (A4 r)) -> i < 24 ->
  dsymmetric_0 (A4 o) c (Z.of_nat i) = Ok (Some (A4 (firstn (length o) (skipn (i * length o) r)))).
Proof. exact L_C79_dblock. Qed.
Print Assumptions C79_dblock.

Theorem C79_dblock_single : forall t c r i, dsymmetric (A3 t) c = Ok (Some (A4 r)) -> i < 24 ->
  exists b, nth_error r i = Some b /\ dsymmetric_0 (A3 t) c (Z.of_nat i) = Ok (Some (A3 b)).
Proof. exact L_C79_dblock_single. Qed.
Print Assumptions C79_dblock_single.

Theorem C79_dindex : forall o c i, match o with A3 _ | A4 _ => True | _ => False end ->
  ((-24 <= i < 0)%Z -> dsymmetric_0 o c i = dsymmetric_0 o c (i + 24)) /\
  ((i < -24 \/ 24 <= i)%Z -> dsymmetric_0 o c i = Raise IndexError).
Proof. exact L_C79_dindex. Qed.
Print Assumptions C79_dindex.

(** A single vector: entry i of its images under all operations. *)
Theorem C79_dvec : forall v c r i, mapM (fun op => dsymop_vec op v c) dodesymop = Ok r -> i < 24 ->
  exists b, nth_error r i = Some b /\ dgenerator_symmetric_vec_0 v c (Z.of_nat i) = Ok b.
Proof. exact L_C79_dvec. Qed.
Print Assumptions C79_dvec.

Example C79_ex : exists r b, symmetric (A4 [[o6; x1; x2; x3]]) o6 = Ok (Some (A4 r)) /\ symmetric_0 (A4 [[o6; x1; x2; x3]]) o6 7 = Ok (Some (A4 [b])) /\
  nth_error r 7 = Some b /\ b <> [o6; x1; x2; x3] /\ symmetric_0 (A4 [[o6; x1; x2; x3]]) o6 (-113) = Ok (Some (A4 [b])).
Proof. exact E_C79_ex. Qed.

Example C79_dex : exists r b, dsymmetric (A4 [triA; triB]) o6 = Ok (Some (A4 r)) /\ dsymmetric_0 (A4 [triA; triB]) o6 5 = Ok (Some (A4 b)) /\ length b = 2 /\ length r = 48 /\ b <> [triA; triB].
Proof. exact E_C79_dex. Qed.
