(** One symmetry operation, selected by its index, applied to an object (symmetric_0 of
    occupation_domain.py and generator_*_0 of symmetry.py, both packages): C79. *)
From Coq Require Import List ZArith Lia Bool.
From Verif Require Import Base.Res Model.Tau Model.Arr Model.Vectors Model.IcoMath1 Model.IcoSymmetry Model.IcoVolume Model.DodeMath1 Model.DodeSymmetry
  Spec.Shape Spec.Samples Spec.DodeSamples.
Import ListNotations.
Local Open Scope nat_scope.

From Verif Require Import Proofs.ResLemmas Proofs.MatLemmas Proofs.IcoGroup Proofs.DodeGroup.
Local Opaque icosasymop dodesymop.

Lemma getz_nat {A} (l : list A) i : getz l (Z.of_nat i) = get l i.
Proof. unfold getz. destruct (0 <=? Z.of_nat i)%Z eqn:E; [rewrite Nat2Z.id; reflexivity|]. apply Z.leb_gt in E. lia. Qed.
Lemma getz_neg {A} (l : list A) i : (- Z.of_nat (length l) <= i < 0)%Z -> getz l i = getz l (i + Z.of_nat (length l)).
Proof.
  intros H. unfold getz at 1. rewrite (proj2 (Z.leb_gt 0 i)) by lia. unfold getz. rewrite (proj2 (Z.leb_le 0 (i + Z.of_nat (length l)))) by lia. reflexivity.
Qed.
Lemma getz_out {A} (l : list A) i : (i < - Z.of_nat (length l) \/ Z.of_nat (length l) <= i)%Z -> getz l i = Raise IndexError.
Proof.
  intros H. unfold getz. destruct (0 <=? i)%Z eqn:E.
  - apply Z.leb_le in E. unfold get. rewrite (proj2 (nth_error_None _ _)) by lia. reflexivity.
  - apply Z.leb_gt in E. destruct (0 <=? _)%Z eqn:E2; [|reflexivity]. apply Z.leb_le in E2. lia.
Qed.
Lemma get_lt {A} (l : list A) i : i < length l -> exists x, get l i = Ok x /\ nth_error l i = Some x.
Proof. intros H. unfold get. destruct (nth_error l i) eqn:E; [eauto|]. apply nth_error_None in E. lia. Qed.
Lemma block_concat {A} n (bs : list (list A)) i b : Forall (fun b => length b = n) bs -> nth_error bs i = Some b ->
  firstn n (skipn (i * n) (concat bs)) = b.
Proof.
  intros H. revert i. induction H as [|b' bs L _ IH]; intros [|i] E; try discriminate E; cbn [nth_error] in E; cbn [concat].
  - injection E as ->. cbn [Nat.mul skipn]. rewrite <- L, firstn_app, Nat.sub_diag, firstn_O, firstn_all, app_nil_r. reflexivity.
  - replace (S i * n) with (n + i * n) by lia. rewrite skipn_app. rewrite skipn_all2 by lia. cbn [app].
    replace (n + i * n - length b') with (i * n) by lia. apply IH, E.
Qed.
Lemma Forall2_nth {A B} (P : A -> B -> Prop) l m i x : Forall2 P l m -> nth_error l i = Some x -> exists y, nth_error m i = Some y /\ P x y.
Proof. intros H. revert i. induction H as [|a b l m Hab _ IH]; intros [|i] E; try discriminate E; cbn in E; [injection E as ->; exists b; auto|apply IH, E]. Qed.

Section Gen.
Variables (ad mu : tau -> tau -> res tau) (ops : list (list (list Z))).
Lemma block4 o c r i : generator_obj_symmetric_obj_ ad mu ops (A4 o) c = Ok (Some (A4 r)) -> i < length ops ->
  bind (getz ops (Z.of_nat i)) (fun op => symop_obj_ ad mu op (A4 o) c) = Ok (Some (A4 (firstn (length o) (skipn (i * length o) r)))).
Proof.
  intros H L. rewrite getz_nat. destruct (get_lt _ _ L) as (op & -> & Eo). cbn [bind symop_obj_]. cbn [generator_obj_symmetric_obj_] in H.
  apply bind_Ok_inv in H as (bs & E & [= <-]). apply mapM_Forall2 in E. destruct (Forall2_nth _ _ _ _ _ E Eo) as (b & Eb & Hb). rewrite Hb. cbn [bind].
  rewrite (block_concat (length o) bs i b); [reflexivity| |exact Eb]. clear -E. induction E as [|x y l m H _ IH]; constructor; [|exact IH]. eapply mapM_length, H.
Qed.
Lemma block3 t c r i : generator_obj_symmetric_obj_ ad mu ops (A3 t) c = Ok (Some (A4 r)) -> i < length ops ->
  exists b, nth_error r i = Some b /\ bind (getz ops (Z.of_nat i)) (fun op => symop_obj_ ad mu op (A3 t) c) = Ok (Some (A3 b)).
Proof.
  intros H L. rewrite getz_nat. destruct (get_lt _ _ L) as (op & -> & Eo). cbn [bind symop_obj_]. cbn [generator_obj_symmetric_obj_] in H.
  apply bind_Ok_inv in H as (bs & E & [= <-]). apply mapM_Forall2 in E. destruct (Forall2_nth _ _ _ _ _ E Eo) as (b & Eb & Hb). exists b. split; [exact Eb|]. rewrite Hb. reflexivity.
Qed.
End Gen.

(** C79: symmetric_0(obj, centre, i) is the i-th block of symmetric(obj, centre). *)
Lemma L_C79_block : forall o c r i, symmetric (A4 o) c = Ok (Some (A4 r)) -> i < 120 ->
  symmetric_0 (A4 o) c (Z.of_nat i) = Ok (Some (A4 (firstn (length o) (skipn (i * length o) r)))).
Proof. intros o c r i H L. apply block4; [exact H|]. rewrite icosasymop_length. exact L. Qed.
Lemma L_C79_block_single : forall t c r i, symmetric (A3 t) c = Ok (Some (A4 r)) -> i < 120 ->
  exists b, nth_error r i = Some b /\ symmetric_0 (A3 t) c (Z.of_nat i) = Ok (Some (A3 b)).
Proof. intros t c r i H L. apply (block3 _ _ _ _ _ _ _ H). rewrite icosasymop_length. exact L. Qed.
(** Python's negative indices count from the last operation; all others raise; arrays of
    other dimensions give None. *)
Lemma L_C79_index : forall o c i, match o with A3 _ | A4 _ => True | _ => False end ->
  ((-120 <= i < 0)%Z -> symmetric_0 o c i = symmetric_0 o c (i + 120)) /\
  ((i < -120 \/ 120 <= i)%Z -> symmetric_0 o c i = Raise IndexError).
Proof.
  intros o c i Ho. assert (L : Z.of_nat (length icosasymop) = 120%Z) by (rewrite icosasymop_length; reflexivity).
  destruct o; try contradiction; cbn [symmetric_0]; unfold generator_obj_symmetric_tetrahedron_0;
    (split; intros H; [rewrite (getz_neg icosasymop i), L by (rewrite L; exact H); reflexivity|rewrite getz_out by (rewrite L; exact H); reflexivity]).
Qed.
Lemma L_C79_other_ndim : forall o c i, match o with A3 _ | A4 _ => False | _ => True end -> symmetric_0 o c i = Ok None.
Proof. intros o c i H. destruct o; try contradiction; reflexivity. Qed.

(** The same for the 24 dodecagonal operations. *)
Lemma L_C79_dblock : forall o c r i, dsymmetric (A4 o) c = Ok (Some (A4 r)) -> i < 24 ->
  dsymmetric_0 (A4 o) c (Z.of_nat i) = Ok (Some (A4 (firstn (length o) (skipn (i * length o) r)))).
Proof. intros o c r i H L. apply block4; [exact H|]. rewrite dodesymop_length. exact L. Qed.
Lemma L_C79_dblock_single : forall t c r i, dsymmetric (A3 t) c = Ok (Some (A4 r)) -> i < 24 ->
  exists b, nth_error r i = Some b /\ dsymmetric_0 (A3 t) c (Z.of_nat i) = Ok (Some (A3 b)).
Proof. intros t c r i H L. apply (block3 _ _ _ _ _ _ _ H). rewrite dodesymop_length. exact L. Qed.
Lemma L_C79_dindex : forall o c i, match o with A3 _ | A4 _ => True | _ => False end ->
  ((-24 <= i < 0)%Z -> dsymmetric_0 o c i = dsymmetric_0 o c (i + 24)) /\
  ((i < -24 \/ 24 <= i)%Z -> dsymmetric_0 o c i = Raise IndexError).
Proof.
  intros o c i Ho. assert (L : Z.of_nat (length dodesymop) = 24%Z) by (rewrite dodesymop_length; reflexivity).
  destruct o; try contradiction; cbn [dsymmetric_0]; unfold dgenerator_obj_symmetric_triangle_0;
    (split; intros H; [rewrite (getz_neg dodesymop i), L by (rewrite L; exact H); reflexivity|rewrite getz_out by (rewrite L; exact H); reflexivity]).
Qed.
(** A single vector: entry i of its images under all operations. *)
Lemma L_C79_dvec : forall v c r i, mapM (fun op => dsymop_vec op v c) dodesymop = Ok r -> i < 24 ->
  exists b, nth_error r i = Some b /\ dgenerator_symmetric_vec_0 v c (Z.of_nat i) = Ok b.
Proof.
  intros v c r i H L. unfold dgenerator_symmetric_vec_0. rewrite getz_nat. rewrite <- dodesymop_length in L. destruct (get_lt _ _ L) as (op & -> & Eo). cbn [bind].
  apply mapM_Forall2 in H. apply (Forall2_nth _ _ _ _ _ H Eo).
Qed.
Example E_C79_ex : exists r b, symmetric (A4 [[o6; x1; x2; x3]]) o6 = Ok (Some (A4 r)) /\ symmetric_0 (A4 [[o6; x1; x2; x3]]) o6 7 = Ok (Some (A4 [b])) /\
  nth_error r 7 = Some b /\ b <> [o6; x1; x2; x3] /\ symmetric_0 (A4 [[o6; x1; x2; x3]]) o6 (-113) = Ok (Some (A4 [b])).
Proof. do 2 eexists. split; [vm_compute; reflexivity|]. split; [vm_compute; reflexivity|]. split; [reflexivity|]. split; [discriminate|]. vm_compute. reflexivity. Qed.
Example E_C79_dex : exists r b, dsymmetric (A4 [triA; triB]) o6 = Ok (Some (A4 r)) /\ dsymmetric_0 (A4 [triA; triB]) o6 5 = Ok (Some (A4 b)) /\ length b = 2 /\ length r = 48 /\ b <> [triA; triB].
Proof. do 2 eexists. split; [vm_compute; reflexivity|]. split; [vm_compute; reflexivity|]. split; [reflexivity|]. split; [reflexivity|]. discriminate. Qed.
