(** Functions that can only fail, or never do what they are for: C44; simplification by
    hand: C68. *)
From Coq Require Import Reals List ZArith Bool Lia Lra.
From Verif Require Import Base.Res Model.Tau Model.Arr Model.Num Model.IcoScalar Model.DodeScalar Model.Vectors Model.IcoMath1 Model.DodeMath1
  Model.IcoSymmetry Model.DodeSymmetry Model.IcoDedup Model.IcoNumeric Model.Absent
  Spec.Value Spec.RVec Spec.Shape Spec.Mean Spec.Geometry Spec.IcoSpec Spec.DodeSpec Spec.Sets Spec.Samples Spec.Selection.
Import ListNotations.
Local Open Scope R_scope.
From Verif Require Import Proofs.P_Absent.
Import ListNotations.
Local Open Scope R_scope.

(** C44: the determinant. *)
Theorem C44_det_matrix : (forall m, exists e, det_matrix m = Raise e) /\ (forall m, exists e, ddet_matrix m = Raise e) /\
  (forall a b c, good 3 a -> good 3 b -> good 3 c -> det_matrix [a; b; c] = Raise NameError /\ ddet_matrix [a; b; c] = Raise NameError).
Proof. exact L_C44_det_matrix. Qed.
Print Assumptions C44_det_matrix.

(** The undefined name c is the only fault: were it the last row, the result would be
    the determinant. *)
Theorem C44_det_matrix_repaired : forall a b c, good 3 a -> good 3 b -> good 3 c ->
  evals TAU (det_matrix_ add mul (Some c) [a; b; c]) (det3 (vals TAU a) (vals TAU b) (vals TAU c)) /\
  evals SIN (det_matrix_ dadd dmul (Some c) [a; b; c]) (det3 (vals SIN a) (vals SIN b) (vals SIN c)).
Proof. exact L_C44_det_matrix_repaired. Qed.
Print Assumptions C44_det_matrix_repaired.

(** The middle of two points. *)
Theorem C44_middle_position : forall p q, (exists e, middle_position p q = Raise e) /\ (exists e, dmiddle_position p q = Raise e).
Proof. exact L_C44_middle_position. Qed.
Print Assumptions C44_middle_position.

(** Were tmp2 the array built so far, the result would be the middle. *)
Theorem C44_middle_position_repaired : forall p q, good 6 p -> good 6 q ->
  evalsv TAU (middle_position_ add mul Some p q) (map (fun x => x / 2) (vadd (vals TAU p) (vals TAU q))) /\
  evalsv SIN (middle_position_ dadd dmul Some p q) (map (fun x => x / 2) (vadd (vals SIN p) (vals SIN q))).
Proof. exact L_C44_middle_position_repaired. Qed.
Print Assumptions C44_middle_position_repaired.

(** Selected symmetry operations, and equivalent vectors. *)
Theorem C44_symmetry : (forall vs c l, generator_obj_symmetric_tetrahedron_specific_symop (A3 vs) c l = Raise NameError) /\
  (forall o c l, generator_obj_symmetric_tetrahedron_specific_symop (A4 o) c l = Raise NameError) /\
  (forall a c l r, generator_obj_symmetric_tetrahedron_specific_symop a c l = Ok r -> r = None) /\
  (forall a c, generator_equivalent_vectors a c = Raise AttributeError) /\
  (forall a c l r, dgenerator_obj_symmetric_triangle_specific_symop a c l = Ok r -> r = None) /\
  (forall a c, dgenerator_equivalent_vectors a c = Raise AttributeError).
Proof. exact L_C44_symmetry. Qed.
Print Assumptions C44_symmetry.

(** The intersection of two segments (ico2). *)
Theorem C44_two_segments : forall s1 s2, intersection_two_segment None s1 s2 = Raise NameError.
Proof. exact L_C44_two_segments. Qed.
Print Assumptions C44_two_segments.

(** Two tetrahedra are never merged: where that is possible the function raises. *)
Theorem C44_merge_two_tetrahedra : forall N a b r, merge_two_tetrahedra N a b = Ok r -> r = None.
Proof. exact L_C44_merge_two_tetrahedra. Qed.
Print Assumptions C44_merge_two_tetrahedra.

(** The first step of the simplification by hand raises for every object whose
    de-duplicated list of vertices is not empty. *)
Theorem C44_simple_hand_step1 : forall N show o,
  (remove_doubling_in_perp_space o <> Ok [] -> exists e, simple_hand_step1 N show o = Raise e) /\
  (DodeDedup.dremove_doubling_in_perp_space o <> Ok [] -> exists e, dsimple_hand_step1 N show o = Raise e).
Proof. exact L_C44_simple_hand_step1. Qed.
Print Assumptions C44_simple_hand_step1.

(** The second step (dode2), the border edges (dode2), the site symmetry (ico2), and
    inside_outside_obj (dode2). *)
Theorem C44_dode_step2 : forall o l, exists e, dsimple_hand_step2 o l = Raise e.
Proof. exact L_C44_dode_step2. Qed.
Print Assumptions C44_dode_step2.

Theorem C44_dode_border_edges : forall clean o, dgenerate_border_edges None clean o = Raise AttributeError.
Proof. exact L_C44_dode_border_edges. Qed.
Print Assumptions C44_dode_border_edges.

Theorem C44_ico_site_symmetry : forall N proj rest pos c, exists e, ico_site_symmetry N proj rest pos c = Raise e.
Proof. exact L_C44_ico_site_symmetry. Qed.
Print Assumptions C44_ico_site_symmetry.

Theorem C44_dode_inside_outside : forall N inside internal p o,
  dinside_outside_obj_tau N inside None None internal p o = Raise NameError /\
  (forall q t ts, dinside_outside_obj N inside None q (t :: ts) = Raise NameError).
Proof. exact L_C44_dode_inside_outside. Qed.
Print Assumptions C44_dode_inside_outside.

Example C44_ex : good 3 [T 1 1 1; T 0 1 2; T 3 0 1] /\
  det_matrix_ add mul (Some [t0; t0; T 1 0 1]) [[T 1 1 1; t0; t0]; [t0; T 0 1 2; t0]; [t0; t0; T 1 0 1]] = Ok (T 1 2 2) /\
  remove_doubling_in_perp_space (A4 [tetA]) <> Ok [] /\
  merge_two_tetrahedra Bnum [o6; x1; x2; x4] [o6; x2; x4; iv [-1;0;0;0;0;0]%Z] = Raise TypeError /\
  merge_two_tetrahedra Bnum tetA tetB = Ok None.
Proof. exact E_C44_ex. Qed.

(** C68: the result is the triangulation of every group of points, one after the other. *)
Theorem C68_groups : forall tetra o ls ps ts, ls <> [] -> Forall (fun l => l <> []) ls -> Forall2 (numbered o) ls ps ->
  Forall2 (fun p t => tetra p = Ok (Some t)) ps ts -> simple_hand_step2_ (Some tetra) o ls = Ok (Some (concat ts)).
Proof. exact L_C68_groups. Qed.
Print Assumptions C68_groups.

(** A group without volume (its triangulation is None) makes the call raise unless it
    is the only group; no groups at all make it raise too. *)
Theorem C68_flat_group : forall tetra o l1 l2 ls p1 p2 t1, l1 <> [] -> l2 <> [] -> numbered o l1 p1 -> numbered o l2 p2 ->
  tetra p1 = Ok t1 -> tetra p2 = Ok None -> simple_hand_step2_ (Some tetra) o (l1 :: l2 :: ls) = Raise ValueError /\
  simple_hand_step2_ (Some tetra) o (l2 :: l1 :: ls) = Raise ValueError /\
  simple_hand_step2_ (Some tetra) o [l2] = Ok None /\ simple_hand_step2_ (Some tetra) o [] = Raise UnboundLocalError.
Proof. exact L_C68_flat_group. Qed.
Print Assumptions C68_flat_group.

(** Number 0 is accepted and means the last point. *)
Theorem C68_zero_is_last : forall tetra o v l, simple_hand_step2_ (Some tetra) (o ++ [v]) [0%Z :: l] = simple_hand_step2_ (Some tetra) (o ++ [v]) [Z.of_nat (length o) + 1 :: l]%Z.
Proof. exact L_C68_zero_is_last. Qed.
Print Assumptions C68_zero_is_last.

Example C68_ex : numbered [o6; x1; x2; x4; x3] [2;3;4;1]%Z [x1; x2; x4; o6] /\
  simple_hand_step2 Bnum (fun p => Some [(0,1,2,3)]%nat) [o6; x1; x2; x4; x3] [[2;3;4;1];[1;2;3;5]]%Z = Ok (Some [[x1; x2; x4; o6]; [o6; x1; x2; x3]]).
Proof. exact E_C68_ex. Qed.
