(** Icosahedral symmetry: C11, C12, C13, C14. *)
From Coq Require Import Reals List ZArith Lia Lra Bool Permutation.
From Verif Require Import Base.Res Model.Tau Model.Arr Model.IcoScalar Model.Vectors Model.IcoMath1 Model.IcoSymmetry
  Model.IcoVolume Spec.Value Spec.RVec Spec.Shape Spec.IcoSpec.
From Verif Require Import Proofs.P_Symmetry.
Import ListNotations.
Local Open Scope R_scope.

(** C11: 120 pairwise different 6x6 matrices, identity first, closed under
    products, and the transpose of each is its inverse and in the list. *)
Theorem C11_group :
  length icosasymop = 120%nat /\ NoDup icosasymop /\ nth_error icosasymop 0 = Some (identity 6) /\
  (forall a, In a icosasymop -> square 6 a) /\
  (forall a b, In a icosasymop -> In b icosasymop -> In (matmul a b) icosasymop) /\
  (forall a, In a icosasymop -> In (transposeZ a) icosasymop /\
     matmul (transposeZ a) a = identity 6 /\ matmul a (transposeZ a) = identity 6).
Proof. exact L_C11_group. Qed.
Print Assumptions C11_group.

(** The product used in C11 is composition of the linear maps, and [identity] is
    the identity map. *)
Theorem C11_product_is_composition : forall a b x, square 6 a -> square 6 b -> length x = 6%nat ->
  matvec (IZRm (matmul a b)) x = matvec (IZRm a) (matvec (IZRm b) x) /\
  matvec (IZRm (identity 6)) x = x.
Proof. exact L_C11_product_is_composition. Qed.
Print Assumptions C11_product_is_composition.

Example C11_ex : In sm4 icosasymop /\ In sm1 icosasymop /\ matmul sm4 sm1 <> matmul sm1 sm4.
Proof. exact E_C11_ex. Qed.

(** C12: orthogonal on parallel and on perpendicular space separately. *)
Theorem C12_isometry : forall op, In op icosasymop ->
  exists Mpar Mperp, orthogonal 3 Mpar /\ orthogonal 3 Mperp /\
    forall x, length x = 6%nat ->
      par (matvec (IZRm op) x) = matvec Mpar (par x) /\
      perp (matvec (IZRm op) x) = matvec Mperp (perp x).
Proof. exact L_C12_isometry. Qed.
Print Assumptions C12_isometry.

(** Hence lengths and angles are preserved: for two 6-d vectors the scalar
    products of the projections of the images equal those of the originals. *)
Theorem C12_preserves_products : forall op u v, In op icosasymop -> length u = 6%nat -> length v = 6%nat ->
  dot (par (matvec (IZRm op) u)) (par (matvec (IZRm op) v)) = dot (par u) (par v) /\
  dot (perp (matvec (IZRm op) u)) (perp (matvec (IZRm op) v)) = dot (perp u) (perp v).
Proof. exact L_C12_preserves_products. Qed.
Print Assumptions C12_preserves_products.

(** C13: symop_vec is R(v-c)+c, exactly. *)
Theorem C13_exact : forall op v c, In op icosasymop -> good 6 v -> good 6 c ->
  evalsv TAU (symop_vec op v c) (vadd (matvec (IZRm op) (vsub (vals TAU v) (vals TAU c))) (vals TAU c)).
Proof. exact L_C13_exact. Qed.
Print Assumptions C13_exact.

Theorem C13_fixes_centre : forall op c, In op icosasymop -> cgood 6 c -> symop_vec op c c = Ok c.
Proof. exact L_C13_fixes_centre. Qed.
Print Assumptions C13_fixes_centre.

Theorem C13_compose : forall op1 op2 v c, In op1 icosasymop -> In op2 icosasymop -> good 6 v -> good 6 c ->
  exists v1 v2, symop_vec op1 v c = Ok v1 /\ symop_vec op2 v1 c = Ok v2 /\
    symop_vec (matmul op2 op1) v c = Ok v2.
Proof. exact L_C13_compose. Qed.
Print Assumptions C13_compose.

(** Applying an operation and then its inverse restores a canonical vector bit for bit. *)
Theorem C13_inverse : forall op v c, In op icosasymop -> cgood 6 v -> good 6 c ->
  exists v1, symop_vec op v c = Ok v1 /\ symop_vec (transposeZ op) v1 c = Ok v.
Proof. exact L_C13_inverse. Qed.
Print Assumptions C13_inverse.

(** symop_obj maps this over the array, keeping its shape; other ndim: None. *)
Theorem C13_symop_obj : forall op c, In op icosasymop -> good 6 c ->
  (forall v, good 6 v -> exists r, symop_obj op (A2 v) c = Ok (Some (A2 r)) /\ symop_vec op v c = Ok r) /\
  (forall vs, goods 6 vs -> exists rs, symop_obj op (A3 vs) c = Ok (Some (A3 rs)) /\
     Forall2 (fun v r => symop_vec op v c = Ok r) vs rs) /\
  (forall o, goodo 6 o -> exists rs, symop_obj op (A4 o) c = Ok (Some (A4 rs)) /\
     Forall2 (Forall2 (fun v r => symop_vec op v c = Ok r)) o rs) /\
  (forall a, match a with A1 _ | A5 _ | AX => True | _ => False end -> symop_obj op a c = Ok None).
Proof. exact L_C13_symop_obj. Qed.
Print Assumptions C13_symop_obj.

Example C13_ex :
  let v := [T 1 0 2; T 0 1 1; t0; T 1 1 3; t0; t1] in let c := [t1; t0; t0; t0; T 0 1 2; t0] in
  cgood 6 v /\ cgood 6 c /\ In sm4 icosasymop /\
  symop_vec sm4 v c = Ok [T 1 1 1; t0; T (-1) 0 2; t1; T (-2) 1 6; T 0 1 2].
Proof. exact E_C13_ex. Qed.

(** C14: symmetric() returns 120*n parts; block i is operation i applied to the object. *)
Theorem C14_blocks : forall o c, goodo 6 o -> good 6 c ->
  exists bs, symmetric (A4 o) c = Ok (Some (A4 (concat bs))) /\
    length (concat bs) = (120 * length o)%nat /\
    Forall2 (fun op b => symop_obj op (A4 o) c = Ok (Some (A4 b))) icosasymop bs.
Proof. exact L_C14_blocks. Qed.
Print Assumptions C14_blocks.

(** Block 0 of a canonical object is the object itself. *)
Theorem C14_first_block : forall o c, cgoodo 6 o -> good 6 c ->
  exists rest, symmetric (A4 o) c = Ok (Some (A4 (o ++ rest))).
Proof. exact L_C14_first_block. Qed.
Print Assumptions C14_first_block.

(** The orbit is closed: every operation permutes the result. *)
Theorem C14_closed : forall o c r op, goodo 6 o -> good 6 c -> In op icosasymop ->
  symmetric (A4 o) c = Ok (Some (A4 r)) ->
  exists r', symop_obj op (A4 r) c = Ok (Some (A4 r')) /\ Permutation r r'.
Proof. exact L_C14_closed. Qed.
Print Assumptions C14_closed.

(** For one tetrahedron (a 3-d array) symmetric() gives its 120 images. *)
Theorem C14_single : forall t c, goods 6 t -> good 6 c ->
  exists rs, symmetric (A3 t) c = Ok (Some (A4 rs)) /\ length rs = 120%nat /\
    Forall2 (fun op r => symop_obj op (A3 t) c = Ok (Some (A3 r))) icosasymop rs.
Proof. exact L_C14_single. Qed.
Print Assumptions C14_single.

Theorem C14_other_ndim : forall a c, match a with A3 _ | A4 _ => False | _ => True end ->
  symmetric a c = Ok None.
Proof. exact L_C14_other_ndim. Qed.
Print Assumptions C14_other_ndim.

Example C14_ex :
  let t := [[t0;t0;t0;t0;t0;t0]; [t1;t0;t0;t0;t0;t0]; [t0;t1;t0;t0;t0;t0]; [t0;t0;t1;t0;t0;T 0 1 2]] in
  cgoodo 6 [t] /\ match symmetric (A4 [t]) [t0;t0;t0;t0;t0;t0] with
                  | Ok (Some (A4 (t' :: r))) => t' = t /\ length r = 119%nat
                  | _ => False end.
Proof. exact E_C14_ex. Qed.
