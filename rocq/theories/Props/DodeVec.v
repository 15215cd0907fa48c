(** dode2 versions of the vector functions, symmetry operations, orbits, shift and
    centroid: C59 - C63. *)
From Coq Require Import Reals List ZArith Lia Lra Bool Permutation.
From Verif Require Import Base.Res Model.Tau Model.Arr Model.DodeScalar Model.Vectors Model.IcoMath1 Model.DodeMath1
  Model.DodeSymmetry Model.DodeArea Spec.Value Spec.RVec Spec.Shape Spec.Mean Spec.IcoSpec Spec.DodeSpec.
From Verif Require Import Proofs.P_DodeVec.
Import ListNotations.
Local Open Scope R_scope.

(** C59: vector sum; too short a second argument raises. *)
Theorem C59_add_vectors : forall u v, wfv u -> wfv v -> length u = length v ->
  evalsv SIN (dadd_vectors u v) (vadd (vals SIN u) (vals SIN v)).
Proof. exact L_C59_add_vectors. Qed.
Print Assumptions C59_add_vectors.

Theorem C59_add_vectors_short : forall u v, wfv u -> wfv v -> (length v < length u)%nat ->
  dadd_vectors u v = Raise IndexError.
Proof. exact L_C59_add_vectors_short. Qed.
Print Assumptions C59_add_vectors_short.

Theorem C59_sub_vectors : forall u v, wfv u -> wfv v -> length u = length v ->
  evalsv SIN (dsub_vectors u v) (vsub (vals SIN u) (vals SIN v)).
Proof. exact L_C59_sub_vectors. Qed.
Print Assumptions C59_sub_vectors.

Theorem C59_mul_vector : forall v c, wfv v -> wf c ->
  evalsv SIN (dmul_vector v c) (vscale (val SIN c) (vals SIN v)).
Proof. exact L_C59_mul_vector. Qed.
Print Assumptions C59_mul_vector.

(** The ndim guards. *)
Theorem C59_ndim_guards : forall a b c,
  (match a, b with A2 _, A2 _ => False | _, _ => True end -> sub_vectors_nd dadd dmul a b = Ok None) /\
  (match a with A2 _ => False | _ => True end -> mul_vector_nd dmul a c = Ok None) /\
  (match a with A3 _ | A4 _ => False | _ => True end -> mul_vectors_nd dmul a c = Ok None) /\
  (match a, b with A2 _, A2 _ | A3 _, A2 _ | A3 _, A3 _ => False | _, _ => True end ->
     dot_product_nd dadd dmul a b = Ok None).
Proof. exact L_C59_ndim_guards. Qed.
Print Assumptions C59_ndim_guards.

Theorem C59_mul_vectors : forall vs c, Forall wfv vs -> wf c ->
  exists rs, mul_vectors_nd dmul (A3 vs) c = Ok (Some rs) /\ Forall canonv rs /\
    map (vals SIN) rs = map (fun v => vscale (val SIN c) (vals SIN v)) vs.
Proof. exact L_C59_mul_vectors. Qed.
Print Assumptions C59_mul_vectors.

Theorem C59_inner_product : forall u v, wfv u -> wfv v -> length u = length v ->
  exists r, dinner_product u v = Ok (Some r) /\ canon r /\ val SIN r = dot (vals SIN u) (vals SIN v).
Proof. exact L_C59_inner_product. Qed.
Print Assumptions C59_inner_product.

Theorem C59_inner_product_none : forall u v, wfv u -> wfv v ->
  (dinner_product u v = Ok None <-> length u <> length v).
Proof. exact L_C59_inner_product_none. Qed.
Print Assumptions C59_inner_product_none.

Theorem C59_outer_product : forall u v, wfv u -> wfv v -> length u = 3%nat -> length v = 3%nat ->
  evalsv SIN (douter_product u v) (cross (vals SIN u) (vals SIN v)).
Proof. exact L_C59_outer_product. Qed.
Print Assumptions C59_outer_product.

(** The cross product of the specification is the geometric one. *)
Theorem C59_cross_geometric : forall u v : list R, length u = 3%nat -> length v = 3%nat ->
  dot (cross u v) u = 0 /\ dot (cross u v) v = 0 /\
  norm2 (cross u v) = norm2 u * norm2 v - dot u v * dot u v.
Proof. exact L_C59_cross_geometric. Qed.
Print Assumptions C59_cross_geometric.

Theorem C59_dot_product_matrix_vector : forall rows v,
  rows <> [] -> rect rows (length v) -> Forall wfv rows -> wfv v ->
  exists r, dot_product_nd dadd dmul (A3 rows) (A2 v) = Ok (Some (A2 r)) /\ canonv r /\
    vals SIN r = matvec (map (vals SIN) rows) (vals SIN v).
Proof. exact L_C59_dot_product_matrix_vector. Qed.
Print Assumptions C59_dot_product_matrix_vector.

Theorem C59_dot_product_matrix_matrix : forall r1 r2 n,
  r1 <> [] -> r2 <> [] -> rect r1 (length r2) -> rect r2 n -> Forall wfv r1 -> Forall wfv r2 ->
  exists r, dot_product_nd dadd dmul (A3 r1) (A3 r2) = Ok (Some (A3 r)) /\ Forall canonv r /\
    map (vals SIN) r = matmulR n (map (vals SIN) r1) (map (vals SIN) r2).
Proof. exact L_C59_dot_product_matrix_matrix. Qed.
Print Assumptions C59_dot_product_matrix_matrix.

Theorem C59_dot_product_1_vector : forall m v, m <> [] -> rect m (length v) -> wfv v ->
  exists r, dot_product_1_nd dadd dmul m (A2 v) = Ok (Some (A2 r)) /\ canonv r /\
    vals SIN r = matvec (IZRm m) (vals SIN v).
Proof. exact L_C59_dot_product_1_vector. Qed.
Print Assumptions C59_dot_product_1_vector.

Example C59_ex :
  let u := [T 1 1 2; T 0 1 1; T 3 0 1] in let v := [T 1 0 1; T 2 (-1) 3; T 0 0 1] in
  wfv u /\ wfv v /\ dadd_vectors u v = Ok [T 3 1 2; T 2 2 3; T 3 0 1] /\
  dinner_product u v = Ok (Some (T 3 14 12)) /\
  douter_product u v = Ok [T (-2) 1 1; T 3 0 1; T 5 (-20) 24].
Proof. exact E_C59_ex. Qed.

(** C60: dsymop_vec is R(v-c)+c, exactly. *)
Theorem C60_exact : forall op v c, In op dodesymop -> good 6 v -> good 6 c ->
  evalsv SIN (dsymop_vec op v c) (vadd (matvec (IZRm op) (vsub (vals SIN v) (vals SIN c))) (vals SIN c)).
Proof. exact L_C60_exact. Qed.
Print Assumptions C60_exact.

Theorem C60_fixes_centre : forall op c, In op dodesymop -> cgood 6 c -> dsymop_vec op c c = Ok c.
Proof. exact L_C60_fixes_centre. Qed.
Print Assumptions C60_fixes_centre.

Theorem C60_compose : forall op1 op2 v c, In op1 dodesymop -> In op2 dodesymop -> good 6 v -> good 6 c ->
  exists v1 v2, dsymop_vec op1 v c = Ok v1 /\ dsymop_vec op2 v1 c = Ok v2 /\
    dsymop_vec (matmul op2 op1) v c = Ok v2.
Proof. exact L_C60_compose. Qed.
Print Assumptions C60_compose.

(** Applying an operation and then its inverse restores a canonical vector bit for bit. *)
Theorem C60_inverse : forall op v c, In op dodesymop -> cgood 6 v -> good 6 c ->
  exists op' v1, In op' dodesymop /\ matmul op' op = identity 6 /\
    dsymop_vec op v c = Ok v1 /\ dsymop_vec op' v1 c = Ok v.
Proof. exact L_C60_inverse. Qed.
Print Assumptions C60_inverse.

(** dsymop_obj maps this over the array, keeping its shape; other ndim: None. *)
Theorem C60_symop_obj : forall op c, In op dodesymop -> good 6 c ->
  (forall v, good 6 v -> exists r, dsymop_obj op (A2 v) c = Ok (Some (A2 r)) /\ dsymop_vec op v c = Ok r) /\
  (forall vs, goods 6 vs -> exists rs, dsymop_obj op (A3 vs) c = Ok (Some (A3 rs)) /\
     Forall2 (fun v r => dsymop_vec op v c = Ok r) vs rs) /\
  (forall o, goodo 6 o -> exists rs, dsymop_obj op (A4 o) c = Ok (Some (A4 rs)) /\
     Forall2 (Forall2 (fun v r => dsymop_vec op v c = Ok r)) o rs) /\
  (forall a, match a with A1 _ | A5 _ | AX => True | _ => False end -> dsymop_obj op a c = Ok None).
Proof. exact L_C60_symop_obj. Qed.
Print Assumptions C60_symop_obj.

Example C60_ex :
  let v := [T 1 0 2; T 0 1 1; t0; T 1 1 3; t0; t1] in let c := [t1; t0; t0; t0; T 0 1 2; t0] in
  cgood 6 v /\ cgood 6 c /\ In dm1 dodesymop /\
  dsymop_vec dm1 v c = Ok [T 1 1 1; t0; T 1 1 3; T 1 0 2; t0; t1].
Proof. exact E_C60_ex. Qed.

(** C61: dsymmetric() returns 24*n parts; block i is operation i applied to the object. *)
Theorem C61_blocks : forall o c, goodo 6 o -> good 6 c ->
  exists bs, dsymmetric (A4 o) c = Ok (Some (A4 (concat bs))) /\
    length (concat bs) = (24 * length o)%nat /\
    Forall2 (fun op b => dsymop_obj op (A4 o) c = Ok (Some (A4 b))) dodesymop bs.
Proof. exact L_C61_blocks. Qed.
Print Assumptions C61_blocks.

(** Block 0 of a canonical object is the object itself. *)
Theorem C61_first_block : forall o c, cgoodo 6 o -> good 6 c ->
  exists rest, dsymmetric (A4 o) c = Ok (Some (A4 (o ++ rest))).
Proof. exact L_C61_first_block. Qed.
Print Assumptions C61_first_block.

(** The orbit is closed: every operation permutes the result. *)
Theorem C61_closed : forall o c r op, goodo 6 o -> good 6 c -> In op dodesymop ->
  dsymmetric (A4 o) c = Ok (Some (A4 r)) ->
  exists r', dsymop_obj op (A4 r) c = Ok (Some (A4 r')) /\ Permutation r r'.
Proof. exact L_C61_closed. Qed.
Print Assumptions C61_closed.

(** For one tetrahedron (a 3-d array) dsymmetric() gives its 24 images. *)
Theorem C61_single : forall t c, goods 6 t -> good 6 c ->
  exists rs, dsymmetric (A3 t) c = Ok (Some (A4 rs)) /\ length rs = 24%nat /\
    Forall2 (fun op r => dsymop_obj op (A3 t) c = Ok (Some (A3 r))) dodesymop rs.
Proof. exact L_C61_single. Qed.
Print Assumptions C61_single.

Theorem C61_other_ndim : forall a c, match a with A3 _ | A4 _ => False | _ => True end ->
  dsymmetric a c = Ok None.
Proof. exact L_C61_other_ndim. Qed.
Print Assumptions C61_other_ndim.

Example C61_ex :
  let t := [[t0;t0;t0;t0;t0;t0]; [t1;t0;t0;t0;t0;t0]; [t0;t1;t0;t0;t0;T 0 1 2]] in
  cgoodo 6 [t] /\ match dsymmetric (A4 [t]) [t0;t0;t0;t0;t0;t0] with
                  | Ok (Some (A4 (t' :: r))) => t' = t /\ length r = 23%nat
                  | _ => False end.
Proof. exact E_C61_ex. Qed.

(** C62: dshift adds the vector to every vertex, keeping shape and order. *)
Theorem C62_exact : forall o s, goodo 6 o -> good 6 s ->
  exists r, dshift (A4 o) s = Ok (Some r) /\ cgoodo 6 r /\
    Forall2 (Forall2 (fun v v' => dadd_vectors v s = Ok v')) o r /\
    map (map (vals SIN)) r = map (map (fun v => vadd (vals SIN v) (vals SIN s))) o.
Proof. exact L_C62_exact. Qed.
Print Assumptions C62_exact.

(** Shifting by u and then by v is shifting by u+v. *)
Theorem C62_compose : forall o u v s r1 r2, goodo 6 o -> good 6 u -> good 6 v -> dadd_vectors u v = Ok s ->
  dshift (A4 o) u = Ok (Some r1) -> dshift (A4 r1) v = Ok (Some r2) -> dshift (A4 o) s = Ok (Some r2).
Proof. exact L_C62_compose. Qed.
Print Assumptions C62_compose.

(** Shifting back by -v restores a canonical object bit for bit. *)
Theorem C62_undo : forall o u u' r, cgoodo 6 o -> good 6 u -> dmul_vector u (T (-1) 0 1) = Ok u' ->
  dshift (A4 o) u = Ok (Some r) -> dshift (A4 r) u' = Ok (Some o).
Proof. exact L_C62_undo. Qed.
Print Assumptions C62_undo.

Theorem C62_other_ndim : forall a s, match a with A4 _ => False | _ => True end -> dshift a s = Ok None.
Proof. exact L_C62_other_ndim. Qed.
Print Assumptions C62_other_ndim.

Example C62_ex :
  let o := [[[T 1 1 2;t0;t0;t0;t0;t0]; [t1;t0;t0;t0;t0;t0]]] in
  let s := [T 1 0 2; t0; t0; T 0 1 1; t0; t0] in
  cgoodo 6 o /\ good 6 s /\ dshift (A4 o) s =
    Ok (Some [[[T 2 1 2;t0;t0;T 0 1 1;t0;t0]; [T 3 0 2;t0;t0;T 0 1 1;t0;t0]]]).
Proof. exact E_C62_ex. Qed.

(** C63: the dcentroid is the exact mean. *)
Theorem C63_mean : forall pts, pts <> [] -> goods 6 pts ->
  evalsv SIN (dcentroid pts) (mean 6 (map (vals SIN) pts)).
Proof. exact L_C63_mean. Qed.
Print Assumptions C63_mean.

Theorem C63_order : forall pts pts', pts <> [] -> goods 6 pts -> Permutation pts pts' ->
  dcentroid pts = dcentroid pts'.
Proof. exact L_C63_order. Qed.
Print Assumptions C63_order.

Theorem C63_translation : forall pts s pts' c, pts <> [] -> goods 6 pts -> good 6 s ->
  Forall2 (fun v v' => dadd_vectors v s = Ok v') pts pts' -> dcentroid pts = Ok c ->
  dcentroid pts' = dadd_vectors c s.
Proof. exact L_C63_translation. Qed.
Print Assumptions C63_translation.

Theorem C63_symmetry : forall op ctr pts pts' c, In op dodesymop -> pts <> [] -> goods 6 pts -> good 6 ctr ->
  dsymop_obj op (A3 pts) ctr = Ok (Some (A3 pts')) -> dcentroid pts = Ok c ->
  dcentroid pts' = dsymop_vec op c ctr.
Proof. exact L_C63_symmetry. Qed.
Print Assumptions C63_symmetry.

Theorem C63_empty : dcentroid [] = Raise ValueError /\ dcentroid_obj [] = Raise ValueError.
Proof. exact L_C63_empty. Qed.
Print Assumptions C63_empty.

Theorem C63_object : forall o, o <> [] -> Forall (fun t => t <> [] /\ goods 6 t) o ->
  evalsv SIN (dcentroid_obj o) (mean 6 (map (fun t => mean 6 (map (vals SIN) t)) o)).
Proof. exact L_C63_object. Qed.
Print Assumptions C63_object.

Example C63_ex :
  let p := [[t1;t0;T 0 1 1;t0;t0;t0]; [t0;t1;t0;t0;t0;t0]; [T 1 1 2;t0;t1;t0;t0;t0]] in
  goods 6 p /\ dcentroid p = Ok [T 3 1 6; T 1 0 3; T 1 1 3; t0; t0; t0].
Proof. exact E_C63_ex. Qed.
