(** dode2 versions of the vector functions, symmetry operations, orbits, shift and
    centroid: C59 - C63. *)
From Coq Require Import Reals List ZArith Lia Lra Bool Permutation.
From Verif Require Import Base.Res Model.Tau Model.Arr Model.DodeScalar Model.Vectors Model.IcoMath1 Model.DodeMath1
  Model.DodeSymmetry Model.DodeArea Spec.Value Spec.RVec Spec.Shape Spec.Mean Spec.IcoSpec Spec.DodeSpec.

From Verif Require Import Proofs.ResLemmas Proofs.ValueLemmas Proofs.Irrational Proofs.ScalarLemmas Proofs.RVecLemmas
  Proofs.VectorLemmas Proofs.VectorLemmas2 Proofs.MatLemmas Proofs.SymopLemmas Proofs.MeanLemmas Proofs.IcoProj Proofs.MatDec Proofs.GroupLemmas Proofs.IcoGroup
  Proofs.GeomLemmas Proofs.DodeProj Proofs.DodeGroup.
Import ListNotations.
Local Open Scope R_scope.
Local Opaque dodesymop.

(** C59: vector sum; too short a second argument raises. *)
Lemma L_C59_add_vectors : forall u v, wfv u -> wfv v -> length u = length v ->
  evalsv SIN (dadd_vectors u v) (vadd (vals SIN u) (vals SIN v)).
Proof. intros u v Hu Hv E. apply (add_vectors_spec dode_arith); auto; lia. Qed.

Lemma L_C59_add_vectors_short : forall u v, wfv u -> wfv v -> (length v < length u)%nat ->
  dadd_vectors u v = Raise IndexError.
Proof. exact (add_vectors_short dode_arith). Qed.

Lemma L_C59_sub_vectors : forall u v, wfv u -> wfv v -> length u = length v ->
  evalsv SIN (dsub_vectors u v) (vsub (vals SIN u) (vals SIN v)).
Proof. intros u v Hu Hv E. apply (sub_vectors_spec dode_arith); auto; lia. Qed.

Lemma L_C59_mul_vector : forall v c, wfv v -> wf c ->
  evalsv SIN (dmul_vector v c) (vscale (val SIN c) (vals SIN v)).
Proof. exact (mul_vector_spec dode_arith). Qed.

(** The ndim guards. *)
Lemma L_C59_ndim_guards : forall a b c,
  (match a, b with A2 _, A2 _ => False | _, _ => True end -> sub_vectors_nd dadd dmul a b = Ok None) /\
  (match a with A2 _ => False | _ => True end -> mul_vector_nd dmul a c = Ok None) /\
  (match a with A3 _ | A4 _ => False | _ => True end -> mul_vectors_nd dmul a c = Ok None) /\
  (match a, b with A2 _, A2 _ | A3 _, A2 _ | A3 _, A3 _ => False | _, _ => True end ->
     dot_product_nd dadd dmul a b = Ok None).
Proof. intros a b c. destruct a, b; repeat split; intros H; try contradiction; reflexivity. Qed.

Lemma L_C59_mul_vectors : forall vs c, Forall wfv vs -> wf c ->
  exists rs, mul_vectors_nd dmul (A3 vs) c = Ok (Some rs) /\ Forall canonv rs /\
    map (vals SIN) rs = map (fun v => vscale (val SIN c) (vals SIN v)) vs.
Proof.
  intros vs c Hv Hc. pose proof (mul_vectors_spec dode_arith vs c Hv Hc) as H.
  apply wp_elim in H as (o & E & rs & -> & H). exists rs. split; [exact E|exact H].
Qed.

Lemma L_C59_inner_product : forall u v, wfv u -> wfv v -> length u = length v ->
  exists r, dinner_product u v = Ok (Some r) /\ canon r /\ val SIN r = dot (vals SIN u) (vals SIN v).
Proof.
  intros u v Hu Hv E. pose proof (inner_product_spec dode_arith u v Hu Hv) as H.
  rewrite E, Nat.eqb_refl in H. apply wp_elim in H as (o & Eo & r & -> & H). exists r. split; [exact Eo|exact H].
Qed.

Lemma L_C59_inner_product_none : forall u v, wfv u -> wfv v ->
  (dinner_product u v = Ok None <-> length u <> length v).
Proof.
  intros u v Hu Hv. split.
  - intros H E. destruct (L_C59_inner_product u v Hu Hv E) as (r & E' & _). congruence.
  - intros N. pose proof (inner_product_spec dode_arith u v Hu Hv) as H.
    destruct (Nat.eqb_spec (length u) (length v)); [contradiction|exact H].
Qed.

Lemma L_C59_outer_product : forall u v, wfv u -> wfv v -> length u = 3%nat -> length v = 3%nat ->
  evalsv SIN (douter_product u v) (cross (vals SIN u) (vals SIN v)).
Proof. exact (outer_product_spec dode_arith). Qed.

(** The cross product of the specification is the geometric one. *)
Lemma L_C59_cross_geometric : forall u v : list R, length u = 3%nat -> length v = 3%nat ->
  dot (cross u v) u = 0 /\ dot (cross u v) v = 0 /\
  norm2 (cross u v) = norm2 u * norm2 v - dot u v * dot u v.
Proof.
  intros u v Lu Lv. split; [apply cross_dot_l; assumption|]. split; [apply cross_dot_r; assumption|].
  apply cross_norm; assumption.
Qed.

Lemma L_C59_dot_product_matrix_vector : forall rows v,
  rows <> [] -> rect rows (length v) -> Forall wfv rows -> wfv v ->
  exists r, dot_product_nd dadd dmul (A3 rows) (A2 v) = Ok (Some (A2 r)) /\ canonv r /\
    vals SIN r = matvec (map (vals SIN) rows) (vals SIN v).
Proof.
  intros rows v H1 H2 H3 H4. pose proof (dot_product_32_spec dode_arith rows v H1 H2 H3 H4) as H.
  apply wp_elim in H as (o & Eo & r & -> & H). exists r. split; [exact Eo|exact H].
Qed.

Lemma L_C59_dot_product_matrix_matrix : forall r1 r2 n,
  r1 <> [] -> r2 <> [] -> rect r1 (length r2) -> rect r2 n -> Forall wfv r1 -> Forall wfv r2 ->
  exists r, dot_product_nd dadd dmul (A3 r1) (A3 r2) = Ok (Some (A3 r)) /\ Forall canonv r /\
    map (vals SIN) r = matmulR n (map (vals SIN) r1) (map (vals SIN) r2).
Proof.
  intros r1 r2 n H1 H2 H3 H4 H5 H6. pose proof (dot_product_33_spec dode_arith r1 r2 n H1 H2 H3 H4 H5 H6) as H.
  apply wp_elim in H as (o & Eo & r & -> & H). exists r. split; [exact Eo|exact H].
Qed.

Lemma L_C59_dot_product_1_vector : forall m v, m <> [] -> rect m (length v) -> wfv v ->
  exists r, dot_product_1_nd dadd dmul m (A2 v) = Ok (Some (A2 r)) /\ canonv r /\
    vals SIN r = matvec (IZRm m) (vals SIN v).
Proof.
  intros m v H1 H2 H3. pose proof (dot_product_1_spec dode_arith m v H1 H2 H3) as H.
  apply wp_elim in H as (o & Eo & r & -> & H). exists r. split; [|exact H].
  cbn [dot_product_1_nd]. rewrite Eo. reflexivity.
Qed.

Example E_C59_ex :
  let u := [T 1 1 2; T 0 1 1; T 3 0 1] in let v := [T 1 0 1; T 2 (-1) 3; T 0 0 1] in
  wfv u /\ wfv v /\ dadd_vectors u v = Ok [T 3 1 2; T 2 2 3; T 3 0 1] /\
  dinner_product u v = Ok (Some (T 3 14 12)) /\
  douter_product u v = Ok [T (-2) 1 1; T 3 0 1; T 5 (-20) 24].
Proof.
  repeat split; try reflexivity; repeat (apply Forall_cons; [unfold wf; cbn; lia|]); apply Forall_nil.
Qed.

(** C60: dsymop_vec is R(v-c)+c, exactly. *)
Lemma L_C60_exact : forall op v c, In op dodesymop -> good 6 v -> good 6 c ->
  evalsv SIN (dsymop_vec op v c) (vadd (matvec (IZRm op) (vsub (vals SIN v) (vals SIN c))) (vals SIN c)).
Proof.
  intros op v c Hop [Wv Lv] [Wc Lc].
  apply (symop_vec_spec dode_arith op v c 6); auto; [lia|apply (ig_sq _ _ dodesymop_group), Hop].
Qed.

Lemma L_C60_fixes_centre : forall op c, In op dodesymop -> cgood 6 c -> dsymop_vec op c c = Ok c.
Proof.
  intros op c Hop Hc. apply (symop_vec_centre dode_arith op c 6); auto; [lia|].
  apply (ig_sq _ _ dodesymop_group), Hop.
Qed.

Lemma L_C60_compose : forall op1 op2 v c, In op1 dodesymop -> In op2 dodesymop -> good 6 v -> good 6 c ->
  exists v1 v2, dsymop_vec op1 v c = Ok v1 /\ dsymop_vec op2 v1 c = Ok v2 /\
    dsymop_vec (matmul op2 op1) v c = Ok v2.
Proof.
  intros op1 op2 v c H1 H2 Hv Hc.
  pose proof (symop_vec_compose dode_arith op1 op2 v c 6 ltac:(lia) (ig_sq _ _ dodesymop_group _ H1)
    (ig_sq _ _ dodesymop_group _ H2) Hv Hc) as E.
  pose proof (L_C60_exact _ v c (ig_mul _ _ dodesymop_group op2 op1 H2 H1) Hv Hc) as S.
  apply wp_elim in S as (v2 & E2 & _). unfold dsymop_vec in *. rewrite E2 in E.
  apply bind_Ok_inv in E as (v1 & E1 & E'). exists v1, v2. auto.
Qed.

(** Applying an operation and then its inverse restores a canonical vector bit for bit. *)
Lemma L_C60_inverse : forall op v c, In op dodesymop -> cgood 6 v -> good 6 c ->
  exists op' v1, In op' dodesymop /\ matmul op' op = identity 6 /\
    dsymop_vec op v c = Ok v1 /\ dsymop_vec op' v1 c = Ok v.
Proof.
  intros op v c Hop Hv Hc. destruct (ig_inv _ _ dodesymop_group op Hop) as (op' & Ht & _ & Et).
  destruct (L_C60_compose op op' v c Hop Ht (cgood_good _ _ Hv) Hc) as (v1 & v2 & E1 & E2 & E3).
  exists op', v1. split; [exact Ht|]. split; [exact Et|]. split; [exact E1|]. rewrite Et in E3. rewrite E2, <- E3.
  apply (symop_vec_identity dode_arith v c 6); auto; lia.
Qed.

(** dsymop_obj maps this over the array, keeping its shape; other ndim: None. *)
Lemma L_C60_symop_obj : forall op c, In op dodesymop -> good 6 c ->
  (forall v, good 6 v -> exists r, dsymop_obj op (A2 v) c = Ok (Some (A2 r)) /\ dsymop_vec op v c = Ok r) /\
  (forall vs, goods 6 vs -> exists rs, dsymop_obj op (A3 vs) c = Ok (Some (A3 rs)) /\
     Forall2 (fun v r => dsymop_vec op v c = Ok r) vs rs) /\
  (forall o, goodo 6 o -> exists rs, dsymop_obj op (A4 o) c = Ok (Some (A4 rs)) /\
     Forall2 (Forall2 (fun v r => dsymop_vec op v c = Ok r)) o rs) /\
  (forall a, match a with A1 _ | A5 _ | AX => True | _ => False end -> dsymop_obj op a c = Ok None).
Proof.
  intros op c Hop Hc. pose proof (ig_sq _ _ dodesymop_group op Hop) as Sq.
  split; [|split; [|split]].
  - intros v Hv. pose proof (L_C60_exact op v c Hop Hv Hc) as S. apply wp_elim in S as (r & E & _).
    exists r. split; [|exact E]. unfold dsymop_obj, dsymop_vec in *. cbn [symop_obj_]. rewrite E. reflexivity.
  - intros vs Hvs. pose proof (symop_vecs_spec dode_arith op vs c 6 ltac:(lia) Sq Hvs Hc) as S.
    apply wp_elim in S as (rs & E & _). exists rs. split.
    + unfold dsymop_obj. cbn [symop_obj_]. rewrite E. reflexivity.
    + apply mapM_Forall2. exact E.
  - intros o Ho. pose proof (symop_obj4_spec dode_arith op o c 6 ltac:(lia) Sq Ho Hc) as S.
    apply wp_elim in S as (rs & E & _). exists rs. split.
    + unfold dsymop_obj. cbn [symop_obj_]. rewrite E. reflexivity.
    + apply mapM_Forall2 in E. eapply Forall2_impl; [|exact E].
      intros vs r Hr. apply mapM_Forall2. exact Hr.
  - intros [] H; try contradiction; reflexivity.
Qed.

Example E_C60_ex :
  let v := [T 1 0 2; T 0 1 1; t0; T 1 1 3; t0; t1] in let c := [t1; t0; t0; t0; T 0 1 2; t0] in
  cgood 6 v /\ cgood 6 c /\ In dm1 dodesymop /\
  dsymop_vec dm1 v c = Ok [T 1 1 1; t0; T 1 1 3; T 1 0 2; t0; t1].
Proof.
  cbn zeta. split; [split; [|reflexivity]|split; [split; [|reflexivity]|split]].
  - repeat (apply Forall_cons; [split; reflexivity|]); apply Forall_nil.
  - repeat (apply Forall_cons; [split; reflexivity|]); apply Forall_nil.
  - apply mem_In. vm_compute. reflexivity.
  - vm_compute. reflexivity.
Qed.

(** C61: dsymmetric() returns 24*n parts; block i is operation i applied to the object. *)
Lemma L_C61_blocks : forall o c, goodo 6 o -> good 6 c ->
  exists bs, dsymmetric (A4 o) c = Ok (Some (A4 (concat bs))) /\
    length (concat bs) = (24 * length o)%nat /\
    Forall2 (fun op b => dsymop_obj op (A4 o) c = Ok (Some (A4 b))) dodesymop bs.
Proof.
  intros o c Ho Hc. cbn [dsymmetric]. unfold dgenerator_obj_symmetric_obj. cbn [generator_obj_symmetric_obj_].
  pose proof (blocks_spec dode_arith 6 dodesymop dodesymop_group dodesymop o c (ig_sq _ _ dodesymop_group) Ho Hc) as HB.
  apply wp_elim in HB as (bs & E & HB). exists bs. rewrite E. split; [reflexivity|]. split.
  - rewrite <- dodesymop_length. apply (Forall2_length_concat 6 dodesymop o c bs HB).
  - eapply Forall2_impl; [|exact HB]. intros op b (Eb & _). unfold dsymop_obj. cbn [symop_obj_]. rewrite Eb. reflexivity.
Qed.

(** Block 0 of a canonical object is the object itself. *)
Lemma L_C61_first_block : forall o c, cgoodo 6 o -> good 6 c ->
  exists rest, dsymmetric (A4 o) c = Ok (Some (A4 (o ++ rest))).
Proof.
  intros o c Ho Hc. destruct (L_C61_blocks o c (cgoodo_goodo _ _ Ho) Hc) as (bs & E & _ & HF).
  pose proof dodesymop_hd as Hhd. destruct dodesymop as [|op0 ops]; [discriminate|].
  injection Hhd as ->. inversion HF as [|? b ? bs' Hb _]; subst. exists (concat bs'). rewrite E. cbn [concat].
  enough (b = o) as -> by reflexivity.
  unfold dsymop_obj in Hb. cbn [symop_obj_] in Hb. apply bind_Ok_inv in Hb as (r & Er & [= ->]).
  apply mapM_Forall2 in Er. clear -Er Ho Hc.
  revert Ho. induction Er as [|vs r o b Hr _ IH]; intros Ho; [reflexivity|].
  pose proof (Forall_inv Ho) as Hvs. f_equal; [|apply IH, (Forall_inv_tail Ho)].
  apply mapM_Forall2 in Hr. clear -Hr Hvs Hc.
  revert Hvs. induction Hr as [|v r vs rs Hv _ IH]; intros Hvs; [reflexivity|].
  f_equal; [|apply IH, (Forall_inv_tail Hvs)].
  rewrite (symop_vec_identity dode_arith v c 6) in Hv; [congruence|lia|apply (Forall_inv Hvs)|exact Hc].
Qed.

(** The orbit is closed: every operation permutes the result. *)
Lemma L_C61_closed : forall o c r op, goodo 6 o -> good 6 c -> In op dodesymop ->
  dsymmetric (A4 o) c = Ok (Some (A4 r)) ->
  exists r', dsymop_obj op (A4 r) c = Ok (Some (A4 r')) /\ Permutation r r'.
Proof.
  intros o c r op Ho Hc Hop E. apply (orbit_closed dode_arith 6 dodesymop dodesymop_group o c r op Ho Hc Hop E).
Qed.

(** For one tetrahedron (a 3-d array) dsymmetric() gives its 24 images. *)
Lemma L_C61_single : forall t c, goods 6 t -> good 6 c ->
  exists rs, dsymmetric (A3 t) c = Ok (Some (A4 rs)) /\ length rs = 24%nat /\
    Forall2 (fun op r => dsymop_obj op (A3 t) c = Ok (Some (A3 r))) dodesymop rs.
Proof.
  intros t c Ht Hc. cbn [dsymmetric]. unfold dgenerator_obj_symmetric_obj. cbn [generator_obj_symmetric_obj_].
  assert (H : exists rs, mapM (fun op => symop_vecs_ dadd dmul op t c) dodesymop = Ok rs).
  { pose proof (ig_sq _ _ dodesymop_group) as Sq. revert Sq. induction dodesymop as [|op l IH]; intros Sq.
    - exists []. reflexivity.
    - destruct IH as [rs Ers]; [intros; apply Sq; right; assumption|].
      pose proof (symop_vecs_spec dode_arith op t c 6 ltac:(lia) (Sq op (or_introl eq_refl)) Ht Hc) as S.
      apply wp_elim in S as (r & Er & _). exists (r :: rs). cbn [mapM]. rewrite Er, Ers. reflexivity. }
  destruct H as [rs E]. exists rs. rewrite E. split; [reflexivity|]. split.
  - rewrite <- dodesymop_length. apply (mapM_length _ _ _ E).
  - apply mapM_Forall2 in E. eapply Forall2_impl; [|exact E]. intros op r Hr.
    unfold dsymop_obj. cbn [symop_obj_]. rewrite Hr. reflexivity.
Qed.

Lemma L_C61_other_ndim : forall a c, match a with A3 _ | A4 _ => False | _ => True end ->
  dsymmetric a c = Ok None.
Proof. intros [] c H; try contradiction; reflexivity. Qed.

Example E_C61_ex :
  let t := [[t0;t0;t0;t0;t0;t0]; [t1;t0;t0;t0;t0;t0]; [t0;t1;t0;t0;t0;T 0 1 2]] in
  cgoodo 6 [t] /\ match dsymmetric (A4 [t]) [t0;t0;t0;t0;t0;t0] with
                  | Ok (Some (A4 (t' :: r))) => t' = t /\ length r = 23%nat
                  | _ => False end.
Proof.
  cbn zeta. split.
  - apply Forall_cons; [|apply Forall_nil].
    repeat (apply Forall_cons; [split; [repeat (apply Forall_cons; [split; reflexivity|]); apply Forall_nil|reflexivity]|]);
    apply Forall_nil.
  - vm_compute. split; reflexivity.
Qed.

(** C62: dshift adds the vector to every vertex, keeping shape and order. *)
Lemma L_C62_exact : forall o s, goodo 6 o -> good 6 s ->
  exists r, dshift (A4 o) s = Ok (Some r) /\ cgoodo 6 r /\
    Forall2 (Forall2 (fun v v' => dadd_vectors v s = Ok v')) o r /\
    map (map (vals SIN)) r = map (map (fun v => vadd (vals SIN v) (vals SIN s))) o.
Proof.
  intros o s Ho Hs. pose proof (shift_spec dode_arith o s 6 Ho Hs) as S.
  apply wp_elim in S as (x & E & r & -> & C & V). exists r. split; [exact E|]. split; [exact C|]. split; [|exact V].
  cbn [shift_object_] in E. apply bind_Ok_inv in E as (r' & E & [= ->]).
  apply mapM_Forall2 in E. eapply Forall2_impl; [|exact E]. intros vs rs Hr. apply mapM_Forall2. exact Hr.
Qed.

(** Shifting by u and then by v is shifting by u+v. *)
Lemma L_C62_compose : forall o u v s r1 r2, goodo 6 o -> good 6 u -> good 6 v -> dadd_vectors u v = Ok s ->
  dshift (A4 o) u = Ok (Some r1) -> dshift (A4 r1) v = Ok (Some r2) -> dshift (A4 o) s = Ok (Some r2).
Proof.
  intros o u v s r1 r2 Ho Hu Hv Es E1 E2.
  destruct (L_C62_exact o u Ho Hu) as (x & E1' & C1 & _ & V1). rewrite E1 in E1'. injection E1' as <-.
  destruct (L_C62_exact r1 v (cgoodo_goodo _ _ C1) Hv) as (x & E2' & C2 & _ & V2). rewrite E2 in E2'. injection E2' as <-.
  destruct Hu as [Wu Lu], Hv as [Wv Lv].
  pose proof (add_vectors_spec dode_arith u v Wu Wv ltac:(lia)) as S. unfold dadd_vectors in Es. rewrite Es in S.
  destruct S as [Cs Vs].
  assert (Hs : good 6 s).
  { split; [apply canonv_wfv, Cs|]. rewrite <- (vals_length SIN), Vs, vadd_length; rewrite !vals_length; lia. }
  destruct (L_C62_exact o s Ho Hs) as (x & E3 & C3 & _ & V3). rewrite E3. do 2 f_equal.
  apply (cgoodo_det dode_arith 6); [exact C3|exact C2|]. rewrite V3, V2, Vs.
  replace (map (map (fun v0 => vadd (vals SIN v0) (vals SIN v))) r1)
    with (map (map (fun x => vadd x (vals SIN v))) (map (map (vals SIN)) r1))
    by (rewrite map_map; apply map_ext; intros; rewrite map_map; reflexivity).
  rewrite V1, map_map. apply map_ext. intros t. rewrite map_map. apply map_ext. intros q.
  symmetry. apply vadd_assoc.
Qed.

(** Shifting back by -v restores a canonical object bit for bit. *)
Lemma L_C62_undo : forall o u u' r, cgoodo 6 o -> good 6 u -> dmul_vector u (T (-1) 0 1) = Ok u' ->
  dshift (A4 o) u = Ok (Some r) -> dshift (A4 r) u' = Ok (Some o).
Proof.
  intros o u u' r Ho Hu Eu E1.
  destruct (L_C62_exact o u (cgoodo_goodo _ _ Ho) Hu) as (x & E1' & C1 & _ & V1). rewrite E1 in E1'. injection E1' as <-.
  destruct Hu as [Wu Lu].
  pose proof (mul_vector_spec dode_arith u (T (-1) 0 1) Wu ltac:(unfold wf; cbn; lia)) as S.
  unfold dmul_vector in Eu. rewrite Eu in S. destruct S as [Cs Vs].
  assert (Hs : good 6 u').
  { split; [apply canonv_wfv, Cs|]. rewrite <- (vals_length SIN), Vs, vscale_length, vals_length; exact Lu. }
  destruct (L_C62_exact r u' (cgoodo_goodo _ _ C1) Hs) as (x & E3 & C3 & _ & V3). rewrite E3. do 2 f_equal.
  apply (cgoodo_det dode_arith 6); [exact C3|exact Ho|]. rewrite V3.
  replace (map (map (fun v0 => vadd (vals SIN v0) (vals SIN u'))) r)
    with (map (map (fun x => vadd x (vals SIN u'))) (map (map (vals SIN)) r))
    by (rewrite map_map; apply map_ext; intros; rewrite map_map; reflexivity).
  rewrite V1, map_map. apply map_ext_in. intros t Ht. rewrite map_map. apply map_ext_in. intros q Hq.
  rewrite Vs. replace (val SIN (T (-1) 0 1)) with (-1) by (unfold val; cbn; lra).
  rewrite vadd_assoc.
  assert (L : length (vals SIN q) = length (vals SIN u)).
  { rewrite !vals_length, Lu. unfold cgoodo, cgoods in Ho. rewrite Forall_forall in Ho. specialize (Ho t Ht).
    rewrite Forall_forall in Ho. apply (Ho q Hq). }
  revert L. generalize (vals SIN u) as y. generalize (vals SIN q) as z.
  induction z as [|a z IH]; intros [|b y] L; cbn in L |- *; try discriminate; [reflexivity|].
  f_equal; [ring|]. apply IH. lia.
Qed.

Lemma L_C62_other_ndim : forall a s, match a with A4 _ => False | _ => True end -> dshift a s = Ok None.
Proof. intros [] s H; try contradiction; reflexivity. Qed.

Example E_C62_ex :
  let o := [[[T 1 1 2;t0;t0;t0;t0;t0]; [t1;t0;t0;t0;t0;t0]]] in
  let s := [T 1 0 2; t0; t0; T 0 1 1; t0; t0] in
  cgoodo 6 o /\ good 6 s /\ dshift (A4 o) s =
    Ok (Some [[[T 2 1 2;t0;t0;T 0 1 1;t0;t0]; [T 3 0 2;t0;t0;T 0 1 1;t0;t0]]]).
Proof.
  cbn zeta. split; [|split; [|vm_compute; reflexivity]].
  - repeat (apply Forall_cons; [repeat (apply Forall_cons;
      [split; [repeat (apply Forall_cons; [split; reflexivity|]); apply Forall_nil|reflexivity]|]); apply Forall_nil|]); apply Forall_nil.
  - split; [repeat (apply Forall_cons; [unfold wf; cbn; lia|]); apply Forall_nil|reflexivity].
Qed.

(** C63: the dcentroid is the exact mean. *)
Lemma L_C63_mean : forall pts, pts <> [] -> goods 6 pts ->
  evalsv SIN (dcentroid pts) (mean 6 (map (vals SIN) pts)).
Proof. exact (centroid_spec dode_arith). Qed.

Lemma L_C63_order : forall pts pts', pts <> [] -> goods 6 pts -> Permutation pts pts' ->
  dcentroid pts = dcentroid pts'.
Proof.
  intros pts pts' Hne H P. apply (evalsv_det (x := mean 6 (map (vals SIN) pts)) SIN_irrational).
  - apply L_C63_mean; assumption.
  - rewrite (mean_perm 6 _ _ (Permutation_map _ P)). apply L_C63_mean.
    + intros ->. apply Permutation_sym, Permutation_nil in P. contradiction.
    + apply (Permutation_Forall P H).
Qed.

Lemma L_C63_translation : forall pts s pts' c, pts <> [] -> goods 6 pts -> good 6 s ->
  Forall2 (fun v v' => dadd_vectors v s = Ok v') pts pts' -> dcentroid pts = Ok c ->
  dcentroid pts' = dadd_vectors c s.
Proof.
  intros t s t' c Hne H Hs F Ec.
  assert (G : goods 6 t' /\ map (vals SIN) t' = map (fun v => vadd v (vals SIN s)) (map (vals SIN) t)).
  { clear Hne Ec. revert H. induction F as [|v v' t t' Ev _ IH]; intros H; [split; [constructor|reflexivity]|].
    destruct (Forall_inv H) as [Wv Lv]. destruct Hs as [Ws Ls].
    pose proof (add_vectors_spec dode_arith v s Wv Ws ltac:(lia)) as S.
    unfold dadd_vectors in Ev. rewrite Ev in S. destruct S as [C V].
    destruct (IH (Forall_inv_tail H)) as [I1 I2]. split.
    - constructor; [|exact I1]. split; [apply canonv_wfv, C|].
      rewrite <- (vals_length SIN), V, vadd_length; rewrite !vals_length; lia.
    - cbn [map]. rewrite V, I2. reflexivity. }
  destruct G as [G1 G2]. destruct Hs as [Ws Ls].
  assert (LL : Forall (fun v => length v = 6%nat) (map (vals SIN) t)).
  { apply Forall_forall. intros x Hx. apply in_map_iff in Hx as (v & <- & Hv). rewrite vals_length.
    unfold goods in H. rewrite Forall_forall in H. apply (H v Hv). }
  pose proof (L_C63_mean t Hne H) as S. rewrite Ec in S. destruct S as [Cc Vc].
  apply (evalsv_det (x := vadd (mean 6 (map (vals SIN) t)) (vals SIN s)) SIN_irrational).
  - rewrite <- mean_translate.
    + rewrite <- G2. apply L_C63_mean; [|exact G1]. intros ->. inversion F; subst; contradiction.
    + intros E. apply map_eq_nil in E. contradiction.
    + exact LL.
    + rewrite vals_length; exact Ls.
  - rewrite <- Vc. apply (add_vectors_spec dode_arith); [apply canonv_wfv, Cc|exact Ws|].
    rewrite <- (vals_length SIN c), Vc, mean_length by exact LL. lia.
Qed.

Lemma L_C63_symmetry : forall op ctr pts pts' c, In op dodesymop -> pts <> [] -> goods 6 pts -> good 6 ctr ->
  dsymop_obj op (A3 pts) ctr = Ok (Some (A3 pts')) -> dcentroid pts = Ok c ->
  dcentroid pts' = dsymop_vec op c ctr.
Proof.
  intros op ctr t t' c Hop Hne H Hc E Ec. pose proof (ig_sq _ _ dodesymop_group op Hop) as Sq.
  pose proof (symop_vecs_spec dode_arith op t ctr 6 ltac:(lia) Sq H Hc) as S.
  unfold dsymop_obj in E. cbn [symop_obj_] in E. apply bind_Ok_inv in E as (r & E & [= ->]). rewrite E in S.
  destruct S as [C V]. destruct Hc as [Wc Lc].
  assert (LL : Forall (fun v => length v = 6%nat) (map (vals SIN) t)).
  { apply Forall_forall. intros x Hx. apply in_map_iff in Hx as (v & <- & Hv). rewrite vals_length.
    unfold goods in H. rewrite Forall_forall in H. apply (H v Hv). }
  pose proof (L_C63_mean t Hne H) as S. rewrite Ec in S. destruct S as [Cc Vc].
  apply (evalsv_det (x := act op (vals SIN ctr) (mean 6 (map (vals SIN) t))) SIN_irrational).
  - rewrite <- (mean_act op _ 6).
    + rewrite map_map, <- V. apply L_C63_mean; [|apply cgoods_goods, C].
      intros ->. apply mapM_length in E. destruct t; [contradiction|discriminate].
    + intros E'. apply map_eq_nil in E'. contradiction.
    + exact Sq.
    + exact LL.
    + rewrite vals_length; exact Lc.
  - rewrite <- Vc. apply (symop_vec_spec dode_arith op c ctr 6); auto; try lia; [apply canonv_wfv, Cc|].
    rewrite <- (vals_length SIN c), Vc, mean_length by exact LL. reflexivity.
Qed.

Lemma L_C63_empty : dcentroid [] = Raise ValueError /\ dcentroid_obj [] = Raise ValueError.
Proof. split; reflexivity. Qed.

Lemma L_C63_object : forall o, o <> [] -> Forall (fun t => t <> [] /\ goods 6 t) o ->
  evalsv SIN (dcentroid_obj o) (mean 6 (map (fun t => mean 6 (map (vals SIN) t)) o)).
Proof. exact (centroid_obj_spec dode_arith). Qed.

Example E_C63_ex :
  let p := [[t1;t0;T 0 1 1;t0;t0;t0]; [t0;t1;t0;t0;t0;t0]; [T 1 1 2;t0;t1;t0;t0;t0]] in
  goods 6 p /\ dcentroid p = Ok [T 3 1 6; T 1 0 3; T 1 1 3; t0; t0; t0].
Proof.
  cbn zeta. split; [|vm_compute; reflexivity].
  repeat (apply Forall_cons; [split; [repeat (apply Forall_cons; [unfold wf; cbn; lia|]); apply Forall_nil|reflexivity]|]);
  apply Forall_nil.
Qed.
