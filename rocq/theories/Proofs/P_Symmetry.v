(** Icosahedral symmetry: C11, C12, C13, C14. *)
From Coq Require Import Reals List ZArith Lia Lra Bool Permutation.
From Verif Require Import Base.Res Model.Tau Model.Arr Model.IcoScalar Model.Vectors Model.IcoMath1 Model.IcoSymmetry
  Model.IcoVolume Spec.Value Spec.RVec Spec.Shape Spec.IcoSpec.

From Verif Require Import Proofs.ResLemmas Proofs.ValueLemmas Proofs.Irrational Proofs.ScalarLemmas Proofs.RVecLemmas
  Proofs.VectorLemmas Proofs.MatLemmas Proofs.SymopLemmas Proofs.IcoProj Proofs.MatDec Proofs.GroupLemmas Proofs.IcoGroup.
Import ListNotations.
Local Open Scope R_scope.
Local Opaque icosasymop.

(** C11: 120 pairwise different 6x6 matrices, identity first, closed under
    products, and the transpose of each is its inverse and in the list. *)
Lemma L_C11_group :
  length icosasymop = 120%nat /\ NoDup icosasymop /\ nth_error icosasymop 0 = Some (identity 6) /\
  (forall a, In a icosasymop -> square 6 a) /\
  (forall a b, In a icosasymop -> In b icosasymop -> In (matmul a b) icosasymop) /\
  (forall a, In a icosasymop -> In (transposeZ a) icosasymop /\
     matmul (transposeZ a) a = identity 6 /\ matmul a (transposeZ a) = identity 6).
Proof.
  split; [exact icosasymop_length|]. split; [apply (ig_nodup _ _ icosasymop_group)|].
  split; [exact icosasymop_hd|]. split; [apply (ig_sq _ _ icosasymop_group)|].
  split; [apply (ig_mul _ _ icosasymop_group)|]. exact icosasymop_transpose.
Qed.

(** The product used in C11 is composition of the linear maps, and [identity] is
    the identity map. *)
Lemma L_C11_product_is_composition : forall a b x, square 6 a -> square 6 b -> length x = 6%nat ->
  matvec (IZRm (matmul a b)) x = matvec (IZRm a) (matvec (IZRm b) x) /\
  matvec (IZRm (identity 6)) x = x.
Proof.
  intros a b x Ha Hb Hx. split; [apply (matvec_mul 6); auto; lia|apply matvec_identity; exact Hx].
Qed.

Example E_C11_ex : In sm4 icosasymop /\ In sm1 icosasymop /\ matmul sm4 sm1 <> matmul sm1 sm4.
Proof.
  split; [apply mem_In; vm_compute; reflexivity|]. split; [apply mem_In; vm_compute; reflexivity|]. vm_compute; discriminate.
Qed.

(** C12: orthogonal on parallel and on perpendicular space separately. *)
Lemma L_C12_isometry : forall op, In op icosasymop ->
  exists Mpar Mperp, orthogonal 3 Mpar /\ orthogonal 3 Mperp /\
    forall x, length x = 6%nat ->
      par (matvec (IZRm op) x) = matvec Mpar (par x) /\
      perp (matvec (IZRm op) x) = matvec Mperp (perp x).
Proof. exact icosasymop_iso. Qed.

(** Hence lengths and angles are preserved: for two 6-d vectors the scalar
    products of the projections of the images equal those of the originals. *)
Lemma L_C12_preserves_products : forall op u v, In op icosasymop -> length u = 6%nat -> length v = 6%nat ->
  dot (par (matvec (IZRm op) u)) (par (matvec (IZRm op) v)) = dot (par u) (par v) /\
  dot (perp (matvec (IZRm op) u)) (perp (matvec (IZRm op) v)) = dot (perp u) (perp v).
Proof.
  intros op u v Hop Hu Hv. destruct (icosasymop_iso op Hop) as (P & Q & (_ & _ & OP) & (_ & _ & OQ) & H).
  destruct (H u Hu) as [-> ->], (H v Hv) as [-> ->]. split; [apply OP|apply OQ]; reflexivity.
Qed.

(** C13: symop_vec is R(v-c)+c, exactly. *)
Lemma L_C13_exact : forall op v c, In op icosasymop -> good 6 v -> good 6 c ->
  evalsv TAU (symop_vec op v c) (vadd (matvec (IZRm op) (vsub (vals TAU v) (vals TAU c))) (vals TAU c)).
Proof.
  intros op v c Hop [Wv Lv] [Wc Lc].
  apply (symop_vec_spec ico_arith op v c 6); auto; [lia|apply (ig_sq _ _ icosasymop_group), Hop].
Qed.

Lemma L_C13_fixes_centre : forall op c, In op icosasymop -> cgood 6 c -> symop_vec op c c = Ok c.
Proof.
  intros op c Hop Hc. apply (symop_vec_centre ico_arith op c 6); auto; [lia|].
  apply (ig_sq _ _ icosasymop_group), Hop.
Qed.

Lemma L_C13_compose : forall op1 op2 v c, In op1 icosasymop -> In op2 icosasymop -> good 6 v -> good 6 c ->
  exists v1 v2, symop_vec op1 v c = Ok v1 /\ symop_vec op2 v1 c = Ok v2 /\
    symop_vec (matmul op2 op1) v c = Ok v2.
Proof.
  intros op1 op2 v c H1 H2 Hv Hc.
  pose proof (symop_vec_compose ico_arith op1 op2 v c 6 ltac:(lia) (ig_sq _ _ icosasymop_group _ H1)
    (ig_sq _ _ icosasymop_group _ H2) Hv Hc) as E.
  pose proof (L_C13_exact _ v c (ig_mul _ _ icosasymop_group op2 op1 H2 H1) Hv Hc) as S.
  apply wp_elim in S as (v2 & E2 & _). unfold symop_vec in *. rewrite E2 in E.
  apply bind_Ok_inv in E as (v1 & E1 & E'). exists v1, v2. auto.
Qed.

(** Applying an operation and then its inverse restores a canonical vector bit for bit. *)
Lemma L_C13_inverse : forall op v c, In op icosasymop -> cgood 6 v -> good 6 c ->
  exists v1, symop_vec op v c = Ok v1 /\ symop_vec (transposeZ op) v1 c = Ok v.
Proof.
  intros op v c Hop Hv Hc. destruct (icosasymop_transpose op Hop) as (Ht & Et & _).
  destruct (L_C13_compose op (transposeZ op) v c Hop Ht (cgood_good _ _ Hv) Hc) as (v1 & v2 & E1 & E2 & E3).
  exists v1. split; [exact E1|]. rewrite Et in E3. rewrite E2, <- E3.
  apply (symop_vec_identity ico_arith v c 6); auto; lia.
Qed.

(** symop_obj maps this over the array, keeping its shape; other ndim: None. *)
Lemma L_C13_symop_obj : forall op c, In op icosasymop -> good 6 c ->
  (forall v, good 6 v -> exists r, symop_obj op (A2 v) c = Ok (Some (A2 r)) /\ symop_vec op v c = Ok r) /\
  (forall vs, goods 6 vs -> exists rs, symop_obj op (A3 vs) c = Ok (Some (A3 rs)) /\
     Forall2 (fun v r => symop_vec op v c = Ok r) vs rs) /\
  (forall o, goodo 6 o -> exists rs, symop_obj op (A4 o) c = Ok (Some (A4 rs)) /\
     Forall2 (Forall2 (fun v r => symop_vec op v c = Ok r)) o rs) /\
  (forall a, match a with A1 _ | A5 _ | AX => True | _ => False end -> symop_obj op a c = Ok None).
Proof.
  intros op c Hop Hc. pose proof (ig_sq _ _ icosasymop_group op Hop) as Sq.
  split; [|split; [|split]].
  - intros v Hv. pose proof (L_C13_exact op v c Hop Hv Hc) as S. apply wp_elim in S as (r & E & _).
    exists r. split; [|exact E]. unfold symop_obj, symop_vec in *. cbn [symop_obj_]. rewrite E. reflexivity.
  - intros vs Hvs. pose proof (symop_vecs_spec ico_arith op vs c 6 ltac:(lia) Sq Hvs Hc) as S.
    apply wp_elim in S as (rs & E & _). exists rs. split.
    + unfold symop_obj. cbn [symop_obj_]. rewrite E. reflexivity.
    + apply mapM_Forall2. exact E.
  - intros o Ho. pose proof (symop_obj4_spec ico_arith op o c 6 ltac:(lia) Sq Ho Hc) as S.
    apply wp_elim in S as (rs & E & _). exists rs. split.
    + unfold symop_obj. cbn [symop_obj_]. rewrite E. reflexivity.
    + apply mapM_Forall2 in E. eapply Forall2_impl; [|exact E].
      intros vs r Hr. apply mapM_Forall2. exact Hr.
  - intros [] H; try contradiction; reflexivity.
Qed.

Example E_C13_ex :
  let v := [T 1 0 2; T 0 1 1; t0; T 1 1 3; t0; t1] in let c := [t1; t0; t0; t0; T 0 1 2; t0] in
  cgood 6 v /\ cgood 6 c /\ In sm4 icosasymop /\
  symop_vec sm4 v c = Ok [T 1 1 1; t0; T (-1) 0 2; t1; T (-2) 1 6; T 0 1 2].
Proof.
  cbn zeta. split; [split; [|reflexivity]|split; [split; [|reflexivity]|split]].
  - repeat (apply Forall_cons; [split; reflexivity|]); apply Forall_nil.
  - repeat (apply Forall_cons; [split; reflexivity|]); apply Forall_nil.
  - apply mem_In. vm_compute. reflexivity.
  - vm_compute. reflexivity.
Qed.

(** C14: symmetric() returns 120*n parts; block i is operation i applied to the object. *)
Lemma L_C14_blocks : forall o c, goodo 6 o -> good 6 c ->
  exists bs, symmetric (A4 o) c = Ok (Some (A4 (concat bs))) /\
    length (concat bs) = (120 * length o)%nat /\
    Forall2 (fun op b => symop_obj op (A4 o) c = Ok (Some (A4 b))) icosasymop bs.
Proof.
  intros o c Ho Hc. cbn [symmetric]. unfold generator_obj_symmetric_obj. cbn [generator_obj_symmetric_obj_].
  pose proof (blocks_spec ico_arith 6 icosasymop icosasymop_group icosasymop o c (ig_sq _ _ icosasymop_group) Ho Hc) as HB.
  apply wp_elim in HB as (bs & E & HB). exists bs. rewrite E. split; [reflexivity|]. split.
  - rewrite <- icosasymop_length. apply (Forall2_length_concat 6 icosasymop o c bs HB).
  - eapply Forall2_impl; [|exact HB]. intros op b (Eb & _). unfold symop_obj. cbn [symop_obj_]. rewrite Eb. reflexivity.
Qed.

(** Block 0 of a canonical object is the object itself. *)
Lemma L_C14_first_block : forall o c, cgoodo 6 o -> good 6 c ->
  exists rest, symmetric (A4 o) c = Ok (Some (A4 (o ++ rest))).
Proof.
  intros o c Ho Hc. destruct (L_C14_blocks o c (cgoodo_goodo _ _ Ho) Hc) as (bs & E & _ & HF).
  pose proof icosasymop_hd as Hhd. destruct icosasymop as [|op0 ops]; [discriminate|].
  injection Hhd as ->. inversion HF as [|? b ? bs' Hb _]; subst. exists (concat bs'). rewrite E. cbn [concat].
  enough (b = o) as -> by reflexivity.
  unfold symop_obj in Hb. cbn [symop_obj_] in Hb. apply bind_Ok_inv in Hb as (r & Er & [= ->]).
  apply mapM_Forall2 in Er. clear -Er Ho Hc.
  revert Ho. induction Er as [|vs r o b Hr _ IH]; intros Ho; [reflexivity|].
  pose proof (Forall_inv Ho) as Hvs. f_equal; [|apply IH, (Forall_inv_tail Ho)].
  apply mapM_Forall2 in Hr. clear -Hr Hvs Hc.
  revert Hvs. induction Hr as [|v r vs rs Hv _ IH]; intros Hvs; [reflexivity|].
  f_equal; [|apply IH, (Forall_inv_tail Hvs)].
  rewrite (symop_vec_identity ico_arith v c 6) in Hv; [congruence|lia|apply (Forall_inv Hvs)|exact Hc].
Qed.

(** The orbit is closed: every operation permutes the result. *)
Lemma L_C14_closed : forall o c r op, goodo 6 o -> good 6 c -> In op icosasymop ->
  symmetric (A4 o) c = Ok (Some (A4 r)) ->
  exists r', symop_obj op (A4 r) c = Ok (Some (A4 r')) /\ Permutation r r'.
Proof.
  intros o c r op Ho Hc Hop E. apply (orbit_closed ico_arith 6 icosasymop icosasymop_group o c r op Ho Hc Hop E).
Qed.

(** For one tetrahedron (a 3-d array) symmetric() gives its 120 images. *)
Lemma L_C14_single : forall t c, goods 6 t -> good 6 c ->
  exists rs, symmetric (A3 t) c = Ok (Some (A4 rs)) /\ length rs = 120%nat /\
    Forall2 (fun op r => symop_obj op (A3 t) c = Ok (Some (A3 r))) icosasymop rs.
Proof.
  intros t c Ht Hc. cbn [symmetric]. unfold generator_obj_symmetric_obj. cbn [generator_obj_symmetric_obj_].
  assert (H : exists rs, mapM (fun op => symop_vecs_ add mul op t c) icosasymop = Ok rs).
  { pose proof (ig_sq _ _ icosasymop_group) as Sq. revert Sq. induction icosasymop as [|op l IH]; intros Sq.
    - exists []. reflexivity.
    - destruct IH as [rs Ers]; [intros; apply Sq; right; assumption|].
      pose proof (symop_vecs_spec ico_arith op t c 6 ltac:(lia) (Sq op (or_introl eq_refl)) Ht Hc) as S.
      apply wp_elim in S as (r & Er & _). exists (r :: rs). cbn [mapM]. rewrite Er, Ers. reflexivity. }
  destruct H as [rs E]. exists rs. rewrite E. split; [reflexivity|]. split.
  - rewrite <- icosasymop_length. apply (mapM_length _ _ _ E).
  - apply mapM_Forall2 in E. eapply Forall2_impl; [|exact E]. intros op r Hr.
    unfold symop_obj. cbn [symop_obj_]. rewrite Hr. reflexivity.
Qed.

Lemma L_C14_other_ndim : forall a c, match a with A3 _ | A4 _ => False | _ => True end ->
  symmetric a c = Ok None.
Proof. intros [] c H; try contradiction; reflexivity. Qed.

Example E_C14_ex :
  let t := [[t0;t0;t0;t0;t0;t0]; [t1;t0;t0;t0;t0;t0]; [t0;t1;t0;t0;t0;t0]; [t0;t0;t1;t0;t0;T 0 1 2]] in
  cgoodo 6 [t] /\ match symmetric (A4 [t]) [t0;t0;t0;t0;t0;t0] with
                  | Ok (Some (A4 (t' :: r))) => t' = t /\ length r = 119%nat
                  | _ => False end.
Proof.
  cbn zeta. split.
  - apply Forall_cons; [|apply Forall_nil].
    repeat (apply Forall_cons; [split; [repeat (apply Forall_cons; [split; reflexivity|]); apply Forall_nil|reflexivity]|]);
    apply Forall_nil.
  - vm_compute. split; reflexivity.
Qed.
