(** The 120 icosahedral operations. *)
From Coq Require Import Reals List ZArith Lia Lra Bool Permutation.
From Verif Require Import Base.Res Model.Tau Model.Arr Model.Vectors Model.IcoMath1 Model.IcoSymmetry
  Spec.Value Spec.RVec Spec.Shape Spec.IcoSpec
  Proofs.ResLemmas Proofs.ValueLemmas Proofs.Irrational Proofs.ScalarLemmas Proofs.RVecLemmas Proofs.VectorLemmas
  Proofs.MatLemmas Proofs.SymopLemmas Proofs.MatDec Proofs.GroupLemmas Proofs.IcoProj.
Import ListNotations.
Local Open Scope R_scope.

Lemma icosasymop_length : length icosasymop = 120%nat.
Proof. vm_compute. reflexivity. Qed.
Lemma icosasymop_hd : nth_error icosasymop 0 = Some (identity 6).
Proof. vm_compute. reflexivity. Qed.
Lemma icosasymop_group : is_group 6 icosasymop.
Proof. apply groupb_sound; [lia|]. vm_compute. reflexivity. Qed.
Lemma icosasymop_transpose op : In op icosasymop ->
  In (transposeZ op) icosasymop /\ matmul (transposeZ op) op = identity 6 /\ matmul op (transposeZ op) = identity 6.
Proof.
  assert (H : forallb (fun op => mem (transposeZ op) icosasymop &&
    mat_eqb (matmul (transposeZ op) op) (identity 6) && mat_eqb (matmul op (transposeZ op)) (identity 6))
    icosasymop = true) by (vm_compute; reflexivity).
  rewrite forallb_forall in H. intros Hop. apply H in Hop.
  repeat apply andb_prop in Hop as [Hop ?].
  split; [apply mem_In; assumption|]. split; apply mat_eqb_eq; assumption.
Qed.

(** ** Isometries *)
(** product of two 3x3 matrices *)
Definition m33 (a b : list (list R)) : list (list R) :=
  map (fun r => map (fun j => dot r (map (fun row => nth j row 0) b)) [0;1;2]%nat) a.

Lemma list3 (r : list R) : length r = 3%nat -> exists x y z, r = [x;y;z].
Proof. intros L; len3 r; eauto. Qed.

Lemma mat3 (a : list (list R)) : length a = 3%nat -> rect a 3 ->
  exists a1 a2 a3 a4 a5 a6 a7 a8 a9, a = [[a1;a2;a3];[a4;a5;a6];[a7;a8;a9]].
Proof.
  intros L H. destruct a as [|r1 [|r2 [|r3 [|]]]]; try discriminate.
  pose proof (Forall_inv H) as H1. pose proof (Forall_inv (Forall_inv_tail H)) as H2.
  pose proof (Forall_inv (Forall_inv_tail (Forall_inv_tail H))) as H3. cbn beta in *.
  destruct (list3 r1 H1) as (? & ? & ? & ->), (list3 r2 H2) as (? & ? & ? & ->), (list3 r3 H3) as (? & ? & ? & ->).
  repeat eexists.
Qed.

Lemma m33_spec a b x : length a = 3%nat -> rect a 3 -> length b = 3%nat -> rect b 3 -> length x = 3%nat ->
  matvec (m33 a b) x = matvec a (matvec b x).
Proof.
  intros La Ra Lb Rb Lx. destruct (mat3 a La Ra) as (a1&a2&a3&a4&a5&a6&a7&a8&a9&->).
  destruct (mat3 b Lb Rb) as (b1&b2&b3&b4&b5&b6&b7&b8&b9&->). len3 x.
  unfold m33. unvec. cbn [nth]. repeat (apply f_equal2; [ring|]). reflexivity.
Qed.

Lemma orthogonal_compose a b : orthogonal 3 a -> orthogonal 3 b -> orthogonal 3 (m33 a b).
Proof.
  intros (La & Ra & Ha) (Lb & Rb & Hb). split; [|split].
  - unfold m33; rewrite map_length; exact La.
  - apply Forall_forall. intros r Hr. apply in_map_iff in Hr as (y & <- & _). reflexivity.
  - intros u v Lu Lv. rewrite !m33_spec by assumption.
    rewrite Ha by (rewrite matvec_length; assumption). apply Hb; assumption.
Qed.

Lemma iso_compose a b : square 6 a -> square 6 b -> iso a -> iso b -> iso (matmul a b).
Proof.
  intros Sa Sb (P1 & Q1 & OP1 & OQ1 & H1) (P2 & Q2 & OP2 & OQ2 & H2).
  exists (m33 P1 P2), (m33 Q1 Q2). split; [|split]; try (apply orthogonal_compose; assumption).
  intros x Lx. rewrite (matvec_mul 6) by (assumption || lia).
  assert (L : length (matvec (IZRm b) x) = 6%nat) by (rewrite matvec_length; unfold IZRm; rewrite map_length; apply Sb).
  destruct (H1 _ L) as [-> ->]. destruct (H2 _ Lx) as [-> ->].
  destruct OP1 as (? & ? & _), OQ1 as (? & ? & _), OP2 as (? & ? & _), OQ2 as (? & ? & _).
  rewrite !m33_spec; auto.
Qed.

Lemma iso_identity : iso (identity 6).
Proof.
  exists (IZRm (identity 3)), (IZRm (identity 3)).
  assert (O : orthogonal 3 (IZRm (identity 3))).
  { split; [reflexivity|]. split; [repeat constructor|].
    intros u v Lu Lv. rewrite !matvec_identity by assumption. reflexivity. }
  split; [exact O|]. split; [exact O|].
  intros x Lx. rewrite (matvec_identity 6 x Lx).
  rewrite !matvec_identity by reflexivity. split; reflexivity.
Qed.

Definition sm1_par : list (list R) := [[(1/2+0/2*TAU); (-1/2+1/2*TAU); (0/2+-1/2*TAU)]; [(-1/2+1/2*TAU); (0/2+1/2*TAU); (1/2+0/2*TAU)]; [(0/2+1/2*TAU); (-1/2+0/2*TAU); (-1/2+1/2*TAU)]].
Definition sm1_perp : list (list R) := [[(1/2+0/2*TAU); (0/2+-1/2*TAU); (-1/2+1/2*TAU)]; [(0/2+-1/2*TAU); (1/2+-1/2*TAU); (1/2+0/2*TAU)]; [(1/2+-1/2*TAU); (-1/2+0/2*TAU); (0/2+-1/2*TAU)]].
Definition sm2_par : list (list R) := [[(-1/2+0/2*TAU); (1/2+-1/2*TAU); (0/2+-1/2*TAU)]; [(1/2+-1/2*TAU); (0/2+-1/2*TAU); (1/2+0/2*TAU)]; [(0/2+-1/2*TAU); (1/2+0/2*TAU); (-1/2+1/2*TAU)]].
Definition sm2_perp : list (list R) := [[(-1/2+0/2*TAU); (0/2+1/2*TAU); (-1/2+1/2*TAU)]; [(0/2+1/2*TAU); (-1/2+1/2*TAU); (1/2+0/2*TAU)]; [(-1/2+1/2*TAU); (1/2+0/2*TAU); (0/2+-1/2*TAU)]].
Definition sm3_par : list (list R) := [[(-1/2+0/2*TAU); (-1/2+1/2*TAU); (0/2+-1/2*TAU)]; [(-1/2+1/2*TAU); (0/2+-1/2*TAU); (-1/2+0/2*TAU)]; [(0/2+-1/2*TAU); (-1/2+0/2*TAU); (-1/2+1/2*TAU)]].
Definition sm3_perp : list (list R) := [[(-1/2+0/2*TAU); (0/2+-1/2*TAU); (-1/2+1/2*TAU)]; [(0/2+-1/2*TAU); (-1/2+1/2*TAU); (-1/2+0/2*TAU)]; [(-1/2+1/2*TAU); (-1/2+0/2*TAU); (0/2+-1/2*TAU)]].
Definition sm4_par : list (list R) := [[(0/2+1/2*TAU); (1/2+0/2*TAU); (1/2+-1/2*TAU)]; [(1/2+0/2*TAU); (1/2+-1/2*TAU); (0/2+1/2*TAU)]; [(-1/2+1/2*TAU); (0/2+-1/2*TAU); (-1/2+0/2*TAU)]].
Definition sm4_perp : list (list R) := [[(1/2+-1/2*TAU); (1/2+0/2*TAU); (0/2+1/2*TAU)]; [(1/2+0/2*TAU); (0/2+1/2*TAU); (1/2+-1/2*TAU)]; [(0/2+-1/2*TAU); (-1/2+1/2*TAU); (-1/2+0/2*TAU)]].
Definition sm5_par : list (list R) := [[(-2/2+0/2*TAU); (0/2+0/2*TAU); (0/2+0/2*TAU)]; [(0/2+0/2*TAU); (-2/2+0/2*TAU); (0/2+0/2*TAU)]; [(0/2+0/2*TAU); (0/2+0/2*TAU); (-2/2+0/2*TAU)]].
Definition sm5_perp : list (list R) := [[(-2/2+0/2*TAU); (0/2+0/2*TAU); (0/2+0/2*TAU)]; [(0/2+0/2*TAU); (-2/2+0/2*TAU); (0/2+0/2*TAU)]; [(0/2+0/2*TAU); (0/2+0/2*TAU); (-2/2+0/2*TAU)]].

Ltac orth := split; [reflexivity|]; split; [repeat constructor|];
  intros u v Lu Lv; len3 u; len3 v; unvec; field [TAU_sq].
Ltac inter := intros x Lx; len6 x; unfold par, perp, par_rows, perp_rows, IZRm;
  unvec; split; repeat (apply f_equal2; [field [TAU_sq]|]); reflexivity.

Lemma iso_sm1 : iso sm1.
Proof.
  exists sm1_par, sm1_perp. split; [unfold sm1_par; orth|]. split; [unfold sm1_perp; orth|].
  unfold sm1, sm1_par, sm1_perp. inter.
Qed.
Lemma iso_sm2 : iso sm2.
Proof.
  exists sm2_par, sm2_perp. split; [unfold sm2_par; orth|]. split; [unfold sm2_perp; orth|].
  unfold sm2, sm2_par, sm2_perp. inter.
Qed.
Lemma iso_sm3 : iso sm3.
Proof.
  exists sm3_par, sm3_perp. split; [unfold sm3_par; orth|]. split; [unfold sm3_perp; orth|].
  unfold sm3, sm3_par, sm3_perp. inter.
Qed.
Lemma iso_sm4 : iso sm4.
Proof.
  exists sm4_par, sm4_perp. split; [unfold sm4_par; orth|]. split; [unfold sm4_perp; orth|].
  unfold sm4, sm4_par, sm4_perp. inter.
Qed.
Lemma iso_sm5 : iso sm5.
Proof.
  exists sm5_par, sm5_perp. split; [unfold sm5_par; orth|]. split; [unfold sm5_perp; orth|].
  unfold sm5, sm5_par, sm5_perp. inter.
Qed.

Lemma pow_square n m k : (0 < n)%nat -> square n m -> square n (matrixpow m k).
Proof.
  intros Hn Hm. induction k; cbn.
  - destruct Hm as [-> _]. apply identity_square.
  - apply matmul_square; assumption.
Qed.

Lemma iso_pow m k : square 6 m -> iso m -> iso (matrixpow m k).
Proof.
  intros Hs Hm. induction k; cbn.
  - destruct Hs as [-> _]. apply iso_identity.
  - apply iso_compose; auto. apply pow_square; [lia|assumption].
Qed.

Lemma sm_square : square 6 sm1 /\ square 6 sm2 /\ square 6 sm3 /\ square 6 sm4 /\ square 6 sm5.
Proof. repeat split; try (apply squareb_square; reflexivity); repeat constructor. Qed.

Lemma icosasymop_iso op : In op icosasymop -> iso op.
Proof.
  intros H. unfold icosasymop in H.
  apply in_flat_map in H as (m & _ & H). apply in_flat_map in H as (l & _ & H).
  apply in_flat_map in H as (k & _ & H). apply in_flat_map in H as (j & _ & H).
  apply in_map_iff in H as (i & <- & _).
  destruct sm_square as (S1 & S2 & S3 & S4 & S5).
  assert (P1 := pow_square 6 sm1 i ltac:(lia) S1). assert (P2 := pow_square 6 sm2 j ltac:(lia) S2).
  assert (P3 := pow_square 6 sm3 k ltac:(lia) S3). assert (P4 := pow_square 6 sm4 l ltac:(lia) S4).
  assert (P5 := pow_square 6 sm5 m ltac:(lia) S5).
  repeat (apply iso_compose; [repeat apply matmul_square; (lia || assumption)|assumption| |]);
    apply iso_pow; auto using iso_sm1, iso_sm2, iso_sm3, iso_sm4, iso_sm5.
Qed.
