(** Solid geometry facts. *)
From Coq Require Import Reals List Lia Lra Psatz Permutation.
From Verif Require Import Spec.RVec Spec.Geometry Proofs.RVecLemmas.
Import ListNotations.
Local Open Scope R_scope.

Ltac l3 v := let a := fresh "a" in let b := fresh "b" in let c := fresh "c" in
  destruct v as [|a [|b [|c [|]]]]; try discriminate.
Ltac uv := unfold det3, norm2, dot, vadd, vsub, vscale, cross; cbn [map zipWith Rsum].

(** A function of a list that is unchanged by swapping neighbours is unchanged by
    every permutation. *)
Lemma swap_perm {A B} (P : A -> Prop) (f : list A -> B) :
  (forall pre x y post, Forall P pre -> P x -> P y -> Forall P post ->
     f (pre ++ x :: y :: post) = f (pre ++ y :: x :: post)) ->
  forall l l', Permutation l l' -> Forall P l -> f l = f l'.
Proof.
  intros Hs.
  enough (H : forall l l', Permutation l l' -> forall pre, Forall P pre -> Forall P l -> f (pre ++ l) = f (pre ++ l')).
  { intros l l' Hp Hl. apply (H l l' Hp []); [constructor|exact Hl]. }
  induction 1 as [|x l l' _ IH|x y l|l l' l'' P1 IH1 P2 IH2]; intros pre Hpre Hl.
  - reflexivity.
  - inversion Hl; subst.
    change (x :: l) with ([x] ++ l). change (x :: l') with ([x] ++ l'). rewrite !app_assoc.
    apply IH; [apply Forall_app; auto|assumption].
  - inversion Hl as [|? ? Hy Hl']; subst. inversion Hl'; subst. apply Hs; assumption.
  - rewrite IH1 by assumption. apply IH2; [assumption|]. apply (Permutation_Forall P1); assumption.
Qed.

Lemma tetvol_swap pre (x y : list R) post :
  Forall (fun v => length v = 3%nat) pre -> length x = 3%nat -> length y = 3%nat ->
  Forall (fun v => length v = 3%nat) post ->
  tetvol (pre ++ x :: y :: post) = tetvol (pre ++ y :: x :: post).
Proof.
  intros Hpre Hx Hy Hpost.
  assert (F : forall p, Forall (fun v : list R => length v = 3%nat) p -> forall v, In v p -> length v = 3%nat).
  { intros p Hp v Hv. eapply Forall_forall in Hp; eassumption. }
  pose proof (F _ Hpre) as F1. pose proof (F _ Hpost) as F2. clear F Hpre Hpost.
  assert (N : forall a b : R, a = - b -> Rabs a / 6 = Rabs b / 6).
  { intros a b ->. rewrite Rabs_Ropp. reflexivity. }
  destruct pre as [|p1 [|p2 [|p3 pre]]]; cbn [app].
  - destruct post as [|q1 [|q2 [|]]]; try reflexivity. cbn [tetvol].
    pose proof (F2 q1 (or_introl eq_refl)) as L1. pose proof (F2 q2 (or_intror (or_introl eq_refl))) as L2.
    clear F1 F2. l3 x; l3 y; l3 q1; l3 q2. apply N. uv. ring.
  - destruct post as [|q1 [|]]; try reflexivity. cbn [tetvol].
    pose proof (F1 p1 (or_introl eq_refl)) as L1. pose proof (F2 q1 (or_introl eq_refl)) as L2.
    clear F1 F2. l3 x; l3 y; l3 q1; l3 p1. apply N. uv. ring.
  - destruct post as [|]; try reflexivity. cbn [tetvol].
    pose proof (F1 p1 (or_introl eq_refl)) as L1. pose proof (F1 p2 (or_intror (or_introl eq_refl))) as L2.
    clear F1 F2. l3 x; l3 y; l3 p1; l3 p2. apply N. uv. ring.
  - destruct pre; [|destruct pre]; reflexivity.
Qed.

Lemma tetvol_perm l l' : Permutation l l' -> Forall (fun v => length v = 3%nat) l -> tetvol l = tetvol l'.
Proof. intros P H. apply (swap_perm (fun v => length v = 3%nat)); auto. intros; apply tetvol_swap; assumption. Qed.

Lemma vsub_translate u v s : length u = length v -> length v = length s ->
  vsub (vadd u s) (vadd v s) = vsub u v.
Proof.
  revert v s; induction u as [|x xs IH]; intros [|y ys] [|z zs] L1 L2; cbn in *; try discriminate; [reflexivity|].
  f_equal; [ring|apply IH; lia].
Qed.

Lemma tetvol_translate l s : length s = 3%nat -> Forall (fun v => length v = 3%nat) l ->
  tetvol (map (fun v => vadd v s) l) = tetvol l.
Proof.
  intros Ls H. destruct l as [|p0 [|p1 [|p2 [|p3 [|]]]]]; try reflexivity.
  cbn [map tetvol].
  pose proof (Forall_inv H). pose proof (Forall_inv (Forall_inv_tail H)).
  pose proof (Forall_inv (Forall_inv_tail (Forall_inv_tail H))).
  pose proof (Forall_inv (Forall_inv_tail (Forall_inv_tail (Forall_inv_tail H)))). cbn beta in *.
  rewrite !vsub_translate by congruence. reflexivity.
Qed.

(** Gram determinant. *)
Definition gram (u v w : list R) : R :=
  dot u u * (dot v v * dot w w - dot v w * dot v w)
  - dot u v * (dot u v * dot w w - dot v w * dot u w)
  + dot u w * (dot u v * dot v w - dot v v * dot u w).

Lemma det3_gram u v w : length u = 3%nat -> length v = 3%nat -> length w = 3%nat ->
  det3 u v w * det3 u v w = gram u v w.
Proof. intros Lu Lv Lw. l3 u; l3 v; l3 w. unfold gram. uv. ring. Qed.

Lemma abs_eq_sqr a b : a * a = b * b -> Rabs a = Rabs b.
Proof. intros H. apply Rsqr_eq_abs_0. exact H. Qed.

Lemma det3_orthogonal M u v w : orthogonal 3 M ->
  length u = 3%nat -> length v = 3%nat -> length w = 3%nat ->
  Rabs (det3 (matvec M u) (matvec M v) (matvec M w)) = Rabs (det3 u v w).
Proof.
  intros (L & _ & H) Lu Lv Lw. apply abs_eq_sqr.
  rewrite !det3_gram by (rewrite ?matvec_length; assumption). unfold gram. rewrite !H by assumption. reflexivity.
Qed.

Lemma tetvol_orthogonal M l : orthogonal 3 M -> Forall (fun v => length v = 3%nat) l ->
  tetvol (map (matvec M) l) = tetvol l.
Proof.
  intros HM H. destruct l as [|p0 [|p1 [|p2 [|p3 [|]]]]]; try reflexivity.
  cbn [map tetvol].
  pose proof (Forall_inv H). pose proof (Forall_inv (Forall_inv_tail H)).
  pose proof (Forall_inv (Forall_inv_tail (Forall_inv_tail H))).
  pose proof (Forall_inv (Forall_inv_tail (Forall_inv_tail (Forall_inv_tail H)))). cbn beta in *.
  rewrite <- !matvec_vsub by congruence. rewrite det3_orthogonal; auto; rewrite vsub_length; congruence.
Qed.

Lemma tetvol_nonneg l : 0 <= tetvol l.
Proof.
  destruct l as [|p0 [|p1 [|p2 [|p3 [|]]]]]; cbn [tetvol]; try lra.
  pose proof (Rabs_pos (det3 (vsub p1 p0) (vsub p2 p0) (vsub p3 p0))). lra.
Qed.

(** ** Coplanarity *)
Lemma cross_dot_l u v : length u = 3%nat -> length v = 3%nat -> dot (cross u v) u = 0.
Proof. intros Lu Lv. l3 u; l3 v. uv. ring. Qed.
Lemma cross_dot_r u v : length u = 3%nat -> length v = 3%nat -> dot (cross u v) v = 0.
Proof. intros Lu Lv. l3 u; l3 v. uv. ring. Qed.
Lemma cross_length u v : length u = 3%nat -> length v = 3%nat -> length (cross u v) = 3%nat.
Proof. intros Lu Lv. l3 u; l3 v. reflexivity. Qed.
Lemma cross_norm u v : length u = 3%nat -> length v = 3%nat ->
  norm2 (cross u v) = norm2 u * norm2 v - dot u v * dot u v.
Proof. intros Lu Lv. l3 u; l3 v. uv. ring. Qed.

Lemma v3_dec (v : list R) : length v = 3%nat -> v = [0;0;0] \/ v <> [0;0;0].
Proof.
  intros L; l3 v.
  destruct (Req_dec a 0) as [->|Ha]; [|right; intros E; inversion E; contradiction].
  destruct (Req_dec b 0) as [->|Hb]; [|right; intros E; inversion E; contradiction].
  destruct (Req_dec c 0) as [->|Hc]; [|right; intros E; inversion E; contradiction].
  left; reflexivity.
Qed.

Lemma exists_perp a : length a = 3%nat -> exists n, length n = 3%nat /\ n <> [0;0;0] /\ dot n a = 0.
Proof.
  intros L. destruct a as [|x [|y [|z [|]]]]; try discriminate.
  destruct (Req_dec x 0) as [->|Hx].
  - exists [1;0;0]. split; [reflexivity|]. split; [intros [= E]; lra|uv; ring].
  - exists [y;-x;0]. split; [reflexivity|]. split; [intros [= E1 E2]; lra|uv; ring].
Qed.

Lemma parallel_dot n a b : length n = 3%nat -> length a = 3%nat -> length b = 3%nat ->
  a <> [0;0;0] -> cross a b = [0;0;0] -> dot n a = 0 -> dot n b = 0.
Proof.
  intros Ln La Lb Ha Hc Hn.
  assert (E : norm2 a * dot n b = dot a b * dot n a + dot n (cross (cross a b) a)).
  { clear Hc. l3 n; l3 a; l3 b. uv. ring. }
  rewrite Hc, Hn in E.
  assert (Z0 : dot n (cross [0;0;0] a) = 0) by (l3 n; l3 a; uv; ring).
  rewrite Z0 in E.
  destruct (Req_dec (norm2 a) 0) as [H0|H0].
  - exfalso. apply Ha. apply norm2_zero in H0. rewrite H0. l3 a. cbn. repeat f_equal; ring.
  - nra.
Qed.

Lemma det3_zero_normal u v w : length u = 3%nat -> length v = 3%nat -> length w = 3%nat ->
  det3 u v w = 0 <-> exists n, length n = 3%nat /\ n <> [0;0;0] /\ dot n u = 0 /\ dot n v = 0 /\ dot n w = 0.
Proof.
  intros Lu Lv Lw. split.
  - intros H.
    destruct (v3_dec (cross u v) (cross_length u v Lu Lv)) as [H1|H1].
    2:{ exists (cross u v). split; [apply cross_length; assumption|]. split; [exact H1|].
        split; [apply cross_dot_l; assumption|]. split; [apply cross_dot_r; assumption|exact H]. }
    destruct (v3_dec (cross u w) (cross_length u w Lu Lw)) as [H2|H2].
    2:{ exists (cross u w). split; [apply cross_length; assumption|]. split; [exact H2|].
        split; [apply cross_dot_l; assumption|]. split; [|apply cross_dot_r; assumption].
        transitivity (- det3 u v w); [|lra]. clear -Lu Lv Lw. l3 u; l3 v; l3 w; uv; ring. }
    destruct (v3_dec (cross v w) (cross_length v w Lv Lw)) as [H3|H3].
    2:{ exists (cross v w). split; [apply cross_length; assumption|]. split; [exact H3|].
        split; [|split; [apply cross_dot_l; assumption|apply cross_dot_r; assumption]].
        rewrite <- H. clear -Lu Lv Lw. l3 u; l3 v; l3 w; uv; ring. }
    destruct (v3_dec u Lu) as [Hu|Hu].
    + destruct (v3_dec v Lv) as [Hv|Hv].
      * destruct (exists_perp w Lw) as (n & Ln & Hn & Hd). exists n. subst u v.
        l3 n. repeat split; auto; uv; ring.
      * destruct (exists_perp v Lv) as (n & Ln & Hn & Hd). exists n.
        split; [exact Ln|]. split; [exact Hn|]. split; [subst u; l3 n; uv; ring|]. split; [exact Hd|].
        apply (parallel_dot n v w); assumption.
    + destruct (exists_perp u Lu) as (n & Ln & Hn & Hd). exists n.
      split; [exact Ln|]. split; [exact Hn|]. split; [exact Hd|].
      split; apply (parallel_dot n u); assumption.
  - intros (n & Ln & Hn & Du & Dv & Dw).
    assert (E : forall i, det3 u v w * nth i n 0 =
       dot n u * nth i (cross v w) 0 + dot n v * nth i (cross w u) 0 + dot n w * nth i (cross u v) 0).
    { clear -Lu Lv Lw Ln. intros i. l3 n; l3 u; l3 v; l3 w.
      destruct i as [|[|[|i]]]; cbn [nth cross]; uv; try ring. destruct i; ring. }
    rewrite Du, Dv, Dw in E.
    destruct (Req_dec (det3 u v w) 0) as [H|H]; [exact H|]. exfalso. apply Hn.
    assert (E' : forall i, nth i n 0 = 0) by (intros i; specialize (E i); nra).
    l3 n. f_equal; [apply (E' 0%nat)|f_equal; [apply (E' 1%nat)|f_equal; apply (E' 2%nat)]].
Qed.

Lemma tetvol_zero p0 p1 p2 p3 : Forall (fun v => length v = 3%nat) [p0;p1;p2;p3] ->
  tetvol [p0;p1;p2;p3] = 0 <-> coplanar [p0;p1;p2;p3].
Proof.
  intros H.
  pose proof (Forall_inv H) as L0. pose proof (Forall_inv (Forall_inv_tail H)) as L1.
  pose proof (Forall_inv (Forall_inv_tail (Forall_inv_tail H))) as L2.
  pose proof (Forall_inv (Forall_inv_tail (Forall_inv_tail (Forall_inv_tail H)))) as L3. cbn beta in *.
  assert (K : tetvol [p0;p1;p2;p3] = 0 <-> det3 (vsub p1 p0) (vsub p2 p0) (vsub p3 p0) = 0).
  { cbn [tetvol]. split.
    - intros E. destruct (Req_dec (det3 (vsub p1 p0) (vsub p2 p0) (vsub p3 p0)) 0) as [D|D]; [exact D|].
      apply Rabs_pos_lt in D. lra.
    - intros ->. rewrite Rabs_R0. lra. }
  rewrite K, det3_zero_normal by (rewrite vsub_length; congruence).
  unfold coplanar. split.
  - intros (n & Ln & Hn & D1 & D2 & D3). exists n, (dot n p0).
    rewrite dot_vsub_r in D1, D2, D3 by congruence.
    split; [exact Ln|]. split; [exact Hn|]. repeat (apply Forall_cons; [lra|]). apply Forall_nil.
  - intros (n & d & Ln & Hn & D). exists n. split; [exact Ln|]. split; [exact Hn|].
    pose proof (Forall_inv D) as D0. pose proof (Forall_inv (Forall_inv_tail D)) as D1.
    pose proof (Forall_inv (Forall_inv_tail (Forall_inv_tail D))) as D2.
    pose proof (Forall_inv (Forall_inv_tail (Forall_inv_tail (Forall_inv_tail D)))) as D3. cbn beta in *.
    rewrite !dot_vsub_r by congruence. lra.
Qed.
