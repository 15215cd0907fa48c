(** Facts about lists of reals. *)
From Coq Require Import Reals List ZArith Lia Lra.
From Verif Require Import Model.Tau Spec.Value Spec.RVec.
Import ListNotations.
Local Open Scope R_scope.

Lemma zipWith_length {A B C} (f : A -> B -> C) l l' :
  length (zipWith f l l') = Nat.min (length l) (length l').
Proof. revert l'; induction l as [|x xs IH]; intros [|y ys]; cbn; auto. Qed.

Lemma vadd_length u v : length u = length v -> length (vadd u v) = length u.
Proof. intros; unfold vadd; rewrite zipWith_length; lia. Qed.
Lemma vsub_length u v : length u = length v -> length (vsub u v) = length u.
Proof. intros; unfold vsub; rewrite zipWith_length; lia. Qed.
Lemma vscale_length k v : length (vscale k v) = length v.
Proof. apply map_length. Qed.
Lemma matvec_length m v : length (matvec m v) = length m.
Proof. apply map_length. Qed.
Lemma vals_length w v : length (vals w v) = length v.
Proof. apply map_length. Qed.

Lemma dot_cons x xs y ys : dot (x::xs) (y::ys) = x*y + dot xs ys.
Proof. reflexivity. Qed.
Lemma dot_nil_l v : dot [] v = 0. Proof. reflexivity. Qed.
Lemma dot_nil_r v : dot v [] = 0. Proof. destruct v; reflexivity. Qed.

Lemma dot_comm u v : dot u v = dot v u.
Proof.
  revert v; induction u as [|x xs IH]; intros [|y ys]; cbn; try reflexivity.
  fold (dot xs ys) (dot ys xs). rewrite IH; ring.
Qed.

Lemma dot_vadd_r r u v : length u = length v -> dot r (vadd u v) = dot r u + dot r v.
Proof.
  revert u v; induction r as [|x xs IH]; intros [|y ys] [|z zs] H; cbn in H; try discriminate;
    try (cbn; lra).
  change (vadd (y::ys) (z::zs)) with ((y+z) :: vadd ys zs).
  rewrite !dot_cons, IH by lia. ring.
Qed.

Lemma dot_vsub_r r u v : length u = length v -> dot r (vsub u v) = dot r u - dot r v.
Proof.
  revert u v; induction r as [|x xs IH]; intros [|y ys] [|z zs] H; cbn in H; try discriminate;
    try (cbn; lra).
  change (vsub (y::ys) (z::zs)) with ((y-z) :: vsub ys zs).
  rewrite !dot_cons, IH by lia. ring.
Qed.

Lemma dot_vscale_r r k v : dot r (vscale k v) = k * dot r v.
Proof.
  revert v; induction r as [|x xs IH]; intros [|y ys]; cbn; try lra.
  fold (dot xs (map (fun x => k*x) ys)) (dot xs ys).
  change (map (fun x => k*x) ys) with (vscale k ys). rewrite IH; ring.
Qed.

Lemma matvec_vadd m u v : length u = length v ->
  matvec m (vadd u v) = vadd (matvec m u) (matvec m v).
Proof.
  intros H; induction m as [|r rs IH]; cbn; [reflexivity|].
  rewrite dot_vadd_r by assumption. f_equal. exact IH.
Qed.

Lemma matvec_vsub m u v : length u = length v ->
  matvec m (vsub u v) = vsub (matvec m u) (matvec m v).
Proof.
  intros H; induction m as [|r rs IH]; cbn; [reflexivity|].
  rewrite dot_vsub_r by assumption. f_equal. exact IH.
Qed.

Lemma matvec_vscale m k v : matvec m (vscale k v) = vscale k (matvec m v).
Proof.
  induction m as [|r rs IH]; cbn; [reflexivity|].
  rewrite dot_vscale_r. f_equal. exact IH.
Qed.

Lemma vsub_self u : vsub u u = vscale 0 u.
Proof. induction u as [|x xs IH]; cbn; [reflexivity|]. f_equal; [ring|exact IH]. Qed.

Lemma vadd_vsub u c : length u = length c -> vadd (vsub u c) c = u.
Proof.
  revert c; induction u as [|x xs IH]; intros [|y ys] H; cbn in *; try discriminate; [reflexivity|].
  f_equal; [ring|]. apply IH; lia.
Qed.

Lemma vsub_vadd u c : length u = length c -> vsub (vadd u c) c = u.
Proof.
  revert c; induction u as [|x xs IH]; intros [|y ys] H; cbn in *; try discriminate; [reflexivity|].
  f_equal; [ring|]. apply IH; lia.
Qed.

Lemma vadd_assoc u v x : vadd (vadd u v) x = vadd u (vadd v x).
Proof.
  revert v x; induction u as [|a u IH]; intros [|b v] [|c x]; cbn; try reflexivity.
  f_equal; [ring|apply IH].
Qed.

Lemma vadd_comm u v : vadd u v = vadd v u.
Proof.
  revert v; induction u as [|a u IH]; intros [|b v]; cbn; try reflexivity.
  f_equal; [ring|apply IH].
Qed.

Lemma vadd_zero_r u v : length u = length v -> vadd u (vscale 0 v) = u.
Proof.
  revert v; induction u as [|x xs IH]; intros [|y ys] H; cbn in *; try discriminate; [reflexivity|].
  f_equal; [ring|]. apply IH; lia.
Qed.

Lemma vadd_zero_l u v : length u = length v -> vadd (vscale 0 v) u = u.
Proof. intros; rewrite vadd_comm; apply vadd_zero_r; assumption. Qed.

(** ** Equality of canonical vectors *)
Lemma canonv_wfv v : canonv v -> wfv v.
Proof. apply Forall_impl. intros t [H _]; unfold wf; lia. Qed.

Lemma norm2_nonneg v : 0 <= norm2 v.
Proof.
  unfold norm2. induction v as [|x xs IH]; [cbn; lra|].
  rewrite dot_cons. pose proof (Rle_0_sqr x). unfold Rsqr in *. lra.
Qed.

Lemma norm2_zero v : norm2 v = 0 -> v = vscale 0 v.
Proof.
  unfold norm2; induction v as [|x xs IH]; [reflexivity|].
  rewrite dot_cons; intros H.
  pose proof (norm2_nonneg xs) as Hn. unfold norm2 in Hn.
  pose proof (Rle_0_sqr x) as Hx. unfold Rsqr in Hx.
  assert (x * x = 0) by lra. assert (x = 0) as -> by (apply Rmult_integral in H0; tauto).
  cbn. f_equal; [ring|]. apply IH. lra.
Qed.
