(** Means, centroid and centroid_obj. *)
From Coq Require Import Reals List ZArith Lia Lra Bool Permutation.
From Verif Require Import Base.Res Model.Tau Model.Arr Model.Vectors Model.IcoMath1 Spec.Value Spec.RVec Spec.Shape Spec.Mean
  Proofs.ResLemmas Proofs.ValueLemmas Proofs.ScalarLemmas Proofs.RVecLemmas Proofs.VectorLemmas
  Proofs.MatLemmas Proofs.SymopLemmas.
Import ListNotations.
Local Open Scope R_scope.

Lemma zerov_length n : length (zerov n) = n. Proof. apply repeat_length. Qed.

Lemma vsum_length n l : Forall (fun v => length v = n) l -> length (vsum n l) = n.
Proof.
  induction 1 as [|v vs Hv _ IH]; cbn; [apply zerov_length|].
  rewrite vadd_length; lia.
Qed.

Lemma mean_length n l : Forall (fun v => length v = n) l -> length (mean n l) = n.
Proof. intros H. unfold mean. rewrite vscale_length. apply vsum_length; exact H. Qed.

Lemma vsum_perm n l l' : Permutation l l' -> vsum n l = vsum n l'.
Proof.
  induction 1 as [|x l l' _ IH|x y l|l l' l'' _ IH1 _ IH2]; cbn; try congruence.
  rewrite <- !vadd_assoc. f_equal. apply vadd_comm.
Qed.

Lemma mean_perm n l l' : Permutation l l' -> mean n l = mean n l'.
Proof. intros H. unfold mean. rewrite (vsum_perm n l l' H), (Permutation_length H). reflexivity. Qed.

Lemma vadd_zerov_r n v : length v = n -> vadd v (zerov n) = v.
Proof.
  intros <-. unfold zerov. induction v as [|x xs IH]; cbn; [reflexivity|].
  f_equal; [ring|exact IH].
Qed.
Lemma vadd_zerov_l n v : length v = n -> vadd (zerov n) v = v.
Proof. intros; rewrite vadd_comm; apply vadd_zerov_r; assumption. Qed.

Lemma vscale_zerov k n : vscale k (zerov n) = zerov n.
Proof. unfold zerov; induction n; cbn; [reflexivity|]. f_equal; [ring|assumption]. Qed.

Lemma vscale_vadd k u v : vscale k (vadd u v) = vadd (vscale k u) (vscale k v).
Proof.
  revert v; induction u as [|x xs IH]; intros [|y ys]; cbn; try reflexivity.
  f_equal; [ring|apply IH].
Qed.

Lemma vscale_vscale k l v : vscale k (vscale l v) = vscale (k*l) v.
Proof. unfold vscale. rewrite map_map. apply map_ext. intros; ring. Qed.

Lemma vscale_1 v : vscale 1 v = v.
Proof. unfold vscale. rewrite <- (map_id v) at 2. apply map_ext. intros; ring. Qed.

Lemma vadd_vscale_S k v : vadd v (vscale k v) = vscale (1 + k) v.
Proof. induction v as [|x xs IH]; cbn; [reflexivity|]. f_equal; [ring|exact IH]. Qed.

Lemma vadd_swap a b c d : vadd (vadd a b) (vadd c d) = vadd (vadd a c) (vadd b d).
Proof. rewrite !vadd_assoc. f_equal. rewrite <- !vadd_assoc. f_equal. apply vadd_comm. Qed.

Lemma dot_zerov r n : dot r (zerov n) = 0.
Proof.
  unfold zerov. revert n; induction r as [|x xs IH]; intros [|n]; cbn; try reflexivity.
  fold (dot xs (repeat 0 n)). rewrite IH; ring.
Qed.

Lemma matvec_zerov m n : matvec m (zerov n) = zerov (length m).
Proof. induction m as [|r rs IH]; cbn; [reflexivity|]. rewrite dot_zerov. f_equal; exact IH. Qed.

Lemma matvec_vsum m n l : Forall (fun v => length v = n) l ->
  matvec m (vsum n l) = vsum (length m) (map (matvec m) l).
Proof.
  induction 1 as [|v vs Hv Hvs IH]; cbn; [apply matvec_zerov|].
  rewrite matvec_vadd; [|rewrite vsum_length; assumption]. rewrite IH; reflexivity.
Qed.

Lemma vsum_translate n l s : Forall (fun v => length v = n) l -> length s = n ->
  vsum n (map (fun v => vadd v s) l) = vadd (vsum n l) (vscale (INR (length l)) s).
Proof.
  intros Hl Hs. induction Hl as [|v vs Hv Hvs IH].
  - cbn [map vsum length INR]. rewrite vadd_zerov_l by (rewrite vscale_length; exact Hs).
    rewrite <- Hs. clear. induction s as [|x xs IH]; cbn; [reflexivity|]. f_equal; [ring|exact IH].
  - cbn [map vsum]. rewrite IH. change (length (v::vs)) with (S (length vs)). rewrite S_INR, Rplus_comm.
    rewrite <- vadd_vscale_S. apply vadd_swap.
Qed.

Lemma mean_translate n l s : l <> [] -> Forall (fun v => length v = n) l -> length s = n ->
  mean n (map (fun v => vadd v s) l) = vadd (mean n l) s.
Proof.
  intros Hne Hl Hs. unfold mean. rewrite map_length, vsum_translate by assumption.
  rewrite vscale_vadd, vscale_vscale.
  assert (INR (length l) <> 0) by (apply not_0_INR; destruct l; cbn; congruence).
  rewrite Rinv_l by assumption. rewrite vscale_1. reflexivity.
Qed.

Lemma mean_matvec m n l : length m = n -> Forall (fun v => length v = n) l ->
  mean n (map (matvec m) l) = matvec m (mean n l).
Proof.
  intros Hm Hl. unfold mean. rewrite map_length, matvec_vscale, matvec_vsum by assumption.
  rewrite Hm. reflexivity.
Qed.

Lemma vsub_as_vadd u c : vsub u c = vadd u (vscale (-1) c).
Proof.
  revert c; induction u as [|x xs IH]; intros [|y ys]; cbn; try reflexivity.
  f_equal; [ring|apply IH].
Qed.

Lemma mean_act op c n l : l <> [] -> square n op -> Forall (fun v => length v = n) l -> length c = n ->
  mean n (map (act op c) l) = act op c (mean n l).
Proof.
  intros Hne [Lo Ro] Hl Hc. unfold act.
  assert (Lm : length (IZRm op) = n) by (unfold IZRm; rewrite map_length; exact Lo).
  rewrite <- (map_map (fun v => matvec (IZRm op) (vsub v c)) (fun u => vadd u c)).
  rewrite mean_translate.
  - f_equal. rewrite <- (map_map (fun v => vsub v c) (matvec (IZRm op))).
    rewrite mean_matvec; auto.
    + f_equal. rewrite vsub_as_vadd.
      rewrite <- mean_translate; auto; [|rewrite vscale_length; exact Hc].
      f_equal. apply map_ext. intros; apply vsub_as_vadd.
    + apply Forall_forall. intros x Hx. apply in_map_iff in Hx as (y & <- & Hy).
      rewrite Forall_forall in Hl. rewrite vsub_length; rewrite (Hl y Hy); auto.
  - destruct l; [congruence|discriminate].
  - apply Forall_forall. intros x Hx. apply in_map_iff in Hx as (y & <- & Hy).
    rewrite matvec_length; exact Lm.
  - exact Hc.
Qed.

(** ** centroid *)
Lemma vsum_nth n l i : Forall (fun v => length v = n) l -> (i < n)%nat ->
  nth i (vsum n l) 0 = Rsum (map (fun v => nth i v 0) l).
Proof.
  intros Hl Hi. induction Hl as [|v vs Hv Hvs IH]; cbn.
  - unfold zerov. apply nth_repeat.
  - rewrite <- IH. clear IH.
    assert (Hs := vsum_length n vs Hvs). revert Hi Hs Hv. generalize (vsum n vs) as s.
    clear Hvs. revert i n. clear. induction v as [|x xs IH]; intros i n [|y ys] Hi Hs Hv; cbn in *; try lia.
    destruct i as [|i]; [reflexivity|]. cbn. apply (IH i (length xs)); lia.
Qed.

Section Gen.
  Context {w : R} {add mul : tau -> tau -> res tau} (A : arith_ok w add mul).

  Lemma coord_sum a pts i : canon a -> goods 6 pts -> (i < 6)%nat ->
    evals w (foldM (fun v2 p => bind (get p i) (fun x => add v2 x)) a pts)
            (val w a + Rsum (map (fun p => nth i (vals w p) 0) pts)).
  Proof.
    intros Ca Hp Hi; revert a Ca; induction Hp as [|p ps [Wp Lp] _ IH]; intros a Ca; cbn [foldM map Rsum].
    - split; [exact Ca|ring].
    - destruct (nth_error p i) as [x|] eqn:E; [|apply nth_error_None in E; lia].
      unfold get; rewrite E; cbn [bind].
      assert (Wx : wf x) by (eapply wfv_nth; eassumption).
      eapply evals_bind; [apply (g_add A); [apply canon_wf; exact Ca|exact Wx]|].
      intros a' Ca' _ Va'.
      eapply wp_mono; [apply IH; exact Ca'|]. intros r [Cr Vr]. split; [exact Cr|].
      rewrite Vr, Va'.
      rewrite (nth_error_nth (vals w p) i 0 (vals_nth p i x E)). ring.
  Qed.

  Lemma centroid_spec pts : pts <> [] -> goods 6 pts ->
    evalsv w (centroid_ add mul pts) (mean 6 (map (vals w) pts)).
  Proof.
    intros Hne Hp. unfold centroid_.
    assert (Hlen : (0 < length pts)%nat) by (destruct pts; cbn; [congruence|lia]).
    set (k := Z.of_nat (length pts)).
    assert (Hk : val w (T 1 0 k) = / INR (length pts)).
    { unfold val; cbn [ta tb tc]. unfold k. rewrite <- INR_IZR_INZ. field.
      apply not_0_INR; lia. }
    assert (Wk : wf (T 1 0 k)) by (unfold wf, k; cbn; lia).
    assert (Hmean : mean 6 (map (vals w) pts)
      = map (fun i => Rsum (map (fun p => nth i (vals w p) 0) pts) * / INR (length pts)) (seq 0 6)).
    { assert (Hall : Forall (fun v => length v = 6%nat) (map (vals w) pts)).
      { apply Forall_forall; intros x Hx; apply in_map_iff in Hx as (y & <- & Hy).
        unfold goods in Hp; rewrite Forall_forall in Hp. destruct (Hp y Hy). rewrite vals_length; assumption. }
      unfold mean. rewrite map_length.
      transitivity (vscale (/ INR (length pts)) (map (fun i => nth i (vsum 6 (map (vals w) pts)) 0) (seq 0 6))).
      { f_equal. rewrite <- (map_nth_seq 0 (vsum 6 (map (vals w) pts))) at 1. rewrite vsum_length by exact Hall. reflexivity. }
      unfold vscale. rewrite map_map. apply map_ext_in. intros i Hi. apply in_seq in Hi.
      rewrite vsum_nth by (exact Hall || lia). rewrite map_map. ring. }
    rewrite Hmean.
    assert (Hs : Forall (fun i => (i < 6)%nat) (seq 0 6)).
    { apply Forall_forall. intros i Hi; apply in_seq in Hi; lia. }
    revert Hs. generalize (seq 0 6) as l. induction l as [|i is IH]; intros Hs; cbn [mapM map].
    - split; [constructor|reflexivity].
    - inversion Hs; subst. apply wp_bind.
      eapply evals_bind; [apply (coord_sum t0 pts i); [exact canon_t0|exact Hp|assumption]|].
      intros s Cs Ws Vs.
      eapply wp_mono; [apply (g_mul A); [exact Ws|exact Wk]|]. intros q [Cq Vq].
      apply wp_bind. eapply wp_mono; [apply IH; assumption|]. intros qs [Cqs Vqs].
      split; [constructor; assumption|]. cbn. fold (vals w qs). rewrite Vqs, Vq, Hk, Vs, val_t0.
      f_equal; ring.
  Qed.

End Gen.
