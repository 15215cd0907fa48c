(** Projections of ico2: C08, C09, C10. *)
From Coq Require Import Reals List ZArith Lia Lra Bool.
From Verif Require Import Base.Res Model.Tau Model.Arr Model.IcoScalar Model.Vectors Model.IcoMath1
  Spec.Value Spec.RVec Spec.Shape Spec.IcoSpec.

From Verif Require Import Proofs.ResLemmas Proofs.ValueLemmas Proofs.Irrational Proofs.ScalarLemmas Proofs.RVecLemmas
  Proofs.VectorLemmas Proofs.IcoProj.
Import ListNotations.
Local Open Scope R_scope.

(** C08: projection returns exactly the two documented 3-d vectors ... *)
Lemma L_C08_projection_exact : forall v, good 6 v ->
  exists e i, projection v = Ok (e, i) /\ canonv e /\ canonv i /\
    vals TAU e = par (vals TAU v) /\ vals TAU i = perp (vals TAU v).
Proof.
  intros v Hv. pose proof (projection_spec v Hv) as H. apply wp_elim in H as ([e i] & E & H).
  exists e, i. split; [exact E|]. cbn in H. tauto.
Qed.

(** ... projection3 is its second half ... *)
Lemma L_C08_projection3_half : forall v, good 6 v ->
  exists e i, projection v = Ok (e, i) /\ projection3 v = Ok i.
Proof.
  intros v Hv. destruct (L_C08_projection_exact v Hv) as (e & i & E & _).
  exists e, i. split; [exact E|apply (projection3_snd v e i Hv E)].
Qed.

(** ... linear, on the arrays themselves: projecting k*u+l*v gives the canonical
    array of k*proj(u)+l*proj(v) ... *)
Lemma L_C08_projection_linear : forall k l u v s, wf k -> wf l -> good 6 u -> good 6 v -> good 6 s ->
  vals TAU s = vadd (vscale (val TAU k) (vals TAU u)) (vscale (val TAU l) (vals TAU v)) ->
  exists eu iu ev iv es is,
    projection u = Ok (eu, iu) /\ projection v = Ok (ev, iv) /\ projection s = Ok (es, is) /\
    vals TAU es = vadd (vscale (val TAU k) (vals TAU eu)) (vscale (val TAU l) (vals TAU ev)) /\
    vals TAU is = vadd (vscale (val TAU k) (vals TAU iu)) (vscale (val TAU l) (vals TAU iv)).
Proof.
  intros k l u v s Hk Hl Hu Hv Hs E.
  destruct (L_C08_projection_exact u Hu) as (eu & iu & E1 & _ & _ & V1 & V2).
  destruct (L_C08_projection_exact v Hv) as (ev & iv & E2 & _ & _ & V3 & V4).
  destruct (L_C08_projection_exact s Hs) as (es & is & E3 & _ & _ & V5 & V6).
  exists eu, iu, ev, iv, es, is. repeat (split; [assumption|]).
  rewrite V1, V2, V3, V4, V5, V6, E.
  split; [apply par_linear|apply perp_linear]; rewrite vals_length; first [apply Hu|apply Hv].
Qed.

(** ... splits the length ... *)
Lemma L_C08_norm_split : forall v e i, good 6 v -> projection v = Ok (e, i) ->
  norm2 (vals TAU e) + norm2 (vals TAU i) = (4 + 2*TAU) * norm2 (vals TAU v).
Proof.
  intros v e i Hv E. destruct (L_C08_projection_exact v Hv) as (e' & i' & E' & _ & _ & V1 & V2).
  rewrite E in E'. injection E' as <- <-. rewrite V1, V2. apply norm_split. rewrite vals_length; apply Hv.
Qed.

(** ... the six rows are pairwise orthogonal and of equal length ... *)
Lemma L_C08_rows_orthogonal : forall i j r s,
  nth_error (par_rows ++ perp_rows) i = Some r -> nth_error (par_rows ++ perp_rows) j = Some s ->
  dot r s = if Nat.eqb i j then 4 + 2*TAU else 0.
Proof. exact rows_orthogonal. Qed.

(** ... and only the zero vector projects to zero. *)
Lemma L_C08_injective : forall v e i, good 6 v -> projection v = Ok (e, i) ->
  (vals TAU e = [0;0;0] /\ vals TAU i = [0;0;0] <-> vals TAU v = [0;0;0;0;0;0]).
Proof.
  intros v e i Hv E. destruct (L_C08_projection_exact v Hv) as (e' & i' & E' & _ & _ & V1 & V2).
  rewrite E in E'. injection E' as <- <-. rewrite V1, V2. split.
  - intros [A B]. apply proj_injective; [rewrite vals_length; apply Hv|exact A|exact B].
  - intros ->. unfold par, perp, par_rows, perp_rows, matvec, dot. cbn.
    split; repeat (apply f_equal2; [ring|]); reflexivity.
Qed.

Example E_C08_ex : good 6 [T 1 0 1; T 0 1 2; T 0 0 1; T 3 (-1) 4; T 0 0 1; T 1 0 1] /\
  projection [T 1 0 1; T 0 1 2; T 0 0 1; T 3 (-1) 4; T 0 0 1; T 1 0 1] =
    Ok ([T 3 1 2; T 7 3 4; T 1 4 4], [T 0 1 2; T (-5) 6 4; T 1 1 4]).
Proof.
  split; [split; [|reflexivity]|vm_compute; reflexivity].
  repeat (apply Forall_cons; [unfold wf; cbn; lia|]); apply Forall_nil.
Qed.

(** C09: lattice points (rational coordinates) are separated by projection3:
    the returned arrays are the same iff the coordinates are the same numbers. *)
Lemma L_C09_separates : forall u v, good 6 u -> good 6 v ->
  Forall (fun t => tb t = 0%Z) u -> Forall (fun t => tb t = 0%Z) v ->
  (projection3 u = projection3 v <-> vals TAU u = vals TAU v).
Proof.
  intros u v Hu Hv Ru Rv.
  assert (R : forall x, good 6 x -> Forall (fun t => tb t = 0%Z) x -> Forall rational (vals TAU x)).
  { intros x [Wx _] Rx. apply Forall_forall. intros y Hy. apply in_map_iff in Hy as (t & <- & Ht).
    unfold wfv in Wx. rewrite Forall_forall in Rx, Wx. exists (ta t), (tc t). split; [apply Wx, Ht|].
    unfold val. rewrite (Rx t Ht). unfold Rdiv. ring. }
  split; intros E.
  - pose proof (projection3_spec u Hu) as Su. pose proof (projection3_spec v Hv) as Sv.
    rewrite <- E in Sv. apply wp_elim in Su as (p & Ep & _ & Vp). rewrite Ep in Sv. destruct Sv as [_ Vq].
    apply perp_rational_inj; try (rewrite vals_length; first [apply Hu|apply Hv]); try (apply R; assumption).
    congruence.
  - apply (evalsv_det (x := perp (vals TAU u)) TAU_irrational); [apply projection3_spec, Hu|].
    rewrite E. apply projection3_spec, Hv.
Qed.

(** ... but not general TAU-style vectors. *)
Lemma L_C09_general_refuted :
  exists u v p, good 6 u /\ good 6 v /\ vals TAU u <> vals TAU v /\
    projection3 u = Ok p /\ projection3 v = Ok p.
Proof.
  exists [T 1 0 1; T 0 0 1; T 0 0 1; T 0 0 1; T 1 0 1; T 0 0 1],
         [T 0 0 1; T 0 0 1; T 0 0 1; T 1 (-1) 1; T 0 0 1; T 1 (-1) 1].
  eexists.
  split; [split; [repeat (apply Forall_cons; [unfold wf; cbn; lia|]); apply Forall_nil|reflexivity]|].
  split; [split; [repeat (apply Forall_cons; [unfold wf; cbn; lia|]); apply Forall_nil|reflexivity]|].
  split; [|split; vm_compute; reflexivity].
  unfold vals, val; cbn. intros H. injection H; intros; lra.
Qed.

Example E_C09_ex :
  let u := [T 1 0 2; T 0 0 1; T 0 0 1; T 3 0 1; T 0 0 1; T (-1) 0 1] in
  good 6 u /\ Forall (fun t => tb t = 0%Z) u /\ projection3 u = Ok [T 0 1 2; T (-1) 4 2; T 4 0 1].
Proof.
  cbn zeta. split; [split; [|reflexivity]|split].
  - repeat (apply Forall_cons; [unfold wf; cbn; lia|]); apply Forall_nil.
  - repeat (apply Forall_cons; [reflexivity|]); apply Forall_nil.
  - vm_compute; reflexivity.
Qed.

(** C10: projection_perp is the orthogonal projector onto perpendicular space.
    No parallel part, same perpendicular part: *)
Lemma L_C10_parts : forall v, good 6 v ->
  exists q, projection_perp v = Ok q /\ cgood 6 q /\
    par (vals TAU q) = [0;0;0] /\ perp (vals TAU q) = perp (vals TAU v) /\
    projection3 q = projection3 v.
Proof.
  intros v Hv. pose proof (projection_perp_spec v Hv) as H. apply wp_elim in H as (q & E & C & V).
  assert (L : length (vals TAU v) = 6%nat) by (rewrite vals_length; apply Hv).
  assert (Lq : length q = 6%nat) by (rewrite <- (vals_length TAU), V, matvec_length; reflexivity).
  exists q. split; [exact E|]. split; [split; assumption|].
  rewrite V. split; [apply projector_par, L|]. split; [apply projector_perp, L|].
  apply (evalsv_det (x := perp (vals TAU v)) TAU_irrational); [|apply projection3_spec, Hv].
  rewrite <- (projector_perp _ L), <- V. apply projection3_spec. split; [apply canonv_wfv, C|exact Lq].
Qed.

(** idempotent, as identical arrays *)
Lemma L_C10_idempotent : forall v q, good 6 v -> projection_perp v = Ok q -> projection_perp q = Ok q.
Proof.
  intros v q Hv E. pose proof (projection_perp_spec v Hv) as H. rewrite E in H. destruct H as [C V].
  assert (L : length (vals TAU v) = 6%nat) by (rewrite vals_length; apply Hv).
  assert (Lq : length q = 6%nat) by (rewrite <- (vals_length TAU), V, matvec_length; reflexivity).
  apply (evalsv_Ok TAU_irrational (projection_perp_spec q (conj (canonv_wfv _ C) Lq)) C).
  rewrite V. symmetry. apply projector_idem, L.
Qed.

(** linear *)
Lemma L_C10_linear : forall k l u v s qu qv qs, wf k -> wf l -> good 6 u -> good 6 v -> good 6 s ->
  vals TAU s = vadd (vscale (val TAU k) (vals TAU u)) (vscale (val TAU l) (vals TAU v)) ->
  projection_perp u = Ok qu -> projection_perp v = Ok qv -> projection_perp s = Ok qs ->
  vals TAU qs = vadd (vscale (val TAU k) (vals TAU qu)) (vscale (val TAU l) (vals TAU qv)).
Proof.
  intros k l u v s qu qv qs Hk Hl Hu Hv Hs E Eu Ev Es.
  pose proof (projection_perp_spec u Hu) as H1. rewrite Eu in H1. destruct H1 as [_ ->].
  pose proof (projection_perp_spec v Hv) as H1. rewrite Ev in H1. destruct H1 as [_ ->].
  pose proof (projection_perp_spec s Hs) as H1. rewrite Es in H1. destruct H1 as [_ ->].
  rewrite E. rewrite matvec_vadd.
  - rewrite !matvec_vscale. reflexivity.
  - rewrite !vscale_length, !vals_length. destruct Hu, Hv; lia.
Qed.

(** self-adjoint *)
Lemma L_C10_selfadjoint : forall u v qu qv, good 6 u -> good 6 v ->
  projection_perp u = Ok qu -> projection_perp v = Ok qv ->
  dot (vals TAU qu) (vals TAU v) = dot (vals TAU u) (vals TAU qv).
Proof.
  intros u v qu qv Hu Hv Eu Ev.
  pose proof (projection_perp_spec u Hu) as H1. rewrite Eu in H1. destruct H1 as [_ ->].
  pose proof (projection_perp_spec v Hv) as H1. rewrite Ev in H1. destruct H1 as [_ ->].
  apply projector_selfadj; rewrite vals_length; first [apply Hu|apply Hv].
Qed.

(** fixes exactly the vectors without parallel part *)
Lemma L_C10_fixed_points : forall v, cgood 6 v ->
  (projection_perp v = Ok v <-> par (vals TAU v) = [0;0;0]).
Proof.
  intros v [C L]. assert (Hv : good 6 v) by (split; [apply canonv_wfv, C|exact L]).
  assert (L' : length (vals TAU v) = 6%nat) by (rewrite vals_length; exact L).
  rewrite <- (projector_fix _ L'). split; intros E.
  - pose proof (projection_perp_spec v Hv) as H. rewrite E in H. symmetry. apply H.
  - apply (evalsv_Ok TAU_irrational (projection_perp_spec v Hv) C). symmetry; exact E.
Qed.

Example E_C10_ex :
  let v := [T 1 0 1; T 0 0 1; T 0 0 1; T 0 0 1; T 0 0 1; T 0 0 1] in
  let q := [T 1 0 2; T 1 (-2) 10; T 1 (-2) 10; T 1 (-2) 10; T 1 (-2) 10; T 1 (-2) 10] in
  good 6 v /\ projection_perp v = Ok q /\ projection_perp q = Ok q /\ projection q = Ok ([t0;t0;t0],[T 0 1 1; T (-1) 0 1; t0]).
Proof.
  cbn zeta. split; [split; [|reflexivity]|split; [|split]; vm_compute; reflexivity].
  repeat (apply Forall_cons; [unfold wf; cbn; lia|]); apply Forall_nil.
Qed.
