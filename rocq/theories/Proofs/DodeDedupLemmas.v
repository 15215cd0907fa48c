(** De-duplication and equivalence with the dodecagonal projection. *)
From Coq Require Import Reals List ZArith Lia Bool Arith Permutation Sorting.Sorted.
From Verif Require Import Base.Res Model.Tau Model.Arr Model.DodeScalar Model.Vectors Model.DodeMath1 Model.Unique Model.IcoDedup Model.DodeDedup
  Spec.Value Spec.RVec Spec.Shape Spec.DodeSpec Spec.Sets
  Proofs.ResLemmas Proofs.ValueLemmas Proofs.Irrational Proofs.ScalarLemmas Proofs.RVecLemmas
  Proofs.VectorLemmas Proofs.DodeProj Proofs.UniqueLemmas Proofs.DedupLemmas.
Import ListNotations.

Lemma dproj_list vs : goods 6 vs ->
  exists p, mapM dprojection3 vs = Ok p /\
    Forall2 (fun v q => dprojection3 v = Ok q /\ canonv q /\ vals SIN q = dppoint v) vs p.
Proof.
  intros H. induction H as [|v vs Hv _ IH]; cbn [mapM].
  - exists []. split; [reflexivity|constructor].
  - destruct IH as (p & Ep & Fp). pose proof (dprojection3_spec v Hv) as S. apply wp_elim in S as (q & Eq & C & V).
    rewrite Eq, Ep. cbn [bind]. exists (q :: p). split; [reflexivity|]. constructor; [auto|exact Fp].
Qed.

Lemma dvals_inj u v : canonv u -> canonv v -> vals SIN u = vals SIN v -> u = v.
Proof. apply canonv_vals_eq. exact SIN_irrational. Qed.

Lemma dperp_core vts : goods 6 vts ->
  exists p r, mapM dprojection3 vts = Ok p /\ mapM (get vts) (unique_index cmp_vec p) = Ok r /\
    Forall2 (fun v q => dprojection3 v = Ok q /\ canonv q /\ vals SIN q = dppoint v) vts p /\
    Forall2 (fun a k => dprojection3 a = Ok k /\ canonv k /\ vals SIN k = dppoint a) r (unique cmp_vec p) /\
    incl r vts.
Proof.
  intros Hg. destruct (dproj_list vts Hg) as (p & Ep & Fp).
  destruct (unique_index_get cmp_vec lawful_vec vts p (Forall2_len _ _ _ Fp)) as (r & Er & Fr).
  exists p, r. split; [exact Ep|]. split; [exact Er|]. split; [exact Fp|]. 
  pose proof (unique_index_keys cmp_vec lawful_vec p) as K. split.
  - revert K Fr. generalize (unique cmp_vec p). clear Er. generalize (unique_index cmp_vec p). intros is ks. revert r ks.
    induction is as [|i is IH]; intros r ks K Fr; inversion Fr as [|? a ? r' Ha Fr']; subst.
    + destruct ks; [constructor|discriminate].
    + destruct ks as [|k ks]; [discriminate|]. cbn in K. injection K as Hk K. constructor; [|apply IH; assumption].
      clear - Fp Ha Hk. revert i Ha Hk. induction Fp as [|v q vts p Hvq _ IHF]; intros i Ha Hk; destruct i; try discriminate.
      * cbn in Ha, Hk. injection Ha as <-. injection Hk as <-. exact Hvq.
      * apply (IHF i); assumption.
  - intros a Ha. clear - Fr Ha. induction Fr as [|i b is r Hb _ IH]; [destruct Ha|].
    destruct Ha as [<-|Ha]; [eapply nth_error_In; exact Hb|apply IH; exact Ha].
Qed.

Lemma dF2_ppoint r ks : Forall2 (fun a k => dprojection3 a = Ok k /\ canonv k /\ vals SIN k = dppoint a) r ks ->
  map dppoint r = map (vals SIN) ks.
Proof. induction 1 as [|a k r ks (_ & _ & E) _ IH]; cbn; [reflexivity|]. rewrite E, IH. reflexivity. Qed.

Lemma dNoDup_vals ks : Forall canonv ks -> NoDup ks -> NoDup (map (vals SIN) ks).
Proof.
  intros C N. induction N as [|k ks Hk N IH]; cbn; constructor; [|apply IH; apply Forall_inv_tail in C; exact C].
  rewrite in_map_iff. intros (k' & E & Hk'). apply Hk. 
  rewrite (dvals_inj k k'); [exact Hk'| | |symmetry; exact E].
  - apply Forall_inv in C. exact C.
  - apply Forall_inv_tail in C. rewrite Forall_forall in C. apply C. exact Hk'.
Qed.

Lemma dF2_canon (P : vec -> vec -> Prop) r ks : Forall2 (fun a k => P a k /\ canonv k /\ vals SIN k = dppoint a) r ks -> Forall canonv ks.
Proof. induction 1 as [|a k r ks (_ & C & _) _ IH]; constructor; assumption. Qed.

Lemma dperp_space_spec_flat vs a : (a = A3 vs \/ exists o, a = A4 o /\ vs = concat o) -> goods 6 vs ->
  exists r, dremove_doubling_in_perp_space a = Ok r /\ incl r vs /\
    NoDup (map dppoint r) /\ same_set (map dppoint r) (map dppoint vs).
Proof.
  intros Ha Hg. assert (Ed : remove_doubling a = Some (unique cmp_vec vs)).
  { destruct Ha as [->|(o & -> & ->)]; reflexivity. }
  unfold dremove_doubling_in_perp_space. rewrite Ed. cbn [notNone bind].
  assert (Hu : goods 6 (unique cmp_vec vs)).
  { eapply goods_incl; [exact Hg|]. intros v Hv. exact (proj1 (unique_In cmp_vec lawful_vec vs v) Hv). }
  destruct (dperp_core _ Hu) as (p & r & Ep & Er & Fp & Fr & I).
  rewrite Ep. cbn [bind]. exists r. split; [exact Er|]. split.
  { intros v Hv. apply (proj1 (unique_In cmp_vec lawful_vec vs v)). apply I. exact Hv. }
  pose proof (dF2_ppoint _ _ Fr) as Er'. split.
  - rewrite Er'. apply dNoDup_vals; [exact (dF2_canon _ _ _ Fr)|]. apply (unique_NoDup cmp_vec lawful_vec).
  - rewrite Er'. intros x. 
    rewrite (same_set_map (vals SIN) _ _ (unique_In cmp_vec lawful_vec p) x).
    rewrite <- (dF2_ppoint _ _ Fp).
    apply (same_set_map dppoint _ _ (unique_In cmp_vec lawful_vec vs) x).
Qed.

Lemma dperp_space_spec vs : goods 6 vs ->
  exists r, dremove_doubling_in_perp_space (A3 vs) = Ok r /\ incl r vs /\
    NoDup (map dppoint r) /\ same_set (map dppoint r) (map dppoint vs).
Proof. intros. apply dperp_space_spec_flat; auto. Qed.

Lemma dperp_space_card vs r : goods 6 vs -> dremove_doubling_in_perp_space (A3 vs) = Ok r ->
  card (map dppoint vs) (length r).
Proof.
  intros Hg H. destruct (dperp_space_spec vs Hg) as (r' & E & _ & N & S). rewrite H in E. injection E as <-.
  exists (map dppoint r). split; [exact N|]. split; [exact S|]. apply map_length.
Qed.

Lemma dstacked_spec a b : goods 6 a -> goods 6 b ->
  exists n, dstacked_points a b = Ok n /\ card (map dppoint a ++ map dppoint b) n.
Proof.
  intros Ha Hb. pose proof (goods_app 6 a b Ha Hb) as Hg. destruct (dperp_space_spec _ Hg) as (r & E & _).
  unfold dstacked_points. rewrite E. cbn [bind]. exists (length r). split; [reflexivity|].
  rewrite <- map_app. apply dperp_space_card; assumption.
Qed.

Lemma dequivalent_n (n : nat) a b : goods 6 a -> goods 6 b ->
  exists m, dstacked_points a b = Ok m /\ (Nat.eqb m n = true <-> card (map dppoint a ++ map dppoint b) n).
Proof.
  intros Ha Hb. destruct (dstacked_spec a b Ha Hb) as (m & E & C). exists m. split; [exact E|].
  rewrite Nat.eqb_eq. split; [intros <-; exact C|intros C'; eapply card_fun; eassumption].
Qed.

Lemma dequivalent_n_set (n : nat) a b : goods 6 a -> goods 6 b -> length a = n -> length b = n ->
  NoDup (map dppoint a) -> NoDup (map dppoint b) ->
  exists m, dstacked_points a b = Ok m /\ (Nat.eqb m n = true <-> same_set (map dppoint a) (map dppoint b)).
Proof.
  intros Ha Hb La Lb Na Nb. destruct (dequivalent_n n a b Ha Hb) as (m & E & C). exists m. split; [exact E|].
  rewrite C. apply eq_by_card; rewrite ?map_length; assumption.
Qed.
