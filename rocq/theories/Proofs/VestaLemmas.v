(** Edges in VESTA files. *)
From Coq Require Import Ascii String Reals List ZArith Bool Lia Lra.
From Verif Require Import Base.Res Model.Tau Model.Arr Model.Num Model.Vectors Model.IcoScalar Model.DodeScalar Model.IcoMath1 Model.IcoNumeric Model.IcoDedup
  Model.IcoIntersect Model.DodeMath1 Model.DodeNumeric Model.DodeDedup Model.Text Model.Xyz Model.Writers
  Spec.Value Spec.RVec Spec.Shape Spec.IcoSpec Spec.DodeSpec Spec.Sets Spec.Cosets Spec.VestaSpec
  Proofs.ResLemmas Proofs.ValueLemmas Proofs.ScalarLemmas Proofs.RVecLemmas Proofs.MatLemmas Proofs.VectorLemmas Proofs.IcoProj Proofs.DodeProj Proofs.NumLemmas Proofs.DedupLemmas Proofs.DodeDedupLemmas
  Proofs.IntersectLemmas Proofs.SiteLemmas.
Import ListNotations.
Local Open Scope R_scope.
Local Open Scope res_scope.

Section Generic.
Variable point : vec -> list R.
Variable same : vec -> vec -> res bool.
Variable dist : vec -> vec -> res R.
Hypothesis same_ok : forall u v, good 6 u -> good 6 v -> exists b, same u v = Ok b /\ (b = true <-> point u = point v).
Hypothesis dist_ok : forall u v, good 6 u -> good 6 v -> dist u v = Ok (vnorm (vsub (point u) (point v))).

Lemma find_vertex_ok v vs : good 6 v -> goods 6 vs -> In (point v) (map point vs) -> forall k,
  exists i, find_vertex same v k vs = Ok (Some (k + i)%nat) /\ nth_error (map point vs) i = Some (point v).
Proof.
  intros Gv G. induction G as [|u vs Gu _ IH]; intros I k; [destruct I|]. cbn [find_vertex map In] in *.
  destruct (same_ok v u Gv Gu) as (b & E & H). rewrite E. cbn [bind]. destruct b.
  - exists 0%nat. rewrite Nat.add_0_r. split; [reflexivity|]. cbn [nth_error]. f_equal. symmetry. apply H. reflexivity.
  - destruct I as [I|I]; [exfalso; symmetry in I; apply H in I; discriminate|].
    destruct (IH I (S k)) as (i & Ei & Hi). exists (S i). rewrite Ei. split; [do 2 f_equal; lia|exact Hi].
Qed.

Lemma bonds_ok (o : obj4) vs : goodo 6 o -> goods 6 vs -> Forall (fun e => (2 <= length e)%nat) o ->
  incl (map point (concat o)) (map point vs) ->
  exists bs, mapM (bond_of Rnum dist same vs) o = Ok bs /\ Forall2 (joins point (map point vs)) o bs.
Proof.
  intros G Gv L. revert L. induction G as [|e o Ge _ IH]; intros L I; [exists []; split; [reflexivity|constructor]|].
  inversion L as [|? ? Le L']; subst. destruct e as [|u [|v e]]; cbn [length] in Le; try lia.
  inversion Ge as [|? ? Gu Ge']; subst. inversion Ge' as [|? ? Gv' _]; subst.
  destruct IH as (bs & Eb & Fb); [exact L'|intros x Hx; apply I; cbn [concat]; rewrite map_app; apply in_or_app; right; exact Hx|].
  cbn [mapM]. unfold bond_of at 1. cbn [get nth_error bind]. rewrite (dist_ok u v Gu Gv'). cbn [bind].
  destruct (find_vertex_ok u vs Gu Gv) with (k := 0%nat) as (i & Ei & Hi); [apply I; cbn [concat map app]; left; reflexivity|].
  destruct (find_vertex_ok v vs Gv' Gv) with (k := 0%nat) as (j & Ej & Hj); [apply I; cbn [concat map app]; right; left; reflexivity|].
  cbn [plus] in Ei, Ej. rewrite Ei. cbn [bind]. rewrite Ej. cbn [bind]. rewrite Eb. cbn [bind].
  eexists. split; [reflexivity|]. constructor; [|exact Fb]. cbn [joins]. exists u, v, e. auto.
Qed.
End Generic.

(** ** ico2 *)
Lemma card1 {A} (x y : A) n : card [x; y] n -> (n = 1%nat <-> x = y).
Proof.
  intros (d & N & E & L). split.
  - intros ->. destruct d as [|a [|]]; try discriminate. 
    assert (H1 : In x [a]) by (apply E; left; reflexivity). assert (H2 : In y [a]) by (apply E; right; left; reflexivity).
    cbn [In] in *. intuition congruence.
  - intros <-. destruct d as [|a [|b d]].
    + exfalso. apply (proj2 (E x)). left. reflexivity.
    + cbn in L. lia.
    + exfalso. assert (H1 : In a [x; x]) by (apply E; left; reflexivity). assert (H2 : In b [x; x]) by (apply E; right; left; reflexivity).
      cbn [In] in *. inversion N as [|? ? Na _]; subst. apply Na. left. intuition congruence.
Qed.

Lemma same_point_ok u v : good 6 u -> good 6 v -> exists b, same_point u v = Ok b /\ (b = true <-> ppoint u = ppoint v).
Proof.
  intros Gu Gv. assert (G : goods 6 [u; v]) by (repeat constructor; assumption || apply Gu || apply Gv).
  destruct (perp_space_spec _ G) as (r & E & _). unfold same_point. rewrite E. cbn [bind]. eexists. split; [reflexivity|].
  rewrite Nat.eqb_eq. apply card1. apply (perp_space_card _ _ G E).
Qed.
Lemma dsame_point_ok u v : good 6 u -> good 6 v -> exists b, dsame_point u v = Ok b /\ (b = true <-> dppoint u = dppoint v).
Proof.
  intros Gu Gv. assert (G : goods 6 [u; v]) by (repeat constructor; assumption || apply Gu || apply Gv).
  destruct (dperp_space_spec _ G) as (r & E & _). unfold dsame_point. rewrite E. cbn [bind]. eexists. split; [reflexivity|].
  rewrite Nat.eqb_eq. apply card1. apply (dperp_space_card _ _ G E).
Qed.

Lemma norm3_list (l : list R) : length l = 3%nat -> norm_list Rnum l = vnorm l.
Proof.
  intros L. do 4 (destruct l as [|? l]; try discriminate). unfold norm_list, vnorm, dot. cbn [fold_left zipWith Rsum fsqrt fdot dot_left dot_from Rnum F].
  f_equal. ring.
Qed.
Lemma diff_len {w} {u v d : vec} : length u = 6%nat -> length v = 6%nat -> vals w d = vsub (vals w u) (vals w v) -> length d = 6%nat.
Proof. intros Lu Lv E. rewrite <- (vals_length w), E, vsub_length; rewrite !vals_length; congruence. Qed.
Lemma distance_ok u v : good 6 u -> good 6 v -> distance_in_perp_space Rnum u v = Ok (vnorm (vsub (ppoint u) (ppoint v))).
Proof.
  intros Gu Gv. unfold distance_in_perp_space.
  pose proof (sub_vectors_spec ico_arith u v (proj1 Gu) (proj1 Gv) ltac:(rewrite (proj2 Gu), (proj2 Gv); lia)) as H.
  apply wp_elim in H as (d & Ed & Cd & Vd). change (sub_vectors_ add mul) with sub_vectors in Ed. rewrite Ed. cbn [bind].
  pose proof (diff_len (proj2 Gu) (proj2 Gv) Vd) as Ld.
  pose proof (projection3_spec d (conj (canonv_wfv _ Cd) Ld)) as P. apply wp_elim in P as (p & Ep & Cp & Vp). rewrite Ep. cbn [bind].
  f_equal. unfold length_numerical. rewrite numerical_vector_R, Vp, Vd, norm3_list by reflexivity. f_equal. unfold ppoint, perp.
  apply matvec_vsub. rewrite !vals_length. rewrite (proj2 Gu), (proj2 Gv). reflexivity.
Qed.
Lemma ddistance_ok u v : good 6 u -> good 6 v -> ddistance_in_perp_space Rnum u v = Ok (vnorm (vsub (dppoint u) (dppoint v))).
Proof.
  intros Gu Gv. unfold ddistance_in_perp_space.
  pose proof (sub_vectors_spec dode_arith u v (proj1 Gu) (proj1 Gv) ltac:(rewrite (proj2 Gu), (proj2 Gv); lia)) as H.
  apply wp_elim in H as (d & Ed & Cd & Vd). change (sub_vectors_ dadd dmul) with dsub_vectors in Ed. rewrite Ed. cbn [bind].
  pose proof (diff_len (proj2 Gu) (proj2 Gv) Vd) as Ld.
  pose proof (dprojection3_spec d (conj (canonv_wfv _ Cd) Ld)) as P. apply wp_elim in P as (p & Ep & Cp & Vp). rewrite Ep. cbn [bind].
  f_equal. change (dlength_numerical Rnum p) with (norm_list Rnum (vals SIN p)). rewrite Vp, Vd, norm3_list by reflexivity. f_equal. unfold dppoint, dperp.
  apply matvec_vsub. rewrite !vals_length. rewrite (proj2 Gu), (proj2 Gv). reflexivity.
Qed.

Lemma atoms_ok vs : goods 6 vs -> mapM (atom_of Rnum) vs = Ok (map ppoint vs).
Proof.
  induction 1 as [|v vs G _ IH]; [reflexivity|]. cbn [mapM map]. unfold atom_of at 1.
  pose proof (projection3_spec v G) as P. apply wp_elim in P as (p & Ep & _ & Vp). rewrite Ep. cbn [bind]. rewrite IH. cbn [bind].
  rewrite numerical_vector_R, Vp. reflexivity.
Qed.
Lemma datoms_ok vs : goods 6 vs -> mapM (datom_of Rnum) vs = Ok (map dppoint vs).
Proof.
  induction 1 as [|v vs G _ IH]; [reflexivity|]. cbn [mapM map]. unfold datom_of at 1.
  pose proof (dprojection3_spec v G) as P. apply wp_elim in P as (p & Ep & _ & Vp). rewrite Ep. cbn [bind]. rewrite IH. cbn [bind].
  change (dnumerical_vector Rnum p) with (vals SIN p). rewrite Vp. reflexivity.
Qed.
Lemma ditems_ok o : goodo 6 o -> mapM (mapM (datom_of Rnum)) o = Ok (map (map dppoint) o).
Proof. induction 1 as [|t o G _ IH]; [reflexivity|]. cbn [mapM map]. rewrite datoms_ok, IH by exact G. reflexivity. Qed.

Lemma goodo_concat o : goodo 6 o -> goods 6 (concat o).
Proof. apply Forall_concat. Qed.

Lemma all_none_edges (o : obj4) : o <> [] -> goodo 6 o -> Forall (fun e => (2 <= length e)%nat) o -> all_none (Some (A4 o)) = false.
Proof.
  intros N G L. cbn [all_none]. destruct o as [|t o]; [congruence|]. inversion L; subst. inversion G as [|? ? Gt _]; subst.
  destruct t as [|v t]; [cbn in *; lia|]. inversion Gt as [|? ? [_ Lv] _]; subst. destruct v; [discriminate|reflexivity].
Qed.

Lemma vesta_bonds o select : o <> [] -> goodo 6 o -> Forall (fun e => (2 <= length e)%nat) o -> select <> "simple"%string ->
  exists atoms bonds, write_vesta Rnum (Some (A4 o)) select = Ok (Some 0%Z, VBonds Rnum atoms bonds) /\
    NoDup atoms /\ same_set atoms (map ppoint (concat o)) /\ Forall2 (joins ppoint atoms) o bonds.
Proof.
  intros N G L S. unfold write_vesta. rewrite orb_true_r, all_none_edges by assumption.
  rewrite (proj2 (String.eqb_neq _ _) S).
  destruct (perp_space_spec_flat (concat o) (A4 o)) as (r & E & I & ND & SS); [right; exists o; auto|apply goodo_concat; exact G|].
  rewrite E. cbn [bind]. assert (Gr : goods 6 r) by (eapply goods_incl; [apply goodo_concat; exact G|exact I]).
  destruct (bonds_ok ppoint same_point (distance_in_perp_space Rnum) same_point_ok distance_ok o r G Gr L) as (bs & Eb & Fb).
  { intros x Hx. apply SS. exact Hx. }
  rewrite Eb. cbn [bind]. rewrite atoms_ok by exact Gr. cbn [bind]. exists (map ppoint r), bs. auto.
Qed.

Lemma dvesta_bonds o : o <> [] -> goodo 6 o -> Forall (fun e => (2 <= length e)%nat) o ->
  exists atoms bonds, dwrite_vesta Rnum (Some (A4 o)) "egdes" = Ok (Some 0%Z, VBonds Rnum atoms bonds) /\
    NoDup atoms /\ same_set atoms (map dppoint (concat o)) /\ Forall2 (joins dppoint atoms) o bonds.
Proof.
  intros N G L. unfold dwrite_vesta. rewrite all_none_edges by assumption. cbn [String.eqb Ascii.eqb Bool.eqb orb].
  destruct (dperp_space_spec_flat (concat o) (A4 o)) as (r & E & I & ND & SS); [right; exists o; auto|apply goodo_concat; exact G|].
  rewrite E. cbn [bind]. assert (Gr : goods 6 r) by (eapply goods_incl; [apply goodo_concat; exact G|exact I]).
  destruct (bonds_ok dppoint dsame_point (ddistance_in_perp_space Rnum) dsame_point_ok ddistance_ok o r G Gr L) as (bs & Eb & Fb).
  { intros x Hx. apply SS. exact Hx. }
  rewrite Eb. cbn [bind]. rewrite datoms_ok by exact Gr. cbn [bind]. exists (map dppoint r), bs. auto.
Qed.

Lemma dvesta_items o : o <> [] -> goodo 6 o -> Forall (fun e => (2 <= length e)%nat) o ->
  dwrite_vesta Rnum (Some (A4 o)) "normal" = Ok (Some 0%Z, VItems Rnum (map (map dppoint) o)).
Proof.
  intros N G L. unfold dwrite_vesta. rewrite all_none_edges by assumption. cbn [String.eqb Ascii.eqb Bool.eqb orb].
  rewrite ditems_ok by exact G. reflexivity.
Qed.
