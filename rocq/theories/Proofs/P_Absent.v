(** Functions that can only fail, or never do what they are for: C44; simplification by
    hand: C68. *)
From Coq Require Import Reals List ZArith Bool Lia Lra.
From Verif Require Import Base.Res Model.Tau Model.Arr Model.Num Model.IcoScalar Model.DodeScalar Model.Vectors Model.IcoMath1 Model.DodeMath1
  Model.IcoSymmetry Model.DodeSymmetry Model.IcoDedup Model.IcoNumeric Model.Absent
  Spec.Value Spec.RVec Spec.Shape Spec.Mean Spec.Geometry Spec.IcoSpec Spec.DodeSpec Spec.Sets Spec.Samples Spec.Selection.
Import ListNotations.
Local Open Scope R_scope.

From Verif Require Import Proofs.ResLemmas Proofs.ValueLemmas Proofs.Irrational Proofs.ScalarLemmas Proofs.RVecLemmas Proofs.VectorLemmas Proofs.DedupLemmas Proofs.DodeDedupLemmas Proofs.IcoProj Proofs.DodeProj.

Definition raises {A} (m : res A) : Prop := exists e, m = Raise e.
Lemma raises_r {A B} (m : res A) (k : A -> res B) : (forall x, raises (k x)) -> raises (bind m k).
Proof. intros H. destruct m as [a|e]; [apply H|exists e; reflexivity]. Qed.
Lemma raises_l {A B} (m : res A) (k : A -> res B) : raises m -> raises (bind m k).
Proof. intros [e ->]. exists e; reflexivity. Qed.
Lemma raises_i {A} e : raises (@Raise A e).
Proof. exists e; reflexivity. Qed.
Ltac rz := cbv zeta; unfold name, attribute; repeat (apply raises_i || (apply raises_r; intro)).

Lemma det_raises add mul m : raises (det_matrix_ add mul None m).
Proof. unfold det_matrix_. rz. Qed.

Ltac wfs := repeat match goal with H : wfv (_ :: _) |- _ => inversion H; clear H; subst
                      | H : Forall wf (_ :: _) |- _ => inversion H; clear H; subst end.
Section Gen.
Context {w : R} {add mul : tau -> tau -> res tau} (A : arith_ok w add mul).
Ltac st := first [eapply evals_bind; [apply (g_mul A); assumption|]; intros ? _ ? ?
                 |eapply evals_bind; [apply (g_add A); assumption|]; intros ? _ ? ?
                 |eapply evals_bind; [apply (g_sub A); assumption|]; intros ? _ ? ?].
Lemma det_name a b c : wfv a -> wfv b -> wfv c -> length a = 3%nat -> length b = 3%nat -> length c = 3%nat ->
  det_matrix_ add mul None [a; b; c] = Raise NameError.
Proof.
  intros Ha Hb Hc La Lb Lc. destruct a as [|a1 [|a2 [|a3 [|]]]]; try discriminate. destruct b as [|b1 [|b2 [|b3 [|]]]]; try discriminate.
  destruct c as [|c1 [|c2 [|c3 [|]]]]; try discriminate. wfs. unfold det_matrix_, get; cbn [nth_error bind].
  destruct (wp_elim _ _ (ao_mul _ _ _ A a1 b2 ltac:(assumption) ltac:(assumption))) as (x & -> & Cx & _). cbn [bind].
  destruct (wp_elim _ _ (ao_mul _ _ _ A x c3 (canon_wf _ Cx) ltac:(assumption))) as (y & -> & _). cbn [bind].
  destruct (wp_elim _ _ (ao_mul _ _ _ A a3 b1 ltac:(assumption) ltac:(assumption))) as (z & -> & _). reflexivity.
Qed.
Lemma det_repaired a b c : wfv a -> wfv b -> wfv c -> length a = 3%nat -> length b = 3%nat -> length c = 3%nat ->
  evals w (det_matrix_ add mul (Some c) [a; b; c]) (det3 (vals w a) (vals w b) (vals w c)).
Proof.
  intros Ha Hb Hc La Lb Lc. destruct a as [|a1 [|a2 [|a3 [|]]]]; try discriminate. destruct b as [|b1 [|b2 [|b3 [|]]]]; try discriminate.
  destruct c as [|c1 [|c2 [|c3 [|]]]]; try discriminate. wfs. unfold det_matrix_, get, name; cbn [nth_error bind].
  repeat st.
  eapply wp_mono; [apply (g_sub A); assumption|]. intros rr [Cr Vr]. split; [exact Cr|]. rewrite Vr. clear Vr.
  repeat match goal with H : val w ?x = _ |- _ => is_var x; rewrite H; clear H end.
  unfold det3. cbn. ring.
Qed.
Lemma middle_raises p q : raises (middle_position_ add mul (fun _ => None) p q).
Proof. unfold middle_position_. cbn [foldM seq Nat.eqb negb]. apply raises_r; intro. apply raises_l. rz. Qed.
End Gen.

(** C44: the determinant. *)
Lemma L_C44_det_matrix : (forall m, exists e, det_matrix m = Raise e) /\ (forall m, exists e, ddet_matrix m = Raise e) /\
  (forall a b c, good 3 a -> good 3 b -> good 3 c -> det_matrix [a; b; c] = Raise NameError /\ ddet_matrix [a; b; c] = Raise NameError).
Proof.
  split; [intro; apply det_raises|]. split; [intro; apply det_raises|]. intros a b c [? ?] [? ?] [? ?].
  split; [apply (det_name ico_arith)|apply (det_name dode_arith)]; assumption.
Qed.

(** The undefined name c is the only fault: were it the last row, the result would be
    the determinant. *)
Lemma L_C44_det_matrix_repaired : forall a b c, good 3 a -> good 3 b -> good 3 c ->
  evals TAU (det_matrix_ add mul (Some c) [a; b; c]) (det3 (vals TAU a) (vals TAU b) (vals TAU c)) /\
  evals SIN (det_matrix_ dadd dmul (Some c) [a; b; c]) (det3 (vals SIN a) (vals SIN b) (vals SIN c)).
Proof.
  intros a b c [? ?] [? ?] [? ?]. split; [apply (det_repaired ico_arith)|apply (det_repaired dode_arith)]; assumption.
Qed.

(** The middle of two points. *)
Lemma L_C44_middle_position : forall p q, (exists e, middle_position p q = Raise e) /\ (exists e, dmiddle_position p q = Raise e).
Proof. intros p q. split; apply middle_raises. Qed.

(** Were tmp2 the array built so far, the result would be the middle. *)
Lemma L_C44_middle_position_repaired : forall p q, good 6 p -> good 6 q ->
  evalsv TAU (middle_position_ add mul Some p q) (map (fun x => x / 2) (vadd (vals TAU p) (vals TAU q))) /\
  evalsv SIN (middle_position_ dadd dmul Some p q) (map (fun x => x / 2) (vadd (vals SIN p) (vals SIN q))).
Proof.
  assert (G : forall w add mul p q, arith_ok w add mul -> good 6 p -> good 6 q ->
    evalsv w (middle_position_ add mul Some p q) (map (fun x => x / 2) (vadd (vals w p) (vals w q)))).
  { intros w add0 mul0 p q A [Hp Lp] [Hq Lq].
    do 7 (destruct p as [|? p]; try discriminate). do 7 (destruct q as [|? q]; try discriminate). clear Lp Lq.
    wfs. assert (W2 : wf (T 1 0 2)) by (unfold wf; cbn; lia).
    unfold middle_position_, get, name. cbn [foldM seq nth_error bind Nat.eqb negb]. unfold evalsv.
    repeat (rewrite ?bind_assoc; first [eapply evals_bind; [apply (g_add A); assumption|]; intros ? _ ? ?
                  |eapply evals_bind; [apply (g_mul A); assumption|]; intros ? ? ? ?]; cbn [bind]).
    cbn [wp app]. split; [repeat (apply Forall_cons; [assumption|]); apply Forall_nil|].
    assert (V2 : val w (T 1 0 2) = / 2) by (unfold val; cbn [ta tb tc]; lra).
    cbn. repeat match goal with H : val w ?x = _ |- _ => is_var x; rewrite H; clear H end. rewrite V2. reflexivity. }
  intros p q Hp Hq. split; apply G; auto; [exact ico_arith|exact dode_arith].
Qed.

(** Selected symmetry operations, and equivalent vectors. *)
Lemma L_C44_symmetry : (forall vs c l, generator_obj_symmetric_tetrahedron_specific_symop (A3 vs) c l = Raise NameError) /\
  (forall o c l, generator_obj_symmetric_tetrahedron_specific_symop (A4 o) c l = Raise NameError) /\
  (forall a c l r, generator_obj_symmetric_tetrahedron_specific_symop a c l = Ok r -> r = None) /\
  (forall a c, generator_equivalent_vectors a c = Raise AttributeError) /\
  (forall a c l r, dgenerator_obj_symmetric_triangle_specific_symop a c l = Ok r -> r = None) /\
  (forall a c, dgenerator_equivalent_vectors a c = Raise AttributeError).
Proof.
  split; [reflexivity|]. split; [reflexivity|]. split; [intros a c l r; destruct a; cbn; congruence|]. split; [reflexivity|].
  split; [intros a c l r; destruct a; cbn; congruence|reflexivity].
Qed.

(** The intersection of two segments (ico2). *)
Lemma L_C44_two_segments : forall s1 s2, intersection_two_segment None s1 s2 = Raise NameError.
Proof. reflexivity. Qed.

(** Two tetrahedra are never merged: where that is possible the function raises. *)
Lemma L_C44_merge_two_tetrahedra : forall N a b r, merge_two_tetrahedra N a b = Ok r -> r = None.
Proof.
  intros N a b r. unfold merge_two_tetrahedra. destruct (check_connectivity_tetrahedra a b) as [[|]|]; cbn [bind]; try congruence.
  destruct (get_common_triangle_in_two_tetrahedra a b) as [[c|]|]; cbn [bind notNone]; try discriminate.
  generalize (remove_vectors a b ++ remove_vectors b a). generalize c at 2. intros vs line.
  induction vs as [|v vs IH]; cbn [try_merge]; [congruence|]. destruct (point_on_segment N v line) as [[|]|]; cbn [bind]; try discriminate. exact IH.
Qed.

Lemma as_float_rows N a : raises (n <- numeric_value_array N a ;; as_float N n)%res.
Proof.
  unfold numeric_value_array. destruct (get a 0), (get a 1), (get a 2); cbn; apply raises_i.
Qed.
Lemma smpl_raises N proj show a : a <> [] -> raises (write_xyz_smpl N proj show a).
Proof.
  destruct a as [|v a]; [congruence|]. intros _. unfold write_xyz_smpl. cbn [mapM]. unfold bind at 1.
  destruct (proj v) as [x|e]; cbn [bind]; [|apply raises_i]. destruct (as_float_rows N x) as [e E].
  destruct (numeric_value_array N x) as [n|e']; cbn [bind] in *; [|apply raises_i]. rewrite E. apply raises_i.
Qed.
(** The first step of the simplification by hand raises for every object whose
    de-duplicated list of vertices is not empty. *)
Lemma L_C44_simple_hand_step1 : forall N show o,
  (remove_doubling_in_perp_space o <> Ok [] -> exists e, simple_hand_step1 N show o = Raise e) /\
  (DodeDedup.dremove_doubling_in_perp_space o <> Ok [] -> exists e, dsimple_hand_step1 N show o = Raise e).
Proof.
  intros N show o. unfold simple_hand_step1, dsimple_hand_step1, simple_hand_step1_. split; intros H.
  - destruct (remove_doubling_in_perp_space o) as [a|e]; cbn [bind]; [|apply raises_i].
    destruct (smpl_raises N projection3 show a) as [e ->]; [congruence|]. apply raises_i.
  - destruct (DodeDedup.dremove_doubling_in_perp_space o) as [a|e]; cbn [bind]; [|apply raises_i].
    destruct (smpl_raises N dprojection3 show a) as [e ->]; [congruence|]. apply raises_i.
Qed.

(** The second step (dode2), the border edges (dode2), the site symmetry (ico2), and
    inside_outside_obj (dode2). *)
Lemma L_C44_dode_step2 : forall o l, exists e, dsimple_hand_step2 o l = Raise e.
Proof. intros o [|l ls]; unfold dsimple_hand_step2, simple_hand_step2_; [apply raises_i|]. rz. Qed.
Lemma L_C44_dode_border_edges : forall clean o, dgenerate_border_edges None clean o = Raise AttributeError.
Proof. reflexivity. Qed.
Lemma L_C44_ico_site_symmetry : forall N proj rest pos c, exists e, ico_site_symmetry N proj rest pos c = Raise e.
Proof.
  intros N proj rest pos c. unfold ico_site_symmetry. apply raises_r; intros tr. unfold numeric_components. cbn [mapM seq].
  repeat match goal with |- context [get pos ?i] => destruct (get pos i); cbn [bind]; [|apply raises_i] end.
  apply raises_i.
Qed.
Lemma L_C44_dode_inside_outside : forall N inside internal p o,
  dinside_outside_obj_tau N inside None None internal p o = Raise NameError /\
  (forall q t ts, dinside_outside_obj N inside None q (t :: ts) = Raise NameError).
Proof. split; reflexivity. Qed.

Example E_C44_ex : good 3 [T 1 1 1; T 0 1 2; T 3 0 1] /\
  det_matrix_ add mul (Some [t0; t0; T 1 0 1]) [[T 1 1 1; t0; t0]; [t0; T 0 1 2; t0]; [t0; t0; T 1 0 1]] = Ok (T 1 2 2) /\
  remove_doubling_in_perp_space (A4 [tetA]) <> Ok [] /\
  merge_two_tetrahedra Bnum [o6; x1; x2; x4] [o6; x2; x4; iv [-1;0;0;0;0;0]%Z] = Raise TypeError /\
  merge_two_tetrahedra Bnum tetA tetB = Ok None.
Proof.
  split; [split; [repeat constructor; unfold wf; cbn; lia|reflexivity]|]. split; [vm_compute; reflexivity|].
  split; [vm_compute; discriminate|]. split; vm_compute; reflexivity.
Qed.

Lemma pick_numbered o l p : l <> [] -> numbered o l p -> pick_points o l = Ok p.
Proof.
  intros N H. unfold pick_points. destruct l as [|i l]; [congruence|]. clear N. induction H as [|j v l' p' [Hj E] H IH]; [reflexivity|].
  cbn [mapM]. rewrite IH. unfold pyitem. replace (0 <=? j - 1)%Z with true by (symmetry; apply Z.leb_le; lia).
  unfold get. rewrite E. reflexivity.
Qed.
Lemma fold_parts (tetra : vecs -> res (option obj4)) o ls : forall ps (ts : list obj4) (od : obj4), Forall (fun l => l <> []) ls -> Forall2 (numbered o) ls ps ->
  Forall2 (fun p t => tetra p = Ok (Some t)) ps ts ->
  foldM (fun od1 l => p <- pick_points o l ;; f <- attribute (Some tetra) ;; od2 <- f p ;;
    match od1, od2 with Some a, Some b => Ok (Some (a ++ b)) | _, _ => Raise ValueError end)%res (Some od) ls = Ok (Some (od ++ concat ts)).
Proof.
  induction ls as [|l ls IH]; intros ps ts od Nl Hp Ht.
  - inversion Hp; subst. inversion Ht; subst. cbn. rewrite app_nil_r. reflexivity.
  - inversion Hp as [|? p ? ps' H1 H2]; subst. inversion Ht as [|? t ? ts' H3 H4]; subst. inversion Nl; subst.
    cbn [foldM]. rewrite (pick_numbered o l p) by assumption. unfold attribute. cbn [bind]. rewrite H3. cbn [bind].
    unfold attribute in IH. erewrite IH by eassumption. cbn [concat]. rewrite app_assoc. reflexivity.
Qed.
(** C68: the result is the triangulation of every group of points, one after the other. *)
Lemma L_C68_groups : forall tetra o ls ps ts, ls <> [] -> Forall (fun l => l <> []) ls -> Forall2 (numbered o) ls ps ->
  Forall2 (fun p t => tetra p = Ok (Some t)) ps ts -> simple_hand_step2_ (Some tetra) o ls = Ok (Some (concat ts)).
Proof.
  intros tetra o ls ps ts N Nl Hp Ht. destruct ls as [|l ls]; [congruence|].
  inversion Hp as [|? p ? ps' H1 H2]; subst. inversion Ht as [|? t ? ts' H3 H4]; subst. inversion Nl; subst.
  unfold simple_hand_step2_. rewrite (pick_numbered o l p) by assumption. unfold attribute at 1. cbn [bind]. rewrite H3.
  exact (fold_parts tetra o ls ps' ts' t ltac:(assumption) H2 H4).
Qed.
(** A group without volume (its triangulation is None) makes the call raise unless it
    is the only group; no groups at all make it raise too. *)
Lemma L_C68_flat_group : forall tetra o l1 l2 ls p1 p2 t1, l1 <> [] -> l2 <> [] -> numbered o l1 p1 -> numbered o l2 p2 ->
  tetra p1 = Ok t1 -> tetra p2 = Ok None -> simple_hand_step2_ (Some tetra) o (l1 :: l2 :: ls) = Raise ValueError /\
  simple_hand_step2_ (Some tetra) o (l2 :: l1 :: ls) = Raise ValueError /\
  simple_hand_step2_ (Some tetra) o [l2] = Ok None /\ simple_hand_step2_ (Some tetra) o [] = Raise UnboundLocalError.
Proof.
  intros tetra o l1 l2 ls p1 p2 t1 N1 N2 H1 H2 E1 E2. unfold simple_hand_step2_. cbn [foldM].
  rewrite (pick_numbered o l1 p1), (pick_numbered o l2 p2) by assumption. unfold attribute. cbn [bind]. rewrite E1, E2. cbn [bind].
  rewrite ?E1, ?E2. cbn [bind]. destruct t1; repeat split; reflexivity.
Qed.
(** Number 0 is accepted and means the last point. *)
Lemma L_C68_zero_is_last : forall tetra o v l, simple_hand_step2_ (Some tetra) (o ++ [v]) [0%Z :: l] = simple_hand_step2_ (Some tetra) (o ++ [v]) [Z.of_nat (length o) + 1 :: l]%Z.
Proof.
  intros. assert (P : pyitem (o ++ [v]) (0 - 1) = pyitem (o ++ [v]) (Z.of_nat (length o) + 1 - 1)).
  { unfold pyitem. rewrite app_length. cbn [length]. replace (0 <=? 0 - 1)%Z with false by reflexivity.
    replace (0 <=? 0 - 1 + Z.of_nat (length o + 1))%Z with true by (symmetry; apply Z.leb_le; lia).
    replace (0 <=? Z.of_nat (length o) + 1 - 1)%Z with true by (symmetry; apply Z.leb_le; lia). f_equal. lia. }
  unfold simple_hand_step2_, pick_points. cbn [mapM]. rewrite P. reflexivity.
Qed.

Example E_C68_ex : numbered [o6; x1; x2; x4; x3] [2;3;4;1]%Z [x1; x2; x4; o6] /\
  simple_hand_step2 Bnum (fun p => Some [(0,1,2,3)]%nat) [o6; x1; x2; x4; x3] [[2;3;4;1];[1;2;3;5]]%Z = Ok (Some [[x1; x2; x4; o6]; [o6; x1; x2; x3]]).
Proof.
  split; [repeat (apply Forall2_cons || apply Forall2_nil); (split; [lia|reflexivity])|]. vm_compute. reflexivity.
Qed.
