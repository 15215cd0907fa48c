(** Whole computations in int64 and float64. *)
From Coq Require Import Reals List ZArith.
From Verif Require Import Base.Res Model.Tau Model.Arr Model.IcoMath1 Model.DodeMath1 Model.IcoSymmetry Model.DodeSymmetry Model.IcoVolume Model.DodeArea Model.MachineVec Model.MachineSym
  Spec.Value Spec.RVec Spec.IcoSpec Spec.DodeSpec Spec.Grid.
Import ListNotations.
Local Open Scope Z_scope.

From Coq Require Import Lia Lra Bool.
From Verif Require Import Proofs.ResLemmas Proofs.ValueLemmas Proofs.Irrational Proofs.ScalarLemmas Proofs.MachineLemmas Proofs.IcoVolumeLemmas Proofs.DodeProj Proofs.DodeAreaLemmas Proofs.GridLemmas Proofs.GridSign Proofs.GridVolume Proofs.GridArea Proofs.MachineSymLemmas.

(** A vector on the denominator q with numerators up to M is projected exactly. *)
Lemma L_C101_projection : forall (q M : Z) (v : vec), 0 <= M -> q <= 90000000 -> M * q <= 10^15 -> 0 < q -> gridv 6 q M v ->
  same (gridv 3 q (6 * M)) (m_projection3 v) (projection3 v).
Proof. intros q M v PM Hq H Pq G. apply projection3_grid; try assumption; unfold cap; nia. Qed.

(** The volume of a tetrahedron comes out exactly. *)
Lemma L_C101_volume : forall (q M : Z) (t : vecs), 0 <= M -> 0 < q <= 400 -> M * q <= 3000 -> length t = 4%nat -> grids 6 q M t -> clear_vol q M t ->
  exists v, m_tetrahedron_volume_6d_3 t = Ok v /\ tetrahedron_volume_6d_3 t = Ok v /\ canon v /\ val TAU v = pvol t.
Proof. intros q M t PM Hq H L G Cl. destruct (volume_grid q M t L G PM Hq H Cl) as (v & E1 & E2 & _ & Cv & Vv). exists v. auto. Qed.

(** So does the volume of an object with n tetrahedra when n (M q)^3 is at most 1.6 10^10. *)
Lemma L_C101_object : forall (q M : Z) (o : obj4), 0 <= M -> 0 < q <= 250 -> M * q <= 3000 -> Z.of_nat (length o) * (M * q * (M * q) * (M * q)) <= 16000000000 ->
  Forall (fun t => length t = 4%nat /\ grids 6 q M t /\ clear_vol q M t) o ->
  exists v, m_obj_volume_6d (A4 o) = Ok (Some v) /\ obj_volume_6d (A4 o) = Ok (Some v) /\ canon v /\ val TAU v = Rsum (map pvol o).
Proof. intros q M o PM Hq H Hn F. exact (obj_volume_grid q M o F PM Hq H Hn). Qed.

(** Moving an object is exact, and the result stays on the same denominator. *)
Lemma L_C101_shift : forall (q M N : Z) (o : obj4) (s : vec), q <= 90000000 -> (M + N) * q <= 2^53 -> 0 < q -> grido 6 q M o -> gridv 6 q N s ->
  exists o', m_shift_object (A4 o) s = Ok (Some o') /\ shift_object (A4 o) s = Ok (Some o') /\ grido 6 q (M + N) o'.
Proof.
  intros q M N o s Hq H Pq Go Gs. destruct (shift_grid ico_machine 6 q M N o s Go Gs) as (r & E1 & E2 & o' & -> & G); [unfold cap; nia|exact H|]. exists o'. auto.
Qed.

(** So are the 120 copies of an object about a centre. *)
Lemma L_C101_symmetric : forall (q M N : Z) (o : obj4) (c : vec), 0 <= M -> 0 <= N -> q <= 90000000 -> (M + 2 * N) * q <= 10^15 -> 0 < q -> grido 6 q M o -> gridv 6 q N c ->
  exists o', m_generator_obj_symmetric_obj icosasymop (A4 o) c = Ok (Some (A4 o')) /\ generator_obj_symmetric_obj (A4 o) c = Ok (Some (A4 o')) /\ grido 6 q (M + 2 * N) o'.
Proof.
  intros q M N o c PM PN Hq H Pq Go Gc.
  assert (Nr : Forall (narrow 6 1) icosasymop).
  { apply Forall_forall. intros m Hm. assert (E : forallb (fun m => (length m =? 6)%nat && forallb (fun r => (length r =? 6)%nat && (rowsum r <=? 1)) m) icosasymop = true) by (vm_compute; reflexivity).
    rewrite forallb_forall in E. specialize (E m Hm). apply andb_true_iff in E as [E1 E2]. split; [apply Nat.eqb_eq, E1|]. apply Forall_forall. intros r Hr. rewrite forallb_forall in E2. specialize (E2 r Hr). apply andb_true_iff in E2 as [E3 E4].
    split; [apply Nat.eqb_eq, E3|apply Z.leb_le, E4]. }
  destruct (fsymmetric_grid _ _ _ _ _ _ _ _ ico_machine ico_float 6 q M N 1 icosasymop o c Nr) as (r & E1 & E2 & o' & -> & G); try assumption; try (unfold cap; nia); try lia.
  exists o'. split; [exact E1|]. split; [exact E2|]. replace (M + 2 * N) with (1 * (M + N) + N) by ring. exact G.
Qed.

(** So is the centroid of n points. *)
Lemma L_C101_centroid : forall (q M : Z) (ps : vecs), 0 <= M -> 0 < q <= 90000000 -> ps <> [] -> Z.of_nat (length ps) * M * q <= 10^15 -> Z.of_nat (length ps) * q <= 2^53 -> grids 6 q M ps ->
  same (gridv 6 (q * Z.of_nat (length ps)) (Z.of_nat (length ps) * M)) (m_centroid ps) (centroid ps).
Proof. intros q M ps PM Hq Np H1 H2 G. apply (centroid_grid ico_machine); try assumption; unfold cap; try lia; nia. Qed.

Lemma grid_at q B i x : on_grid q B x -> gridv 6 q B (at_ i x).
Proof.
  intros G. split; [reflexivity|]. apply Forall_forall. intros y Hy. apply in_map_iff in Hy as (j & <- & _). destruct (Nat.eqb i j); [exact G|]. apply grid_t0; [exact (proj1 G)|exact (grid_pos _ _ _ G)].
Qed.
Lemma grid_origin q B : 0 < q -> 0 <= B -> gridv 6 q B origin6.
Proof. intros. split; [reflexivity|]. repeat (apply Forall_cons; [apply grid_t0; assumption|]). apply Forall_nil. Qed.
Lemma grid_int q B n : 0 < q -> Z.abs n * q <= B -> on_grid q B (T n 0 1).
Proof. intros Hq H. split; [exact Hq|]. exists q. cbn [ta tb tc]. rewrite Z.abs_mul. rewrite (Z.abs_eq q) by lia. lia. Qed.
Ltac tet := repeat (apply Forall_cons; [first [apply grid_origin; lia|apply grid_at]|]); [..|apply Forall_nil].
(** Without the condition on flat tetrahedra the volume can come out negative: the determinant
    is taken for zero or for positive. *)
Lemma L_C101_sign_refuted : exists (M : Z) (t : vecs) (v : tau), M <= 3000 /\ length t = 4%nat /\ grids 6 1 M t /\
  m_tetrahedron_volume_6d_3 t = Ok v /\ (val TAU v < 0)%R /\ (0 < pvol t)%R.
Proof.
  set (u := T 2584 (-1597) 1). set (t := [origin6; at_ 1 u; at_ 0 u; at_ 3 u]). exists 2584, t, (T 12586269025 (-7778742049) 3).
  assert (Gt : grids 6 1 2584 t) by (tet; (split; [lia|exists 1; cbn; lia])).
  assert (Sg : (val TAU (T 12586269025 (-7778742049) 3) < 0)%R) by (apply SignLemmas.neg_tau_spec; [unfold wf; cbn; lia|vm_compute; reflexivity]).
  split; [lia|]. split; [reflexivity|]. split; [exact Gt|]. split; [vm_compute; reflexivity|]. split; [exact Sg|].
  destruct (wp_elim _ _ (tetvol6_spec t eq_refl (tets_of 1 2584 t eq_refl Gt))) as (r & Er & _ & Vr).
  assert (Er' : tetrahedron_volume_6d_3 t = Ok (T (-12586269025) 7778742049 3)) by (vm_compute; reflexivity). rewrite Er in Er'. injection Er' as ->.
  rewrite <- Vr. unfold val in *. cbn [ta tb tc] in *. lra.
Qed.

(** Without the condition on the size the result is wrong although nothing is raised. *)
Lemma L_C101_overflow_refuted : exists (M : Z) (t : vecs) (v : tau), M <= 4000000 /\ length t = 4%nat /\ grids 6 1 M t /\ (IZR (10^19) <= pvol t)%R /\
  m_tetrahedron_volume_6d_3 t = Ok v /\ (val TAU v <= IZR (10^18))%R.
Proof.
  set (t := [origin6; at_ 1 (T 3000003 0 1); at_ 0 (T 3000037 0 1); at_ 3 (T 3000041 0 1)]). exists 3000041, t, (T 669387105311323136 669387105311322880 3).
  assert (Gt : grids 6 1 3000041 t) by (tet; apply grid_int; lia). pose proof TAU_bounds.
  split; [lia|]. split; [reflexivity|]. split; [exact Gt|]. split.
  - destruct (wp_elim _ _ (tetvol6_spec t eq_refl (tets_of 1 3000041 t eq_refl Gt))) as (r & Er & _ & Vr).
    assert (Er' : tetrahedron_volume_6d_3 t = Ok (T 9000243001751001517 9000243001751001517 1)) by (vm_compute; reflexivity). rewrite Er in Er'. injection Er' as ->.
    rewrite <- Vr. unfold val. cbn [ta tb tc]. change (10^19) with 10000000000000000000. lra.
  - split; [vm_compute; reflexivity|]. unfold val. cbn [ta tb tc]. change (10^18) with 1000000000000000000. lra.
Qed.

(** Two tetrahedra with half-integral coordinates, and one with coordinates of a thousand. *)
Example E_C101_ex :
  (let h := T 1 0 2 in let g := T 0 1 2 in
   let o := [[origin6; at_ 0 h; at_ 1 g; at_ 3 h]; [at_ 2 h; at_ 0 g; at_ 1 g; at_ 3 h]] in
   Forall (fun t => length t = 4%nat /\ grids 6 2 1 t /\ clear_vol 2 1 t) o /\
   m_obj_volume_6d (A4 o) = obj_volume_6d (A4 o) /\ exists v, obj_volume_6d (A4 o) = Ok (Some v) /\ v <> t0) /\
  (let t := [origin6; at_ 0 (T 1000 0 1); at_ 1 (T 1000 0 1); at_ 3 (T 1000 0 1)] in
   length t = 4%nat /\ grids 6 1 1000 t /\ clear_vol 1 1000 t).
Proof.
  split; cbv zeta.
  - split; [|split].
    + apply Forall_cons; [|apply Forall_cons; [|apply Forall_nil]]; (split; [reflexivity|]; split; [tet; (split; [lia|exists 1; cbn; lia])|left; lia]).
    + vm_compute. reflexivity.
    + eexists. split; [vm_compute; reflexivity|discriminate].
  - set (t := [origin6; at_ 0 (T 1000 0 1); at_ 1 (T 1000 0 1); at_ 3 (T 1000 0 1)]).
    assert (Gt : grids 6 1 1000 t) by (tet; apply grid_int; lia).
    split; [reflexivity|]. split; [exact Gt|]. right. right.
    destruct (wp_elim _ _ (tetvol6_spec t eq_refl (tets_of 1 1000 t eq_refl Gt))) as (r & Er & _ & Vr). vm_compute in Er. injection Er as <-. rewrite <- Vr. unfold val. cbn [ta tb tc]. pose proof TAU_bounds.
    change (1000 * 1000 * 1000) with 1000000000. change (1 * 1 * 1) with 1. lra.
Qed.

(** The same for dode2. *)
Lemma L_C102_projection : forall (q M : Z) (v : vec), 0 <= M -> 0 < q <= 20000000 -> M * q <= 10^14 -> gridv 6 q M v ->
  same (gridv 3 (4 * q) (10 * M)) (md_projection3 v) (dprojection3 v).
Proof. intros q M v PM [Pq Hq] H G. apply dprojection3_grid; try assumption; unfold cap; nia. Qed.

(** The area of a triangle comes out exactly. *)
Lemma L_C102_area : forall (q M : Z) (t : vecs), 0 <= M -> 0 < q <= 1000 -> M * q <= 100000 -> length t = 3%nat -> grids 6 q M t -> clear_area q M t ->
  exists v, md_triangle_area_6d_3 t = Ok v /\ triangle_area_6d_3 t = Ok v /\ canon v /\ val SIN v = parea t.
Proof. intros q M t PM Hq H L G Cl. destruct (area_grid q M t L G PM Hq H Cl) as (v & E1 & E2 & _ & Cv & Vv). exists v. auto. Qed.

(** So does the area of an object with n triangles when n (M q)^2 is at most 10^10. *)
Lemma L_C102_object : forall (q M : Z) (o : obj4), 0 <= M -> 0 < q <= 800 -> M * q <= 100000 -> Z.of_nat (length o) * (M * q * (M * q)) <= 10000000000 ->
  Forall (fun t => length t = 3%nat /\ grids 6 q M t /\ clear_area q M t) o ->
  exists v, md_obj_area_6d (A4 o) = Ok (Some v) /\ obj_area_6d (A4 o) = Ok (Some v) /\ canon v /\ val SIN v = Rsum (map parea o).
Proof. intros q M o PM Hq H Hn F. exact (obj_area_grid q M o F PM Hq H Hn). Qed.

(** Moving an object is exact. *)
Lemma L_C102_shift : forall (q M N : Z) (o : obj4) (s : vec), q <= 90000000 -> (M + N) * q <= 2^53 -> 0 < q -> grido 6 q M o -> gridv 6 q N s ->
  exists o', md_shift_object (A4 o) s = Ok (Some o') /\ dshift_object (A4 o) s = Ok (Some o') /\ grido 6 q (M + N) o'.
Proof.
  intros q M N o s Hq H Pq Go Gs. destruct (shift_grid dode_machine 6 q M N o s Go Gs) as (r & E1 & E2 & o' & -> & G); [unfold cap; nia|exact H|]. exists o'. auto.
Qed.

(** So are the 24 copies of an object about a centre. *)
Lemma L_C102_symmetric : forall (q M N : Z) (o : obj4) (c : vec), 0 <= M -> 0 <= N -> q <= 90000000 -> (2 * M + 3 * N) * q <= 10^14 -> 0 < q -> grido 6 q M o -> gridv 6 q N c ->
  exists o', md_generator_obj_symmetric_obj dodesymop (A4 o) c = Ok (Some (A4 o')) /\ dgenerator_obj_symmetric_obj (A4 o) c = Ok (Some (A4 o')) /\ grido 6 q (2 * M + 3 * N) o'.
Proof.
  intros q M N o c PM PN Hq H Pq Go Gc.
  assert (Nr : Forall (narrow 6 2) dodesymop).
  { apply Forall_forall. intros m Hm. assert (E : forallb (fun m => (length m =? 6)%nat && forallb (fun r => (length r =? 6)%nat && (rowsum r <=? 2)) m) dodesymop = true) by (vm_compute; reflexivity).
    rewrite forallb_forall in E. specialize (E m Hm). apply andb_true_iff in E as [E1 E2]. split; [apply Nat.eqb_eq, E1|]. apply Forall_forall. intros r Hr. rewrite forallb_forall in E2. specialize (E2 r Hr). apply andb_true_iff in E2 as [E3 E4].
    split; [apply Nat.eqb_eq, E3|apply Z.leb_le, E4]. }
  destruct (fsymmetric_grid _ _ _ _ _ _ _ _ dode_machine dode_float 6 q M N 2 dodesymop o c Nr) as (r & E1 & E2 & o' & -> & G); try assumption; try (unfold cap; nia); try lia.
  exists o'. split; [exact E1|]. split; [exact E2|]. replace (2 * M + 3 * N) with (2 * (M + N) + N) by ring. exact G.
Qed.

(** So is the centroid of n points. *)
Lemma L_C102_centroid : forall (q M : Z) (ps : vecs), 0 <= M -> 0 < q <= 90000000 -> ps <> [] -> Z.of_nat (length ps) * M * q <= 10^15 -> Z.of_nat (length ps) * q <= 10^15 -> grids 6 q M ps ->
  same (gridv 6 (q * Z.of_nat (length ps)) (Z.of_nat (length ps) * M)) (md_centroid ps) (dcentroid ps).
Proof. intros q M ps PM Hq Np H1 H2 G. apply (centroid_grid dode_machine); try assumption; unfold cap; try lia; nia. Qed.

(** Without the condition on flat triangles the area can come out negative. *)
Lemma L_C102_sign_refuted : exists (M : Z) (t : vecs) (v : tau), M <= 100000 /\ length t = 3%nat /\ grids 6 1 M t /\
  md_triangle_area_6d_3 t = Ok v /\ (val SIN v < 0)%R /\ (0 < parea t)%R.
Proof.
  set (u := T (-51409) 59362 1). set (t := [origin6; at_ 0 u; at_ 2 u]). exists 59362, t, (T 4577611587 (-5285770564) 2).
  assert (Gt : grids 6 1 59362 t) by (tet; (split; [lia|exists 1; cbn; lia])).
  assert (Sg : (val SIN (T 4577611587 (-5285770564) 2) < 0)%R) by (apply SignLemmas.neg_sin_spec; [unfold wf; cbn; lia|vm_compute; reflexivity]).
  split; [lia|]. split; [reflexivity|]. split; [exact Gt|]. split; [vm_compute; reflexivity|]. split; [exact Sg|].
  destruct (wp_elim _ _ (triarea6_spec t eq_refl (tris_of 1 59362 t Gt))) as (r & Er & _ & Vr).
  assert (Er' : triangle_area_6d_3 t = Ok (T (-4577611587) 5285770564 2)) by (vm_compute; reflexivity). rewrite Er in Er'. injection Er' as ->.
  rewrite <- Vr. unfold val in *. cbn [ta tb tc] in *. lra.
Qed.

(** Without the condition on the size the result is wrong although nothing is raised. *)
Lemma L_C102_overflow_refuted : exists (M : Z) (t : vecs) (v : tau), M <= 3000000000 /\ length t = 3%nat /\ grids 6 1 M t /\ (15 * IZR (10^17) <= parea t)%R /\
  md_triangle_area_6d_3 t = Ok v /\ (val SIN v <= 3 * IZR (10^17))%R.
Proof.
  set (t := [origin6; at_ 2 (T 2000000011 0 1); at_ 0 (T 2000000033 0 1)]). exists 2000000033, t, (T 0 305842965213693760 1).
  assert (Gt : grids 6 1 2000000033 t) by (tet; apply grid_int; lia). pose proof SIN_bounds.
  split; [lia|]. split; [reflexivity|]. split; [exact Gt|]. change (10^17) with 100000000000000000. split.
  - destruct (wp_elim _ _ (triarea6_spec t eq_refl (tris_of 1 2000000033 t Gt))) as (r & Er & _ & Vr).
    assert (Er' : triangle_area_6d_3 t = Ok (T 0 4000000088000000363 2)) by (vm_compute; reflexivity). rewrite Er in Er'. injection Er' as ->.
    rewrite <- Vr. unfold val. cbn [ta tb tc]. lra.
  - split; [vm_compute; reflexivity|]. unfold val. cbn [ta tb tc]. lra.
Qed.

(** Two triangles with half-integral coordinates, and one with coordinates of a thousand. *)
Example E_C102_ex :
  (let h := T 1 0 2 in let g := T 0 1 2 in
   let o := [[origin6; at_ 0 h; at_ 2 g]; [at_ 1 h; at_ 0 g; at_ 2 g]] in
   Forall (fun t => length t = 3%nat /\ grids 6 2 1 t /\ clear_area 2 1 t) o /\
   md_obj_area_6d (A4 o) = obj_area_6d (A4 o) /\ exists v, obj_area_6d (A4 o) = Ok (Some v) /\ v <> t0) /\
  (let t := [origin6; at_ 0 (T 1000 0 1); at_ 2 (T 1000 0 1)] in
   length t = 3%nat /\ grids 6 1 1000 t /\ clear_area 1 1000 t).
Proof.
  split; cbv zeta.
  - split; [|split].
    + apply Forall_cons; [|apply Forall_cons; [|apply Forall_nil]]; (split; [reflexivity|]; split; [tet; (split; [lia|exists 1; cbn; lia])|left; lia]).
    + vm_compute. reflexivity.
    + eexists. split; [vm_compute; reflexivity|discriminate].
  - set (t := [origin6; at_ 0 (T 1000 0 1); at_ 2 (T 1000 0 1)]).
    assert (Gt : grids 6 1 1000 t) by (tet; apply grid_int; lia).
    split; [reflexivity|]. split; [exact Gt|]. right. right.
    destruct (wp_elim _ _ (triarea6_spec t eq_refl (tris_of 1 1000 t Gt))) as (r & Er & _ & Vr). vm_compute in Er. injection Er as <-. rewrite <- Vr. unfold val. cbn [ta tb tc]. pose proof SIN_bounds.
    change (1000 * 1000) with 1000000. change (1 * 1) with 1. lra.
Qed.
