(** Whole computations in int64 and float64. *)
From Coq Require Import Reals List ZArith.
From Verif Require Import Base.Res Model.Tau Model.Arr Model.IcoMath1 Model.DodeMath1 Model.IcoSymmetry Model.DodeSymmetry Model.IcoVolume Model.DodeArea Model.MachineVec Model.MachineSym
  Spec.Value Spec.RVec Spec.IcoSpec Spec.DodeSpec Spec.Grid.
Import ListNotations.
Local Open Scope Z_scope.
From Verif Require Import Proofs.P_MachineVec.
Import ListNotations.

(** A vector on the denominator q with numerators up to M is projected exactly. *)
Theorem C101_projection : forall (q M : Z) (v : vec), 0 <= M -> q <= 90000000 -> M * q <= 10^15 -> 0 < q -> gridv 6 q M v ->
  same (gridv 3 q (6 * M)) (m_projection3 v) (projection3 v).
Proof. exact L_C101_projection. Qed.
Print Assumptions C101_projection.

(** The volume of a tetrahedron comes out exactly. *)
Theorem C101_volume : forall (q M : Z) (t : vecs), 0 <= M -> 0 < q <= 400 -> M * q <= 3000 -> length t = 4%nat -> grids 6 q M t -> clear_vol q M t ->
  exists v, m_tetrahedron_volume_6d_3 t = Ok v /\ tetrahedron_volume_6d_3 t = Ok v /\ canon v /\ val TAU v = pvol t.
Proof. exact L_C101_volume. Qed.
Print Assumptions C101_volume.

(** So does the volume of an object with n tetrahedra when n (M q)^3 is at most 1.6 10^10. *)
Theorem C101_object : forall (q M : Z) (o : obj4), 0 <= M -> 0 < q <= 250 -> M * q <= 3000 -> Z.of_nat (length o) * (M * q * (M * q) * (M * q)) <= 16000000000 ->
  Forall (fun t => length t = 4%nat /\ grids 6 q M t /\ clear_vol q M t) o ->
  exists v, m_obj_volume_6d (A4 o) = Ok (Some v) /\ obj_volume_6d (A4 o) = Ok (Some v) /\ canon v /\ val TAU v = Rsum (map pvol o).
Proof. exact L_C101_object. Qed.
Print Assumptions C101_object.

(** Moving an object is exact, and the result stays on the same denominator. *)
Theorem C101_shift : forall (q M N : Z) (o : obj4) (s : vec), q <= 90000000 -> (M + N) * q <= 2^53 -> 0 < q -> grido 6 q M o -> gridv 6 q N s ->
  exists o', m_shift_object (A4 o) s = Ok (Some o') /\ shift_object (A4 o) s = Ok (Some o') /\ grido 6 q (M + N) o'.
Proof. exact L_C101_shift. Qed.
Print Assumptions C101_shift.

(** So are the 120 copies of an object about a centre. *)
Theorem C101_symmetric : forall (q M N : Z) (o : obj4) (c : vec), 0 <= M -> 0 <= N -> q <= 90000000 -> (M + 2 * N) * q <= 10^15 -> 0 < q -> grido 6 q M o -> gridv 6 q N c ->
  exists o', m_generator_obj_symmetric_obj icosasymop (A4 o) c = Ok (Some (A4 o')) /\ generator_obj_symmetric_obj (A4 o) c = Ok (Some (A4 o')) /\ grido 6 q (M + 2 * N) o'.
Proof. exact L_C101_symmetric. Qed.
Print Assumptions C101_symmetric.

(** So is the centroid of n points. *)
Theorem C101_centroid : forall (q M : Z) (ps : vecs), 0 <= M -> 0 < q <= 90000000 -> ps <> [] -> Z.of_nat (length ps) * M * q <= 10^15 -> Z.of_nat (length ps) * q <= 2^53 -> grids 6 q M ps ->
  same (gridv 6 (q * Z.of_nat (length ps)) (Z.of_nat (length ps) * M)) (m_centroid ps) (centroid ps).
Proof. exact L_C101_centroid. Qed.
Print Assumptions C101_centroid.

(** Without the condition on flat tetrahedra the volume can come out negative: the determinant
    is taken for zero or for positive. *)
Theorem C101_sign_refuted : exists (M : Z) (t : vecs) (v : tau), M <= 3000 /\ length t = 4%nat /\ grids 6 1 M t /\
  m_tetrahedron_volume_6d_3 t = Ok v /\ (val TAU v < 0)%R /\ (0 < pvol t)%R.
Proof. exact L_C101_sign_refuted. Qed.
Print Assumptions C101_sign_refuted.

(** Without the condition on the size the result is wrong although nothing is raised. *)
Theorem C101_overflow_refuted : exists (M : Z) (t : vecs) (v : tau), M <= 4000000 /\ length t = 4%nat /\ grids 6 1 M t /\ (IZR (10^19) <= pvol t)%R /\
  m_tetrahedron_volume_6d_3 t = Ok v /\ (val TAU v <= IZR (10^18))%R.
Proof. exact L_C101_overflow_refuted. Qed.
Print Assumptions C101_overflow_refuted.

(** Two tetrahedra with half-integral coordinates, and one with coordinates of a thousand. *)
Example C101_ex :
  (let h := T 1 0 2 in let g := T 0 1 2 in
   let o := [[origin6; at_ 0 h; at_ 1 g; at_ 3 h]; [at_ 2 h; at_ 0 g; at_ 1 g; at_ 3 h]] in
   Forall (fun t => length t = 4%nat /\ grids 6 2 1 t /\ clear_vol 2 1 t) o /\
   m_obj_volume_6d (A4 o) = obj_volume_6d (A4 o) /\ exists v, obj_volume_6d (A4 o) = Ok (Some v) /\ v <> t0) /\
  (let t := [origin6; at_ 0 (T 1000 0 1); at_ 1 (T 1000 0 1); at_ 3 (T 1000 0 1)] in
   length t = 4%nat /\ grids 6 1 1000 t /\ clear_vol 1 1000 t).
Proof. exact E_C101_ex. Qed.

(** The same for dode2. *)
Theorem C102_projection : forall (q M : Z) (v : vec), 0 <= M -> 0 < q <= 20000000 -> M * q <= 10^14 -> gridv 6 q M v ->
  same (gridv 3 (4 * q) (10 * M)) (md_projection3 v) (dprojection3 v).
Proof. exact L_C102_projection. Qed.
Print Assumptions C102_projection.

(** The area of a triangle comes out exactly. *)
Theorem C102_area : forall (q M : Z) (t : vecs), 0 <= M -> 0 < q <= 1000 -> M * q <= 100000 -> length t = 3%nat -> grids 6 q M t -> clear_area q M t ->
  exists v, md_triangle_area_6d_3 t = Ok v /\ triangle_area_6d_3 t = Ok v /\ canon v /\ val SIN v = parea t.
Proof. exact L_C102_area. Qed.
Print Assumptions C102_area.

(** So does the area of an object with n triangles when n (M q)^2 is at most 10^10. *)
Theorem C102_object : forall (q M : Z) (o : obj4), 0 <= M -> 0 < q <= 800 -> M * q <= 100000 -> Z.of_nat (length o) * (M * q * (M * q)) <= 10000000000 ->
  Forall (fun t => length t = 3%nat /\ grids 6 q M t /\ clear_area q M t) o ->
  exists v, md_obj_area_6d (A4 o) = Ok (Some v) /\ obj_area_6d (A4 o) = Ok (Some v) /\ canon v /\ val SIN v = Rsum (map parea o).
Proof. exact L_C102_object. Qed.
Print Assumptions C102_object.

(** Moving an object is exact. *)
Theorem C102_shift : forall (q M N : Z) (o : obj4) (s : vec), q <= 90000000 -> (M + N) * q <= 2^53 -> 0 < q -> grido 6 q M o -> gridv 6 q N s ->
  exists o', md_shift_object (A4 o) s = Ok (Some o') /\ dshift_object (A4 o) s = Ok (Some o') /\ grido 6 q (M + N) o'.
Proof. exact L_C102_shift. Qed.
Print Assumptions C102_shift.

(** So are the 24 copies of an object about a centre. *)
Theorem C102_symmetric : forall (q M N : Z) (o : obj4) (c : vec), 0 <= M -> 0 <= N -> q <= 90000000 -> (2 * M + 3 * N) * q <= 10^14 -> 0 < q -> grido 6 q M o -> gridv 6 q N c ->
  exists o', md_generator_obj_symmetric_obj dodesymop (A4 o) c = Ok (Some (A4 o')) /\ dgenerator_obj_symmetric_obj (A4 o) c = Ok (Some (A4 o')) /\ grido 6 q (2 * M + 3 * N) o'.
Proof. exact L_C102_symmetric. Qed.
Print Assumptions C102_symmetric.

(** So is the centroid of n points. *)
Theorem C102_centroid : forall (q M : Z) (ps : vecs), 0 <= M -> 0 < q <= 90000000 -> ps <> [] -> Z.of_nat (length ps) * M * q <= 10^15 -> Z.of_nat (length ps) * q <= 10^15 -> grids 6 q M ps ->
  same (gridv 6 (q * Z.of_nat (length ps)) (Z.of_nat (length ps) * M)) (md_centroid ps) (dcentroid ps).
Proof. exact L_C102_centroid. Qed.
Print Assumptions C102_centroid.

(** Without the condition on flat triangles the area can come out negative. *)
Theorem C102_sign_refuted : exists (M : Z) (t : vecs) (v : tau), M <= 100000 /\ length t = 3%nat /\ grids 6 1 M t /\
  md_triangle_area_6d_3 t = Ok v /\ (val SIN v < 0)%R /\ (0 < parea t)%R.
Proof. exact L_C102_sign_refuted. Qed.
Print Assumptions C102_sign_refuted.

(** Without the condition on the size the result is wrong although nothing is raised. *)
Theorem C102_overflow_refuted : exists (M : Z) (t : vecs) (v : tau), M <= 3000000000 /\ length t = 3%nat /\ grids 6 1 M t /\ (15 * IZR (10^17) <= parea t)%R /\
  md_triangle_area_6d_3 t = Ok v /\ (val SIN v <= 3 * IZR (10^17))%R.
Proof. exact L_C102_overflow_refuted. Qed.
Print Assumptions C102_overflow_refuted.

(** Two triangles with half-integral coordinates, and one with coordinates of a thousand. *)
Example C102_ex :
  (let h := T 1 0 2 in let g := T 0 1 2 in
   let o := [[origin6; at_ 0 h; at_ 2 g]; [at_ 1 h; at_ 0 g; at_ 2 g]] in
   Forall (fun t => length t = 3%nat /\ grids 6 2 1 t /\ clear_area 2 1 t) o /\
   md_obj_area_6d (A4 o) = obj_area_6d (A4 o) /\ exists v, obj_area_6d (A4 o) = Ok (Some v) /\ v <> t0) /\
  (let t := [origin6; at_ 0 (T 1000 0 1); at_ 2 (T 1000 0 1)] in
   length t = 3%nat /\ grids 6 1 1000 t /\ clear_area 1 1000 t).
Proof. exact E_C102_ex. Qed.
