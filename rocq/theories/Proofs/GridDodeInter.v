(** The dodecagonal intersection on the machine. *)
From Coq Require Import Reals List ZArith Lia Bool.
From Verif Require Import Base.Res Model.Tau Model.Arr Model.DodeScalar Model.Vectors Model.DodeMath1 Model.Num Model.DodeNumeric Model.DodeArea Model.Unique Model.IcoDedup Model.DodeDedup Model.IcoIntersect Model.DodeIntersect
  Model.Machine Model.MachineVec Model.MachineCross Model.MachineDodeInter Spec.Value Spec.Shape Spec.DodeSpec Spec.Sets Spec.Grid Spec.MachineDodeInter
  Proofs.ResLemmas Proofs.ScalarLemmas Proofs.UniqueLemmas Proofs.DedupLemmas Proofs.DodeDedupLemmas Proofs.GridLemmas Proofs.GridRing Proofs.GridCross Proofs.GridInter Proofs.P_MachineVec Proofs.P_MachineCross.
Import ListNotations.
Local Open Scope Z_scope.

Lemma dring_grid q K x : sqrt3_ring q K x -> on_grid q K x.
Proof. intros (Hq & k & b & E & Eb & H). split; [exact Hq|]. exists k. lia. Qed.
Lemma dring_grids q K vs : ring_points sqrt3_ring 6 q K vs -> grids 6 q K vs.
Proof. intros G. eapply Forall_impl; [|exact G]. intros v [L F]. split; [exact L|]. eapply Forall_impl; [|exact F]. apply dring_grid. Qed.

Lemma dproj_eq q B v : 0 <= B -> q <= 20000000 -> B * q <= 10^14 -> 0 < q -> gridv 6 q B v -> md_projection3 v = dprojection3 v.
Proof. intros PB Hq HB Pq G. destruct (L_C102_projection q B v PB ltac:(lia) HB G) as (r & -> & -> & _). reflexivity. Qed.
(** De-duplication. *)
Lemma ddedup_eq q B vs a : (a = A3 vs \/ exists o, a = A4 o /\ vs = concat o) -> 0 <= B -> 0 < q -> q <= 20000000 -> B * q <= 10^14 -> grids 6 q B vs ->
  exists r, md_remove_doubling_in_perp_space a = Ok r /\ dremove_doubling_in_perp_space a = Ok r /\ incl r vs /\ (length r <= length vs)%nat.
Proof.
  intros Ha PB Pq Hq HB G. destruct (dperp_space_spec_flat vs a Ha (grids_goods _ _ _ G)) as (r & E & I & Nd & _). exists r.
  split; [|split; [exact E|split; [exact I|apply NoDup_incl_length; [eapply NoDup_map_inv, Nd|exact I]]]]. rewrite <- E.
  assert (Ed : remove_doubling a = Some (unique cmp_vec vs)) by (destruct Ha as [->|(o & -> & ->)]; reflexivity).
  unfold md_remove_doubling_in_perp_space, dremove_doubling_in_perp_space. rewrite Ed. cbn [notNone bind].
  rewrite (mapM_same (gridv 6 q B) md_projection3 dprojection3); [reflexivity| |intros v Gv; eapply dproj_eq; eassumption].
  eapply grids_incl; [exact G|]. intros v Hv. exact (proj1 (unique_In cmp_vec lawful_vec vs v) Hv).
Qed.
Lemma dsub_proj_eq {C} q B D u v (k : vec -> res C) : 0 <= B -> 0 <= D -> 0 < q -> q <= 20000000 -> (B + D) * q <= 10^14 -> gridv 6 q B u -> gridv 6 q D v ->
  bind (md_sub_vectors u v) (fun a => bind (md_projection3 a) k) = bind (dsub_vectors u v) (fun a => bind (dprojection3 a) k).
Proof.
  intros PB PD Pq Hq H Gu Gv. assert (q * q <= 400000000000000) by nia. assert (D <= 10^14) by nia.
  eapply same_eq; [apply (sub_vectors_grid dode_machine 6 q B D u v Gu Gv); unfold cap; lia|]. intros a Ga. rewrite (dproj_eq q (B + D) a) by (try assumption; lia). reflexivity.
Qed.

Section Balls.
Variable N : num.
Lemma dball_eq q B D vs a c : (a = A3 vs \/ exists o, a = A4 o /\ vs = concat o) -> 0 <= B -> 0 <= D -> 0 < q -> q <= 20000000 -> (B + D) * q <= 10^14 -> grids 6 q B vs -> gridv 6 q D c ->
  md_ball_radius_obj N a c = dball_radius_obj N a c.
Proof.
  intros Ha PB PD Pq Hq H G Gc. destruct (ddedup_eq q B vs a Ha) as (r & E1 & E2 & I & _); try assumption; [nia|]. unfold md_ball_radius_obj, dball_radius_obj. rewrite E1, E2. cbn [bind].
  apply (foldM_same (gridv 6 q B)); [eapply grids_incl; eassumption|]. intros dd v Gv. unfold md_farther, dfarther. eapply dsub_proj_eq with (B := B) (D := D); eassumption.
Qed.
Lemma ddistance_eq q B D u v : 0 <= B -> 0 <= D -> 0 < q -> q <= 20000000 -> (B + D) * q <= 10^14 -> gridv 6 q B u -> gridv 6 q D v -> md_distance_in_perp_space N u v = ddistance_in_perp_space N u v.
Proof. intros. unfold md_distance_in_perp_space, ddistance_in_perp_space. eapply dsub_proj_eq with (B := B) (D := D); eassumption. Qed.
End Balls.

(** The centre of an object. *)
Lemma tri_centroid q B t : 0 <= B -> 0 < q <= 20000000 -> 3 * B * q <= 10^14 -> length t = 3%nat -> grids 6 q B t -> same (gridv 6 (q * 3) (3 * B)) (md_centroid t) (dcentroid t).
Proof.
  intros PB Hq HB L G. pose proof (L_C102_centroid q B t PB ltac:(lia)) as S. rewrite L in S. change (Z.of_nat 3) with 3 in S. apply S; [destruct t; discriminate|lia|lia|exact G].
Qed.
Lemma dobj_sum q B o : 0 <= B -> 0 < q -> q * 3 <= 20000000 -> Forall (fun t => length t = 3%nat /\ grids 6 q B t) o -> forall A s, 0 <= A -> gridv 6 (q * 3) A s -> (A + Z.of_nat (length o) * (3 * B)) * (q * 3) <= 10^14 ->
  same (gridv 6 (q * 3) (A + Z.of_nat (length o) * (3 * B)))
    (foldM (fun tmp tet => bind (centroid_ md_add md_mul tet) (fun p => add_vectors_ md_add tmp p)) s o)
    (foldM (fun tmp tet => bind (centroid_ dadd dmul tet) (fun p => add_vectors_ dadd tmp p)) s o).
Proof.
  intros PB Pq Hq F. induction F as [|t o [L G] _ IH]; intros A s PA Gs H; cbn [foldM length] in *.
  - apply same_ret. eapply gridv_weaken; [exact Gs|]. lia.
  - rewrite Nat2Z.inj_succ in *. replace (A + Z.succ (Z.of_nat (length o)) * (3 * B)) with (A + 3 * B + Z.of_nat (length o) * (3 * B)) in * by (unfold Z.succ; ring).
    assert (P0 : 0 <= Z.of_nat (length o) * (3 * B)) by nia. assert (H0 : (A + 3 * B) * (q * 3) <= 10^14) by (eapply Z.le_trans; [|exact H]; apply Z.mul_le_mono_nonneg_r; lia).
    eapply (same_bind (gridv 6 (q * 3) (A + 3 * B))).
    + eapply same_bind; [apply (tri_centroid q B t PB ltac:(lia)); [nia|exact L|exact G]|]. intros p Gp. apply (add_vectors_grid dode_machine); try assumption; unfold cap; nia.
    + intros r Gr. apply IH; [lia|exact Gr|exact H].
Qed.
Lemma dobj_centroid q B o : 0 <= B -> 0 < q -> o <> [] -> Z.of_nat (length o) * (q * 3) <= 20000000 -> Z.of_nat (length o) * (3 * B) * (q * 3) <= 10^14 -> Forall (fun t => length t = 3%nat /\ grids 6 q B t) o ->
  same (gridv 6 (q * 3 * Z.of_nat (length o)) (Z.of_nat (length o) * (3 * B))) (md_centroid_obj o) (dcentroid_obj o).
Proof.
  intros PB Pq No Hn H F. assert (Pn : 0 < Z.of_nat (length o)) by (destruct o; [congruence|cbn [length]; lia]). assert (Hq : q * 3 <= 20000000) by nia.
  assert (P0 : 0 <= Z.of_nat (length o) * (3 * B)) by nia. assert (L0 : Z.of_nat (length o) * (3 * B) <= 10^14) by nia.
  unfold md_centroid_obj, dcentroid_obj, centroid_obj_. eapply (same_bind (gridv 6 (q * 3) (Z.of_nat (length o) * (3 * B)))).
  - rewrite <- (Z.add_0_l (Z.of_nat (length o) * (3 * B))). apply dobj_sum; try assumption; try lia. apply (grid_origin (q * 3) 0); lia.
  - intros s [Ls Fs]. unfold mul_vector_. eapply same_weaken; [apply same_mapM with (1 := Fs) (Q := on_grid (q * 3 * Z.of_nat (length o)) (Z.of_nat (length o) * (3 * B)))|].
    + intros x Gx. pose proof (mo_rat_r _ _ _ _ _ _ _ dode_machine (q * 3) (Z.of_nat (length o) * (3 * B)) 1 (Z.of_nat (length o)) x Pn Gx) as S. change (Z.abs 1) with 1 in S. rewrite !Z.mul_1_l in S.
      apply S; unfold cap; lia.
    + intros r [Lr Fr]. split; [congruence|exact Fr].
Qed.

(** The rough test. *)
Lemma drough_eq N q K n t c d : 0 <= K -> 0 < q -> 0 < n -> n * (q * 3) <= 20000000 -> (2 * (K * (3 * n))) * (q * 3 * n) <= 10^14 -> length t = 3%nat -> grids 6 q K t -> gridv 6 (q * 3 * n) (n * (3 * K)) c ->
  md_rough_check_intersection_triangle_obj N t c d = rough_check_intersection_triangle_obj N t c d.
Proof.
  intros PK Pq Pn Hn H L G Gc. assert (Hq : q * 3 <= 20000000) by nia. assert (N1 : 1 <= n * n) by nia.
  assert (P0 : 0 <= K * q) by nia. assert (E0 : 2 * (K * (3 * n)) * (q * 3 * n) = 18 * (K * q) * (n * n)) by ring. assert (H' : 18 * (K * q) <= 10^14) by (rewrite E0 in H; clear - H N1 P0; eapply Z.le_trans; [|exact H]; rewrite <- (Z.mul_1_r (18 * (K * q))) at 1; apply Z.mul_le_mono_nonneg_l; lia).
  unfold md_rough_check_intersection_triangle_obj, rough_check_intersection_triangle_obj.
  eapply same_eq; [apply (tri_centroid q K t); try assumption; lia|]. intros c1 G1. cbv beta. unfold dball_radius.
  rewrite (dball_eq N (q * 3) (K * 3) (3 * K) t (A3 t) c1); try (left; reflexivity); try assumption; try lia; [|apply grids_scale; [lia|exact G]].
  destruct (dball_radius_obj N (A3 t) c1) as [d1|]; cbn [bind]; [|reflexivity].
  rewrite (ddistance_eq N (q * 3 * n) (3 * K * n) (n * (3 * K)) c1 c); try reflexivity; try assumption; try nia. apply gridv_scale; [exact Pn|exact G1].
Qed.

(** Cutting a convex piece into triangles. *)
Lemma dkeep_eq q M p l : 0 < q <= 1000 -> 0 <= M -> M * q <= 100000 -> grids 6 q M p -> (forall t, incl t p -> length t = 3%nat -> clear_area q M t) ->
  md_keep_simplices p l = dkeep_simplices p l.
Proof.
  intros Hq PM HM G Cl. induction l as [|s l IH]; cbn [md_keep_simplices dkeep_simplices]; [reflexivity|].
  assert (P3 : forall t, pick3 p s = Ok t -> incl t p /\ length t = 3%nat).
  { destruct s as [[i j] k]. unfold pick3. intros t. assert (Gi : forall i a, get p i = Ok a -> In a p) by (intros i0 a E; unfold get in E; destruct (nth_error p i0) eqn:E'; [|discriminate]; injection E as ->; eapply nth_error_In, E').
    destruct (get p i) as [a|] eqn:Ea; [|discriminate]. destruct (get p j) as [b|] eqn:Eb; [|discriminate]. destruct (get p k) as [c|] eqn:Ec; [|discriminate]. cbn [bind].
    intros E. injection E as <-. split; [|reflexivity]. intros x [<-|[<-|[<-|[]]]]; eapply Gi; eassumption. }
  destruct (pick3 p s) as [t|] eqn:Et; cbn [bind]; [|reflexivity]. destruct (P3 t eq_refl) as [It Lt].
  destruct (L_C102_area q M t PM Hq HM Lt (grids_incl _ _ _ _ _ G It) (Cl t It Lt)) as (v & -> & -> & _). cbn [bind]. rewrite IH. reflexivity.
Qed.

Section Pieces.
Variable N : num.
Variable delaunay : list (list (F N)) -> option (list (nat * nat * nat)).
Lemma triangulation_eq q M p : 0 < q <= 1000 -> 0 <= M -> M * q <= 100000 -> grids 6 q M p -> (forall t, incl t p -> length t = 3%nat -> clear_area q M t) ->
  md_triangulation_points N delaunay p = triangulation_points N delaunay p.
Proof.
  intros Hq PM HM G Cl. unfold md_triangulation_points, triangulation_points.
  rewrite (mapM_same (gridv 6 q M) (fun v => bind (md_projection3 v) (fun w => Ok (take2 N (dnumerical_vector N w)))) (fun v => bind (dprojection3 v) (fun w => Ok (take2 N (dnumerical_vector N w)))) p G).
  2:{ intros x Gx. rewrite (dproj_eq q M x) by (try assumption; lia). reflexivity. }
  destruct (mapM _ p) as [ps|]; cbn [bind]; [|reflexivity]. destruct (delaunay ps) as [l|]; [|reflexivity].
  rewrite (dkeep_eq q M p l Hq PM HM G Cl). reflexivity.
Qed.
Lemma dpair_eq q K t1 t2 : 1 <= K -> K * K * q <= 11 -> ring_points sqrt3_ring 6 q K t1 -> ring_points sqrt3_ring 6 q K t2 -> dneat_corners N t1 t2 ->
  md_intersection_two_triangles N delaunay t1 t2 = intersection_two_triangles N delaunay t1 t2.
Proof.
  intros HK H1 G1 G2 Ne. unfold md_intersection_two_triangles, intersection_two_triangles. rewrite (L_C104_corners N q K t1 t2 HK H1 G1 G2).
  destruct (dcollect N t1 t2) as [[m pts]|] eqn:Ec; cbn [bind]; [|reflexivity]. destruct (Ne m pts Ec) as (q' & M & Hq & PM & HM & G & Cl).
  destruct (Nat.leb 3 m); [|reflexivity].
  destruct (ddedup_eq q' M pts (A3 pts) (or_introl eq_refl)) as (r & -> & -> & I & _); try assumption; try lia. cbn [bind]. destruct (Nat.ltb 3 (length r)); [|reflexivity].
  apply (triangulation_eq q' M); try assumption; [eapply grids_incl; eassumption|]. intros t It. apply Cl. eapply incl_tran; eassumption.
Qed.
End Pieces.

(** The loops over two objects. *)
Section Loops.
Variables (rough rough' : vecs -> res bool) (classify : vecs -> vecs -> res Z) (inter inter' : nat -> nat -> vecs -> vecs -> res (option obj4)).
Lemma douter_eq o1 o2 : (forall t, In t o1 -> rough t = rough' t) -> (forall i j t1 t2, In t1 o1 -> In t2 o2 -> inter i j t1 t2 = inter' i j t1 t2) ->
  forall i, md_outer_loop rough classify inter false i o1 o2 = douter_loop rough' classify inter' false i o1 o2.
Proof.
  induction o1 as [|t1 o1 IH]; intros Hr Hi i; cbn [md_outer_loop douter_loop]; [reflexivity|]. unfold md_contribution, dcontribution.
  rewrite (Hr t1 (or_introl eq_refl)), IH; [|intros; apply Hr; right; assumption|intros; apply Hi; [right|]; assumption].
  rewrite (inner_eq classify inter inter' i t1 o2); [reflexivity|]. intros j t2 H2. apply Hi; [left; reflexivity|exact H2].
Qed.
End Loops.

Lemma dintersection_eq N delaunay q K o1 o2 : 1 <= K -> K * K * q <= 11 -> 0 < q -> o2 <> [] -> Z.of_nat (length o2) <= 100000 ->
  Forall (fun t => length t = 3%nat /\ ring_points sqrt3_ring 6 q K t) o1 -> Forall (fun t => length t = 3%nat /\ ring_points sqrt3_ring 6 q K t) o2 ->
  (forall t1 t2, In t1 o1 -> In t2 o2 -> dneat_corners N t1 t2) ->
  md_intersection N delaunay false (A4 o1) (A4 o2) = dintersection N delaunay false (A4 o1) (A4 o2).
Proof.
  intros HK H1 Pq No Ho F1 F2 Ne. cbn [md_intersection dintersection]. unfold md_intersection_two_obj_1, dintersection_two_obj_1.
  assert (Pn : 0 < Z.of_nat (length o2)) by (destruct o2; [congruence|cbn [length]; lia]). assert (HKq : K * q <= 11) by (clear - HK H1 Pq; nia). assert (Hq : q <= 11) by (clear - HK HKq Pq; nia). assert (PKq : 0 < K * q) by (clear - HK Pq; nia).
  assert (Pe : forall t1 t2, In t1 o1 -> In t2 o2 -> md_intersection_two_triangles N delaunay t1 t2 = intersection_two_triangles N delaunay t1 t2).
  { intros t1 t2 Ht1 Ht2. rewrite Forall_forall in F1, F2. apply (dpair_eq N delaunay q K); try assumption; [apply F1; exact Ht1|apply F2; exact Ht2|apply Ne; assumption]. }
  clear H1.
  assert (G2 : Forall (fun t => length t = 3%nat /\ grids 6 q K t) o2) by (eapply Forall_impl; [|exact F2]; intros t [L G]; split; [exact L|apply dring_grids; exact G]).
  remember (Z.of_nat (length o2)) as m eqn:Em. assert (NN : m * m <= 100000 * 100000) by (apply Z.mul_le_mono_nonneg; lia). assert (NK : m * m * (K * q) <= 100000 * 100000 * 11) by (apply Z.mul_le_mono_nonneg; try lia; apply Z.mul_nonneg_nonneg; lia).
  assert (NK1 : m * (K * q) <= 100000 * 11) by (apply Z.mul_le_mono_nonneg; lia). assert (Nq : m * (q * 3) <= 100000 * 33) by (apply Z.mul_le_mono_nonneg; lia). assert (P0 : 0 <= m * (K * q)) by (apply Z.mul_nonneg_nonneg; lia). assert (PmK : 0 <= m * K) by (apply Z.mul_nonneg_nonneg; lia). assert (Pmq : 0 < m * q) by (apply Z.mul_pos_pos; lia).
  eapply same_eq; [apply (dobj_centroid q K o2); try assumption; rewrite <- ?Em; [lia|lia|replace (m * (3 * K) * (q * 3)) with (9 * (m * (K * q))) by ring; lia]|]. rewrite <- Em. intros c Gc.
  rewrite (dball_eq N (q * (3 * m)) (K * (3 * m)) (m * (3 * K)) (concat o2) (A4 o2) c); try (right; exists o2; split; reflexivity); try lia.
  2:{ apply grids_scale; [lia|]. apply Forall_concat. eapply Forall_impl; [|exact G2]. intros t [_ G]; exact G. }
  2:{ rewrite Z.mul_assoc. exact Gc. }
  destruct (dball_radius_obj N (A4 o2) c) as [d|]; cbn [bind]; [|reflexivity]. unfold md_common_pieces, dcommon_pieces.
  rewrite (douter_eq _ (fun t => rough_check_intersection_triangle_obj N t c d) (check_intersection_two_triangles N) _ (fun _ _ => intersection_two_triangles N delaunay) o1 o2); [reflexivity| |].
  - intros t Ht. rewrite Forall_forall in F1. destruct (F1 t Ht) as [L G]. apply (drough_eq N q K m); try assumption; try lia. apply dring_grids; exact G.
  - intros _ _. exact Pe.
Qed.
Lemma small_tris q K o1 o2 : small_dobjects q K o1 o2 -> Forall (fun t => length t = 3%nat /\ goods 6 t) o1 /\ Forall (fun t => length t = 3%nat /\ goods 6 t) o2.
Proof.
  intros (_ & _ & _ & _ & _ & G). apply Forall_app. eapply Forall_impl; [|exact G]. intros t [L Gt]. split; [exact L|eapply grids_goods, dring_grids, Gt].
Qed.
