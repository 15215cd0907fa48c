(** The intersection on the machine. *)
From Coq Require Import Reals List ZArith Lia Bool.
From Verif Require Import Base.Res Model.Tau Model.Arr Model.IcoScalar Model.Vectors Model.IcoMath1 Model.Num Model.IcoNumeric Model.IcoVolume Model.Unique Model.IcoDedup Model.IcoIntersect
  Model.Machine Model.MachineVec Model.MachineCross Model.MachineInter Spec.Value Spec.Shape Spec.IcoSpec Spec.Sets Spec.Grid Spec.MachineInter
  Proofs.ResLemmas Proofs.ScalarLemmas Proofs.UniqueLemmas Proofs.DedupLemmas Proofs.GridLemmas Proofs.GridRing Proofs.GridCross Proofs.P_MachineVec Proofs.P_MachineCross.
Import ListNotations.
Local Open Scope Z_scope.

Lemma ring_grid q K x : tau_ring q K x -> on_grid q K x.
Proof. intros (Hq & k & E & H). split; [exact Hq|]. exists k. lia. Qed.
Lemma ring_grids q K vs : ring_points tau_ring 6 q K vs -> grids 6 q K vs.
Proof. intros G. eapply Forall_impl; [|exact G]. intros v [L F]. split; [exact L|]. eapply Forall_impl; [|exact F]. apply ring_grid. Qed.
Lemma grids_goods q B vs : grids 6 q B vs -> goods 6 vs.
Proof. intros G. eapply Forall_impl; [|exact G]. intros v [L F]. split; [|exact L]. eapply Forall_impl; [|exact F]. intros x Gx. eapply grid_wf, Gx. Qed.
Lemma grids_incl n q B vs vs' : grids n q B vs -> incl vs' vs -> grids n q B vs'.
Proof. intros G I. unfold grids in *. rewrite Forall_forall in *. auto. Qed.
Lemma grids_scale n q B k vs : 0 < k -> grids n q B vs -> grids n (q * k) (B * k) vs.
Proof. intros Pk G. eapply Forall_impl; [|exact G]. intros v Gv. apply gridv_scale; assumption. Qed.

Lemma mapM_same {A C} (P : A -> Prop) (f f' : A -> res C) l : Forall P l -> (forall a, P a -> f a = f' a) -> mapM f l = mapM f' l.
Proof. intros F H. induction F as [|a l Ha _ IH]; cbn [mapM]; [reflexivity|]. rewrite (H a Ha), IH. reflexivity. Qed.
Lemma foldM_same {A C} (P : A -> Prop) (f f' : C -> A -> res C) l c : Forall P l -> (forall c a, P a -> f c a = f' c a) -> foldM f c l = foldM f' c l.
Proof. intros F H. revert c. induction F as [|a l Ha _ IH]; intros c; cbn [foldM]; [reflexivity|]. rewrite (H c a Ha). destruct (f' c a); cbn [bind]; [apply IH|reflexivity]. Qed.

Lemma proj_eq q B v : 0 <= B -> q <= 90000000 -> B * q <= 10^15 -> 0 < q -> gridv 6 q B v -> m_projection3 v = projection3 v.
Proof. intros PB Hq HB Pq G. destruct (L_C101_projection q B v PB Hq HB Pq G) as (r & -> & -> & _). reflexivity. Qed.
(** De-duplication. *)
Lemma dedup_eq q B vs a : (a = A3 vs \/ exists o, a = A4 o /\ vs = concat o) -> 0 <= B -> 0 < q -> q <= 90000000 -> B * q <= 10^15 -> grids 6 q B vs ->
  exists r, m_remove_doubling_in_perp_space a = Ok r /\ remove_doubling_in_perp_space a = Ok r /\ incl r vs /\ (length r <= length vs)%nat.
Proof.
  intros Ha PB Pq Hq HB G. destruct (perp_space_spec_flat vs a Ha (grids_goods _ _ _ G)) as (r & E & I & Nd & _). exists r.
  split; [|split; [exact E|split; [exact I|apply NoDup_incl_length; [eapply NoDup_map_inv, Nd|exact I]]]]. rewrite <- E.
  assert (Ed : remove_doubling a = Some (unique cmp_vec vs)) by (destruct Ha as [->|(o & -> & ->)]; reflexivity).
  unfold m_remove_doubling_in_perp_space, remove_doubling_in_perp_space. rewrite Ed. cbn [notNone bind].
  rewrite (mapM_same (gridv 6 q B) m_projection3 projection3); [reflexivity| |intros v Gv; eapply proj_eq; eassumption].
  eapply grids_incl; [exact G|]. intros v Hv. exact (proj1 (unique_In cmp_vec lawful_vec vs v) Hv).
Qed.
Lemma sub_proj_eq {C} q B D u v (k : vec -> res C) : 0 <= B -> 0 <= D -> 0 < q -> q <= 90000000 -> (B + D) * q <= 10^15 -> gridv 6 q B u -> gridv 6 q D v ->
  bind (m_sub_vectors u v) (fun a => bind (m_projection3 a) k) = bind (sub_vectors u v) (fun a => bind (projection3 a) k).
Proof.
  intros PB PD Pq Hq H Gu Gv. assert (q * q <= 8100000000000000) by nia. assert (D <= 10^15) by nia.
  eapply same_eq; [apply (sub_vectors_grid ico_machine 6 q B D u v Gu Gv); unfold cap; lia|]. intros a Ga. rewrite (proj_eq q (B + D) a) by (try assumption; lia). reflexivity.
Qed.

Section Balls.
Variable N : num.
Lemma ball_eq q B D vs a c : (a = A3 vs \/ exists o, a = A4 o /\ vs = concat o) -> 0 <= B -> 0 <= D -> 0 < q -> q <= 90000000 -> (B + D) * q <= 10^15 -> grids 6 q B vs -> gridv 6 q D c ->
  m_ball_radius_obj N a c = ball_radius_obj N a c.
Proof.
  intros Ha PB PD Pq Hq H G Gc. destruct (dedup_eq q B vs a Ha) as (r & E1 & E2 & I & _); try assumption; [nia|]. unfold m_ball_radius_obj, ball_radius_obj. rewrite E1, E2. cbn [bind].
  apply (foldM_same (gridv 6 q B)); [eapply grids_incl; eassumption|]. intros dd v Gv. unfold m_farther, farther. eapply sub_proj_eq with (B := B) (D := D); eassumption.
Qed.
Lemma distance_eq q B D u v : 0 <= B -> 0 <= D -> 0 < q -> q <= 90000000 -> (B + D) * q <= 10^15 -> gridv 6 q B u -> gridv 6 q D v -> m_distance_in_perp_space N u v = distance_in_perp_space N u v.
Proof. intros. unfold m_distance_in_perp_space, distance_in_perp_space. eapply sub_proj_eq with (B := B) (D := D); eassumption. Qed.
End Balls.

(** The centre of an object. *)
Lemma tet_centroid q B t : 0 <= B -> 0 < q <= 90000000 -> 4 * B * q <= 10^15 -> length t = 4%nat -> grids 6 q B t -> same (gridv 6 (q * 4) (4 * B)) (m_centroid t) (centroid t).
Proof.
  intros PB Hq HB L G. pose proof (L_C101_centroid q B t PB Hq) as S. rewrite L in S. change (Z.of_nat 4) with 4 in S. apply S; [destruct t; discriminate|exact HB|lia|exact G].
Qed.
Lemma obj_sum q B o : 0 <= B -> 0 < q -> q * 4 <= 90000000 -> Forall (fun t => length t = 4%nat /\ grids 6 q B t) o -> forall A s, 0 <= A -> gridv 6 (q * 4) A s -> (A + Z.of_nat (length o) * (4 * B)) * (q * 4) <= 10^15 ->
  same (gridv 6 (q * 4) (A + Z.of_nat (length o) * (4 * B)))
    (foldM (fun tmp tet => bind (centroid_ m_add m_mul tet) (fun p => add_vectors_ m_add tmp p)) s o)
    (foldM (fun tmp tet => bind (centroid_ add mul tet) (fun p => add_vectors_ add tmp p)) s o).
Proof.
  intros PB Pq Hq F. induction F as [|t o [L G] _ IH]; intros A s PA Gs H; cbn [foldM length] in *.
  - apply same_ret. eapply gridv_weaken; [exact Gs|]. lia.
  - rewrite Nat2Z.inj_succ in *. replace (A + Z.succ (Z.of_nat (length o)) * (4 * B)) with (A + 4 * B + Z.of_nat (length o) * (4 * B)) in * by (unfold Z.succ; ring).
    assert (P0 : 0 <= Z.of_nat (length o) * (4 * B)) by nia. assert (H0 : (A + 4 * B) * (q * 4) <= 10^15) by (eapply Z.le_trans; [|exact H]; apply Z.mul_le_mono_nonneg_r; lia).
    eapply (same_bind (gridv 6 (q * 4) (A + 4 * B))).
    + eapply same_bind; [apply (tet_centroid q B t PB ltac:(lia)); [nia|exact L|exact G]|]. intros p Gp. apply (add_vectors_grid ico_machine); try assumption; unfold cap; nia.
    + intros r Gr. apply IH; [lia|exact Gr|exact H].
Qed.
Lemma obj_centroid q B o : 0 <= B -> 0 < q -> o <> [] -> Z.of_nat (length o) * (q * 4) <= 90000000 -> Z.of_nat (length o) * (4 * B) * (q * 4) <= 10^15 -> Forall (fun t => length t = 4%nat /\ grids 6 q B t) o ->
  same (gridv 6 (q * 4 * Z.of_nat (length o)) (Z.of_nat (length o) * (4 * B))) (m_centroid_obj o) (centroid_obj o).
Proof.
  intros PB Pq No Hn H F. assert (Pn : 0 < Z.of_nat (length o)) by (destruct o; [congruence|cbn [length]; lia]). assert (Hq : q * 4 <= 90000000) by nia.
  assert (P0 : 0 <= Z.of_nat (length o) * (4 * B)) by nia. assert (L0 : Z.of_nat (length o) * (4 * B) <= 10^15) by nia.
  unfold m_centroid_obj, centroid_obj, centroid_obj_. eapply (same_bind (gridv 6 (q * 4) (Z.of_nat (length o) * (4 * B)))).
  - rewrite <- (Z.add_0_l (Z.of_nat (length o) * (4 * B))). apply obj_sum; try assumption; try lia. apply (grid_origin (q * 4) 0); lia.
  - intros s [Ls Fs]. unfold mul_vector_. eapply same_weaken; [apply same_mapM with (1 := Fs) (Q := on_grid (q * 4 * Z.of_nat (length o)) (Z.of_nat (length o) * (4 * B)))|].
    + intros x Gx. pose proof (mo_rat_r _ _ _ _ _ _ _ ico_machine (q * 4) (Z.of_nat (length o) * (4 * B)) 1 (Z.of_nat (length o)) x Pn Gx) as S. change (Z.abs 1) with 1 in S. rewrite !Z.mul_1_l in S.
      apply S; unfold cap; lia.
    + intros r [Lr Fr]. split; [congruence|exact Fr].
Qed.

(** The rough test. *)
Lemma rough_eq N q K n t c d : 0 <= K -> 0 < q -> 0 < n -> n * (q * 4) <= 90000000 -> (2 * (K * (4 * n))) * (q * 4 * n) <= 10^15 -> length t = 4%nat -> grids 6 q K t -> gridv 6 (q * 4 * n) (n * (4 * K)) c ->
  m_rough_check_intersection_tetrahedron_obj N t c d = rough_check_intersection_tetrahedron_obj N t c d.
Proof.
  intros PK Pq Pn Hn H L G Gc. assert (Hq : q * 4 <= 90000000) by nia. assert (N1 : 1 <= n * n) by nia.
  assert (P0 : 0 <= K * q) by nia. assert (E0 : 2 * (K * (4 * n)) * (q * 4 * n) = 32 * (K * q) * (n * n)) by ring. assert (H' : 32 * (K * q) <= 10^15) by (rewrite E0 in H; clear - H N1 P0; eapply Z.le_trans; [|exact H]; rewrite <- (Z.mul_1_r (32 * (K * q))) at 1; apply Z.mul_le_mono_nonneg_l; lia).
  unfold m_rough_check_intersection_tetrahedron_obj, rough_check_intersection_tetrahedron_obj.
  eapply same_eq; [apply (tet_centroid q K t); try assumption; lia|]. intros c1 G1. cbv beta. unfold ball_radius.
  rewrite (ball_eq N (q * 4) (K * 4) (4 * K) t (A3 t) c1); try (left; reflexivity); try assumption; try lia; [|apply grids_scale; [lia|exact G]].
  destruct (ball_radius_obj N (A3 t) c1) as [d1|]; cbn [bind]; [|reflexivity].
  rewrite (distance_eq N (q * 4 * n) (4 * K * n) (n * (4 * K)) c1 c); try reflexivity; try assumption; try nia. apply gridv_scale; [exact Pn|exact G1].
Qed.

(** Cutting a convex piece into tetrahedra. *)
Lemma keep_eq q M p l : 0 < q <= 250 -> 0 <= M -> M * q <= 3000 -> grids 6 q M p -> (forall t, incl t p -> length t = 4%nat -> clear_vol q M t) ->
  m_keep_simplices p l = keep_simplices p l /\ forall o, keep_simplices p l = Ok o -> (length o <= length l)%nat /\ Forall (fun t => incl t p /\ length t = 4%nat) o.
Proof.
  intros Hq PM HM G Cl. induction l as [|s l [IH IH']]; cbn [m_keep_simplices keep_simplices].
  { split; [reflexivity|]. intros o E. injection E as <-. split; [apply le_n|constructor]. }
  assert (P4 : forall t, pick4 p s = Ok t -> incl t p /\ length t = 4%nat).
  { destruct s as [[[i j] k] m]. unfold pick4. intros t. assert (Gi : forall i a, get p i = Ok a -> In a p) by (intros i0 a E; unfold get in E; destruct (nth_error p i0) eqn:E'; [|discriminate]; injection E as ->; eapply nth_error_In, E').
    destruct (get p i) as [a|] eqn:Ea; [|discriminate]. destruct (get p j) as [b|] eqn:Eb; [|discriminate]. destruct (get p k) as [c|] eqn:Ec; [|discriminate]. destruct (get p m) as [d|] eqn:Ed; [|discriminate]. cbn [bind].
    intros E. injection E as <-. split; [|reflexivity]. intros x [<-|[<-|[<-|[<-|[]]]]]; eapply Gi; eassumption. }
  destruct (pick4 p s) as [t|] eqn:Et; cbn [bind]; [|split; [reflexivity|discriminate]]. destruct (P4 t eq_refl) as [It Lt].
  destruct (L_C101_volume q M t PM ltac:(lia) HM Lt (grids_incl _ _ _ _ _ G It) (Cl t It Lt)) as (v & -> & -> & _). cbn [bind]. rewrite IH. split; [reflexivity|].
  destruct (keep_simplices p l) as [r|]; cbn [bind]; [|discriminate]. destruct (IH' r eq_refl) as [Lr Fr]. intros o E. injection E as <-. destruct (is_zero2 v); cbn [length]; [split; [lia|exact Fr]|split; [lia|]]. constructor; auto.
Qed.

Lemma collect_length N t1 t2 pts : length t1 = 4%nat -> length t2 = 4%nat -> collect N t1 t2 = Ok pts -> (length pts <= 56)%nat.
Proof.
  intros L1 L2. unfold collect. assert (Ed : forall cs r, edge_points N t1 t2 cs = Ok r -> (length r <= 2 * length cs)%nat).
  { induction cs as [|c cs IH]; intros r E; cbn [edge_points] in E; [injection E as <-; apply le_n|].
    destruct (edge_point N t1 t2 c) as [a|]; [|discriminate]. destruct (edge_point N t2 t1 c) as [b|]; [|discriminate]. destruct (edge_points N t1 t2 cs) as [r'|]; [|discriminate]. cbn [bind] in E. injection E as <-.
    specialize (IH r' eq_refl). rewrite !app_length. destruct a, b; cbn [olist length] in *; lia. }
  assert (Ve : forall t vs r, vertices_inside N vs t = Ok r -> (length r <= length vs)%nat).
  { intros t. induction vs as [|v vs IH]; intros r E; cbn [vertices_inside] in E; [injection E as <-; apply le_n|].
    destruct (inside_outside_tetrahedron_tau N v t) as [b|]; [|discriminate]. destruct (vertices_inside N vs t) as [r'|]; [|discriminate]. cbn [bind] in E. injection E as <-. specialize (IH r' eq_refl). destruct b; cbn [length] in *; lia. }
  destruct (edge_points N t1 t2 pairs_ix) as [e|] eqn:E0; [|discriminate]. destruct (vertices_inside N t1 t2) as [a|] eqn:E1; [|discriminate]. destruct (vertices_inside N t2 t1) as [b|] eqn:E2; [|discriminate]. cbn [bind].
  intros E. injection E as <-. apply Ed in E0. apply Ve in E1, E2. change (length pairs_ix) with 24%nat in E0. rewrite !app_length. lia.
Qed.

Section Pieces.
Variable N : num.
Variable delaunay : list (list (F N)) -> option (list simplex).
Variable n : Z.
Hypothesis few : at_most n delaunay.
Lemma tetrahedralization_eq q M p : (length p <= 56)%nat -> 0 < q <= 250 -> 0 <= M -> M * q <= 3000 -> grids 6 q M p -> (forall t, incl t p -> length t = 4%nat -> clear_vol q M t) ->
  m_tetrahedralization_points N delaunay p = tetrahedralization_points N delaunay p /\
  forall o, tetrahedralization_points N delaunay p = Ok (Some o) -> Z.of_nat (length o) <= n /\ Forall (fun t => incl t p /\ length t = 4%nat) o.
Proof.
  intros Lp Hq PM HM G Cl. unfold m_tetrahedralization_points, tetrahedralization_points. destruct p as [|v p']; [split; [reflexivity|discriminate]|]. set (p := v :: p') in *.
  rewrite (mapM_same (gridv 6 q M) (fun v => bind (m_projection3 v) (fun w => Ok (numerical_vector N w))) (fun v => bind (projection3 v) (fun w => Ok (numerical_vector N w))) p G).
  2:{ intros x Gx. rewrite (proj_eq q M x) by (try assumption; lia). reflexivity. }
  destruct (mapM _ p) as [ps|] eqn:Eps; cbn [bind]; [|split; [reflexivity|discriminate]]. destruct (delaunay ps) as [l|] eqn:El; [|split; [reflexivity|discriminate]].
  destruct (keep_eq q M p l Hq PM HM G Cl) as [-> K]. split; [reflexivity|]. destruct (keep_simplices p l) as [o|]; cbn [bind]; [|discriminate]. destruct (K o eq_refl) as [Lo Fo]. apply mapM_length in Eps. pose proof (proj2 few ps l ltac:(lia) El).
  intros o' E. assert (o' = o) as -> by (destruct o; [discriminate|injection E as <-; reflexivity]). split; [lia|exact Fo].
Qed.
Lemma pair_eq q K draws t1 t2 : length t1 = 4%nat -> length t2 = 4%nat -> 1 <= K -> K * K * q <= 437 -> K^7 * q <= 16758000 -> ring_points tau_ring 6 q K t1 -> ring_points tau_ring 6 q K t2 -> neat_pair N n t1 t2 ->
  m_intersection_two_tetrahedron_4 N delaunay draws t1 t2 = intersection_two_tetrahedron_4 N delaunay draws t1 t2.
Proof.
  intros Lt1 Lt2 HK H1 H2 G1 G2 Ne. unfold m_intersection_two_tetrahedron_4, intersection_two_tetrahedron_4. rewrite (L_C103_corners N q K t1 t2 HK H1 H2 G1 G2).
  destruct (collect N t1 t2) as [pts|] eqn:Ec; cbn [bind]; [|reflexivity]. pose proof (collect_length N t1 t2 pts Lt1 Lt2 Ec) as Lc. destruct (Ne pts Ec) as (q' & M & Hq & PM & HM & Hn & G & Cl).
  destruct (Nat.leb 4 (length pts)); [|reflexivity].
  destruct (dedup_eq q' M pts (A3 pts) (or_introl eq_refl)) as (r & -> & -> & I & Lr); try assumption; try lia. cbn [bind]. destruct (Nat.leb 4 (length r)); [|reflexivity].
  destruct (coplanar_check_numeric_tau N draws r) as [c|]; cbn [bind]; [|reflexivity].
  assert (Gr : grids 6 q' M r) by (eapply grids_incl; eassumption). assert (Cr : forall t, incl t r -> length t = 4%nat -> clear_vol q' M t) by (intros t It; apply Cl; eapply incl_tran; eassumption).
  destruct (tetrahedralization_eq q' M r ltac:(lia) Hq PM HM Gr Cr) as [Et Ot].
  assert (Vo : forall o, Z.of_nat (length o) <= n -> Forall (fun t => incl t r /\ length t = 4%nat) o -> m_obj_volume_6d (A4 o) = obj_volume_6d (A4 o)).
  { intros o Lo Fo. destruct (L_C101_object q' M o PM Hq HM) as (v & -> & -> & _); [| |reflexivity].
    - replace (M * q' * (M * q') * (M * q')) with ((M * q')^3) by ring. eapply Z.le_trans; [|exact Hn]. apply Z.mul_le_mono_nonneg_r; [|exact Lo]. apply Z.pow_nonneg. nia.
    - eapply Forall_impl; [|exact Fo]. cbv beta. intros t [It Lt]. split; [exact Lt|]. split; [eapply grids_incl; eassumption|apply Cr; assumption]. }
  assert (Rest : forall tmp4 : res (option obj4), (forall o, tmp4 = Ok (Some o) -> Z.of_nat (length o) <= n /\ Forall (fun t => incl t r /\ length t = 4%nat) o) ->
    bind tmp4 (fun tmp4 => match tmp4 with None => Raise AttributeError | Some o => bind (m_obj_volume_6d (A4 o)) (fun v => bind (notNone v) (fun _ => Ok (Some o))) end) =
    bind tmp4 (fun tmp4 => match tmp4 with None => Raise AttributeError | Some o => bind (obj_volume_6d (A4 o)) (fun v => bind (notNone v) (fun _ => Ok (Some o))) end)).
  { intros [[o|]|] Ho; cbn [bind]; try reflexivity. destruct (Ho o eq_refl) as [Lo Fo]. rewrite (Vo o Lo Fo). reflexivity. }
  rewrite Et. pose proof (proj1 few).
  assert (R4 : length r = 4%nat -> forall o, @Ok (option obj4) (Some [r]) = Ok (Some o) -> Z.of_nat (length o) <= n /\ Forall (fun t => incl t r /\ length t = 4%nat) o).
  { intros L o E. injection E as <-. split; [cbn [length]; lia|]. constructor; [split; [apply incl_refl|exact L]|constructor]. }
  destruct c as [[|]|]; try reflexivity; (destruct (Nat.eqb (length r) 4) eqn:E4; apply Rest; [apply Nat.eqb_eq in E4; apply R4; exact E4|exact Ot]).
Qed.
End Pieces.

(** The loops over two objects. *)
Section Loops.
Variables (rough rough' : vecs -> res bool) (classify : vecs -> vecs -> res Z) (inter inter' : nat -> nat -> vecs -> vecs -> res (option obj4)).
Lemma inner_eq i t1 o2 : (forall j t2, In t2 o2 -> inter i j t1 t2 = inter' i j t1 t2) -> forall j acc, inner_loop classify inter i j t1 o2 acc = inner_loop classify inter' i j t1 o2 acc.
Proof.
  induction o2 as [|t2 o2 IH]; intros H j acc; cbn [inner_loop]; [reflexivity|]. assert (H' : forall j t, In t o2 -> inter i j t1 t = inter' i j t1 t) by (intros; apply H; right; assumption).
  destruct (classify t1 t2) as [f|]; cbn [bind]; [|reflexivity]. destruct (Z.eqb f 1); [reflexivity|]. destruct (Z.eqb f 2); [apply IH; exact H'|]. destruct (Z.eqb f 3); [|apply IH; exact H'].
  rewrite (H j t2 (or_introl eq_refl)). destruct (inter' i j t1 t2); cbn [bind]; [apply IH; exact H'|reflexivity].
Qed.
Lemma outer_eq o1 o2 : (forall t, In t o1 -> rough t = rough' t) -> (forall i j t1 t2, In t1 o1 -> In t2 o2 -> inter i j t1 t2 = inter' i j t1 t2) ->
  forall i, m_outer_loop rough classify inter false i o1 o2 = outer_loop rough' classify inter' false i o1 o2.
Proof.
  induction o1 as [|t1 o1 IH]; intros Hr Hi i; cbn [m_outer_loop outer_loop]; [reflexivity|]. unfold m_contribution, contribution.
  rewrite (Hr t1 (or_introl eq_refl)), IH; [|intros; apply Hr; right; assumption|intros; apply Hi; [right|]; assumption].
  rewrite (inner_eq i t1 o2); [reflexivity|]. intros j t2 H2. apply Hi; [left; reflexivity|exact H2].
Qed.
End Loops.

Lemma intersection_eq N delaunay draws n q K o1 o2 : 1 <= K -> K * K * q <= 437 -> K^7 * q <= 16758000 -> 0 < q -> at_most n delaunay -> o2 <> [] -> Z.of_nat (length o2) <= 20000 ->
  Forall (fun t => length t = 4%nat /\ ring_points tau_ring 6 q K t) o1 -> Forall (fun t => length t = 4%nat /\ ring_points tau_ring 6 q K t) o2 ->
  (forall t1 t2, In t1 o1 -> In t2 o2 -> neat_pair N n t1 t2) ->
  m_intersection N delaunay draws false (A4 o1) (A4 o2) = intersection N delaunay draws false (A4 o1) (A4 o2).
Proof.
  intros HK H1 H2 Pq Few No Ho F1 F2 Ne. cbn [m_intersection intersection]. unfold m_intersection_two_obj_1, intersection_two_obj_1.
  assert (Pn : 0 < Z.of_nat (length o2)) by (destruct o2; [congruence|cbn [length]; lia]). assert (HKq : K * q <= 437) by (clear - HK H1 Pq; nia). assert (Hq : q <= 437) by (clear - HK HKq Pq; nia). assert (PKq : 0 < K * q) by (clear - HK Pq; nia).
  assert (Pe : forall i j t1 t2, In t1 o1 -> In t2 o2 -> m_intersection_two_tetrahedron_4 N delaunay (draws i j) t1 t2 = intersection_two_tetrahedron_4 N delaunay (draws i j) t1 t2).
  { intros i j t1 t2 Ht1 Ht2. rewrite Forall_forall in F1, F2. apply (pair_eq N delaunay n Few q K); try assumption; [apply F1; exact Ht1|apply F2; exact Ht2|apply F1; exact Ht1|apply F2; exact Ht2|apply Ne; assumption]. }
  clear H1 H2.
  assert (G2 : Forall (fun t => length t = 4%nat /\ grids 6 q K t) o2) by (eapply Forall_impl; [|exact F2]; intros t [L G]; split; [exact L|apply ring_grids; exact G]).
  remember (Z.of_nat (length o2)) as m eqn:Em. assert (NN : m * m <= 20000 * 20000) by (apply Z.mul_le_mono_nonneg; lia). assert (NK : m * m * (K * q) <= 20000 * 20000 * 437) by (apply Z.mul_le_mono_nonneg; try lia; apply Z.mul_nonneg_nonneg; lia).
  assert (NK1 : m * (K * q) <= 20000 * 437) by (apply Z.mul_le_mono_nonneg; lia). assert (Nq : m * (q * 4) <= 20000 * 1748) by (apply Z.mul_le_mono_nonneg; lia). assert (P0 : 0 <= m * (K * q)) by (apply Z.mul_nonneg_nonneg; lia). assert (PmK : 0 <= m * K) by (apply Z.mul_nonneg_nonneg; lia). assert (Pmq : 0 < m * q) by (apply Z.mul_pos_pos; lia).
  eapply same_eq; [apply (obj_centroid q K o2); try assumption; rewrite <- ?Em; [lia|lia|replace (m * (4 * K) * (q * 4)) with (16 * (m * (K * q))) by ring; lia]|]. rewrite <- Em. intros c Gc.
  rewrite (ball_eq N (q * (4 * m)) (K * (4 * m)) (m * (4 * K)) (concat o2) (A4 o2) c); try (right; exists o2; split; reflexivity); try lia.
  2:{ apply grids_scale; [lia|]. apply Forall_concat. eapply Forall_impl; [|exact G2]. intros t [_ G]; exact G. }
  2:{ rewrite Z.mul_assoc. exact Gc. }
  destruct (ball_radius_obj N (A4 o2) c) as [d|]; cbn [bind]; [|reflexivity]. unfold m_common_pieces, common_pieces.
  rewrite (outer_eq _ (fun t => rough_check_intersection_tetrahedron_obj N t c d) (check_intersection_two_tetrahedron_4 N) _ (fun i j => intersection_two_tetrahedron_4 N delaunay (draws i j)) o1 o2); [reflexivity| |].
  - intros t Ht. rewrite Forall_forall in F1. destruct (F1 t Ht) as [L G]. apply (rough_eq N q K m); try assumption; try lia. apply ring_grids; exact G.
  - exact Pe.
Qed.
Lemma small_tets q K o1 o2 : small_objects q K o1 o2 -> Forall (fun t => length t = 4%nat /\ goods 6 t) o1 /\ Forall (fun t => length t = 4%nat /\ goods 6 t) o2.
Proof.
  intros (_ & _ & _ & _ & _ & _ & G). apply Forall_app. eapply Forall_impl; [|exact G]. intros t [L Gt]. split; [exact L|eapply grids_goods, ring_grids, Gt].
Qed.
