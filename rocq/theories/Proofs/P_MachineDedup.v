(** De-duplication, equivalence tests, surfaces and edges computed in int64: C113, C114. *)
From Coq Require Import Reals List ZArith.
From Verif Require Import Base.Res Model.Tau Model.Arr Model.Num Model.IcoDedup Model.DodeDedup Model.IcoSurface Model.DodeIntersect Model.MachineInter Model.MachineDodeInter Model.MachineDedup
  Spec.Value Spec.RVec Spec.Shape Spec.IcoSpec Spec.DodeSpec Spec.Sets Spec.Grid.
Import ListNotations.
Local Open Scope Z_scope.

From Coq Require Import Lia.
From Verif Require Import Proofs.ResLemmas Proofs.DedupLemmas Proofs.GridLemmas Proofs.GridCross Proofs.GridInter Proofs.GridDodeInter Proofs.P_MachineVec Proofs.P_Dedup Proofs.P_DodeDedup.

Lemma stacked_eq q B a b : 0 <= B -> 0 < q -> q <= 90000000 -> B * q <= 10^15 -> grids 6 q B a -> grids 6 q B b -> m_stacked_points a b = stacked_points a b.
Proof.
  intros PB Pq Hq H Ga Gb. unfold m_stacked_points, stacked_points.
  destruct (dedup_eq q B (a ++ b) (A3 (a ++ b)) (or_introl eq_refl) PB Pq Hq H) as (r & -> & -> & _); [apply Forall_app; split; assumption|reflexivity].
Qed.
Lemma dstacked_eq q B a b : 0 <= B -> 0 < q -> q <= 20000000 -> B * q <= 10^14 -> grids 6 q B a -> grids 6 q B b -> md_stacked_points a b = dstacked_points a b.
Proof.
  intros PB Pq Hq H Ga Gb. unfold md_stacked_points, dstacked_points.
  destruct (ddedup_eq q B (a ++ b) (A3 (a ++ b)) (or_introl eq_refl) PB Pq Hq H) as (r & -> & -> & _); [apply Forall_app; split; assumption|reflexivity].
Qed.
Lemma grids_good1 q B v : gridv 6 q B v -> good 6 v.
Proof. intros G. assert (X : goods 6 [v]) by (eapply grids_goods; apply Forall_cons; [exact G|apply Forall_nil]). exact (Forall_inv X). Qed.

(** C113: for coordinates with a common denominator q <= 90000000 and numerators up to B, B q <=
    10^15, de-duplication keeps one vector for every projected point ... *)
Lemma L_C113_representatives : forall (q B : Z) (vs : vecs), 0 <= B -> 0 < q <= 90000000 -> B * q <= 10^15 -> grids 6 q B vs -> exists r,
  m_remove_doubling_in_perp_space (A3 vs) = Ok r /\ incl r vs /\ NoDup r /\
  forall v, In v vs -> exists! u, In u r /\ ppoint u = ppoint v.
Proof.
  intros q B vs PB [Pq Hq] H G. destruct (dedup_eq q B vs (A3 vs) (or_introl eq_refl) PB Pq Hq H G) as (r & E1 & E2 & _).
  destruct (L_C19_perp_representatives vs (grids_goods _ _ _ G)) as (r' & E & R). rewrite E2 in E. injection E as <-. exists r. split; [exact E1|exact R].
Qed.
(** ... and the equivalence tests decide equality of the sets of projected vertices. *)
Lemma L_C113_equivalent : forall (q B : Z) (a b : vecs), 0 <= B -> 0 < q <= 90000000 -> B * q <= 10^15 -> grids 6 q B a -> grids 6 q B b ->
  NoDup (map ppoint a) -> NoDup (map ppoint b) ->
  (length a = 4%nat -> length b = 4%nat -> exists r, m_equivalent_tetrahedra a b = Ok r /\ (r = true <-> same_set (map ppoint a) (map ppoint b))) /\
  (length a = 3%nat -> length b = 3%nat -> exists r, m_equivalent_triangles a b = Ok r /\ (r = true <-> same_set (map ppoint a) (map ppoint b))) /\
  (length a = 2%nat -> length b = 2%nat -> exists r, m_equivalent_edges a b = Ok r /\ (r = true <-> same_set (map ppoint a) (map ppoint b))).
Proof.
  intros q B a b PB [Pq Hq] H Ga Gb Na Nb. pose proof (grids_goods _ _ _ Ga) as GA. pose proof (grids_goods _ _ _ Gb) as GB.
  unfold m_equivalent_tetrahedra, m_equivalent_triangles, m_equivalent_edges. rewrite (stacked_eq q B a b) by assumption. split; [|split]; intros La Lb.
  - exact (L_C21_equivalent_tetrahedra a b GA GB La Lb Na Nb).
  - exact (L_C21_equivalent_triangles a b GA GB La Lb Na Nb).
  - exact (L_C21_equivalent_edges a b GA GB La Lb Na Nb).
Qed.
Lemma L_C113_vertices : forall (q B : Z) (u v : vec), 0 <= B -> 0 < q <= 90000000 -> B * q <= 10^15 -> gridv 6 q B u -> gridv 6 q B v ->
  exists r, m_equivalent_vertices u v = Ok r /\ (r = true <-> ppoint u = ppoint v).
Proof.
  intros q B u v PB [Pq Hq] H Gu Gv. unfold m_equivalent_vertices. rewrite (proj_eq q B u), (proj_eq q B v) by assumption.
  exact (L_C21_equivalent_vertices u v (grids_good1 _ _ _ Gu) (grids_good1 _ _ _ Gv)).
Qed.
(** Two tetrahedra are found to share a face exactly if they have three vertices in common. *)
Lemma L_C113_connectivity : forall (q B : Z) (a b : vecs), 0 <= B -> 0 < q <= 90000000 -> B * q <= 10^15 -> grids 6 q B a -> grids 6 q B b ->
  length a = 4%nat -> length b = 4%nat -> NoDup (map ppoint a) -> NoDup (map ppoint b) ->
  (m_check_connectivity_tetrahedra a b = Ok true <->
   exists c, NoDup c /\ length c = 3%nat /\ forall p, In p c <-> In p (map ppoint a) /\ In p (map ppoint b)).
Proof.
  intros q B a b PB [Pq Hq] H Ga Gb La Lb Na Nb. unfold m_check_connectivity_tetrahedra. rewrite (stacked_eq q B a b) by assumption.
  exact (L_C55_three_common a b (grids_goods _ _ _ Ga) (grids_goods _ _ _ Gb) La Lb Na Nb).
Qed.

Lemma centres_eq N q B es : 0 <= B -> 0 < q <= 90000000 -> 4 * B * q <= 10^15 -> Forall (fun e => e <> [] /\ (length e <= 4)%nat /\ grids 6 q B e) es -> mapM (m_centre N) es = mapM (centre N) es.
Proof.
  intros PB Hq H F. apply (mapM_same _ _ _ _ F). intros e (Ne & Le & Ge). unfold m_centre, centre.
  eapply same_eq; [apply (L_C101_centroid q B e PB Hq Ne); [nia|nia|exact Ge]|reflexivity].
Qed.
Lemma dcentres_eq N q B es : 0 <= B -> 0 < q <= 90000000 -> 4 * B * q <= 10^15 -> Forall (fun e => e <> [] /\ (length e <= 4)%nat /\ grids 6 q B e) es -> mapM (md_centre N) es = mapM (dcentre N) es.
Proof.
  intros PB Hq H F. apply (mapM_same _ _ _ _ F). intros e (Ne & Le & Ge). unfold md_centre, dcentre.
  eapply same_eq; [apply (L_C102_centroid q B e PB Hq Ne); [nia|nia|exact Ge]|reflexivity].
Qed.
Lemma faces_grid q B o : Forall (fun t => length t = 4%nat /\ grids 6 q B t) o ->
  exists ts, mapM get_tetrahedron_surface o = Ok ts /\ Forall (fun e => e <> [] /\ (length e <= 4)%nat /\ grids 6 q B e) (concat ts).
Proof.
  intros F. induction F as [|t o [L G] _ (ts & E & Ft)]; [exists []; split; [reflexivity|apply Forall_nil]|].
  destruct t as [|a [|b [|c [|d [|]]]]]; try discriminate L. cbn [mapM]. rewrite surface_4, E. cbn [bind]. eexists. split; [reflexivity|]. cbn [concat]. apply Forall_app. split; [|exact Ft].
  repeat (apply Forall_cons; [split; [discriminate|split; [cbn; lia|eapply grids_incl; [exact G|]; intros x Hx; cbn in *; tauto]]|]). apply Forall_nil.
Qed.
(** The surface and the unique triangles are those of the exact code, whatever the floating
    point in which centres are compared. *)
Lemma L_C113_surface : forall (N : num) (q B : Z) (o : obj4), 0 <= B -> 0 < q <= 90000000 -> 4 * B * q <= 10^15 -> Forall (fun t => length t = 4%nat /\ grids 6 q B t) o ->
  m_generator_surface_1 N o = generator_surface_1 N o /\ m_generator_unique_triangles N o = generator_unique_triangles N o.
Proof.
  intros N q B o PB Hq H F. destruct (faces_grid q B o F) as (ts & E & Ft).
  unfold m_generator_surface_1, generator_surface_1, m_generator_unique_triangles, generator_unique_triangles. rewrite E. cbn [bind].
  rewrite (centres_eq N q B) by assumption. split; reflexivity.
Qed.
Lemma pick_grid (f : vecs -> res obj4) q B o : (forall t es, In t o -> f t = Ok es -> Forall (fun e => length e = 2%nat /\ incl e t) es) -> Forall (grids 6 q B) o ->
  forall e, mapM f o = Ok e -> Forall (fun e => e <> [] /\ (length e <= 4)%nat /\ grids 6 q B e) (concat e).
Proof.
  intros Hf F. induction F as [|t o G _ IH]; intros e E; cbn [mapM] in E.
  - injection E as <-. apply Forall_nil.
  - apply bind_Ok_inv in E as (es & Et & E). apply bind_Ok_inv in E as (r & Er & E). injection E as <-. cbn [concat]. apply Forall_app. split.
    + specialize (Hf t es (or_introl eq_refl) Et). eapply Forall_impl; [|exact Hf]. intros x [Lx Ix]. split; [intros ->; discriminate|]. split; [lia|]. eapply grids_incl; eassumption.
    + apply IH; [|exact Er]. intros t' es' I. apply Hf. right. exact I.
Qed.
Lemma get_in {A} (l : list A) i x : get l i = Ok x -> In x l.
Proof. unfold get. destruct (nth_error l i) eqn:E; intros H; [injection H as <-; eapply nth_error_In, E|discriminate]. Qed.
Lemma picked (t : vecs) ixs es : Forall (fun ix => length ix = 2%nat) ixs -> mapM (mapM (get t)) ixs = Ok es -> Forall (fun e => length e = 2%nat /\ incl e t) es.
Proof.
  intros F. revert es. induction F as [|ix ixs L _ IH]; intros es E; cbn [mapM] in E; [injection E as <-; apply Forall_nil|].
  apply bind_Ok_inv in E as (e & Ee & E). apply bind_Ok_inv in E as (r & Er & E). injection E as <-. apply Forall_cons; [|apply IH, Er].
  destruct ix as [|i [|j [|]]]; try discriminate L. cbn [mapM] in Ee. apply bind_Ok_inv in Ee as (x & Hx & Ee). apply bind_Ok_inv in Ee as (l & Hl & Ee). injection Ee as <-.
  apply bind_Ok_inv in Hl as (y & Hy & Hl). injection Hl as <-. apply get_in in Hx, Hy. split; [reflexivity|]. intros z [<-|[<-|[]]]; assumption.
Qed.
Ltac two := repeat (apply Forall_cons; [reflexivity|]); apply Forall_nil.
(** So are the unique edges of tetrahedra (n = 4) and triangles (n = 3). *)
Lemma L_C113_edges : forall (N : num) (n : nat) (q B : Z) (o : obj4), 0 <= B -> 0 < q <= 90000000 -> 4 * B * q <= 10^15 -> n = 3%nat \/ n = 4%nat -> Forall (grids 6 q B) o ->
  m_generator_unique_edges N n o = generator_unique_edges N n o.
Proof.
  intros N n q B o PB Hq H Hn F. unfold m_generator_unique_edges, generator_unique_edges, generator_all_edges. destruct Hn as [-> | ->]; cbn [Nat.eqb].
  - destruct (mapM get_triangle_edge o) as [e|] eqn:E; [|reflexivity]. cbn [bind notNone]. rewrite (centres_eq N q B); [reflexivity|assumption..|].
    apply (pick_grid get_triangle_edge q B o); [|exact F|exact E]. intros t es _. apply picked. two.
  - destruct (mapM get_tetrahedron_edge o) as [e|] eqn:E; [|reflexivity]. cbn [bind notNone]. rewrite (centres_eq N q B); [reflexivity|assumption..|].
    apply (pick_grid get_tetrahedron_edge q B o); [|exact F|exact E]. intros t es _. apply picked. two.
Qed.
Ltac gd1 := unfold at_; cbn [map seq Nat.eqb]; split; [repeat (apply Forall_cons; [unfold wf; cbn; lia|]); apply Forall_nil|reflexivity].
(** Far points are taken for one: the reduced fractions pass through float64. *)
Lemma L_C113_far_points_refuted : exists u v, good 6 u /\ good 6 v /\ ppoint u <> ppoint v /\ m_equivalent_vertices u v = Ok true /\ m_remove_doubling_in_perp_space (A3 [u; v]) = Ok [u].
Proof.
  exists (at_ 0 (T (2^53) 0 1)), (at_ 0 (T (2^53 + 1) 0 1)).
  assert (Gu : good 6 (at_ 0 (T (2^53) 0 1))) by gd1. assert (Gv : good 6 (at_ 0 (T (2^53 + 1) 0 1))) by gd1.
  split; [exact Gu|]. split; [exact Gv|]. split; [|split; vm_compute; reflexivity].
  intros X. destruct (L_C21_equivalent_vertices _ _ Gu Gv) as (r & E & H). apply H in X. subst r. vm_compute in E. discriminate E.
Qed.

Ltac grd := unfold at_; cbn [map seq Nat.eqb]; repeat (apply Forall_cons; [split; [reflexivity|repeat (apply Forall_cons; [split; [lia|first [exists 1; cbn; lia|exists 2; cbn; lia]]|]); apply Forall_nil]|]); apply Forall_nil.
Example E_C113_ex :
  let x := at_ 0 (T 1000000 1 2) in let y := at_ 1 (T 0 (-3) 1) in let z := at_ 2 (T 7 0 2) in
  let y' := [T 1 0 1; T 0 (-2) 1; T 0 1 1; T 0 0 1; T (-1) 0 1; T 0 0 1] in let w := at_ 3 (T 1 0 1) in
  grids 6 2 1000000 [x; y; z; y'; w; origin6] /\ 4 * 1000000 * 2 <= 10^15 /\
  m_equivalent_triangles [x; y; z] [z; x; y'] = Ok true /\ m_equivalent_triangles [x; y; z] [z; x; origin6] = Ok false /\
  m_equivalent_vertices y' y = Ok true /\
  m_generator_surface_1 Bnum [[x; y; z; origin6]; [origin6; y'; z; w]] = Ok [[origin6; z; w]; [y'; z; w]; [origin6; y'; w]; [x; z; origin6]; [x; y; z]; [x; y; origin6]].
Proof.
  split; [grd|]. split; [lia|]. split; [vm_compute; reflexivity|]. split; [vm_compute; reflexivity|]. split; [vm_compute; reflexivity|]. vm_compute; reflexivity.
Qed.

(** C114: the same for dode2. *)
Lemma L_C114_representatives : forall (q B : Z) (vs : vecs), 0 <= B -> 0 < q <= 20000000 -> B * q <= 10^14 -> grids 6 q B vs -> exists r,
  md_remove_doubling_in_perp_space (A3 vs) = Ok r /\ incl r vs /\ NoDup r /\
  forall v, In v vs -> exists! u, In u r /\ dppoint u = dppoint v.
Proof.
  intros q B vs PB [Pq Hq] H G. destruct (ddedup_eq q B vs (A3 vs) (or_introl eq_refl) PB Pq Hq H G) as (r & E1 & E2 & _).
  destruct (L_C64_perp_representatives vs (grids_goods _ _ _ G)) as (r' & E & R). rewrite E2 in E. injection E as <-. exists r. split; [exact E1|exact R].
Qed.
Lemma L_C114_equivalent : forall (q B : Z) (a b : vecs), 0 <= B -> 0 < q <= 20000000 -> B * q <= 10^14 -> grids 6 q B a -> grids 6 q B b ->
  NoDup (map dppoint a) -> NoDup (map dppoint b) ->
  (length a = 3%nat -> length b = 3%nat -> exists r, md_equivalent_triangles a b = Ok r /\ (r = true <-> same_set (map dppoint a) (map dppoint b))) /\
  (length a = 2%nat -> length b = 2%nat -> exists r, md_equivalent_edges a b = Ok r /\ (r = true <-> same_set (map dppoint a) (map dppoint b))).
Proof.
  intros q B a b PB [Pq Hq] H Ga Gb Na Nb. pose proof (grids_goods _ _ _ Ga) as GA. pose proof (grids_goods _ _ _ Gb) as GB.
  unfold md_equivalent_triangles, md_equivalent_edges. rewrite (dstacked_eq q B a b) by assumption. split; intros La Lb.
  - exact (L_C65_equivalent_triangles a b GA GB La Lb Na Nb).
  - exact (L_C65_equivalent_edges a b GA GB La Lb Na Nb).
Qed.
Lemma L_C114_vertices : forall (q B : Z) (u v : vec), 0 <= B -> 0 < q <= 20000000 -> B * q <= 10^14 -> gridv 6 q B u -> gridv 6 q B v ->
  exists r, md_equivalent_vertices u v = Ok r /\ (r = true <-> dppoint u = dppoint v).
Proof.
  intros q B u v PB [Pq Hq] H Gu Gv. unfold md_equivalent_vertices. rewrite (dproj_eq q B u), (dproj_eq q B v) by assumption.
  exact (L_C65_equivalent_vertices u v (grids_good1 _ _ _ Gu) (grids_good1 _ _ _ Gv)).
Qed.
Lemma L_C114_edges : forall (N : num) (q B : Z) (o : obj4), 0 <= B -> 0 < q <= 90000000 -> 4 * B * q <= 10^15 -> Forall (grids 6 q B) o ->
  md_generator_unique_edges N 3 o = dgenerator_unique_edges N 3 o.
Proof.
  intros N q B o PB Hq H F. unfold md_generator_unique_edges, dgenerator_unique_edges, dgenerator_all_edges. cbn [Nat.eqb].
  destruct (mapM get_triangle_edge o) as [e|] eqn:E; [|reflexivity]. cbn [bind notNone]. rewrite (dcentres_eq N q B); [reflexivity|assumption..|].
  apply (pick_grid get_triangle_edge q B o); [|exact F|exact E]. intros t es _. apply picked. two.
Qed.
Lemma L_C114_far_points_refuted : exists u v, good 6 u /\ good 6 v /\ dppoint u <> dppoint v /\ md_equivalent_vertices u v = Ok true /\ md_remove_doubling_in_perp_space (A3 [u; v]) = Ok [u].
Proof.
  exists (at_ 0 (T (2^53) 0 1)), (at_ 0 (T (2^53 + 1) 0 1)).
  assert (Gu : good 6 (at_ 0 (T (2^53) 0 1))) by gd1. assert (Gv : good 6 (at_ 0 (T (2^53 + 1) 0 1))) by gd1.
  split; [exact Gu|]. split; [exact Gv|]. split; [|split; vm_compute; reflexivity].
  intros X. destruct (L_C65_equivalent_vertices _ _ Gu Gv) as (r & E & H). apply H in X. subst r. vm_compute in E. discriminate E.
Qed.

Example E_C114_ex :
  let x := at_ 0 (T 1000000 1 2) in let y := at_ 1 (T 0 (-3) 1) in let z := at_ 2 (T 7 0 2) in
  let y' := [T 1 0 1; T 0 (-2) 1; T 1 0 2; T 0 0 1; T (-1) 0 1; T 0 0 1] in
  grids 6 2 1000000 [x; y; z; y'; origin6] /\ 4 * 1000000 * 2 <= 10^15 /\
  md_equivalent_triangles [x; y; z] [z; x; y'] = Ok true /\ md_equivalent_triangles [x; y; z] [z; x; origin6] = Ok false /\
  md_equivalent_vertices y' y = Ok true /\
  md_generator_unique_edges Bnum 3 [[x; y; z]; [origin6; y'; z]] = Ok [[x; y]; [x; z]; [origin6; y']; [y; z]; [origin6; z]].
Proof.
  split; [grd|]. split; [lia|]. split; [vm_compute; reflexivity|]. split; [vm_compute; reflexivity|]. split; [vm_compute; reflexivity|]. vm_compute; reflexivity.
Qed.
