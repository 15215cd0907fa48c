(** De-duplication, equivalence tests, surfaces and edges computed in int64: C113, C114. *)
From Coq Require Import Reals List ZArith.
From Verif Require Import Base.Res Model.Tau Model.Arr Model.Num Model.IcoDedup Model.DodeDedup Model.IcoSurface Model.DodeIntersect Model.MachineInter Model.MachineDodeInter Model.MachineDedup
  Spec.Value Spec.RVec Spec.Shape Spec.IcoSpec Spec.DodeSpec Spec.Sets Spec.Grid.
Import ListNotations.
Local Open Scope Z_scope.
From Verif Require Import Proofs.P_MachineDedup.
Import ListNotations.

(** C113: for coordinates with a common denominator q <= 90000000 and numerators up to B, B q <=
    10^15, de-duplication keeps one vector for every projected point ... *)
Theorem C113_representatives : forall (q B : Z) (vs : vecs), 0 <= B -> 0 < q <= 90000000 -> B * q <= 10^15 -> grids 6 q B vs -> exists r,
  m_remove_doubling_in_perp_space (A3 vs) = Ok r /\ incl r vs /\ NoDup r /\
  forall v, In v vs -> exists! u, In u r /\ ppoint u = ppoint v.
Proof. exact L_C113_representatives. Qed.
Print Assumptions C113_representatives.

(** ... and the equivalence tests decide equality of the sets of projected vertices. *)
Theorem C113_equivalent : forall (q B : Z) (a b : vecs), 0 <= B -> 0 < q <= 90000000 -> B * q <= 10^15 -> grids 6 q B a -> grids 6 q B b ->
  NoDup (map ppoint a) -> NoDup (map ppoint b) ->
  (length a = 4%nat -> length b = 4%nat -> exists r, m_equivalent_tetrahedra a b = Ok r /\ (r = true <-> same_set (map ppoint a) (map ppoint b))) /\
  (length a = 3%nat -> length b = 3%nat -> exists r, m_equivalent_triangles a b = Ok r /\ (r = true <-> same_set (map ppoint a) (map ppoint b))) /\
  (length a = 2%nat -> length b = 2%nat -> exists r, m_equivalent_edges a b = Ok r /\ (r = true <-> same_set (map ppoint a) (map ppoint b))).
Proof. exact L_C113_equivalent. Qed.
Print Assumptions C113_equivalent.

Theorem C113_vertices : forall (q B : Z) (u v : vec), 0 <= B -> 0 < q <= 90000000 -> B * q <= 10^15 -> gridv 6 q B u -> gridv 6 q B v ->
  exists r, m_equivalent_vertices u v = Ok r /\ (r = true <-> ppoint u = ppoint v).
Proof. exact L_C113_vertices. Qed.
Print Assumptions C113_vertices.

(** Two tetrahedra are found to share a face exactly if they have three vertices in common. *)
Theorem C113_connectivity : forall (q B : Z) (a b : vecs), 0 <= B -> 0 < q <= 90000000 -> B * q <= 10^15 -> grids 6 q B a -> grids 6 q B b ->
  length a = 4%nat -> length b = 4%nat -> NoDup (map ppoint a) -> NoDup (map ppoint b) ->
  (m_check_connectivity_tetrahedra a b = Ok true <->
   exists c, NoDup c /\ length c = 3%nat /\ forall p, In p c <-> In p (map ppoint a) /\ In p (map ppoint b)).
Proof. exact L_C113_connectivity. Qed.
Print Assumptions C113_connectivity.

(** The surface and the unique triangles are those of the exact code, whatever the floating
    point in which centres are compared. *)
Theorem C113_surface : forall (N : num) (q B : Z) (o : obj4), 0 <= B -> 0 < q <= 90000000 -> 4 * B * q <= 10^15 -> Forall (fun t => length t = 4%nat /\ grids 6 q B t) o ->
  m_generator_surface_1 N o = generator_surface_1 N o /\ m_generator_unique_triangles N o = generator_unique_triangles N o.
Proof. exact L_C113_surface. Qed.
Print Assumptions C113_surface.

(** So are the unique edges of tetrahedra (n = 4) and triangles (n = 3). *)
Theorem C113_edges : forall (N : num) (n : nat) (q B : Z) (o : obj4), 0 <= B -> 0 < q <= 90000000 -> 4 * B * q <= 10^15 -> n = 3%nat \/ n = 4%nat -> Forall (grids 6 q B) o ->
  m_generator_unique_edges N n o = generator_unique_edges N n o.
Proof. exact L_C113_edges. Qed.
Print Assumptions C113_edges.

(** Far points are taken for one: the reduced fractions pass through float64. *)
Theorem C113_far_points_refuted : exists u v, good 6 u /\ good 6 v /\ ppoint u <> ppoint v /\ m_equivalent_vertices u v = Ok true /\ m_remove_doubling_in_perp_space (A3 [u; v]) = Ok [u].
Proof. exact L_C113_far_points_refuted. Qed.
Print Assumptions C113_far_points_refuted.

Example C113_ex :
  let x := at_ 0 (T 1000000 1 2) in let y := at_ 1 (T 0 (-3) 1) in let z := at_ 2 (T 7 0 2) in
  let y' := [T 1 0 1; T 0 (-2) 1; T 0 1 1; T 0 0 1; T (-1) 0 1; T 0 0 1] in let w := at_ 3 (T 1 0 1) in
  grids 6 2 1000000 [x; y; z; y'; w; origin6] /\ 4 * 1000000 * 2 <= 10^15 /\
  m_equivalent_triangles [x; y; z] [z; x; y'] = Ok true /\ m_equivalent_triangles [x; y; z] [z; x; origin6] = Ok false /\
  m_equivalent_vertices y' y = Ok true /\
  m_generator_surface_1 Bnum [[x; y; z; origin6]; [origin6; y'; z; w]] = Ok [[origin6; z; w]; [y'; z; w]; [origin6; y'; w]; [x; z; origin6]; [x; y; z]; [x; y; origin6]].
Proof. exact E_C113_ex. Qed.

(** C114: the same for dode2. *)
Theorem C114_representatives : forall (q B : Z) (vs : vecs), 0 <= B -> 0 < q <= 20000000 -> B * q <= 10^14 -> grids 6 q B vs -> exists r,
  md_remove_doubling_in_perp_space (A3 vs) = Ok r /\ incl r vs /\ NoDup r /\
  forall v, In v vs -> exists! u, In u r /\ dppoint u = dppoint v.
Proof. exact L_C114_representatives. Qed.
Print Assumptions C114_representatives.

Theorem C114_equivalent : forall (q B : Z) (a b : vecs), 0 <= B -> 0 < q <= 20000000 -> B * q <= 10^14 -> grids 6 q B a -> grids 6 q B b ->
  NoDup (map dppoint a) -> NoDup (map dppoint b) ->
  (length a = 3%nat -> length b = 3%nat -> exists r, md_equivalent_triangles a b = Ok r /\ (r = true <-> same_set (map dppoint a) (map dppoint b))) /\
  (length a = 2%nat -> length b = 2%nat -> exists r, md_equivalent_edges a b = Ok r /\ (r = true <-> same_set (map dppoint a) (map dppoint b))).
Proof. exact L_C114_equivalent. Qed.
Print Assumptions C114_equivalent.

Theorem C114_vertices : forall (q B : Z) (u v : vec), 0 <= B -> 0 < q <= 20000000 -> B * q <= 10^14 -> gridv 6 q B u -> gridv 6 q B v ->
  exists r, md_equivalent_vertices u v = Ok r /\ (r = true <-> dppoint u = dppoint v).
Proof. exact L_C114_vertices. Qed.
Print Assumptions C114_vertices.

Theorem C114_edges : forall (N : num) (q B : Z) (o : obj4), 0 <= B -> 0 < q <= 90000000 -> 4 * B * q <= 10^15 -> Forall (grids 6 q B) o ->
  md_generator_unique_edges N 3 o = dgenerator_unique_edges N 3 o.
Proof. exact L_C114_edges. Qed.
Print Assumptions C114_edges.

Theorem C114_far_points_refuted : exists u v, good 6 u /\ good 6 v /\ dppoint u <> dppoint v /\ md_equivalent_vertices u v = Ok true /\ md_remove_doubling_in_perp_space (A3 [u; v]) = Ok [u].
Proof. exact L_C114_far_points_refuted. Qed.
Print Assumptions C114_far_points_refuted.

Example C114_ex :
  let x := at_ 0 (T 1000000 1 2) in let y := at_ 1 (T 0 (-3) 1) in let z := at_ 2 (T 7 0 2) in
  let y' := [T 1 0 1; T 0 (-2) 1; T 1 0 2; T 0 0 1; T (-1) 0 1; T 0 0 1] in
  grids 6 2 1000000 [x; y; z; y'; origin6] /\ 4 * 1000000 * 2 <= 10^15 /\
  md_equivalent_triangles [x; y; z] [z; x; y'] = Ok true /\ md_equivalent_triangles [x; y; z] [z; x; origin6] = Ok false /\
  md_equivalent_vertices y' y = Ok true /\
  md_generator_unique_edges Bnum 3 [[x; y; z]; [origin6; y'; z]] = Ok [[x; y]; [x; z]; [origin6; y']; [y; z]; [origin6; z]].
Proof. exact E_C114_ex. Qed.
