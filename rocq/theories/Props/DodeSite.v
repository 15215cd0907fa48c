(** Site symmetry and coset decomposition of dode2/symmetry.py: C51, C52. *)
From Coq Require Import Reals List ZArith Lia Lra Bool Sorting.Sorted.
From Verif Require Import Base.Res Model.Tau Model.Arr Model.Num Model.IcoMath1 Model.DodeSymmetry Spec.Value Spec.RVec Spec.Shape
  Spec.Sets Spec.Cosets.
Import ListNotations.
Local Open Scope R_scope.
From Verif Require Import Proofs.P_DodeSite.
Import ListNotations.
Local Open Scope R_scope.

(** C51: for every subgroup the representatives hit every left coset exactly once;
    the first is the identity, and their number is the index. *)
Theorem C51_transversal : forall H, subgroup dodesymop H -> exists reps, coset_of H = Ok reps /\
  transversal dodesymop H reps /\ (length reps * length H = length dodesymop)%nat /\ (exists r, reps = 0%nat :: r).
Proof. exact L_C51_transversal. Qed.
Print Assumptions C51_transversal.

(** Hence the cosets r*H of the representatives r are pairwise disjoint and their
    union is the group. *)
Theorem C51_disjoint_cover : forall H reps, subgroup dodesymop H -> coset_of H = Ok reps ->
  (forall r r' g, In r reps -> In r' reps -> in_coset dodesymop H r g -> in_coset dodesymop H r' g -> r = r') /\
  (forall op, In op dodesymop <-> exists r a h b, In r reps /\ nth_error dodesymop r = Some a /\
     In h H /\ nth_error dodesymop h = Some b /\ op = matmul a b).
Proof. exact L_C51_disjoint_cover. Qed.
Print Assumptions C51_disjoint_cover.

(** remove_overlaps: the distinct elements in increasing order. *)
Theorem C51_remove_overlaps : forall l, same_set (remove_overlaps l) l /\ StronglySorted lt (remove_overlaps l).
Proof. exact L_C51_remove_overlaps. Qed.
Print Assumptions C51_remove_overlaps.

(** find_overlaps on lists without repetitions: is there a common element? *)
Theorem C51_find_overlaps : forall l1 l2, NoDup l1 -> NoDup l2 ->
  (find_overlaps l1 l2 = true <-> exists x, In x l1 /\ In x l2).
Proof. exact L_C51_find_overlaps. Qed.
Print Assumptions C51_find_overlaps.

(** On arbitrary lists it also answers True when one list repeats an element. *)
Theorem C51_find_overlaps_general : forall l1 l2, find_overlaps l1 l2 = false <-> NoDup (l1 ++ l2).
Proof. exact L_C51_find_overlaps_general. Qed.
Print Assumptions C51_find_overlaps_general.

(** site_symmetry_and_coset returns what site_symmetry and coset return, in any
    arithmetic. *)
Theorem C51_combined : forall (N : num) site n l c,
  site_symmetry_and_coset N site n = Ok (l, c) <-> site_symmetry N site n = Ok l /\ coset N site n = Ok c.
Proof. exact L_C51_combined. Qed.
Print Assumptions C51_combined.

Example C51_ex : subgroup dodesymop [0;6;12;18]%nat /\ coset_of [0;6;12;18]%nat = Ok [0;1;2;3;4;5]%nat.
Proof. exact E_C51_ex. Qed.

(** C52: the operations returned are exactly those that bring the site back, within
    the tolerance 1e-6, after a translation with components in -1,0,1. *)
Theorem C52_exact : forall site n, good 6 site ->
  exists l, site_symmetry Rnum site n = Ok l /\ StronglySorted lt l /\
    forall i, In i l <-> exists op t, nth_error dodesymop i = Some op /\ small_shift (tdim n) t /\
      vnorm (vsub (vals SIN site) (vadd (matvec (IZRm op) (vals SIN site)) (map IZR t))) < 1 / 1000000.
Proof. exact L_C52_exact. Qed.
Print Assumptions C52_exact.

(** The identity is always found. *)
Theorem C52_identity : forall site n l, good 6 site -> site_symmetry Rnum site n = Ok l -> In 0%nat l.
Proof. exact L_C52_identity. Qed.
Print Assumptions C52_identity.

(** For sites of the unit cell (or of the cell centred at the origin) with
    denominators up to a million it is exactly the site-symmetry group; ndim does
    not matter. *)
Theorem C52_unit_cell : forall site n q, good 6 site -> rational q (vals SIN site) -> (0 < q <= 1000000)%Z ->
  cell (vals SIN site) \/ ccell (vals SIN site) ->
  exists l, site_symmetry Rnum site n = Ok l /\ site_group dodesymop (vals SIN site) l.
Proof. exact L_C52_unit_cell. Qed.
Print Assumptions C52_unit_cell.

(** That is a subgroup, and coset then returns one representative of every coset of
    the site-symmetry group: one operation for every equivalent position. *)
Theorem C52_coset : forall site n q, good 6 site -> rational q (vals SIN site) -> (0 < q <= 1000000)%Z ->
  cell (vals SIN site) \/ ccell (vals SIN site) ->
  exists l reps, site_symmetry_and_coset Rnum site n = Ok (l, reps) /\ coset Rnum site n = Ok reps /\
    site_group dodesymop (vals SIN site) l /\ subgroup dodesymop l /\ transversal dodesymop l reps.
Proof. exact L_C52_coset. Qed.
Print Assumptions C52_coset.

(** The equivalent positions: representatives in different cosets give points that
    differ by more than a lattice vector, and every operation's image is the image
    under some representative up to a lattice vector. *)
Theorem C52_equivalent_positions : forall x l reps, length x = 6%nat -> site_group dodesymop x l -> coset_of l = Ok reps ->
  (forall r r' a a', In r reps -> In r' reps -> nth_error dodesymop r = Some a -> nth_error dodesymop r' = Some a' ->
     integral (vsub (matvec (IZRm a) x) (matvec (IZRm a') x)) -> r = r') /\
  (forall op, In op dodesymop -> exists r a, In r reps /\ nth_error dodesymop r = Some a /\
     integral (vsub (matvec (IZRm a) x) (matvec (IZRm op) x))).
Proof. exact L_C52_equivalent_positions. Qed.
Print Assumptions C52_equivalent_positions.

(** Outside the cell the result is wrong: the lattice point (1,0,0,0,0,0) has all 24
    operations in its site-symmetry group, but only some are found, they do not form
    a subgroup, and the coset representatives describe two equivalent positions
    instead of one. *)
Theorem C52_lattice_point_refuted : exists site l, good 6 site /\ site_group dodesymop (vals SIN site) (seq 0 24) /\
  site_symmetry Rnum site 5 = Ok l /\ (length l < 24)%nat /\ ~ subgroup dodesymop l /\ coset Rnum site 5 = Ok [0; 13]%nat.
Proof. exact L_C52_lattice_point_refuted. Qed.
Print Assumptions C52_lattice_point_refuted.

(** Shifting the site by a lattice vector changes the answer. *)
Theorem C52_not_translation_invariant_refuted : exists site site', good 6 site /\ good 6 site' /\
  integral (vsub (vals SIN site') (vals SIN site)) /\
  site_symmetry Rnum site 5 = Ok (seq 0 24) /\ site_symmetry Rnum site' 5 = Ok [0; 19]%nat /\
  coset Rnum site 5 = Ok [0]%nat /\ coset Rnum site' 5 = Ok (seq 0 12).
Proof. exact L_C52_not_translation_invariant_refuted. Qed.
Print Assumptions C52_not_translation_invariant_refuted.

(** The tolerance: a site 1e-7 away from the origin is given the symmetry of the
    origin, although it has a smaller one. *)
Theorem C52_tolerance_refuted : exists site i op, good 6 site /\ site_symmetry Rnum site 5 = Ok (seq 0 24) /\
  nth_error dodesymop i = Some op /\ (i < 24)%nat /\ ~ fixes_site op (vals SIN site).
Proof. exact L_C52_tolerance_refuted. Qed.
Print Assumptions C52_tolerance_refuted.

Example C52_ex : let site := [T 1 0 2; t0; T 1 0 2; t0; t0; t0] in
  good 6 site /\ rational 2 (vals SIN site) /\ cell (vals SIN site).
Proof. exact E_C52_ex. Qed.
