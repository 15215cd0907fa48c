(** De-duplication, equivalence tests, edges and connectivity of dode2/utils.py:
    C64, C65, C66, C53. *)
From Coq Require Import Reals List ZArith Lia Lra Bool Sorting.Sorted Permutation.
From Verif Require Import Base.Res Model.Tau Model.Arr Model.DodeMath1 Model.IcoDedup Model.DodeDedup Spec.Value Spec.RVec Spec.Shape
  Spec.DodeSpec Spec.Sets.
Import ListNotations.
From Verif Require Import Proofs.P_DodeDedup.
Import ListNotations.
Local Open Scope R_scope.

(** On a 4-d array the vertices of all members are taken together. *)
Theorem C64_remove_doubling_4d : forall o, remove_doubling (A4 o) = remove_doubling (A3 (concat o)) /\
  dremove_doubling_in_perp_space (A4 o) = dremove_doubling_in_perp_space (A3 (concat o)).
Proof. exact L_C64_remove_doubling_4d. Qed.
Print Assumptions C64_remove_doubling_4d.

(** dremove_doubling_in_perp_space keeps, for every input vector, exactly one vector
    with the same perpendicular projection, and invents none. *)
Theorem C64_perp_representatives : forall vs, goods 6 vs -> exists r,
  dremove_doubling_in_perp_space (A3 vs) = Ok r /\ incl r vs /\ NoDup r /\
  forall v, In v vs -> exists! u, In u r /\ dppoint u = dppoint v.
Proof. exact L_C64_perp_representatives. Qed.
Print Assumptions C64_perp_representatives.

(** The result depends only on the set of input vectors: permuting or repeating
    them does not change it. *)
Theorem C64_order_irrelevant : forall vs vs', same_set vs vs' ->
  remove_doubling (A3 vs) = remove_doubling (A3 vs') /\
  dremove_doubling_in_perp_space (A3 vs) = dremove_doubling_in_perp_space (A3 vs').
Proof. exact L_C64_order_irrelevant. Qed.
Print Assumptions C64_order_irrelevant.

(** Both are idempotent. *)
Theorem C64_idempotent : forall vs r, goods 6 vs ->
  (remove_doubling (A3 vs) = Some r -> remove_doubling (A3 r) = Some r) /\
  (dremove_doubling_in_perp_space (A3 vs) = Ok r -> dremove_doubling_in_perp_space (A3 r) = Ok r).
Proof. exact L_C64_idempotent. Qed.
Print Assumptions C64_idempotent.

(** Only 3-d and 4-d arrays are accepted. *)
Theorem C64_other_shapes : forall a, (forall vs, a <> A3 vs) -> (forall o, a <> A4 o) ->
  remove_doubling a = None /\ dremove_doubling_in_perp_space a = Raise TypeError.
Proof. exact L_C64_other_shapes. Qed.
Print Assumptions C64_other_shapes.

Example C64_ex : goods 6 [ev 1 0 0 0 0 0; ev 0 1 0 0 0 0; ev 1 0 0 0 0 0] /\
  dremove_doubling_in_perp_space (A3 [ev 1 0 0 0 0 0; ev 0 1 0 0 0 0; ev 1 0 0 0 0 0])
    = Ok [ev 1 0 0 0 0 0; ev 0 1 0 0 0 0] /\
  (* two different vectors with the same perpendicular projection: 0 and a vector of parallel space *)
  dremove_doubling_in_perp_space (A3 [ev 1 0 0 0 0 0; [T 1 0 1; T 0 1 1; T 1 0 2; T 0 0 1; T (-1) 0 1; T 0 0 1]; ev 0 0 0 0 0 0]) = Ok [ev 1 0 0 0 0 0; ev 0 0 0 0 0 0].
Proof. exact E_C64_ex. Qed.

(** C65: on triangles and edges with pairwise different projected vertices the tests
    decide equality of the sets of projected vertices. *)
Theorem C65_equivalent_triangles : forall a b, goods 6 a -> goods 6 b -> length a = 3%nat -> length b = 3%nat ->
  NoDup (map dppoint a) -> NoDup (map dppoint b) ->
  exists r, dequivalent_triangles a b = Ok r /\ (r = true <-> same_set (map dppoint a) (map dppoint b)).
Proof. exact L_C65_equivalent_triangles. Qed.
Print Assumptions C65_equivalent_triangles.

Theorem C65_equivalent_edges : forall a b, goods 6 a -> goods 6 b -> length a = 2%nat -> length b = 2%nat ->
  NoDup (map dppoint a) -> NoDup (map dppoint b) ->
  exists r, dequivalent_edges a b = Ok r /\ (r = true <-> same_set (map dppoint a) (map dppoint b)).
Proof. exact L_C65_equivalent_edges. Qed.
Print Assumptions C65_equivalent_edges.

Theorem C65_equivalent_vertices : forall u v, good 6 u -> good 6 v ->
  exists r, dequivalent_vertices u v = Ok r /\ (r = true <-> dppoint u = dppoint v).
Proof. exact L_C65_equivalent_vertices. Qed.
Print Assumptions C65_equivalent_vertices.

(** Whatever the arguments, the answer is True iff the two sets together have
    exactly 3 (2) different projected vertices. *)
Theorem C65_general : forall a b, goods 6 a -> goods 6 b ->
  (dequivalent_triangles a b = Ok true <-> card (map dppoint a ++ map dppoint b) 3) /\
  (dequivalent_edges a b = Ok true <-> card (map dppoint a ++ map dppoint b) 2).
Proof. exact L_C65_general. Qed.
Print Assumptions C65_general.

(** A triangle (edge) with a repeated vertex is not even equivalent to
    itself. *)
Theorem C65_degenerate_not_reflexive : forall a, goods 6 a ->
  (length a = 3%nat -> ~ NoDup (map dppoint a) -> dequivalent_triangles a a = Ok false) /\
  (length a = 2%nat -> ~ NoDup (map dppoint a) -> dequivalent_edges a a = Ok false).
Proof. exact L_C65_degenerate_not_reflexive. Qed.
Print Assumptions C65_degenerate_not_reflexive.

Example C65_ex : goods 6 [ev 1 0 0 0 0 0; ev 0 1 0 0 0 0; ev 0 0 1 0 0 0] /\
  dequivalent_triangles [ev 1 0 0 0 0 0; ev 0 1 0 0 0 0; ev 0 0 1 0 0 0] [ev 0 0 1 0 0 0; ev 1 0 0 0 0 0; ev 0 1 0 0 0 0] = Ok true /\
  dequivalent_triangles [ev 1 0 0 0 0 0; ev 0 1 0 0 0 0; ev 0 0 1 0 0 0] [ev 0 0 1 0 0 0; ev 1 0 0 0 0 0; ev 0 0 0 1 0 0] = Ok false /\
  dequivalent_edges [ev 1 0 0 0 0 0; ev 1 0 0 0 0 0] [ev 1 0 0 0 0 0; ev 1 0 0 0 0 0] = Ok false.
Proof. exact E_C65_ex. Qed.

(** equivalent on two vertex sets answers True iff together they have as many
    different points as the FIRST has vertices. *)
Theorem C65_equivalent_sets : forall a b, goods 6 a -> goods 6 b ->
  exists r, dequivalent (A3 a) (A3 b) = Ok (Some r) /\ dequivalent (A4 [a]) (A4 [b]) = Ok (Some r) /\
    (r = true <-> card (map dppoint a ++ map dppoint b) (length a)).
Proof. exact L_C65_equivalent_sets. Qed.
Print Assumptions C65_equivalent_sets.

(** For a first argument without repetitions this is inclusion of the second set in
    the first, not equality. *)
Theorem C65_equivalent_is_inclusion : forall a b, goods 6 a -> goods 6 b -> NoDup (map dppoint a) ->
  (dequivalent (A3 a) (A3 b) = Ok (Some true) <-> incl (map dppoint b) (map dppoint a)).
Proof. exact L_C65_equivalent_is_inclusion. Qed.
Print Assumptions C65_equivalent_is_inclusion.

(** A triangle and one of its edges are "equivalent". *)
Theorem C65_sets_refuted : exists a b, goods 6 a /\ goods 6 b /\ dequivalent (A3 a) (A3 b) = Ok (Some true) /\
  dequivalent (A3 b) (A3 a) = Ok (Some false) /\ ~ same_set (map dppoint a) (map dppoint b).
Proof. exact L_C65_sets_refuted. Qed.
Print Assumptions C65_sets_refuted.

Theorem C65_other_shapes : forall o1 o2,
  dequivalent o1 o2 = Ok None <->
  match o1, o2 with A3 _, A3 _ | A4 _, A4 _ | A2 _, A2 _ => False | _, _ => True end.
Proof. exact L_C65_other_shapes. Qed.
Print Assumptions C65_other_shapes.

(** C66: the edges of a triangle are exactly its pairs of vertices. *)
Theorem C66_triangle_edges : forall t, length t = 3%nat -> exists f, get_triangle_edge t = Ok f /\ length f = 3%nat /\
  (forall s, In s f <-> subseq s t /\ length s = 2%nat) /\ (NoDup t -> NoDup f).
Proof. exact L_C66_triangle_edges. Qed.
Print Assumptions C66_triangle_edges.

Theorem C66_all_edges : forall o, Forall (fun t => length t = 3%nat) o ->
  exists e, dgenerator_all_edges 3 o = Ok (Some e) /\ length e = (3 * length o)%nat /\
    forall s, In s e <-> exists t, In t o /\ subseq s t /\ length s = 2%nat.
Proof. exact L_C66_all_edges. Qed.
Print Assumptions C66_all_edges.

Theorem C66_all_edges_other : forall n2 o, n2 <> 3%nat -> dgenerator_all_edges n2 o = Ok None.
Proof. exact L_C66_all_edges_other. Qed.
Print Assumptions C66_all_edges_other.

Example C66_ex : Forall (fun t : vecs => length t = 3%nat) [[ev 1 0 0 0 0 0; ev 0 1 0 0 0 0; ev 0 0 1 0 0 0]] /\
  dgenerator_all_edges 3 [[ev 1 0 0 0 0 0; ev 0 1 0 0 0 0; ev 0 0 1 0 0 0]] =
   Ok (Some [[ev 1 0 0 0 0 0; ev 0 1 0 0 0 0]; [ev 1 0 0 0 0 0; ev 0 0 1 0 0 0]; [ev 0 1 0 0 0 0; ev 0 0 1 0 0 0]]).
Proof. exact E_C66_ex. Qed.

(** C53: whatever the two triangles, the connectivity test answers False, hence no
    two triangles are ever merged. *)
Theorem C53_never_connected : forall a b, goods 6 a -> length a = 3%nat ->
  check_connectivity_triangles a b = Ok false /\ merge_two_triangles a b = Ok None.
Proof. exact L_C53_never_connected. Qed.
Print Assumptions C53_never_connected.

(** In particular for two triangles that share exactly an edge. *)
Theorem C53_shared_edge_refuted : exists a b, goods 6 a /\ goods 6 b /\ length a = 3%nat /\ length b = 3%nat /\
  NoDup (map dppoint a) /\ NoDup (map dppoint b) /\
  (exists c, NoDup c /\ length c = 2%nat /\ forall p, In p c <-> In p (map dppoint a) /\ In p (map dppoint b)) /\
  check_connectivity_triangles a b = Ok false.
Proof. exact L_C53_shared_edge_refuted. Qed.
Print Assumptions C53_shared_edge_refuted.

Example C53_ex : goods 6 [ev 0 0 0 0 0 0; ev 1 0 0 0 0 0; ev 0 1 0 0 0 0] /\
  dequivalent_edges [ev 0 0 0 0 0 0; ev 1 0 0 0 0 0] [ev 1 0 0 0 0 0; ev 0 0 0 0 0 0] = Ok true /\
  check_connectivity_triangles [ev 0 0 0 0 0 0; ev 1 0 0 0 0 0; ev 0 1 0 0 0 0] [ev 0 0 0 0 0 0; ev 1 0 0 0 0 0; ev 0 0 1 0 0 0] = Ok false.
Proof. exact E_C53_ex. Qed.
