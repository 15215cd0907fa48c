(** De-duplication, equivalence tests, faces and edges of ico2/utils.py: C19, C20, C21, C22, C23, C55. *)
From Coq Require Import Reals List ZArith Lia Lra Bool Sorting.Sorted Permutation.
From Verif Require Import Base.Res Model.Tau Model.Arr Model.IcoMath1 Model.IcoDedup Spec.Value Spec.RVec Spec.Shape
  Spec.IcoSpec Spec.Sets.
Import ListNotations.
From Verif Require Import Proofs.P_Dedup.
Import ListNotations.
Local Open Scope R_scope.

(** C19: remove_doubling returns the distinct input vectors in strictly increasing
    lexicographic order, whatever the integers are. *)
Theorem C19_remove_doubling : forall vs, exists r,
  remove_doubling (A3 vs) = Some r /\ same_set r vs /\
  StronglySorted (fun u v => lexlt (components u) (components v)) r.
Proof. exact L_C19_remove_doubling. Qed.
Print Assumptions C19_remove_doubling.

(** On a 4-d array the vertices of all members are taken together. *)
Theorem C19_remove_doubling_4d : forall o, remove_doubling (A4 o) = remove_doubling (A3 (concat o)) /\
  remove_doubling_in_perp_space (A4 o) = remove_doubling_in_perp_space (A3 (concat o)).
Proof. exact L_C19_remove_doubling_4d. Qed.
Print Assumptions C19_remove_doubling_4d.

(** remove_doubling_in_perp_space keeps, for every input vector, exactly one vector
    with the same perpendicular projection, and invents none. *)
Theorem C19_perp_representatives : forall vs, goods 6 vs -> exists r,
  remove_doubling_in_perp_space (A3 vs) = Ok r /\ incl r vs /\ NoDup r /\
  forall v, In v vs -> exists! u, In u r /\ ppoint u = ppoint v.
Proof. exact L_C19_perp_representatives. Qed.
Print Assumptions C19_perp_representatives.

(** The result depends only on the set of input vectors: permuting or repeating
    them does not change it. *)
Theorem C19_order_irrelevant : forall vs vs', same_set vs vs' ->
  remove_doubling (A3 vs) = remove_doubling (A3 vs') /\
  remove_doubling_in_perp_space (A3 vs) = remove_doubling_in_perp_space (A3 vs').
Proof. exact L_C19_order_irrelevant. Qed.
Print Assumptions C19_order_irrelevant.

(** Both are idempotent. *)
Theorem C19_idempotent : forall vs r, goods 6 vs ->
  (remove_doubling (A3 vs) = Some r -> remove_doubling (A3 r) = Some r) /\
  (remove_doubling_in_perp_space (A3 vs) = Ok r -> remove_doubling_in_perp_space (A3 r) = Ok r).
Proof. exact L_C19_idempotent. Qed.
Print Assumptions C19_idempotent.

(** Only 3-d and 4-d arrays are accepted. *)
Theorem C19_other_shapes : forall a, (forall vs, a <> A3 vs) -> (forall o, a <> A4 o) ->
  remove_doubling a = None /\ remove_doubling_in_perp_space a = Raise TypeError.
Proof. exact L_C19_other_shapes. Qed.
Print Assumptions C19_other_shapes.

Example C19_ex : goods 6 [ev 1 0 0 0 0 0; ev 0 1 0 0 0 0; ev 1 0 0 0 0 0] /\
  remove_doubling_in_perp_space (A3 [ev 1 0 0 0 0 0; ev 0 1 0 0 0 0; ev 1 0 0 0 0 0])
    = Ok [ev 0 1 0 0 0 0; ev 1 0 0 0 0 0] /\
  (* two different vectors with the same perpendicular projection: 0 and a vector of parallel space *)
  remove_doubling_in_perp_space (A3 [ev 1 0 0 0 0 0; [T 1 0 1; T 0 1 1; T 0 1 1; T 0 0 1; T (-1) 0 1; T 0 0 1]; ev 0 0 0 0 0 0]) = Ok [ev 0 0 0 0 0 0; ev 1 0 0 0 0 0].
Proof. exact E_C19_ex. Qed.

(** C20: when something remains, exactly the vectors that are not in the second
    argument are returned, in their order and with their multiplicity. *)
Theorem C20_remove_vectors : forall vs1 vs2, (exists v, In v vs1 /\ ~ In v vs2) ->
  exists keep, remove_vectors vs1 vs2 = filter keep vs1 /\ (forall v, keep v = true <-> ~ In v vs2).
Proof. exact L_C20_remove_vectors. Qed.
Print Assumptions C20_remove_vectors.

Theorem C20_remove_vector : forall vs v, (exists u, In u vs /\ u <> v) ->
  exists keep, remove_vector vs v = filter keep vs /\ (forall u, keep u = true <-> u <> v).
Proof. exact L_C20_remove_vector. Qed.
Print Assumptions C20_remove_vector.

(** When nothing would remain the original list comes back. *)
Theorem C20_all_removed : forall vs1 vs2 v,
  (incl vs1 vs2 -> remove_vectors vs1 vs2 = vs1) /\ ((forall u, In u vs1 -> u = v) -> remove_vector vs1 v = vs1).
Proof. exact L_C20_all_removed. Qed.
Print Assumptions C20_all_removed.

(** So the contract "no vector of the second argument is in the result" fails. *)
Theorem C20_contract_refuted : exists vs1 vs2 v, In v (remove_vectors vs1 vs2) /\ In v vs2 /\ In v (remove_vector vs1 v).
Proof. exact L_C20_contract_refuted. Qed.
Print Assumptions C20_contract_refuted.

Example C20_ex : remove_vectors [ev 1 0 0 0 0 0; ev 2 0 0 0 0 0; ev 3 0 0 0 0 0; ev 2 0 0 0 0 0] [ev 2 0 0 0 0 0; ev 7 0 0 0 0 0]
  = [ev 1 0 0 0 0 0; ev 3 0 0 0 0 0] /\
  (exists v, In v [ev 1 0 0 0 0 0; ev 2 0 0 0 0 0] /\ ~ In v [ev 2 0 0 0 0 0]) /\
  remove_vector [ev 1 0 0 0 0 0; ev 2 0 0 0 0 0] (ev 2 0 0 0 0 0) = [ev 1 0 0 0 0 0].
Proof. exact E_C20_ex. Qed.

(** C21: on simplices with pairwise different projected vertices the three tests
    decide equality of the sets of projected vertices. *)
Theorem C21_equivalent_tetrahedra : forall a b, goods 6 a -> goods 6 b -> length a = 4%nat -> length b = 4%nat ->
  NoDup (map ppoint a) -> NoDup (map ppoint b) ->
  exists r, equivalent_tetrahedra a b = Ok r /\ (r = true <-> same_set (map ppoint a) (map ppoint b)).
Proof. exact L_C21_equivalent_tetrahedra. Qed.
Print Assumptions C21_equivalent_tetrahedra.

Theorem C21_equivalent_triangles : forall a b, goods 6 a -> goods 6 b -> length a = 3%nat -> length b = 3%nat ->
  NoDup (map ppoint a) -> NoDup (map ppoint b) ->
  exists r, equivalent_triangles a b = Ok r /\ (r = true <-> same_set (map ppoint a) (map ppoint b)).
Proof. exact L_C21_equivalent_triangles. Qed.
Print Assumptions C21_equivalent_triangles.

Theorem C21_equivalent_edges : forall a b, goods 6 a -> goods 6 b -> length a = 2%nat -> length b = 2%nat ->
  NoDup (map ppoint a) -> NoDup (map ppoint b) ->
  exists r, equivalent_edges a b = Ok r /\ (r = true <-> same_set (map ppoint a) (map ppoint b)).
Proof. exact L_C21_equivalent_edges. Qed.
Print Assumptions C21_equivalent_edges.

Theorem C21_equivalent_vertices : forall u v, good 6 u -> good 6 v ->
  exists r, equivalent_vertices u v = Ok r /\ (r = true <-> ppoint u = ppoint v).
Proof. exact L_C21_equivalent_vertices. Qed.
Print Assumptions C21_equivalent_vertices.

(** Whatever the arguments, the answer is True iff the two sets together have
    exactly 4 (3, 2) different projected vertices. *)
Theorem C21_general : forall a b, goods 6 a -> goods 6 b ->
  (equivalent_tetrahedra a b = Ok true <-> card (map ppoint a ++ map ppoint b) 4) /\
  (equivalent_triangles a b = Ok true <-> card (map ppoint a ++ map ppoint b) 3) /\
  (equivalent_edges a b = Ok true <-> card (map ppoint a ++ map ppoint b) 2).
Proof. exact L_C21_general. Qed.
Print Assumptions C21_general.

(** A tetrahedron (triangle, edge) with a repeated vertex is not even equivalent to
    itself. *)
Theorem C21_degenerate_not_reflexive : forall a, goods 6 a ->
  (length a = 4%nat -> ~ NoDup (map ppoint a) -> equivalent_tetrahedra a a = Ok false) /\
  (length a = 3%nat -> ~ NoDup (map ppoint a) -> equivalent_triangles a a = Ok false) /\
  (length a = 2%nat -> ~ NoDup (map ppoint a) -> equivalent_edges a a = Ok false).
Proof. exact L_C21_degenerate_not_reflexive. Qed.
Print Assumptions C21_degenerate_not_reflexive.

Example C21_ex : goods 6 [ev 1 0 0 0 0 0; ev 0 1 0 0 0 0; ev 0 0 1 0 0 0; ev 0 0 0 1 0 0] /\
  equivalent_tetrahedra [ev 1 0 0 0 0 0; ev 0 1 0 0 0 0; ev 0 0 1 0 0 0; ev 0 0 0 1 0 0]
                        [ev 0 0 1 0 0 0; ev 0 0 0 1 0 0; ev 1 0 0 0 0 0; ev 0 1 0 0 0 0] = Ok true /\
  equivalent_tetrahedra [ev 1 0 0 0 0 0; ev 0 1 0 0 0 0; ev 0 0 1 0 0 0; ev 0 0 0 1 0 0]
                        [ev 0 0 1 0 0 0; ev 0 0 0 1 0 0; ev 1 0 0 0 0 0; ev 0 0 0 0 1 0] = Ok false /\
  equivalent_triangles [ev 1 0 0 0 0 0; ev 1 0 0 0 0 0; ev 0 0 1 0 0 0] [ev 1 0 0 0 0 0; ev 1 0 0 0 0 0; ev 0 0 1 0 0 0] = Ok false.
Proof. exact E_C21_ex. Qed.

(** C22: equivalent on two vertex sets answers True iff together they have as many
    different points as the FIRST has vertices. *)
Theorem C22_equivalent_sets : forall a b, goods 6 a -> goods 6 b ->
  exists r, equivalent (A3 a) (A3 b) = Ok (Some r) /\ equivalent (A4 [a]) (A4 [b]) = Ok (Some r) /\
    (r = true <-> card (map ppoint a ++ map ppoint b) (length a)).
Proof. exact L_C22_equivalent_sets. Qed.
Print Assumptions C22_equivalent_sets.

(** For a first argument without repetitions this is inclusion of the second set in
    the first, not equality. *)
Theorem C22_equivalent_is_inclusion : forall a b, goods 6 a -> goods 6 b -> NoDup (map ppoint a) ->
  (equivalent (A3 a) (A3 b) = Ok (Some true) <-> incl (map ppoint b) (map ppoint a)).
Proof. exact L_C22_equivalent_is_inclusion. Qed.
Print Assumptions C22_equivalent_is_inclusion.

(** A triangle and one of its edges are "equivalent". *)
Theorem C22_sets_refuted : exists a b, goods 6 a /\ goods 6 b /\ equivalent (A3 a) (A3 b) = Ok (Some true) /\
  equivalent (A3 b) (A3 a) = Ok (Some false) /\ ~ same_set (map ppoint a) (map ppoint b).
Proof. exact L_C22_sets_refuted. Qed.
Print Assumptions C22_sets_refuted.

Theorem C22_other_shapes : forall o1 o2,
  equivalent o1 o2 = Ok None <->
  match o1, o2 with A3 _, A3 _ | A4 _, A4 _ | A2 _, A2 _ => False | _, _ => True end.
Proof. exact L_C22_other_shapes. Qed.
Print Assumptions C22_other_shapes.

(** C23: faces and edges are exactly the sub-sequences of 3 resp. 2 vertices. *)
Theorem C23_faces : forall t, length t = 4%nat -> exists f, get_tetrahedron_surface t = Ok f /\ length f = 4%nat /\
  (forall s, In s f <-> subseq s t /\ length s = 3%nat) /\ (NoDup t -> NoDup f).
Proof. exact L_C23_faces. Qed.
Print Assumptions C23_faces.

Theorem C23_tetrahedron_edges : forall t, length t = 4%nat -> exists f, get_tetrahedron_edge t = Ok f /\ length f = 6%nat /\
  (forall s, In s f <-> subseq s t /\ length s = 2%nat) /\ (NoDup t -> NoDup f).
Proof. exact L_C23_tetrahedron_edges. Qed.
Print Assumptions C23_tetrahedron_edges.

Theorem C23_triangle_edges : forall t, length t = 3%nat -> exists f, get_triangle_edge t = Ok f /\ length f = 3%nat /\
  (forall s, In s f <-> subseq s t /\ length s = 2%nat) /\ (NoDup t -> NoDup f).
Proof. exact L_C23_triangle_edges. Qed.
Print Assumptions C23_triangle_edges.

Theorem C23_all_edges : forall o,
  (Forall (fun t => length t = 4%nat) o -> exists e, generator_all_edges 4 o = Ok (Some e) /\ length e = (6 * length o)%nat /\
     forall s, In s e <-> exists t, In t o /\ subseq s t /\ length s = 2%nat) /\
  (Forall (fun t => length t = 3%nat) o -> exists e, generator_all_edges 3 o = Ok (Some e) /\ length e = (3 * length o)%nat /\
     forall s, In s e <-> exists t, In t o /\ subseq s t /\ length s = 2%nat).
Proof. exact L_C23_all_edges. Qed.
Print Assumptions C23_all_edges.

Theorem C23_all_edges_other : forall n2 o, n2 <> 3%nat -> n2 <> 4%nat -> generator_all_edges n2 o = Ok None.
Proof. exact L_C23_all_edges_other. Qed.
Print Assumptions C23_all_edges_other.

Example C23_ex : Forall (fun t : vecs => length t = 4%nat) [[ev 1 0 0 0 0 0; ev 0 1 0 0 0 0; ev 0 0 1 0 0 0; ev 0 0 0 1 0 0]] /\
  get_tetrahedron_edge [ev 1 0 0 0 0 0; ev 0 1 0 0 0 0; ev 0 0 1 0 0 0; ev 0 0 0 1 0 0] =
   Ok [[ev 1 0 0 0 0 0; ev 0 1 0 0 0 0]; [ev 1 0 0 0 0 0; ev 0 0 1 0 0 0]; [ev 1 0 0 0 0 0; ev 0 0 0 1 0 0];
       [ev 0 1 0 0 0 0; ev 0 0 1 0 0 0]; [ev 0 1 0 0 0 0; ev 0 0 0 1 0 0]; [ev 0 0 1 0 0 0; ev 0 0 0 1 0 0]].
Proof. exact E_C23_ex. Qed.

(** C55: connectivity. *)
Theorem C55_connectivity : forall a b, goods 6 a -> goods 6 b ->
  (check_connectivity_tetrahedra a b = Ok true <-> card (map ppoint a ++ map ppoint b) 5) /\
  (check_connectivity_tetrahedra a b = Ok false <-> ~ card (map ppoint a ++ map ppoint b) 5).
Proof. exact L_C55_connectivity. Qed.
Print Assumptions C55_connectivity.

(** For tetrahedra with four different projected vertices: exactly three common ones. *)
Theorem C55_three_common : forall a b, goods 6 a -> goods 6 b -> length a = 4%nat -> length b = 4%nat ->
  NoDup (map ppoint a) -> NoDup (map ppoint b) ->
  (check_connectivity_tetrahedra a b = Ok true <->
   exists c, NoDup c /\ length c = 3%nat /\ forall p, In p c <-> In p (map ppoint a) /\ In p (map ppoint b)).
Proof. exact L_C55_three_common. Qed.
Print Assumptions C55_three_common.

(** The common triangle: a face of the first tetrahedron consisting of exactly the
    common points. *)
Theorem C55_common_triangle : forall a b, goods 6 a -> goods 6 b -> length a = 4%nat -> length b = 4%nat ->
  NoDup (map ppoint a) -> NoDup (map ppoint b) -> check_connectivity_tetrahedra a b = Ok true ->
  exists t, get_common_triangle_in_two_tetrahedra a b = Ok (Some t) /\ subseq t a /\ length t = 3%nat /\
    forall p, In p (map ppoint t) <-> In p (map ppoint a) /\ In p (map ppoint b).
Proof. exact L_C55_common_triangle. Qed.
Print Assumptions C55_common_triangle.

(** None exactly when fewer than three vertices are common. *)
Theorem C55_no_common_triangle : forall a b, goods 6 a -> goods 6 b -> length a = 4%nat -> length b = 4%nat ->
  NoDup (map ppoint a) -> NoDup (map ppoint b) ->
  (get_common_triangle_in_two_tetrahedra a b = Ok None <->
   forall c, NoDup c -> incl c (map ppoint a) -> incl c (map ppoint b) -> (length c < 3)%nat).
Proof. exact L_C55_no_common_triangle. Qed.
Print Assumptions C55_no_common_triangle.

Example C55_ex :
  check_connectivity_tetrahedra [ev 1 0 0 0 0 0; ev 0 1 0 0 0 0; ev 0 0 1 0 0 0; ev 0 0 0 1 0 0]
                                [ev 0 0 0 0 1 0; ev 0 0 0 1 0 0; ev 1 0 0 0 0 0; ev 0 1 0 0 0 0] = Ok true /\
  get_common_triangle_in_two_tetrahedra [ev 1 0 0 0 0 0; ev 0 1 0 0 0 0; ev 0 0 1 0 0 0; ev 0 0 0 1 0 0]
                                [ev 0 0 0 0 1 0; ev 0 0 0 1 0 0; ev 1 0 0 0 0 0; ev 0 1 0 0 0 0]
   = Ok (Some [ev 1 0 0 0 0 0; ev 0 1 0 0 0 0; ev 0 0 0 1 0 0]) /\
  check_connectivity_tetrahedra [ev 1 0 0 0 0 0; ev 0 1 0 0 0 0; ev 0 0 1 0 0 0; ev 0 0 0 1 0 0]
                                [ev 1 0 0 0 0 0; ev 0 1 0 0 0 0; ev 0 0 1 0 0 0; ev 0 0 0 1 0 0] = Ok false.
Proof. exact E_C55_ex. Qed.
