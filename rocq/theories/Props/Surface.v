(** Surfaces, unique edges, coplanar groups, merging of edges, border edges and convex
    hull (ico2/utils.py): C24, C25, C27, C28, C57, C58, C80. *)
From Coq Require Import Reals List ZArith Lia Lra Bool Permutation.
From Verif Require Import Base.Res Model.Tau Model.Arr Model.IcoDedup Model.Num Model.IcoNumeric Model.IcoIntersect Model.IcoSurface
  Spec.Value Spec.RVec Spec.Shape Spec.Mean Spec.IcoSpec Spec.Geometry Spec.Sets Spec.Space Spec.Surface Spec.Samples.
Import ListNotations.
Local Open Scope R_scope.
From Verif Require Import Proofs.P_Surface.
Import ListNotations.
Local Open Scope R_scope.

(** C24: the surface of one tetrahedron is its four faces. *)
Theorem C24_single : forall N a b c d, generator_surface_1 N [[a; b; c; d]] = Ok [[a;b;c]; [a;b;d]; [a;c;d]; [b;c;d]].
Proof. exact L_C24_single. Qed.
Print Assumptions C24_single.

(** Two or more tetrahedra, in exact arithmetic, when different face centres are told apart
    by np.allclose: every face whose centre belongs to no other face is returned exactly
    once, and no other face is. *)
Theorem C24_surface : forall o, tets o -> (2 <= length o)%nat ->
  (forall f g, In f (all_faces o) -> In g (all_faces o) -> pcentre f = pcentre g \/ apart (pcentre f) (pcentre g)) ->
  exists is r, generator_surface_1 Rnum o = Ok r /\ Forall2 (fun i f => nth_error (all_faces o) i = Some f) is r /\
    NoDup is /\ forall i, In i is <-> alone (all_faces o) i.
Proof. exact L_C24_surface. Qed.
Print Assumptions C24_surface.

(** The same in any arithmetic that computes equal centres as equal numbers, different
    ones as not close, and compares the computed coordinates like real numbers. *)
Theorem C24_surface_any : forall N o, tets o -> (2 <= length o)%nat ->
  (forall f g, In f (all_faces o) -> In g (all_faces o) -> pcentre f = pcentre g -> centre N f = centre N g) ->
  (forall f g p q, In f (all_faces o) -> In g (all_faces o) -> centre N f = Ok p -> centre N g = Ok q ->
     (allclose N p q = true <-> pcentre f = pcentre g)) ->
  (forall ps, mapM (centre N) (all_faces o) = Ok ps -> ordered N (allclose N) ps) ->
  exists is r, generator_surface_1 N o = Ok r /\ Forall2 (fun i f => nth_error (all_faces o) i = Some f) is r /\
    NoDup is /\ forall i, In i is <-> alone (all_faces o) i.
Proof. exact L_C24_surface_any. Qed.
Print Assumptions C24_surface_any.

(** Face-to-face tetrahedra (any two faces have the same corners or centres that are told
    apart): the surface consists of the faces that belong to one tetrahedron only. *)
Theorem C24_boundary : forall o, tets o -> (2 <= length o)%nat -> Forall (fun t => NoDup (map ppoint t)) o ->
  (forall f g, In f (all_faces o) -> In g (all_faces o) ->
     same_set (map ppoint f) (map ppoint g) \/ apart (pcentre f) (pcentre g)) ->
  exists r, generator_surface_1 Rnum o = Ok r /\ NoDup r /\ forall f, In f r <-> In f (all_faces o) /\ once f (all_faces o).
Proof. exact L_C24_boundary. Qed.
Print Assumptions C24_boundary.

(** An object with no tetrahedron raises. *)
Theorem C24_empty : forall N, generator_surface_1 N [] = Raise IndexError.
Proof. exact L_C24_empty. Qed.
Print Assumptions C24_empty.

Theorem C24_binary64_refuted : exists t1 t2 f1 f2 r, tets [t1; t2] /\ In f1 (tet_faces t1) /\ In f2 (tet_faces t2) /\
  map ppoint f1 = map ppoint f2 /\ generator_surface_1 Bnum [t1; t2] = Ok r /\ In f1 r /\ In f2 r /\ length r = 8%nat.
Proof. exact L_C24_binary64_refuted. Qed.
Print Assumptions C24_binary64_refuted.

Example C24_hyps : tets [tetA; tetB] /\ Forall (fun t => NoDup (map ppoint t)) [tetA; tetB] /\
  forall f g, In f (all_faces [tetA; tetB]) -> In g (all_faces [tetA; tetB]) ->
    same_set (map ppoint f) (map ppoint g) \/ apart (pcentre f) (pcentre g).
Proof. exact E_C24_hyps. Qed.

Example C24_ex : exists r, generator_surface_1 Bnum [tetA; tetB] = Ok r /\ length r = 6%nat /\ ~ In [o6; x1; x2] r /\ length (all_faces [tetA; tetB]) = 8%nat.
Proof. exact E_C24_ex. Qed.

(** C25: the "unique" edges: one edge per midpoint.  [n2]: the number of vertices of the
    elements of the object (2: edges, 3: triangles, 4: tetrahedra). *)
Theorem C25_unique_edges : forall n2 o, (n2 = 2 \/ n2 = 3 \/ n2 = 4)%nat -> Forall (fun t => length t = n2 /\ goods 6 t) o ->
  exists r, generator_unique_edges Rnum n2 o = Ok r /\ incl r (edges_of n2 o) /\ NoDup (map pcentre r) /\
    (forall e, In e (edges_of n2 o) -> exists! u, In u r /\ pcentre u = pcentre e) /\
    (forall e, In e r -> exists i, nth_error (edges_of n2 o) i = Some e /\
       forall j g, (j < i)%nat -> nth_error (edges_of n2 o) j = Some g -> pcentre g <> pcentre e).
Proof. exact L_C25_unique_edges. Qed.
Print Assumptions C25_unique_edges.

Theorem C25_edge_lost_refuted : exists o e r, tets o /\ In e (edges_of 4 o) /\ generator_unique_edges Rnum 4 o = Ok r /\
  forall g, In g r -> ~ same_set (map ppoint e) (map ppoint g).
Proof. exact L_C25_edge_lost_refuted. Qed.
Print Assumptions C25_edge_lost_refuted.

(** In binary64 "one edge per midpoint" fails too: the same edge, with one end point written
    with other 6-d coordinates, is returned twice. *)
Theorem C25_binary64_refuted : exists e f r, Forall (fun t => length t = 2%nat /\ goods 6 t) [e; f] /\ map ppoint e = map ppoint f /\
  generator_unique_edges Bnum 2 [e; f] = Ok r /\ In e r /\ In f r.
Proof. exact L_C25_binary64_refuted. Qed.
Print Assumptions C25_binary64_refuted.

Example C25_ex : (exists r, generator_unique_edges Bnum 4 [tetA; tetB] = Ok r /\ length r = 9%nat) /\
  length (edges_of 4 [tetA; tetB]) = 12%nat /\ tets [tetA; tetB].
Proof. exact E_C25_ex. Qed.

(** C80: the "unique" triangles of two or more tetrahedra: one face per centre, the first
    in the list. *)
Theorem C80_unique_triangles : forall o, tets o -> length o <> 1%nat ->
  exists r, generator_unique_triangles Rnum o = Ok r /\ incl r (all_faces o) /\ NoDup (map pcentre r) /\
    (forall f, In f (all_faces o) -> exists! u, In u r /\ pcentre u = pcentre f) /\
    (forall f, In f r -> exists i, nth_error (all_faces o) i = Some f /\
       forall j g, (j < i)%nat -> nth_error (all_faces o) j = Some g -> pcentre g <> pcentre f).
Proof. exact L_C80_unique_triangles. Qed.
Print Assumptions C80_unique_triangles.

(** One tetrahedron: its four faces. *)
Theorem C80_single : forall N a b c d, generator_unique_triangles N [[a; b; c; d]] = Ok [[a;b;c]; [a;b;d]; [a;c;d]; [b;c;d]].
Proof. exact L_C80_single. Qed.
Print Assumptions C80_single.

(** When faces with equal centres have equal corners, every face is represented by exactly
    one triangle with the same corners. *)
Theorem C80_corners : forall o, tets o -> length o <> 1%nat -> Forall (fun t => NoDup (map ppoint t)) o ->
  (forall f g, In f (all_faces o) -> In g (all_faces o) -> pcentre f = pcentre g -> same_set (map ppoint f) (map ppoint g)) ->
  exists r, generator_unique_triangles Rnum o = Ok r /\ incl r (all_faces o) /\ NoDup r /\
    forall f, In f (all_faces o) -> exists! u, In u r /\ same_set (map ppoint u) (map ppoint f).
Proof. exact L_C80_corners. Qed.
Print Assumptions C80_corners.

Theorem C80_face_lost_refuted : exists o f r, tets o /\ Forall (fun t => NoDup (map ppoint t)) o /\ In f (all_faces o) /\ generator_unique_triangles Rnum o = Ok r /\
  forall g, In g r -> ~ same_set (map ppoint f) (map ppoint g).
Proof. exact L_C80_face_lost_refuted. Qed.
Print Assumptions C80_face_lost_refuted.

(** In binary64 the common face of two tetrahedra can be returned twice. *)
Theorem C80_binary64_refuted : exists t1 t2 f1 f2 r, tets [t1; t2] /\ In f1 (tet_faces t1) /\ In f2 (tet_faces t2) /\
  map ppoint f1 = map ppoint f2 /\ generator_unique_triangles Bnum [t1; t2] = Ok r /\ In f1 r /\ In f2 r.
Proof. exact L_C80_binary64_refuted. Qed.
Print Assumptions C80_binary64_refuted.

Example C80_ex : tets [tetA; tetB] /\ Forall (fun t => NoDup (map ppoint t)) [tetA; tetB] /\
  (forall f g, In f (all_faces [tetA; tetB]) -> In g (all_faces [tetA; tetB]) -> pcentre f = pcentre g -> same_set (map ppoint f) (map ppoint g)) /\
  exists r, generator_unique_triangles Bnum [tetA; tetB] = Ok r /\ length r = 7%nat.
Proof. exact E_C80_ex. Qed.

(** C27: the coplanar groups, for any test: every triangle in exactly one group, no group
    empty, each member tested coplanar with the first triangle of its group (which comes
    first in the surface), and not with the first triangle of any earlier group. *)
Theorem C27_partition : forall copl surface r, surface <> [] -> get_sets_of_coplanar_triangles copl surface = Ok r ->
  exists gs : list (list nat), Forall2 (Forall2 (fun i t => nth_error surface i = Some t)) gs r /\
    Permutation (concat gs) (seq 0 (length surface)) /\
    (forall g, In g gs -> exists h l, g = h :: l /\ forall i, In i l -> (h < i)%nat /\
       exists t u, nth_error surface i = Some t /\ nth_error surface h = Some u /\ copl i h t u = Ok true) /\
    (forall a b i h g' l, nth_error gs a = Some (h :: l) -> nth_error gs b = Some g' -> (a < b)%nat -> In i g' -> (h < i)%nat /\
       exists t u, nth_error surface i = Some t /\ nth_error surface h = Some u /\ copl i h t u = Ok false).
Proof. exact L_C27_partition. Qed.
Print Assumptions C27_partition.

(** It raises only if the test raises; an empty surface gives one empty group. *)
Theorem C27_total : forall copl surface,
  (forall i j t u, nth_error surface i = Some t -> nth_error surface j = Some u -> exists b, copl i j t u = Ok b) ->
  exists r, get_sets_of_coplanar_triangles copl surface = Ok r.
Proof. exact L_C27_total. Qed.
Print Assumptions C27_total.

Theorem C27_empty : forall copl, get_sets_of_coplanar_triangles copl [] = Ok [[]].
Proof. exact L_C27_empty. Qed.
Print Assumptions C27_empty.

Example C27_ex : exists a b c d, get_sets_of_coplanar_triangles (fun _ _ => coplanar_check_two_triangles Bnum [(0,1,2)%nat])
    [[o6; x1; x2]; [o6; x1; x4]; [x1; x2; iv [1;1;0;0;0;0]%Z]; [o6; x2; x4]] = Ok [[a; b]; [c]; [d]] /\ a = [o6; x1; x2] /\ b = [x1; x2; iv [1;1;0;0;0;0]%Z].
Proof. exact E_C27_ex. Qed.

(** C28: the merging loop terminates, for every list of segments and every merge function:
    more rounds than there are segments never change the outcome, and it has then finished. *)
Theorem C28_terminates : forall merge edges, exists out, out <> Ok None /\
  forall fuel, (length edges < fuel)%nat -> merge_segments merge fuel edges = out.
Proof. exact L_C28_terminates. Qed.
Print Assumptions C28_terminates.

(** What it returns is obtained from the input by replacing two segments by one, again and
    again, until no two segments (the earlier one first) can be merged. *)
Theorem C28_result : forall merge fuel edges r, merge_segments merge fuel edges = Ok (Some r) ->
  merged merge edges r /\ (length r <= length edges)%nat /\
  forall l1 e l2 f l3, r = l1 ++ e :: l2 ++ f :: l3 -> merge e f = Ok None.
Proof. exact L_C28_result. Qed.
Print Assumptions C28_result.

(** It raises only if the merge function does. *)
Theorem C28_total : forall (merge : vecs -> vecs -> res (option vecs)) (Q : vecs -> Prop) edges fuel, Forall Q edges ->
  (forall e f, Q e -> Q f -> exists o, merge e f = Ok o /\ forall a, o = Some a -> Q a) -> (length edges < fuel)%nat ->
  exists r, merge_segments merge fuel edges = Ok (Some r).
Proof. exact L_C28_total. Qed.
Print Assumptions C28_total.

(** Merging two segments: with the answer of the point-on-segment test taken as given, in
    any arithmetic, two segments become one exactly if they share an end point and the test
    puts it on the segment between the two other ends, which are the ends of the new one. *)
Theorem C28_two_segments : forall N s1 s2, length s1 = 2%nat -> length s2 = 2%nat -> goods 6 s1 -> goods 6 s2 ->
  exists o, two_segment_into_one N s1 s2 = Ok o /\
    match o with
    | Some s => exists p q p' r, ends s1 p q /\ ends s2 p' r /\ ppoint p = ppoint p' /\ point_on_segment N p [q; r] = Ok true /\ s = [q; r]
    | None => forall p q p' r, ends s1 p q -> ends s2 p' r -> ppoint p = ppoint p' -> point_on_segment N p [q; r] = Ok false
    end.
Proof. exact L_C28_two_segments. Qed.
Print Assumptions C28_two_segments.

(** The point-on-segment test in exact arithmetic: a point of a segment with different ends
    passes; a point that passes lies within 0.0015 of the segment. *)
Theorem C28_on_segment : forall p a b, length p = 6%nat -> length a = 6%nat -> length b = 6%nat ->
  exists on, point_on_segment Rnum p [a; b] = Ok on /\
    (pp a <> pp b -> hull [pp a; pp b] (pp p) -> on = true) /\
    (on = true -> pp a <> pp b /\ exists h, hull [pp a; pp b] h /\ dist3 (pp p) h < 3/2000).
Proof. exact L_C28_on_segment. Qed.
Print Assumptions C28_on_segment.

(** Hence in exact arithmetic two collinear segments with a common end point between the
    others are merged ... *)
Theorem C28_collinear_merged : forall p q p' r, goods 6 [p; q; p'; r] -> ppoint p = ppoint p' -> pp q <> pp r -> hull [pp q; pp r] (pp p) ->
  forall s1 s2, ends s1 p q -> ends s2 p' r -> exists s, two_segment_into_one Rnum s1 s2 = Ok (Some s).
Proof. exact L_C28_collinear_merged. Qed.
Print Assumptions C28_collinear_merged.

Theorem C28_not_collinear_refuted : exists p q r, goods 6 [p; q; r] /\ two_segment_into_one Bnum [q; p] [p; r] = Ok (Some [q; r]) /\
  cross3 (sub3 (pp p) (pp q)) (sub3 (pp r) (pp q)) <> o3.
Proof. exact L_C28_not_collinear_refuted. Qed.
Print Assumptions C28_not_collinear_refuted.

(** Every end point that remains is an end point of an input segment. *)
Theorem C28_endpoints : forall N fuel edges r, merge_segments (two_segment_into_one N) fuel edges = Ok (Some r) -> incl (concat r) (concat edges).
Proof. exact L_C28_endpoints. Qed.
Print Assumptions C28_endpoints.

Example C28_ex : merge_segments (two_segment_into_one Bnum) 4 [[o6; x1]; [x2; x4]; [x1; iv [2;0;0;0;0;0]%Z]] = Ok (Some [[x2; x4]; [o6; iv [2;0;0;0;0;0]%Z]]) /\
  goods 6 [x1; o6; x1; iv [2;0;0;0;0;0]%Z] /\ hull [pp o6; pp (iv [2;0;0;0;0;0]%Z)] (pp x1) /\ pp o6 <> pp (iv [2;0;0;0;0;0]%Z).
Proof. exact E_C28_ex. Qed.

(** C57: border edges of a set of triangles, in any arithmetic: every edge returned is an
    edge of a triangle, and exactly one triangle has it. *)
Theorem C57_border : forall N ts r, Forall (fun t => length t = 3%nat /\ goods 6 t /\ NoDup (map ppoint t)) ts ->
  gen_border_edges_of_coplanar_triangles N ts = Ok r -> forall e, In e r -> In e (edges_of 3 ts) /\ once e (edges_of 3 ts).
Proof. exact L_C57_border. Qed.
Print Assumptions C57_border.

(** In exact arithmetic every such edge is returned, provided no other edge crosses it at
    its midpoint. *)
Theorem C57_border_complete : forall ts, Forall (fun t => length t = 3%nat /\ goods 6 t /\ NoDup (map ppoint t)) ts ->
  exists r, gen_border_edges_of_coplanar_triangles Rnum ts = Ok r /\
    forall e, In e (edges_of 3 ts) -> once e (edges_of 3 ts) ->
      (forall g, In g (edges_of 3 ts) -> pcentre g = pcentre e -> same_set (map ppoint e) (map ppoint g)) -> In e r.
Proof. exact L_C57_border_complete. Qed.
Print Assumptions C57_border_complete.

Example C57_ex : exists r, gen_border_edges_of_coplanar_triangles Bnum [[o6; x1; x2]; [x1; x2; iv [1;1;0;0;0;0]%Z]] = Ok r /\ length r = 4%nat /\ ~ In [x1; x2] r.
Proof. exact E_C57_ex. Qed.

(** C58: the convex hull of an object, in any arithmetic, for any triangulation and any
    random samples: all vertices of the result are vertices of the object, and no
    tetrahedron of it is flat. *)
Theorem C58_vertices : forall N delaunay draws o r, tets o -> generate_convex_hull N delaunay draws o = Ok (Some r) ->
  tets r /\ incl (concat r) (concat o) /\ r <> [] /\ forall t, In t r -> pvol t <> 0.
Proof. exact L_C58_vertices. Qed.
Print Assumptions C58_vertices.

Example C58_ex : generate_convex_hull Bnum (fun _ => Some [(0,1,2,3)]%nat) (fun _ _ => [(0,1,2)%nat]) [tetA] = Ok (Some [[x2; o6; x4; x1]]) /\ tets [tetA].
Proof. exact E_C58_ex. Qed.
