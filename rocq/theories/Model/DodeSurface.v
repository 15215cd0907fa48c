(** dode2/utils.py and dode2/occupation_domain.py: coplanar groups, border edges, outline
    and convex hull.  Floats over any [num]; scipy's Delaunay is an argument.
    get_sets_of_coplanar_triangles (dode2/utils.py:394-429), the while loop of
    surface_cleaner (354-390) and itertools.combinations have the same text as in
    ico2/utils.py and use no scalar arithmetic: [get_sets_of_coplanar_triangles],
    [merge_segments] and [pairs] of Model/IcoSurface.v are reused for them. *)
From Coq Require Import List ZArith Bool Arith.
From Verif Require Import Base.Res Model.Tau Model.Arr Model.DodeScalar Model.Vectors Model.DodeMath1 Model.Num
  Model.IcoNumeric Model.DodeNumeric Model.DodeArea Model.Unique Model.IcoDedup Model.DodeDedup Model.IcoIntersect Model.IcoSurface
  Model.DodeIntersect Model.Numeric2 Model.Simplify Model.Absent.
Import ListNotations.
Local Open Scope res_scope.

Section DSurface.
Variable N : num.

(** dode2/utils.py:772-790; a None from the coplanarity check counts as False. *)
Definition dcoplanar_check_two_triangles (draws : list (nat * nat * nat)) (t1 t2 : vecs) : res bool :=
  vtx <- dremove_doubling_in_perp_space (A3 (t1 ++ t2)) ;;
  c <- dcoplanar_check_numeric_tau N draws vtx ;;
  Ok (match c with Some b => b | None => false end).

(** dode2/utils.py:431-455.  Numbers of edges of [edges] with the same two end points as
    edge1, counted up to 2. *)
Fixpoint dcount_same (e1 : vecs) (edges : obj4) (counter : nat) : res nat :=
  match edges with
  | [] => Ok counter
  | e2 :: r => tmp <- dremove_doubling_in_perp_space (A3 (e1 ++ e2)) ;;
      if length tmp =? 2 then
        if S counter =? 2 then Ok 2%nat else dcount_same e1 r (S counter)
      else dcount_same e1 r counter
  end.
Fixpoint dborder (us edges : obj4) : res obj4 :=
  match us with
  | [] => Ok []
  | e :: us => n <- dcount_same e edges 0 ;; r <- dborder us edges ;;
      Ok (if n =? 1 then e :: r else r)
  end.
Definition dgen_border_edges_of_coplanar_triangles (ts : obj4) : res obj4 :=
  us <- dgenerator_unique_edges N 3 ts ;;
  e <- dgenerator_all_edges 3 ts ;; edges <- notNone e ;;
  dborder us edges.

(** dode2/utils.py:742-770 *)
Fixpoint dfirst_merge (l : list (vec * vec * vec * vec)) : res (option vecs) :=
  match l with
  | [] => Ok None
  | (e1a, e1b, e2a, e2b) :: r =>
      b <- dequivalent_vertices e1a e2a ;;
      if b then on <- dpoint_on_segment N e1a [e1b; e2b] ;;
                if on then Ok (Some [e1b; e2b]) else dfirst_merge r
      else dfirst_merge r
  end.
Definition dtwo_segment_into_one (s1 s2 : vecs) : res (option vecs) :=
  a <- get s1 0 ;; b <- get s1 1 ;; c <- get s2 0 ;; d <- get s2 1 ;;
  dfirst_merge [(a, b, c, d); (a, b, d, c); (b, a, c, d); (b, a, d, c)].
End DSurface.

Section DCleaner.
Variable N : num.
Variable delaunay : list (list (F N)) -> option (list (nat * nat * nat)).
(** The random samples drawn when triangles i and j are compared. *)
Variable draws : nat -> nat -> list (nat * nat * nat).

(** dode2/utils.py:327-392.  A group without border edges is an array of shape (0,), which
    np.vstack or generator_unique_edges rejects (ValueError). *)
Definition dall_borders (sets : list obj4) : res obj4 :=
  bs <- mapM (fun s => b <- dgen_border_edges_of_coplanar_triangles N s ;;
                match b with [] => Raise ValueError | _ => Ok b end) sets ;;
  Ok (concat bs).
Definition dsurface_edges (surface : obj4) : res obj4 :=
  sets <- get_sets_of_coplanar_triangles (fun i j => dcoplanar_check_two_triangles N (draws i j)) surface ;;
  es <- dall_borders sets ;;
  dgenerator_unique_edges N 2 es.
(** The loop ends after at most as many rounds as there are edges (theorem C28_terminates),
    so the bound, and notNone, never matter. *)
Definition dsurface_cleaner (surface : obj4) : res obj4 :=
  edges <- dsurface_edges surface ;;
  m <- merge_segments (dtwo_segment_into_one N) (S (length edges)) edges ;;
  notNone m.

(** dode2/occupation_domain.py:1139-1152 *)
Definition doutline (o : obj4) : res obj4 := dsurface_cleaner o.
(** dode2/occupation_domain.py:1122-1137: utils.generator_surface_1 does not exist in
    dode2; [surface1] is that attribute. *)
Definition dgenerate_border_edges (surface1 : option (obj4 -> res obj4)) (o : obj4) : res obj4 :=
  f <- attribute surface1 ;; s <- f o ;; dsurface_cleaner s.

(** dode2/utils.py:298-325 *)
Definition dgenerate_convex_hull (o : obj4) : res (option obj4) :=
  es <- dsurface_cleaner o ;;
  vts <- dremove_doubling_in_perp_space (A4 es) ;;
  triangulation_points N delaunay vts.

(** dode2/occupation_domain.py:1084-1120 with the hull and intersection of dode2 *)
Definition dsimplification : option obj4 -> res (option obj4) :=
  simplification_ obj_area_6d dgenerate_convex_hull (dintersection_two_obj_1 N delaunay false).
End DCleaner.

(** ico2/occupation_domain.py:1156-1171 (no outline() in ico2) *)
Definition generate_border_edges (N : num) (draws : nat -> nat -> list (nat * nat * nat)) (o : obj4) : res obj4 :=
  s <- generator_surface_1 N o ;; surface_cleaner N draws s.
