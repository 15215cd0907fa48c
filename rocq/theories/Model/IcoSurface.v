(** ico2/utils.py: surfaces, unique triangles and edges, coplanar groups, border
    edges, merging of edges, convex hull.  Floats over any [num]. *)
From Coq Require Import List ZArith Bool Arith.
From Verif Require Import Base.Res Model.Tau Model.Arr Model.Vectors Model.IcoMath1 Model.Unique Model.IcoDedup Model.Num Model.IcoNumeric
  Model.IcoIntersect.
Import ListNotations.
Local Open Scope res_scope.

Section Surface.
Variable N : num.
Let F := F N.
Let pt := pt N.

(** np.allclose(x,y) for two arrays of shape (3,): |x-y| <= 1e-8 + 1e-5*|y| in every
    component.  inf and nan are not considered. *)
Definition close1 (x y : F) : bool :=
  fle N (fabs N (fsub N x y)) (fadd N (f1e8 N) (fmul N (f1e5 N) (fabs N y))).
Definition allclose (p q : pt) : bool :=
  let '(a, b, c) := p in let '(a', b', c') := q in close1 a a' && close1 b b' && close1 c c'.

(** Order of rows of three floats: by x, then y, then z. *)
Definition cmpF (x y : F) : comparison := if flt N x y then Lt else if flt N y x then Gt else Eq.
Definition cmp_pt (p q : pt) : comparison :=
  let '(a, b, c) := p in let '(a', b', c') := q in cmp_lex cmpF [a; b; c] [a'; b'; c'].

(** The projected centroid of a triangle or an edge (utils.py:247-250, 351-354, 451-454). *)
Definition centre (t : vecs) : res pt := c <- centroid t ;; internal N c.

(** utils.py:283-307: [l] is the sorted array xyz[indx_xyz]; the elements that are close to
    neither neighbour are kept.  One element alone: IndexError at line 290. *)
Definition next_close (p : pt) (l : list (pt * nat)) : bool :=
  match l with [] => false | y :: _ => allclose p (fst y) end.
Fixpoint lonely_tail (p : pt) (l : list (pt * nat)) : list nat :=
  match l with
  | [] => []
  | x :: r => let rest := lonely_tail (fst x) r in
      if allclose (fst x) p || next_close (fst x) r then rest else snd x :: rest
  end.
Definition lonely (l : list (pt * nat)) : res (list nat) :=
  match l with
  | [] | [_] => Raise IndexError
  | x :: r => let rest := lonely_tail (fst x) r in
      Ok (if next_close (fst x) r then rest else snd x :: rest)
  end.

(** utils.py:203-322 *)
Definition generator_surface_1 (o : obj4) : res obj4 :=
  ts <- mapM get_tetrahedron_surface o ;;
  let triangles := concat ts in
  if length o =? 1 then Ok triangles else
  xyz <- mapM centre triangles ;;
  lst <- lonely (sort cmp_pt (indexed xyz)) ;;
  mapM (get triangles) lst.

(** utils.py:324-366 *)
Definition generator_unique_triangles (o : obj4) : res obj4 :=
  ts <- mapM get_tetrahedron_surface o ;;
  let triangles := concat ts in
  if length o =? 1 then Ok triangles else
  a <- mapM centre triangles ;;
  mapM (get triangles) (unique_index cmp_pt a).

(** utils.py:430-462.  n2: second entry of obj.shape; other values leave `edges` unbound. *)
Definition generator_unique_edges (n2 : nat) (o : obj4) : res obj4 :=
  edges <- (if n2 =? 3 then e <- generator_all_edges n2 o ;; notNone e
            else if n2 =? 2 then Ok o
            else if n2 =? 4 then e <- generator_all_edges n2 o ;; notNone e
            else Raise UnboundLocalError) ;;
  a <- mapM centre edges ;;
  mapM (get edges) (unique_index cmp_pt a).

(** utils.py:1049-1069; a None from the coplanarity check counts as False. *)
Definition coplanar_check_two_triangles (draws : list (nat * nat * nat)) (t1 t2 : vecs) : res bool :=
  vtx <- remove_doubling_in_perp_space (A3 (t1 ++ t2)) ;;
  c <- coplanar_check_numeric_tau N draws vtx ;;
  Ok (match c with Some b => b | None => false end).

(** utils.py:644-668.  Numbers of edges of [edges] with the same two end points as edge1,
    counted up to 2. *)
Fixpoint count_same (e1 : vecs) (edges : obj4) (counter : nat) : res nat :=
  match edges with
  | [] => Ok counter
  | e2 :: r => tmp <- remove_doubling_in_perp_space (A3 (e1 ++ e2)) ;;
      if length tmp =? 2 then
        if S counter =? 2 then Ok 2%nat else count_same e1 r (S counter)
      else count_same e1 r counter
  end.
Fixpoint border (us edges : obj4) : res obj4 :=
  match us with
  | [] => Ok []
  | e :: us => n <- count_same e edges 0 ;; r <- border us edges ;;
      Ok (if n =? 1 then e :: r else r)
  end.
Definition gen_border_edges_of_coplanar_triangles (ts : obj4) : res obj4 :=
  us <- generator_unique_edges 3 ts ;;
  e <- generator_all_edges 3 ts ;; edges <- notNone e ;;
  border us edges.

(** utils.py:1019-1047 *)
Fixpoint first_merge (l : list (vec * vec * vec * vec)) : res (option vecs) :=
  match l with
  | [] => Ok None
  | (e1a, e1b, e2a, e2b) :: r =>
      b <- equivalent_vertices e1a e2a ;;
      if b then on <- point_on_segment N e1a [e1b; e2b] ;;
                if on then Ok (Some [e1b; e2b]) else first_merge r
      else first_merge r
  end.
Definition two_segment_into_one (s1 s2 : vecs) : res (option vecs) :=
  a <- get s1 0 ;; b <- get s1 1 ;; c <- get s2 0 ;; d <- get s2 1 ;;
  first_merge [(a, b, c, d); (a, b, d, c); (b, a, c, d); (b, a, d, c)].
End Surface.

(** utils.py:607-642, over any test; [copl i j t u] is the outcome of the call for the
    triangles t and u with indices i and j (the test draws random samples). *)
Section Groups.
Variable copl : nat -> nat -> vecs -> vecs -> res bool.
Variable surface : obj4.

Fixpoint find_group (i1 : nat) (groups : list nat) : res (option nat) :=
  match groups with
  | [] => Ok None
  | i2 :: r => t <- get surface i1 ;; u <- get surface i2 ;;
      b <- copl i1 i2 t u ;; if b then Ok (Some i2) else find_group i1 r
  end.
Definition group_step (st : list nat * list nat) (i1 : nat) : res (list nat * list nat) :=
  let '(groups, labels) := st in
  g <- find_group i1 groups ;;
  match g with
  | None => Ok (groups ++ [i1], labels ++ [i1])
  | Some i2 => Ok (groups, labels ++ [i2])
  end.
Definition get_sets_of_coplanar_triangles : res (list obj4) :=
  st <- foldM group_step ([0%nat], [0%nat]) (seq 1 (length surface - 1)) ;;
  let '(groups, labels) := st in
  Ok (map (fun i1 => map snd (filter (fun p => i1 =? fst p) (combine labels surface))) groups).
End Groups.

(** itertools.combinations(l,2) *)
Fixpoint pairs {A} (l : list A) : list (A * A) :=
  match l with [] => [] | x :: r => map (fun y => (x, y)) r ++ pairs r end.

(** utils.py:569-604, the while loop, over any merge function.  [fuel] bounds the number of
    rounds; None means the loop is still running. *)
Section Merge.
Variable merge : vecs -> vecs -> res (option vecs).

Fixpoint find_merge (edges : obj4) (l : list (nat * nat)) : res (option (nat * nat * vecs)) :=
  match l with
  | [] => Ok None
  | (i, j) :: r => e <- get edges i ;; f <- get edges j ;; m <- merge e f ;;
      match m with None => find_merge edges r | Some a => Ok (Some (i, j, a)) end
  end.
Fixpoint merge_loop (fuel : nat) (edges : obj4) (lst : list nat) : res (option obj4) :=
  match fuel with
  | 0%nat => Ok None
  | S fuel =>
      m <- find_merge edges (pairs lst) ;;
      match m with
      | Some (i, j, a) =>
          merge_loop fuel (edges ++ [a]) (filter (fun x => negb (existsb (Nat.eqb x) [i; j])) lst ++ [length edges])
      | None => out <- mapM (get edges) lst ;; Ok (Some out)
      end
  end.
Definition merge_segments (fuel : nat) (edges : obj4) : res (option obj4) :=
  merge_loop fuel edges (seq 0 (length edges)).
End Merge.

Section Cleaner.
Variable N : num.
Variable delaunay : list (list (F N)) -> option (list simplex).
Variable draws : nat -> nat -> list (nat * nat * nat).

(** utils.py:540-605.  A group without border edges is an array of shape (0,), which
    np.vstack or generator_unique_edges rejects. *)
Definition all_borders (sets : list obj4) : res obj4 :=
  bs <- mapM (fun s => b <- gen_border_edges_of_coplanar_triangles N s ;;
                match b with [] => Raise ValueError | _ => Ok b end) sets ;;
  Ok (concat bs).
Definition surface_edges (surface : obj4) : res obj4 :=
  sets <- get_sets_of_coplanar_triangles (fun i j => coplanar_check_two_triangles N (draws i j)) surface ;;
  es <- all_borders sets ;;
  generator_unique_edges N 2 es.
(** The loop ends after at most as many rounds as there are edges (theorem C28_terminates),
    so the bound, and notNone, never matter. *)
Definition surface_cleaner (surface : obj4) : res obj4 :=
  edges <- surface_edges surface ;;
  m <- merge_segments (two_segment_into_one N) (S (length edges)) edges ;;
  notNone m.

(** utils.py:512-538 *)
Definition generate_convex_hull (o : obj4) : res (option obj4) :=
  s <- generator_surface_1 N o ;;
  es <- surface_cleaner s ;;
  vts <- remove_doubling_in_perp_space (A4 es) ;;
  tetrahedralization_points N delaunay vts.
End Cleaner.
