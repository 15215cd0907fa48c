(** generate_border_edges() of ico2 on the machine: the functions of IcoSurface.v that join
    border edges, with the int64 arithmetic of Machine.v and any [num] for the floating-point
    tests ([Bmath la] on the machine).  Loops without arithmetic
    ([get_sets_of_coplanar_triangles], [merge_segments]) are those of IcoSurface.v. *)
From Coq Require Import List ZArith Bool Arith.
From Verif Require Import Base.Res Model.Tau Model.Arr Model.Num Model.IcoNumeric Model.IcoDedup Model.IcoIntersect Model.IcoSurface
  Model.MachineInter Model.MachineDedup Model.MachineBorder.
Import ListNotations.
Local Open Scope res_scope.

Section Edges.
Variable N : num.

(** ico2/utils.py:1049-1069; a None from the coplanarity check counts as False. *)
Definition m_coplanar_check_two_triangles (draws : list (nat * nat * nat)) (t1 t2 : vecs) : res bool :=
  vtx <- m_remove_doubling_in_perp_space (A3 (t1 ++ t2)) ;;
  c <- coplanar_check_numeric_tau N draws vtx ;;
  Ok (match c with Some b => b | None => false end).

(** ico2/utils.py:1019-1047 *)
Fixpoint m_first_merge (l : list (vec * vec * vec * vec)) : res (option vecs) :=
  match l with
  | [] => Ok None
  | (e1a, e1b, e2a, e2b) :: r =>
      b <- m_equivalent_vertices e1a e2a ;;
      if b then on <- point_on_segment N e1a [e1b; e2b] ;;
                if on then Ok (Some [e1b; e2b]) else m_first_merge r
      else m_first_merge r
  end.
Definition m_two_segment_into_one (s1 s2 : vecs) : res (option vecs) :=
  a <- get s1 0 ;; b <- get s1 1 ;; c <- get s2 0 ;; d <- get s2 1 ;;
  m_first_merge [(a, b, c, d); (a, b, d, c); (b, a, c, d); (b, a, d, c)].

(** The random samples drawn when triangles i and j are compared. *)
Variable draws : nat -> nat -> list (nat * nat * nat).

(** ico2/utils.py:540-605, as [surface_cleaner] *)
Definition m_all_borders (sets : list obj4) : res obj4 :=
  bs <- mapM (fun s => b <- m_gen_border_edges_of_coplanar_triangles N s ;;
                match b with [] => Raise ValueError | _ => Ok b end) sets ;;
  Ok (concat bs).
Definition m_surface_edges (surface : obj4) : res obj4 :=
  sets <- get_sets_of_coplanar_triangles (fun i j => m_coplanar_check_two_triangles (draws i j)) surface ;;
  es <- m_all_borders sets ;;
  m_generator_unique_edges N 2 es.
Definition m_surface_cleaner (surface : obj4) : res obj4 :=
  edges <- m_surface_edges surface ;;
  m <- merge_segments m_two_segment_into_one (S (length edges)) edges ;;
  notNone m.
(** ico2/occupation_domain.py:1156-1171 *)
Definition m_generate_border_edges (o : obj4) : res obj4 :=
  s <- m_generator_surface_1 N o ;; m_surface_cleaner s.
End Edges.
