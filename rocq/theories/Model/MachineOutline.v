(** outline() of dode2 on the machine: the functions of DodeSurface.v that join border edges,
    with the int64 arithmetic of Machine.v and any [num] for the floating-point tests
    ([Bmath la] on the machine).  Loops without arithmetic ([get_sets_of_coplanar_triangles],
    [merge_segments]) are those of IcoSurface.v. *)
From Coq Require Import List ZArith Bool Arith.
From Verif Require Import Base.Res Model.Tau Model.Arr Model.Num Model.IcoDedup Model.IcoSurface Model.DodeIntersect Model.Numeric2 Model.DodeSurface
  Model.MachineDodeInter Model.MachineDedup Model.MachineBorder.
Import ListNotations.
Local Open Scope res_scope.

Section Outline.
Variable N : num.

(** dode2/utils.py:772-790 *)
Definition md_coplanar_check_two_triangles (draws : list (nat * nat * nat)) (t1 t2 : vecs) : res bool :=
  vtx <- md_remove_doubling_in_perp_space (A3 (t1 ++ t2)) ;;
  c <- dcoplanar_check_numeric_tau N draws vtx ;;
  Ok (match c with Some b => b | None => false end).

(** dode2/utils.py:742-770 *)
Fixpoint md_first_merge (l : list (vec * vec * vec * vec)) : res (option vecs) :=
  match l with
  | [] => Ok None
  | (e1a, e1b, e2a, e2b) :: r =>
      b <- md_equivalent_vertices e1a e2a ;;
      if b then on <- dpoint_on_segment N e1a [e1b; e2b] ;;
                if on then Ok (Some [e1b; e2b]) else md_first_merge r
      else md_first_merge r
  end.
Definition md_two_segment_into_one (s1 s2 : vecs) : res (option vecs) :=
  a <- get s1 0 ;; b <- get s1 1 ;; c <- get s2 0 ;; d <- get s2 1 ;;
  md_first_merge [(a, b, c, d); (a, b, d, c); (b, a, c, d); (b, a, d, c)].

(** The random samples drawn when triangles i and j are compared. *)
Variable draws : nat -> nat -> list (nat * nat * nat).

(** dode2/utils.py:327-392, as [dsurface_cleaner] *)
Definition md_all_borders (sets : list obj4) : res obj4 :=
  bs <- mapM (fun s => b <- md_gen_border_edges_of_coplanar_triangles N s ;;
                match b with [] => Raise ValueError | _ => Ok b end) sets ;;
  Ok (concat bs).
Definition md_surface_edges (surface : obj4) : res obj4 :=
  sets <- get_sets_of_coplanar_triangles (fun i j => md_coplanar_check_two_triangles (draws i j)) surface ;;
  es <- md_all_borders sets ;;
  md_generator_unique_edges N 2 es.
Definition md_surface_cleaner (surface : obj4) : res obj4 :=
  edges <- md_surface_edges surface ;;
  m <- merge_segments md_two_segment_into_one (S (length edges)) edges ;;
  notNone m.
(** dode2/occupation_domain.py:1139-1152 *)
Definition md_outline (o : obj4) : res obj4 := md_surface_cleaner o.
End Outline.
