(** Border edges of sets of triangles on the machine: IcoSurface.v and DodeSurface.v with the
    int64 arithmetic of Machine.v; midpoints are compared in floating point, any [num]. *)
From Coq Require Import List ZArith Bool Arith.
From Verif Require Import Base.Res Model.Tau Model.Arr Model.Machine Model.Num Model.IcoDedup Model.DodeDedup Model.IcoSurface Model.DodeIntersect Model.MachineInter Model.MachineDodeInter Model.MachineDedup.
Import ListNotations.
Local Open Scope res_scope.

(** ico2/utils.py:644-668.  Numbers of edges of [edges] with the same two end points as edge1,
    counted up to 2. *)
Fixpoint m_count_same (e1 : vecs) (edges : obj4) (counter : nat) : res nat :=
  match edges with
  | [] => Ok counter
  | e2 :: r => tmp <- m_remove_doubling_in_perp_space (A3 (e1 ++ e2)) ;;
      if length tmp =? 2 then
        if S counter =? 2 then Ok 2%nat else m_count_same e1 r (S counter)
      else m_count_same e1 r counter
  end.
Fixpoint m_border (us edges : obj4) : res obj4 :=
  match us with
  | [] => Ok []
  | e :: us => n <- m_count_same e edges 0 ;; r <- m_border us edges ;;
      Ok (if n =? 1 then e :: r else r)
  end.
Definition m_gen_border_edges_of_coplanar_triangles (N : num) (ts : obj4) : res obj4 :=
  us <- m_generator_unique_edges N 3 ts ;;
  e <- generator_all_edges 3 ts ;; edges <- notNone e ;;
  m_border us edges.

(** dode2/utils.py:431-455 *)
Fixpoint md_count_same (e1 : vecs) (edges : obj4) (counter : nat) : res nat :=
  match edges with
  | [] => Ok counter
  | e2 :: r => tmp <- md_remove_doubling_in_perp_space (A3 (e1 ++ e2)) ;;
      if length tmp =? 2 then
        if S counter =? 2 then Ok 2%nat else md_count_same e1 r (S counter)
      else md_count_same e1 r counter
  end.
Fixpoint md_border (us edges : obj4) : res obj4 :=
  match us with
  | [] => Ok []
  | e :: us => n <- md_count_same e edges 0 ;; r <- md_border us edges ;;
      Ok (if n =? 1 then e :: r else r)
  end.
Definition md_gen_border_edges_of_coplanar_triangles (N : num) (ts : obj4) : res obj4 :=
  us <- md_generator_unique_edges N 3 ts ;;
  e <- dgenerator_all_edges 3 ts ;; edges <- notNone e ;;
  md_border us edges.
