(** Sorting of sets of vectors: ico2/utils.py:783-827, dode2/utils.py:536-577. *)
From Coq Require Import List Arith.
From Verif Require Import Base.Res Model.Tau Model.Arr Model.Num Model.IcoNumeric Model.DodeIntersect.
Import ListNotations.
Local Open Scope res_scope.

(** [argsort] is numpy's argsort of one column (the default algorithm is not stable, so ties
    may come in any order).  The unpacking of vts.shape fails unless vts is a set of vectors.
    [internal]: get_internal_component_numerical of the package; only the first column of
    the argsort along axis 0 is read. *)
Definition sort_vctors_ (N : num) (internal : vec -> res (pt N)) (argsort : list (F N) -> list nat) (vts : arr) : res vecs :=
  match vts with
  | A3 vs =>
      vns <- mapM internal vs ;;
      let tmp := argsort (map (fun '(x, _, _) => x) vns) in
      mapM (fun i => k <- get tmp i ;; get vs k) (seq 0 (length vs))
  | _ => Raise ValueError
  end.
(** ico2/utils.py:786-801 *)
Definition sort_vctors (N : num) := sort_vctors_ N (internal N).
(** dode2/utils.py:539-553 *)
Definition dsort_vctors (N : num) := sort_vctors_ N (dinternal N).
