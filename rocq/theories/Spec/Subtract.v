(** What subtraction of an object from a tetrahedron is expected to do. *)
From Coq Require Import Reals List ZArith Permutation.
From Verif Require Import Base.Res Model.Tau Model.Arr Model.Num Model.IcoNumeric Spec.RVec Spec.IcoSpec Spec.Convex.
Import ListNotations.
Local Open Scope R_scope.

(** The numerical test places v in no tetrahedron of o; in some tetrahedron of o. *)
Definition outside_obj (N : num) (o : obj4) (v : vec) : Prop := forall u, In u o -> inside_outside_tetrahedron_tau N v u = Ok false.
Definition in_obj (N : num) (o : obj4) (v : vec) : Prop := exists u, In u o /\ inside_outside_tetrahedron_tau N v u = Ok true.
(** The numerical test places v on some triangle of s. *)
Definition on_skin (N : num) (s : obj4) (v : vec) : Prop := exists f, In f s /\ on_out_surface N v f = Ok true.
(** Exactly one vertex of t, namely v, is outside o. *)
Definition one_out (N : num) (o : obj4) (t : vecs) (v : vec) : Prop :=
  exists l1 l2, t = l1 ++ v :: l2 /\ outside_obj N o v /\ forall w, In w (l1 ++ l2) -> in_obj N o w.

(** Sum of the volumes in perpendicular space. *)
Definition total (o : obj4) : R := Rsum (map pvol o).

(** np.argsort returns the positions in some order of increasing value; only that it is a
    permutation of the positions is used. *)
Definition permutes {A} (argsort : list A -> list nat) : Prop := forall l, Permutation (argsort l) (seq 0 (length l)).

(** For the Examples: insertion sort, a tetrahedron, and a smaller one with the same base;
    a large tetrahedron that cuts off one corner of tetP, and that corner. *)
Section A.
Variable N : num.
Fixpoint insert (x : F N * nat) (l : list (F N * nat)) : list (F N * nat) :=
  match l with [] => [x] | y :: r => if flt N (fst x) (fst y) then x :: l else y :: insert x r end.
Definition by_value (l : list (F N)) : list nat := map snd (fold_right insert [] (combine l (seq 0 (length l)))).
End A.
Definition tetQ : vecs := [at3 1 0 0 0; at3 1 (-1) 0 0; at3 1 0 1 0; at3 1 0 0 1].
Definition tetW : vecs := [at3 1 (-1) 0 0; at3 1 0 1 0; at3 1 0 0 1; at3 16 (-1) 2 3].
Definition tetB : vecs := [at3 2 5 (-2) (-2); at3 2 (-2) 5 (-2); at3 2 (-2) (-2) 5; at3 1 2 2 2].
Definition tip : vecs := let h := T 1 0 2 in let z := T 0 0 1 in [[z; z; z; z; z; z]; [z; h; z; z; z; z]; [z; z; z; h; z; z]; [h; z; z; z; z; z]].
