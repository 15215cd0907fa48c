(** numpy's sorting primitives used by the packages: np.unique(axis=0) with and
    without return_index, np.lexsort.  Simplification: a stable insertion sort
    stands for numpy's stable merge sort (the results are the same list); nan
    keys are not considered. *)
From Coq Require Import List ZArith.
From Verif Require Import Model.Tau Model.Arr.
Import ListNotations.

(** Lexicographic comparison of rows. *)
Fixpoint cmp_lex {A} (cmp : A -> A -> comparison) (l l' : list A) : comparison :=
  match l, l' with
  | [], [] => Eq
  | [], _ :: _ => Lt
  | _ :: _, [] => Gt
  | x :: r, y :: r' => match cmp x y with Eq => cmp_lex cmp r r' | c => c end
  end.

(** A row of an int64 array of shape (n,...,3), flattened. *)
Definition flat (v : vec) : list Z := flat_map (fun t => [ta t; tb t; tc t]) v.
Definition cmp_vec (u v : vec) : comparison := cmp_lex Z.compare (flat u) (flat v).

Section Unique.
  Context {K : Type} (cmp : K -> K -> comparison).

  (** Stable insertion of an element that comes before those of l. *)
  Fixpoint insert (x : K * nat) (l : list (K * nat)) : list (K * nat) :=
    match l with
    | [] => [x]
    | y :: r => match cmp (fst x) (fst y) with Gt => y :: insert x r | _ => x :: l end
    end.
  Definition sort (l : list (K * nat)) : list (K * nat) := fold_right insert [] l.

  (** aux[1:] != aux[:-1] *)
  Fixpoint runs (p : K) (l : list (K * nat)) : list (K * nat) :=
    match l with
    | [] => []
    | x :: r => match cmp p (fst x) with Eq => runs (fst x) r | _ => x :: runs (fst x) r end
    end.
  Definition heads (l : list (K * nat)) : list (K * nat) :=
    match l with [] => [] | x :: r => x :: runs (fst x) r end.

  Definition indexed (ks : list K) : list (K * nat) := combine ks (seq 0 (length ks)).

  (** np.argsort(kind='stable') / np.lexsort *)
  Definition argsort (ks : list K) : list nat := map snd (sort (indexed ks)).
  (** np.unique(ks,axis=0) *)
  Definition unique (ks : list K) : list K := map fst (heads (sort (indexed ks))).
  (** np.unique(ks,return_index=True,axis=0)[1] *)
  Definition unique_index (ks : list K) : list nat := map snd (heads (sort (indexed ks))).
End Unique.
