(** What a correct argsort does. *)
From Coq Require Import Reals List Arith Permutation Bool.
From Verif Require Import Model.Tau Model.Arr Spec.IcoSpec Spec.DodeSpec Spec.Space.
Import ListNotations.

(** Its result is always an arrangement of the positions. *)
Definition arranges {A} (argsort : list A -> list nat) : Prop := forall xs, Permutation (argsort xs) (seq 0 (length xs)).
(** If the entries are comparable (no NaN), they are in order. *)
Definition orders {A} (le : A -> A -> bool) (argsort : list A -> list nat) : Prop :=
  forall xs, (forall x y, In x xs -> In y xs -> le x y = true \/ le y x = true) ->
  forall i j a b x y, (i < j)%nat -> nth_error (argsort xs) i = Some a -> nth_error (argsort xs) j = Some b ->
    nth_error xs a = Some x -> nth_error xs b = Some y -> le x y = true.
(** For the Examples: insertion of positions. *)
Fixpoint place {A} (le : A -> A -> bool) (x : A) (i : nat) (l : list (A * nat)) : list (A * nat) :=
  match l with
  | [] => [(x, i)]
  | (y, j) :: l' => if le x y then (x, i) :: l else (y, j) :: place le x i l'
  end.
Fixpoint placed {A} (le : A -> A -> bool) (i : nat) (xs : list A) : list (A * nat) :=
  match xs with [] => [] | x :: xs' => place le x i (placed le (S i) xs') end.
Definition argsort_of {A} (le : A -> A -> bool) (xs : list A) : list nat := map snd (placed le 0 xs).

(** The first perpendicular coordinate. *)
Definition first (p : R3) : R := let '(x, _, _) := p in x.
