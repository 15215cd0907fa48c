(** Result monad used by every model file.

    A Python call either returns a value ([Ok a]) or raises ([Raise e]).
    A Python [return] without a value is [Ok None] at type [res (option A)]. *)
From Coq Require Import List ZArith.
Import ListNotations.

Inductive exn : Set :=
| IndexError          (* indexing outside an array or list *)
| ValueError          (* int(nan), reshape to an impossible shape, bad literal *)
| TypeError           (* using None as an array, wrong argument kinds *)
| NameError           (* undefined global name *)
| UnboundLocalError   (* local name read before assignment *)
| AttributeError      (* missing attribute *)
| OverflowError.      (* int(inf) *)

Inductive res (A : Type) : Type :=
| Ok (a : A)
| Raise (e : exn).
Arguments Ok {A} a.
Arguments Raise {A} e.

Definition bind {A B} (m : res A) (k : A -> res B) : res B :=
  match m with
  | Ok a => k a
  | Raise e => Raise e
  end.

Declare Scope res_scope.
Delimit Scope res_scope with res.
Notation "x <- m ;; k" := (bind m (fun x => k))
  (at level 61, m at next level, right associativity) : res_scope.
Notation "' pat <- m ;; k" := (bind m (fun x => match x with pat => k end))
  (at level 61, pat pattern, m at next level, right associativity) : res_scope.

(** [l[i]] of Python for a non-negative index. *)
Definition get {A} (l : list A) (i : nat) : res A :=
  match nth_error l i with
  | Some a => Ok a
  | None => Raise IndexError
  end.
(** [l[i]] of Python for any integer index: -1 is the last entry. *)
Definition getz {A} (l : list A) (i : Z) : res A :=
  if (0 <=? i)%Z then get l (Z.to_nat i)
  else if (0 <=? i + Z.of_nat (length l))%Z then get l (Z.to_nat (i + Z.of_nat (length l)))
  else Raise IndexError.

(** A value that must not be None (using None where an array is expected). *)
Definition notNone {A} (m : option A) : res A :=
  match m with
  | Some a => Ok a
  | None => Raise TypeError
  end.

(** [for x in l: out.append(f(x))] *)
Fixpoint mapM {A B} (f : A -> res B) (l : list A) : res (list B) :=
  match l with
  | [] => Ok []
  | x :: xs => bind (f x) (fun y => bind (mapM f xs) (fun ys => Ok (y :: ys)))
  end.

(** [for x in l: s = f(s,x)] *)
Fixpoint foldM {A S} (f : S -> A -> res S) (s : S) (l : list A) : res S :=
  match l with
  | [] => Ok s
  | x :: xs => bind (f s x) (fun s' => foldM f s' xs)
  end.

(** Postcondition of a computation that must not raise. *)
Definition wp {A} (m : res A) (Q : A -> Prop) : Prop :=
  match m with
  | Ok a => Q a
  | Raise _ => False
  end.
