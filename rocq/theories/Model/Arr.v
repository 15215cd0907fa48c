(** numpy arrays of TAU-style numbers, classified by ndim. *)
From Coq Require Import List ZArith.
From Verif Require Import Model.Tau.

Notation vec := (list tau).             (* ndim 2: (n,3)       *)
Notation vecs := (list (list tau)).     (* ndim 3: (m,n,3)     *)
Notation obj4 := (list (list (list tau))).  (* ndim 4: (k,m,n,3) *)
Notation obj5 := (list (list (list (list tau)))).

(** An array whose ndim is examined at run time.  The last axis always has the
    three components of a TAU-style number.  [AX] is any array of ndim > 5. *)
Inductive arr : Type :=
| A1 (t : tau)
| A2 (v : vec)
| A3 (vs : vecs)
| A4 (o : obj4)
| A5 (o : obj5)
| AX.

Definition ndim_lt6 (a : arr) : option nat :=
  match a with
  | A1 _ => Some 1 | A2 _ => Some 2 | A3 _ => Some 3
  | A4 _ => Some 4 | A5 _ => Some 5 | AX => None
  end.
