(** How numpy's libraries may evaluate np.dot and np.linalg.det of 3-vectors of doubles
    (np.dot: /repo/src/pyqcstrc/ico2/numericalc.py:69,111,274-285 and
    dode2/numericalc.py:69,111,286-297,415-423; np.linalg.det: ico2/numericalc.py:561).
    These functions are not part of /repo. *)
From Coq Require Import ZArith List.
From Flocq Require Import IEEE754.BinarySingleNaN IEEE754.Binary IEEE754.Bits.
From Verif Require Import Model.Num.
Import ListNotations.

(** A way to evaluate a scalar product: products of corresponding entries are added in any
    order, or accumulated with fused multiply-adds.  Starting from a zero accumulator is
    exact and not represented. *)
Inductive plan := Prod (i : nat) | Sum (p q : plan) | Fma (i : nat) (p : plan).
Fixpoint uses (p : plan) : list nat :=
  match p with Prod i => [i] | Sum p q => uses p ++ uses q | Fma i p => i :: uses p end.
Fixpoint run (p : plan) (l m : list binary64) : binary64 :=
  match p with
  | Prod i => b64_mult mode_NE (nth i l (B64 0)) (nth i m (B64 0))
  | Sum p q => b64_plus mode_NE (run p l m) (run q l m)
  | Fma i p => b64_fma mode_NE (nth i l (B64 0)) (nth i m (B64 0)) (run p l m)
  end.
