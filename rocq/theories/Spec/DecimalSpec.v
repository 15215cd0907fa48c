(** Reading a decimal number from text, independently of how it was written. *)
From Coq Require Import Ascii List ZArith Reals.
Import ListNotations.
Local Open Scope Z_scope.

Definition digit_of (c : ascii) : Z := Z.of_nat (nat_of_ascii c) - 48.
(** s is a non-empty string of decimal digits with value n. *)
Definition numeral (s : list ascii) (n : Z) : Prop :=
  s <> [] /\ Forall (fun c => 0 <= digit_of c <= 9) s /\ n = fold_left (fun a c => 10 * a + digit_of c) s 0.
(** s is blanks, an optional minus sign, digits, a point and six digits; the number
    written is n millionths (negative if neg). *)
Definition decimal6 (s : list ascii) (neg : bool) (n : Z) : Prop :=
  exists k i f ni nf, s = repeat " "%char k ++ (if neg then ["-"%char] else []) ++ i ++ "."%char :: f /\
    numeral i ni /\ numeral f nf /\ length f = 6%nat /\ n = 1000000 * ni + nf.
(** n is the integer nearest to x, the even one if there are two. *)
Definition nearest_even (n : Z) (x : R) : Prop :=
  (Rabs (IZR n - x) <= 1/2)%R /\ ((Rabs (IZR n - x) = 1/2)%R -> Z.even n = true).
