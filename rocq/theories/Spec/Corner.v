(** The part of space cut out by a corner with three edges. *)
From Coq Require Import Reals List.
From Verif Require Import Spec.Space.
Local Open Scope R_scope.

(** apex + x a + y b + z c *)
Definition corner_point (apex a b c : R3) (x y z : R) : R3 := add3 apex (add3 (scale3 x a) (add3 (scale3 y b) (scale3 z c))).
(** p = apex + x a + y b + z c with x, y, z >= -h and x + y + z <= k.  With h = 0: the
    corner at apex spanned by a, b, c, cut off at k times these vectors. *)
Definition in_corner (h k : R) (apex a b c p : R3) : Prop :=
  exists x y z, - h <= x /\ - h <= y /\ - h <= z /\ x + y + z <= k /\ p = corner_point apex a b c x y z.
