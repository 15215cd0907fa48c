(** The part of perpendicular space occupied by an object. *)
From Coq Require Import Reals List ZArith.
From Verif Require Import Model.Tau Model.Arr Spec.RVec Spec.Space Spec.Samples.
Import ListNotations.

Definition region (o : obj4) (p : R3) : Prop := exists t, In t o /\ hull (map pp t) p.

(** Two tetrahedra with a dent, and their convex hull in three pieces. *)
Definition e6 : vec := iv [-1;0;0;-1;0;0]%Z.
Definition dented : obj4 := [[o6; x1; x2; x4]; [o6; x1; x2; e6]].
Definition dented_hull : obj4 := [[o6; x1; x2; x4]; [o6; x1; x2; e6]; [o6; x2; x4; e6]].
