(** Concrete triangles used only in the Examples beside the theorems about dode2.  [q a b]
    projects to the point (a/4, b/4) of perpendicular space when a and b are odd. *)
From Coq Require Import List ZArith.
From Verif Require Import Model.Tau Model.Arr Spec.Samples.
Import ListNotations.
Local Open Scope Z_scope.

Definition pl (x y : tau) : vec := [T 0 0 1; x; y; T 0 0 1; T 0 0 1; T 0 0 1].
Definition q (a b : Z) : vec := pl (T a 0 4) (T b 0 4).
(** The right triangle (0,0), (1,0), (0,1). *)
Definition triA : vecs := [o6; x2; x3].
(** The same shifted by (1/4,1/4): the common part is a triangle. *)
Definition triB : vecs := [q 1 1; q 5 1; q 1 5].
(** A triangle whose common part with triA has four vertices. *)
Definition triC : vecs := [q 1 (-1); q 1 1; pl (T 2 0 1) (T 0 0 1)].
(** A triangle inside triA. *)
Definition triS : vecs := [o6; pl (T 1 0 2) (T 0 0 1); pl (T 0 0 1) (T 1 0 2)].
(** A triangle that does not meet triA. *)
Definition triF : vecs := [iv [0;2;2;0;0;0]; iv [0;3;2;0;0;0]; iv [0;2;3;0;0;0]].
(** A triangle with half the area of triA, inside it. *)
Definition triH : vecs := [o6; x2; pl (T 0 0 1) (T 1 0 2)].
(** A triangle below the line through (0,0) and (1,0), one vertex of which is (-1e-7,0). *)
Definition triD : vecs := [pl (T (-1) 0 10000000) (T 0 0 1); x2; pl (T 0 0 1) (T (-1) 0 1)].
(** The triangle (0,0), (2,0), (0,1) cut in two at (1,0). *)
Definition x22 : vec := pl (T 2 0 1) (T 0 0 1).
Definition halves : obj4 := [[o6; x2; x3]; [x2; x22; x3]].
(** Two triangles with a side each that cross at their midpoints. *)
Definition crossed : obj4 := [[o6; pl (T 1 0 1) (T 1 0 1); pl (T (-1) 0 1) (T 1 0 1)]; [x2; x3; pl (T 2 0 1) (T 2 0 1)]].
(** The triangle (0,0), (2,0), (0,2) without the triangle (1/2,1/2), (2,0), (0,2). *)
Definition mid2 : vec := pl (T 1 0 2) (T 1 0 2).
Definition x23 : vec := pl (T 0 0 1) (T 2 0 1).
Definition arrow : obj4 := [[o6; x22; mid2]; [o6; mid2; x23]].
