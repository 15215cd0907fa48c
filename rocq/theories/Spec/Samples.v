(** Concrete 6-d data used only in the Examples beside the theorems. *)
From Coq Require Import List ZArith.
From Verif Require Import Model.Tau Model.Arr.
Import ListNotations.
Local Open Scope Z_scope.

(** The integer 6-d vector with the given coordinates. *)
Definition iv (l : list Z) : vec := map (fun z => T z 0 1) l.
Definition o6 : vec := iv [0;0;0;0;0;0].
Definition x1 : vec := iv [1;0;0;0;0;0].
Definition x2 : vec := iv [0;1;0;0;0;0].
Definition x3 : vec := iv [0;0;1;0;0;0].
Definition x4 : vec := iv [0;0;0;1;0;0].
Definition x5 : vec := iv [0;0;0;0;1;0].
Definition x6 : vec := iv [0;0;0;0;0;1].
(** Two tetrahedra with non-zero volume that overlap. *)
Definition tetA : vecs := [o6; x1; x2; x4].
Definition tetB : vecs := [o6; x1; x2; x6].
Definition tetC : vecs := [o6; x2; iv [1;0;0;1;0;0]; x6].
