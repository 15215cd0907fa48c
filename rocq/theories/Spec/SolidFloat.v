(** When surfaces and unique edges computed in int64 and binary64 can be trusted. *)
From Coq Require Import Reals List.
From Verif Require Import Model.Tau Model.Arr Spec.Value Spec.RVec Spec.IcoSpec Spec.DodeSpec Spec.Sets.
Import ListNotations.
Local Open Scope R_scope.

(** Some coordinate differs by more than twice what np.allclose tolerates, that is by more
    than 2e-8 + 2e-5 times the size of either. *)
Definition told_apart (p q : list R) : Prop :=
  exists i x y, nth_error p i = Some x /\ nth_error q i = Some y /\
    2/100000000 + 2/100000 * Rabs x < Rabs (x - y) /\ 2/100000000 + 2/100000 * Rabs y < Rabs (x - y).
(** No point of perpendicular space is written with two different 6-d vectors (ico2,
    dode2). *)
Definition one_name (vs : vecs) : Prop := forall u v, In u vs -> In v vs -> ppoint u = ppoint v -> u = v.
Definition done_name (vs : vecs) : Prop := forall u v, In u vs -> In v vs -> dppoint u = dppoint v -> u = v.
