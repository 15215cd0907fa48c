(** What a drawing of edges should contain. *)
From Coq Require Import Reals List.
From Verif Require Import Model.Arr Spec.RVec Spec.Cosets.
Import ListNotations.

(** The bond (d,i,j) joins the atoms at the projections of the first two vertices of
    the item e, and d is their distance. *)
Definition joins (point : vec -> list R) (atoms : list (list R)) (e : vecs) (b : R * nat * nat) : Prop :=
  let '(d, i, j) := b in exists u v rest, e = u :: v :: rest /\
    nth_error atoms i = Some (point u) /\ nth_error atoms j = Some (point v) /\ d = vnorm (vsub (point u) (point v)).
