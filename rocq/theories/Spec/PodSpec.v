(** What the compressed vertex lists of .pod files should mean. *)
From Coq Require Import List ZArith Reals.
From Verif Require Import Model.Tau Model.Arr Spec.Sets.
Import ListNotations.

(** The 1-based indices [idx] into the table [used] spell out [wanted], entry by
    entry. *)
Definition spells {A} (used : list A) (idx : list nat) (wanted : list A) : Prop :=
  Forall2 (fun i x => (1 <= i)%nat /\ nth_error used (i - 1) = Some x) idx wanted.

(** The table lists each wanted entry once and nothing else. *)
Definition compacts {A} (used : list A) (idx : list nat) (wanted : list A) : Prop :=
  NoDup used /\ same_set used wanted /\ spells used idx wanted.

(** The point of v is a vertex of every item, in projection. *)
Definition common (point : vec -> list R) (o : obj4) (v : vec) : Prop :=
  forall item, In item o -> In (point v) (map point item).

(** Different vertices of the object have different projections. *)
Definition projection_faithful (point : vec -> list R) (o : obj4) : Prop :=
  forall u v, In u (concat o) -> In v (concat o) -> point u = point v -> u = v.
