(** The asymmetric part of an occupation domain (ico2/occupation_domain.py). *)
From Coq Require Import List ZArith.
From Verif Require Import Base.Res Model.Tau Model.IcoScalar Model.Arr Model.Vectors Model.IcoVolume Model.Num Model.IcoIntersect.
Import ListNotations.
Local Open Scope res_scope.

Section Asymmetric.
Variable N : num.
Variable delaunay : list (list (F N)) -> option (list simplex).
Variable draws : nat -> nat -> list (nat * nat * nat).

(** np.append(v0,vecs).reshape(1,4,6,3), v0 the origin: the scalars of vecs in sequence,
    cut into three vectors of six; ValueError if there are not 18 of them.  None (what
    math1.mul_vectors returns unless vecs has ndim 3) is one more element, which cannot be
    reshaped either. *)
Definition corner_tetrahedron (vs : option vecs) : res obj4 :=
  match vs with
  | Some vs =>
      let flat := concat vs in
      if Nat.eqb (length flat) 18
      then Ok [[repeat (T 0 0 1) 6; firstn 6 flat; firstn 6 (skipn 6 flat); skipn 12 flat]]
      else Raise ValueError
  | None => Raise ValueError
  end.

(** ico2/occupation_domain.py:1644-1674.  Simplification: symmetric_obj is an array of
    ndim 4 (intersection_two_obj_1 does not test). *)
Definition asymmetric (o : obj4) (position : vec) (vs : arr) : res (option obj4) :=
  m <- mul_vectors_nd mul vs (T 5 0 1) ;;
  aum <- corner_tetrahedron m ;;
  aum <- shift (A4 aum) position ;;
  match aum with
  | Some aum => intersection_two_obj_1 N delaunay draws false o aum
  | None => Raise TypeError
  end.
End Asymmetric.
