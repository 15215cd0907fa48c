(** simplification of ico2/occupation_domain.py:1118-1154 and
    dode2/occupation_domain.py:1084-1120, for any hull, intersection and volume, and
    with the ones of ico2.

    Simplification: a hull that is None makes the intersection raise, an intersection
    that is None makes the volume raise; the exceptions are written TypeError and
    AttributeError. *)
From Coq Require Import List ZArith Bool.
From Verif Require Import Base.Res Model.Tau Model.Arr Model.Num Model.Unique Model.IcoDedup Model.IcoVolume Model.IcoNumeric Model.IcoIntersect Model.IcoSurface
  Model.DodeArea Model.Xyz.
Import ListNotations.
Local Open Scope res_scope.

(** np.all(vol0==vol1), where a volume may be None *)
Definition same_volume (v0 v1 : option tau) : bool :=
  match v0, v1 with
  | Some a, Some b => tau_eqb a b
  | None, None => true
  | _, _ => false
  end.

Section Simplification.
Variable vol : arr -> res (option tau).
Variable hull : obj4 -> res (option obj4).
Variable inter : obj4 -> obj4 -> res (option obj4).
Definition simplification_ (o : option obj4) : res (option obj4) :=
  match o with
  | None => Ok None
  | Some o =>
      if all_none (Some (A4 o)) then Ok None else
      vol0 <- vol (A4 o) ;;
      h <- hull o ;; h <- notNone h ;;
      tmp <- inter h o ;;
      vol1 <- match tmp with Some tmp => vol (A4 tmp) | None => Raise AttributeError end ;;
      Ok (Some (if same_volume vol0 vol1 then h else o))
  end.
End Simplification.

(** ico2 with its own hull and intersection (kind='standard') *)
Definition simplification (N : num) delaunay draws1 draws2 : option obj4 -> res (option obj4) :=
  simplification_ volume (generate_convex_hull N delaunay draws1) (intersection_two_obj_1 N delaunay draws2 false).
