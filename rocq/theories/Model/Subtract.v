(** ico2/intsct.py: subtraction of an object from a tetrahedron. *)
From Coq Require Import List ZArith Bool Arith.
From Verif Require Import Base.Res Model.Tau Model.Arr Model.IcoScalar Model.Vectors Model.IcoMath1 Model.Num
  Model.IcoNumeric Model.IcoVolume Model.IcoDedup Model.IcoIntersect Model.IcoSurface.
Import ListNotations.
Local Open Scope res_scope.

(** itertools.combinations *)
Fixpoint combinations {A} (k : nat) (l : list A) : list (list A) :=
  match k, l with
  | O, _ => [[]]
  | S _, [] => []
  | S k', x :: l' => map (cons x) (combinations k' l') ++ combinations k l'
  end.

Section Subtract.
Variable N : num.
Variable delaunay : list (list (F N)) -> option (list simplex).
Variable draws : nat -> nat -> list (nat * nat * nat).
(** np.argsort; the order of equal entries is not specified. *)
Variable argsort : list (F N) -> list nat.

(** intsct.py:906-911: the loop stops at the first triangle the vertex is on. *)
Fixpoint on_some (v : vec) (s : obj4) : res bool :=
  match s with
  | [] => Ok false
  | f :: s => b <- on_out_surface N v f ;; if b then Ok true else on_some v s
  end.
(** intsct.py:904-911, 1196-1203: counter1, the number of vertices of the triangle on the surface *)
Fixpoint count_on (f : vecs) (s : obj4) : res nat :=
  match f with
  | [] => Ok 0
  | v :: f => b <- on_some v s ;; n <- count_on f s ;; Ok (if b then S n else n)
  end.
(** intsct.py:902-920: the triangles with three vertices on the surface *)
Fixpoint triangles_on (fs s : obj4) : res obj4 :=
  match fs with
  | [] => Ok []
  | f :: fs => n <- count_on f s ;; r <- triangles_on fs s ;; Ok (if n =? 3 then f :: r else r)
  end.

(** intsct.py:928-936 *)
Fixpoint inside_some (v : vec) (o : obj4) : res bool :=
  match o with
  | [] => Ok false
  | t :: o => b <- inside_outside_tetrahedron_tau N v t ;; if b then Ok true else inside_some v o
  end.
(** intsct.py:925-945: vrtx1_out.  The second vertex that is not inside meets the undefined
    name tmp1a (line 941). *)
Fixpoint vertex_out (vs : vecs) (o : obj4) (out : option vec) : res (option vec) :=
  match vs with
  | [] => Ok out
  | v :: vs => b <- inside_some v o ;;
      if b then vertex_out vs o out
      else match out with None => vertex_out vs o (Some v) | Some _ => Raise NameError end
  end.

(** intsct.py:969-980: distance of the centre of a triangle from the vertex *)
Definition centre_distance (v : vec) (f : vecs) : res (F N) :=
  c <- centre N f ;; p <- internal N v ;;
  let '(a, b, c) := psub N c p in
  Ok (fsqrt N (fadd N (fadd N (fmul N a a) (fmul N b b)) (fmul N c c))).

(** intsct.py:1023-1033: vol is not reset between the combinations. *)
Fixpoint try_combinations (vol2 vol : tau) (cs : list obj4) : res (option obj4 * tau) :=
  match cs with
  | [] => Ok (None, vol)
  | c :: cs => vol <- sum_volumes vol c ;;
      if tau_eqb vol vol2 then Ok (Some c, vol) else try_combinations vol2 vol cs
  end.
(** intsct.py:1019-1042 *)
Fixpoint search (vol2 vol : tau) (tmp : obj4) (nums : list nat) : res (option obj4) :=
  match nums with
  | [] => Ok None
  | k :: nums => '(found, vol) <- try_combinations vol2 vol (combinations k tmp) ;;
      match found with Some c => Ok (Some c) | None => search vol2 vol tmp nums end
  end.

(** intsct.py:844-1146.  Since two vertices outside raise, the cases of two, three and four
    vertices (lines 1060-1146) are only reached with none, which gives None.  With at most
    two triangles the loop over range(1,len(tmp)-1) is empty and flag is unbound (line 1043). *)
Definition tetrahedron_not_obj_1 (t : vecs) (o surface_obj : obj4) : res (option obj4) :=
  common <- intersection_two_obj_1 N delaunay draws false [t] o ;;
  match common with
  | None => Raise AttributeError
  | Some common =>
      surface_common <- generator_surface_1 N common ;;
      vol0 <- sum_volumes t0 [t] ;; vol1 <- sum_volumes t0 common ;; vol2 <- sub vol0 vol1 ;;
      triangle_common <- triangles_on surface_common surface_obj ;;
      match triangle_common with
      | [] => Raise UnboundLocalError
      | _ =>
          out <- vertex_out t o None ;;
          match out with
          | None => Ok None
          | Some v =>
              dd <- mapM (centre_distance v) triangle_common ;;
              tr <- mapM (get triangle_common) (argsort dd) ;;
              let tmp := map (cons v) tr in
              vol <- sum_volumes t0 tmp ;;
              if tau_eqb vol vol2 then Ok (Some tmp)
              else if length tmp <=? 2 then Raise UnboundLocalError
              else search vol2 t0 tmp (seq 1 (length tmp - 2))
          end
      end
  end.

(** intsct.py:1148-1205: a triangle has no four vertices, so nothing is collected, and
    nothing is returned. *)
Definition tetrahedron_not_obj_2 (t : vecs) (o : obj4) : res (option obj4) :=
  _ <- sum_volumes t0 [t] ;;
  common <- intersection_two_obj_1 N delaunay draws false [t] o ;;
  match common with
  | None => Raise AttributeError
  | Some common =>
      _ <- sum_volumes t0 common ;;
      s2 <- generator_surface_1 N common ;; s3 <- generator_surface_1 N o ;;
      _ <- mapM (fun f => count_on f s3) s2 ;; Ok None
  end.
End Subtract.

Section Objects.
Variable N : num.
Variable delaunay : list (list (F N)) -> option (list simplex).
(** The samples drawn, which may differ from tetrahedron to tetrahedron. *)
Variable draws : nat -> nat -> nat -> list (nat * nat * nat).
Variable argsort : list (F N) -> list nat.
(** ico2/two_occupation_domains.py:93-118 with intsct.py:786-842 *)
Definition subtraction_1 (a1 a2 : arr) : res (option obj4) :=
  subtraction (generator_surface_1 N) (fun i => tetrahedron_not_obj_1 N delaunay (draws i) argsort) a1 a2.
End Objects.
