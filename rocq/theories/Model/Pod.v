(** The .pod and .atm files: obj2podatm of ico2/occupation_domain.py:1174-1256 and
    dode2/occupation_domain.py:1154-1236, and write_podatm of
    ico2/occupation_domain.py:1532-1642.

    Simplifications: of the files only the data are kept (the numbers printed, before
    rounding to 3 or 6 decimals), not the fixed text; directories exist; arguments
    that do not influence the data (path, basename, serial_number, verbose, and
    obj2podatm's shift, which is never used) are left out. *)
From Coq Require Import List ZArith Bool Arith.
From Verif Require Import Base.Res Model.Tau Model.Arr Model.Num Model.IcoMath1 Model.IcoNumeric Model.Unique Model.IcoDedup
  Model.DodeMath1 Model.DodeNumeric Model.DodeDedup.
Import ListNotations.
Local Open Scope res_scope.

Section Pod.
Variable N : num.

(** One block of a .pod file: the number of vertices announced, the vectors ej, the
    number after nth= and the indices that follow it. *)
Record pod : Type := Pod { pod_num : nat; pod_ej : list (list (F N)); pod_nth : Z; pod_idx : list nat }.

Section Obj2podatm.
Variable k : nat.                            (* vertices per item: 4 in ico2, 3 in dode2 *)
Variable proj : vec -> res vec.              (* math1.projection3 *)
Variable dedup : arr -> res vecs.            (* utils.remove_doubling_in_perp_space *)
Variable value : vec -> list (F N).          (* numericalc.numerical_vector *)

(** ico2/occupation_domain.py:1185-1190: is xyz1 among the first k vertices? *)
Fixpoint occurs (xyz1 : vec) (item : vecs) (l : list nat) : res bool :=
  match l with
  | [] => Ok false
  | i3 :: l => v <- get item i3 ;; xyz2 <- proj v ;; if vec_eqb xyz1 xyz2 then Ok true else occurs xyz1 item l
  end.
(** lines 1183-1194: the loop over the other items stops at the first that fails. *)
Fixpoint in_all (xyz1 : vec) (rest : obj4) : res bool :=
  match rest with
  | [] => Ok true
  | item :: rest => b <- occurs xyz1 item (seq 0 k) ;; if b then in_all xyz1 rest else Ok false
  end.
(** lines 1176-1204 *)
Fixpoint find_from (o : obj4) (l : list nat) : res (option vec) :=
  match l with
  | [] => Ok None
  | i1 :: l => item <- get o 0 ;; vtx1 <- get item i1 ;; xyz1 <- proj vtx1 ;;
      b <- in_all xyz1 (tl o) ;; if b then Ok (Some vtx1) else find_from o l
  end.
Definition find_common_vertex (o : obj4) : res (option vec) := find_from o (seq 0 k).

(** lines 1236-1243: the first vertex of the list equal to vrtx1; none is skipped *)
Fixpoint index_of (v : vec) (i : nat) (vtxs : vecs) : list nat :=
  match vtxs with
  | [] => []
  | u :: vtxs => if vec_eqb v u then [S i] else index_of v (S i) vtxs
  end.

(** The return value, and for 0 the coordinates in the .atm file and the .pod data. *)
Definition obj2podatm_ (o : obj4) : res (Z * option (list (F N) * pod)) :=
  vrtx0 <- find_common_vertex o ;;
  match vrtx0 with
  | Some vrtx0 =>
      vtxs <- dedup (A4 o) ;;
      let vtxs := remove_vector vtxs vrtx0 in
      let idx := concat (map (fun v => index_of v 0 vtxs) (concat o)) in
      Ok (0%Z, Some (value vrtx0, Pod (length vtxs) (map value vtxs) (Z.of_nat (length vtxs)) idx))
  | None => Ok (1%Z, None)
  end.
End Obj2podatm.

Definition obj2podatm := obj2podatm_ 4 projection3 remove_doubling_in_perp_space (numerical_vector N).
Definition dobj2podatm := obj2podatm_ 3 dprojection3 dremove_doubling_in_perp_space (dnumerical_vector N).

(** write_podatm.  [obj==None] is False for a list, an array of truth values for a
    numpy array, whose use as a condition raises. *)
Inductive podobj : Type := PNone | PArray (vs : vecs) | PList (vs : vecs).

(** Python's l[i], with negative indices counted from the end. *)
Definition pyget {A} (l : list A) (i : Z) : res A :=
  if (0 <=? i)%Z then get l (Z.to_nat i)
  else if (- Z.of_nat (length l) <=? i)%Z then get l (Z.to_nat (Z.of_nat (length l) + i))
  else Raise IndexError.

(** lines 1594-1606: the distinct entries, in order of first occurrence *)
Fixpoint add_new (tmp2 : list Z) (l : list Z) : list Z :=
  match l with
  | [] => tmp2
  | x :: l => add_new (if existsb (Z.eqb (x - 1)) tmp2 then tmp2 else tmp2 ++ [(x - 1)%Z]) l
  end.
(** lines 1607-1614: the place of x-1 in tmp2 *)
Fixpoint place (x : Z) (i : nat) (tmp2 : list Z) : list nat :=
  match tmp2 with
  | [] => []
  | y :: tmp2 => if Z.eqb (x - 1) y then [i] else place x (S i) tmp2
  end.

(** numeric_value(b[j]) - numeric_value(a[j]), j = 0..5 *)
Definition six {B} (f : nat -> res B) : res (list B) := mapM f (seq 0 6).
Definition difference (b a : vec) : res (list (F N)) :=
  six (fun j => bj <- get b j ;; aj <- get a j ;; Ok (fsub N (numeric_value N bj) (numeric_value N aj))).
(** lines 1592-1627, one block *)
Definition pod_block (v : vecs) (row : list Z) : res pod :=
  r0 <- get row 0 ;; a <- pyget v (r0 - 1)%Z ;;
  r1 <- get row 1 ;;
  let tmp2 := add_new [(r1 - 1)%Z] (skipn 2 row) in
  let tmp1 := concat (map (fun x => place x 0 tmp2) (skipn 1 row)) in
  ej <- mapM (fun i => b <- pyget v i ;; difference b a) tmp2 ;;
  Ok (Pod (length tmp2) ej ((Z.of_nat (length row) - 1) / 3)%Z (map S tmp1)).
(** lines 1565-1583, one block: the coordinates x= and xi= *)
Definition atm_block (v : vecs) (position : vec) (shft : list (F N)) (row : list Z) : res (list (F N) * list (F N)) :=
  r0 <- get row 0 ;; a <- pyget v (r0 - 1)%Z ;;
  x <- six (fun j => p <- get position j ;; Ok (numeric_value N p)) ;;
  xi <- six (fun j => aj <- get a j ;; s <- get shft j ;; Ok (fadd N (numeric_value N aj) s)) ;;
  Ok (x, xi).

Definition write_podatm (o : podobj) (position : vec) (vlist : list (list Z)) (shft : list (F N)) :
    res (Z * option (list (list (F N) * list (F N)) * list pod)) :=
  match o with
  | PNone => Ok (0%Z, None)
  | PArray _ => Raise ValueError
  | PList v =>
      atm <- mapM (atm_block v position shft) vlist ;;
      pods <- mapM (pod_block v) vlist ;;
      Ok (0%Z, Some (atm, pods))
  end.
End Pod.
