(** Vector functions of math1.py.  ico2/math1.py and dode2/math1.py contain the
    same text for all of them; they differ only in the scalar [add] and [mul]
    they call, which are therefore arguments here (IcoMath1.v and DodeMath1.v
    instantiate them).  Line numbers: ico2/math1.py; dode2/math1.py has the same
    functions six lines further down. *)
From Coq Require Import List ZArith Bool Arith.
From Verif Require Import Base.Res Model.Tau Model.Arr.
Import ListNotations.
Local Open Scope res_scope.

Section Vectors.
  Variables add mul : tau -> tau -> res tau.

  (** math1.py:70-87 *)
  Definition sub_ (a b : tau) : res tau :=
    b' <- mul tm1 b ;; add a b'.

  (** math1.py:138-156: loop over range(len(vt1)); vt2[i] may be out of range,
      extra components of vt2 are ignored. *)
  Fixpoint add_vectors_ (v1 v2 : vec) : res vec :=
    match v1, v2 with
    | [], _ => Ok []
    | _ :: _, [] => Raise IndexError
    | x :: xs, y :: ys =>
        z <- add x y ;;
        zs <- add_vectors_ xs ys ;;
        Ok (z :: zs)
    end.

  (** math1.py:180-201 for a 2-d array *)
  Definition mul_vector_ (v : vec) (c : tau) : res vec :=
    mapM (fun x => mul x c) v.

  (** math1.py:158-178 for 2-d arrays *)
  Definition sub_vectors_ (v1 v2 : vec) : res vec :=
    v2' <- mul_vector_ v2 tm1 ;;
    add_vectors_ v1 v2'.

  (** math1.py:158-178 with its ndim test *)
  Definition sub_vectors_nd (a1 a2 : arr) : res (option vec) :=
    match a1, a2 with
    | A2 v1, A2 v2 => r <- sub_vectors_ v1 v2 ;; Ok (Some r)
    | _, _ => Ok None
    end.

  (** math1.py:180-201 with its ndim test *)
  Definition mul_vector_nd (a : arr) (c : tau) : res (option vec) :=
    match a with
    | A2 v => r <- mul_vector_ v c ;; Ok (Some r)
    | _ => Ok None
    end.

  (** math1.py:203-229.  The ndim==4 branch computes everything and then falls
      off the end of the function: it returns None. *)
  Definition mul_vectors_nd (a : arr) (c : tau) : res (option vecs) :=
    match a with
    | A3 vs => r <- mapM (fun v => mul_vector_ v c) vs ;; Ok (Some r)
    | A4 o => _ <- mapM (mapM (fun v => mul_vector_ v c)) o ;; Ok None
    | _ => Ok None
    end.

  (** math1.py:231-257 *)
  Definition outer_product_ (v1 v2 : vec) : res vec :=
    x1 <- get v1 1 ;; y2 <- get v2 2 ;; a <- mul x1 y2 ;;
    x2 <- get v1 2 ;; y1 <- get v2 1 ;; b <- mul x2 y1 ;;
    c1 <- sub_ a b ;;
    x2 <- get v1 2 ;; y0 <- get v2 0 ;; a <- mul x2 y0 ;;
    x0 <- get v1 0 ;; y2 <- get v2 2 ;; b <- mul x0 y2 ;;
    c2 <- sub_ a b ;;
    x0 <- get v1 0 ;; y1 <- get v2 1 ;; a <- mul x0 y1 ;;
    x1 <- get v1 1 ;; y0 <- get v2 0 ;; b <- mul x1 y0 ;;
    c3 <- sub_ a b ;;
    Ok [c1; c2; c3].

  (** The accumulation loop of inner_product / dot_product (280-283, 314-318,
      331-335): a=[0,0,1]; for i: b=mul(r[i],v[i]); a=add(a,b). *)
  Fixpoint acc_ (a : tau) (r v : vec) : res tau :=
    match r, v with
    | [], _ => Ok a
    | _ :: _, [] => Raise IndexError
    | x :: xs, y :: ys =>
        b <- mul x y ;;
        a' <- add a b ;;
        acc_ a' xs ys
    end.

  (** math1.py:259-283 *)
  Definition inner_product_ (v1 v2 : vec) : res (option tau) :=
    if Nat.eqb (length v1) (length v2)
    then a <- acc_ t0 v1 v2 ;; Ok (Some a)
    else Ok None.

  (** Number of columns of a rectangular matrix.  Simplification: the shape of
      an empty matrix (0,t) is not recorded; its column count is taken as 0. *)
  Definition ncols {A} (m : list (list A)) : nat :=
    match m with [] => 0 | r :: _ => length r end.

  (** Column j of a matrix, [mat[i][j] for i]. *)
  Definition column {A} (m : list (list A)) (j : nat) : res (list A) :=
    mapM (fun r => get r j) m.

  (** math1.py:285-339 *)
  Definition dot_product_nd (m1 m2 : arr) : res (option arr) :=
    match m1, m2 with
    | A2 v1, A2 v2 =>
        r <- inner_product_ v1 v2 ;;
        match r with Some t => Ok (Some (A1 t)) | None => Ok None end
    | A3 rows, A2 v =>
        if Nat.eqb (ncols rows) (length v)
        then r <- mapM (fun row => acc_ t0 row v) rows ;; Ok (Some (A2 r))
        else Ok None
    | A3 rows, A3 rows2 =>
        if Nat.eqb (ncols rows) (length rows2)
        then
          r <- mapM (fun row =>
                 mapM (fun j => col <- column rows2 j ;; acc_ t0 row col)
                      (seq 0 (ncols rows2))) rows ;;
          Ok (Some (A3 r))
        else Ok None
    | _, _ => Ok None
    end.

  (** Accumulation loop with an integer matrix row (368-372):
      val=[mat1[k][j],0,1]; b=mul(val,mat2[j]); a=add(a,b).
      The symmetry matrices are float64 arrays with integer entries; entries
      are modelled as Z. *)
  Fixpoint accz_ (a : tau) (r : list Z) (v : vec) : res tau :=
    match r, v with
    | [], _ => Ok a
    | _ :: _, [] => Raise IndexError
    | x :: xs, y :: ys =>
        b <- mul (T x 0 1) y ;;
        a' <- add a b ;;
        accz_ a' xs ys
    end.

  (** math1.py:358-373: (s,t) integer matrix times (t,3) vector *)
  Definition dot_product_1_ (m : list (list Z)) (v : vec) : res (option vec) :=
    if Nat.eqb (ncols m) (length v)
    then r <- mapM (fun row => accz_ t0 row v) m ;; Ok (Some r)
    else Ok None.

  (** math1.py:385-390, inner loop of the 3-d branch.  The source reads
      mat1[k][j] (j is the output column) where i is meant. *)
  Fixpoint accz_bad_ (a : tau) (row : list Z) (j : nat) (col : vec) : res tau :=
    match col with
    | [] => Ok a
    | y :: ys =>
        x <- get row j ;;
        b <- mul (T x 0 1) y ;;
        a' <- add a b ;;
        accz_bad_ a' row j ys
    end.

  (** math1.py:341-394.  First argument: a 2-d integer matrix. *)
  Definition dot_product_1_nd (m : list (list Z)) (m2 : arr) : res (option arr) :=
    match m2 with
    | A2 v =>
        r <- dot_product_1_ m v ;;
        match r with Some v' => Ok (Some (A2 v')) | None => Ok None end
    | A3 rows2 =>
        if Nat.eqb (ncols m) (length rows2)
        then
          r <- mapM (fun row =>
                 mapM (fun j => col <- column rows2 j ;; accz_bad_ t0 row j col)
                      (seq 0 (ncols rows2))) m ;;
          Ok (Some (A3 r))
        else Ok None
    | _ => Ok None
    end.

  (** math1.py:491-525 *)
  Definition mtrixcal_ (m1 m2 m3 m4 m5 m6 : tau) (v : vec) : res tau :=
    v0 <- get v 0 ;; a1 <- mul m1 v0 ;;
    v1 <- get v 1 ;; a2 <- mul m2 v1 ;;
    v2 <- get v 2 ;; a3 <- mul m3 v2 ;;
    v3 <- get v 3 ;; a4 <- mul m4 v3 ;;
    v4 <- get v 4 ;; a5 <- mul m5 v4 ;;
    v5 <- get v 5 ;; a6 <- mul m6 v5 ;;
    a1 <- add a1 a2 ;;
    a1 <- add a1 a3 ;;
    a1 <- add a1 a4 ;;
    a1 <- add a1 a5 ;;
    add a1 a6.

  (** math1.py:527-551: for each of the six coordinates, sum over the points,
      then multiply by [1,0,num]. *)
  Definition centroid_ (pts : vecs) : res vec :=
    let num := Z.of_nat (length pts) in
    mapM (fun i2 =>
            s <- foldM (fun v2 p => x <- get p i2 ;; add v2 x) t0 pts ;;
            mul s (T 1 0 num))
         (seq 0 6).

  (** math1.py:553-572 *)
  Definition centroid_obj_ (o : obj4) : res vec :=
    s <- foldM (fun tmp tet => p <- centroid_ tet ;; add_vectors_ tmp p)
               [t0; t0; t0; t0; t0; t0] o ;;
    mul_vector_ s (T 1 0 (Z.of_nat (length o))).

  (** symmetry.py:51-57 (ico2), 59-65 (dode2) *)
  Definition symop_vec_ (op : list (list Z)) (vt centre : vec) : res vec :=
    v <- sub_vectors_ vt centre ;;
    v <- dot_product_1_ op v ;;
    v <- notNone v ;;
    add_vectors_ v centre.

  (** symmetry.py:40-49 *)
  Definition symop_vecs_ (op : list (list Z)) (vts : vecs) (centre : vec) : res vecs :=
    mapM (fun vt => symop_vec_ op vt centre) vts.

  (** symmetry.py:20-38 *)
  Definition symop_obj_ (op : list (list Z)) (o : arr) (centre : vec) : res (option arr) :=
    match o with
    | A3 vs => r <- symop_vecs_ op vs centre ;; Ok (Some (A3 r))
    | A4 ob => r <- mapM (fun vts => symop_vecs_ op vts centre) ob ;; Ok (Some (A4 r))
    | A2 v => r <- symop_vec_ op v centre ;; Ok (Some (A2 r))
    | _ => Ok None
    end.

  (** symmetry.py:63-82 (generator_obj_symmetric_obj): one block per operation; for
      a 4-d object the (num,n1,n2,6,3) array is reshaped to (num*n1,n2,6,3). *)
  Definition generator_obj_symmetric_obj_ (ops : list (list (list Z))) (o : arr)
      (centre : vec) : res (option arr) :=
    match o with
    | A3 vs =>
        r <- mapM (fun op => symop_vecs_ op vs centre) ops ;; Ok (Some (A4 r))
    | A4 ob =>
        r <- mapM (fun op => mapM (fun vts => symop_vecs_ op vts centre) ob) ops ;;
        Ok (Some (A4 (concat r)))
    | _ => Ok None
    end.

  (** utils.py:34-49 (shift_object) *)
  Definition shift_object_ (o : arr) (shift : vec) : res (option obj4) :=
    match o with
    | A4 ob => r <- mapM (mapM (fun v => add_vectors_ v shift)) ob ;; Ok (Some r)
    | _ => Ok None
    end.
End Vectors.
