(** Reading and writing XYZ files: write, write_xyz and read_xyz of
    ico2/occupation_domain.py and dode2/occupation_domain.py.

    [ff t] stands for '%8.6f'%numeric_value(t) (Model/Text.v gives the exact function
    for doubles, see [ico_ff] and [dode_ff] below).

    A call gives its return value and the files written, as (name, content) pairs.
    Simplifications: directories exist (os.makedirs not modelled); messages printed
    on the console (verbose) are not modelled; a file left incomplete by an exception
    is not modelled; files that are not closed explicitly (f.closed without a call)
    are complete when the interpreter releases them. *)
From Coq Require Import Ascii String List ZArith Bool.
From Verif Require Import Base.Res Model.Tau Model.Arr Model.Num Model.IcoMath1 Model.IcoNumeric Model.IcoVolume
  Model.DodeMath1 Model.DodeNumeric Model.Text.
Import ListNotations.
Local Open Scope res_scope.

Notation files := (list (str * str)).

(** np.all(obj==None): None, and also an array without elements.  [AX] is taken to
    have elements. *)
Definition all_none (o : option arr) : bool :=
  match o with
  | None => true
  | Some (A1 _) | Some AX => false
  | Some (A2 v) => match v with [] => true | _ => false end
  | Some (A3 vs) => match concat vs with [] => true | _ => false end
  | Some (A4 o) => match concat (concat o) with [] => true | _ => false end
  | Some (A5 o) => match concat (concat (concat o)) with [] => true | _ => false end
  end.

(** The 18 integers of a 6d vector, '%d %d ... %d' *)
Definition show_tau (t : tau) : str := show_Z (ta t) ++ sp :: show_Z (tb t) ++ sp :: show_Z (tc t).
Definition show_vec6 (v : vec) : res str :=
  t0 <- get v 0 ;; t1 <- get v 1 ;; t2 <- get v 2 ;; t3 <- get v 3 ;; t4 <- get v 4 ;; t5 <- get v 5 ;;
  Ok (show_tau t0 ++ sp :: show_tau t1 ++ sp :: show_tau t2 ++ sp :: show_tau t3 ++ sp :: show_tau t4 ++ sp :: show_tau t5).

Section Writer.
Variable ff : tau -> str.
Variable proj : vec -> res vec.      (* math1.projection3 *)

(** One line, e.g. ico2/occupation_domain.py:887-899; [kind] is tetrahedron,
    triangle or edge. *)
Definition atom_line (kind : str) (i1 i2 : nat) (vt : vec) : res str :=
  v <- proj vt ;; x <- get v 0 ;; y <- get v 1 ;; z <- get v 2 ;;
  ns <- show_vec6 vt ;;
  Ok (lit "Xx " ++ ff x ++ sp :: ff y ++ sp :: ff z ++ lit " # " ++ pad sp 3 (show_nat i1) ++ lit "-the " ++ kind ++
      sp :: show_nat i2 ++ lit "-th vertex # " ++ ns ++ [nl]).

(** for i2 in range(k): the first k vertices of an item *)
Definition item_lines (kind : str) (k : nat) (i1 : nat) (item : vecs) : res str :=
  ls <- mapM (fun i2 => vt <- get item i2 ;; atom_line kind i1 i2 vt) (seq 0 k) ;; Ok (concat ls).
(** for i2,vt in enumerate(item): all vertices of an item *)
Definition item_lines_all (kind : str) (i1 : nat) (item : vecs) : res str :=
  ls <- mapM (fun p => atom_line kind i1 (fst p) (snd p)) (combine (seq 0 (length item)) item) ;; Ok (concat ls).

Definition obj_lines (f : nat -> vecs -> res str) (o : obj4) : res str :=
  ls <- mapM (fun p => f (fst p) (snd p)) (combine (seq 0 (length o)) o) ;; Ok (concat ls).

Definition header (n : nat) (filename : str) : str := show_nat n ++ nl :: filename ++ [nl].
End Writer.

Section Ico.
Variable ff : tau -> str.

(** ico2/occupation_domain.py:867-907.  The loop at line 902 prints, for every i1,
    the volume of the variable [tetrahedron] left over from the loop at line 884:
    the last one. *)
Definition volume_str (v : tau) : str := show_tau v ++ lit " (" ++ ff v ++ lit ")" ++ [nl].
Definition volume_line (i1 : nat) (v : tau) : str := pad sp 3 (show_nat i1) ++ lit "-the tetrahedron, " ++ volume_str v.
Definition xyz_tetrahedron (o : obj4) (filename : str) : res str :=
  body <- obj_lines (item_lines ff projection3 (lit "tetrahedron") 4) o ;;
  vol <- obj_volume_6d (A4 o) ;; vol <- notNone vol ;;
  vols <- mapM (fun i1 => v <- tetrahedron_volume_6d (A3 (last o [])) ;; v <- notNone v ;; Ok (volume_line i1 v))
               (seq 0 (length o)) ;;
  Ok (header (length o * 4) filename ++ body ++ lit "volume = " ++ volume_str vol ++ concat vols).

(** ico2/occupation_domain.py:909-942, 944-977 *)
Definition xyz_items (kind : string) (k : nat) (o : obj4) (filename : str) : res str :=
  body <- obj_lines (item_lines ff projection3 (lit kind) k) o ;;
  Ok (header (length o * k) filename ++ body).

(** ico2/occupation_domain.py:979-1011, only reached with a 4-d array: each [point]
    is an array of vectors, and formatting a row of it with %d raises. *)
Definition xyz_vertex (o : obj4) (filename : str) : res str :=
  match o with
  | [] => Ok (header 0 filename)
  | _ :: _ => Raise TypeError
  end.

(** ico2/occupation_domain.py:847-1044 *)
Definition file_name (path basename ext : str) : str := path ++ "/"%char :: basename ++ ext.
Definition write_xyz (o : option arr) (path basename : str) (select : string) : res (option Z * files) :=
  if all_none o then Ok (None, [])
  else match o with
  | Some (A4 o) =>
      let fn := file_name path basename (lit ".xyz") in
      let done (m : res str) := c <- m ;; Ok (Some 0%Z, [(fn, c)]) in
      if String.eqb select "tetrahedron" then done (xyz_tetrahedron o fn)
      else if String.eqb select "triangle" then done (xyz_items "triangle" 3 o fn)
      else if String.eqb select "edge" then done (xyz_items "edge" 2 o fn)
      else if String.eqb select "vertex" then done (xyz_vertex o fn)
      else Ok (None, [])
  | _ => Ok (None, [])
  end.
End Ico.

(** reshape of a flat array of integers to (_,6,3) and (_,k,6,3) *)
Fixpoint chunks {A} (k : nat) (fuel : nat) (l : list A) : list (list A) :=
  match fuel, l with
  | 0, _ | _, [] => []
  | S fuel, _ => firstn k l :: chunks k fuel (skipn k l)
  end.
Definition as_tau (l : list Z) : tau := match l with [a; b; c] => T a b c | _ => t0 end.
Definition as_vec (l : list Z) : vec := map as_tau (chunks 3 6 l).

(** The loop at ico2/occupation_domain.py:1085-1109 (dode2: 1051-1075): the tokens
    10..27 of line i as integers, in the order of the source. *)
Definition line_ints (line : str) : res (list Z) :=
  let fi := words line in mapM (fun k => s <- get fi k ;; py_int s) (seq 10 18).
(** f1[0].split()[0], then lines 2..num+1.  Without a line, tmp stays unbound. *)
Definition read_rows (content : str) : res (Z * list (list Z)) :=
  let f1 := read_lines content in
  l0 <- get f1 0 ;; s <- get (words l0) 0 ;; num <- py_int s ;;
  rows <- mapM (fun i => l <- get f1 i ;; line_ints l) (seq 2 (Z.to_nat num)) ;;
  Ok (num, rows).
(** tmp.reshape(int(num/k),k,6,3); a size that does not fit raises.  num/k is a
    float division; it is exact here (simplification: num < 2^53). *)
Definition reshape4 (k : nat) (num : Z) (rows : list (list Z)) : res arr :=
  match rows with
  | [] => Raise UnboundLocalError
  | _ => let n := Z.to_nat (Z.quot num (Z.of_nat k)) in
         if Nat.eqb (n * k) (length rows) then Ok (A4 (chunks k (length rows) (map as_vec rows))) else Raise ValueError
  end.
Definition reshape3 (rows : list (list Z)) : res arr :=
  match rows with
  | [] => Raise UnboundLocalError
  | _ => Ok (A3 (map as_vec rows))
  end.

(** ico2/occupation_domain.py:1046-1116.  The file must exist (otherwise the
    interpreter is ended by sys.exit). *)
Definition read_xyz (content : str) (select : string) : res (option arr) :=
  '(num, rows) <- read_rows content ;;
  if String.eqb select "tetrahedron" then a <- reshape4 4 num rows ;; Ok (Some a)
  else if String.eqb select "vertex" then a <- reshape3 rows ;; Ok (Some a)
  else Ok None.

(** dode2/occupation_domain.py:1012-1082 *)
Definition dread_xyz (content : str) (select : string) : res (option arr) :=
  '(num, rows) <- read_rows content ;;
  if String.eqb select "triangle" then a <- reshape4 3 num rows ;; Ok (Some a)
  else if String.eqb select "vertex" then a <- reshape3 rows ;; Ok (Some a)
  else Ok None.

Section Dode.
Variable ff : tau -> str.

(** dode2/occupation_domain.py:883-914: three vertices per item are announced, all
    vertices of the item are written. *)
Definition dxyz_triangle (o : obj4) (filename : str) : res str :=
  body <- obj_lines (item_lines_all ff dprojection3 (lit "triangle")) o ;;
  Ok (header (length o * 3) filename ++ body).

(** dode2/occupation_domain.py:861-1010.  The test at line 990,
    "select == 'triangle' or 't'", holds for every select; the branches for edges and
    vertices are never taken. *)
Definition dwrite_xyz (o : option arr) (path basename : str) (select : string) : res (option Z * files) :=
  if all_none o then Ok (None, [])
  else match o with
  | Some (A4 o) =>
      let fn := file_name path basename (lit ".xyz") in
      if (String.eqb select "triangle" || true)%bool then c <- dxyz_triangle o fn ;; Ok (Some 0%Z, [(fn, c)])
      else Ok (None, [])
  | _ => Ok (None, [])
  end.
End Dode.

(** The formatter of the two packages, for doubles. *)
Definition ico_ff (t : tau) : str := show_f8_6 (numeric_value Bnum t).
Definition dode_ff (t : tau) : str := show_f8_6 (dnumeric_value Bnum t).
