(** write and write_vesta of ico2/occupation_domain.py and dode2/occupation_domain.py.

    Simplifications: as in Xyz.v; of a VESTA file only the data are kept, namely the
    list of atoms (numerical perpendicular coordinates) and the list of bonds
    (distance, first atom, second atom, counted from 0); the fixed text and the colour
    are not. *)
From Coq Require Import Ascii String List ZArith Bool.
From Verif Require Import Base.Res Model.Tau Model.Arr Model.Num Model.Vectors Model.DodeScalar Model.IcoMath1 Model.IcoNumeric Model.IcoDedup
  Model.IcoIntersect Model.DodeMath1 Model.DodeNumeric Model.DodeDedup Model.Text Model.Xyz.
Import ListNotations.
Local Open Scope res_scope.

Section Vesta.
Variable N : num.
Let atom := list (F N).
Let bond := (F N * nat * nat)%type.

(** What a .vesta file holds: nothing, one molecule with bonds, or one molecule per
    item. *)
Inductive vesta : Type :=
| VEmpty
| VBonds (atoms : list atom) (bonds : list bond)
| VItems (items : list (list atom)).

(** ico2/occupation_domain.py:210-220: the first vertex with the same projection. *)
Fixpoint find_vertex (same : vec -> vec -> res bool) (v : vec) (k : nat) (vs : vecs) : res (option nat) :=
  match vs with
  | [] => Ok None
  | u :: vs => b <- same v u ;; if b then Ok (Some k) else find_vertex same v (S k) vs
  end.
(** pairs.append([dist, i, j]); pair[2] is read later (line 277), which raises if an
    end was not found. *)
Definition bond_of (dist : vec -> vec -> res (F N)) (same : vec -> vec -> res bool) (vertices : vecs) (e : vecs) : res bond :=
  e0 <- get e 0 ;; e1 <- get e 1 ;; d <- dist e0 e1 ;;
  i <- find_vertex same e0 0 vertices ;; j <- find_vertex same e1 0 vertices ;;
  match i, j with Some i, Some j => Ok (d, i, j) | _, _ => Raise IndexError end.

(** len(remove_doubling_in_perp_space([v,u]))==1 *)
Definition same_point (v u : vec) : res bool :=
  l <- remove_doubling_in_perp_space (A3 [v; u]) ;; Ok (Nat.eqb (length l) 1).
Definition dsame_point (v u : vec) : res bool :=
  l <- dremove_doubling_in_perp_space (A3 [v; u]) ;; Ok (Nat.eqb (length l) 1).
Definition atom_of (v : vec) : res atom := p <- projection3 v ;; Ok (numerical_vector N p).
Definition datom_of (v : vec) : res atom := p <- dprojection3 v ;; Ok (dnumerical_vector N p).
(** dode2/intsct.py:85-88 *)
Definition ddistance_in_perp_space (u v : vec) : res (F N) :=
  a <- dsub_vectors u v ;; p <- dprojection3 a ;; Ok (dlength_numerical N p).

(** ico2/occupation_domain.py:133-845.  The file is opened before anything is
    tested.  The test at line 191, "select=='simple' or 'egdes'", holds for every
    select, so the branches for 'normal' and 'podatm' are never taken.
    utils.generator_obj_edge (line 200) does not exist.  An array of ndim other than
    4 raises some exception at line 211, written TypeError here. *)
Definition write_vesta (o : option arr) (select : string) : res (option Z * vesta) :=
  if (String.eqb select "simple" || true)%bool then
    if all_none o then Ok (Some 0%Z, VEmpty)
    else if String.eqb select "simple" then Raise AttributeError
    else match o with
    | Some (A4 edges) =>
        vertices <- remove_doubling_in_perp_space (A4 edges) ;;
        pairs <- mapM (bond_of (distance_in_perp_space N) same_point vertices) edges ;;
        atoms <- mapM atom_of vertices ;;
        Ok (Some 0%Z, VBonds atoms pairs)
    | _ => Raise TypeError
    end
  else Ok (Some 1%Z, VEmpty).

(** dode2/occupation_domain.py:142-859; generator_obj_edge does not exist here
    either. *)
Definition dwrite_vesta (o : option arr) (select : string) : res (option Z * vesta) :=
  if (String.eqb select "simple" || String.eqb select "egdes")%bool then
    if all_none o then Ok (Some 0%Z, VEmpty)
    else if String.eqb select "simple" then Raise AttributeError
    else match o with
    | Some (A4 edges) =>
        vertices <- dremove_doubling_in_perp_space (A4 edges) ;;
        pairs <- mapM (bond_of ddistance_in_perp_space dsame_point vertices) edges ;;
        atoms <- mapM datom_of vertices ;;
        Ok (Some 0%Z, VBonds atoms pairs)
    | _ => Raise TypeError
    end
  else if String.eqb select "normal" then
    if all_none o then Ok (Some 0%Z, VEmpty)
    else match o with
    | Some (A4 o) => items <- mapM (mapM datom_of) o ;; Ok (Some 0%Z, VItems items)
    | _ => Raise TypeError
    end
  else if String.eqb select "podatm" then
    if all_none o then Ok (Some 0%Z, VEmpty) else Raise AttributeError
  else Ok (Some 1%Z, VEmpty).

(** A file written by write: its name and what it holds. *)
Inductive content : Type := CText (s : str) | CVesta (v : vesta).

(** ico2/occupation_domain.py:95-131.  The return values of the two writers are
    ignored. *)
Definition write (ff : tau -> str) (o : option arr) (path basename : str) (format select : string) :
    res (option Z * list (str * content)) :=
  if all_none o then Ok (Some 1%Z, [])
  else if (String.eqb format "vesta" || String.eqb format "v" || String.eqb format "VESTA")%bool then
    '(_, v) <- write_vesta o "normal" ;; Ok (Some 0%Z, [(file_name path basename (lit ".vesta"), CVesta v)])
  else if String.eqb format "xyz" then
    '(_, fs) <- write_xyz ff o path basename select ;; Ok (Some 0%Z, map (fun f => (fst f, CText (snd f))) fs)
  else Ok (Some 0%Z, []).

(** dode2/occupation_domain.py:94-140; select=None is [None]. *)
Definition dwrite (ff : tau -> str) (o : option arr) (path basename : str) (format : string) (select : option string) :
    res (option Z * list (str * content)) :=
  if all_none o then Ok (Some 0%Z, [])
  else if String.eqb format "vesta" then
    let select := match select with Some s => s | None => "normal"%string end in
    '(_, v) <- dwrite_vesta o select ;; Ok (Some 0%Z, [(file_name path basename (lit ".vesta"), CVesta v)])
  else if String.eqb format "xyz" then
    let select := match select with Some s => s | None => "triangle"%string end in
    '(_, fs) <- dwrite_xyz ff o path basename select ;; Ok (Some 0%Z, map (fun f => (fst f, CText (snd f))) fs)
  else Ok (Some 1%Z, []).
End Vesta.
