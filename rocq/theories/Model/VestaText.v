(** The text of .vesta files: write_vesta of ico2/occupation_domain.py:133-420 (the branch
    all calls take) and dode2/occupation_domain.py:142-641 (the branches 'egdes' and 'normal').

    Model/Writers.v computes the data; here they are printed.  The two branches for edges print
    the same text, the branch 'normal' of dode2 the same up to the symbol of the atoms, blanks at
    the ends of lines and the bond lines.  The fixed text was taken from the source by a script.
    Simplification: a colour is a name or a list of integers. *)
From Coq Require Import Ascii String List ZArith Bool.
From Verif Require Import Base.Res Model.Tau Model.Arr Model.Num Model.Text Model.PodText Model.Writers.
Import ListNotations.
Local Open Scope res_scope.

(** print of a string that is continued with a backslash: the lines, each but the last
    followed by the indentation of the source, p blanks *)
Definition text (p : nat) (ls : list string) : str := join (repeat sp p ++ [nl]) (map lit ls) ++ [nl].

(** ico2/occupation_domain.py:226-247, dode2/occupation_domain.py:248-269 and 454-477 *)
Definition vesta_group : list string := [
  "GROUP";
  "1 1 Custom";
  "SYMOP";
  " 0.000000  0.000000  0.000000  1  0  0    0  1  0    0  0  1    1";
  " -1.0 -1.0 -1.0  0 0 0  0 0 0  0 0 0";
  "TRANM 0";
  " 0.000000  0.000000  0.000000  1  0  0    0  1  0    0  0  1";
  "LTRANSL";
  " -1";
  " 0.000000  0.000000  0.000000  0.000000  0.000000  0.000000";
  "LORIENT";
  " -1    0    0    0    0";
  " 1.000000  0.000000  0.000000  1.000000  0.000000  0.000000";
  " 0.000000  0.000000  1.000000  0.000000  0.000000  1.000000";
  "LMATRIX";
  " 1.000000  0.000000  0.000000  0.000000";
  " 0.000000  1.000000  0.000000  0.000000";
  " 0.000000  0.000000  1.000000  0.000000";
  " 0.000000  0.000000  0.000000  1.000000";
  " 0.000000  0.000000  0.000000";
  "CELLP";
  "  1.000000    1.000000    1.000000  90.000000  90.000000  90.000000";
  "  0.000000    0.000000    0.000000    0.000000    0.000000    0.000000";
  "STRUC"]%string.
(** ico2/occupation_domain.py:264-270, dode2/occupation_domain.py:286-292 and 488-494 *)
Definition vesta_shape : list string := [
  "  0 0 0";
  "SHAPE";
  "  0         0         0         0    0.000000  0    192    192    192    192";
  "BOUND";
  "         0          1        0          1        0          1";
  "  0    0    0    0  0";
  "SBOND"]%string.
(** ico2/occupation_domain.py:283-301, dode2/occupation_domain.py:305-323 and 501-519 *)
Definition vesta_vectors : list string := [
  "  0 0 0 0 0 0";
  "VECTR";
  " 0 0 0 0 0";
  "VECTT";
  " 0 0 0 0 0";
  "SPLAN";
  "  0    0    0    0";
  "LBLAT";
  " -1";
  "LBLSP";
  " -1";
  "DLATM";
  " -1";
  "DLBND";
  " -1";
  "DLPLY";
  " -1";
  "PLN2D";
  "  0    0    0    0"]%string.
(** ico2/occupation_domain.py:305-414, dode2/occupation_domain.py:327-436 and 522-631: after the symbol *)
Definition vesta_scene : list string := [
  "  0 0 0 0 0 0";
  "SCENE";
  "-0.538344 -0.838391  0.085359  0.000000";
  "-0.362057  0.138632 -0.921789  0.000000";
  " 0.760986 -0.527145 -0.378177  0.000000";
  " 0.000000  0.000000  0.000000  1.000000";
  "  0.000    0.000";
  "  0.000";
  "  1.320";
  "HBOND 0 2";
  "";
  "STYLE";
  "DISPF 37753794";
  "MODEL    0  1  0";
  "SURFS    0  1  1";
  "SECTS  32  1";
  "FORMS    0  1";
  "ATOMS    0  0  1";
  "BONDS    2";
  "POLYS    1";
  "VECTS 1.000000";
  "FORMP";
  "  1  1.0    0    0    0";
  "ATOMP";
  " 24  24    0  50  2.0    0";
  "BONDP";
  "  1  16  0.250  2.000 127 127 127";
  "POLYP";
  " 204 1  1.000 180 180 180";
  "ISURF";
  "  0    0    0    0";
  "TEX3P";
  "  1  0.00000E+00  1.00000E+00";
  "SECTP";
  "  1  5.00000E-01  5.00000E-01  0.00000E+00  0.00000E+00  0.00000E+00  0.00000E+00";
  "CONTR";
  " 0.1 -1 1 1 10 -1 2 5";
  " 2 1 2 1";
  "    0    0    0";
  "    0    0    0";
  "    0    0    0";
  "    0    0    0";
  "HKLPP";
  " 192 1  1.000 255    0 255";
  "UCOLP";
  "    0    1  1.000    0    0    0";
  "COMPS 0";
  "LABEL 1     12  1.000 0";
  "PROJT 0  0.962";
  "BKGRC";
  " 255 255 255";
  "DPTHQ 1 -0.5000  3.5000";
  "LIGHT0 1";
  " 1.000000  0.000000  0.000000  0.000000";
  " 0.000000  1.000000  0.000000  0.000000";
  " 0.000000  0.000000  1.000000  0.000000";
  " 0.000000  0.000000  0.000000  1.000000";
  " 0.000000  0.000000 20.000000  0.000000";
  " 0.000000  0.000000 -1.000000";
  "  26  26  26 255";
  " 179 179 179 255";
  " 255 255 255 255";
  "LIGHT1";
  " 1.000000  0.000000  0.000000  0.000000";
  " 0.000000  1.000000  0.000000  0.000000";
  " 0.000000  0.000000  1.000000  0.000000";
  " 0.000000  0.000000  0.000000  1.000000";
  " 0.000000  0.000000 20.000000  0.000000";
  " 0.000000  0.000000 -1.000000";
  "    0    0    0    0";
  "    0    0    0    0";
  "    0    0    0    0";
  "LIGHT2";
  " 1.000000  0.000000  0.000000  0.000000";
  " 0.000000  1.000000  0.000000  0.000000";
  " 0.000000  0.000000  1.000000  0.000000";
  " 0.000000  0.000000  0.000000  1.000000";
  " 0.000000  0.000000 20.000000  0.000000";
  " 0.000000  0.000000 -1.000000";
  "    0    0    0    0";
  "    0    0    0    0";
  "    0    0    0    0";
  "LIGHT3";
  " 1.000000  0.000000  0.000000  0.000000";
  " 0.000000  1.000000  0.000000  0.000000";
  " 0.000000  0.000000  1.000000  0.000000";
  " 0.000000  0.000000  0.000000  1.000000";
  " 0.000000  0.000000 20.000000  0.000000";
  " 0.000000  0.000000 -1.000000";
  "    0    0    0    0";
  "    0    0    0    0";
  "    0    0    0    0";
  "ATOMM";
  " 204 204 204 255";
  "  25.600";
  "BONDM";
  " 255 255 255 255";
  " 128.000";
  "POLYM";
  " 255 255 255 255";
  " 128.000";
  "SURFM";
  "    0    0    0 255";
  " 128.000";
  "FORMM";
  " 255 255 255 255";
  " 128.000";
  "HKLPM";
  " 255 255 255 255";
  " 128.000"]%string.

(** colors: lines 162-183; dode2 lines 172-193.  A name of three characters that is not known is
    returned as it is, and '%3d' then refuses its characters: [None]. *)
Inductive colour : Type := Name (s : string) | Numbers (l : list Z).
Definition colors (c : colour) : option (Z * Z * Z) :=
  match c with
  | Name s =>
      if (String.eqb s "red" || String.eqb s "r")%bool then Some (255, 0, 0)%Z
      else if (String.eqb s "blue" || String.eqb s "b")%bool then Some (0, 0, 255)%Z
      else if (String.eqb s "black" || String.eqb s "k")%bool then Some (127, 127, 127)%Z
      else if (String.eqb s "pink" || String.eqb s "p")%bool then Some (255, 0, 255)%Z
      else if (String.eqb s "lime" || String.eqb s "l")%bool then Some (0, 255, 0)%Z
      else if (String.eqb s "yellow" || String.eqb s "y")%bool then Some (255, 255, 0)%Z
      else if (String.eqb s "cyan" || String.eqb s "c")%bool then Some (0, 255, 255)%Z
      else if (String.eqb s "silver" || String.eqb s "s")%bool then Some (192, 192, 192)%Z
      else if Nat.eqb (String.length s) 3 then None else Some (127, 127, 127)%Z
  | Numbers [a; b; c] => Some (a, b, c)
  | Numbers _ => Some (127, 127, 127)%Z
  end.
(** ' %3d %3d %3d' *)
Definition show_colour (c : colour) : res str :=
  match colors c with
  | Some (r, g, b) => Ok (sp :: pad sp 3 (show_Z r) ++ sp :: pad sp 3 (show_Z g) ++ sp :: pad sp 3 (show_Z b))
  | None => Raise TypeError
  end.

Section VestaText.
Variable N : num.
Variable f6 : F N -> str.   (* '%8.6f' *)

(** ico2/occupation_domain.py:254-257 *)
Definition struc_line (sym : str) (i : Z) (xyz : list (F N)) : res str :=
  x <- get xyz 0 ;; y <- get xyz 1 ;; z <- get xyz 2 ;;
  Ok (pad sp 4 (show_Z i) ++ sp :: sym ++ lit "        " ++ sym ++ show_Z i ++ lit "  1.0000    " ++
      f6 x ++ sp :: f6 y ++ sp :: f6 z ++ lit "        1" ++ [nl] ++
      lit "                             0.000000    0.000000    0.000000  0.00" ++ [nl]).
(** line 262 *)
Definition theri_line (sym : str) (i : Z) : str := lit "  " ++ show_Z i ++ lit "        " ++ sym ++ show_Z i ++ lit "  1.000000" ++ [nl].
(** line 281 *)
Definition sitet_line (sym radius : str) (i : Z) : str :=
  lit "    " ++ show_Z i ++ lit "        " ++ sym ++ show_Z i ++ lit "  " ++ radius ++ lit "  76  76  76  76  76  76 204  0" ++ [nl].
(** lines 274-275; 0.01 is the double nearest to 1/100 *)
Definition bond_line (c : colour) (i : Z) (b : F N * nat * nat) : res str :=
  let '(d, a1, a2) := b in
  clr <- show_colour c ;;
  Ok (lit "  " ++ show_Z i ++ lit "   A" ++ show_nat (S a1) ++ lit "   A" ++ show_nat (S a2) ++ lit "   " ++
      f6 (fsub N d (flit N 1 100)) ++ lit "   " ++ f6 (fadd N d (flit N 1 100)) ++ lit "  0  1  1  1  2  0.250  2.000" ++ clr ++ [nl]).

Definition each (f : Z -> str) (n : nat) : str := concat (map (fun i => f (Z.of_nat (S i))) (seq 0 n)).
(** From MOLECULE to PLN2D: lines 223-301 *)
Definition molecule (p : nat) (sym radius title : str) (atoms : list (list (F N))) (bonds : str) : res str :=
  struc <- numbered (struc_line sym) atoms ;;
  Ok (text p ["MOLECULE"; "TITLE"]%string ++ title ++ [nl; nl] ++ text p vesta_group ++ struc ++
      text p ["  0 0 0 0 0 0 0"; "THERI 0"]%string ++ each (theri_line sym) (length atoms) ++
      text p vesta_shape ++ bonds ++ text p ["  0 0 0 0"; "SITET"]%string ++ each (sitet_line sym radius) (length atoms) ++
      text p vesta_vectors).
Definition vesta_head : str := text 0 ["#VESTA_FORMAT_VERSION 3.5.0"; ""]%string.
(** lines 303-414 *)
Definition vesta_tail (sym : str) : str :=
  lit "ATOMT" ++ repeat sp 12 ++ [nl] ++ lit "  1        " ++ sym ++ lit "  0.0100  76  76  76  76  76  76 204" ++ repeat sp 12 ++ [nl] ++
  text 12 vesta_scene.

Definition bonds_text (path basename : str) (c : colour) (atoms : list (list (F N))) (bonds : list (F N * nat * nat)) : res str :=
  bs <- numbered (bond_line c) bonds ;;
  m <- molecule 12 (lit "A") (lit "0.100") (path ++ lit "/" ++ basename) atoms bs ;;
  Ok (vesta_head ++ m ++ vesta_tail (lit "A")).
(** dode2/occupation_domain.py:448-631; '%3.2f'%dmax with dmax=10.0 is 10.00 *)
Definition items_text (path basename : str) (c : colour) (items : list (list (list (F N)))) : res str :=
  ms <- mapM (fun p => clr <- show_colour c ;; molecule 16 (lit "Xx") (lit "0.0100") (path ++ lit "/" ++ basename ++ lit "_" ++ show_nat (fst p)) (snd p)
        (lit "  1     Xx     Xx     0.00000     10.00  0  1  1  0  2  0.250  2.000" ++ clr ++ [nl])) (combine (seq 0 (length items)) items) ;;
  Ok (vesta_head ++ concat ms ++ vesta_tail (lit "Xx")).
Definition vesta_text (path basename : str) (c : colour) (v : vesta N) : res str :=
  match v with
  | VEmpty _ => Ok []
  | VBonds _ atoms bonds => bonds_text path basename c atoms bonds
  | VItems _ items => items_text path basename c items
  end.
(** write_vesta: the return value and the text of the file *)
Definition write_vesta_text (o : option arr) (path basename : str) (c : colour) (select : string) : res (option Z * str) :=
  '(r, v) <- write_vesta N o select ;; t <- vesta_text path basename c v ;; Ok (r, t).
Definition dwrite_vesta_text (o : option arr) (path basename : str) (c : colour) (select : string) : res (option Z * str) :=
  '(r, v) <- dwrite_vesta N o select ;; t <- vesta_text path basename c v ;; Ok (r, t).
End VestaText.
