(** A reader of .vesta files and what VESTA draws. *)
From Coq Require Import Ascii String List ZArith Reals.
From Verif Require Import Base.Res Model.Tau Model.Arr Model.IcoMath1 Model.DodeMath1 Model.Text Model.VestaText Spec.RVec Spec.Cosets Spec.Float Spec.PodText.
Import ListNotations.
Local Open Scope res_scope.

(** Lines are lists of words. *)
Definition line_dec : forall a b : list str, {a = b} + {a <> b} := list_eq_dec (list_eq_dec ascii_dec).
(** The lines after the first line tag *)
Fixpoint after (tag : list str) (ls : list (list str)) : list (list str) :=
  match ls with
  | [] => []
  | l :: ls => if line_dec l tag then ls else after tag ls
  end.
(** The lines before the first line tag, and for each line tag those up to the next. *)
Fixpoint parts (tag : list str) (ls : list (list str)) : list (list str) * list (list (list str)) :=
  match ls with
  | [] => ([], [])
  | l :: ls => let '(h, ps) := parts tag ls in if line_dec l tag then ([], h :: ps) else (l :: h, ps)
  end.
(** The lines up to one that begins with the word 0 *)
Fixpoint until0 (ls : list (list str)) : res (list (list str)) :=
  match ls with
  | (w :: ws) :: ls => if list_eq_dec ascii_dec w (lit "0") then Ok [] else l <- until0 ls ;; Ok ((w :: ws) :: l)
  | _ => Raise ValueError
  end.

(** An atom: its element, the label of its site and its coordinates. *)
Record vatom : Type := VAtom { va_elem : str; va_label : str; va_pos : list str }.
(** A kind of bonds: between which atoms, how long at least and at most, the colour. *)
Record vbond : Type := VBond { vb_1 : str; vb_2 : str; vb_min : str; vb_max : str; vb_color : list str }.
(** A molecule; [m_thermal] and [m_sites] are the labels under THERI and SITET. *)
Record mol : Type := Mol { m_atoms : list vatom; m_bonds : list vbond; m_thermal : list str; m_sites : list str }.
(** Two lines an atom *)
Fixpoint read_struc (l : list (list str)) : res (list vatom) :=
  match l with
  | [] => Ok []
  | (_ :: e :: lab :: _ :: x :: y :: z :: _) :: _ :: l => r <- read_struc l ;; Ok (VAtom e lab [x; y; z] :: r)
  | _ => Raise ValueError
  end.
Definition read_bond (l : list str) : res vbond :=
  match l with
  | _ :: a :: b :: lo :: hi :: _ :: _ :: _ :: _ :: _ :: _ :: _ :: clr => Ok (VBond a b lo hi clr)
  | _ => Raise ValueError
  end.
Definition read_site (l : list str) : res str := match l with _ :: s :: _ => Ok s | _ => Raise ValueError end.
Definition read_mol (ls : list (list str)) : res mol :=
  atoms <- until0 (after [lit "STRUC"] ls) ;; atoms <- read_struc atoms ;;
  thermal <- until0 (after [lit "THERI"; lit "0"] ls) ;; thermal <- mapM read_site thermal ;;
  bonds <- until0 (after [lit "SBOND"] ls) ;; bonds <- mapM read_bond bonds ;;
  sites <- until0 (after [lit "SITET"] ls) ;; sites <- mapM read_site sites ;;
  Ok (Mol atoms bonds thermal sites).
Definition read_vesta (text : str) : res (list mol) :=
  mapM read_mol (snd (parts [lit "MOLECULE"] (map words (read_lines text)))).

(** The decimal number w is r. *)
Definition number (w : str) (r : R) : Prop := exists d, writes d 0 r w.
Definition named (l : str) (a : vatom) : Prop := l = va_label a \/ l = va_elem a.
Definition dist_list (p q : list R) : R := vnorm (vsub p q).
(** VESTA joins two atoms by a bond if they match some kind of bonds, by label or element, and
    their distance, between the positions the file gives, is in the range. *)
Definition draws (m : mol) (a b : vatom) : Prop :=
  exists k p q lo hi, In k (m_bonds m) /\ ((named (vb_1 k) a /\ named (vb_2 k) b) \/ (named (vb_1 k) b /\ named (vb_2 k) a)) /\
    Forall2 number (va_pos a) p /\ Forall2 number (va_pos b) q /\ number (vb_min k) lo /\ number (vb_max k) hi /\
    (lo <= dist_list p q <= hi)%R.
(** The perpendicular components of v are of moderate size. *)
Definition spot_ok (A : R) (v : vec) : Prop := forall r, projection3 v = Ok r -> Forall (coef A) r.
Definition dspot_ok (A : R) (v : vec) : Prop := forall r, dprojection3 v = Ok r -> Forall (coef A) r.
(** The colour a name or a list of numbers stands for; names of three letters that are not in
    the list stand for none. *)
Definition palette : list (string * (Z * Z * Z)) := [("red", (255, 0, 0)); ("r", (255, 0, 0)); ("blue", (0, 0, 255)); ("b", (0, 0, 255));
  ("black", (127, 127, 127)); ("k", (127, 127, 127)); ("pink", (255, 0, 255)); ("p", (255, 0, 255)); ("lime", (0, 255, 0)); ("l", (0, 255, 0));
  ("yellow", (255, 255, 0)); ("y", (255, 255, 0)); ("cyan", (0, 255, 255)); ("c", (0, 255, 255)); ("silver", (192, 192, 192)); ("s", (192, 192, 192))]%string%Z.
Definition shade (c : colour) (rgb : Z * Z * Z) : Prop :=
  match c with
  | Name s => In (s, rgb) palette \/ (~ In s (map fst palette) /\ String.length s <> 3%nat /\ rgb = (127, 127, 127)%Z)
  | Numbers [r; g; b] => rgb = (r, g, b)
  | Numbers _ => rgb = (127, 127, 127)%Z
  end.
