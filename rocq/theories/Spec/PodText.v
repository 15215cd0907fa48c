(** A reader of .pod and .atm files. *)
From Coq Require Import Ascii String List ZArith Reals.
From Verif Require Import Base.Res Model.Tau Model.Text Spec.DecimalSpec.
Import ListNotations.
Local Open Scope res_scope.

(** The words after the tag a line begins with. *)
Definition tagged (tag : string) (l : str) : res (list str) :=
  match words l with
  | w :: ws => if list_eq_dec ascii_dec w (lit tag) then Ok ws else Raise ValueError
  | [] => Raise ValueError
  end.

(** One entry of a .pod file: its number, the number of vectors, the vectors after ej= as
    words, the number after nth= and the indices that follow it. *)
Record entry : Type := Entry { e_number : Z; e_count : Z; e_ej : list (list str); e_nth : Z; e_idx : list Z }.
(** A line with the number and the count, as many lines ej= as that says, a line nth=. *)
Definition read_entry (ls : list str) : res (entry * list str) :=
  match ls with
  | [] => Raise IndexError
  | h :: ls =>
      match words h with
      | w1 :: w2 :: _ =>
          k <- py_int w1 ;; n <- py_int w2 ;;
          ej <- mapM (tagged "ej=") (firstn (Z.to_nat n) ls) ;;
          match skipn (Z.to_nat n) ls with
          | [] => Raise IndexError
          | l :: rest =>
              ws <- tagged "nth=" l ;;
              match ws with
              | m :: ws => m <- py_int m ;; idx <- mapM py_int ws ;; Ok (Entry k n ej m idx, rest)
              | [] => Raise ValueError
              end
          end
      | _ => Raise ValueError
      end
  end.
(** n entries, two lines after each, and nothing else *)
Fixpoint read_entries (n : nat) (ls : list str) : res (list entry) :=
  match n with
  | O => match ls with [] => Ok [] | _ => Raise ValueError end
  | S n => '(e, ls) <- read_entry ls ;; es <- read_entries n (skipn 2 ls) ;; Ok (e :: es)
  end.
(** The fourth word is io= and the number of entries; five more lines; the entries. *)
Definition read_pod (text : str) : res (list entry) :=
  match read_lines text with
  | h :: ls =>
      match words h with
      | [_; _; _; io] =>
          if list_eq_dec ascii_dec (firstn 3 io) (lit "io=")
          then n <- py_int (skipn 3 io) ;; read_entries (Z.to_nat n) (skipn 5 ls)
          else Raise ValueError
      | _ => Raise ValueError
      end
  | [] => Raise IndexError
  end.
(** The file of a single entry, without anything else. *)
Definition read_pod1 (text : str) : res entry :=
  '(e, ls) <- read_entry (read_lines text) ;; match ls with [] => Ok e | _ => Raise ValueError end.

(** One atom of an .atm file: its number, the number of its entry in the .pod file, the six
    words after x= and after xi=. *)
Record atom : Type := Atom { a_number : Z; a_pod : Z; a_x : list str; a_xi : list str }.
Definition read_head (h : str) : res (Z * Z) :=
  match words h with
  | w1 :: _ :: _ :: w4 :: _ => k <- py_int w1 ;; p <- py_int w4 ;; Ok (k, p)
  | _ => Raise ValueError
  end.
(** Seven lines each, x= on the second, xi= on the sixth *)
Fixpoint read_atoms (ls : list str) : res (list atom) :=
  match ls with
  | [] => Ok []
  | h :: x :: _ :: _ :: _ :: xi :: _ :: ls =>
      '(k, p) <- read_head h ;; x <- tagged "x=" x ;; xi <- tagged "xi=" xi ;;
      l <- read_atoms ls ;; Ok (Atom k p x (firstn 6 xi) :: l)
  | _ => Raise IndexError
  end.
Definition read_atm (text : str) : res (list atom) := read_atoms (read_lines text).
(** The file of a single atom: two lines. *)
Definition read_atm1 (text : str) : res (Z * Z * list str) :=
  match read_lines text with
  | [h; x] => '(k, p) <- read_head h ;; x <- tagged "x=" x ;; Ok (k, p, x)
  | _ => Raise ValueError
  end.

(** The word printed for x *)
Definition prints {A} (f : A -> str) (x : A) (w : str) : Prop := words (f x) = [w].
(** w is a decimal number with d decimals that differs from r by at most err. *)
Definition writes (d : nat) (err : R) (r : R) (w : str) : Prop :=
  exists (neg : bool) i f ni nf, w = (if neg then ["-"%char] else []) ++ i ++ "."%char :: f /\
    numeral i ni /\ numeral f nf /\ length f = d /\
    (Rabs ((if neg then - (IZR ni + IZR nf / 10 ^ d) else IZR ni + IZR nf / 10 ^ d) - r) <= err)%R.
(** Coefficients of at most about a million. *)
Definition modest (t : tau) : Prop := (Z.abs (ta t) <= 2 ^ 20 /\ Z.abs (tb t) <= 2 ^ 20 /\ Z.abs (tc t) <= 2 ^ 53)%Z.
