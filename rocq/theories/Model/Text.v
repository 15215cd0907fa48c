(** Text as lists of characters, and the parts of Python's formatting and parsing
    the file readers and writers use.  Simplification: characters are bytes; other
    code points do not occur in the files except inside the file name. *)
From Coq Require Import Ascii String Decimal List ZArith Bool.
From Flocq Require Import IEEE754.BinarySingleNaN IEEE754.Binary IEEE754.Bits.
From Verif Require Import Base.Res.
Import ListNotations.
Local Open Scope Z_scope.
Local Open Scope res_scope.

Notation str := (list ascii).
Definition lit (s : string) : str := list_ascii_of_string s.
Definition nl : ascii := "010"%char.
Definition cr : ascii := "013"%char.
Definition sp : ascii := " "%char.

(** '%d' *)
Fixpoint show_uint (d : uint) : str :=
  match d with
  | Nil => []
  | D0 d => "0" :: show_uint d | D1 d => "1" :: show_uint d | D2 d => "2" :: show_uint d
  | D3 d => "3" :: show_uint d | D4 d => "4" :: show_uint d | D5 d => "5" :: show_uint d
  | D6 d => "6" :: show_uint d | D7 d => "7" :: show_uint d | D8 d => "8" :: show_uint d
  | D9 d => "9" :: show_uint d
  end%char.
Definition show_Z (z : Z) : str :=
  match Z.to_int z with Pos d => show_uint d | Neg d => "-"%char :: show_uint d end.
Definition show_nat (n : nat) : str := show_Z (Z.of_nat n).

(** A field of minimal width w, filled with c on the left: '%3d', '%8.6f' *)
Definition pad (c : ascii) (w : nat) (s : str) : str := (repeat c (w - length s) ++ s)%list.

(** '%.6f' of a double: the exact value rounded to six decimals, ties to even, as
    CPython does. *)
Definition half_even (n d : Z) : Z :=   (* n / d, d > 0 *)
  let q := n / d in let r := 2 * (n - d * q) in
  if r <? d then q else if d <? r then q + 1 else if Z.even q then q else q + 1.
Definition micro (m : positive) (e : Z) : Z :=   (* m * 2^e * 10^6, rounded *)
  if 0 <=? e then Zpos m * 2 ^ e * 1000000 else half_even (Zpos m * 1000000) (2 ^ (- e)).
Definition sign_str (s : bool) : str := if s then ["-"%char] else [].
Definition fixed6 (n : Z) : str :=
  (show_Z (n / 1000000) ++ "."%char :: pad "0"%char 6 (show_Z (n mod 1000000)))%list.
Definition show_f6 (x : binary64) : str :=
  match x with
  | B754_zero _ _ s => (sign_str s ++ fixed6 0)%list
  | B754_infinity _ _ s => (sign_str s ++ lit "inf")%list
  | B754_nan _ _ _ _ _ => lit "nan"
  | B754_finite _ _ s m e _ => (sign_str s ++ fixed6 (micro m e))%list
  end.
(** '%8.6f' *)
Definition show_f8_6 (x : binary64) : str := pad sp 8 (show_f6 x).

(** str.split(): the maximal runs of non-white characters. *)
Definition white (c : ascii) : bool :=
  let n := nat_of_ascii c in ((9 <=? n)%nat && (n <=? 13)%nat) || ((28 <=? n)%nat && (n <=? 32)%nat).
Fixpoint split_run (cur : str) (s : str) : list str :=   (* cur: current run, reversed *)
  match s with
  | [] => match cur with [] => [] | _ => [rev cur] end
  | c :: s => if white c then match cur with [] => split_run [] s | _ => rev cur :: split_run [] s end
              else split_run (c :: cur) s
  end.
Definition words (s : str) : list str := split_run [] s.

(** int(s) for a string without white space: an optional sign, digits, and single
    underscores between digits; anything else is a ValueError. *)
Definition digit (c : ascii) : option Z :=
  let n := Z.of_nat (nat_of_ascii c) in if (48 <=? n) && (n <=? 57) then Some (n - 48) else None.
Fixpoint digits (acc : Z) (s : str) : res Z :=
  match s with
  | [] => Ok acc
  | c :: s =>
      match digit c with
      | Some d => digits (10 * acc + d) s
      | None => if Ascii.eqb c "_" then
                  match s with
                  | c' :: _ => match digit c' with Some _ => digits acc s | None => Raise ValueError end
                  | [] => Raise ValueError
                  end
                else Raise ValueError
      end
  end.
Definition unsigned (s : str) : res Z :=
  match s with
  | c :: _ => match digit c with Some _ => digits 0 s | None => Raise ValueError end
  | [] => Raise ValueError
  end.
Definition py_int (s : str) : res Z :=
  match s with
  | c :: s' => if Ascii.eqb c "-" then z <- unsigned s' ;; Ok (- z)
               else if Ascii.eqb c "+" then unsigned s' else unsigned s
  | [] => Raise ValueError
  end.

(** Text mode reading translates "\r\n" and "\r" to "\n". *)
Fixpoint newlines (s : str) : str :=
  match s with
  | [] => []
  | c :: s' => if Ascii.eqb c cr then
                 match s' with
                 | c' :: _ => if Ascii.eqb c' nl then newlines s' else nl :: newlines s'
                 | [] => [nl]
                 end
               else c :: newlines s'
  end.
(** readline until the end of the file; each line keeps its newline, the last one
    may lack it. *)
Fixpoint lines_run (cur : str) (s : str) : list str :=
  match s with
  | [] => match cur with [] => [] | _ => [rev cur] end
  | c :: s => if Ascii.eqb c nl then rev (c :: cur) :: lines_run [] s else lines_run (c :: cur) s
  end.
(** read_file of read_xyz (ico2/occupation_domain.py:1065-1077,
    dode2/occupation_domain.py:1031-1043): a[:-1] of every line. *)
Definition read_lines (content : str) : list str := map (@removelast ascii) (lines_run [] (newlines content)).
