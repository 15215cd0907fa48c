(** The numbers the floating-point code computes from exact coordinates, and the numbers
    written into files: C88, C89. *)
From Coq Require Import Ascii String List Reals ZArith Bool.
From Flocq Require Import IEEE754.Binary.
From Verif Require Import Base.Res Model.Tau Model.Num Model.IcoNumeric Model.DodeNumeric Model.Text Model.Xyz
  Spec.Value Spec.DecimalSpec.
Import ListNotations.
Local Open Scope R_scope.
Local Existing Instance textbook.
From Verif Require Import Proofs.P_Rounding.
Import ListNotations.
Local Open Scope R_scope.

(** C88: a finite double is written as blanks, sign, digits, point and six digits; the number
    written is the multiple of 1e-6 nearest to it, the even one of two. *)
Theorem C88_format : forall x, is_finite 53 1024 x = true ->
  exists n, decimal6 (show_f8_6 x) (Bsign 53 1024 x) n /\ nearest_even n (Rabs (B2R 53 1024 x) * 1000000).
Proof. exact L_C88_format. Qed.
Print Assumptions C88_format.

(** The coordinate (a+b*TAU)/c in a file differs from its exact value by at most 5e-7 plus
    the rounding error of numeric_value. *)
Theorem C88_coordinate : forall a b c, (Z.abs a <= 2^53)%Z -> (Z.abs b <= 2^53)%Z -> (Z.abs c <= 2^53)%Z -> c <> 0%Z ->
  exists n s, decimal6 (ico_ff (T a b c)) s n /\
    Rabs ((if s then - IZR n else IZR n) / 1000000 - val TAU (T a b c)) <= 1/2000000 + (Rabs (IZR a) + 2 * Rabs (IZR b)) / (2^51 * Rabs (IZR c)).
Proof. exact L_C88_coordinate. Qed.
Print Assumptions C88_coordinate.

Theorem C88_dode_coordinate : forall a b c, (Z.abs a <= 2^53)%Z -> (Z.abs b <= 2^53)%Z -> (Z.abs c <= 2^53)%Z -> c <> 0%Z ->
  exists n s, decimal6 (dode_ff (T a b c)) s n /\
    Rabs ((if s then - IZR n else IZR n) / 1000000 - val SIN (T a b c)) <= 1/2000000 + (Rabs (IZR a) + 2 * Rabs (IZR b)) / (2^51 * Rabs (IZR c)).
Proof. exact L_C88_dode_coordinate. Qed.
Print Assumptions C88_dode_coordinate.

(** (-1+0*TAU)/2, TAU and 3-2*TAU *)
Example C88_ex : ico_ff (T (-1) 0 2) = list_ascii_of_string "-0.500000" /\ ico_ff (T 0 1 1) = list_ascii_of_string "1.618034" /\
  ico_ff (T 3 (-2) 1) = list_ascii_of_string "-0.236068".
Proof. exact E_C88_ex. Qed.

(** C89: numeric_value in binary64 is (a+b*TAU)/c up to 2^-51 (|a|+2|b|)/|c|, for
    coefficients up to 2^53; it never is infinite or nan. *)
Theorem C89_numeric_value : forall a b c, (Z.abs a <= 2^53)%Z -> (Z.abs b <= 2^53)%Z -> (Z.abs c <= 2^53)%Z -> c <> 0%Z ->
  is_finite 53 1024 (numeric_value Bnum (T a b c)) = true /\
  Rabs (B2R 53 1024 (numeric_value Bnum (T a b c)) - val TAU (T a b c)) <= (Rabs (IZR a) + 2 * Rabs (IZR b)) / (2^51 * Rabs (IZR c)).
Proof. exact L_C89_numeric_value. Qed.
Print Assumptions C89_numeric_value.

Theorem C89_dode_numeric_value : forall a b c, (Z.abs a <= 2^53)%Z -> (Z.abs b <= 2^53)%Z -> (Z.abs c <= 2^53)%Z -> c <> 0%Z ->
  is_finite 53 1024 (dnumeric_value Bnum (T a b c)) = true /\
  Rabs (B2R 53 1024 (dnumeric_value Bnum (T a b c)) - val SIN (T a b c)) <= (Rabs (IZR a) + 2 * Rabs (IZR b)) / (2^51 * Rabs (IZR c)).
Proof. exact L_C89_dode_numeric_value. Qed.
Print Assumptions C89_dode_numeric_value.

(** The relative error is not bounded: a number that is not zero is computed as zero. *)
Theorem C89_zero_refuted : exists t, wf t /\ val TAU t <> 0 /\ B2R 53 1024 (numeric_value Bnum t) = 0.
Proof. exact L_C89_zero_refuted. Qed.
Print Assumptions C89_zero_refuted.

(** TAU^3 and the numbers above meet the hypotheses; the first is computed as
    4.23606797749979 (the double nearest to it is that number). *)
Example C89_ex : (Z.abs 1 <= 2^53)%Z /\ (Z.abs 2 <= 2^53)%Z /\ 1%Z <> 0%Z /\
  B2FF 53 1024 (numeric_value Bnum (T 1 2 1)) = F754_finite false 4769388541246036 (-50).
Proof. exact E_C89_ex. Qed.
