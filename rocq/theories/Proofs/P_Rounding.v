(** The numbers the floating-point code computes from exact coordinates, and the numbers
    written into files: C88, C89. *)
From Coq Require Import Ascii String List Reals ZArith Bool.
From Flocq Require Import IEEE754.Binary.
From Verif Require Import Base.Res Model.Tau Model.Num Model.IcoNumeric Model.DodeNumeric Model.Text Model.Xyz
  Spec.Value Spec.DecimalSpec.
Import ListNotations.
Local Open Scope R_scope.
Local Existing Instance textbook.

From Coq Require Import Lia Lra.
From Verif Require Import Proofs.Irrational Proofs.FormatLemmas Proofs.RoundLemmas.

(** C88: a finite double is written as blanks, sign, digits, point and six digits; the number
    written is the multiple of 1e-6 nearest to it, the even one of two. *)
Lemma L_C88_format : forall x, is_finite 53 1024 x = true ->
  exists n, decimal6 (show_f8_6 x) (Bsign 53 1024 x) n /\ nearest_even n (Rabs (B2R 53 1024 x) * 1000000).
Proof. exact show_f8_6_spec. Qed.

Lemma Bsign_abs x : is_finite 53 1024 x = true -> Rabs (B2R 53 1024 x) = if Bsign 53 1024 x then - B2R 53 1024 x else B2R 53 1024 x.
Proof.
  destruct x as [s|s|s pl H|s m e B]; try discriminate; intros _; cbn [B2R Bsign]; [rewrite Rabs_R0; destruct s; lra|].
  rewrite <- Float_prop.F2R_Zabs. destruct s; cbn [SpecFloat.cond_Zopp Z.abs Z.opp].
  - rewrite <- Float_prop.F2R_Zopp. reflexivity.
  - reflexivity.
Qed.
Lemma text_value x r e : apx x r e -> exists n s, decimal6 (show_f8_6 x) s n /\ Rabs ((if s then - IZR n else IZR n) / 1000000 - r) <= 1/2000000 + e.
Proof.
  intros [Fx Hx]. destruct (show_f8_6_spec x Fx) as (n & D & Nn & _). exists n, (Bsign 53 1024 x). split; [exact D|].
  rewrite (Bsign_abs x Fx) in Nn. set (v := B2R 53 1024 x) in *.
  replace ((if Bsign 53 1024 x then - IZR n else IZR n) / 1000000 - r) with (((if Bsign 53 1024 x then - IZR n else IZR n) / 1000000 - v) + (v - r)) by ring.
  eapply Rle_trans; [apply Rabs_triang|]. apply Rplus_le_compat; [|exact Hx].
  destruct (Bsign 53 1024 x).
  - replace (- IZR n / 1000000 - v) with (- ((IZR n - - v * 1000000) / 1000000)) by field. rewrite Rabs_Ropp. unfold Rdiv at 1. rewrite Rabs_mult, (Rabs_pos_eq (/ 1000000)) by lra. lra.
  - replace (IZR n / 1000000 - v) with ((IZR n - v * 1000000) / 1000000) by field. unfold Rdiv at 1. rewrite Rabs_mult, (Rabs_pos_eq (/ 1000000)) by lra. lra.
Qed.

(** The coordinate (a+b*TAU)/c in a file differs from its exact value by at most 5e-7 plus
    the rounding error of numeric_value. *)
Lemma L_C88_coordinate : forall a b c, (Z.abs a <= 2^53)%Z -> (Z.abs b <= 2^53)%Z -> (Z.abs c <= 2^53)%Z -> c <> 0%Z ->
  exists n s, decimal6 (ico_ff (T a b c)) s n /\
    Rabs ((if s then - IZR n else IZR n) / 1000000 - val TAU (T a b c)) <= 1/2000000 + (Rabs (IZR a) + 2 * Rabs (IZR b)) / (2^51 * Rabs (IZR c)).
Proof. intros a b c Ha Hb Hc Nc. replace (2^51) with 2251799813685248 by (cbn; lra). apply text_value, numeric_value_apx; assumption. Qed.
Lemma L_C88_dode_coordinate : forall a b c, (Z.abs a <= 2^53)%Z -> (Z.abs b <= 2^53)%Z -> (Z.abs c <= 2^53)%Z -> c <> 0%Z ->
  exists n s, decimal6 (dode_ff (T a b c)) s n /\
    Rabs ((if s then - IZR n else IZR n) / 1000000 - val SIN (T a b c)) <= 1/2000000 + (Rabs (IZR a) + 2 * Rabs (IZR b)) / (2^51 * Rabs (IZR c)).
Proof. intros a b c Ha Hb Hc Nc. replace (2^51) with 2251799813685248 by (cbn; lra). apply text_value, dnumeric_value_apx; assumption. Qed.

(** (-1+0*TAU)/2, TAU and 3-2*TAU *)
Example E_C88_ex : ico_ff (T (-1) 0 2) = list_ascii_of_string "-0.500000" /\ ico_ff (T 0 1 1) = list_ascii_of_string "1.618034" /\
  ico_ff (T 3 (-2) 1) = list_ascii_of_string "-0.236068".
Proof. split; [|split]; match goal with |- _ = ?r => vm_cast_no_check (eq_refl r) end. Qed.

(** C89: numeric_value in binary64 is (a+b*TAU)/c up to 2^-51 (|a|+2|b|)/|c|, for
    coefficients up to 2^53; it never is infinite or nan. *)
Lemma L_C89_numeric_value : forall a b c, (Z.abs a <= 2^53)%Z -> (Z.abs b <= 2^53)%Z -> (Z.abs c <= 2^53)%Z -> c <> 0%Z ->
  is_finite 53 1024 (numeric_value Bnum (T a b c)) = true /\
  Rabs (B2R 53 1024 (numeric_value Bnum (T a b c)) - val TAU (T a b c)) <= (Rabs (IZR a) + 2 * Rabs (IZR b)) / (2^51 * Rabs (IZR c)).
Proof. intros a b c Ha Hb Hc Nc. replace (2^51) with 2251799813685248 by (cbn; lra). apply numeric_value_apx; assumption. Qed.
Lemma L_C89_dode_numeric_value : forall a b c, (Z.abs a <= 2^53)%Z -> (Z.abs b <= 2^53)%Z -> (Z.abs c <= 2^53)%Z -> c <> 0%Z ->
  is_finite 53 1024 (dnumeric_value Bnum (T a b c)) = true /\
  Rabs (B2R 53 1024 (dnumeric_value Bnum (T a b c)) - val SIN (T a b c)) <= (Rabs (IZR a) + 2 * Rabs (IZR b)) / (2^51 * Rabs (IZR c)).
Proof. intros a b c Ha Hb Hc Nc. replace (2^51) with 2251799813685248 by (cbn; lra). apply dnumeric_value_apx; assumption. Qed.

(** The relative error is not bounded: a number that is not zero is computed as zero. *)
Lemma L_C89_zero_refuted : exists t, wf t /\ val TAU t <> 0 /\ B2R 53 1024 (numeric_value Bnum t) = 0.
Proof.
  exists (T 165580141 (-102334155) 1). split; [cbv; discriminate|]. split.
  - unfold val. cbn [ta tb tc]. intros E. destruct (TAU_irrational 165580141%Z (-102334155)%Z) as [K _]; [lra|discriminate K].
  - rewrite <- FF2R_B2FF. assert (E : B2FF 53 1024 (numeric_value Bnum (T 165580141 (-102334155) 1)) = F754_zero false) by (vm_cast_no_check (eq_refl (F754_zero false))).
    rewrite E. reflexivity.
Qed.

(** TAU^3 and the numbers above meet the hypotheses; the first is computed as
    4.23606797749979 (the double nearest to it is that number). *)
Example E_C89_ex : (Z.abs 1 <= 2^53)%Z /\ (Z.abs 2 <= 2^53)%Z /\ 1%Z <> 0%Z /\
  B2FF 53 1024 (numeric_value Bnum (T 1 2 1)) = F754_finite false 4769388541246036 (-50).
Proof. split; [cbn; lia|]. split; [cbn; lia|]. split; [discriminate|]. match goal with |- _ = ?r => vm_cast_no_check (eq_refl r) end. Qed.
