(** The numbers in .pod and .atm files. *)
From Coq Require Import Ascii String List ZArith Lia Reals Lra Bool.
From Flocq Require Import Core IEEE754.BinarySingleNaN IEEE754.Binary IEEE754.Bits.
From Verif Require Import Base.Res Model.Tau Model.Num Model.IcoNumeric Model.DodeNumeric Model.Text Model.PodText
  Spec.Value Spec.TextSpec Spec.DecimalSpec Spec.PodText
  Proofs.Irrational Proofs.TextLemmas Proofs.FormatLemmas Proofs.RoundLemmas.
Import ListNotations.
Local Open Scope R_scope.
Local Existing Instance textbook.

Lemma sign_abs x : is_finite 53 1024 x = true -> Rabs (B2R 53 1024 x) = if Bsign 53 1024 x then - B2R 53 1024 x else B2R 53 1024 x.
Proof.
  destruct x as [s|s|s pl H|s m e B]; try discriminate; intros _; cbn [B2R Bsign]; [rewrite Rabs_R0; destruct s; lra|].
  rewrite <- Float_prop.F2R_Zabs. destruct s; cbn [SpecFloat.cond_Zopp Z.abs Z.opp].
  - rewrite <- Float_prop.F2R_Zopp. reflexivity.
  - reflexivity.
Qed.
Lemma digit_not_white c : (0 <= digit_of c <= 9)%Z -> ~ is_white c.
Proof. unfold digit_of, is_white. lia. Qed.
Lemma numeral_word s n : numeral s n -> word s.
Proof. intros (N & A & _). split; [exact N|]. eapply Forall_impl; [|exact A]. intros c. apply digit_not_white. Qed.
Lemma body_word (neg : bool) i f ni nf : numeral i ni -> numeral f nf -> word ((if neg then ["-"%char] else []) ++ i ++ "."%char :: f).
Proof.
  intros Hi Hf. apply numeral_word in Hi, Hf. assert (W : word (i ++ "."%char :: f)).
  { change (i ++ "."%char :: f) with (i ++ ["."%char] ++ f). apply word_app; [exact Hi|]. apply word_app; [apply word_dec; reflexivity|exact Hf]. }
  destruct neg; [|exact W]. apply word_app; [apply word_dec; reflexivity|exact W].
Qed.
(** blanks, sign, digits, point, d digits: the nearest multiple of 10^-d *)
Lemma writes_of d k (neg : bool) i f ni nf x r e w : numeral i ni -> numeral f nf -> length f = d ->
  words (repeat " "%char k ++ (if neg then ["-"%char] else []) ++ i ++ "."%char :: f) = [w] ->
  is_finite 53 1024 x = true -> neg = Bsign 53 1024 x -> Rabs (B2R 53 1024 x - r) <= e ->
  Rabs (IZR (10 ^ Z.of_nat d * ni + nf) - Rabs (B2R 53 1024 x) * 10 ^ d) <= 1/2 -> writes d (1 / (2 * 10 ^ d) + e) r w.
Proof.
  intros Hi Hf L W Fx Hs Hx Nn. assert (Ew : w = (if neg then ["-"%char] else []) ++ i ++ "."%char :: f).
  { change " "%char with sp in W. rewrite words_spaces, (words_word _ (body_word neg i f ni nf Hi Hf)) in W. congruence. }
  exists neg, i, f, ni, nf. repeat (split; [assumption|]).
  assert (P : 0 < 10 ^ d) by (apply pow_lt; lra). rewrite (sign_abs x Fx), <- Hs in Nn. set (v := B2R 53 1024 x) in *.
  rewrite plus_IZR, mult_IZR, <- pow_IZR in Nn. set (q := 10 ^ d) in *. set (a := IZR ni) in *. set (b := IZR nf) in *.
  assert (K : forall t, Rabs (q * a + b - t * q) <= 1/2 -> Rabs (a + b / q - t) <= 1 / (2 * q)).
  { intros t H. replace (a + b / q - t) with ((q * a + b - t * q) * / q) by (field; lra). rewrite Rabs_mult, (Rabs_pos_eq (/ q)) by (left; apply Rinv_0_lt_compat; lra).
    replace (1 / (2 * q)) with (1/2 * / q) by (field; lra). apply Rmult_le_compat_r; [left; apply Rinv_0_lt_compat; lra|exact H]. }
  destruct neg.
  - apply K in Nn. replace (- (a + b / q) - r) with (- (a + b / q - - v) + (v - r)) by ring. eapply Rle_trans; [apply Rabs_triang|]. rewrite Rabs_Ropp. lra.
  - apply K in Nn. replace (a + b / q - r) with ((a + b / q - v) + (v - r)) by ring. eapply Rle_trans; [apply Rabs_triang|]. lra.
Qed.
Lemma writes6 x r e w : apx x r e -> prints show_f8_6 x w -> writes 6 (1/2000000 + e) r w.
Proof.
  intros [Fx Hx] W. destruct (show_f8_6_spec x Fx) as (n & (k & i & f & ni & nf & E & Hi & Hf & Lf & En) & Nn & _).
  unfold prints in W. rewrite E in W. replace (1/2000000) with (1 / (2 * 10 ^ 6)) by lra.
  apply (writes_of _ k (Bsign 53 1024 x) i f ni nf x); try assumption; try reflexivity. replace (10 ^ Z.of_nat 6 * ni + nf)%Z with n by (rewrite En; reflexivity). replace (10 ^ 6) with 1000000 by lra. exact Nn.
Qed.

Lemma fixed3_spec n : (0 <= n)%Z -> exists i f ni nf, fixed3 n = i ++ "."%char :: f /\ numeral i ni /\ numeral f nf /\ length f = 3%nat /\ n = (1000 * ni + nf)%Z.
Proof.
  intros L. pose proof (Z.mod_pos_bound n 1000 ltac:(lia)) as B.
  exists (show_Z (n / 1000)), (pad "0"%char 3 (show_Z (n mod 1000))), (n / 1000)%Z, (n mod 1000)%Z.
  split; [reflexivity|]. split; [apply show_Z_numeral, Z.div_pos; lia|]. split; [apply pad_numeral, show_Z_numeral; lia|]. split.
  - assert (length (show_Z (n mod 1000)) <= 3)%nat by (apply show_Z_length; cbn; lia). unfold pad. rewrite app_length, repeat_length. lia.
  - apply Z.div_mod. lia.
Qed.
Lemma milli_spec m e : nearest_even (milli m e) (IZR (Zpos m) * bpow radix2 e * 1000) /\ (0 <= milli m e)%Z.
Proof.
  unfold milli. destruct (Z.leb_spec 0 e) as [L|L].
  - split; [|lia]. replace (IZR (Zpos m) * bpow radix2 e * 1000) with (IZR (Zpos m * 2 ^ e * 1000)); [apply nearest_even_Z|].
    rewrite !mult_IZR. rewrite <- (IZR_Zpower radix2 e L). reflexivity.
  - assert (P : (0 < 2 ^ (- e))%Z) by (apply Z.pow_pos_nonneg; lia). split.
    + replace (IZR (Zpos m) * bpow radix2 e * 1000) with (IZR (Zpos m * 1000) / IZR (2 ^ (- e))); [apply half_even_spec; exact P|].
      rewrite mult_IZR. rewrite <- (Z.opp_involutive e) at 2. rewrite bpow_opp. rewrite <- (IZR_Zpower radix2 (- e)) by lia. cbn [radix_val radix2]. unfold Rdiv. ring.
    + unfold half_even. assert (0 <= Zpos m * 1000 / 2 ^ (- e))%Z by (apply Z.div_pos; lia).
      repeat match goal with |- context [if ?b then _ else _] => destruct b end; lia.
Qed.
Lemma show_f4_3_spec x : is_finite 53 1024 x = true ->
  exists n k i f ni nf, show_f4_3 x = repeat " "%char k ++ (if Bsign 53 1024 x then ["-"%char] else []) ++ i ++ "."%char :: f /\
    numeral i ni /\ numeral f nf /\ length f = 3%nat /\ n = (1000 * ni + nf)%Z /\ nearest_even n (Rabs (B2R 53 1024 x) * 1000).
Proof.
  assert (D : forall s n, (0 <= n)%Z -> exists k i f ni nf, pad sp 4 (sign_str s ++ fixed3 n) = repeat " "%char k ++ (if s then ["-"%char] else []) ++ i ++ "."%char :: f /\
     numeral i ni /\ numeral f nf /\ length f = 3%nat /\ n = (1000 * ni + nf)%Z).
  { intros s n L. destruct (fixed3_spec n L) as (i & f & ni & nf & E & H). rewrite E.
    exists (4 - length (sign_str s ++ fixed3 n))%nat, i, f, ni, nf. unfold pad. rewrite <- E. split; [|exact H]. rewrite E. reflexivity. }
  destruct x as [s| s | s pl H |s m e B]; try discriminate; intros _; unfold show_f4_3; cbn [show_f3 Bsign B2R].
  - destruct (D s 0%Z ltac:(lia)) as (k & i & f & ni & nf & E & Hi & Hf & Lf & En). exists 0%Z, k, i, f, ni, nf. repeat (split; [assumption|]). rewrite Rabs_R0, Rmult_0_l. apply nearest_even_Z.
  - destruct (milli_spec m e) as [Hm P]. destruct (D s (milli m e) P) as (k & i & f & ni & nf & E & Hi & Hf & Lf & En). exists (milli m e), k, i, f, ni, nf. repeat (split; [assumption|]).
    rewrite <- F2R_Zabs. unfold F2R. cbn [Fnum Fexp]. replace (Z.abs (cond_Zopp s (Zpos m))) with (Zpos m) by (destruct s; reflexivity). exact Hm.
Qed.
Lemma writes3 x r e w : apx x r e -> prints show_f4_3 x w -> writes 3 (1/2000 + e) r w.
Proof.
  intros [Fx Hx] W. destruct (show_f4_3_spec x Fx) as (n & k & i & f & ni & nf & E & Hi & Hf & Lf & En & Nn & _).
  unfold prints in W. rewrite E in W. replace (1/2000) with (1 / (2 * 10 ^ 3)) by lra.
  apply (writes_of _ k (Bsign 53 1024 x) i f ni nf x); try assumption; try reflexivity. replace (10 ^ Z.of_nat 3 * ni + nf)%Z with n by (rewrite En; reflexivity). replace (10 ^ 3) with 1000 by lra. exact Nn.
Qed.
Lemma fixed3_word n : word (fixed3 n).
Proof.
  unfold fixed3. change ("."%char :: pad "0"%char 3 (show_Z (n mod 1000))) with (["."%char] ++ pad "0"%char 3 (show_Z (n mod 1000))).
  apply word_app; [apply show_Z_word|]. apply word_app; [apply word_dec; reflexivity|]. apply pad_nonwhite; [unfold is_white; cbn; lia|apply show_Z_word].
Qed.
Lemma show_f4_3_field x : field (show_f4_3 x).
Proof.
  apply field_pad. destruct x as [s|s|s pl H|s m e B]; cbn [show_f3].
  - destruct s; cbn [sign_str app]; [change ("-"%char :: fixed3 0) with (["-"%char] ++ fixed3 0); apply word_app; [apply word_dec; reflexivity|]|]; apply fixed3_word.
  - destruct s; apply word_dec; reflexivity.
  - apply word_dec; reflexivity.
  - destruct s; cbn [sign_str]; [apply word_app; [apply word_dec; reflexivity|]|]; apply fixed3_word.
Qed.

(** Values with coefficients up to 2^20. *)
Lemma modest_apx t : modest t -> wf t -> apx (numeric_value Bnum t) (val TAU t) (1/500000000) /\ Rabs (val TAU t) <= 3 * 1048576.
Proof.
  destruct t as [a b c]. unfold modest, wf. cbn [ta tb tc]. intros (Ha & Hb & Hc) Nc.
  assert (H1 : 1 <= Rabs (IZR c)) by (rewrite <- abs_IZR; apply (IZR_le 1); lia).
  assert (A : Rabs (IZR a) <= 1048576) by (rewrite <- abs_IZR; apply (IZR_le _ 1048576); lia).
  assert (B : Rabs (IZR b) <= 1048576) by (rewrite <- abs_IZR; apply (IZR_le _ 1048576); lia).
  split.
  - eapply apx_weaken; [apply numeric_value_apx; lia|]. pose proof (Rabs_pos (IZR a)). pose proof (Rabs_pos (IZR b)).
    apply (Rmult_le_reg_r (2251799813685248 * Rabs (IZR c))); [lra|]. unfold Rdiv at 1. rewrite Rmult_assoc, Rinv_l, Rmult_1_r by lra. lra.
  - unfold val. cbn [ta tb tc]. unfold Rdiv. rewrite Rabs_mult, Rabs_inv. pose proof TAU_bounds as [T1 T2].
    assert (N : Rabs (IZR a + IZR b * TAU) <= 3 * 1048576).
    { eapply Rle_trans; [apply Rabs_triang|]. rewrite Rabs_mult, (Rabs_pos_eq TAU) by lra. pose proof (Rabs_pos (IZR b)). nra. }
    assert (I : / Rabs (IZR c) <= 1) by (rewrite <- Rinv_1; apply Rinv_le_contravar; lra). pose proof (Rabs_pos (IZR a + IZR b * TAU)).
    assert (0 < / Rabs (IZR c)) by (apply Rinv_0_lt_compat; lra). nra.
Qed.
Lemma big500 x : Rabs x <= 100000000 -> Rabs x <= bpow radix2 500.
Proof. intros H. eapply Rle_trans; [exact H|]. eapply Rle_trans; [|apply p500]. lra. Qed.
Lemma diff_apx u t : modest u -> wf u -> modest t -> wf t ->
  apx (fsub Bnum (numeric_value Bnum u) (numeric_value Bnum t)) (val TAU u - val TAU t) (1/100000000).
Proof.
  intros Mu Wu Mt Wt. destruct (modest_apx u Mu Wu) as [Au Bu]. destruct (modest_apx t Mt Wt) as [At Bt]. destruct Au as [Fu Hu], At as [Ft Ht].
  set (x := numeric_value Bnum u) in *. set (y := numeric_value Bnum t) in *.
  assert (Hd : Rabs (B2R 53 1024 x - B2R 53 1024 y) <= 7 * 1048576).
  { replace (B2R 53 1024 x - B2R 53 1024 y) with ((B2R 53 1024 x - val TAU u) - (B2R 53 1024 y - val TAU t) + (val TAU u - val TAU t)) by ring.
    eapply Rle_trans; [apply Rabs_triang|]. pose proof (Rabs_triang (B2R 53 1024 x - val TAU u) (- (B2R 53 1024 y - val TAU t))) as T1. rewrite Rabs_Ropp in T1.
    pose proof (Rabs_triang (val TAU u) (- val TAU t)) as T2. rewrite Rabs_Ropp in T2. unfold Rminus in *. lra. }
  destruct (bminus_err x y Fu Ft) as [[Fd Ed] _]; [apply big500; lra|]. split; [exact Fd|].
  pose proof eta_lt as Et. unfold ulp1 in Ed.
  set (d := B2R 53 1024 (fsub Bnum x y)) in *.
  replace (d - (val TAU u - val TAU t)) with ((d - (B2R 53 1024 x - B2R 53 1024 y)) + ((B2R 53 1024 x - val TAU u) - (B2R 53 1024 y - val TAU t))) by ring.
  eapply Rle_trans; [apply Rabs_triang|]. pose proof (Rabs_triang (B2R 53 1024 x - val TAU u) (- (B2R 53 1024 y - val TAU t))) as T1. rewrite Rabs_Ropp in T1. unfold Rminus in *. lra.
Qed.
Lemma shift_apx t s : modest t -> wf t -> is_finite 53 1024 s = true -> Rabs (B2R 53 1024 s) <= 1048576 ->
  apx (fadd Bnum (numeric_value Bnum t) s) (val TAU t + B2R 53 1024 s) (1/100000000).
Proof.
  intros Mt Wt Fs Hs. destruct (modest_apx t Mt Wt) as [[Ft Ht] Bt]. set (x := numeric_value Bnum t) in *.
  assert (Hd : Rabs (B2R 53 1024 x + B2R 53 1024 s) <= 5 * 1048576).
  { replace (B2R 53 1024 x + B2R 53 1024 s) with ((B2R 53 1024 x - val TAU t) + (val TAU t + B2R 53 1024 s)) by ring.
    eapply Rle_trans; [apply Rabs_triang|]. pose proof (Rabs_triang (val TAU t) (B2R 53 1024 s)). lra. }
  destruct (bplus_err x s Ft Fs) as [[Fd Ed] _]; [apply big500; lra|]. split; [exact Fd|].
  pose proof eta_lt as Et. unfold ulp1 in Ed. set (d := B2R 53 1024 (fadd Bnum x s)) in *.
  replace (d - (val TAU t + B2R 53 1024 s)) with ((d - (B2R 53 1024 x + B2R 53 1024 s)) + (B2R 53 1024 x - val TAU t)) by ring.
  eapply Rle_trans; [apply Rabs_triang|]. lra.
Qed.
Lemma dmodest_apx t : modest t -> wf t -> apx (dnumeric_value Bnum t) (val SIN t) (1/500000000).
Proof.
  destruct t as [a b c]. unfold modest, wf. cbn [ta tb tc]. intros (Ha & Hb & Hc) Nc.
  assert (H1 : 1 <= Rabs (IZR c)) by (rewrite <- abs_IZR; apply (IZR_le 1); lia).
  assert (A : Rabs (IZR a) <= 1048576) by (rewrite <- abs_IZR; apply (IZR_le _ 1048576); lia).
  assert (B : Rabs (IZR b) <= 1048576) by (rewrite <- abs_IZR; apply (IZR_le _ 1048576); lia).
  eapply apx_weaken; [apply dnumeric_value_apx; lia|]. pose proof (Rabs_pos (IZR a)). pose proof (Rabs_pos (IZR b)).
  apply (Rmult_le_reg_r (2251799813685248 * Rabs (IZR c))); [lra|]. unfold Rdiv at 1. rewrite Rmult_assoc, Rinv_l, Rmult_1_r by lra. lra.
Qed.
