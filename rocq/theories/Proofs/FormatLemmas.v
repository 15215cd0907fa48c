(** '%8.6f' prints the nearest decimal number with six decimals. *)
From Coq Require Import Ascii String Decimal DecimalFacts DecimalZ List ZArith Lia Reals Lra Bool.
From Flocq Require Import Core IEEE754.BinarySingleNaN IEEE754.Binary IEEE754.Bits.
From Verif Require Import Base.Res Model.Text Spec.TextSpec Spec.DecimalSpec Proofs.TextLemmas.
Import ListNotations.
Local Open Scope Z_scope.

Lemma digit_of_digit c n : digit c = Some n -> digit_of c = n /\ 0 <= n <= 9.
Proof.
  unfold digit, digit_of. destruct (Z.leb_spec 48 (Z.of_nat (nat_of_ascii c))), (Z.leb_spec (Z.of_nat (nat_of_ascii c)) 57); cbn [andb]; try discriminate.
  intros E. injection E as <-. lia.
Qed.
Lemma digits_fold s : Forall (fun c => exists n, digit c = Some n) s -> forall a, digits a s = Ok (fold_left (fun a c => 10 * a + digit_of c) s a).
Proof.
  induction 1 as [|c s [n Hn] _ IH]; intros a; [reflexivity|]. cbn [digits fold_left]. rewrite Hn.
  rewrite (proj1 (digit_of_digit _ _ Hn)). apply IH.
Qed.
Lemma show_uint_fold d : fold_left (fun a c => 10 * a + digit_of c) (show_uint d) 0 = Z.of_uint d.
Proof. pose proof (digits_uint d) as E. rewrite (digits_fold _ (show_uint_digits d)) in E. congruence. Qed.
Lemma show_uint_all d : Forall (fun c => 0 <= digit_of c <= 9) (show_uint d).
Proof. eapply Forall_impl; [|apply show_uint_digits]. intros c [n Hn]. apply digit_of_digit in Hn as [-> L]. exact L. Qed.

Lemma to_int_nonneg z : 0 <= z -> exists d, Z.to_int z = Pos d /\ Z.of_uint d = z /\ d <> Nil.
Proof.
  intros L. pose proof (DecimalZ.of_to z) as E. pose proof (to_int_nonnil z) as N.
  destruct z as [|p|p]; [| |lia]; cbn [Z.to_int] in *; eexists; (split; [reflexivity|]); split; auto.
Qed.
Lemma show_Z_numeral z : 0 <= z -> numeral (show_Z z) z.
Proof.
  intros L. destruct (to_int_nonneg z L) as (d & E & V & N). unfold show_Z. rewrite E. split; [|split].
  - destruct d; try discriminate. congruence.
  - apply show_uint_all.
  - rewrite show_uint_fold. auto.
Qed.
(** No leading zeros, so few digits. *)
Lemma fold_ge s : Forall (fun c => 0 <= digit_of c <= 9) s -> forall a, 0 <= a -> a * 10 ^ Z.of_nat (length s) <= fold_left (fun a c => 10 * a + digit_of c) s a.
Proof.
  induction 1 as [|c s H _ IH]; intros a L; [cbn; lia|]. cbn [fold_left length]. rewrite Nat2Z.inj_succ, Z.pow_succ_r by lia.
  specialize (IH (10 * a + digit_of c) ltac:(lia)). assert (0 < 10 ^ Z.of_nat (length s)) by (apply Z.pow_pos_nonneg; lia). nia.
Qed.
Lemma show_Z_length z k : 0 <= z < 10 ^ Z.of_nat k -> (1 <= k)%nat -> (length (show_Z z) <= k)%nat.
Proof.
  intros [L U] K. destruct (to_int_nonneg z L) as (d & E & V & N). unfold show_Z. rewrite E.
  pose proof (DecimalZ.to_of (Pos d)) as Nm. cbn [Z.of_int] in Nm. rewrite V, E in Nm. cbn [norm] in Nm.
  assert (Nd : unorm d = d) by congruence. clear Nm.
  assert (H : d = D0 Nil \/ forall d', d <> D0 d').
  { destruct d; try (right; intros d'; discriminate). left. cbn [unorm] in Nd.
    unfold unorm in Nd. cbn [nzhead] in Nd. destruct (nzhead d) eqn:En; try discriminate Nd; [congruence|].
    exfalso. apply (DecimalFacts.nzhead_nonzero d _ En). }
  destruct H as [-> |H]; [cbn; exact K|].
  destruct (le_lt_dec (length (show_uint d)) k) as [|Big]; [assumption|exfalso].
  rewrite <- V, <- show_uint_fold in U.
  assert (A := show_uint_all d). destruct (show_uint d) as [|c s] eqn:Es; [cbn in Big; lia|].
  inversion A as [|? ? Hc Hs]; subst. cbn [fold_left length] in U, Big.
  pose proof (fold_ge s Hs (10 * 0 + digit_of c) ltac:(lia)) as G.
  assert (1 <= digit_of c).
  { destruct d; cbn [show_uint] in Es; try discriminate Es; [exfalso; eapply H; reflexivity|..]; injection Es as <- _; cbv; discriminate. }
  assert (10 ^ Z.of_nat k <= 10 ^ Z.of_nat (length s)) by (apply Z.pow_le_mono_r; lia).
  assert (0 < 10 ^ Z.of_nat (length s)) by (apply Z.pow_pos_nonneg; lia). nia.
Qed.
Lemma pad_numeral k s z : numeral s z -> numeral (pad "0"%char k s) z.
Proof.
  intros (N & A & V). unfold pad. split; [|split].
  - intros E. apply app_eq_nil in E. tauto.
  - apply Forall_app. split; [|exact A]. apply Forall_forall. intros c I. apply repeat_spec in I. subst. cbv. split; discriminate.
  - rewrite fold_left_app. rewrite V. f_equal. induction (k - length s)%nat as [|m IH]; [reflexivity|exact IH].
Qed.
Lemma fixed6_spec n : 0 <= n -> exists i f ni nf, fixed6 n = i ++ "."%char :: f /\ numeral i ni /\ numeral f nf /\ length f = 6%nat /\ n = 1000000 * ni + nf.
Proof.
  intros L. pose proof (Z.mod_pos_bound n 1000000 ltac:(lia)) as B.
  exists (show_Z (n / 1000000)), (pad "0"%char 6 (show_Z (n mod 1000000))), (n / 1000000), (n mod 1000000).
  split; [reflexivity|]. split; [apply show_Z_numeral, Z.div_pos; lia|]. split; [apply pad_numeral, show_Z_numeral; lia|]. split.
  - assert (length (show_Z (n mod 1000000)) <= 6)%nat by (apply show_Z_length; cbn; lia). unfold pad. rewrite app_length, repeat_length. lia.
  - apply Z.div_mod. lia.
Qed.

Lemma half_even_spec n d : 0 < d -> nearest_even (half_even n d) (IZR n / IZR d).
Proof.
  intros P. unfold half_even. set (q := n / d). pose proof (Z.div_mod n d ltac:(lia)) as E. pose proof (Z.mod_pos_bound n d P) as B. fold q in E.
  set (r := n mod d) in *. replace (2 * (n - d * q)) with (2 * r) by lia.
  assert (Pd : (0 < IZR d)%R) by (apply IZR_lt; exact P).
  assert (V : (IZR n / IZR d = IZR q + IZR r / IZR d)%R) by (replace (IZR n) with (IZR d * IZR q + IZR r)%R by (rewrite <- mult_IZR, <- plus_IZR; f_equal; lia); field; lra). rewrite V. clear V.
  assert (R0 : (0 <= IZR r / IZR d)%R) by (apply Rmult_le_pos; [apply IZR_le; lia|left; apply Rinv_0_lt_compat; exact Pd]).
  assert (R1 : (IZR r / IZR d < 1)%R) by (apply (Rmult_lt_reg_r (IZR d)); [exact Pd|]; unfold Rdiv; rewrite Rmult_assoc, Rinv_l, Rmult_1_r, Rmult_1_l by lra; apply IZR_lt; lia).
  assert (Cmp : forall x y : Z, (x < y)%Z -> (IZR x / (2 * IZR d) < IZR y / (2 * IZR d))%R).
  { intros x y L. apply Rmult_lt_compat_r; [apply Rinv_0_lt_compat; lra|apply IZR_lt; exact L]. }
  assert (E2 : (IZR r / IZR d = IZR (2 * r) / (2 * IZR d))%R) by (rewrite mult_IZR; field; lra).
  assert (Eh : (1/2 = IZR d / (2 * IZR d))%R) by (field; lra).
  destruct (Z.ltb_spec (2 * r) d) as [L|L].
  - pose proof (Cmp _ _ L) as C. rewrite <- E2, <- Eh in C. split.
    + rewrite Rabs_left1; lra.
    + rewrite Rabs_left1; lra.
  - destruct (Z.ltb_spec d (2 * r)) as [L'|L'].
    + pose proof (Cmp _ _ L') as C. rewrite <- E2, <- Eh in C. unfold nearest_even. rewrite plus_IZR. split; rewrite Rabs_pos_eq; lra.
    + assert (Eq : d = 2 * r) by lia. assert (Hh : (IZR r / IZR d = 1/2)%R) by (rewrite E2, Eh, Eq; reflexivity). rewrite Hh.
      destruct (Z.even q) eqn:Ev; split; auto.
      * rewrite Rabs_left1; lra.
      * rewrite plus_IZR, Rabs_pos_eq; lra.
      * intros _. rewrite Z.even_add, Ev. reflexivity.
Qed.
Lemma nearest_even_Z z : nearest_even z (IZR z).
Proof. split; replace (IZR z - IZR z)%R with 0%R by ring; rewrite Rabs_R0; lra. Qed.
Lemma micro_spec m e : nearest_even (micro m e) (IZR (Zpos m) * bpow radix2 e * 1000000) /\ 0 <= micro m e.
Proof.
  unfold micro. destruct (Z.leb_spec 0 e) as [L|L].
  - split; [|lia]. replace (IZR (Zpos m) * bpow radix2 e * 1000000)%R with (IZR (Zpos m * 2 ^ e * 1000000)); [apply nearest_even_Z|].
    rewrite !mult_IZR. rewrite <- (IZR_Zpower radix2 e L). reflexivity.
  - assert (P : 0 < 2 ^ (- e)) by (apply Z.pow_pos_nonneg; lia). split.
    + replace (IZR (Zpos m) * bpow radix2 e * 1000000)%R with (IZR (Zpos m * 1000000) / IZR (2 ^ (- e)))%R; [apply half_even_spec; exact P|].
      rewrite mult_IZR. rewrite <- (Z.opp_involutive e) at 2. rewrite bpow_opp. rewrite <- (IZR_Zpower radix2 (- e)) by lia. cbn [radix_val radix2]. unfold Rdiv. ring.
    + unfold half_even. assert (0 <= Zpos m * 1000000 / 2 ^ (- e)) by (apply Z.div_pos; lia).
      repeat match goal with |- context [if ?b then _ else _] => destruct b end; lia.
Qed.
Lemma show_f8_6_spec x : is_finite 53 1024 x = true ->
  exists n, decimal6 (show_f8_6 x) (Bsign 53 1024 x) n /\ nearest_even n (Rabs (B2R 53 1024 x) * 1000000).
Proof.
  assert (D : forall s n, 0 <= n -> exists m, m = n /\ decimal6 (pad sp 8 (sign_str s ++ fixed6 n)) s m).
  { intros s n L. exists n. split; [reflexivity|]. destruct (fixed6_spec n L) as (i & f & ni & nf & E & H). rewrite E.
    exists (8 - length (sign_str s ++ fixed6 n))%nat, i, f, ni, nf. unfold pad. rewrite <- E. split; [|exact H].
    rewrite E. reflexivity. }
  destruct x as [s| s | s pl H |s m e B]; try discriminate; intros _; unfold show_f8_6; cbn [show_f6 Bsign B2R].
  - destruct (D s 0 ltac:(lia)) as (n & -> & Hd). exists 0. split; [exact Hd|]. rewrite Rabs_R0, Rmult_0_l. apply nearest_even_Z.
  - destruct (micro_spec m e) as [Hm P]. destruct (D s (micro m e) P) as (n & -> & Hd). exists (micro m e). split; [exact Hd|].
    rewrite <- F2R_Zabs. unfold F2R. cbn [Fnum Fexp]. replace (Z.abs (cond_Zopp s (Zpos m))) with (Zpos m) by (destruct s; reflexivity). exact Hm.
Qed.
