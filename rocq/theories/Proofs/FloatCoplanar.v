(** The coplanarity check in binary64. *)
From Coq Require Import Reals List ZArith Bool Lia Lra Psatz.
From Flocq Require Import Core IEEE754.BinarySingleNaN IEEE754.Binary IEEE754.Bits.
From Verif Require Import Base.Res Model.Tau Model.Arr Model.Num Model.IcoNumeric
  Spec.LinAlg Spec.Value Spec.RVec Spec.Shape Spec.IcoSpec Spec.Sets Spec.Space Spec.Tetra Spec.Float
  Proofs.ResLemmas Proofs.NumLemmas Proofs.CoplanarLemmas Proofs.MachineLemmas Proofs.RoundLemmas Proofs.FloatCalc Proofs.FloatGeom Proofs.FloatTests.
Import ListNotations.
Local Open Scope R_scope.
Local Notation Bnum := Bmath.

Section Lib.
Context {la : linalg} {LA : linalg_ok la}.

Lemma e10_B : Bfin (f1e10 Bnum) = true /\ Rabs (Bv (f1e10 Bnum) - 1/10000000000) <= 1/10000000000000.
Proof.
  change (f1e10 Bnum) with (fdiv Bnum (fZ Bnum 1) (fZ Bnum 10000000000)).
  destruct (apx_Z 1) as [[F1 _] V1]; [cbn; lia|]. destruct (apx_Z 10000000000) as [[F2 _] V2]; [cbn; lia|].
  destruct (bdiv_err (fZ Bnum 1) (fZ Bnum 10000000000) F1 F2) as [[Fx Hx] _]; [rewrite V2; lra|rewrite V1, V2; pose proof p500; rewrite Rabs_right; lra|].
  rewrite V1, V2 in Hx. split; [exact Fx|]. pose proof eta_lt. rewrite (Rabs_right (1/10000000000)) in Hx by lra. unfold ulp1 in Hx. lra.
Qed.
Lemma Rabs_two x y c : Rabs (x - y) <= c -> Rabs y - c <= Rabs x <= Rabs y + c.
Proof. intros H. unfold Rabs in *. destruct (Rcase_abs (x - y)), (Rcase_abs x), (Rcase_abs y); lra. Qed.

Section Figure.
Variables k D E : R.
Hypothesis Hk : 0 < k <= 1/1048576.
Hypothesis Hu : 40 * ulp1 <= k.
Hypothesis HE : E <= k * D.
Hypothesis HD : 1/1000 <= D <= 1000.

Lemma small_B x n : V k (D * D) 17 x n -> IcoNumeric.small Bnum x = false -> 1/1000000 - 1/10000000000 - 17 * (k * (D * D)) <= norm3 n.
Proof.
  destruct x as [[x0 x1] x2], n as [[n0 n1] n2]. intros ([F0 H0] & [F1 H1] & [F2 H2]) S. unfold IcoNumeric.small in S.
  destruct EPS_B as [Fe He]. apply Rabs_two in H0, H1, H2. destruct (norm3_comp n0 n1 n2) as (C0 & C1 & C2).
  assert (K : forall y, Bfin y = true -> flt Bnum (fabs Bnum y) (EPS Bnum) = false -> 1/1000000 - 1/10000000000 <= Rabs (Bv y)).
  { intros y Fy L. destruct (Rle_dec (Bv (EPS Bnum)) (Rabs (Bv y))) as [H|H]; [apply Rabs_two in He; rewrite (Rabs_right (1/1000000)) in He by lra; pose proof (Rle_abs (Bv (EPS Bnum)));
      destruct (Rcase_abs (Bv (EPS Bnum))) as [Ng|Ps]; [exfalso|rewrite Rabs_right in He by lra; lra]|].
    - destruct EPS_B as [_ He']. unfold Rabs in He'. destruct (Rcase_abs _); lra.
    - rewrite blt_true in L; [discriminate|apply babs_fin; exact Fy|exact Fe|rewrite babs_val; lra]. }
  apply andb_false_iff in S as [S|S]; [apply andb_false_iff in S as [S|S]|]; [specialize (K x0 F0 S)|specialize (K x1 F1 S)|specialize (K x2 F2 S)]; lra.
Qed.
Lemma normal_B x y z a b c : P E x a -> P E y b -> P E z c -> apart_le D b a -> apart_le D c a ->
  V k (D * D) 17 (pcross Bnum (psub Bnum y x) (psub Bnum z x)) (cross3 (sub3 b a) (sub3 c a)) /\ bnd (2 * (D * D)) (cross3 (sub3 b a) (sub3 c a)).
Proof.
  intros Px Py Pz A1 A2. destruct (V_diff k D E Hk Hu HE HD _ _ _ _ Py Px A1) as [V1 B1]. destruct (V_diff k D E Hk Hu HE HD _ _ _ _ Pz Px A2) as [V2 B2].
  exact (V_cross k D Hk Hu HD _ _ _ _ V1 B1 V2 B2).
Qed.
Lemma all_near_B xs ps n m x a l : Forall2 (P E) xs ps -> V k (D * D) 17 n m -> bnd (2 * (D * D)) m -> P E x a -> (forall p, In p ps -> apart_le D p a) ->
  Forall (fun i => (i < length ps)%nat) l ->
  exists b, all_near Bnum xs n x l = Ok b /\
   if b then forall i p, In i l -> nth_error ps i = Some p -> Rabs (dot3 m (sub3 p a)) <= 1001/10000000000000 + 87 * (k * (D * (D * D)))
   else exists i p, In i l /\ nth_error ps i = Some p /\ 999/10000000000000 - 87 * (k * (D * (D * D))) <= Rabs (dot3 m (sub3 p a)).
Proof.
  intros F2 Vn Bn Px Ap L. induction L as [|i l Hi _ IH]; cbn [all_near].
  - exists true. split; [reflexivity|]. intros i p [].
  - destruct (nth_error ps i) as [p|] eqn:Np; [|apply nth_error_None in Np; lia].
    assert (Nx : exists y, nth_error xs i = Some y /\ P E y p).
    { clear - F2 Np. revert i Np. induction F2 as [|y q ys qs H _ IH]; intros [|i] Np; try discriminate; cbn in *; [injection Np as <-; eauto|apply IH; exact Np]. }
    destruct Nx as (y & Ny & Py). unfold get at 1. change (list (pt Bnum)) with (list (Num.pt Bnum)) in *. rewrite Ny. cbn [bind].
    destruct (V_diff k D E Hk Hu HE HD _ _ _ _ Py Px (Ap p (nth_error_In _ _ Np))) as [V1 B1].
    destruct (G_dot' k D Hk Hu HD _ _ _ _ V1 B1 Vn Bn) as [[Fd Hd] _]. apply Rabs_two in Hd. destruct e10_B as [Fe He].
    assert (He' : 999/10000000000000 <= Bv (f1e10 Bnum) <= 1001/10000000000000) by (unfold Rabs in He; destruct (Rcase_abs _); lra).
    destruct (flt Bnum (fabs Bnum (pdot Bnum n (psub Bnum y x))) (f1e10 Bnum)) eqn:El.
    + apply blt_spec in El; [|apply babs_fin; exact Fd|exact Fe]. rewrite babs_val in El. destruct IH as (b & Eb & Hb). exists b. split; [exact Eb|]. destruct b.
      * intros j q [<-|Ij] Nj; [rewrite Np in Nj; injection Nj as <-; lra|exact (Hb j q Ij Nj)].
      * destruct Hb as (j & q & Ij & Hb). exists j, q. split; [right; exact Ij|exact Hb].
    + exists false. split; [reflexivity|]. exists i, p. split; [left; reflexivity|]. split; [exact Np|].
      destruct (Rlt_dec (Rabs (Bv (pdot Bnum n (psub Bnum y x)))) (Bv (f1e10 Bnum))) as [C|C]; [|lra].
      rewrite blt_true in El; [discriminate|apply babs_fin; exact Fd|exact Fe|rewrite babs_val; exact C].
Qed.
(** The result, once some draw is usable. *)
Lemma coplanar_fig draws xs ps r : Forall2 (P E) xs ps -> spread D ps -> (3 < length ps)%nat ->
  coplanar_check_numeric Bnum draws xs = Ok (Some r) ->
  exists pi pj pk, In pi ps /\ In pj ps /\ In pk ps /\ let m := cross3 (sub3 pj pi) (sub3 pk pi) in
   1/1000000 - 1/10000000000 - 17 * (k * (D * D)) <= norm3 m /\
   if r then Forall (fun p => Rabs (dot3 m (sub3 p pi)) <= 1001/10000000000000 + 87 * (k * (D * (D * D)))) ps
   else exists p, In p ps /\ 999/10000000000000 - 87 * (k * (D * (D * D))) <= Rabs (dot3 m (sub3 p pi)).
Proof.
  intros F2 Sp L H. assert (Lx : length xs = length ps) by (clear - F2; induction F2; cbn; congruence).
  unfold coplanar_check_numeric in H. rewrite Lx, (proj2 (Nat.ltb_lt _ _) L) in H.
  apply bind_Ok_inv in H as (g & Eg & H). destruct g as [[[[i j] h] n]|]; [|discriminate].
  assert (At : forall i x, get xs i = Ok x -> exists p, nth_error ps i = Some p /\ P E x p).
  { clear - F2. intros i x G. unfold get in G. revert i G. induction F2 as [|y q ys qs Hy _ IH]; intros [|i] G; try discriminate; cbn in *; [injection G as <-; eauto|apply IH; exact G]. }
  assert (G : exists x y z, get xs i = Ok x /\ get xs j = Ok y /\ get xs h = Ok z /\ n = pcross Bnum (psub Bnum y x) (psub Bnum z x) /\ IcoNumeric.small Bnum n = false).
  { clear H. induction draws as [|[[a b] c] draws IH]; [discriminate|]. cbn [first_good] in Eg. apply bind_Ok_inv in Eg as (m & Em & Eg).
    destruct (IcoNumeric.small Bnum m) eqn:Sm; [exact (IH Eg)|]. injection Eg as -> -> -> ->.
    unfold triple_normal in Em. apply bind_Ok_inv in Em as (p1 & E1 & Em). apply bind_Ok_inv in Em as (p0 & E0 & Em). apply bind_Ok_inv in Em as (p2 & E2 & Em).
    exists p0, p1, p2. split; [exact E0|]. split; [exact E1|]. split; [exact E2|]. split; [congruence|exact Sm]. }
  destruct G as (x & y & z & Gx & Gy & Gz & En & Sm). destruct (At i x Gx) as (pi & Ni & Px). destruct (At j y Gy) as (pj & Nj & Py). destruct (At h z Gz) as (pk & Nk & Pz).
  exists pi, pj, pk. assert (Ii := nth_error_In _ _ Ni). assert (Ij := nth_error_In _ _ Nj). assert (Ik := nth_error_In _ _ Nk). split; [exact Ii|]. split; [exact Ij|]. split; [exact Ik|].
  destruct (normal_B x y z pi pj pk Px Py Pz (Sp _ _ Ij Ii) (Sp _ _ Ik Ii)) as [Vn Bn]. rewrite <- En in Vn. set (m := cross3 (sub3 pj pi) (sub3 pk pi)) in *. cbn zeta.
  split; [exact (small_B n m Vn Sm)|]. cbn [fst] in H. rewrite Gx in H. cbn [bind] in H.
  destruct (all_near_B xs ps n m x pi (others (length ps) (i, j, h)) F2 Vn Bn Px (fun p Ip => Sp p pi Ip Ii)) as (b & Eb & Hb).
  { rewrite Forall_forall. intros q Hq. apply others_spec in Hq. tauto. }
  rewrite Eb in H. cbn [bind] in H. injection H as <-. destruct b.
  - apply Forall_forall. intros p Hp. apply In_nth_error in Hp as (q & Nq).
    assert (Hq : (q < length ps)%nat) by (apply nth_error_Some; congruence).
    assert (K0 : 0 <= k * (D * (D * D))) by (repeat apply Rmult_le_pos; lra).
    assert (Z : forall t, t = 0 -> Rabs t <= 1001/10000000000000 + 87 * (k * (D * (D * D)))) by (intros t ->; rewrite Rabs_R0; lra).
    destruct (Nat.eq_dec q i) as [->|Di]; [rewrite Ni in Nq; injection Nq as <-; apply Z; subst m; destruct pi as [[? ?] ?], pj as [[? ?] ?], pk as [[? ?] ?]; cbn; ring|].
    destruct (Nat.eq_dec q j) as [->|Dj]; [rewrite Nj in Nq; injection Nq as <-; apply Z; subst m; destruct pi as [[? ?] ?], pj as [[? ?] ?], pk as [[? ?] ?]; cbn; ring|].
    destruct (Nat.eq_dec q h) as [->|Dk]; [rewrite Nk in Nq; injection Nq as <-; apply Z; subst m; destruct pi as [[? ?] ?], pj as [[? ?] ?], pk as [[? ?] ?]; cbn; ring|].
    apply (Hb q p); [apply others_spec; tauto|exact Nq].
  - destruct Hb as (q & p & _ & Nq & Hb). exists p. split; [exact (nth_error_In _ _ Nq)|exact Hb].
Qed.
End Figure.

Lemma near_plane_B h ps n p0 : 0 < h -> 8/10000000 <= norm3 n -> Forall (fun p => Rabs (dot3 n (sub3 p p0)) < 8/10000000 * h) ps -> near_plane h ps.
Proof.
  intros Hh Nn H. set (c := norm3 n) in *. exists (scale3 (/ c) n), (dot3 (scale3 (/ c) n) p0).
  assert (C : 0 < / c) by (apply Rinv_0_lt_compat; lra). split.
  - unfold norm3. rewrite dot3_scale. replace (dot3 n (scale3 (/ c) n)) with (/ c * dot3 n n) by (destruct n as [[? ?] ?]; cbn; ring).
    rewrite <- norm3_sq. fold c. replace (/ c * (/ c * (c * c))) with 1 by (field; lra). apply sqrt_1.
  - eapply Forall_impl; [|exact H]. cbn beta. intros p Hp. rewrite <- dot3_sub, dot3_scale, Rabs_mult, (Rabs_right (/ c)) by lra.
    apply Rmult_lt_reg_l with c; [lra|]. replace (c * (/ c * Rabs (dot3 n (sub3 p p0)))) with (Rabs (dot3 n (sub3 p p0))) by (field; lra).
    eapply Rlt_le_trans; [exact Hp|]. apply Rmult_le_compat_r; lra.
Qed.

Lemma kk2_ok A D : 1 <= A <= 200000 -> 1/1000 <= D <= 1000 -> (A + D) * D ^ 2 <= 2000000 -> 17 * (kk A D * (D * D)) <= 16/100000000.
Proof.
  intros HA HD HM. unfold kk, err, ulp1.
  replace ((10 * A / 2251799813685248 / D + 40 * / 9007199254740992) * (D * D)) with ((10 * A / 2251799813685248) * D + 40 * / 9007199254740992 * (D * D)) by (field; lra).
  assert (X : A * D <= 2000000).
  { destruct (Rle_dec D 1) as [L|L]; [nra|]. apply Rle_trans with ((A + D) * D ^ 2); [|exact HM]. assert (0 <= D * D * D) by nra. assert (A * D * 1 <= A * D * D) by (apply Rmult_le_compat_l; nra). cbn. lra. }
  assert (D <= 127).
  { destruct (Rle_dec D 127) as [L|L]; [exact L|]. assert (D * D * D <= (A + D) * D ^ 2) by (replace ((A + D) * D ^ 2) with (A * (D * D) + D * D * D) by ring; nra). assert (127 * 127 <= D * D) by nra. nra. }
  assert (D * D <= 20000) by nra. lra.
Qed.
Lemma flat_true A D draws vs : tame A D vs -> (3 < length vs)%nat -> coplanar_check_numeric_tau Bnum draws vs = Ok (Some true) -> near_plane (13/100000 + (A + D) * D ^ 2 / 2000000) (map pp vs).
Proof.
  intros (HA & HD & HM & C & Sp) L H. destruct (kk_ok A D HA HD) as (K1 & K2 & K3 & K4). pose proof (kk2_ok A D HA HD HM) as K5.
  destruct (internals_B A vs ltac:(lra) C) as (xs & Ex & Px). unfold coplanar_check_numeric_tau in H. rewrite Ex in H. cbn [bind] in H.
  destruct (coplanar_fig (kk A D) D (err A) K1 K2 K3 HD draws xs (map pp vs) true Px Sp ltac:(rewrite map_length; exact L) H) as (pi & pj & pk & _ & _ & _ & Nm & Al).
  assert (0 < (A + D) * D ^ 2) by (apply Rmult_lt_0_compat; [lra|apply pow_lt; lra]).
  apply (near_plane_B _ _ (cross3 (sub3 pj pi) (sub3 pk pi)) pi); [lra|lra|]. eapply Forall_impl; [|exact Al]. cbn beta. intros p Hp. eapply Rle_lt_trans; [exact Hp|]. lra.
Qed.
Lemma flat_false A D draws vs : tame A D vs -> (3 < length vs)%nat -> (A + D) * D ^ 2 <= 250 -> coplanar3 (map pp vs) -> coplanar_check_numeric_tau Bnum draws vs <> Ok (Some false).
Proof.
  intros (HA & HD & HM & C & Sp) L M Cp H. destruct (kk_ok A D HA HD) as (K1 & K2 & K3 & K4).
  destruct (internals_B A vs ltac:(lra) C) as (xs & Ex & Px). unfold coplanar_check_numeric_tau in H. rewrite Ex in H. cbn [bind] in H.
  destruct (coplanar_fig (kk A D) D (err A) K1 K2 K3 HD draws xs (map pp vs) false Px Sp ltac:(rewrite map_length; exact L) H) as (pi & pj & pk & Ii & Ij & Ik & Nm & p & Ip & Al).
  pose proof (coplanar_plane _ pi pj pk Cp Ii Ij Ik) as Z. rewrite Forall_forall in Z. rewrite (Z p Ip), Rabs_R0 in Al. lra.
Qed.
Lemma first_good_total xs draws : Forall (valid_draw (length xs)) draws -> exists g, first_good Bnum xs draws = Ok g /\ match g with None => True | Some (d, _) => In d draws end.
Proof.
  assert (Gt : forall (l : list (Num.pt Bnum)) i, (i < length l)%nat -> exists x, get l i = Ok x) by (intros l i Hi; destruct (get_lt l i Hi) as (x & E & _); eauto).
  induction 1 as [|[[i j] h] draws Hd _ IH]; cbn [first_good]; [exists None; auto|]. destruct Hd as (Hi & Hj & Hk & _).
  unfold triple_normal. destruct (Gt xs i Hi) as (x & Ex). destruct (Gt xs j Hj) as (y & Ey). destruct (Gt xs h Hk) as (z & Ez). unfold pt in *. rewrite Ey, Ex, Ez. cbn [bind].
  destruct (IcoNumeric.small Bnum _); [|eexists; split; [reflexivity|left; reflexivity]]. destruct IH as (g & Eg & Hg). exists g. split; [exact Eg|]. destruct g as [[d n]|]; [right; exact Hg|exact I].
Qed.
Lemma flat_total A D draws vs : tame A D vs -> Forall (valid_draw (length vs)) draws -> exists r, coplanar_check_numeric_tau Bnum draws vs = Ok r.
Proof.
  intros (HA & HD & HM & C & Sp) V. destruct (internals_B A vs ltac:(lra) C) as (xs & Ex & Px).
  assert (Lx : length xs = length vs) by (rewrite <- (map_length pp vs); clear - Px; induction Px; cbn; congruence).
  unfold coplanar_check_numeric_tau, coplanar_check_numeric. rewrite Ex. cbn [bind]. destruct (Nat.ltb 3 (length xs)); [|eauto].
  rewrite <- Lx in V. destruct (first_good_total xs draws V) as (g & -> & Hg). cbn [bind]. destruct g as [[[[i j] h] n]|]; [|eauto].
  rewrite Forall_forall in V. destruct (V _ Hg) as (Hi & _). destruct (get_lt xs i Hi) as (x & E & _). cbn [fst]. unfold Num.pt in *. rewrite E. cbn [bind].
  assert (All : forall l, Forall (fun i => (i < length xs)%nat) l -> exists b, all_near Bnum xs n x l = Ok b).
  { induction 1 as [|q l Hq _ IH]; cbn [all_near]; [eauto|]. destruct (get_lt xs q Hq) as (y & Ey & _). unfold Num.pt in *. rewrite Ey. cbn [bind]. destruct (flt Bnum _ _); eauto. }
  destruct (All (others (length xs) (i, j, h))) as (b & Eb); [apply Forall_forall; intros q Hq; apply others_spec in Hq; tauto|]. unfold Num.pt in *. rewrite Eb. cbn [bind]. eauto.
Qed.
End Lib.
