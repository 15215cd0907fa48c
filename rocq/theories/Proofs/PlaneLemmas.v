(** The numerical tests of dode2 in exact arithmetic. *)
From Coq Require Import Reals List ZArith Lia Lra Psatz Bool Arith.
From Verif Require Import Base.Res Model.Tau Model.Arr Model.Num Model.IcoNumeric Model.DodeNumeric Model.DodeIntersect
  Spec.Value Spec.RVec Spec.Shape Spec.Sets Spec.DodeSpec Spec.Space Spec.Overlap Spec.Tetra Spec.Plane
  Proofs.ResLemmas Proofs.RVecLemmas Proofs.Irrational Proofs.NumLemmas.
Import ListNotations.
Local Open Scope R_scope.

Lemma fsin_R : fsin Rnum = SIN. Proof. reflexivity. Qed.
Lemma half_R : half Rnum = 1 / 2. Proof. reflexivity. Qed.
Lemma dnumeric_value_R t : dnumeric_value Rnum t = val SIN t.
Proof. destruct t as [a b c]. unfold dnumeric_value, val. cbn. unfold fsin. cbn. reflexivity. Qed.
Lemma dnumerical_vector_R v : dnumerical_vector Rnum v = vals SIN v.
Proof. unfold dnumerical_vector, vals. apply map_ext. apply dnumeric_value_R. Qed.
Lemma dinternal_R v : length v = 6%nat -> dinternal Rnum v = Ok (dp v).
Proof.
  intros L. unfold dinternal. rewrite dnumerical_vector_R. unfold dp, dppoint.
  destruct v as [|v0 [|v1 [|v2 [|v3 [|v4 [|v5 [|]]]]]]]; try discriminate L. clear L.
  unfold vals; cbn [map]. generalize (val SIN v0) (val SIN v1) (val SIN v2) (val SIN v3) (val SIN v4) (val SIN v5).
  intros x0 x1 x2 x3 x4 x5. unfold dprojection3_numerical. cbn [get nth_error bind].
  rewrite fsin_R, half_R. cbn. unfold dot; cbn. apply (f_equal (@Ok R3)). apply f_equal2; [apply f_equal2|]; lra.
Qed.
Lemma dinternals_R vs : Forall (fun v => length v = 6%nat) vs -> dinternals Rnum vs = Ok (map dp vs).
Proof.
  intros H. unfold dinternals. induction H as [|v vs Hv _ IH]; cbn [mapM map]; [reflexivity|].
  rewrite dinternal_R by exact Hv. cbn [bind]. rewrite IH. reflexivity.
Qed.

(** ** Areas *)
Lemma area3_R (a b c : R3) : area3 Rnum a b c = tri_area a b c.
Proof.
  unfold area3, tri_area, norm3. toR. unfold sq3. p3 a; p3 b; p3 c. cbn.
  f_equal. f_equal. rewrite !Rabs_pos_eq by (apply Rle_0_sqr). ring.
Qed.
Lemma tri_area_flat h (a b c : R3) : height a = h -> height b = h -> height c = h ->
  tri_area a b c = Rabs (det2 (sub3 b a) (sub3 c a)) / 2.
Proof.
  destruct a as [[a0 a1] a2], b as [[b0 b1] b2], c as [[c0 c1] c2]. unfold height; cbn [snd]. intros -> -> ->.
  unfold tri_area, norm3. f_equal. rewrite <- sqrt_Rsqr_abs. f_equal. unfold Rsqr. cbn. ring.
Qed.

Lemma bary3 ws (a b c : R3) p : bary ws [a;b;c] p -> exists w0 w1 w2, ws = [w0;w1;w2] /\ w0 = 1 - w1 - w2.
Proof.
  intros (L & S & _). destruct ws as [|w0 [|w1 [|w2 [|]]]]; try discriminate L.
  exists w0, w1, w2. split; [reflexivity|]. cbn in S. lra.
Qed.
Lemma bary_height h ws ps p : bary ws ps p -> Forall (fun q => height q = h) ps -> height p = h.
Proof.
  intros (L & S & ->) H.
  assert (K : height (comb ws ps) = Rsum ws * h).
  { clear S. revert ws L. induction H as [|q ps Hq _ IH]; intros [|w ws] L; try discriminate L; [cbn; ring|].
    cbn [comb]. cbn [Rsum fold_right]. change (fold_right Rplus 0 ws) with (Rsum ws). injection L as L. specialize (IH ws L).
    destruct (comb ws ps) as [[x y] z]. destruct q as [[q0 q1] q2]. unfold height in *. cbn in *. rewrite IH, Hq. ring. }
  rewrite K, S. ring.
Qed.
Lemma bary3_exists h (a b c p : R3) : height a = h -> height b = h -> height c = h -> height p = h -> ~ flat3 a b c ->
  exists ws, bary ws [a;b;c] p.
Proof.
  destruct a as [[a0 a1] a2], b as [[b0 b1] b2], c as [[c0 c1] c2], p as [[p0 p1] p2]. unfold height; cbn [snd]. intros -> -> -> ->.
  unfold flat3. cbn. intros H. set (D := (b0 - a0) * (c1 - a1) - (b1 - a1) * (c0 - a0)) in *.
  set (w1 := ((p0 - a0) * (c1 - a1) - (p1 - a1) * (c0 - a0)) / D).
  set (w2 := ((b0 - a0) * (p1 - a1) - (b1 - a1) * (p0 - a0)) / D).
  exists [1 - w1 - w2; w1; w2]. split; [reflexivity|]. split; [cbn; ring|].
  subst w1 w2 D. cbn. unfold o3. apply f_equal2; [apply f_equal2|]; field; exact H.
Qed.
Lemma bary3_dets w0 w1 w2 (a b c p : R3) : bary [w0;w1;w2] [a;b;c] p ->
  let D := det2 (sub3 b a) (sub3 c a) in
  w0 * D = det2 (sub3 b p) (sub3 c p) /\ w1 * D = det2 (sub3 p a) (sub3 c a) /\ w2 * D = det2 (sub3 b a) (sub3 p a).
Proof.
  intros (_ & S & ->). cbn in S. assert (E : w0 = 1 - w1 - w2) by lra. subst w0.
  p3 a; p3 b; p3 c. cbn. unfold o3. repeat split; ring.
Qed.
Lemma bary3_unique (a b c : R3) p ws ws' : ~ flat3 a b c -> bary ws [a;b;c] p -> bary ws' [a;b;c] p -> ws = ws'.
Proof.
  unfold flat3. intros H B B'.
  destruct (bary3 _ _ _ _ _ B) as (w0 & w1 & w2 & -> & E). destruct (bary3 _ _ _ _ _ B') as (v0 & v1 & v2 & -> & E').
  apply bary3_dets in B as (B1 & B2 & B3). apply bary3_dets in B' as (C1 & C2 & C3).
  assert (w0 = v0) by (apply (Rmult_eq_reg_r (det2 (sub3 b a) (sub3 c a))); [congruence|exact H]).
  assert (w1 = v1) by (apply (Rmult_eq_reg_r (det2 (sub3 b a) (sub3 c a))); [congruence|exact H]).
  assert (w2 = v2) by (apply (Rmult_eq_reg_r (det2 (sub3 b a) (sub3 c a))); [congruence|exact H]).
  congruence.
Qed.

(** ** Point in triangle *)
Lemma in_tri_R h p a b c ws : height a = h -> height b = h -> height c = h -> height p = h -> ~ flat3 a b c -> bary ws [a;b;c] p ->
  (in_tri Rnum p a b c = true <-> Rsum (map Rabs ws) < 1 + 1 / 1000000).
Proof.
  intros Ha Hb Hc Hp Hf B. unfold in_tri. cbv zeta. rewrite !area3_R.
  rewrite (tri_area_flat h a b c), (tri_area_flat h p b c), (tri_area_flat h a p c), (tri_area_flat h a b p) by assumption.
  destruct (bary3 _ _ _ _ _ B) as (w0 & w1 & w2 & -> & _). destruct (bary3_dets _ _ _ _ _ _ _ B) as (D0 & D1 & D2).
  assert (S : w0 + (w1 + (w2 + 0)) = 1) by (destruct B as (_ & S & _); exact S).
  rewrite <- D0, <- D1, <- D2. rewrite !Rabs_mult. unfold flat3 in Hf. pose proof (Rabs_pos_lt _ Hf) as V0. cbn [map Rsum].
  set (V := Rabs (det2 (sub3 b a) (sub3 c a))) in *. toR. rewrite Rltb_true.
  pose proof (Rle_abs w0). pose proof (Rle_abs w1). pose proof (Rle_abs w2).
  set (s := Rabs w0 + (Rabs w1 + (Rabs w2 + 0))) in *. change (Rsum [Rabs w0; Rabs w1; Rabs w2]) with s.
  replace (V / 2 - Rabs w0 * V / 2 - Rabs w1 * V / 2 - Rabs w2 * V / 2) with (- (V / 2 * (s - 1))) by (unfold s; field).
  rewrite Rabs_Ropp, Rabs_mult, (Rabs_pos_eq (V / 2)) by lra. rewrite (Rabs_pos_eq (s - 1)) by (unfold s; lra).
  split; intros K.
  - apply Rmult_lt_reg_l with (V / 2); [lra|]. nra.
  - nra.
Qed.
Lemma in_tri_flat h p a b c : height a = h -> height b = h -> height c = h -> flat3 a b c -> in_tri Rnum p a b c = false.
Proof.
  intros Ha Hb Hc Hf. unfold in_tri. cbv zeta. rewrite !area3_R. rewrite (tri_area_flat h a b c) by assumption.
  unfold flat3 in Hf. rewrite Hf, Rabs_R0. toR. apply Rltb_false. replace (1 / 1000000 * (0 / 2)) with 0 by field. apply Rabs_pos.
Qed.
Lemma in_tri_spec h p a b c : height a = h -> height b = h -> height c = h -> height p = h ->
  (in_tri Rnum p a b c = true <-> ~ flat3 a b c /\ exists ws, bary ws [a;b;c] p /\ Rsum (map Rabs ws) < 1 + 1 / 1000000).
Proof.
  intros Ha Hb Hc Hp. destruct (Req_dec (det2 (sub3 b a) (sub3 c a)) 0) as [Hf|Hf].
  - rewrite (in_tri_flat h p a b c Ha Hb Hc Hf). split; [discriminate|]. intros [H _]. contradiction.
  - destruct (bary3_exists h a b c p Ha Hb Hc Hp Hf) as (ws & B). rewrite (in_tri_R h p a b c ws Ha Hb Hc Hp Hf B). split.
    + intros H. split; [exact Hf|eauto].
    + intros [_ (ws' & B' & H)]. rewrite (bary3_unique _ _ _ _ _ _ Hf B B'). exact H.
Qed.

(** ** Two segments *)
Definition gap3 (a b c d : R3) (s t : R) : R3 := sub3 (add3 c (scale3 t (sub3 d c))) (add3 a (scale3 s (sub3 b a))).
Lemma lagrange (u v : R3) : dot3 u v * dot3 v u - dot3 u u * dot3 v v = - dot3 (cross3 u v) (cross3 u v).
Proof. p3 u; p3 v. cbn. ring. Qed.
Lemma dot3_self_pos u : 0 <= dot3 u u. Proof. p3 u. cbn. nra. Qed.

Lemma seg_seg_R (a b c d : R3) : seg_seg Rnum a b c d = true <->
  1/1000000 <= dot3 (cross3 (sub3 b a) (sub3 d c)) (cross3 (sub3 b a) (sub3 d c)) /\
  exists s t, 0 <= s <= 1 /\ 0 <= t <= 1 /\
    dot3 (gap3 a b c d s t) (sub3 b a) = 0 /\ dot3 (gap3 a b c d s t) (sub3 d c) = 0 /\
    dot3 (gap3 a b c d s t) (gap3 a b c d s t) < 1/1000000.
Proof.
  unfold seg_seg. cbv zeta. toR.
  set (AB := sub3 b a). set (AC := sub3 c a). set (CD := sub3 d c).
  rewrite lagrange. set (K := dot3 (cross3 AB CD) (cross3 AB CD)).
  assert (K0 : 0 <= K) by apply dot3_self_pos. rewrite Rabs_Ropp, (Rabs_pos_eq K K0).
  destruct (Rltb K (1/1000000)) eqn:EK.
  { apply Rltb_true in EK. split; [discriminate|]. intros [H _]. lra. }
  apply Rltb_false in EK.
  assert (C0 : dot3 CD CD <> 0).
  { intros Z. assert (K = 0); [|lra]. unfold K. pose proof (lagrange AB CD) as L. rewrite Z in L.
    assert (CD = (0,0,0)). { clear - Z. destruct CD as [[x y] z]. cbn in Z. assert (x = 0) by nra. assert (y = 0) by nra. assert (z = 0) by nra. subst. reflexivity. }
    rewrite H. destruct AB as [[x y] z]. cbn. ring. }
  assert (G : forall s t, gap3 a b c d s t = add3 (sub3 AC (scale3 s AB)) (scale3 t CD)).
  { intros s t. unfold gap3, AC, AB, CD. p3 a; p3 b; p3 c; p3 d. cbn. apply f_equal2; [apply f_equal2|]; ring. }
  set (s := (dot3 AC CD * dot3 CD AB - dot3 CD CD * dot3 AC AB) / - K).
  set (t := (- dot3 AC CD + s * dot3 AB CD) / dot3 CD CD).
  assert (Os : forall x y, dot3 (gap3 a b c d x y) AB = dot3 AC AB - x * dot3 AB AB + y * dot3 CD AB).
  { intros x y. rewrite G. clearbody AB AC CD. p3 AB; p3 AC; p3 CD. cbn. ring. }
  assert (Ot : forall x y, dot3 (gap3 a b c d x y) CD = dot3 AC CD - x * dot3 AB CD + y * dot3 CD CD).
  { intros x y. rewrite G. clearbody AB AC CD. p3 AB; p3 AC; p3 CD. cbn. ring. }
  assert (Ek : K = dot3 AB AB * dot3 CD CD - dot3 AB CD * dot3 CD AB) by (unfold K; pose proof (lagrange AB CD); lra).
  assert (Sym : dot3 CD AB = dot3 AB CD) by (clearbody AB CD; p3 AB; p3 CD; cbn; ring).
  assert (St : dot3 (gap3 a b c d s t) CD = 0) by (rewrite Ot; unfold t; field; exact C0).
  assert (Ss : dot3 (gap3 a b c d s t) AB = 0).
  { rewrite Os. unfold t. apply (Rmult_eq_reg_r (dot3 CD CD)); [|exact C0]. rewrite Rmult_0_l.
    replace ((dot3 AC AB - s * dot3 AB AB + (- dot3 AC CD + s * dot3 AB CD) / dot3 CD CD * dot3 CD AB) * dot3 CD CD)
      with (dot3 AC AB * dot3 CD CD - dot3 AC CD * dot3 CD AB - s * K) by (rewrite Ek; field; exact C0).
    unfold s. field. lra. }
  assert (Uni : forall x y, dot3 (gap3 a b c d x y) AB = 0 -> dot3 (gap3 a b c d x y) CD = 0 -> x = s /\ y = t).
  { intros x y H1 H2. rewrite Os in H1. rewrite Ot in H2.
    assert (Ex : x * K = s * K).
    { replace (s * K) with (dot3 AC AB * dot3 CD CD - dot3 AC CD * dot3 CD AB) by (unfold s; field; lra). rewrite Ek.
      assert (Y : y * dot3 CD CD = - dot3 AC CD + x * dot3 AB CD) by lra.
      replace (x * (dot3 AB AB * dot3 CD CD - dot3 AB CD * dot3 CD AB))
        with (dot3 CD CD * (dot3 AC AB - (dot3 AC AB - x * dot3 AB AB + y * dot3 CD AB)) + (y * dot3 CD CD) * dot3 CD AB - x * dot3 AB CD * dot3 CD AB) by ring.
      rewrite H1, Y. ring. }
    apply Rmult_eq_reg_r in Ex; [|lra]. split; [exact Ex|]. subst x. unfold t. apply (Rmult_eq_reg_r (dot3 CD CD)); [|exact C0].
    replace ((- dot3 AC CD + s * dot3 AB CD) / dot3 CD CD * dot3 CD CD) with (- dot3 AC CD + s * dot3 AB CD) by (field; exact C0). lra. }
  assert (Gp : forall x y, (let gap := fun i => let z := comp Rnum AC i - x * comp Rnum AB i + y * comp Rnum CD i in z * z in 0 + gap 0%nat + gap 1%nat + gap 2%nat)
      = dot3 (gap3 a b c d x y) (gap3 a b c d x y)).
  { intros x y. rewrite G. cbv zeta. clearbody AB AC CD. p3 AB; p3 AC; p3 CD. cbn. ring. }
  specialize (Gp s t). cbv zeta in Gp. rewrite Gp. clear Gp.
  destruct (Rleb 0 s && Rleb s 1 && Rleb 0 t && Rleb t 1) eqn:Er.
  - rewrite !andb_true_iff, !Rleb_true in Er. destruct Er as [[[S0 S1] T0] T1]. rewrite Rltb_true. split.
    + intros H. split; [exact EK|]. exists s, t. tauto.
    + intros [_ (x & y & _ & _ & H1 & H2 & H3)]. destruct (Uni x y H1 H2) as [-> ->]. exact H3.
  - split; [discriminate|]. intros [_ (x & y & [X0 X1] & [Y0 Y1] & H1 & H2 & _)]. destruct (Uni x y H1 H2) as [-> ->].
    rewrite (proj2 (Rleb_true _ _) X0), (proj2 (Rleb_true _ _) X1), (proj2 (Rleb_true _ _) Y0), (proj2 (Rleb_true _ _) Y1) in Er. discriminate.
Qed.

(** In a plane the gap vanishes. *)
Lemma seg_seg_plane h (a b c d : R3) : height a = h -> height b = h -> height c = h -> height d = h ->
  (seg_seg Rnum a b c d = true <->
   1/1000000 <= det2 (sub3 b a) (sub3 d c) * det2 (sub3 b a) (sub3 d c) /\
   exists p, hull [a; b] p /\ hull [c; d] p).
Proof.
  intros Ha Hb Hc Hd. rewrite seg_seg_R.
  assert (EK : dot3 (cross3 (sub3 b a) (sub3 d c)) (cross3 (sub3 b a) (sub3 d c)) = det2 (sub3 b a) (sub3 d c) * det2 (sub3 b a) (sub3 d c)).
  { destruct a as [[a0 a1] a2], b as [[b0 b1] b2], c as [[c0 c1] c2], d as [[d0 d1] d2]. unfold height in *; cbn [snd] in *. subst. cbn. ring. }
  rewrite EK. clear EK. split; intros [K H]; (split; [exact K|]).
  - destruct H as (s & t & Hs & Ht & H1 & H2 & _).
    assert (Z : gap3 a b c d s t = o3).
    { set (D := det2 (sub3 b a) (sub3 d c)) in *. assert (D <> 0) by nra. unfold D in *.
      assert (Hz : height (gap3 a b c d s t) = 0).
      { destruct a as [[a0 a1] a2], b as [[b0 b1] b2], c as [[c0 c1] c2], d as [[d0 d1] d2]. unfold height in *; cbn [snd] in *. subst. unfold gap3. cbn. ring. }
      assert (zab : height (sub3 b a) = 0) by (destruct a as [[a0 a1] a2], b as [[b0 b1] b2]; unfold height in *; cbn in *; lra).
      assert (zcd : height (sub3 d c) = 0) by (destruct c as [[a0 a1] a2], d as [[b0 b1] b2]; unfold height in *; cbn in *; lra).
      destruct (gap3 a b c d s t) as [[x y] z]. destruct (sub3 b a) as [[u1 u2] u3], (sub3 d c) as [[v1 v2] v3]. unfold height in *. cbn in *. subst z u3 v3.
      assert (X : x * (u1 * v2 - u2 * v1) = 0) by (replace (x * (u1 * v2 - u2 * v1)) with ((x * u1 + y * u2 + 0 * 0) * v2 - (x * v1 + y * v2 + 0 * 0) * u2) by ring; rewrite H1, H2; ring).
      assert (Y : y * (u1 * v2 - u2 * v1) = 0) by (replace (y * (u1 * v2 - u2 * v1)) with ((x * v1 + y * v2 + 0 * 0) * u1 - (x * u1 + y * u2 + 0 * 0) * v1) by ring; rewrite H1, H2; ring).
      apply Rmult_integral in X as [->|X]; [|contradiction]. apply Rmult_integral in Y as [->|Y]; [|contradiction]. reflexivity. }
    exists (add3 a (scale3 s (sub3 b a))). split.
    + exists [1 - s; s]. split; [|repeat (apply Forall_cons; [lra|]); constructor]. split; [reflexivity|]. split; [cbn; ring|].
      p3 a; p3 b. unfold o3; cbn. apply f_equal2; [apply f_equal2|]; ring.
    + exists [1 - t; t]. split; [|repeat (apply Forall_cons; [lra|]); constructor]. split; [reflexivity|]. split; [cbn; ring|].
      unfold gap3, o3 in Z. p3 a; p3 b; p3 c; p3 d. cbn in *. injection Z as Z1 Z2 Z3. apply f_equal2; [apply f_equal2|]; lra.
  - destruct H as (p & (ws & (Lw & Sw & Ew) & Pw) & (us & (Lu & Su & Eu) & Pu)).
    destruct ws as [|w0 [|w1 [|]]]; try discriminate Lw. destruct us as [|u0 [|u1 [|]]]; try discriminate Lu. cbn in Sw, Su.
    pose proof (Forall_inv Pw). pose proof (Forall_inv (Forall_inv_tail Pw)). pose proof (Forall_inv Pu). pose proof (Forall_inv (Forall_inv_tail Pu)).
    exists w1, u1. split; [lra|]. split; [lra|].
    assert (Z : gap3 a b c d w1 u1 = o3).
    { assert (w0 = 1 - w1) by lra. assert (u0 = 1 - u1) by lra. subst w0 u0. rewrite Ew in Eu. unfold gap3, o3 in *. p3 a; p3 b; p3 c; p3 d. cbn in *.
      injection Eu as E1 E2 E3. apply f_equal2; [apply f_equal2|]; lra. }
    rewrite Z. unfold o3. destruct (sub3 b a) as [[? ?] ?], (sub3 d c) as [[? ?] ?]. cbn. repeat split; lra.
Qed.
