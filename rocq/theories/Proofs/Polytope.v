(** Convex sets and polytopes in three-dimensional space: every point of a polytope is
    a convex combination of its vertices; the vertices of the intersection of two
    tetrahedra. *)
From Coq Require Import Reals List Lia Lra Psatz Bool Classical.
From Verif Require Import Spec.RVec Spec.Sets Spec.Space Spec.Overlap Proofs.NumLemmas.
Import ListNotations.
Local Open Scope R_scope.

Ltac eq3 := apply f_equal2; [apply f_equal2|].

(** ** Combinations *)
Lemma comb_cons w ws p ps : comb (w :: ws) (p :: ps) = add3 (scale3 w p) (comb ws ps).
Proof. reflexivity. Qed.
Lemma comb_scale k ws ps : comb (map (Rmult k) ws) ps = scale3 k (comb ws ps).
Proof.
  revert ps. induction ws as [|w ws IH]; intros ps; [cbn; eq3; ring|]. destruct ps as [|p ps]; [cbn; eq3; ring|].
  cbn [map]. rewrite !comb_cons, IH. destruct (comb ws ps) as [[x y] z]. p3 p. cbn. eq3; ring.
Qed.
Lemma comb_app ws ps vs qs : length ws = length ps -> comb (ws ++ vs) (ps ++ qs) = add3 (comb ws ps) (comb vs qs).
Proof.
  revert ps. induction ws as [|w ws IH]; intros [|p ps] L; try discriminate.
  - cbn [app]. cbn [comb]. destruct (comb vs qs) as [[x y] z]. cbn. eq3; ring.
  - cbn [app]. rewrite !comb_cons, IH by (cbn in L; lia). destruct (comb ws ps) as [[x y] z], (comb vs qs) as [[x' y'] z']. p3 p. cbn. eq3; ring.
Qed.
Lemma Rsum_map_scale k ws : Rsum (map (Rmult k) ws) = k * Rsum ws.
Proof. induction ws as [|w ws IH]; cbn; [ring|]. unfold Rsum in *. cbn. rewrite IH. ring. Qed.
Lemma Rsum_cons w ws : Rsum (w :: ws) = w + Rsum ws.
Proof. reflexivity. Qed.
Lemma Rsum_app_ ws vs : Rsum (ws ++ vs) = Rsum ws + Rsum vs.
Proof. induction ws as [|w ws IH]; cbn [app]; [change (Rsum []) with 0; ring|]. rewrite !Rsum_cons, IH. ring. Qed.

Definition mix (k : R) (a b : R3) : R3 := add3 (scale3 k a) (scale3 (1 - k) b).
Definition convex (C : R3 -> Prop) : Prop := forall a b k, C a -> C b -> 0 <= k <= 1 -> C (mix k a b).

Lemma Forall_scale k ws : 0 <= k -> Forall (Rle 0) ws -> Forall (Rle 0) (map (Rmult k) ws).
Proof. intros Hk H. induction H; cbn; constructor; auto. apply Rmult_le_pos; assumption. Qed.
Lemma hull_mix ps qs a b k : hull ps a -> hull qs b -> 0 <= k <= 1 -> hull (ps ++ qs) (mix k a b).
Proof.
  intros (ws & (L & S & E) & P) (vs & (L' & S' & E') & P') [K0 K1].
  exists (map (Rmult k) ws ++ map (Rmult (1 - k)) vs). split.
  - split; [rewrite !app_length, !map_length; lia|]. split.
    + rewrite Rsum_app_, !Rsum_map_scale, S, S'. ring.
    + rewrite comb_app by (rewrite map_length; exact L). rewrite !comb_scale, <- E, <- E'. reflexivity.
  - apply Forall_app. split; apply Forall_scale; try assumption; lra.
Qed.

Lemma zero_sum ws : Forall (Rle 0) ws -> Rsum ws = 0 -> Forall (fun w => w = 0) ws.
Proof.
  induction 1 as [|w ws Hw H IH]; intros S; [constructor|]. rewrite Rsum_cons in S.
  assert (P : 0 <= Rsum ws). { clear - H. induction H; [apply Rle_refl|]. rewrite Rsum_cons. lra. }
  constructor; [lra|apply IH; lra].
Qed.
Lemma Rsum_pos ws : Forall (Rle 0) ws -> 0 <= Rsum ws.
Proof. induction 1; [apply Rle_refl|]. rewrite Rsum_cons. lra. Qed.
Lemma comb_zero ws ps : Forall (fun w => w = 0) ws -> comb ws ps = o3.
Proof.
  intros H. revert ps. induction H as [|w ws -> H IH]; intros ps; [reflexivity|]. destruct ps as [|p ps]; [reflexivity|].
  rewrite comb_cons, IH. p3 p. unfold o3. cbn. eq3; ring.
Qed.

(** A convex set contains the hull of its points. *)
Lemma convex_hull (C : R3 -> Prop) ps p : convex C -> Forall C ps -> hull ps p -> C p.
Proof.
  intros HC H (ws & (L & S & E) & P). revert ws p L S E P. induction H as [|q ps Hq H IH]; intros ws p L S E P.
  - destruct ws; [cbn in S; lra|discriminate].
  - destruct ws as [|w ws]; [discriminate|]. inversion P as [|? ? Pw Pws]; subst. rewrite Rsum_cons in S. rewrite comb_cons.
    cbn in L. injection L as L. pose proof (Rsum_pos ws Pws) as Sp.
    destruct (Req_dec (Rsum ws) 0) as [Z|NZ].
    + rewrite (comb_zero ws ps (zero_sum ws Pws Z)). replace w with 1 by lra. p3 q. unfold o3. cbn.
      replace (1 * r + 0, 1 * r0 + 0, 1 * r1 + 0) with (r, r0, r1) by (eq3; ring). exact Hq.
    + replace (add3 (scale3 w q) (comb ws ps)) with (mix w q (comb (map (Rmult (/ Rsum ws)) ws) ps)).
      * apply HC; [exact Hq| |lra]. eapply IH; [rewrite map_length; exact L| |reflexivity|].
        -- rewrite Rsum_map_scale. field. exact NZ.
        -- apply Forall_scale; [|exact Pws]. apply Rlt_le, Rinv_0_lt_compat. lra.
      * unfold mix. rewrite comb_scale. replace (1 - w) with (Rsum ws) by lra. destruct (comb ws ps) as [[x y] z]. p3 q. cbn. eq3; field; exact NZ.
Qed.

Lemma hull_single q : hull [q] q.
Proof. exists [1]. split; [split; [reflexivity|]; split; [unfold Rsum; cbn; ring|p3 q; cbn; eq3; ring]|repeat constructor; lra]. Qed.
Lemma hull_mem q ps : In q ps -> hull ps q.
Proof.
  induction ps as [|a ps IH]; [intros []|]. intros [->|I].
  - exists (1 :: map (fun _ => 0) ps). split; [split; [cbn; rewrite map_length; reflexivity|]; split|].
    + rewrite Rsum_cons. replace (Rsum (map (fun _ => 0) ps)) with 0; [ring|]. clear. induction ps as [|a ps IH]; [reflexivity|]. cbn [map]. rewrite Rsum_cons, <- IH. ring.
    + rewrite comb_cons, comb_zero; [p3 q; unfold o3; cbn; eq3; ring|]. clear. induction ps; constructor; auto.
    + constructor; [lra|]. clear. induction ps; constructor; auto. lra.
  - destruct (IH I) as (ws & (L & S & E) & P). exists (0 :: ws). split; [split; [cbn; rewrite L; reflexivity|]; split|].
    + rewrite Rsum_cons, S. ring.
    + rewrite comb_cons, <- E. p3 a. p3 q. cbn. eq3; ring.
    + constructor; [lra|exact P].
Qed.

Lemma mix_near h ps a b k : near h ps a -> near h ps b -> 0 <= k <= 1 -> near h ps (mix k a b).
Proof.
  intros (ws & (L & S & E) & P) (vs & (L' & S' & E') & P') [K0 K1].
  set (f := fix f (l m : list R) := match l, m with x :: l, y :: m => k * x + (1 - k) * y :: f l m | _, _ => [] end).
  exists (f ws vs). revert ps L S E P vs L' S' E' P'. intros ps L _S E P vs L' _S' E' P'.
  assert (G : forall ws vs ps, length ws = length ps -> length vs = length ps ->
    length (f ws vs) = length ps /\ Rsum (f ws vs) = k * Rsum ws + (1 - k) * Rsum vs /\ comb (f ws vs) ps = mix k (comb ws ps) (comb vs ps)).
  { clear. induction ws as [|w ws IH]; intros vs [|p ps] L L'; try discriminate; destruct vs as [|v vs]; try discriminate.
    - cbn. split; [reflexivity|]. split; [unfold Rsum; cbn; ring|]. unfold mix, o3. cbn. eq3; ring.
    - cbn in L, L'. injection L as L. injection L' as L'. destruct (IH vs ps L L') as (A & B & C). cbn [f length]. split; [rewrite A; reflexivity|].
      rewrite !Rsum_cons, B. split; [ring|]. rewrite !comb_cons, C. unfold mix. destruct (comb ws ps) as [[x y] z], (comb vs ps) as [[x' y'] z']. p3 p. cbn. eq3; ring. }
  destruct (G ws vs ps L L') as (A & B & C). split.
  - split; [exact A|]. split; [rewrite B, _S, _S'; ring|rewrite C, E, E'; reflexivity].
  - clear - P P' K0 K1. revert vs P'. induction P as [|w ws Hw P IH]; intros vs P'; [constructor|]. destruct P' as [|v vs Hv P']; [constructor|].
    cbn [f]. constructor; [|apply IH; exact P']. nra.
Qed.
Lemma near_convex h ps : convex (near h ps).
Proof. intros a b k. apply mix_near. Qed.
Lemma hull_near0 ps p : hull ps p <-> near 0 ps p.
Proof. unfold hull, near. rewrite Ropp_0. reflexivity. Qed.
Lemma hull_convex ps : convex (hull ps).
Proof. intros a b k Ha Hb K. apply hull_near0. apply mix_near; [apply hull_near0; exact Ha|apply hull_near0; exact Hb|exact K]. Qed.
Lemma hull_trans ps qs p : hull ps p -> (forall q, In q ps -> hull qs q) -> hull qs p.
Proof. intros H I. apply (convex_hull (hull qs) ps p (hull_convex qs)); [|exact H]. apply Forall_forall. exact I. Qed.

(** ** Polytopes given by half-spaces *)
Definition half : Type := (R3 * R)%type.
Definition ev (L : half) (p : R3) : R := dot3 (fst L) p + snd L.
Definition along (p : R3) (t : R) (d : R3) : R3 := add3 p (scale3 t d).
Lemma ev_along L p t d : ev L (along p t d) = ev L p + t * dot3 (fst L) d.
Proof. destruct L as [[[x y] z] c]. p3 p. p3 d. unfold ev, along. cbn. ring. Qed.

Section Polytope.
Variable cs : list half.
Definition inP (p : R3) : Prop := forall L, In L cs -> 0 <= ev L p.

Lemma min_ratio (f g : half -> R) l : (exists L, In L l /\ g L < 0) ->
  exists L0, In L0 l /\ g L0 < 0 /\ forall L, In L l -> g L < 0 -> f L0 / - g L0 <= f L / - g L.
Proof.
  induction l as [|a l IH]; intros (L & I & N); [destruct I|].
  destruct (classic (exists L, In L l /\ g L < 0)) as [X|X].
  - destruct (IH X) as (L0 & I0 & N0 & M). destruct (Rlt_dec (g a) 0) as [Na|Na].
    + destruct (Rle_dec (f a / - g a) (f L0 / - g L0)) as [C|C].
      * exists a. split; [left; reflexivity|]. split; [exact Na|]. intros L' [<-|I'] N'; [apply Rle_refl|]. eapply Rle_trans; [exact C|apply M; assumption].
      * exists L0. split; [right; exact I0|]. split; [exact N0|]. intros L' [<-|I'] N'; [lra|apply M; assumption].
    + exists L0. split; [right; exact I0|]. split; [exact N0|]. intros L' [<-|I'] N'; [contradiction|apply M; assumption].
  - exists L. split; [exact I|]. split; [exact N|]. intros L' I' N'. destruct I as [<-|I]; [|exfalso; apply X; eauto].
    destruct I' as [<-|I']; [apply Rle_refl|exfalso; apply X; eauto].
Qed.

(** From p in direction d to the first wall. *)
Lemma move p d : inP p -> (exists L, In L cs /\ dot3 (fst L) d < 0) ->
  exists t L0, 0 <= t /\ In L0 cs /\ dot3 (fst L0) d < 0 /\ ev L0 (along p t d) = 0 /\ inP (along p t d) /\
    forall L, In L cs -> dot3 (fst L) d < 0 -> t * (- dot3 (fst L) d) <= ev L p.
Proof.
  intros Hp X. destruct (min_ratio (fun L => ev L p) (fun L => dot3 (fst L) d) cs X) as (L0 & I0 & N0 & M).
  set (t := ev L0 p / - dot3 (fst L0) d). assert (T0 : 0 <= t).
  { apply Rmult_le_pos; [apply Hp; exact I0|]. apply Rlt_le, Rinv_0_lt_compat. lra. }
  assert (M' : forall L, In L cs -> dot3 (fst L) d < 0 -> t * (- dot3 (fst L) d) <= ev L p).
  { intros L I N. specialize (M L I N). fold t in M. apply (Rmult_le_compat_r (- dot3 (fst L) d)) in M; [|lra].
    replace (ev L p / - dot3 (fst L) d * - dot3 (fst L) d) with (ev L p) in M by (field; lra). exact M. }
  exists t, L0. split; [exact T0|]. split; [exact I0|]. split; [exact N0|]. split; [|split; [|exact M']].
  - rewrite ev_along. unfold t. field. lra.
  - intros L I. rewrite ev_along. destruct (Rlt_dec (dot3 (fst L) d) 0) as [N|N].
    + specialize (M' L I N). lra.
    + specialize (Hp L I). apply Rnot_lt_le in N. pose proof (Rmult_le_pos _ _ T0 N). lra.
Qed.

Hypothesis bounded : forall d, d <> o3 -> exists L, In L cs /\ dot3 (fst L) d < 0.

Definition extreme (p : R3) : Prop :=
  inP p /\ forall d, (forall L, In L cs -> ev L p = 0 -> dot3 (fst L) d = 0) -> d = o3.

Definition inactive (p : R3) : nat := length (filter (fun L => if Req_EM_T (ev L p) 0 then false else true) cs).
Lemma inactive_lt p q L0 : In L0 cs -> ev L0 p <> 0 -> ev L0 q = 0 -> (forall L, In L cs -> ev L p = 0 -> ev L q = 0) -> (inactive q < inactive p)%nat.
Proof.
  unfold inactive. clear bounded. induction cs as [|a l IH]; intros I N Z H; [destruct I|]. cbn [filter].
  assert (LE : forall l', (forall L, In L l' -> ev L p = 0 -> ev L q = 0) ->
    (length (filter (fun L => if Req_EM_T (ev L q) 0 then false else true) l') <= length (filter (fun L => if Req_EM_T (ev L p) 0 then false else true) l'))%nat).
  { clear. induction l' as [|b l' IH]; intros H; [cbn; lia|]. cbn [filter]. specialize (IH (fun L I => H L (or_intror I))).
    destruct (Req_EM_T (ev b q) 0) as [Q|Q], (Req_EM_T (ev b p) 0) as [P|P]; cbn [length]; try lia.
    exfalso. apply Q, H; [left; reflexivity|exact P]. }
  specialize (LE l (fun L I => H L (or_intror I))).
  destruct I as [->|I].
  - destruct (Req_EM_T (ev L0 q) 0) as [Q|Q]; [|contradiction]. destruct (Req_EM_T (ev L0 p) 0) as [P|P]; [contradiction|]. cbn [length]. lia.
  - specialize (IH I N Z (fun L I => H L (or_intror I))).
    destruct (Req_EM_T (ev a q) 0) as [Q|Q], (Req_EM_T (ev a p) 0) as [P|P]; cbn [length]; try lia.
    exfalso. apply Q, H; [left; reflexivity|exact P].
Qed.

Lemma opp3_nz d : d <> o3 -> scale3 (-1) d <> o3.
Proof.
  intros N E. apply N. p3 d. unfold o3 in *. cbn in E. injection E as A B C. eq3; lra.
Qed.
Lemma dot3_opp n d : dot3 n (scale3 (-1) d) = - dot3 n d.
Proof. p3 n. p3 d. cbn. ring. Qed.

Theorem vertices_span p : inP p -> exists ps, Forall extreme ps /\ hull ps p.
Proof.
  remember (inactive p) as n eqn:En. revert p En. induction n as [n IH] using (well_founded_induction Wf_nat.lt_wf). intros p En Hp.
  destruct (classic (exists d, d <> o3 /\ forall L, In L cs -> ev L p = 0 -> dot3 (fst L) d = 0)) as [(d & Nd & Hd)|X].
  - destruct (move p d Hp (bounded d Nd)) as (t & L0 & T0 & I0 & N0 & Z0 & P0 & _).
    destruct (move p (scale3 (-1) d) Hp (bounded _ (opp3_nz d Nd))) as (s & L1 & S0 & I1 & N1 & Z1 & P1 & _).
    rewrite dot3_opp in N1.
    assert (A0 : ev L0 p <> 0) by (intros E; apply Hd in E; [lra|exact I0]).
    assert (A1 : ev L1 p <> 0) by (intros E; apply Hd in E; [lra|exact I1]).
    assert (Keep : forall e, (forall L, In L cs -> ev L p = 0 -> dot3 (fst L) e = 0) -> forall r L, In L cs -> ev L p = 0 -> ev L (along p r e) = 0).
    { intros e He r L I E. rewrite ev_along, E, He by assumption. ring. }
    assert (Hd' : forall L, In L cs -> ev L p = 0 -> dot3 (fst L) (scale3 (-1) d) = 0) by (intros L I E; rewrite dot3_opp, Hd by assumption; ring).
    assert (M0 : (inactive (along p t d) < n)%nat) by (rewrite En; apply (inactive_lt p (along p t d) L0 I0 A0 Z0); apply Keep; exact Hd).
    assert (M1 : (inactive (along p s (scale3 (-1) d)) < n)%nat) by (rewrite En; apply (inactive_lt p _ L1 I1 A1 Z1); apply Keep; exact Hd').
    destruct (IH _ M0 _ eq_refl P0) as (ps & Fp & Hps). destruct (IH _ M1 _ eq_refl P1) as (qs & Fq & Hqs).
    assert (Tp : 0 < t).
    { destruct T0 as [T0|<-]; [exact T0|]. exfalso. apply A0. rewrite ev_along in Z0. lra. }
    exists (ps ++ qs). split; [apply Forall_app; split; assumption|].
    replace p with (mix (s / (t + s)) (along p t d) (along p s (scale3 (-1) d))).
    + apply hull_mix; try assumption. split; [apply Rmult_le_pos; [exact S0|apply Rlt_le, Rinv_0_lt_compat; lra]|].
      apply (Rmult_le_reg_r (t + s)); [lra|]. replace (s / (t + s) * (t + s)) with s by (field; lra). lra.
    + unfold mix, along. p3 p. p3 d. cbn. eq3; field; lra.
  - exists [p]. split; [|apply hull_single]. constructor; [|constructor]. split; [exact Hp|]. intros d Hd.
    destruct (classic (d = o3)) as [E|E]; [exact E|]. exfalso. apply X. exists d. split; assumption.
Qed.
End Polytope.

(** ** Tetrahedra *)
Definition plus3 (u v w : R3) : R3 := add3 u (add3 v w).
Section Tetra.
Variables a b c d : R3.
Definition tdet : R := triple3 (sub3 b a) (sub3 c a) (sub3 d a).
Definition n1 : R3 := scale3 (/ tdet) (cross3 (sub3 c a) (sub3 d a)).
Definition n2 : R3 := scale3 (/ tdet) (cross3 (sub3 d a) (sub3 b a)).
Definition n3 : R3 := scale3 (/ tdet) (cross3 (sub3 b a) (sub3 c a)).
Definition n0 : R3 := scale3 (-1) (plus3 n1 n2 n3).
Definition L1 : half := (n1, - dot3 n1 a).
Definition L2 : half := (n2, - dot3 n2 a).
Definition L3 : half := (n3, - dot3 n3 a).
Definition L0 : half := (n0, 1 - dot3 n0 a).
Definition walls : list half := [L0; L1; L2; L3].
End Tetra.
Ltac un := unfold flat4, ev, walls, L0, L1, L2, L3, n0, n1, n2, n3, plus3, tdet in *; cbn [fst snd] in *.
Ltac coords a b c d := destruct a as [[? ?] ?], b as [[? ?] ?], c as [[? ?] ?], d as [[? ?] ?].

Lemma walls_bary a b c d p : ~ flat4 a b c d -> bary [ev (L0 a b c d) p; ev (L1 a b c d) p; ev (L2 a b c d) p; ev (L3 a b c d) p] [a; b; c; d] p.
Proof.
  intros NF. split; [reflexivity|]. split.
  - rewrite !Rsum_cons. change (Rsum []) with 0. un. p3 p. coords a b c d. cbn in *. field. exact NF.
  - rewrite !comb_cons. cbn [comb]. un. p3 p. coords a b c d. unfold o3. cbn in *. eq3; field; exact NF.
Qed.
Lemma hull_walls a b c d p : ~ flat4 a b c d -> (hull [a; b; c; d] p <-> inP (walls a b c d) p).
Proof.
  intros NF. pose proof (walls_bary a b c d p NF) as B. split.
  - intros (ws & B' & P). rewrite (bary_unique a b c d p _ _ NF B' B) in P.
    intros L I. inversion P as [|? ? P0 X]; subst. inversion X as [|? ? P1 X1]; subst. inversion X1 as [|? ? P2 X2]; subst. inversion X2; subst.
    destruct I as [<-|[<-|[<-|[<-|[]]]]]; assumption.
  - intros P. exists [ev (L0 a b c d) p; ev (L1 a b c d) p; ev (L2 a b c d) p; ev (L3 a b c d) p]. split; [exact B|].
    repeat (apply Forall_cons; [apply P; unfold walls; cbn; tauto|]); constructor.
Qed.
Lemma dir_split a b c d e : ~ flat4 a b c d ->
  e = plus3 (scale3 (dot3 (n1 a b c d) e) (sub3 b a)) (scale3 (dot3 (n2 a b c d) e) (sub3 c a)) (scale3 (dot3 (n3 a b c d) e) (sub3 d a)).
Proof. intros NF. un. p3 e. coords a b c d. cbn in *. eq3; field; exact NF. Qed.
Lemma n_sum a b c d e : dot3 (n0 a b c d) e + dot3 (n1 a b c d) e + dot3 (n2 a b c d) e + dot3 (n3 a b c d) e = 0.
Proof. unfold n0, plus3. destruct (n1 a b c d) as [[? ?] ?], (n2 a b c d) as [[? ?] ?], (n3 a b c d) as [[? ?] ?]. p3 e. cbn. ring. Qed.
Lemma walls_bounded a b c d : ~ flat4 a b c d -> forall e, e <> o3 -> exists L, In L (walls a b c d) /\ dot3 (fst L) e < 0.
Proof.
  intros NF e Ne. destruct (classic (exists L, In L (walls a b c d) /\ dot3 (fst L) e < 0)) as [H|H]; [exact H|]. exfalso. apply Ne.
  assert (G : forall L, In L (walls a b c d) -> 0 <= dot3 (fst L) e) by (intros L I; apply Rnot_lt_le; intros X; apply H; eauto).
  assert (G0 := G (L0 a b c d) ltac:(cbn; tauto)). assert (G1 := G (L1 a b c d) ltac:(cbn; tauto)).
  assert (G2 := G (L2 a b c d) ltac:(cbn; tauto)). assert (G3 := G (L3 a b c d) ltac:(cbn; tauto)). cbn [fst L0 L1 L2 L3] in *.
  pose proof (n_sum a b c d e) as S. rewrite (dir_split a b c d e NF).
  replace (dot3 (n1 a b c d) e) with 0 by lra. replace (dot3 (n2 a b c d) e) with 0 by lra. replace (dot3 (n3 a b c d) e) with 0 by lra.
  unfold plus3, o3. coords a b c d. cbn. eq3; ring.
Qed.

(** The walls as planes of the faces. *)
Lemma wall_edge a b c d : ~ flat4 a b c d ->
  dot3 (n0 a b c d) (sub3 c b) = 0 /\ dot3 (n0 a b c d) (sub3 d b) = 0 /\ dot3 (n0 a b c d) (sub3 d c) = 0 /\
  dot3 (n1 a b c d) (sub3 c a) = 0 /\ dot3 (n1 a b c d) (sub3 d a) = 0 /\ dot3 (n1 a b c d) (sub3 d c) = 0 /\
  dot3 (n2 a b c d) (sub3 b a) = 0 /\ dot3 (n2 a b c d) (sub3 d a) = 0 /\ dot3 (n2 a b c d) (sub3 d b) = 0 /\
  dot3 (n3 a b c d) (sub3 b a) = 0 /\ dot3 (n3 a b c d) (sub3 c a) = 0 /\ dot3 (n3 a b c d) (sub3 c b) = 0.
Proof. intros NF. un. coords a b c d. cbn in *. repeat split; field; exact NF. Qed.
Lemma wall_triple a b c d e : ~ flat4 a b c d ->
  dot3 (n0 a b c d) e = - triple3 e (sub3 c b) (sub3 d b) / tdet a b c d /\
  dot3 (n1 a b c d) e = triple3 e (sub3 c a) (sub3 d a) / tdet a b c d /\
  dot3 (n2 a b c d) e = - triple3 e (sub3 b a) (sub3 d a) / tdet a b c d /\
  dot3 (n3 a b c d) e = triple3 e (sub3 b a) (sub3 c a) / tdet a b c d.
Proof. intros NF. un. p3 e. coords a b c d. cbn in *. repeat split; field; exact NF. Qed.

(** A segment and a triangle that are not parallel. *)
Definition transversal (s f : list R3) : Prop :=
  exists a b c d e, s = [a; b] /\ f = [c; d; e] /\ triple3 (sub3 b a) (sub3 d c) (sub3 e c) <> 0.
Definition crossing (t1 t2 : list R3) (p : R3) : Prop :=
  exists s f, subseq s t1 /\ subseq f t2 /\ transversal s f /\ hull s p /\ hull f p.

Ltac subs := repeat first [apply sub_nil | apply sub_take; subs; fail | apply sub_skip; subs; fail].
Ltac sub4 := solve [repeat constructor | apply sub_skip; repeat constructor | apply sub_take, sub_skip; repeat constructor | apply sub_take, sub_take, sub_skip; repeat constructor
  | apply sub_skip, sub_skip; repeat constructor | apply sub_skip, sub_take, sub_skip; repeat constructor | apply sub_take, sub_skip, sub_skip; repeat constructor
  | apply sub_take, sub_take, sub_take, sub_nil].

Lemma ev_sum a b c d p : ev (L0 a b c d) p + ev (L1 a b c d) p + ev (L2 a b c d) p + ev (L3 a b c d) p = 1.
Proof.
  pose proof (n_sum a b c d p) as H. pose proof (n_sum a b c d a) as K. unfold ev, L0, L1, L2, L3. cbn [fst snd]. lra.
Qed.
Lemma ev_point a b c d p : ~ flat4 a b c d ->
  p = add3 (scale3 (ev (L0 a b c d) p) a) (add3 (scale3 (ev (L1 a b c d) p) b) (add3 (scale3 (ev (L2 a b c d) p) c) (scale3 (ev (L3 a b c d) p) d))).
Proof.
  intros NF. destruct (walls_bary a b c d p NF) as (_ & _ & E). rewrite E at 1. cbn [comb].
  generalize (ev (L0 a b c d) p) (ev (L1 a b c d) p) (ev (L2 a b c d) p) (ev (L3 a b c d) p). intros. coords a b c d. unfold o3. cbn. eq3; ring.
Qed.

(** A point of the tetrahedron on one of its walls is on the corresponding face. *)
Lemma wall_face a b c d p L : ~ flat4 a b c d -> inP (walls a b c d) p -> In L (walls a b c d) -> ev L p = 0 ->
  exists x y z, subseq [x; y; z] [a; b; c; d] /\ hull [x; y; z] p /\
    forall e, dot3 (fst L) e <> 0 -> triple3 e (sub3 y x) (sub3 z x) <> 0.
Proof.
  intros NF P I Z. pose proof (ev_sum a b c d p) as S. pose proof (ev_point a b c d p NF) as E.
  assert (P0 := P (L0 a b c d) ltac:(cbn; tauto)). assert (P1 := P (L1 a b c d) ltac:(cbn; tauto)).
  assert (P2 := P (L2 a b c d) ltac:(cbn; tauto)). assert (P3 := P (L3 a b c d) ltac:(cbn; tauto)).
  pose proof (fun e => wall_triple a b c d e NF) as W.
  destruct I as [<-|[<-|[<-|[<-|[]]]]]; rewrite Z in *.
  - exists b, c, d. split; [sub4|]. split.
    + exists [ev (L1 a b c d) p; ev (L2 a b c d) p; ev (L3 a b c d) p]. split; [|repeat (apply Forall_cons; [assumption|]); constructor].
      split; [reflexivity|]. split; [unfold Rsum; cbn [fold_right]; lra|]. rewrite E at 1. cbn [comb]. clear E.
      generalize (ev (L1 a b c d) p) (ev (L2 a b c d) p) (ev (L3 a b c d) p). intros. coords a b c d. unfold o3. cbn. eq3; ring.
    + intros e He T. apply He. destruct (W e) as (W0 & _). cbn [fst L0]. rewrite W0, T. unfold Rdiv. ring.
  - exists a, c, d. split; [sub4|]. split.
    + exists [ev (L0 a b c d) p; ev (L2 a b c d) p; ev (L3 a b c d) p]. split; [|repeat (apply Forall_cons; [assumption|]); constructor].
      split; [reflexivity|]. split; [unfold Rsum; cbn [fold_right]; lra|]. rewrite E at 1. cbn [comb]. clear E.
      generalize (ev (L0 a b c d) p) (ev (L2 a b c d) p) (ev (L3 a b c d) p). intros. coords a b c d. unfold o3. cbn. eq3; ring.
    + intros e He T. apply He. destruct (W e) as (_ & W0 & _). cbn [fst L1]. rewrite W0, T. unfold Rdiv. ring.
  - exists a, b, d. split; [sub4|]. split.
    + exists [ev (L0 a b c d) p; ev (L1 a b c d) p; ev (L3 a b c d) p]. split; [|repeat (apply Forall_cons; [assumption|]); constructor].
      split; [reflexivity|]. split; [unfold Rsum; cbn [fold_right]; lra|]. rewrite E at 1. cbn [comb]. clear E.
      generalize (ev (L0 a b c d) p) (ev (L1 a b c d) p) (ev (L3 a b c d) p). intros. coords a b c d. unfold o3. cbn. eq3; ring.
    + intros e He T. apply He. destruct (W e) as (_ & _ & W0 & _). cbn [fst L2]. rewrite W0, T. unfold Rdiv. ring.
  - exists a, b, c. split; [sub4|]. split.
    + exists [ev (L0 a b c d) p; ev (L1 a b c d) p; ev (L2 a b c d) p]. split; [|repeat (apply Forall_cons; [assumption|]); constructor].
      split; [reflexivity|]. split; [unfold Rsum; cbn [fold_right]; lra|]. rewrite E at 1. cbn [comb]. clear E.
      generalize (ev (L0 a b c d) p) (ev (L1 a b c d) p) (ev (L2 a b c d) p). intros. coords a b c d. unfold o3. cbn. eq3; ring.
    + intros e He T. apply He. destruct (W e) as (_ & _ & _ & W0). cbn [fst L3]. rewrite W0, T. unfold Rdiv. ring.
Qed.

Lemma subseq_in {A} (s l : list A) : subseq s l -> incl s l.
Proof. induction 1; intros y I; [destruct I|destruct I as [<-|I]; [left; reflexivity|right; auto]|right; auto]. Qed.
Lemma subseq_pair {A} (u v x : A) l : subseq [u; v] (x :: l) -> (x = u /\ In v l) \/ subseq [u; v] l.
Proof.
  intros H. inversion H as [|? ? ? K|? ? ? K]; subst; [left; split; [reflexivity|]|right; exact K]. apply (subseq_in _ _ K). left. reflexivity.
Qed.
Lemma nonflat_distinct a b c d : ~ flat4 a b c d ->
  forall u v, subseq [u; v] [a; b; c; d] -> sub3 v u <> o3.
Proof.
  intros NF u v H E. apply NF. assert (Euv : v = u).
  { p3 u. p3 v. unfold o3 in E. cbn in E. injection E as A B C. eq3; lra. }
  subst v. clear E NF. unfold flat4.
  assert (K : (a = u /\ b = u) \/ (a = u /\ c = u) \/ (a = u /\ d = u) \/ (b = u /\ c = u) \/ (b = u /\ d = u) \/ (c = u /\ d = u)).
  { apply subseq_pair in H as [[E I]|H]; [destruct I as [I|[I|[I|[]]]]; auto 10|].
    apply subseq_pair in H as [[E I]|H]; [destruct I as [I|[I|[]]]; auto 10|].
    apply subseq_pair in H as [[E I]|H]; [destruct I as [I|[]]; auto 10|].
    apply subseq_pair in H as [[E []]|H]. inversion H. }
  clear H. destruct K as [[-> ->]|[[-> ->]|[[-> ->]|[[-> ->]|[[-> ->]|[-> ->]]]]]]; p3 u;
    try (coords a b c d || idtac); cbn; repeat match goal with x : R3 |- _ => p3 x end; cbn; ring.
Qed.

Definition tricho a b c d p : Prop :=
  In p [a; b; c; d] \/
  (exists u v, subseq [u; v] [a; b; c; d] /\ hull [u; v] p /\ forall L, In L (walls a b c d) -> ev L p = 0 -> dot3 (fst L) (sub3 v u) = 0) \/
  (exists g, forall L, In L (walls a b c d) -> ev L p = 0 -> fst L = g).
Lemma trichotomy a b c d p : ~ flat4 a b c d -> inP (walls a b c d) p -> tricho a b c d p.
Proof.
  intros NF P. pose proof (ev_sum a b c d p) as S. pose proof (ev_point a b c d p NF) as E.
  assert (P0 := P (L0 a b c d) ltac:(cbn; tauto)). assert (P1 := P (L1 a b c d) ltac:(cbn; tauto)).
  assert (P2 := P (L2 a b c d) ltac:(cbn; tauto)). assert (P3 := P (L3 a b c d) ltac:(cbn; tauto)).
  pose proof (wall_edge a b c d NF) as W.
  remember (ev (L0 a b c d) p) as e0 eqn:E0. remember (ev (L1 a b c d) p) as e1 eqn:E1.
  remember (ev (L2 a b c d) p) as e2 eqn:E2. remember (ev (L3 a b c d) p) as e3 eqn:E3.
  assert (HE : forall x y u v, x + y = 1 -> 0 <= x -> 0 <= y -> p = add3 (scale3 x u) (scale3 y v) -> hull [u; v] p).
  { intros x y u v Sx X Y Ep. exists [x; y]. split; [|repeat (apply Forall_cons; [assumption|]); constructor].
    split; [reflexivity|]. split; [unfold Rsum; cbn [fold_right]; lra|]. rewrite Ep. p3 u. p3 v. unfold o3. cbn. eq3; ring. }
  destruct (Req_EM_T e0 0) as [Z0|Z0], (Req_EM_T e1 0) as [Z1|Z1], (Req_EM_T e2 0) as [Z2|Z2], (Req_EM_T e3 0) as [Z3|Z3].
  - exfalso; lra.
  - left. assert (e3 = 1) as -> by lra. rewrite Z0, Z1, Z2 in E. right; right; right; left. rewrite E. coords a b c d. cbn. eq3; ring.
  - left. assert (e2 = 1) as -> by lra. rewrite Z0, Z1, Z3 in E. right; right; left. rewrite E. coords a b c d. cbn. eq3; ring.
  - right; left. exists c, d. split; [sub4|]. split; [apply (HE e2 e3); [lra|lra|lra|]; rewrite E, Z0, Z1; coords a b c d; cbn; eq3; ring|].
    intros L [<-|[<-|[<-|[<-|[]]]]] ZL; cbn [fst L0 L1 L2 L3]; try tauto; exfalso; congruence.
  - left. assert (e1 = 1) as -> by lra. rewrite Z0, Z2, Z3 in E. right; left. rewrite E. coords a b c d. cbn. eq3; ring.
  - right; left. exists b, d. split; [sub4|]. split; [apply (HE e1 e3); [lra|lra|lra|]; rewrite E, Z0, Z2; coords a b c d; cbn; eq3; ring|].
    intros L [<-|[<-|[<-|[<-|[]]]]] ZL; cbn [fst L0 L1 L2 L3]; try tauto; exfalso; congruence.
  - right; left. exists b, c. split; [sub4|]. split; [apply (HE e1 e2); [lra|lra|lra|]; rewrite E, Z0, Z3; coords a b c d; cbn; eq3; ring|].
    intros L [<-|[<-|[<-|[<-|[]]]]] ZL; cbn [fst L0 L1 L2 L3]; try tauto; exfalso; congruence.
  - right; right. exists (n0 a b c d). intros L [<-|[<-|[<-|[<-|[]]]]] ZL; try reflexivity; exfalso; congruence.
  - left. assert (e0 = 1) as -> by lra. rewrite Z1, Z2, Z3 in E. left. rewrite E. coords a b c d. cbn. eq3; ring.
  - right; left. exists a, d. split; [sub4|]. split; [apply (HE e0 e3); [lra|lra|lra|]; rewrite E, Z1, Z2; coords a b c d; cbn; eq3; ring|].
    intros L [<-|[<-|[<-|[<-|[]]]]] ZL; cbn [fst L0 L1 L2 L3]; try tauto; exfalso; congruence.
  - right; left. exists a, c. split; [sub4|]. split; [apply (HE e0 e2); [lra|lra|lra|]; rewrite E, Z1, Z3; coords a b c d; cbn; eq3; ring|].
    intros L [<-|[<-|[<-|[<-|[]]]]] ZL; cbn [fst L0 L1 L2 L3]; try tauto; exfalso; congruence.
  - right; right. exists (n1 a b c d). intros L [<-|[<-|[<-|[<-|[]]]]] ZL; try reflexivity; exfalso; congruence.
  - right; left. exists a, b. split; [sub4|]. split; [apply (HE e0 e1); [lra|lra|lra|]; rewrite E, Z2, Z3; coords a b c d; cbn; eq3; ring|].
    intros L [<-|[<-|[<-|[<-|[]]]]] ZL; cbn [fst L0 L1 L2 L3]; try tauto; exfalso; congruence.
  - right; right. exists (n2 a b c d). intros L [<-|[<-|[<-|[<-|[]]]]] ZL; try reflexivity; exfalso; congruence.
  - right; right. exists (n3 a b c d). intros L [<-|[<-|[<-|[<-|[]]]]] ZL; try reflexivity; exfalso; congruence.
  - right; right. exists (n0 a b c d). intros L [<-|[<-|[<-|[<-|[]]]]] ZL; exfalso; congruence.
Qed.

Lemma two_normals (g h : R3) : exists e, e <> o3 /\ dot3 g e = 0 /\ dot3 h e = 0.
Proof.
  destruct (classic (cross3 g h = o3)) as [C|C].
  - assert (P : forall n : R3, exists e, e <> o3 /\ dot3 n e = 0).
    { intros n. destruct n as [[x y] z]. destruct (Req_EM_T x 0) as [->|X].
      - exists (1, 0, 0). split; [unfold o3; intros E; injection E; lra|cbn; ring].
      - exists (y, - x, 0). split; [unfold o3; intros E; injection E; lra|cbn; ring]. }
    destruct (classic (g = o3)) as [->|Ng].
    + destruct (P h) as (e & Ne & He). exists e. split; [exact Ne|]. split; [p3 e; cbn; ring|exact He].
    + destruct (P g) as (e & Ne & He). exists e. split; [exact Ne|]. split; [exact He|].
      (* h is a multiple of g *)
      assert (K : dot3 g g * dot3 h e = dot3 g h * dot3 g e).
      { assert (B : dot3 g g * dot3 h e - dot3 g h * dot3 g e = dot3 (cross3 g h) (cross3 g e)) by (p3 g; p3 h; p3 e; cbn; ring).
        rewrite C in B. replace (dot3 o3 (cross3 g e)) with 0 in B by (destruct (cross3 g e) as [[? ?] ?]; cbn; ring). lra. }
      rewrite He in K. assert (Q : dot3 g g <> 0).
      { intros Z. apply Ng. p3 g. cbn in Z. assert (r = 0) by nra. assert (r0 = 0) by nra. assert (r1 = 0) by nra. subst. reflexivity. }
      apply (Rmult_eq_reg_l (dot3 g g)); [lra|exact Q].
  - exists (cross3 g h). split; [exact C|]. p3 g. p3 h. cbn. split; ring.
Qed.

Definition corner (t1 t2 : list R3) (p : R3) : Prop :=
  (In p t1 /\ hull t2 p) \/ (In p t2 /\ hull t1 p) \/ crossing t1 t2 p \/ crossing t2 t1 p.

Lemma extreme_corner a b c d a' b' c' d' p : ~ flat4 a b c d -> ~ flat4 a' b' c' d' ->
  extreme (walls a b c d ++ walls a' b' c' d') p -> corner [a; b; c; d] [a'; b'; c'; d'] p.
Proof.
  intros NF NF' (P & X).
  assert (P1 : inP (walls a b c d) p) by (intros L I; apply P, in_or_app; left; exact I).
  assert (P2 : inP (walls a' b' c' d') p) by (intros L I; apply P, in_or_app; right; exact I).
  assert (Tr : forall a b c d a' b' c' d', ~ flat4 a b c d -> ~ flat4 a' b' c' d' -> inP (walls a b c d) p -> inP (walls a' b' c' d') p ->
     (forall e, (forall L, In L (walls a b c d) \/ In L (walls a' b' c' d') -> ev L p = 0 -> dot3 (fst L) e = 0) -> e = o3) ->
     forall u v, subseq [u; v] [a; b; c; d] -> hull [u; v] p -> (forall L, In L (walls a b c d) -> ev L p = 0 -> dot3 (fst L) (sub3 v u) = 0) ->
     crossing [a; b; c; d] [a'; b'; c'; d'] p).
  { clear. intros a b c d a' b' c' d' NF NF' P1 P2 X u v S H Hn.
    destruct (classic (exists L, In L (walls a' b' c' d') /\ ev L p = 0 /\ dot3 (fst L) (sub3 v u) <> 0)) as [(L & I & Z & D)|C].
    - destruct (wall_face a' b' c' d' p L NF' P2 I Z) as (x & y & z & Sf & Hf & T).
      exists [u; v], [x; y; z]. split; [exact S|]. split; [exact Sf|]. split; [|split; assumption].
      exists u, v, x, y, z. split; [reflexivity|]. split; [reflexivity|]. apply T. exact D.
    - exfalso. apply (nonflat_distinct a b c d NF u v S). apply X. intros L [I|I] Z; [apply Hn; assumption|].
      destruct (classic (dot3 (fst L) (sub3 v u) = 0)) as [E|E]; [exact E|]. exfalso. apply C. exists L. tauto. }
  assert (X' : forall e, (forall L, In L (walls a b c d) \/ In L (walls a' b' c' d') -> ev L p = 0 -> dot3 (fst L) e = 0) -> e = o3)
    by (intros e He; apply X; intros L I; apply He, in_app_or, I).
  assert (X'' : forall e, (forall L, In L (walls a' b' c' d') \/ In L (walls a b c d) -> ev L p = 0 -> dot3 (fst L) e = 0) -> e = o3)
    by (intros e He; apply X'; intros L I; apply He; tauto).
  destruct (trichotomy a b c d p NF P1) as [I|[(u & v & S & H & Hn)|(g & Hg)]].
  - left. split; [exact I|]. apply hull_walls; assumption.
  - right; right; left. eapply Tr; eauto.
  - destruct (trichotomy a' b' c' d' p NF' P2) as [I|[(u & v & S & H & Hn)|(h & Hh)]].
    + right; left. split; [exact I|]. apply hull_walls; assumption.
    + right; right; right. eapply Tr; eauto.
    + exfalso. destruct (two_normals g h) as (e & Ne & G & Hd). apply Ne, X'. intros L [I|I] Z.
      * rewrite (Hg L I Z). exact G.
      * rewrite (Hh L I Z). exact Hd.
Qed.

Theorem overlap_span a b c d a' b' c' d' p : ~ flat4 a b c d -> ~ flat4 a' b' c' d' ->
  hull [a; b; c; d] p -> hull [a'; b'; c'; d'] p ->
  exists ps, Forall (corner [a; b; c; d] [a'; b'; c'; d']) ps /\ hull ps p.
Proof.
  intros NF NF' H H'. destruct (vertices_span (walls a b c d ++ walls a' b' c' d')) with (p := p) as (ps & Fp & Hp).
  - intros e Ne. destruct (walls_bounded a b c d NF e Ne) as (L & I & Z). exists L. split; [apply in_or_app; left; exact I|exact Z].
  - apply (hull_walls a b c d p NF) in H. apply (hull_walls a' b' c' d' p NF') in H'. intros L I. apply in_app_or in I as [I|I]; auto.
  - exists ps. split; [|exact Hp]. eapply Forall_impl; [|exact Fp]. intros q Hq. apply extreme_corner; assumption.
Qed.

(** From a vertex inside to a vertex outside there is a crossing. *)
Lemma leaves_crossing a b c d a' b' c' d' u v : ~ flat4 a' b' c' d' ->
  In u [a; b; c; d] -> In v [a; b; c; d] -> hull [a'; b'; c'; d'] u -> ~ hull [a'; b'; c'; d'] v ->
  exists q, crossing [a; b; c; d] [a'; b'; c'; d'] q.
Proof.
  intros NF Iu Iv Hu Hv. assert (Hu' := Hu). apply (hull_walls a' b' c' d' u NF) in Hu'.
  assert (Nv : exists L, In L (walls a' b' c' d') /\ ev L v < 0).
  { destruct (classic (exists L, In L (walls a' b' c' d') /\ ev L v < 0)) as [X|X]; [exact X|]. exfalso. apply Hv, hull_walls; [exact NF|].
    intros L I. apply Rnot_lt_le. intros C. apply X. eauto. }
  assert (Euv : forall L, ev L v = ev L u + dot3 (fst L) (sub3 v u)).
  { intros L. rewrite <- (Rmult_1_l (dot3 (fst L) _)), <- ev_along. f_equal. unfold along. p3 u. p3 v. cbn. eq3; ring. }
  destruct Nv as (L1 & I1 & V1). assert (D1 : dot3 (fst L1) (sub3 v u) < 0) by (pose proof (Hu' L1 I1); rewrite Euv in V1; lra).
  destruct (move (walls a' b' c' d') u (sub3 v u) Hu') as (t & L & T0 & I & D & Z & Pq & M); [eauto|].
  assert (T1 : t <= 1).
  { specialize (M L1 I1 D1). rewrite Euv in V1. nra. }
  set (q := along u t (sub3 v u)) in *. exists q.
  destruct (wall_face a' b' c' d' q L NF Pq I Z) as (x & y & z & Sf & Hf & T).
  assert (Hq : hull [u; v] q).
  { exists [1 - t; t]. split; [|repeat (apply Forall_cons; [lra|]); constructor]. split; [reflexivity|]. split; [unfold Rsum; cbn [fold_right]; ring|].
    unfold q, along, o3. p3 u. p3 v. cbn. eq3; ring. }
  assert (Hq' : hull [v; u] q).
  { exists [t; 1 - t]. split; [|repeat (apply Forall_cons; [lra|]); constructor]. split; [reflexivity|]. split; [unfold Rsum; cbn [fold_right]; ring|].
    unfold q, along, o3. p3 u. p3 v. cbn. eq3; ring. }
  assert (TR : triple3 (sub3 v u) (sub3 y x) (sub3 z x) <> 0) by (apply T; lra).
  assert (TR' : triple3 (sub3 u v) (sub3 y x) (sub3 z x) <> 0).
  { intros E. apply TR. clear - E. p3 u. p3 v. p3 x. p3 y. p3 z. cbn in *. lra. }
  assert (S : u = v \/ subseq [u; v] [a; b; c; d] \/ subseq [v; u] [a; b; c; d]).
  { destruct Iu as [<-|[<-|[<-|[<-|[]]]]]; destruct Iv as [<-|[<-|[<-|[<-|[]]]]];
      first [left; reflexivity | right; left; sub4 | right; right; sub4]. }
  destruct S as [->|[S|S]]; [contradiction| |].
  - exists [u; v], [x; y; z]. split; [exact S|]. split; [exact Sf|]. split; [|split; assumption]. exists u, v, x, y, z. auto.
  - exists [v; u], [x; y; z]. split; [exact S|]. split; [exact Sf|]. split; [|split; assumption]. exists v, u, x, y, z. auto.
Qed.

(** Two tetrahedra with a common point: one contains the other or they cross. *)
Theorem overlap_cases a b c d a' b' c' d' p : ~ flat4 a b c d -> ~ flat4 a' b' c' d' ->
  hull [a; b; c; d] p -> hull [a'; b'; c'; d'] p ->
  (forall v, In v [a; b; c; d] -> hull [a'; b'; c'; d'] v) \/ (forall v, In v [a'; b'; c'; d'] -> hull [a; b; c; d] v) \/
  (exists q, crossing [a; b; c; d] [a'; b'; c'; d'] q) \/ (exists q, crossing [a'; b'; c'; d'] [a; b; c; d] q).
Proof.
  intros NF NF' H H'. destruct (overlap_span a b c d a' b' c' d' p NF NF' H H') as (ps & Fp & Hp).
  destruct ps as [|q ps]; [destruct Hp as (ws & (Lw & Sw & _) & _); destruct ws; [unfold Rsum in Sw; cbn in Sw; lra|discriminate]|].
  inversion Fp as [|? ? Q _]; subst. destruct Q as [[I Hq]|[[I Hq]|[C|C]]]; [| |right; right; left; exists q; exact C|right; right; right; exists q; exact C].
  - destruct (classic (forall v, In v [a; b; c; d] -> hull [a'; b'; c'; d'] v)) as [A|A]; [tauto|].
    apply not_all_ex_not in A as (v & A). apply imply_to_and in A as (Iv & Nv).
    right; right; left. exact (leaves_crossing a b c d a' b' c' d' q v NF' I Iv Hq Nv).
  - destruct (classic (forall v, In v [a'; b'; c'; d'] -> hull [a; b; c; d] v)) as [A|A]; [tauto|].
    apply not_all_ex_not in A as (v & A). apply imply_to_and in A as (Iv & Nv).
    right; right; right. exact (leaves_crossing a' b' c' d' a b c d q v NF I Iv Hq Nv).
Qed.
