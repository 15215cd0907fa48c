(** The boundary of a finite face-to-face union of tetrahedra is the union of the faces
    that belong to one tetrahedron only. *)
From Coq Require Import Reals List ZArith Lia Lra Psatz Bool Classical.
From Verif Require Import Spec.Value Spec.RVec Spec.Sets Spec.Space Spec.Solid
  Proofs.NumLemmas Proofs.Polytope Proofs.Frontier.
Import ListNotations.
Local Open Scope R_scope.

Definition c0 (x : R3) : R := fst (fst x).
Definition c1 (x : R3) : R := snd (fst x).
Definition c2 (x : R3) : R := snd x.
Definition cube (e : R) (x y : R3) : Prop := Rabs (c0 y - c0 x) < e /\ Rabs (c1 y - c1 x) < e /\ Rabs (c2 y - c2 x) < e.
(** Q holds near x. *)
Definition nb3 (x : R3) (Q : R3 -> Prop) : Prop := exists e, 0 < e /\ forall y, cube e x y -> Q y.

Lemma cube_self e x : 0 < e -> cube e x x.
Proof. intros P. unfold cube. rewrite !Rminus_diag_eq, Rabs_R0 by reflexivity. auto. Qed.
Lemma cube_le e e' x y : e <= e' -> cube e x y -> cube e' x y.
Proof. unfold cube. intros L (A & B & C). repeat split; lra. Qed.
Lemma cube_line e x y z s : 0 <= s <= 1 -> cube e x y -> cube e x z -> cube e x (line s y z).
Proof.
  unfold cube, line, c0, c1, c2. p3 x; p3 y; p3 z. cbn. intros Hs (A0 & A1 & A2) (B0 & B1 & B2).
  assert (K : forall a b c, Rabs (a - c) < e -> Rabs (b - c) < e -> Rabs (a + s * (b - a) - c) < e).
  { intros a b c Ha Hb. apply Rabs_def2 in Ha, Hb. apply Rabs_def1.
    - pose proof (between e (a - c) (b - c) s Hs ltac:(lra) ltac:(lra)). lra.
    - pose proof (between e (- (a - c)) (- (b - c)) s Hs ltac:(lra) ltac:(lra)). lra. }
  auto.
Qed.
Lemma nb3_imp x (Q Q' : R3 -> Prop) : (forall y, Q y -> Q' y) -> nb3 x Q -> nb3 x Q'.
Proof. intros H (e & P & K). exists e. auto. Qed.
Lemma nb3_and x Q Q' : nb3 x Q -> nb3 x Q' -> nb3 x (fun y => Q y /\ Q' y).
Proof.
  intros (e & P & K) (e' & P' & K'). exists (Rmin e e'). split; [apply Rmin_glb_lt; assumption|]. intros y Hy.
  split; [apply K|apply K']; apply (cube_le (Rmin e e')); auto using Rmin_l, Rmin_r.
Qed.
Lemma nb3_all {A} (l : list A) x (Q : A -> R3 -> Prop) : (forall t, In t l -> nb3 x (Q t)) -> nb3 x (fun y => forall t, In t l -> Q t y).
Proof.
  induction l as [|t l IH]; intros H; [exists 1; split; [lra|intros y _ u []]|].
  apply (nb3_imp x (fun y => Q t y /\ forall u, In u l -> Q u y)).
  - intros y [A1 A2] u [<-|Hu]; auto.
  - apply nb3_and; [apply H; left; reflexivity|]. apply IH. intros u Hu. apply H. right. exact Hu.
Qed.
Lemma nb3_point x (Q : R3 -> Prop) : nb3 x Q -> Q x.
Proof. intros (e & P & H). apply H, cube_self, P. Qed.
Lemma nb3_open x Q : nb3 x Q -> nb3 x (fun y => nb3 y Q).
Proof.
  intros (e & P & H). exists (e / 2). split; [lra|]. intros y (A & B & C). exists (e / 2). split; [lra|]. intros z (A' & B' & C'). apply H.
  assert (K : forall a b c, Rabs (a - b) < e / 2 -> Rabs (c - a) < e / 2 -> Rabs (c - b) < e).
  { intros a b c Ha Hc. replace (c - b) with ((c - a) + (a - b)) by ring. eapply Rle_lt_trans; [apply Rabs_triang|lra]. }
  repeat split; eapply K; eassumption.
Qed.
Lemma nb3_cube e x : 0 < e -> nb3 x (cube e x).
Proof. intros P. exists e. auto. Qed.

Lemma nb3_pos x L : 0 < ev L x -> nb3 x (fun y => 0 < ev L y).
Proof.
  destruct L as [[[a b] c] k]. unfold ev. cbn [fst snd]. intros H. set (v := dot3 (a, b, c) x + k) in *.
  pose proof (Rabs_pos a) as Pa. pose proof (Rabs_pos b) as Pb. pose proof (Rabs_pos c) as Pc.
  set (w := Rabs a + Rabs b + Rabs c + 1). assert (W : 0 < w) by (unfold w; lra).
  exists (v / w). split; [apply Rdiv_lt_0_compat; lra|]. intros y (H0 & H1 & H2). set (e := v / w) in *. assert (Ee : e * w = v) by (unfold e; field; lra).
  assert (E : dot3 (a, b, c) y + k = v + (a * (c0 y - c0 x) + b * (c1 y - c1 x) + c * (c2 y - c2 x))).
  { unfold v, c0, c1, c2. p3 x; p3 y. cbn. ring. }
  rewrite E.
  assert (K : forall g u, Rabs u < e -> - (Rabs g * e) <= g * u).
  { intros g u Hu. pose proof (Rle_abs (- (g * u))) as R1. rewrite Rabs_Ropp, Rabs_mult in R1. pose proof (Rabs_pos g).
    assert (Rabs g * Rabs u <= Rabs g * e) by (apply Rmult_le_compat_l; lra). lra. }
  pose proof (K a _ H0). pose proof (K b _ H1). pose proof (K c _ H2).
  assert (0 < e) by (unfold e; apply Rdiv_lt_0_compat; lra). unfold w in Ee. lra.
Qed.
Definition flip (L : half) : half := (scale3 (-1) (fst L), - snd L).
Lemma ev_flip L x : ev (flip L) x = - ev L x.
Proof. destruct L as [[[a b] c] k]. unfold ev, flip. p3 x. cbn. ring. Qed.
Lemma nb3_neg x L : ev L x < 0 -> nb3 x (fun y => ev L y < 0).
Proof. intros H. apply (nb3_imp x (fun y => 0 < ev (flip L) y)); [intros y; rewrite ev_flip; lra|]. apply nb3_pos. rewrite ev_flip. lra. Qed.
Lemma nb3_nz x L : ev L x <> 0 -> nb3 x (fun y => ev L y <> 0).
Proof.
  intros H. destruct (Rtotal_order (ev L x) 0) as [K|[K|K]]; [|contradiction|].
  - apply (nb3_imp x (fun y => ev L y < 0)); [intros; lra|apply nb3_neg, K].
  - apply (nb3_imp x (fun y => 0 < ev L y)); [intros; lra|apply nb3_pos, K].
Qed.
Lemma nb3_step x z (Q : R3 -> Prop) : nb3 x Q -> exists d, 0 < d /\ forall s, Rabs s < d -> Q (line s x z).
Proof.
  intros (e & P & H). set (m := Rabs (c0 z - c0 x) + Rabs (c1 z - c1 x) + Rabs (c2 z - c2 x) + 1).
  pose proof (Rabs_pos (c0 z - c0 x)). pose proof (Rabs_pos (c1 z - c1 x)). pose proof (Rabs_pos (c2 z - c2 x)).
  assert (M : 0 < m) by (unfold m; lra). exists (e / m). split; [apply Rdiv_lt_0_compat; lra|]. intros s Hs. apply H.
  assert (K : forall u, Rabs u <= m -> Rabs (s * u) < e).
  { intros u Hu. rewrite Rabs_mult. apply Rle_lt_trans with (Rabs s * m); [apply Rmult_le_compat_l; [apply Rabs_pos|exact Hu]|].
    apply (Rmult_lt_compat_r m) in Hs; [|exact M]. replace (e / m * m) with e in Hs by (field; lra). exact Hs. }
  assert (E : c0 (line s x z) - c0 x = s * (c0 z - c0 x) /\ c1 (line s x z) - c1 x = s * (c1 z - c1 x) /\ c2 (line s x z) - c2 x = s * (c2 z - c2 x)).
  { unfold line, c0, c1, c2. p3 x; p3 z. cbn. repeat split; ring. }
  destruct E as (E0 & E1 & E2). unfold cube. rewrite E0, E1, E2. unfold m in K. repeat split; apply K; lra.
Qed.

(** Finitely many planes do not cover any neighbourhood. *)
Lemma ev_line L s x z : ev L (line s x z) = (1 - s) * ev L x + s * ev L z.
Proof. destruct L as [[[a b] c] k]. unfold ev, line. p3 x; p3 z. cbn. ring. Qed.
Lemma generic (l : list half) x Q : (forall L, In L l -> fst L <> o3) -> nb3 x Q -> exists y, nb3 y Q /\ forall L, In L l -> ev L y <> 0.
Proof.
  revert x. induction l as [|L l IH]; intros x N H; [exists x; split; [exact H|intros L []]|].
  destruct (IH x ltac:(intros M I; apply N; right; exact I) H) as (y & Hy & Av).
  destruct (Req_dec (ev L y) 0) as [Z|Z]; [|exists y; split; [exact Hy|]; intros M [<-|I]; auto].
  assert (Nb : nb3 y (fun z => nb3 z Q /\ forall M, In M l -> ev M z <> 0)).
  { apply nb3_and; [apply nb3_open, Hy|]. apply nb3_all. intros M I. apply nb3_nz, Av, I. }
  destruct (nb3_step y (add3 y (fst L)) _ Nb) as (d & Pd & Hd).
  destruct (Hd (d / 2)) as [A B]; [rewrite Rabs_pos_eq; lra|].
  exists (line (d / 2) y (add3 y (fst L))). split; [exact A|]. intros M [<-|I]; [|auto].
  rewrite ev_line, Z. assert (E : ev L (add3 y (fst L)) = ev L y + dot3 (fst L) (fst L)).
  { unfold ev. destruct L as [[[a b] c] k]. p3 y. cbn. ring. }
  rewrite E, Z. assert (0 < dot3 (fst L) (fst L)).
  { assert (K : fst L <> o3) by (apply N; left; reflexivity). destruct L as [[[a b] c] k]. cbn in *. apply Rnot_le_lt. intros Le. apply K. unfold o3.
    assert (a = 0) by nra. assert (b = 0) by nra. assert (c = 0) by nra. congruence. }
  nra.
Qed.

(** Barycentric coordinates with respect to p, q, r, d. *)
Definition bc (u v w z : R) (p q r d : R3) : R3 := add3 (scale3 u p) (add3 (scale3 v q) (add3 (scale3 w r) (scale3 z d))).
Lemma ev_of p q r d u v w z : ~ flat4 p q r d -> u + v + w + z = 1 ->
  ev (L0 p q r d) (bc u v w z p q r d) = u /\ ev (L1 p q r d) (bc u v w z p q r d) = v /\
  ev (L2 p q r d) (bc u v w z p q r d) = w /\ ev (L3 p q r d) (bc u v w z p q r d) = z.
Proof.
  intros N S. pose proof (walls_bary p q r d (bc u v w z p q r d) N) as B.
  assert (B' : bary [u; v; w; z] [p; q; r; d] (bc u v w z p q r d)).
  { split; [reflexivity|]. split; [unfold Rsum; cbn; lra|]. unfold bc, comb, o3. p3 p; p3 q; p3 r; p3 d. cbn. eq3; ring. }
  pose proof (bary_unique _ _ _ _ _ _ _ N B B') as E. repeat split; congruence.
Qed.
Lemma hull4 p q r d x : ~ flat4 p q r d -> (hull [p; q; r; d] x <-> 0 <= ev (L0 p q r d) x /\ 0 <= ev (L1 p q r d) x /\ 0 <= ev (L2 p q r d) x /\ 0 <= ev (L3 p q r d) x).
Proof.
  intros N. rewrite (hull_walls p q r d x N). unfold inP, walls. split.
  - intros H. repeat split; apply H; cbn; tauto.
  - intros (A & B & C & E) L [<-|[<-|[<-|[<-|[]]]]]; assumption.
Qed.
Lemma hull3_ev p q r d x : ~ flat4 p q r d -> (hull [p; q; r] x <-> 0 <= ev (L0 p q r d) x /\ 0 <= ev (L1 p q r d) x /\ 0 <= ev (L2 p q r d) x /\ ev (L3 p q r d) x = 0).
Proof.
  intros N. split.
  - intros (ws & (Lw & S & E) & Pw). destruct ws as [|u [|v [|w [|? ?]]]]; try discriminate Lw.
    apply Forall_cons_iff in Pw as [Pu Pw]. apply Forall_cons_iff in Pw as [Pv Pw]. apply Forall_cons_iff in Pw as [Pw _]. unfold Rsum in S. cbn in S.
    assert (Ex : x = bc u v w 0 p q r d) by (rewrite E; unfold bc, comb, o3; p3 p; p3 q; p3 r; p3 d; cbn; eq3; ring).
    destruct (ev_of p q r d u v w 0 N ltac:(lra)) as (A & B & C & D). rewrite <- Ex in A, B, C, D. rewrite A, B, C, D. auto.
  - intros (A & B & C & D). pose proof (ev_sum p q r d x) as S. pose proof (ev_point p q r d x N) as E.
    exists [ev (L0 p q r d) x; ev (L1 p q r d) x; ev (L2 p q r d) x]. split; [split; [reflexivity|split; [unfold Rsum; cbn; lra|]]|repeat (apply Forall_cons; [assumption|]); constructor].
    rewrite E at 1. rewrite D. generalize (ev (L0 p q r d) x) (ev (L1 p q r d) x) (ev (L2 p q r d) x). intros. unfold comb, o3. p3 p; p3 q; p3 r; p3 d. cbn. eq3; ring.
Qed.

(** x is an inner point of the triangle p, q, r. *)
Definition relint (p q r x : R3) : Prop := exists u v w, 0 < u /\ 0 < v /\ 0 < w /\ u + v + w = 1 /\ x = add3 (scale3 u p) (add3 (scale3 v q) (scale3 w r)).
Lemma relint_ev p q r d x : ~ flat4 p q r d -> relint p q r x -> 0 < ev (L0 p q r d) x /\ 0 < ev (L1 p q r d) x /\ 0 < ev (L2 p q r d) x /\ ev (L3 p q r d) x = 0.
Proof.
  intros N (u & v & w & Pu & Pv & Pw & S & ->). assert (E : add3 (scale3 u p) (add3 (scale3 v q) (scale3 w r)) = bc u v w 0 p q r d).
  { unfold bc. p3 p; p3 q; p3 r; p3 d. cbn. eq3; ring. }
  rewrite E. destruct (ev_of p q r d u v w 0 N ltac:(lra)) as (A & B & C & D). rewrite A, B, C, D. auto.
Qed.
Lemma relint_hull p q r x : relint p q r x -> hull [p; q; r] x.
Proof.
  intros (u & v & w & Pu & Pv & Pw & S & ->). exists [u; v; w]. split; [split; [reflexivity|split; [unfold Rsum; cbn; lra|]]|repeat (apply Forall_cons; [lra|]); constructor].
  unfold comb, o3. p3 p; p3 q; p3 r. cbn. eq3; ring.
Qed.

Lemma ev_bc L p q r d u v w z : u + v + w + z = 1 -> ev L (bc u v w z p q r d) = u * ev L p + v * ev L q + w * ev L r + z * ev L d.
Proof.
  intros S. destruct L as [[[a b] c] k]. unfold ev, bc. p3 p; p3 q; p3 r; p3 d. cbn.
  replace k with ((u + v + w + z) * k) at 1 by (rewrite S; ring). ring.
Qed.
Lemma walls_at p q r d : ~ flat4 p q r d -> ev (L3 p q r d) p = 0 /\ ev (L3 p q r d) q = 0 /\ ev (L3 p q r d) r = 0 /\ ev (L3 p q r d) d = 1 /\
  ev (L0 p q r d) d = 0 /\ ev (L1 p q r d) d = 0 /\ ev (L2 p q r d) d = 0.
Proof.
  intros N.
  assert (K : forall u v w z, u + v + w + z = 1 -> forall y, y = bc u v w z p q r d -> ev (L0 p q r d) y = u /\ ev (L1 p q r d) y = v /\ ev (L2 p q r d) y = w /\ ev (L3 p q r d) y = z).
  { intros u v w z S y ->. apply ev_of; assumption. }
  destruct (K 1 0 0 0 ltac:(lra) p) as (_ & _ & _ & A); [unfold bc; p3 p; p3 q; p3 r; p3 d; cbn; eq3; ring|].
  destruct (K 0 1 0 0 ltac:(lra) q) as (_ & _ & _ & B); [unfold bc; p3 p; p3 q; p3 r; p3 d; cbn; eq3; ring|].
  destruct (K 0 0 1 0 ltac:(lra) r) as (_ & _ & _ & C); [unfold bc; p3 p; p3 q; p3 r; p3 d; cbn; eq3; ring|].
  destruct (K 0 0 0 1 ltac:(lra) d) as (D0 & D1 & D2 & D3); [unfold bc; p3 p; p3 q; p3 r; p3 d; cbn; eq3; ring|].
  auto 10.
Qed.
Lemma L3_scale p q r d d' y : ~ flat4 p q r d -> ~ flat4 p q r d' -> ev (L3 p q r d) y = ev (L3 p q r d') y * ev (L3 p q r d) d'.
Proof.
  intros N N'. destruct (walls_at p q r d N) as (A & B & C & _). rewrite (ev_point p q r d' y N') at 1. fold (bc (ev (L0 p q r d') y) (ev (L1 p q r d') y) (ev (L2 p q r d') y) (ev (L3 p q r d') y) p q r d').
  rewrite ev_bc by apply ev_sum. rewrite A, B, C. ring.
Qed.
Lemma nonflat_apex p q r d : ~ flat4 p q r d -> p <> q /\ p <> r /\ q <> r /\ d <> p /\ d <> q /\ d <> r.
Proof.
  intros N. repeat split; intros ->; apply N; unfold flat4; [p3 q; p3 r; p3 d|p3 q; p3 r; p3 d|p3 p; p3 r; p3 d|p3 p; p3 q; p3 r|p3 p; p3 q; p3 r|p3 p; p3 q; p3 r]; cbn; ring.
Qed.

Lemma nb3_in4 p q r d x : ~ flat4 p q r d -> 0 < ev (L0 p q r d) x -> 0 < ev (L1 p q r d) x -> 0 < ev (L2 p q r d) x -> 0 < ev (L3 p q r d) x -> nb3 x (hull [p; q; r; d]).
Proof.
  intros N A B C D. apply (nb3_imp x (fun y => (0 < ev (L0 p q r d) y /\ 0 < ev (L1 p q r d) y) /\ 0 < ev (L2 p q r d) y /\ 0 < ev (L3 p q r d) y)).
  - intros y ((? & ?) & ? & ?). apply hull4; [exact N|]. repeat split; lra.
  - apply nb3_and; apply nb3_and; apply nb3_pos; assumption.
Qed.
Lemma nb3_out4 p q r d x : ~ flat4 p q r d -> ~ hull [p; q; r; d] x -> nb3 x (fun y => ~ hull [p; q; r; d] y).
Proof.
  intros N H. assert (K : exists L, In L (walls p q r d) /\ ev L x < 0).
  { apply NNPP. intros K. apply H. apply hull_walls; [exact N|]. intros L I. apply Rnot_lt_le. intros L'. apply K. eauto. }
  destruct K as (L & I & Lt). apply (nb3_imp x (fun y => ev L y < 0)); [|apply nb3_neg, Lt]. intros y Ly Hy. apply (hull_walls p q r d y N) in Hy. specialize (Hy L I). lra.
Qed.
Lemma nb3_out3 p q r d x : ~ flat4 p q r d -> ~ hull [p; q; r] x -> nb3 x (fun y => ~ hull [p; q; r] y).
Proof.
  intros N H. destruct (Rlt_dec (ev (L0 p q r d) x) 0) as [A|A].
  { apply (nb3_imp x (fun y => ev (L0 p q r d) y < 0)); [|apply nb3_neg, A]. intros y Ly Hy. apply (hull3_ev p q r d y N) in Hy. lra. }
  destruct (Rlt_dec (ev (L1 p q r d) x) 0) as [B|B].
  { apply (nb3_imp x (fun y => ev (L1 p q r d) y < 0)); [|apply nb3_neg, B]. intros y Ly Hy. apply (hull3_ev p q r d y N) in Hy. lra. }
  destruct (Rlt_dec (ev (L2 p q r d) x) 0) as [C|C].
  { apply (nb3_imp x (fun y => ev (L2 p q r d) y < 0)); [|apply nb3_neg, C]. intros y Ly Hy. apply (hull3_ev p q r d y N) in Hy. lra. }
  apply (nb3_imp x (fun y => ev (L3 p q r d) y <> 0)); [intros y Ly Hy; apply (hull3_ev p q r d y N) in Hy; lra|]. apply nb3_nz. intros Z. apply H, (hull3_ev p q r d x N). lra.
Qed.
Lemma nb3_two p q r d d' x : ~ flat4 p q r d -> ~ flat4 p q r d' -> ev (L3 p q r d) d' < 0 -> relint p q r x -> nb3 x (fun y => hull [p; q; r; d] y \/ hull [p; q; r; d'] y).
Proof.
  intros N N' K R. destruct (relint_ev p q r d x N R) as (A & B & C & _). destruct (relint_ev p q r d' x N' R) as (A' & B' & C' & _).
  apply (nb3_imp x (fun y => ((0 < ev (L0 p q r d) y /\ 0 < ev (L1 p q r d) y) /\ 0 < ev (L2 p q r d) y) /\ ((0 < ev (L0 p q r d') y /\ 0 < ev (L1 p q r d') y) /\ 0 < ev (L2 p q r d') y))).
  - intros y (((? & ?) & ?) & (? & ?) & ?). pose proof (L3_scale p q r d d' y N N') as E.
    destruct (Rle_dec 0 (ev (L3 p q r d) y)); [left; apply hull4; [exact N|]; lra|right; apply hull4; [exact N'|]]. repeat split; try lra. nra.
  - repeat apply nb3_and; apply nb3_pos; assumption.
Qed.
Definition mid3 (p q r : R3) : R3 := add3 (scale3 (1/3) p) (add3 (scale3 (1/3) q) (scale3 (1/3) r)).
Lemma mid3_relint p q r : relint p q r (mid3 p q r).
Proof. exists (1/3), (1/3), (1/3). repeat split; lra. Qed.
Lemma relint_toward p q r x s : hull [p; q; r] x -> 0 < s <= 1 -> relint p q r (line s x (mid3 p q r)).
Proof.
  intros (ws & (Lw & S & ->) & Pw) Hs. destruct ws as [|u [|v [|w [|? ?]]]]; try discriminate Lw. apply Forall_cons_iff in Pw as [Pu Pw]. apply Forall_cons_iff in Pw as [Pv Pw]. apply Forall_cons_iff in Pw as [Pw _]. unfold Rsum in S. cbn in S.
  exists ((1 - s) * u + s * (1/3)), ((1 - s) * v + s * (1/3)), ((1 - s) * w + s * (1/3)).
  assert (K : forall a, 0 <= a -> 0 < (1 - s) * a + s * (1/3)) by (intros a Ha; assert (0 <= (1 - s) * a) by (apply Rmult_le_pos; lra); lra).
  split; [apply K, Pu|]. split; [apply K, Pv|]. split; [apply K, Pw|]. split; [replace (_ + _ + _) with ((1 - s) * (u + (v + (w + 0))) + s) by field; rewrite S; ring|].
  unfold line, mid3, comb, o3. p3 p; p3 q; p3 r. cbn. eq3; field.
Qed.

Section Complex3.
Variable ts : list (list R3).
Definition tetr (t : list R3) : Prop := exists a b c d, t = [a; b; c; d] /\ ~ flat4 a b c d.
Hypothesis T : Forall tetr ts.
Hypothesis F2F : face_to_face ts.
Definition reg3 (x : R3) : Prop := exists t, In t ts /\ hull t x.
(** The triangle p, q, r is a face of exactly one tetrahedron. *)
Definition lone3 (p q r : R3) : Prop := exists i t, nth_error ts i = Some t /\ In p t /\ In q t /\ In r t /\ p <> q /\ p <> r /\ q <> r /\
  forall j u, nth_error ts j = Some u -> In p u -> In q u -> In r u -> j = i.

Lemma fourth t p q r : In t ts -> In p t -> In q t -> In r t -> p <> q -> p <> r -> q <> r -> exists d, ~ flat4 p q r d /\ same_set t [p; q; r; d].
Proof.
  intros Ht. pose proof T as T'. rewrite Forall_forall in T'. destruct (T' t Ht) as (a & b & c & d & -> & N).
  assert (W : forall x y z w, triple3 (sub3 y x) (sub3 z x) (sub3 w x) = triple3 (sub3 b a) (sub3 c a) (sub3 d a) \/ triple3 (sub3 y x) (sub3 z x) (sub3 w x) = - triple3 (sub3 b a) (sub3 c a) (sub3 d a) -> ~ flat4 x y z w).
  { unfold flat4 in *. intros x y z w [E|E]; rewrite E; lra. }
  intros [<-|[<-|[<-|[<-|[]]]]] [<-|[<-|[<-|[<-|[]]]]] [<-|[<-|[<-|[<-|[]]]]] n1 n2 n3; try congruence;
  first [exists a; split; [apply W; first [left; p3 a; p3 b; p3 c; p3 d; cbn; ring|right; p3 a; p3 b; p3 c; p3 d; cbn; ring]|intros x; cbn; tauto]
        |exists b; split; [apply W; first [left; p3 a; p3 b; p3 c; p3 d; cbn; ring|right; p3 a; p3 b; p3 c; p3 d; cbn; ring]|intros x; cbn; tauto]
        |exists c; split; [apply W; first [left; p3 a; p3 b; p3 c; p3 d; cbn; ring|right; p3 a; p3 b; p3 c; p3 d; cbn; ring]|intros x; cbn; tauto]
        |exists d; split; [apply W; first [left; p3 a; p3 b; p3 c; p3 d; cbn; ring|right; p3 a; p3 b; p3 c; p3 d; cbn; ring]|intros x; cbn; tauto]].
Qed.
Lemma nb3_tet_out t x : In t ts -> ~ hull t x -> nb3 x (fun y => ~ hull t y).
Proof. intros Ht. pose proof T as T'. rewrite Forall_forall in T'. destruct (T' t Ht) as (a & b & c & d & -> & N). apply nb3_out4, N. Qed.
Lemma nb3_reg_out x : ~ reg3 x -> nb3 x (fun y => ~ reg3 y).
Proof.
  intros H. apply (nb3_imp x (fun y => forall t, In t ts -> ~ hull t y)); [intros y K (t & Ht & Hy); exact (K t Ht Hy)|].
  apply nb3_all. intros t Ht. apply nb3_tet_out; [exact Ht|]. intros Hx. apply H. exists t. auto.
Qed.
Lemma same_sym {A} (l m : list A) : same_set l m -> same_set m l. Proof. intros H x. split; apply H. Qed.

(** Different tetrahedra with a common face lie on different sides of it. *)
Lemma opposite3 i j t u p q r d d' : nth_error ts i = Some t -> nth_error ts j = Some u -> i <> j ->
  same_set t [p; q; r; d] -> same_set u [p; q; r; d'] -> ~ flat4 p q r d -> ~ flat4 p q r d' -> ev (L3 p q r d) d' < 0.
Proof.
  intros Hi Hj Nij St Su N N'. apply Rnot_le_lt. intros Le.
  destruct (walls_at p q r d N) as (_ & _ & _ & D1 & _). destruct (nonflat_apex p q r d N) as (_ & _ & _ & n1 & n2 & n3).
  assert (Gt : 0 < ev (L3 p q r d) d'). { destruct Le as [Lt|Z]; [exact Lt|]. exfalso. pose proof (L3_scale p q r d d' d N N') as E. rewrite <- Z, D1 in E. lra. }
  pose proof (mid3_relint p q r) as Rx. set (x := mid3 p q r) in *. destruct (relint_ev p q r d x N Rx) as (A & B & C & Z). destruct (relint_ev p q r d' x N' Rx) as (A' & B' & C' & _).
  assert (Nb : nb3 x (fun y => ((0 < ev (L0 p q r d) y /\ 0 < ev (L1 p q r d) y) /\ 0 < ev (L2 p q r d) y) /\ ((0 < ev (L0 p q r d') y /\ 0 < ev (L1 p q r d') y) /\ 0 < ev (L2 p q r d') y))).
  { repeat apply nb3_and; apply nb3_pos; assumption. }
  destruct (nb3_step x d _ Nb) as (e & Pe & He). destruct (He (e / 2)) as (((a0 & a1) & a2) & (b0 & b1) & b2); [rewrite Rabs_pos_eq; lra|]. clear He.
  assert (E3 : ev (L3 p q r d) (line (e / 2) x d) = e / 2) by (rewrite ev_line, Z, D1; ring). set (y := line (e / 2) x d) in *.
  assert (E3' : 0 < ev (L3 p q r d') y). { pose proof (L3_scale p q r d d' y N N') as E. rewrite E3 in E. apply Rnot_le_lt. intros Le'. assert (ev (L3 p q r d') y * ev (L3 p q r d) d' <= 0) by nra. lra. }
  assert (Ht : hull t y). { apply (hull_same [p; q; r; d]); [apply same_sym, St|]. apply hull4; [exact N|]. lra. }
  assert (Hu : hull u y). { apply (hull_same [p; q; r; d']); [apply same_sym, Su|]. apply hull4; [exact N'|]. lra. }
  destruct (F2F i j t u Hi Hj Nij) as (Ns & Meet). destruct (Meet y Ht Hu) as (ps & It & Iu & Hps).
  assert (Id : In d ps).
  { apply NNPP. intros Nd. assert (K : hull [p; q; r] y); [|apply (hull3_ev p q r d y N) in K; lra].
    apply (hull_drop d ps); [|exact Nd|exact Hps]. intros v Iv. apply It, St in Iv. cbn in *. tauto. }
  apply Iu, Su in Id. destruct Id as [K|[K|[K|[K|[]]]]]; try congruence. subst d'. apply Ns. intros v. rewrite (St v), (Su v). tauto.
Qed.
Lemma shared_inner3 t p q r x : In t ts -> In p t -> In q t -> In r t -> p <> q -> p <> r -> q <> r -> relint p q r x -> ~ lone3 p q r -> nb3 x reg3.
Proof.
  intros Ht Ip Iq Ir Npq Npr Nqr R NL. destruct (In_nth_error _ _ Ht) as (i & Hi).
  assert (K : exists j u, nth_error ts j = Some u /\ In p u /\ In q u /\ In r u /\ i <> j).
  { apply NNPP. intros K. apply NL. exists i, t. repeat (split; [assumption|]). intros j u Hj P1 P2 P3. apply NNPP. intros Nji. apply K. exists j, u. auto 10. }
  destruct K as (j & u & Hj & Jp & Jq & Jr & Nij). pose proof (nth_error_In _ _ Hj) as Hu.
  destruct (fourth t p q r Ht Ip Iq Ir Npq Npr Nqr) as (d & N & St). destruct (fourth u p q r Hu Jp Jq Jr Npq Npr Nqr) as (d' & N' & Su).
  pose proof (opposite3 i j t u p q r d d' Hi Hj Nij St Su N N') as Op.
  apply (nb3_imp x (fun y => hull [p; q; r; d] y \/ hull [p; q; r; d'] y)); [|apply nb3_two; assumption].
  intros y [Hy|Hy]; [exists t|exists u]; (split; [assumption|]); [apply (hull_same [p; q; r; d])|apply (hull_same [p; q; r; d'])]; auto using @same_sym.
Qed.
(** A point of a tetrahedron is inside it, inside one of its faces, or on an edge. *)
Lemma where_in3 t x : In t ts -> hull t x -> nb3 x (hull t) \/
  (exists p q r, In p t /\ In q t /\ In r t /\ p <> q /\ p <> r /\ q <> r /\ relint p q r x) \/
  (exists p q, In p t /\ In q t /\ p <> q /\ hull [p; q] x).
Proof.
  intros Ht Hx. pose proof T as T'. rewrite Forall_forall in T'. destruct (T' t Ht) as (a & b & c & d & -> & N).
  pose proof (ev_sum a b c d x) as S. pose proof (ev_point a b c d x N) as E. destruct (proj1 (hull4 a b c d x N) Hx) as (P0 & P1 & P2 & P3).
  pose proof (nb3_in4 a b c d x N) as Nb. destruct (nonflat_apex a b c d N) as (m1 & m2 & m3 & m4 & m5 & m6).
  set (e0 := ev (L0 a b c d) x) in *. set (e1 := ev (L1 a b c d) x) in *. set (e2 := ev (L2 a b c d) x) in *. set (e3 := ev (L3 a b c d) x) in *. clearbody e0 e1 e2 e3. clear T' Hx.
  assert (Ed : forall p q u v, 0 <= u -> 0 <= v -> u + v = 1 -> x = add3 (scale3 u p) (scale3 v q) -> hull [p; q] x).
  { intros p q u v Pu Pv Su ->. exists [u; v]. split; [split; [reflexivity|split; [unfold Rsum; cbn; lra|]]|repeat (apply Forall_cons; [lra|]); constructor]. unfold comb, o3. p3 p; p3 q. cbn. eq3; ring. }
  assert (Fc : forall p q r u v w, 0 < u -> 0 < v -> 0 < w -> u + v + w = 1 -> x = add3 (scale3 u p) (add3 (scale3 v q) (scale3 w r)) -> relint p q r x) by (intros; exists u, v, w; auto).
  destruct P0 as [P0|P0]; destruct P1 as [P1|P1]; destruct P2 as [P2|P2]; destruct P3 as [P3|P3]; try (exfalso; lra).
  1: left; auto.
  1: right; left; exists a, b, c; cbn; repeat (split; [tauto || congruence|]); apply (Fc _ _ _ e0 e1 e2); try lra; rewrite E, <- P3; p3 a; p3 b; p3 c; p3 d; cbn; eq3; ring.
  1: right; left; exists a, b, d; cbn; repeat (split; [tauto || congruence|]); apply (Fc _ _ _ e0 e1 e3); try lra; rewrite E, <- P2; p3 a; p3 b; p3 c; p3 d; cbn; eq3; ring.
  1: right; right; exists a, b; cbn; repeat (split; [tauto || congruence|]); apply (Ed _ _ e0 e1); try lra; rewrite E, <- P2, <- P3; p3 a; p3 b; p3 c; p3 d; cbn; eq3; ring.
  1: right; left; exists a, c, d; cbn; repeat (split; [tauto || congruence|]); apply (Fc _ _ _ e0 e2 e3); try lra; rewrite E, <- P1; p3 a; p3 b; p3 c; p3 d; cbn; eq3; ring.
  1: right; right; exists a, c; cbn; repeat (split; [tauto || congruence|]); apply (Ed _ _ e0 e2); try lra; rewrite E, <- P1, <- P3; p3 a; p3 b; p3 c; p3 d; cbn; eq3; ring.
  1: right; right; exists a, d; cbn; repeat (split; [tauto || congruence|]); apply (Ed _ _ e0 e3); try lra; rewrite E, <- P1, <- P2; p3 a; p3 b; p3 c; p3 d; cbn; eq3; ring.
  1: right; right; exists a, b; cbn; repeat (split; [tauto || congruence|]); apply (Ed _ _ e0 e1); try lra; rewrite E, <- P1, <- P2, <- P3; p3 a; p3 b; p3 c; p3 d; cbn; eq3; ring.
  1: right; left; exists b, c, d; cbn; repeat (split; [tauto || congruence|]); apply (Fc _ _ _ e1 e2 e3); try lra; rewrite E, <- P0; p3 a; p3 b; p3 c; p3 d; cbn; eq3; ring.
  1: right; right; exists b, c; cbn; repeat (split; [tauto || congruence|]); apply (Ed _ _ e1 e2); try lra; rewrite E, <- P0, <- P3; p3 a; p3 b; p3 c; p3 d; cbn; eq3; ring.
  1: right; right; exists b, d; cbn; repeat (split; [tauto || congruence|]); apply (Ed _ _ e1 e3); try lra; rewrite E, <- P0, <- P2; p3 a; p3 b; p3 c; p3 d; cbn; eq3; ring.
  1: right; right; exists b, a; cbn; repeat (split; [tauto || congruence|]); apply (Ed _ _ e1 e0); try lra; rewrite E, <- P0, <- P2, <- P3; p3 a; p3 b; p3 c; p3 d; cbn; eq3; ring.
  1: right; right; exists c, d; cbn; repeat (split; [tauto || congruence|]); apply (Ed _ _ e2 e3); try lra; rewrite E, <- P0, <- P1; p3 a; p3 b; p3 c; p3 d; cbn; eq3; ring.
  1: right; right; exists c, a; cbn; repeat (split; [tauto || congruence|]); apply (Ed _ _ e2 e0); try lra; rewrite E, <- P0, <- P1, <- P3; p3 a; p3 b; p3 c; p3 d; cbn; eq3; ring.
  1: right; right; exists d, a; cbn; repeat (split; [tauto || congruence|]); apply (Ed _ _ e3 e0); try lra; rewrite E, <- P0, <- P1, <- P2; p3 a; p3 b; p3 c; p3 d; cbn; eq3; ring.
Qed.
Lemma walk3 y z : reg3 y -> ~ reg3 z -> exists s, 0 <= s < 1 /\ reg3 (line s y z) /\ ~ nb3 (line s y z) reg3.
Proof.
  intros Ry Nz. set (E := fun s => 0 <= s <= 1 /\ reg3 (line s y z)).
  destruct (completeness E) as (m & Ub & Lub).
  - exists 1. intros s [Hs _]. lra.
  - exists 0. split; [lra|]. rewrite line_0. exact Ry.
  - assert (M0 : 0 <= m) by (apply Ub; split; [lra|rewrite line_0; exact Ry]). assert (M1 : m <= 1) by (apply Lub; intros s [Hs _]; lra).
    assert (Near : forall s, line (m + s) y z = line s (line m y z) (add3 (line m y z) (sub3 z y))).
    { intros s. unfold line. p3 y; p3 z. cbn. eq3; ring. }
    assert (Rm : reg3 (line m y z)).
    { apply NNPP. intros Nm. destruct (nb3_step _ (add3 (line m y z) (sub3 z y)) _ (nb3_reg_out _ Nm)) as (d & Pd & Hd).
      assert (K : is_upper_bound E (m - d / 2)); [|specialize (Lub _ K); lra].
      intros s [Hs Rs]. apply Rnot_lt_le. intros L. pose proof (Ub s (conj Hs Rs)) as U. apply (Hd (s - m)); [rewrite Rabs_left1 by lra; lra|].
      rewrite <- Near. replace (m + (s - m)) with s by ring. exact Rs. }
    assert (Lm : m < 1). { destruct M1 as [L | ->]; [exact L|]. exfalso. rewrite line_1 in Rm. contradiction. }
    exists m. split; [lra|]. split; [exact Rm|]. intros Nb.
    destruct (nb3_step _ (add3 (line m y z) (sub3 z y)) _ Nb) as (d & Pd & Hd).
    pose proof (Rmin_l (d / 2) (1 - m)). pose proof (Rmin_r (d / 2) (1 - m)). assert (Pe : 0 < Rmin (d / 2) (1 - m)) by (apply Rmin_glb_lt; lra). set (e := Rmin (d / 2) (1 - m)) in *.
    assert (K : E (m + e)). { split; [lra|]. rewrite Near. apply Hd. rewrite Rabs_right by lra. lra. }
    specialize (Ub _ K). lra.
Qed.
Lemma planes (z : R3) (l : list (R3 * R3)) : exists Ls : list half, (forall L, In L Ls -> fst L <> o3) /\
  forall p q, In (p, q) l -> exists L, In L Ls /\ ev L z = 0 /\ ev L p = 0 /\ ev L q = 0.
Proof.
  induction l as [|[p q] l (Ls & H1 & H2)]; [exists []; split; [intros L []|intros p q []]|].
  destruct (two_normals (sub3 p z) (sub3 q z)) as (n & Nn & E1 & E2). exists ((n, - dot3 n z) :: Ls). split.
  - intros L [<-|I]; [exact Nn|auto].
  - intros p' q' [E|I]; [|destruct (H2 p' q' I) as (L & IL & HL); exists L; split; [right; exact IL|exact HL]].
    injection E as <- <-. exists (n, - dot3 n z). split; [left; reflexivity|]. revert E1 E2. unfold ev. p3 n; p3 z; p3 p; p3 q. cbn. intros. repeat split; lra.
Qed.
Lemma inside_near3 t x : In t ts -> hull t x -> forall e, 0 < e -> exists y, nb3 y (fun w => hull t w /\ cube e x w).
Proof.
  intros Ht Hx e Pe. pose proof T as T'. rewrite Forall_forall in T'. destruct (T' t Ht) as (a & b & c & d & -> & N).
  set (g := bc (1/4) (1/4) (1/4) (1/4) a b c d). destruct (ev_of a b c d (1/4) (1/4) (1/4) (1/4) N ltac:(lra)) as (G0 & G1 & G2 & G3). fold g in G0, G1, G2, G3.
  destruct (proj1 (hull4 a b c d x N) Hx) as (P0 & P1 & P2 & P3).
  destruct (nb3_step x g _ (nb3_open x _ (nb3_cube e x Pe))) as (k & Pk & Hk). set (s := Rmin (k / 2) 1).
  pose proof (Rmin_l (k / 2) 1). pose proof (Rmin_r (k / 2) 1). assert (Ps : 0 < s) by (apply Rmin_glb_lt; lra). fold s in H, H0.
  exists (line s x g). apply nb3_and; [|apply Hk; rewrite Rabs_pos_eq; lra].
  assert (K : forall L, 0 <= ev L x -> ev L g = 1/4 -> 0 < ev L (line s x g)).
  { intros L A B. rewrite ev_line, B. assert (0 <= (1 - s) * ev L x) by (apply Rmult_le_pos; lra). lra. }
  apply nb3_in4; auto.
Qed.
Lemma lone3_facts p q r : lone3 p q r -> exists t d, In t ts /\ ~ flat4 p q r d /\ same_set t [p; q; r; d].
Proof. intros (i & t & Hi & Ip & Iq & Ir & N1 & N2 & N3 & _). pose proof (nth_error_In _ _ Hi) as Ht. destruct (fourth t p q r Ht Ip Iq Ir N1 N2 N3) as (d & K). exists t, d. tauto. Qed.
Lemma lone3_verts p q r : lone3 p q r -> In p (concat ts) /\ In q (concat ts) /\ In r (concat ts).
Proof. intros (i & t & Hi & Ip & Iq & Ir & _). pose proof (nth_error_In _ _ Hi) as Ht. repeat split; apply in_concat; exists t; auto. Qed.
Lemma nb3_no_lone x : (forall p q r, lone3 p q r -> ~ hull [p; q; r] x) -> nb3 x (fun y => forall p q r, lone3 p q r -> ~ hull [p; q; r] y).
Proof.
  intros H. apply (nb3_imp x (fun y => forall p, In p (concat ts) -> forall q, In q (concat ts) -> forall r, In r (concat ts) -> lone3 p q r -> ~ hull [p; q; r] y)).
  { intros y K p q r L. destruct (lone3_verts p q r L) as (A & B & C). auto. }
  apply nb3_all. intros p _. apply nb3_all. intros q _. apply nb3_all. intros r _.
  destruct (classic (lone3 p q r)) as [L|L]; [|exists 1; split; [lra|]; intros; contradiction].
  destruct (lone3_facts p q r L) as (t & d & _ & N & _). apply (nb3_imp x (fun y => ~ hull [p; q; r] y)); [auto|]. apply (nb3_out3 p q r d); auto.
Qed.
Lemma not_nb3 x Q : ~ nb3 x Q -> forall e, 0 < e -> exists z, cube e x z /\ ~ Q z.
Proof. intros H e Pe. apply NNPP. intros K. apply H. exists e. split; [exact Pe|]. intros y Hy. apply NNPP. intros Ny. apply K. eauto. Qed.
Lemma inner_point3 x : reg3 x -> (forall p q r, lone3 p q r -> ~ hull [p; q; r] x) -> nb3 x reg3.
Proof.
  intros (t & Ht & Hx) NL. apply NNPP. intros NN. destruct (nb3_no_lone x NL) as (e & Pe & He).
  destruct (not_nb3 x _ NN e Pe) as (z & Cz & Nz). destruct (inside_near3 t x Ht Hx e Pe) as (y0 & Hy0).
  destruct (planes z (list_prod (concat ts) (concat ts))) as (Ls & Nn & Av).
  destruct (generic Ls y0 _ Nn Hy0) as (y & Hy & Off). apply nb3_point in Hy as (Hy & Cy).
  assert (Ry : reg3 y) by (exists t; auto). destruct (walk3 y z Ry Nz) as (s & Hs & (u & Hu & Hw) & NNw).
  assert (Cw : cube e x (line s y z)) by (apply cube_line; [lra|assumption|assumption]). set (w := line s y z) in *.
  destruct (where_in3 u w Hu Hw) as [K|[(p & q & r & Ip & Iq & Ir & N1 & N2 & N3 & R)|(p & q & Ip & Iq & N1 & Hh)]].
  - apply NNw. apply (nb3_imp w (hull u)); [|exact K]. intros v Hv. exists u. auto.
  - apply NNw. apply (shared_inner3 u p q r w Hu Ip Iq Ir N1 N2 N3 R). intros L. apply (He w Cw p q r L), relint_hull, R.
  - assert (I2 : In (p, q) (list_prod (concat ts) (concat ts))) by (apply in_prod; apply in_concat; exists u; auto).
    destruct (Av p q I2) as (L & IL & Ez & Ep & Eq). apply (Off L IL). apply hull2_line in Hh as (k & Hk & Ew).
    assert (E : ev L w = (1 - s) * ev L y) by (unfold w; rewrite ev_line, Ez; ring). rewrite Ew, ev_line, Ep, Eq in E.
    apply (Rmult_eq_reg_l (1 - s)); [|lra]. rewrite <- E. ring.
Qed.
Lemma lone_outer3 p q r x : lone3 p q r -> hull [p; q; r] x -> ~ nb3 x reg3.
Proof.
  intros (i & t & Hi & Ip & Iq & Ir & N1 & N2 & N3 & Lone) Hx Nb. pose proof (nth_error_In _ _ Hi) as Ht. destruct (fourth t p q r Ht Ip Iq Ir N1 N2 N3) as (d & N & St).
  destruct (nb3_step x (mid3 p q r) _ (nb3_open x _ Nb)) as (k & Pk & Hk). set (s := Rmin (k / 2) 1).
  pose proof (Rmin_l (k / 2) 1). pose proof (Rmin_r (k / 2) 1). assert (Ps : 0 < s) by (apply Rmin_glb_lt; lra). fold s in H, H0.
  assert (Nf : nb3 (line s x (mid3 p q r)) reg3) by (apply Hk; rewrite Rabs_pos_eq; lra). assert (Rf : relint p q r (line s x (mid3 p q r))) by (apply relint_toward; [exact Hx|lra]).
  set (f := line s x (mid3 p q r)) in *. destruct (relint_ev p q r d f N Rf) as (A & B & C & Z). destruct (walls_at p q r d N) as (_ & _ & _ & D1 & _).
  assert (Hf : hull t f) by (apply (hull_same [p; q; r; d]); [apply same_sym, St|]; apply hull4; [exact N|]; lra).
  assert (Dr : forall a b c e L, same_set t [a; b; c; e] -> In L (walls a b c e) -> ~ flat4 a b c e -> forall ps, incl ps t -> hull ps f -> ~ In a ps -> hull [b; c; e] f).
  { intros a b c e L Sa _ _ ps Ips Hps Na. apply (hull_drop a ps); [|exact Na|exact Hps]. intros v Iv. apply Ips, Sa in Iv. exact Iv. }
  assert (Others : forall j u, nth_error ts j = Some u -> j <> i -> ~ hull u f).
  { intros j u Hj Nj Hu. destruct (F2F i j t u Hi Hj ltac:(congruence)) as (_ & Meet). destruct (Meet f Hf Hu) as (ps & It & Iu & Hps).
    apply Nj. apply (Lone j u Hj); apply Iu, NNPP; intros Na.
    - assert (K : hull [q; r; d] f) by (apply (hull_drop p ps); [|exact Na|exact Hps]; intros v Iv; apply It, St in Iv; exact Iv).
      assert (N' : ~ flat4 q r d p) by (intros E; apply N; revert E; unfold flat4; p3 p; p3 q; p3 r; p3 d; cbn; intros; lra).
      assert (K' := proj1 (hull3_ev q r d p f N') K). destruct (relint_ev p q r d f N Rf) as (A' & _).
      assert (E : ev (L3 q r d p) f = ev (L0 p q r d) f); [|lra].
      rewrite (ev_point p q r d f N) at 1. fold (bc (ev (L0 p q r d) f) (ev (L1 p q r d) f) (ev (L2 p q r d) f) (ev (L3 p q r d) f) p q r d). rewrite ev_bc by apply ev_sum.
      destruct (walls_at q r d p N') as (-> & -> & -> & -> & _). ring.
    - assert (K : hull [p; r; d] f) by (apply (hull_drop q ps); [|exact Na|exact Hps]; intros v Iv; apply It, St in Iv; cbn in *; tauto).
      assert (N' : ~ flat4 p r d q) by (intros E; apply N; revert E; unfold flat4; p3 p; p3 q; p3 r; p3 d; cbn; intros; lra).
      assert (K' := proj1 (hull3_ev p r d q f N') K). 
      assert (E : ev (L3 p r d q) f = ev (L1 p q r d) f); [|lra].
      rewrite (ev_point p q r d f N) at 1. fold (bc (ev (L0 p q r d) f) (ev (L1 p q r d) f) (ev (L2 p q r d) f) (ev (L3 p q r d) f) p q r d). rewrite ev_bc by apply ev_sum.
      destruct (walls_at p r d q N') as (-> & -> & -> & -> & _). ring.
    - assert (K : hull [p; q; d] f) by (apply (hull_drop r ps); [|exact Na|exact Hps]; intros v Iv; apply It, St in Iv; cbn in *; tauto).
      assert (N' : ~ flat4 p q d r) by (intros E; apply N; revert E; unfold flat4; p3 p; p3 q; p3 r; p3 d; cbn; intros; lra).
      assert (K' := proj1 (hull3_ev p q d r f N') K). 
      assert (E : ev (L3 p q d r) f = ev (L2 p q r d) f); [|lra].
      rewrite (ev_point p q r d f N) at 1. fold (bc (ev (L0 p q r d) f) (ev (L1 p q r d) f) (ev (L2 p q r d) f) (ev (L3 p q r d) f) p q r d). rewrite ev_bc by apply ev_sum.
      destruct (walls_at p q d r N') as (-> & -> & -> & -> & _). ring. }
  assert (Nt : nb3 f (fun y => reg3 y /\ forall j, In j (seq 0 (length ts)) -> forall u, nth_error ts j = Some u -> j <> i -> ~ hull u y)).
  { apply nb3_and; [exact Nf|]. apply nb3_all. intros j _. destruct (nth_error ts j) as [u|] eqn:Hj; [|exists 1; split; [lra|]; intros; discriminate].
    destruct (Nat.eq_dec j i) as [->|Nj]; [exists 1; split; [lra|]; intros; contradiction|].
    apply (nb3_imp f (fun y => ~ hull u y)); [intros y Hy u' Eu _; congruence|]. apply nb3_tet_out; [exact (nth_error_In _ _ Hj)|]. apply (Others j); assumption. }
  destruct (nb3_step f d _ Nt) as (k' & Pk' & Hk'). destruct (Hk' (- (k' / 2))) as ((u & Hu & Huy) & No); [rewrite Rabs_Ropp, Rabs_pos_eq; lra|].
  destruct (In_nth_error _ _ Hu) as (j & Hj). destruct (Nat.eq_dec j i) as [->|Nj].
  - assert (u = t) by congruence. subst u. apply (hull_same t [p; q; r; d] _ St), (hull4 p q r d _ N) in Huy. rewrite (ev_line (L3 p q r d)), Z, D1 in Huy. lra.
  - apply (No j) with (u := u); auto. apply in_seq. assert (j < length ts)%nat by (apply nth_error_Some; congruence). lia.
Qed.
Lemma cube_dist e x y : cube (e / 2) x y -> dist3 y x < e.
Proof.
  unfold cube, c0, c1, c2. destruct x as [[x0 x1] x2], y as [[y0 y1] y2]. cbn. intros (A & B & C). pose proof (Rabs_pos (y0 - x0)) as P0.
  unfold dist3, norm3. apply Rlt_le_trans with (sqrt (e * e)).
  - apply sqrt_lt_1_alt. cbn. apply Rabs_def2 in A, B, C.
    assert (K : forall u, u < e / 2 /\ - (e / 2) < u -> u * u < e * e / 4) by (intros u Hu; nra).
    pose proof (K _ A). pose proof (K _ B). pose proof (K _ C).
    pose proof (Rle_0_sqr (y0 - x0)). pose proof (Rle_0_sqr (y1 - x1)). pose proof (Rle_0_sqr (y2 - x2)). pose proof (Rle_0_sqr e). unfold Rsqr in *. lra.
  - rewrite sqrt_square; lra.
Qed.
Lemma dist_cube e x y : dist3 y x < e -> cube e x y.
Proof.
  intros H. unfold dist3, norm3 in H. unfold cube.
  assert (K : forall u s, u * u <= s -> sqrt s < e -> Rabs u < e).
  { intros u s Hu Hs. apply Rle_lt_trans with (sqrt s); [|exact Hs]. rewrite <- sqrt_Rsqr_abs. apply sqrt_le_1_alt. exact Hu. }
  unfold c0, c1, c2. destruct x as [[x0 x1] x2], y as [[y0 y1] y2]. cbn in *.
  pose proof (Rle_0_sqr (y0 - x0)). pose proof (Rle_0_sqr (y1 - x1)). pose proof (Rle_0_sqr (y2 - x2)). unfold Rsqr in *.
  repeat split; refine (K _ _ _ H); lra.
Qed.
Lemma lone3_reg p q r x : lone3 p q r -> hull [p; q; r] x -> reg3 x.
Proof.
  intros (i & t & Hi & Ip & Iq & Ir & _) Hx. exists t. split; [exact (nth_error_In _ _ Hi)|]. apply (hull_trans _ _ _ Hx). intros v [<-|[<-|[<-|[]]]]; apply hull_mem; assumption.
Qed.
Theorem frontier3 x : boundary3 reg3 x <-> exists p q r, lone3 p q r /\ hull [p; q; r] x.
Proof.
  split.
  - intros B. apply NNPP. intros K.
    assert (NL : forall p q r, lone3 p q r -> ~ hull [p; q; r] x) by (intros p q r L Hh; apply K; eauto).
    destruct (classic (reg3 x)) as [Rx|Rx].
    + apply inner_point3 in Rx; [|exact NL]. destruct Rx as (e & Pe & H). destruct (B e Pe) as (_ & y & Ny & Dy). apply Ny, H, dist_cube, Dy.
    + apply nb3_reg_out in Rx. destruct Rx as (e & Pe & H). destruct (B e Pe) as ((y & Ny & Dy) & _). apply (H y (dist_cube e x y Dy)), Ny.
  - intros (p & q & r & L & Hx) e Pe. pose proof (lone3_reg p q r x L Hx) as Rx. split.
    + exists x. split; [exact Rx|]. apply cube_dist, cube_self. lra.
    + destruct (not_nb3 x _ (lone_outer3 p q r x L Hx) (e / 2) ltac:(lra)) as (z & Sz & Nz). exists z. split; [exact Nz|]. apply cube_dist, Sz.
Qed.
End Complex3.

Section Corners.
Variable ts : list (list R3).
Hypothesis T : Forall tetr ts.
Hypothesis F2F : face_to_face ts.
Lemma need3 p q r d ps x : ~ flat4 p q r d -> 0 < ev (L3 p q r d) x -> incl ps [p; q; r; d] -> hull ps x -> In d ps.
Proof.
  intros N E I H. apply NNPP. intros Nd. assert (K : hull [p; q; r] x); [|apply (hull3_ev p q r d x N) in K; lra].
  apply (hull_drop d ps); [|exact Nd|exact H]. intros v Iv. apply I in Iv. cbn in *. tauto.
Qed.
Lemma relint_rot p q r x : relint p q r x -> relint q r p x.
Proof. intros (u & v & w & Pu & Pv & Pw & S & ->). exists v, w, u. repeat split; try assumption; [lra|]. p3 p; p3 q; p3 r. cbn. eq3; ring. Qed.
Lemma relint_need p q r d ps x : ~ flat4 p q r d -> relint p q r x -> incl ps [p; q; r; d] -> hull ps x -> In r ps.
Proof.
  intros N R I H. apply (need3 d p q r ps x); [intros E; apply N; revert E; unfold flat4; p3 p; p3 q; p3 r; p3 d; cbn; intros; lra| |intros v Iv; apply I in Iv; cbn in *; tauto|exact H].
  assert (N' : ~ flat4 d p q r) by (intros E; apply N; revert E; unfold flat4; p3 p; p3 q; p3 r; p3 d; cbn; intros; lra).
  destruct R as (u & v & w & Pu & Pv & Pw & S & ->).
  assert (E : add3 (scale3 u p) (add3 (scale3 v q) (scale3 w r)) = bc 0 u v w d p q r) by (unfold bc; p3 p; p3 q; p3 r; p3 d; cbn; eq3; ring).
  rewrite E. destruct (ev_of d p q r 0 u v w N' ltac:(lra)) as (_ & _ & _ & ->). exact Pw.
Qed.
(** A tetrahedron that contains an inner point of a face contains its corners. *)
Lemma corners_in i j t u p q r x : nth_error ts i = Some t -> nth_error ts j = Some u -> In p t -> In q t -> In r t -> p <> q -> p <> r -> q <> r ->
  relint p q r x -> hull u x -> In p u /\ In q u /\ In r u.
Proof.
  intros Hi Hj Ip Iq Ir N1 N2 N3 R Hu. destruct (Nat.eq_dec i j) as [<-|Nij]; [rewrite Hi in Hj; injection Hj as <-; auto|].
  pose proof (nth_error_In _ _ Hi) as Ht. destruct (fourth ts T t p q r Ht Ip Iq Ir N1 N2 N3) as (d & N & St).
  assert (Hx : hull t x). { apply (hull_trans _ _ _ (relint_hull _ _ _ _ R)). intros v [<-|[<-|[<-|[]]]]; apply hull_mem; assumption. }
  destruct (F2F i j t u Hi Hj Nij) as (_ & Meet). destruct (Meet x Hx Hu) as (ps & It & Iu & Hps).
  assert (I4 : incl ps [p; q; r; d]) by (intros v Iv; apply St, It, Iv).
  split; [|split]; apply Iu.
  - apply (relint_need q r p d ps x); [intros E; apply N; revert E; unfold flat4; p3 p; p3 q; p3 r; p3 d; cbn; intros; lra|apply relint_rot, R|intros v Iv; apply I4 in Iv; cbn in *; tauto|exact Hps].
  - apply (relint_need r p q d ps x); [intros E; apply N; revert E; unfold flat4; p3 p; p3 q; p3 r; p3 d; cbn; intros; lra|apply relint_rot, relint_rot, R|intros v Iv; apply I4 in Iv; cbn in *; tauto|exact Hps].
  - apply (relint_need p q r d ps x); assumption.
Qed.
(** Faces with a common inner point have the same corners. *)
Lemma same_corners3 i j t u p q r p' q' r' x : nth_error ts i = Some t -> nth_error ts j = Some u ->
  In p t -> In q t -> In r t -> p <> q -> p <> r -> q <> r -> In p' u -> In q' u -> In r' u -> p' <> q' -> p' <> r' -> q' <> r' ->
  relint p q r x -> relint p' q' r' x -> same_set [p; q; r] [p'; q'; r'].
Proof.
  intros Hi Hj Ip Iq Ir N1 N2 N3 Ip' Iq' Ir' N1' N2' N3' R R'.
  assert (Hu : hull u x). { apply (hull_trans _ _ _ (relint_hull _ _ _ _ R')). intros v [<-|[<-|[<-|[]]]]; apply hull_mem; assumption. }
  destruct (corners_in i j t u p q r x Hi Hj Ip Iq Ir N1 N2 N3 R Hu) as (Jp & Jq & Jr). pose proof (nth_error_In _ _ Hj) as Ju.
  destruct (fourth ts T u p q r Ju Jp Jq Jr N1 N2 N3) as (d & N & Su). destruct (walls_at p q r d N) as (A & B & C & D1 & _).
  destruct (relint_ev p q r d x N R) as (_ & _ & _ & Z).
  assert (P0 : forall v, In v u -> 0 <= ev (L3 p q r d) v /\ (ev (L3 p q r d) v = 0 -> In v [p; q; r])).
  { intros v Iv. apply Su in Iv. destruct Iv as [<-|[<-|[<-|[<-|[]]]]]; [split; [lra|cbn; auto]..|rewrite D1; split; [lra|intros; lra]]. }
  destruct R' as (a & b & c & Pa & Pb & Pc & S & Ex).
  assert (E : ev (L3 p q r d) x = a * ev (L3 p q r d) p' + b * ev (L3 p q r d) q' + c * ev (L3 p q r d) r').
  { assert (Ex' : x = bc a b c 0 p' q' r' p') by (rewrite Ex; unfold bc; p3 p'; p3 q'; p3 r'; cbn; eq3; ring). rewrite Ex' at 1. rewrite ev_bc by lra. ring. }
  destruct (P0 p' Ip') as (a0 & a1). destruct (P0 q' Iq') as (b0 & b1). destruct (P0 r' Ir') as (e0 & e1). rewrite Z in E.
  assert (M : forall k y, 0 < k -> 0 <= y -> 0 <= k * y /\ (k * y = 0 -> y = 0)).
  { intros k y Hk Hy. split; [apply Rmult_le_pos; lra|]. intros E0. apply Rmult_integral in E0. lra. }
  destruct (M a _ Pa a0) as (m1 & m2). destruct (M b _ Pb b0) as (m3 & m4). destruct (M c _ Pc e0) as (m5 & m6).
  assert (I1 : In p' [p; q; r]) by (apply a1, m2; lra). assert (I2 : In q' [p; q; r]) by (apply b1, m4; lra). assert (I3 : In r' [p; q; r]) by (apply e1, m6; lra).
  clear - I1 I2 I3 N1' N2' N3' N1 N2 N3.
  destruct I1 as [<-|[<-|[<-|[]]]], I2 as [<-|[<-|[<-|[]]]], I3 as [<-|[<-|[<-|[]]]]; try congruence; intros v; cbn; tauto.
Qed.
End Corners.

(** Two tetrahedra on the two sides of a common face. *)
Lemma L3_triple p q r d y : ~ flat4 p q r d -> ev (L3 p q r d) y = triple3 (sub3 q p) (sub3 r p) (sub3 y p) / triple3 (sub3 q p) (sub3 r p) (sub3 d p).
Proof. intros N. unfold L3, n3, ev, tdet. unfold flat4 in N. revert N. generalize (triple3 (sub3 q p) (sub3 r p) (sub3 d p)). intros k N. p3 p; p3 q; p3 r; p3 y. cbn. field. exact N. Qed.
Lemma glued p q r d d' : ~ flat4 p q r d -> ~ flat4 p q r d' ->
  triple3 (sub3 q p) (sub3 r p) (sub3 d p) * triple3 (sub3 q p) (sub3 r p) (sub3 d' p) < 0 -> face_to_face [[p; q; r; d]; [p; q; r; d']].
Proof.
  intros N N' Op.
  assert (Neg : ev (L3 p q r d) d' < 0).
  { rewrite L3_triple by exact N. unfold flat4 in N. set (a := triple3 (sub3 q p) (sub3 r p) (sub3 d p)) in *. set (b := triple3 (sub3 q p) (sub3 r p) (sub3 d' p)) in *.
    replace (b / a) with (a * b / (a * a)) by (field; exact N). assert (0 < a * a) by (destruct (Rtotal_order a 0) as [?|[?|?]]; [|contradiction|]; nra).
    unfold Rdiv. assert (0 < / (a * a)) by (apply Rinv_0_lt_compat; assumption). nra. }
  assert (Meet : forall x, hull [p; q; r; d] x -> hull [p; q; r; d'] x -> hull [p; q; r] x).
  { intros x H H'. apply (hull4 p q r d x N) in H. apply (hull4 p q r d' x N') in H'. apply (hull3_ev p q r d x N). pose proof (L3_scale p q r d d' x N N') as E. repeat split; try tauto.
    assert (ev (L3 p q r d') x * ev (L3 p q r d) d' <= 0) by (assert (0 <= ev (L3 p q r d') x) by tauto; nra). lra. }
  assert (Ns : ~ same_set [p; q; r; d] [p; q; r; d']).
  { intros S. destruct (nonflat_apex p q r d N) as (_ & _ & _ & n1 & n2 & n3). destruct (proj1 (S d)) as [K|[K|[K|[K|[]]]]]; [cbn; auto|congruence..|]. subst d'. destruct (walls_at p q r d N) as (_ & _ & _ & D1 & _). lra. }
  assert (I1 : incl [p; q; r] [p; q; r; d]) by (intros v; cbn; tauto). assert (I2 : incl [p; q; r] [p; q; r; d']) by (intros v; cbn; tauto).
  intros i j t u Hi Hj Nij. destruct i as [|[|i]]; [| |destruct i; discriminate Hi]; (destruct j as [|[|j]]; [| |destruct j; discriminate Hj]); try contradiction; injection Hi as <-; injection Hj as <-.
  - split; [exact Ns|]. intros x H H'. exists [p; q; r]. auto.
  - split; [intros S; apply Ns, same_sym, S|]. intros x H H'. exists [p; q; r]. auto.
Qed.
