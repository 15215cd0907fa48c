(** The intersection of two triangles of one plane is spanned by the vertices of each in
    the other and the points where their edges cross. *)
From Coq Require Import Reals List Lia Lra Psatz Bool Classical.
From Verif Require Import Spec.RVec Spec.Sets Spec.Space Spec.Overlap Spec.DodeSpec Spec.Plane Proofs.NumLemmas Proofs.Polytope Proofs.PlaneLemmas.
Import ListNotations.
Local Open Scope R_scope.

Section Tri.
Variables a b c : R3.
Definition D2 : R := det2 (sub3 b a) (sub3 c a).
Definition perp2 (k : R) (u : R3) : R3 := let '(x, y, _) := u in (k * y, - k * x, 0).
Definition m1 : R3 := perp2 (/ D2) (sub3 c a).
Definition m2 : R3 := perp2 (- / D2) (sub3 b a).
Definition m0 : R3 := scale3 (-1) (add3 m1 m2).
Definition M1 : Polytope.half := (m1, - dot3 m1 a).
Definition M2 : Polytope.half := (m2, - dot3 m2 a).
Definition M0 : Polytope.half := (m0, 1 - dot3 m0 a).
Definition sides : list Polytope.half := [M0; M1; M2].
End Tri.
Definition slab (h : R) : list Polytope.half := [((0, 0, 1), - h); ((0, 0, -1), h)].
Ltac un2 := unfold flat3, ev, sides, M0, M1, M2, m0, m1, m2, perp2, D2 in *; cbn [fst snd] in *.
Ltac flatten H := match type of H with height ?p = ?h => destruct p as [[? ?] ?]; unfold height in H; cbn [snd] in H; subst end.

Lemma sides_bary h a b c p : height a = h -> height b = h -> height c = h -> height p = h -> ~ flat3 a b c ->
  bary [ev (M0 a b c) p; ev (M1 a b c) p; ev (M2 a b c) p] [a; b; c] p.
Proof.
  intros Ha Hb Hc Hp NF. destruct a as [[a0 a1] a2], b as [[b0 b1] b2], c as [[c0 c1] c2], p as [[p0 p1] p2]. unfold height in *; cbn [snd] in *. subst.
  split; [reflexivity|]. split.
  - rewrite !Rsum_cons. change (Rsum []) with 0. un2. cbn in *. field. exact NF.
  - rewrite !comb_cons. cbn [comb]. un2. unfold o3. cbn in *. eq3; field; exact NF.
Qed.
Lemma hull_sides h a b c p : height a = h -> height b = h -> height c = h -> height p = h -> ~ flat3 a b c ->
  (hull [a; b; c] p <-> inP (sides a b c) p).
Proof.
  intros Ha Hb Hc Hp NF. pose proof (sides_bary h a b c p Ha Hb Hc Hp NF) as B. split.
  - intros (ws & B' & P). rewrite (bary3_unique a b c p _ _ NF B' B) in P.
    intros L I. inversion P as [|? ? P0 X]; subst. inversion X as [|? ? P1 X1]; subst. inversion X1; subst.
    destruct I as [<-|[<-|[<-|[]]]]; assumption.
  - intros P. exists [ev (M0 a b c) p; ev (M1 a b c) p; ev (M2 a b c) p]. split; [exact B|].
    repeat (apply Forall_cons; [apply P; unfold sides; cbn; tauto|]); constructor.
Qed.
Lemma m_sum a b c e : dot3 (m0 a b c) e + dot3 (m1 a b c) e + dot3 (m2 a b c) e = 0.
Proof. unfold m0. destruct (m1 a b c) as [[? ?] ?], (m2 a b c) as [[? ?] ?]. p3 e. cbn. ring. Qed.
Lemma dir_split2 h a b c e : height a = h -> height b = h -> height c = h -> height e = 0 -> ~ flat3 a b c ->
  e = add3 (scale3 (dot3 (m1 a b c) e) (sub3 b a)) (scale3 (dot3 (m2 a b c) e) (sub3 c a)).
Proof.
  intros Ha Hb Hc He NF. destruct a as [[a0 a1] a2], b as [[b0 b1] b2], c as [[c0 c1] c2], e as [[p0 p1] p2]. unfold height in *; cbn [snd] in *. subst.
  un2. cbn in *. eq3; field; exact NF.
Qed.
Lemma sides_bounded h a b c : height a = h -> height b = h -> height c = h -> ~ flat3 a b c ->
  forall e, e <> o3 -> height e = 0 -> exists L, In L (sides a b c) /\ dot3 (fst L) e < 0.
Proof.
  intros Ha Hb Hc NF e Ne He. destruct (classic (exists L, In L (sides a b c) /\ dot3 (fst L) e < 0)) as [H|H]; [exact H|]. exfalso. apply Ne.
  assert (G : forall L, In L (sides a b c) -> 0 <= dot3 (fst L) e) by (intros L I; apply Rnot_lt_le; intros X; apply H; eauto).
  assert (G0 := G (M0 a b c) ltac:(cbn; tauto)). assert (G1 := G (M1 a b c) ltac:(cbn; tauto)). assert (G2 := G (M2 a b c) ltac:(cbn; tauto)). cbn [fst M0 M1 M2] in *.
  pose proof (m_sum a b c e) as S. rewrite (dir_split2 h a b c e Ha Hb Hc He NF).
  replace (dot3 (m1 a b c) e) with 0 by lra. replace (dot3 (m2 a b c) e) with 0 by lra.
  destruct (sub3 b a) as [[? ?] ?], (sub3 c a) as [[? ?] ?]. unfold o3. cbn. eq3; ring.
Qed.
Lemma slab_bounded h e : height e <> 0 -> exists L, In L (slab h) /\ dot3 (fst L) e < 0.
Proof.
  destruct e as [[x y] z]. unfold height, slab. cbn [snd]. intros N. destruct (Rlt_dec z 0) as [Z|Z].
  - exists ((0,0,1), - h). split; [cbn; tauto|]. cbn. lra.
  - exists ((0,0,-1), h). split; [cbn; tauto|]. cbn. lra.
Qed.
Lemma slab_height h p : inP (slab h) p <-> height p = h.
Proof.
  destruct p as [[x y] z]. unfold height, slab, inP, ev. cbn [snd]. split.
  - intros H. pose proof (H _ (or_introl eq_refl)) as A. pose proof (H _ (or_intror (or_introl eq_refl))) as B. cbn in A, B. lra.
  - intros -> L [<-|[<-|[]]]; cbn; lra.
Qed.
Lemma slab_active h p e : height p = h -> (forall L, In L (slab h) -> ev L p = 0 -> dot3 (fst L) e = 0) <-> height e = 0.
Proof.
  intros Hp. destruct p as [[x y] z], e as [[u v] w]. unfold height, slab, ev in *. cbn [snd] in *. split.
  - intros H. specialize (H _ (or_introl eq_refl)). cbn in H. rewrite <- H; lra.
  - intros E L [<-|[<-|[]]] _; cbn; rewrite E; ring.
Qed.

(** The sides as lines through the vertices. *)
Lemma side_edge h a b c : height a = h -> height b = h -> height c = h -> ~ flat3 a b c ->
  dot3 (m0 a b c) (sub3 c b) = 0 /\ dot3 (m1 a b c) (sub3 c a) = 0 /\ dot3 (m2 a b c) (sub3 b a) = 0.
Proof.
  intros Ha Hb Hc NF. destruct a as [[a0 a1] a2], b as [[b0 b1] b2], c as [[c0 c1] c2]. unfold height in *; cbn [snd] in *. subst.
  un2. cbn in *. repeat split; field; exact NF.
Qed.
Lemma side_det h a b c e : height a = h -> height b = h -> height c = h -> ~ flat3 a b c ->
  dot3 (m0 a b c) e = - det2 e (sub3 c b) / D2 a b c /\ dot3 (m1 a b c) e = det2 e (sub3 c a) / D2 a b c /\ dot3 (m2 a b c) e = - det2 e (sub3 b a) / D2 a b c.
Proof.
  intros Ha Hb Hc NF. destruct a as [[a0 a1] a2], b as [[b0 b1] b2], c as [[c0 c1] c2], e as [[p0 p1] p2]. unfold height in *; cbn [snd] in *. subst.
  un2. cbn in *. repeat split; field; exact NF.
Qed.

Definition crossing2 (t1 t2 : list R3) (p : R3) : Prop :=
  exists u v x y, subseq [u; v] t1 /\ subseq [x; y] t2 /\ det2 (sub3 v u) (sub3 y x) <> 0 /\ hull [u; v] p /\ hull [x; y] p.
Lemma crossing2_sym t1 t2 p : crossing2 t1 t2 p -> crossing2 t2 t1 p.
Proof.
  intros (u & v & x & y & S1 & S2 & D & H1 & H2). exists x, y, u, v. repeat (split; [assumption|]). split; [|split; assumption].
  intros E. apply D. clear - E. p3 u; p3 v; p3 x; p3 y. cbn in *. lra.
Qed.

Ltac sub3l := solve [repeat constructor | apply sub_skip; repeat constructor | apply sub_take, sub_skip; repeat constructor].
Lemma ev_sum2 a b c p : ev (M0 a b c) p + ev (M1 a b c) p + ev (M2 a b c) p = 1.
Proof. pose proof (m_sum a b c p) as H. pose proof (m_sum a b c a) as K. unfold ev, M0, M1, M2. cbn [fst snd]. lra. Qed.
Lemma ev_point2 h a b c p : height a = h -> height b = h -> height c = h -> height p = h -> ~ flat3 a b c ->
  p = add3 (scale3 (ev (M0 a b c) p) a) (add3 (scale3 (ev (M1 a b c) p) b) (scale3 (ev (M2 a b c) p) c)).
Proof.
  intros Ha Hb Hc Hp NF. destruct (sides_bary h a b c p Ha Hb Hc Hp NF) as (_ & _ & E). rewrite E at 1. cbn [comb].
  generalize (ev (M0 a b c) p) (ev (M1 a b c) p) (ev (M2 a b c) p). intros. p3 a; p3 b; p3 c. unfold o3. cbn. eq3; ring.
Qed.
Lemma hull2 x y u v p : x + y = 1 -> 0 <= x -> 0 <= y -> p = add3 (scale3 x u) (scale3 y v) -> hull [u; v] p.
Proof.
  intros Sx X Y Ep. exists [x; y]. split; [|repeat (apply Forall_cons; [assumption|]); constructor].
  split; [reflexivity|]. split; [unfold Rsum; cbn [fold_right]; lra|]. rewrite Ep. p3 u. p3 v. unfold o3. cbn. eq3; ring.
Qed.

Lemma wall_side h a b c p L : height a = h -> height b = h -> height c = h -> height p = h -> ~ flat3 a b c ->
  inP (sides a b c) p -> In L (sides a b c) -> ev L p = 0 ->
  exists x y, subseq [x; y] [a; b; c] /\ hull [x; y] p /\ forall e, dot3 (fst L) e <> 0 -> det2 e (sub3 y x) <> 0.
Proof.
  intros Ha Hb Hc Hp NF P I Z. pose proof (ev_sum2 a b c p) as S. pose proof (ev_point2 h a b c p Ha Hb Hc Hp NF) as E.
  assert (P0 := P (M0 a b c) ltac:(cbn; tauto)). assert (P1 := P (M1 a b c) ltac:(cbn; tauto)). assert (P2 := P (M2 a b c) ltac:(cbn; tauto)).
  pose proof (fun e => side_det h a b c e Ha Hb Hc NF) as W.
  destruct I as [<-|[<-|[<-|[]]]]; rewrite Z in *.
  - exists b, c. split; [sub3l|]. split.
    + apply (hull2 (ev (M1 a b c) p) (ev (M2 a b c) p)); try assumption; [lra|]. rewrite E at 1. clear E. generalize (ev (M1 a b c) p) (ev (M2 a b c) p). intros. p3 a; p3 b; p3 c. cbn. eq3; ring.
    + intros e He T. apply He. destruct (W e) as (W0 & _). cbn [fst M0]. rewrite W0, T. unfold Rdiv. ring.
  - exists a, c. split; [sub3l|]. split.
    + apply (hull2 (ev (M0 a b c) p) (ev (M2 a b c) p)); try assumption; [lra|]. rewrite E at 1. clear E. generalize (ev (M0 a b c) p) (ev (M2 a b c) p). intros. p3 a; p3 b; p3 c. cbn. eq3; ring.
    + intros e He T. apply He. destruct (W e) as (_ & W0 & _). cbn [fst M1]. rewrite W0, T. unfold Rdiv. ring.
  - exists a, b. split; [sub3l|]. split.
    + apply (hull2 (ev (M0 a b c) p) (ev (M1 a b c) p)); try assumption; [lra|]. rewrite E at 1. clear E. generalize (ev (M0 a b c) p) (ev (M1 a b c) p). intros. p3 a; p3 b; p3 c. cbn. eq3; ring.
    + intros e He T. apply He. destruct (W e) as (_ & _ & W0). cbn [fst M2]. rewrite W0, T. unfold Rdiv. ring.
Qed.

Lemma nonflat_distinct2 a b c : ~ flat3 a b c -> forall u v, subseq [u; v] [a; b; c] -> sub3 v u <> o3.
Proof.
  intros NF u v H E. apply NF. assert (Euv : v = u).
  { p3 u. p3 v. unfold o3 in E. cbn in E. injection E as A B C. eq3; lra. }
  subst v. clear E NF. unfold flat3.
  assert (K : (a = u /\ b = u) \/ (a = u /\ c = u) \/ (b = u /\ c = u)).
  { apply subseq_pair in H as [[E I]|H]; [destruct I as [I|[I|[]]]; auto 10|].
    apply subseq_pair in H as [[E I]|H]; [destruct I as [I|[]]; auto 10|].
    apply subseq_pair in H as [[E []]|H]. inversion H. }
  clear H. destruct K as [[-> ->]|[[-> ->]|[-> ->]]]; repeat match goal with x : R3 |- _ => p3 x end; cbn; ring.
Qed.

Lemma trichotomy2 h a b c p : height a = h -> height b = h -> height c = h -> height p = h -> ~ flat3 a b c -> inP (sides a b c) p ->
  In p [a; b; c] \/
  (exists u v, subseq [u; v] [a; b; c] /\ hull [u; v] p /\ forall L, In L (sides a b c) -> ev L p = 0 -> dot3 (fst L) (sub3 v u) = 0) \/
  (forall L, In L (sides a b c) -> ev L p <> 0).
Proof.
  intros Ha Hb Hc Hp NF P. pose proof (ev_sum2 a b c p) as S. pose proof (ev_point2 h a b c p Ha Hb Hc Hp NF) as E.
  assert (P0 := P (M0 a b c) ltac:(cbn; tauto)). assert (P1 := P (M1 a b c) ltac:(cbn; tauto)). assert (P2 := P (M2 a b c) ltac:(cbn; tauto)).
  pose proof (side_edge h a b c Ha Hb Hc NF) as W.
  remember (ev (M0 a b c) p) as e0 eqn:E0. remember (ev (M1 a b c) p) as e1 eqn:E1. remember (ev (M2 a b c) p) as e2 eqn:E2.
  destruct (Req_EM_T e0 0) as [Z0|Z0], (Req_EM_T e1 0) as [Z1|Z1], (Req_EM_T e2 0) as [Z2|Z2].
  - exfalso; lra.
  - left. assert (e2 = 1) as -> by lra. rewrite Z0, Z1 in E. right; right; left. rewrite E. p3 a; p3 b; p3 c. cbn. eq3; ring.
  - left. assert (e1 = 1) as -> by lra. rewrite Z0, Z2 in E. right; left. rewrite E. p3 a; p3 b; p3 c. cbn. eq3; ring.
  - right; left. exists b, c. split; [sub3l|]. split; [apply (hull2 e1 e2); [lra|lra|lra|]; rewrite E, Z0; p3 a; p3 b; p3 c; cbn; eq3; ring|].
    intros L [<-|[<-|[<-|[]]]] ZL; cbn [fst M0 M1 M2]; try tauto; exfalso; congruence.
  - left. assert (e0 = 1) as -> by lra. rewrite Z1, Z2 in E. left. rewrite E. p3 a; p3 b; p3 c. cbn. eq3; ring.
  - right; left. exists a, c. split; [sub3l|]. split; [apply (hull2 e0 e2); [lra|lra|lra|]; rewrite E, Z1; p3 a; p3 b; p3 c; cbn; eq3; ring|].
    intros L [<-|[<-|[<-|[]]]] ZL; cbn [fst M0 M1 M2]; try tauto; exfalso; congruence.
  - right; left. exists a, b. split; [sub3l|]. split; [apply (hull2 e0 e1); [lra|lra|lra|]; rewrite E, Z2; p3 a; p3 b; p3 c; cbn; eq3; ring|].
    intros L [<-|[<-|[<-|[]]]] ZL; cbn [fst M0 M1 M2]; try tauto; exfalso; congruence.
  - right; right. intros L [<-|[<-|[<-|[]]]]; congruence.
Qed.

Definition corner2 (t1 t2 : list R3) (p : R3) : Prop := (In p t1 /\ hull t2 p) \/ (In p t2 /\ hull t1 p) \/ crossing2 t1 t2 p.

Definition plan (h : R) (ps : list R3) : Prop := Forall (fun p => height p = h) ps.
Lemma plan3 h a b c : plan h [a; b; c] -> height a = h /\ height b = h /\ height c = h.
Proof. intros H. inversion H as [|? ? A X]; subst. inversion X as [|? ? B Y]; subst. inversion Y; subst. auto. Qed.
Lemma hull_height h ps p : plan h ps -> hull ps p -> height p = h.
Proof. intros H (ws & B & _). exact (bary_height h ws ps p B H). Qed.
Lemma sub_height h u v : height u = h -> height v = h -> height (sub3 v u) = 0.
Proof. p3 u; p3 v. unfold height. cbn. lra. Qed.

Lemma extreme_corner2 h a b c a' b' c' p : plan h [a; b; c] -> plan h [a'; b'; c'] -> ~ flat3 a b c -> ~ flat3 a' b' c' ->
  extreme (sides a b c ++ sides a' b' c' ++ slab h) p -> corner2 [a; b; c] [a'; b'; c'] p.
Proof.
  intros Q Q' NF NF' (P & X). destruct (plan3 _ _ _ _ Q) as (Ha & Hb & Hc). destruct (plan3 _ _ _ _ Q') as (Ha' & Hb' & Hc').
  assert (P1 : inP (sides a b c) p) by (intros L I; apply P, in_or_app; left; exact I).
  assert (P2 : inP (sides a' b' c') p) by (intros L I; apply P, in_or_app; right; apply in_or_app; left; exact I).
  assert (P3 : inP (slab h) p) by (intros L I; apply P, in_or_app; right; apply in_or_app; right; exact I).
  assert (Hp : height p = h) by (apply slab_height; exact P3).
  assert (X' : forall e, height e = 0 -> (forall L, In L (sides a b c) \/ In L (sides a' b' c') -> ev L p = 0 -> dot3 (fst L) e = 0) -> e = o3).
  { intros e He H. apply X. intros L I. apply in_app_or in I as [I|I]; [auto|]. apply in_app_or in I as [I|I]; [auto|].
    exact (proj2 (slab_active h p e Hp) He L I). }
  destruct (trichotomy2 h a b c p Ha Hb Hc Hp NF P1) as [I|[(u & v & S & H & Hn)|N1]].
  - left. split; [exact I|]. apply (hull_sides h); assumption.
  - assert (Huv : height (sub3 v u) = 0).
    { unfold plan in Q. rewrite Forall_forall in Q. apply (sub_height h); apply Q, (subseq_in _ _ S); cbn; tauto. }
    destruct (classic (exists L, In L (sides a' b' c') /\ ev L p = 0 /\ dot3 (fst L) (sub3 v u) <> 0)) as [(L & I & Z & D)|C].
    + destruct (wall_side h a' b' c' p L Ha' Hb' Hc' Hp NF' P2 I Z) as (x & y & Sf & Hf & T).
      right; right. exists u, v, x, y. split; [exact S|]. split; [exact Sf|]. split; [apply T; exact D|]. split; assumption.
    + exfalso. apply (nonflat_distinct2 a b c NF u v S). apply X'; [exact Huv|]. intros L [I|I] Z; [apply Hn; assumption|].
      destruct (classic (dot3 (fst L) (sub3 v u) = 0)) as [E|E]; [exact E|]. exfalso. apply C. exists L. tauto.
  - destruct (trichotomy2 h a' b' c' p Ha' Hb' Hc' Hp NF' P2) as [I|[(u & v & S & H & Hn)|N2]].
    + right; left. split; [exact I|]. apply (hull_sides h); assumption.
    + exfalso. apply (nonflat_distinct2 a' b' c' NF' u v S). apply X'.
      * unfold plan in Q'. rewrite Forall_forall in Q'. apply (sub_height h); apply Q', (subseq_in _ _ S); cbn; tauto.
      * intros L [I|I] Z; [exfalso; exact (N1 L I Z)|apply Hn; assumption].
    + exfalso. assert (E : (1, 0, 0) = o3); [|unfold o3 in E; injection E; lra]. apply X'; [reflexivity|].
      intros L [I|I] Z; exfalso; [exact (N1 L I Z)|exact (N2 L I Z)].
Qed.

Theorem overlap_span2 h a b c a' b' c' p : plan h [a; b; c] -> plan h [a'; b'; c'] -> ~ flat3 a b c -> ~ flat3 a' b' c' ->
  hull [a; b; c] p -> hull [a'; b'; c'] p -> exists ps, Forall (corner2 [a; b; c] [a'; b'; c']) ps /\ hull ps p.
Proof.
  intros Q Q' NF NF' H H'. destruct (plan3 _ _ _ _ Q) as (Ha & Hb & Hc). destruct (plan3 _ _ _ _ Q') as (Ha' & Hb' & Hc').
  assert (Hp := hull_height h _ p Q H).
  destruct (vertices_span (sides a b c ++ sides a' b' c' ++ slab h)) with (p := p) as (ps & Fp & Hps).
  - intros e Ne. destruct (Req_EM_T (height e) 0) as [He|He].
    + destruct (sides_bounded h a b c Ha Hb Hc NF e Ne He) as (L & I & Z). exists L. split; [apply in_or_app; left; exact I|exact Z].
    + destruct (slab_bounded h e He) as (L & I & Z). exists L. split; [apply in_or_app; right; apply in_or_app; right; exact I|exact Z].
  - apply (hull_sides h a b c p Ha Hb Hc Hp NF) in H. apply (hull_sides h a' b' c' p Ha' Hb' Hc' Hp NF') in H'.
    intros L I. apply in_app_or in I as [I|I]; [auto|]. apply in_app_or in I as [I|I]; [auto|]. apply slab_height in Hp. auto.
  - exists ps. split; [|exact Hps]. eapply Forall_impl; [|exact Fp]. intros q Hq. apply (extreme_corner2 h); assumption.
Qed.

(** From a vertex inside to a vertex outside there is a crossing. *)
Lemma leaves_crossing2 h a b c a' b' c' u v : plan h [a; b; c] -> plan h [a'; b'; c'] -> ~ flat3 a' b' c' ->
  In u [a; b; c] -> In v [a; b; c] -> hull [a'; b'; c'] u -> ~ hull [a'; b'; c'] v -> exists q, crossing2 [a; b; c] [a'; b'; c'] q.
Proof.
  intros Q Q' NF Iu Iv Hu Hv. destruct (plan3 _ _ _ _ Q') as (Ha' & Hb' & Hc').
  assert (Hhu : height u = h) by (unfold plan in Q; rewrite Forall_forall in Q; auto). assert (Hhv : height v = h) by (unfold plan in Q; rewrite Forall_forall in Q; auto).
  assert (Hu' := Hu). apply (hull_sides h a' b' c' u Ha' Hb' Hc' Hhu NF) in Hu'.
  assert (Nv : exists L, In L (sides a' b' c') /\ ev L v < 0).
  { destruct (classic (exists L, In L (sides a' b' c') /\ ev L v < 0)) as [X|X]; [exact X|]. exfalso. apply Hv, (hull_sides h); try assumption.
    intros L I. apply Rnot_lt_le. intros C. apply X. eauto. }
  assert (Euv : forall L, ev L v = ev L u + dot3 (fst L) (sub3 v u)).
  { intros L. rewrite <- (Rmult_1_l (dot3 (fst L) _)), <- ev_along. f_equal. unfold along. p3 u. p3 v. cbn. eq3; ring. }
  destruct Nv as (K1 & I1 & V1). assert (D1 : dot3 (fst K1) (sub3 v u) < 0) by (pose proof (Hu' K1 I1); rewrite Euv in V1; lra).
  destruct (move (sides a' b' c') u (sub3 v u) Hu') as (t & L & T0 & I & D & Z & Pq & M); [eauto|].
  assert (T1 : t <= 1) by (specialize (M K1 I1 D1); rewrite Euv in V1; nra).
  set (q := along u t (sub3 v u)) in *. exists q.
  assert (Hhq : height q = h) by (unfold q, along; clear - Hhu Hhv; p3 u; p3 v; unfold height in *; cbn in *; subst; ring).
  destruct (wall_side h a' b' c' q L Ha' Hb' Hc' Hhq NF Pq I Z) as (x & y & Sf & Hf & T).
  assert (Hq : hull [u; v] q) by (apply (hull2 (1 - t) t); try lra; unfold q, along; p3 u; p3 v; cbn; eq3; ring).
  assert (Hq' : hull [v; u] q) by (apply (hull2 t (1 - t)); try lra; unfold q, along; p3 u; p3 v; cbn; eq3; ring).
  assert (TR : det2 (sub3 v u) (sub3 y x) <> 0) by (apply T; lra).
  assert (TR' : det2 (sub3 u v) (sub3 y x) <> 0) by (intros E; apply TR; clear - E; p3 u; p3 v; p3 x; p3 y; cbn in *; lra).
  assert (S : u = v \/ subseq [u; v] [a; b; c] \/ subseq [v; u] [a; b; c]).
  { destruct Iu as [<-|[<-|[<-|[]]]]; destruct Iv as [<-|[<-|[<-|[]]]]; first [left; reflexivity | right; left; sub3l | right; right; sub3l]. }
  destruct S as [->|[S|S]]; [contradiction| |].
  - exists u, v, x, y. auto.
  - exists v, u, x, y. auto.
Qed.

Theorem overlap_cases2 h a b c a' b' c' p : plan h [a; b; c] -> plan h [a'; b'; c'] -> ~ flat3 a b c -> ~ flat3 a' b' c' ->
  hull [a; b; c] p -> hull [a'; b'; c'] p ->
  (forall v, In v [a; b; c] -> hull [a'; b'; c'] v) \/ (forall v, In v [a'; b'; c'] -> hull [a; b; c] v) \/ (exists q, crossing2 [a; b; c] [a'; b'; c'] q).
Proof.
  intros Q Q' NF NF' H H'. destruct (overlap_span2 h a b c a' b' c' p Q Q' NF NF' H H') as (ps & Fp & Hp).
  destruct ps as [|q ps]; [destruct Hp as (ws & (Lw & Sw & _) & _); destruct ws; [unfold Rsum in Sw; cbn in Sw; lra|discriminate]|].
  inversion Fp as [|? ? Z _]; subst. destruct Z as [[I Hq]|[[I Hq]|C]]; [| |right; right; exists q; exact C].
  - destruct (classic (forall v, In v [a; b; c] -> hull [a'; b'; c'] v)) as [A|A]; [tauto|].
    apply not_all_ex_not in A as (v & A). apply imply_to_and in A as (Iv & Nv).
    right; right. exact (leaves_crossing2 h a b c a' b' c' q v Q Q' NF' I Iv Hq Nv).
  - destruct (classic (forall v, In v [a'; b'; c'] -> hull [a; b; c] v)) as [A|A]; [tauto|].
    apply not_all_ex_not in A as (v & A). apply imply_to_and in A as (Iv & Nv).
    right; right. destruct (leaves_crossing2 h a' b' c' a b c q v Q' Q NF I Iv Hq Nv) as (q' & C). exists q'. apply crossing2_sym. exact C.
Qed.

(** Two non-parallel lines have one common point. *)
Lemma lines_meet_once u v x y p q : det2 (sub3 v u) (sub3 y x) <> 0 ->
  hull [u; v] p -> hull [x; y] p -> hull [u; v] q -> hull [x; y] q -> p = q.
Proof.
  intros D (ws & (L1 & S1 & E1) & _) (us & (L2 & S2 & E2) & _) (ws' & (L3 & S3 & E3) & _) (us' & (L4 & S4 & E4) & _).
  destruct ws as [|w0 [|w1 [|]]]; try discriminate L1. destruct us as [|u0 [|u1 [|]]]; try discriminate L2.
  destruct ws' as [|w0' [|w1' [|]]]; try discriminate L3. destruct us' as [|u0' [|u1' [|]]]; try discriminate L4.
  unfold Rsum in *. cbn [fold_right] in *. assert (w0 = 1 - w1) by lra. assert (u0 = 1 - u1) by lra. assert (w0' = 1 - w1') by lra. assert (u0' = 1 - u1') by lra. subst w0 u0 w0' u0'.
  assert (W : w1 = w1').
  { apply (Rmult_eq_reg_r (det2 (sub3 v u) (sub3 y x))); [|exact D].
    assert (A : forall a b, comb [1 - a; a] [u; v] = comb [1 - b; b] [x; y] -> a * det2 (sub3 v u) (sub3 y x) = det2 (sub3 x u) (sub3 y x)).
    { clear. intros a b E. destruct u as [[u0 u1] u2], v as [[v0 v1] v2], x as [[x0 x1] x2], y as [[y0 y1] y2]. unfold o3 in E. cbn in *. injection E as A B _.
      assert (A' : a * (v0 - u0) = (x0 - u0) + b * (y0 - x0)) by lra. assert (B' : a * (v1 - u1) = (x1 - u1) + b * (y1 - x1)) by lra.
      transitivity ((a * (v0 - u0)) * (y1 - x1) - (a * (v1 - u1)) * (y0 - x0)); [ring|]. rewrite A', B'. ring. }
    rewrite (A w1 u1), (A w1' u1'); congruence. }
  subst. reflexivity.
Qed.
