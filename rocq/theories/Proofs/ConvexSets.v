(** Convex unions of tetrahedra: half-space description, sliding along faces, extreme
    points of the common part of two of them, connectedness of the surface. *)
From Coq Require Import Reals List ZArith Lia Lra Psatz Bool Classical.
From Verif Require Import Spec.Value Spec.RVec Spec.Sets Spec.Space Spec.Solid
  Proofs.NumLemmas Proofs.Polytope Proofs.Frontier Proofs.Frontier3.
Import ListNotations.
Local Open Scope R_scope.

Lemma pick_sub {A} (l : list A) (Q : A -> Prop) : exists m, forall x, In x m <-> In x l /\ Q x.
Proof.
  induction l as [|a l (m & H)]; [exists []; cbn; tauto|]. destruct (classic (Q a)) as [Y|N].
  - exists (a :: m). intros x. cbn. rewrite H. split; [intros [<-|K]; tauto|intros [[->|K] K']; tauto].
  - exists m. intros x. cbn. rewrite H. split; [tauto|intros [[->|K] K']; [contradiction|tauto]].
Qed.
Lemma mix_line k a b : mix k a b = line k b a.
Proof. unfold mix, line. p3 a; p3 b. cbn. eq3; ring. Qed.
Lemma line_along s x z : line s x z = along x s (sub3 z x).
Proof. reflexivity. Qed.
Lemma along_line s x d : along x s d = line s x (add3 x d).
Proof. unfold along, line. p3 x; p3 d. cbn. eq3; ring. Qed.
Lemma sub3_o a b : sub3 a b = o3 -> a = b.
Proof. p3 a; p3 b. cbn. unfold o3. intros [= A B C]. eq3; lra. Qed.
Lemma along_step x d (Q : R3 -> Prop) : nb3 x Q -> exists e, 0 < e /\ forall s, Rabs s < e -> Q (along x s d).
Proof. intros H. destruct (nb3_step x (add3 x d) Q H) as (e & P & K). exists e. split; [exact P|]. intros s Hs. rewrite along_line. auto. Qed.
Lemma hull_bound n (l : list R3) M : (forall v, In v l -> dot3 n v <= M) -> forall x, hull l x -> dot3 n x <= M.
Proof.
  intros H x Hx. apply (convex_hull (fun x => dot3 n x <= M) l x); [|rewrite Forall_forall; exact H|exact Hx].
  intros a b k A B Hk. replace (dot3 n (mix k a b)) with (k * dot3 n a + (1 - k) * dot3 n b) by (unfold mix; p3 n; p3 a; p3 b; cbn; ring). nra.
Qed.
Lemma max_bound n (l : list R3) : exists M, forall v, In v l -> dot3 n v <= M.
Proof.
  induction l as [|a l (M & H)]; [exists 0; intros v []|]. exists (Rmax (dot3 n a) M). intros v [<-|I]; [apply Rmax_l|].
  eapply Rle_trans; [apply H, I|apply Rmax_r].
Qed.
Lemma L3_normal p q r d : ~ flat4 p q r d -> fst (L3 p q r d) <> o3.
Proof.
  intros N E. destruct (walls_at p q r d N) as (A & _ & _ & B & _). unfold ev in A, B. rewrite E in A, B.
  assert (Z : forall y, dot3 o3 y = 0) by (intros y; p3 y; cbn; ring). rewrite Z in A, B. lra.
Qed.
Lemma L3_dot p q r d e : ~ flat4 p q r d -> dot3 (fst (L3 p q r d)) e = triple3 e (sub3 q p) (sub3 r p) / tdet p q r d.
Proof. intros N. apply wall_triple, N. Qed.
Lemma triple_zero p q r d e : ~ flat4 p q r d -> (triple3 e (sub3 q p) (sub3 r p) = 0 <-> dot3 (fst (L3 p q r d)) e = 0).
Proof.
  intros N. rewrite L3_dot by exact N. unfold flat4 in N. fold (tdet p q r d) in N. split; [intros ->; unfold Rdiv; ring|].
  intros H. apply (f_equal (fun x => x * tdet p q r d)) in H. unfold Rdiv in H. rewrite Rmult_assoc, Rinv_l, Rmult_1_r, Rmult_0_l in H by exact N. exact H.
Qed.

Section OneConvex.
Variable ts : list (list R3).
Hypothesis T : Forall tetr ts.
Hypothesis F2F : face_to_face ts.

Lemma lone3_perm p q r p' q' r' : lone3 ts p q r -> incl [p'; q'; r'] [p; q; r] -> p' <> q' -> p' <> r' -> q' <> r' -> lone3 ts p' q' r'.
Proof.
  intros (i & t & Hi & Ip & Iq & Ir & N1 & N2 & N3 & Lone) I A B C.
  assert (K : forall x, In x [p; q; r] -> In x [p'; q'; r']).
  { assert (In p' [p;q;r] /\ In q' [p;q;r] /\ In r' [p;q;r]) as (Ea & Eb & Ec) by (repeat split; apply I; cbn; tauto). cbn in Ea, Eb, Ec.
    intros x Hx. destruct Hx as [<-|[<-|[<-|[]]]]; cbn;
    destruct Ea as [<-|[<-|[<-|[]]]], Eb as [<-|[<-|[<-|[]]]], Ec as [<-|[<-|[<-|[]]]]; try congruence; tauto. }
  assert (M : forall u x, In p u -> In q u -> In r u -> In x [p; q; r] -> In x u) by (intros u x A' B' C' [<-|[<-|[<-|[]]]]; assumption).
  exists i, t. repeat split; try assumption; try (apply (M t); auto; apply I; cbn; tauto).
  intros j u Hj A' B' C'. apply (Lone j u Hj).
  - destruct (K p) as [<-|[<-|[<-|[]]]]; cbn; auto.
  - destruct (K q) as [<-|[<-|[<-|[]]]]; cbn; auto.
  - destruct (K r) as [<-|[<-|[<-|[]]]]; cbn; auto.
Qed.

(** Lone faces that do not contain x do not meet a neighbourhood of x. *)
Lemma nb3_far_lone x : nb3 x (fun y => forall p q r, lone3 ts p q r -> hull [p; q; r] y -> hull [p; q; r] x).
Proof.
  apply (nb3_imp x (fun y => forall p, In p (concat ts) -> forall q, In q (concat ts) -> forall r, In r (concat ts) -> lone3 ts p q r -> hull [p; q; r] y -> hull [p; q; r] x)).
  { intros y K p q r L. destruct (lone3_verts ts p q r L) as (A & B & C). auto. }
  apply nb3_all. intros p _. apply nb3_all. intros q _. apply nb3_all. intros r _.
  destruct (classic (lone3 ts p q r)) as [L|L]; [|exists 1; split; [lra|]; intros; contradiction].
  destruct (classic (hull [p; q; r] x)) as [H|H]; [exists 1; split; [lra|]; auto|].
  destruct (lone3_facts ts T p q r L) as (t & d & _ & N & _). apply (nb3_imp x (fun y => ~ hull [p; q; r] y)); [intros; contradiction|]. apply (nb3_out3 p q r d); auto.
Qed.
Lemma lone_planes : exists Ls : list half, (forall L, In L Ls -> fst L <> o3) /\
  forall p q r, lone3 ts p q r -> exists L d, In L Ls /\ ~ flat4 p q r d /\ L = L3 p q r d.
Proof.
  destruct (pick_sub (map (fun '(p, q, (r, d)) => L3 p q r d) (list_prod (list_prod (concat ts) (concat ts)) (list_prod (concat ts) (concat ts)))) (fun L => fst L <> o3)) as (Ls & H).
  exists Ls. split; [intros L I; apply H in I; tauto|]. intros p q r L. destruct (lone3_facts ts T p q r L) as (t & d & It & N & St).
  exists (L3 p q r d), d. split; [|auto]. apply H. split; [|apply L3_normal, N]. apply in_map_iff. exists (p, q, (r, d)). split; [reflexivity|].
  destruct (lone3_verts ts p q r L) as (A & B & C). repeat (apply in_prod; try assumption). apply in_concat. exists t. split; [exact It|]. apply St. cbn. tauto.
Qed.
(** A point of the region can move a little in every direction parallel to the lone faces
    that contain it. *)
Lemma slide x e : reg3 ts x -> (forall p q r, lone3 ts p q r -> hull [p; q; r] x -> triple3 e (sub3 q p) (sub3 r p) = 0) ->
  exists k, 0 < k /\ forall s, Rabs s < k -> reg3 ts (along x s e).
Proof.
  intros (t & Ht & Hx) Par. destruct (nb3_far_lone x) as (k & Pk & Far). destruct (along_step x e _ (nb3_cube k x Pk)) as (m & Pm & Hm).
  exists m. split; [exact Pm|]. intros s Hs. apply NNPP. intros Nz. set (z := along x s e) in *. assert (Cz : cube k x z) by (apply Hm, Hs).
  destruct lone_planes as (Ls & Nn & Pl). destruct (inside_near3 ts T t x Ht Hx k Pk) as (y0 & Hy0).
  destruct (generic Ls y0 _ Nn Hy0) as (y & Hy & Off). apply nb3_point in Hy as (Hy & Cy).
  assert (Ry : reg3 ts y) by (exists t; auto). destruct (walk3 ts T y z Ry Nz) as (w & Hw & Rw & NNw).
  assert (Ex : exists p q r, lone3 ts p q r /\ hull [p; q; r] (line w y z)).
  { apply NNPP. intros K. apply NNw. apply (inner_point3 ts T F2F _ Rw). intros p q r L H. apply K. exists p, q, r. auto. }
  destruct Ex as (p & q & r & L & Hl). assert (Cw : cube k x (line w y z)) by (apply cube_line; [lra|assumption|assumption]).
  pose proof (Far _ Cw p q r L Hl) as Hpx. destruct (Pl p q r L) as (W & d & IW & N & ->). apply (Off _ IW).
  apply (hull3_ev p q r d _ N) in Hl as (_ & _ & _ & E1). pose proof (proj1 (hull3_ev p q r d x N) Hpx) as (_ & _ & _ & E2).
  pose proof (Par p q r L Hpx) as E3. apply (proj1 (triple_zero p q r d e N)) in E3.
  assert (E4 : ev (L3 p q r d) z = 0) by (unfold z; rewrite ev_along, E2, E3; ring).
  rewrite ev_line, E4 in E1. apply (Rmult_eq_reg_l (1 - w)); [|lra]. lra.
Qed.

(** Where a point of the region can lie. *)
Lemma place x : reg3 ts x -> nb3 x (reg3 ts) \/ (exists p q r, lone3 ts p q r /\ relint p q r x) \/
  (exists q r, lone3 ts x q r) \/ (exists p q r s, lone3 ts p q r /\ 0 < s < 1 /\ x = line s p q).
Proof.
  intros R. destruct (classic (exists p q r, lone3 ts p q r /\ hull [p; q; r] x)) as [(p & q & r & L & H)|K].
  2: { left. apply (inner_point3 ts T F2F x R). intros p q r L H. apply K. exists p, q, r. auto. }
  right. assert (D : p <> q /\ p <> r /\ q <> r) by (destruct L as (i & t & _ & _ & _ & _ & N1 & N2 & N3 & _); auto). destruct D as (N1 & N2 & N3).
  destruct H as (ws & (Len & Sum & Ex) & Pos). destruct ws as [|u [|v [|w [|? ?]]]]; try discriminate Len. clear Len.
  inversion Pos as [|? ? Pu Pos']; subst. inversion Pos' as [|? ? Pv Pos'']; subst. inversion Pos'' as [|? ? Pw _]; subst. cbn in Sum.
  assert (Ex : comb [u; v; w] [p; q; r] = add3 (scale3 u p) (add3 (scale3 v q) (scale3 w r))) by (p3 p; p3 q; p3 r; cbn; eq3; ring). rewrite Ex. clear Ex Pos Pos' Pos''.
  assert (Ln : forall a b c p q r : R3, lone3 ts p q r -> incl [a; b; c] [p; q; r] -> a <> b -> a <> c -> b <> c -> lone3 ts a b c) by (intros; eapply lone3_perm; eauto).
  assert (In3 : forall a b c : R3, In a [p; q; r] -> In b [p; q; r] -> In c [p; q; r] -> incl [a; b; c] [p; q; r]) by (intros a b c ? ? ? z [<-|[<-|[<-|[]]]]; assumption).
  destruct Pu as [Pu|<-], Pv as [Pv|<-], Pw as [Pw|<-].
  - left. exists p, q, r. split; [exact L|]. exists u, v, w. repeat split; auto. lra.
  - right; right. exists p, q, r, v. split; [exact L|]. split; [lra|]. replace u with (1 - v) by lra. unfold line. p3 p; p3 q; p3 r. cbn. eq3; ring.
  - right; right. exists p, r, q, w. split; [apply (Ln _ _ _ p q r L); [apply In3; cbn; tauto|auto..]|]. split; [lra|]. replace u with (1 - w) by lra. unfold line. p3 p; p3 q; p3 r. cbn. eq3; ring.
  - right; left. exists q, r. replace u with 1 by lra. replace (add3 (scale3 1 p) (add3 (scale3 0 q) (scale3 0 r))) with p by (p3 p; p3 q; p3 r; cbn; eq3; ring). exact L.
  - right; right. exists q, r, p, w. split; [apply (Ln _ _ _ p q r L); [apply In3; cbn; tauto|auto..]|]. split; [lra|]. replace v with (1 - w) by lra. unfold line. p3 p; p3 q; p3 r. cbn. eq3; ring.
  - right; left. exists p, r. replace v with 1 by lra. replace (add3 (scale3 0 p) (add3 (scale3 1 q) (scale3 0 r))) with q by (p3 p; p3 q; p3 r; cbn; eq3; ring). apply (Ln _ _ _ p q r L); [apply In3; cbn; tauto|auto..].
  - right; left. exists p, q. replace w with 1 by lra. replace (add3 (scale3 0 p) (add3 (scale3 0 q) (scale3 1 r))) with r by (p3 p; p3 q; p3 r; cbn; eq3; ring). apply (Ln _ _ _ p q r L); [apply In3; cbn; tauto|auto..].
  - lra.
Qed.
(** Inner points of the region and of a face can move in directions given by one normal. *)
Lemma free_slide x : nb3 x (reg3 ts) \/ (exists p q r, lone3 ts p q r /\ relint p q r x) ->
  exists g, forall e, dot3 g e = 0 -> exists k, 0 < k /\ forall s, Rabs s < k -> reg3 ts (along x s e).
Proof.
  intros [H|(p & q & r & L & H)]; [exists o3; intros e _; apply along_step, H|].
  destruct (lone3_facts ts T p q r L) as (t & d & It & N & St). exists (fst (L3 p q r d)). intros e E.
  destruct (relint_ev p q r d x N H) as (A & B & C & Z).
  destruct (along_step x e _ (nb3_and _ _ _ (nb3_pos _ _ A) (nb3_and _ _ _ (nb3_pos _ _ B) (nb3_pos _ _ C)))) as (k & Pk & Hk).
  exists k. split; [exact Pk|]. intros s Hs. destruct (Hk s Hs) as (A' & B' & C'). apply (lone3_reg ts p q r _ L). apply (hull3_ev p q r d _ N).
  repeat split; try lra. rewrite ev_along, Z, E. ring.
Qed.

Hypothesis Ne : ts <> [].
Hypothesis Cv : convex (reg3 ts).
Lemma cv_hull l x : (forall v, In v l -> reg3 ts v) -> hull l x -> reg3 ts x.
Proof. intros H. apply convex_hull; [exact Cv|]. rewrite Forall_forall. exact H. Qed.

Lemma support p q r d t : lone3 ts p q r -> In t ts -> ~ flat4 p q r d -> same_set t [p; q; r; d] -> forall y, reg3 ts y -> 0 <= ev (L3 p q r d) y.
Proof.
  intros L It N St y Ry. apply Rnot_lt_le. intros Neg.
  assert (N' : ~ flat4 p q r y). { intros E. rewrite (L3_triple p q r d y N) in Neg. unfold flat4 in E. rewrite E in Neg. unfold Rdiv in Neg. rewrite Rmult_0_l in Neg. lra. }
  pose proof (nb3_two p q r d y (mid3 p q r) N N' Neg (mid3_relint p q r)) as Nb.
  apply (lone_outer3 ts T F2F p q r (mid3 p q r) L (relint_hull _ _ _ _ (mid3_relint p q r))).
  apply (nb3_imp _ _ _ (fun z H => H)). eapply nb3_imp; [|exact Nb]. intros z [H|H].
  - exists t. split; [exact It|]. apply (hull_same [p; q; r; d]); [apply same_sym, St|exact H].
  - apply (cv_hull [p; q; r; y]); [|exact H]. assert (V : forall v, In v t -> reg3 ts v) by (intros v Iv; exists t; split; [exact It|apply hull_mem, Iv]).
    intros v [<-|[<-|[<-|[<-|[]]]]]; try exact Ry; apply V, St; cbn; tauto.
Qed.
Definition outer (L : half) : Prop := exists p q r d t, lone3 ts p q r /\ In t ts /\ ~ flat4 p q r d /\ same_set t [p; q; r; d] /\ L = L3 p q r d.
Lemma outer_pos L y : outer L -> nb3 y (reg3 ts) -> 0 < ev L y.
Proof.
  intros (p & q & r & d & t & Lo & It & N & St & ->) Nb. destruct (support p q r d t Lo It N St y (nb3_point _ _ Nb)) as [H|H]; [exact H|]. exfalso.
  destruct (nb3_step y d _ Nb) as (k & Pk & Hk). specialize (Hk (- (k / 2))). rewrite Rabs_left in Hk by lra.
  pose proof (support p q r d t Lo It N St _ (Hk ltac:(lra))) as K. rewrite ev_line, <- H in K. destruct (walls_at p q r d N) as (_ & _ & _ & D1 & _). rewrite D1 in K. lra.
Qed.
Lemma inner_exists : exists t y, In t ts /\ nb3 y (reg3 ts).
Proof.
  destruct ts as [|t l] eqn:E; [contradiction|]. rewrite <- E in *. assert (It : In t ts) by (rewrite E; left; reflexivity).
  pose proof T as T'. rewrite Forall_forall in T'. destruct (T' t It) as (a & b & c & d & Et & N).
  assert (H : hull t a) by (rewrite Et; apply hull_mem; left; reflexivity).
  destruct (inside_near3 ts T t a It H 1 ltac:(lra)) as (y & Hy). exists t, y. split; [exact It|]. apply (nb3_imp y _ _ (fun w '(conj A _) => ex_intro _ t (conj It A)) Hy).
Qed.
Lemma exit_outer y z : nb3 y (reg3 ts) -> ~ reg3 ts z -> exists L, outer L /\ ev L z < 0.
Proof.
  intros Ny Nz. destruct (walk3 ts T y z (nb3_point _ _ Ny) Nz) as (w & Hw & Rw & NNw).
  assert (Ex : exists p q r, lone3 ts p q r /\ hull [p; q; r] (line w y z)).
  { apply NNPP. intros K. apply NNw. apply (inner_point3 ts T F2F _ Rw). intros p q r L H. apply K. exists p, q, r. auto. }
  destruct Ex as (p & q & r & L & Hl). destruct (lone3_facts ts T p q r L) as (t & d & It & N & St).
  assert (O : outer (L3 p q r d)) by (exists p, q, r, d, t; auto). exists (L3 p q r d). split; [exact O|]. pose proof (outer_pos _ y O Ny) as Py.
  apply (hull3_ev p q r d _ N) in Hl as (_ & _ & _ & E1). rewrite ev_line in E1. apply Rnot_le_lt. intros Z. assert (0 < (1 - w) * ev (L3 p q r d) y) by (apply Rmult_lt_0_compat; lra).
  assert (0 <= w * ev (L3 p q r d) z) by (apply Rmult_le_pos; lra). lra.
Qed.
Lemma hrep : exists cs, (forall L, In L cs -> outer L) /\ (forall x, reg3 ts x <-> inP cs x) /\ (forall e, e <> o3 -> exists L, In L cs /\ dot3 (fst L) e < 0).
Proof.
  destruct (pick_sub (map (fun '(p, q, (r, d)) => L3 p q r d) (list_prod (list_prod (concat ts) (concat ts)) (list_prod (concat ts) (concat ts)))) outer) as (cs & H).
  assert (All : forall L, In L cs <-> outer L).
  { intros L. rewrite H. split; [tauto|]. intros O. split; [|exact O]. destruct O as (p & q & r & d & t & Lo & It & N & St & ->).
    apply in_map_iff. exists (p, q, (r, d)). split; [reflexivity|]. destruct (lone3_verts ts p q r Lo) as (A & B & C). repeat (apply in_prod; try assumption).
    apply in_concat. exists t. split; [exact It|]. apply St. cbn. tauto. }
  destruct inner_exists as (t0 & y & It0 & Ny).
  assert (Rep : forall x, reg3 ts x <-> inP cs x).
  { intros x. split.
    - intros R L I. apply All in I as (p & q & r & d & t & Lo & It & N & St & ->). exact (support p q r d t Lo It N St x R).
    - intros I. apply NNPP. intros Nx. destruct (exit_outer y x Ny Nx) as (L & O & Neg). specialize (I L (proj2 (All L) O)). lra. }
  exists cs. split; [intros L I; apply All, I|]. split; [exact Rep|]. intros e Nz. apply NNPP. intros K.
  destruct (max_bound e (concat ts)) as (M & HM). assert (B : forall x, reg3 ts x -> dot3 e x <= M).
  { intros x (t & It & Hx). apply (hull_bound e t M); [|exact Hx]. intros v Iv. apply HM, in_concat. exists t. auto. }
  assert (Up : forall k, 0 <= k -> dot3 e y + k * dot3 e e <= M).
  { intros k Pk. replace (dot3 e y + k * dot3 e e) with (dot3 e (along y k e)) by (unfold along; p3 e; p3 y; cbn; ring). apply B, Rep. intros L I.
    rewrite ev_along. assert (0 <= dot3 (fst L) e) by (apply Rnot_lt_le; intros Q; apply K; exists L; auto).
    assert (0 <= k * dot3 (fst L) e) by (apply Rmult_le_pos; assumption). pose proof (proj1 (Rep y) (nb3_point _ _ Ny) L I). lra. }
  assert (Pe : 0 < dot3 e e).
  { destruct e as [[a b] c]. cbn. destruct (Rtotal_order 0 (a * a + b * b + c * c)) as [Q|[Q|Q]]; [exact Q|exfalso|exfalso].
    - apply Nz. unfold o3. pose proof (Rle_0_sqr a). pose proof (Rle_0_sqr b). pose proof (Rle_0_sqr c). unfold Rsqr in *.
      assert (a * a = 0 /\ b * b = 0 /\ c * c = 0) as (A' & B' & C') by lra. apply Rsqr_0_uniq in A', B', C'. congruence.
    - pose proof (Rle_0_sqr a). pose proof (Rle_0_sqr b). pose proof (Rle_0_sqr c). unfold Rsqr in *. lra. }
  set (k := (Rabs (M - dot3 e y) + 1) / dot3 e e). assert (Pk : 0 <= k). { unfold k. apply Rlt_le, Rdiv_lt_0_compat; [|exact Pe]. pose proof (Rabs_pos (M - dot3 e y)). lra. }
  specialize (Up k Pk). assert (E : k * dot3 e e = Rabs (M - dot3 e y) + 1) by (unfold k; field; lra). pose proof (Rle_abs (M - dot3 e y)). lra.
Qed.
End OneConvex.

Lemma hull_face L ps x : (forall v, In v ps -> 0 <= ev L v) -> hull ps x -> ev L x = 0 ->
  exists qs, (forall v, In v qs -> In v ps /\ ev L v = 0) /\ hull qs x.
Proof.
  intros Pos H Z. set (C := fun x => 0 <= ev L x /\ (ev L x = 0 -> exists qs, (forall v, In v qs -> In v ps /\ ev L v = 0) /\ hull qs x)).
  assert (K : C x); [|exact (proj2 K Z)]. apply (convex_hull C ps); [| |exact H].
  - intros a b k (Pa & Qa) (Pb & Qb) Hk. assert (E : ev L (mix k a b) = k * ev L a + (1 - k) * ev L b) by (rewrite mix_line, ev_line; ring).
    assert (0 <= k * ev L a) by (apply Rmult_le_pos; lra). assert (0 <= (1 - k) * ev L b) by (apply Rmult_le_pos; lra). split; [lra|]. intros Z'.
    destruct (Req_dec k 0) as [->|K0]. { rewrite mix_line, line_0. apply Qb. lra. }
    destruct (Req_dec k 1) as [->|K1]. { rewrite mix_line, line_1. apply Qa. lra. }
    assert (Ea : ev L a = 0). { apply (Rmult_eq_reg_l k); lra. } assert (Eb : ev L b = 0). { apply (Rmult_eq_reg_l (1 - k)); lra. }
    destruct (Qa Ea) as (qa & A1 & A2). destruct (Qb Eb) as (qb & B1 & B2). exists (qa ++ qb). split; [|apply hull_mix; assumption].
    intros v I. apply in_app_iff in I as [I|I]; auto.
  - rewrite Forall_forall. intros v Iv. split; [auto|]. intros E. exists [v]. split; [intros u [<-|[]]; auto|apply hull_single].
Qed.
Lemma hull_some ps x : hull ps x -> exists v, In v ps.
Proof. intros (ws & (Len & Sum & _) & _). destruct ps as [|v l]; [destruct ws; [cbn in Sum; lra|discriminate]|]. exists v. left. reflexivity. Qed.

(** ** The common part of two convex solids *)
Section TwoConvex.
Definition cross_at (A B : list (list R3)) (x : R3) : Prop := exists a b c d e f, lone3 A a b c /\ lone3 B d e f /\
  triple3 (sub3 b a) (sub3 e d) (sub3 f d) <> 0 /\ hull [a; b] x /\ hull [d; e; f] x.
Definition stuck (A B : list (list R3)) (x : R3) : Prop := reg3 A x /\ reg3 B x /\
  forall e, (exists k, 0 < k /\ forall s, Rabs s < k -> reg3 A (along x s e)) -> (exists k, 0 < k /\ forall s, Rabs s < k -> reg3 B (along x s e)) -> e = o3.
Definition good_pt (A B : list (list R3)) (x : R3) : Prop :=
  (exists q r, lone3 A x q r /\ reg3 B x) \/ (exists q r, lone3 B x q r /\ reg3 A x) \/ cross_at A B x \/ cross_at B A x.

Lemma edge_stuck A B p q r s : Forall tetr B -> face_to_face B -> lone3 A p q r -> 0 < s < 1 -> stuck A B (line s p q) -> cross_at A B (line s p q).
Proof.
  intros TB FB L Hs (RA & RB & St). set (x := line s p q) in *.
  assert (N : p <> q) by (destruct L as (i & t & _ & _ & _ & _ & N & _); exact N).
  apply NNPP. intros K. apply N. symmetry. apply sub3_o, St.
  - exists (Rmin s (1 - s)). split; [apply Rmin_glb_lt; lra|]. intros h Hh. pose proof (Rmin_l s (1 - s)). pose proof (Rmin_r s (1 - s)). apply Rabs_def2 in Hh.
    replace (along x h (sub3 q p)) with (line (s + h) p q) by (unfold x, line, along; p3 p; p3 q; cbn; eq3; ring).
    apply (lone3_reg A p q r _ L). apply (hull_trans [p; q]); [apply hull2_line; exists (s + h); split; [lra|reflexivity]|].
    intros v [<-|[<-|[]]]; apply hull_mem; cbn; tauto.
  - apply (slide B TB FB x _ RB). intros d e f L' H'. apply NNPP. intros Z. apply K. exists p, q, r, d, e, f. split; [exact L|]. split; [exact L'|]. split; [exact Z|].
    split; [apply hull2_line; exists s; split; [lra|reflexivity]|exact H'].
Qed.
Lemma stuck_sym A B x : stuck A B x -> stuck B A x.
Proof. intros (P & Q & H). split; [exact Q|]. split; [exact P|]. intros e K1 K2. apply H; assumption. Qed.
Lemma stuck_good A B x : Forall tetr A -> face_to_face A -> Forall tetr B -> face_to_face B -> stuck A B x -> good_pt A B x.
Proof.
  intros TA FA TB FB St. pose proof St as (RA & RB & H). unfold good_pt.
  destruct (place A TA FA x RA) as [PA|[PA|[(q & r & L)|(p & q & r & s & L & Hs & ->)]]]; [| |left; eauto|right; right; left; eapply edge_stuck; eauto].
  all: destruct (place B TB FB x RB) as [PB|[PB|[(q & r & L)|(p & q & r & s & L & Hs & ->)]]];
    [| |right; left; eauto|right; right; right; eapply edge_stuck; eauto using stuck_sym].
  all: assert (SA : exists g, forall e, dot3 g e = 0 -> exists k, 0 < k /\ forall s, Rabs s < k -> reg3 A (along x s e)) by (apply free_slide; auto);
    assert (SB : exists g, forall e, dot3 g e = 0 -> exists k, 0 < k /\ forall s, Rabs s < k -> reg3 B (along x s e)) by (apply free_slide; auto);
    destruct SA as (g & SA), SB as (h & SB), (two_normals g h) as (e & Ne & E1 & E2); exfalso; apply Ne, H; auto.
Qed.
Theorem convex_span A B x : Forall tetr A -> face_to_face A -> Forall tetr B -> face_to_face B -> A <> [] -> B <> [] -> convex (reg3 A) -> convex (reg3 B) ->
  reg3 A x -> reg3 B x -> exists ps, Forall (good_pt A B) ps /\ hull ps x.
Proof.
  intros TA FA TB FB NA NB CA CB RA RB. destruct (hrep A TA FA NA CA) as (cs & _ & Ha & Bd). destruct (hrep B TB FB NB CB) as (ds & _ & Hb & _).
  assert (Split : forall y, inP (cs ++ ds) y <-> reg3 A y /\ reg3 B y).
  { intros y. rewrite Ha, Hb. unfold inP. split; [intros K; split; intros L I; apply K, in_app_iff; auto|]. intros [K K'] L I. apply in_app_iff in I as [I|I]; auto. }
  destruct (vertices_span (cs ++ ds)) with (p := x) as (ps & Ex & H).
  - intros d Nd. destruct (Bd d Nd) as (L & I & D). exists L. split; [apply in_app_iff; auto|exact D].
  - apply Split. auto.
  - exists ps. split; [|exact H]. eapply Forall_impl; [|exact Ex]. intros p (Ip & Act). apply Split in Ip as (RA' & RB'). apply stuck_good; auto.
    split; [exact RA'|]. split; [exact RB'|]. intros e (k & Pk & Ka) (m & Pm & Km). apply Act. intros L IL Z.
    set (h := Rmin k m / 2). assert (Ph : 0 < h). { unfold h. assert (0 < Rmin k m) by (apply Rmin_glb_lt; assumption). lra. }
    assert (Sm : h < k /\ h < m). { unfold h in *. pose proof (Rmin_l k m). pose proof (Rmin_r k m). lra. }
    assert (Both : forall s, Rabs s < k -> Rabs s < m -> 0 <= ev L (along p s e)) by (intros s S1 S2; apply (proj2 (Split _)); [split; auto|exact IL]).
    pose proof (Both h ltac:(rewrite Rabs_pos_eq; lra) ltac:(rewrite Rabs_pos_eq; lra)) as E1. pose proof (Both (- h) ltac:(rewrite Rabs_left; lra) ltac:(rewrite Rabs_left; lra)) as E2.
    rewrite ev_along, Z in E1, E2. apply (Rmult_eq_reg_l h); lra.
Qed.
(** A convex solid is spanned by the corners of its lone faces. *)
Lemma lone_corners ts : exists V, forall v, In v V <-> exists q r, lone3 ts v q r.
Proof.
  destruct (pick_sub (concat ts) (fun v => exists q r, lone3 ts v q r)) as (V & H). exists V. intros v. rewrite H. split; [tauto|].
  intros (q & r & L). split; [apply (lone3_verts ts v q r L)|eauto].
Qed.
Lemma lone_rot ts p q r : lone3 ts p q r -> lone3 ts q r p.
Proof. intros (i & t & Hi & Ip & Iq & Ir & N1 & N2 & N3 & Lo). exists i, t. repeat split; auto. intros j u Hj A B C. apply (Lo j u Hj); auto. Qed.
Lemma convex_corners ts x : Forall tetr ts -> face_to_face ts -> ts <> [] -> convex (reg3 ts) -> reg3 ts x ->
  exists V, (forall v, In v V <-> exists q r, lone3 ts v q r) /\ hull V x.
Proof.
  intros T F N C R. destruct (lone_corners ts) as (V & HV). exists V. split; [exact HV|].
  destruct (convex_span ts ts x T F T F N N C C R R) as (ps & G & H). apply (hull_trans ps); [exact H|].
  rewrite Forall_forall in G. intros q Iq.
  assert (K : forall y, cross_at ts ts y -> hull V y).
  { intros y (a & b & c & d & e & f & L & _ & _ & Hy & _). apply (hull_trans [a; b]); [exact Hy|]. intros v [<-|[<-|[]]]; apply hull_mem, HV; [eauto|].
    exists c, a. apply lone_rot, L. }
  destruct (G q Iq) as [(a & b & L & _)|[(a & b & L & _)|[X|X]]]; auto; apply hull_mem, HV; eauto.
Qed.
End TwoConvex.

(** ** The surface of a convex solid is connected *)
Lemma connected (P Q : R -> Prop) : P 0 -> Q 1 -> (forall s, 0 <= s <= 1 -> P s \/ Q s) ->
  (forall s, ~ P s -> exists k, 0 < k /\ forall h, Rabs h < k -> ~ P (s + h)) -> (forall s, ~ Q s -> exists k, 0 < k /\ forall h, Rabs h < k -> ~ Q (s + h)) ->
  exists s, 0 <= s <= 1 /\ P s /\ Q s.
Proof.
  intros P0 Q1 Cov OP OQ. set (E := fun s => 0 <= s <= 1 /\ forall u, 0 <= u <= s -> P u).
  assert (E0 : E 0). { split; [lra|]. intros u Hu. replace u with 0 by lra. exact P0. }
  destruct (completeness E) as (m & Ub & Lub).
  - exists 1. intros s [Hs _]. lra.
  - exists 0. exact E0.
  - assert (M0 : 0 <= m) by (apply Ub, E0). assert (M1 : m <= 1) by (apply Lub; intros s [Hs _]; lra).
    assert (Below : forall u, 0 <= u < m -> P u).
    { intros u Hu. apply NNPP. intros N. assert (K : is_upper_bound E u); [|specialize (Lub _ K); lra]. intros s [Hs Ps]. apply Rnot_lt_le. intros L. apply N, Ps. lra. }
    assert (Pm : P m).
    { apply NNPP. intros N. destruct (OP m N) as (k & Pk & Hk). destruct (Req_dec m 0) as [->|Nm]; [contradiction|].
      pose proof (Rmin_l (k / 2) m). pose proof (Rmin_r (k / 2) m). assert (0 < Rmin (k / 2) m) by (apply Rmin_glb_lt; lra).
      apply (Hk (- Rmin (k / 2) m)); [rewrite Rabs_left; lra|]. apply Below. lra. }
    exists m. split; [lra|]. split; [exact Pm|]. apply NNPP. intros N. destruct (OQ m N) as (k & Pk & Hk).
    destruct (Req_dec m 1) as [->|Nm]; [contradiction|].
    pose proof (Rmin_l (k / 2) (1 - m)). pose proof (Rmin_r (k / 2) (1 - m)). assert (Pe : 0 < Rmin (k / 2) (1 - m)) by (apply Rmin_glb_lt; lra). set (h := Rmin (k / 2) (1 - m)) in *.
    assert (K : E (m + h)).
    { split; [lra|]. intros u Hu. destruct (Rlt_le_dec u m) as [L|L]; [apply Below; lra|].
      destruct (Cov u ltac:(lra)) as [Y|Y]; [exact Y|]. exfalso. apply (Hk (u - m)); [rewrite Rabs_pos_eq; lra|]. replace (m + (u - m)) with u by ring. exact Y. }
    specialize (Ub _ K). lra.
Qed.

(** The cone over the triangle p q r with apex o. *)
Definition cone (o p q r y : R3) : Prop := 0 <= ev (L0 p q r o) y /\ 0 <= ev (L1 p q r o) y /\ 0 <= ev (L2 p q r o) y.
Lemma cone_open o p q r y : ~ cone o p q r y -> nb3 y (fun z => ~ cone o p q r z).
Proof.
  intros N. unfold cone in *. destruct (Rlt_le_dec (ev (L0 p q r o) y) 0) as [H|H0]; [eapply nb3_imp; [|exact (nb3_neg _ _ H)]; cbn; intros; lra|].
  destruct (Rlt_le_dec (ev (L1 p q r o) y) 0) as [H|H1]; [eapply nb3_imp; [|exact (nb3_neg _ _ H)]; cbn; intros; lra|].
  destruct (Rlt_le_dec (ev (L2 p q r o) y) 0) as [H|H2]; [eapply nb3_imp; [|exact (nb3_neg _ _ H)]; cbn; intros; lra|]. exfalso. tauto.
Qed.
Lemma cone_at o p q r : ~ flat4 p q r o -> ev (L0 p q r o) o = 0 /\ ev (L1 p q r o) o = 0 /\ ev (L2 p q r o) o = 0.
Proof. intros N. destruct (walls_at p q r o N) as (_ & _ & _ & _ & A & B & C). auto. Qed.
Lemma cone_in o p q r y k : ~ flat4 p q r o -> 0 < k -> hull [p; q; r] (line k o y) -> cone o p q r y.
Proof.
  intros N Pk H. apply (hull3_ev p q r o _ N) in H as (A & B & C & _). rewrite !ev_line in *. destruct (cone_at o p q r N) as (E0 & E1 & E2).
  rewrite E0 in A. rewrite E1 in B. rewrite E2 in C. repeat split; apply (Rmult_le_reg_l k); lra.
Qed.
Lemma cone_out o p q r y : ~ flat4 p q r o -> y <> o -> cone o p q r y -> exists k, 0 < k /\ hull [p; q; r] (line k o y).
Proof.
  intros N Ny (A & B & C). destruct (cone_at o p q r N) as (E0 & E1 & E2). destruct (walls_at p q r o N) as (_ & _ & _ & E3 & _).
  pose proof (ev_sum p q r o y) as S. set (k := ev (L0 p q r o) y + ev (L1 p q r o) y + ev (L2 p q r o) y).
  assert (Pk : 0 < k).
  { destruct (Rle_lt_dec k 0) as [Z|Z]; [|exact Z]. exfalso. apply Ny. unfold k in Z. rewrite (ev_point p q r o y N).
    replace (ev (L0 p q r o) y) with 0 by lra. replace (ev (L1 p q r o) y) with 0 by lra. replace (ev (L2 p q r o) y) with 0 by lra.
    replace (ev (L3 p q r o) y) with 1 by lra. p3 p; p3 q; p3 r; p3 o. cbn. eq3; ring. }
  assert (Pi : 0 < / k) by (apply Rinv_0_lt_compat, Pk).
  exists (/ k). split; [exact Pi|]. apply (hull3_ev p q r o _ N). rewrite !ev_line, E0, E1, E2, E3.
  assert (Sc : forall x, 0 <= x -> 0 <= (1 - / k) * 0 + / k * x) by (intros x Px; assert (0 <= / k * x) by (apply Rmult_le_pos; lra); lra).
  repeat split; auto.
  replace (ev (L3 p q r o) y) with (1 - k) by (unfold k; lra). field. lra.
Qed.

Section Connect.
Variable ts : list (list R3).
Hypothesis T : Forall tetr ts.
Hypothesis F2F : face_to_face ts.
Hypothesis Ne : ts <> [].
Hypothesis Cv : convex (reg3 ts).

Lemma off_plane o p q r : nb3 o (reg3 ts) -> lone3 ts p q r -> ~ flat4 p q r o.
Proof.
  intros No L E. destruct (lone3_facts ts T p q r L) as (t & d & It & N & St). assert (O : outer ts (L3 p q r d)) by (exists p, q, r, d, t; auto).
  pose proof (outer_pos ts T F2F Cv _ o O No) as H. rewrite (L3_triple p q r d o N) in H. unfold flat4 in E. rewrite E in H. unfold Rdiv in H. rewrite Rmult_0_l in H. lra.
Qed.
(** Every ray from an inner point meets a lone face. *)
Lemma ray o y : nb3 o (reg3 ts) -> y <> o -> exists p q r k, lone3 ts p q r /\ 0 < k /\ hull [p; q; r] (line k o y).
Proof.
  intros No Ny. destruct (hrep ts T F2F Ne Cv) as (cs & Oc & Rep & Bd). destruct (Bd (sub3 y o)) as (L & IL & D). { intros E. apply Ny, sub3_o, E. }
  set (M := (ev L o + 1) / - dot3 (fst L) (sub3 y o)). pose proof (outer_pos ts T F2F Cv L o (Oc L IL) No) as Po.
  assert (PM : 0 < M) by (apply Rdiv_lt_0_compat; lra).
  assert (Nz : ~ reg3 ts (line M o y)).
  { intros R. apply Rep in R. specialize (R L IL). rewrite line_along, ev_along in R. assert (E : M * dot3 (fst L) (sub3 y o) = - (ev L o + 1)) by (unfold M; field; lra). lra. }
  destruct (walk3 ts T o _ (nb3_point _ _ No) Nz) as (w & Hw & Rw & NNw).
  assert (Ex : exists p q r, lone3 ts p q r /\ hull [p; q; r] (line w o (line M o y))).
  { apply NNPP. intros K. apply NNw. apply (inner_point3 ts T F2F _ Rw). intros p q r L' H. apply K. exists p, q, r. auto. }
  destruct Ex as (p & q & r & L' & H). exists p, q, r, (w * M). split; [exact L'|].
  assert (Pw : 0 < w). { destruct (proj1 Hw) as [Q|<-]; [exact Q|]. exfalso. apply NNw. rewrite line_0. exact No. }
  split; [apply Rmult_lt_0_compat; assumption|]. replace (line (w * M) o y) with (line w o (line M o y)) by (unfold line; p3 o; p3 y; cbn; eq3; ring). exact H.
Qed.
(** Two lone faces met by the same ray meet each other. *)
Lemma same_ray o y p q r k p' q' r' k' : nb3 o (reg3 ts) -> lone3 ts p q r -> lone3 ts p' q' r' -> 0 < k -> 0 < k' ->
  hull [p; q; r] (line k o y) -> hull [p'; q'; r'] (line k' o y) -> k = k'.
Proof.
  assert (H : forall p q r k p' q' r' k', nb3 o (reg3 ts) -> lone3 ts p q r -> lone3 ts p' q' r' -> 0 < k -> 0 < k' ->
    hull [p; q; r] (line k o y) -> hull [p'; q'; r'] (line k' o y) -> k' <= k).
  { clear -T F2F Cv. intros p q r k p' q' r' k' No L L' Pk Pk' H H'. destruct (lone3_facts ts T p q r L) as (t & d & It & N & St). assert (O : outer ts (L3 p q r d)) by (exists p, q, r, d, t; auto).
    pose proof (outer_pos ts T F2F Cv _ o O No) as Po. apply (hull3_ev p q r d _ N) in H as (_ & _ & _ & E).
    pose proof (support ts T F2F Cv p q r d t L It N St _ (lone3_reg ts p' q' r' _ L' H')) as E'. rewrite line_along, ev_along in E, E'.
    set (a := ev (L3 p q r d) o) in *. set (b := dot3 (fst (L3 p q r d)) (sub3 y o)) in *. apply Rnot_lt_le. intros Lt. assert (0 < (k' - k) * a) by (apply Rmult_lt_0_compat; lra).
    assert (0 <= k * (a + k' * b)) by (apply Rmult_le_pos; lra). replace (k * (a + k' * b)) with (k' * (a + k * b) - (k' - k) * a) in H0 by ring. rewrite E in H0. lra. }
  intros No L L' Pk Pk' A B. apply Rle_antisym; [exact (H p' q' r' k' p q r k No L' L Pk' Pk B A)|exact (H p q r k p' q' r' k' No L L' Pk Pk' A B)].
Qed.
Lemma meet_corner p q r p' q' r' x : lone3 ts p q r -> lone3 ts p' q' r' -> hull [p; q; r] x -> hull [p'; q'; r'] x -> exists v, In v [p; q; r] /\ In v [p'; q'; r'].
Proof.
  intros L L' H H'.
  assert (On : forall p q r x, lone3 ts p q r -> hull [p; q; r] x -> exists i t, nth_error ts i = Some t /\ hull t x /\
     forall ps, incl ps t -> hull ps x -> exists qs, incl qs ps /\ incl qs [p; q; r] /\ hull qs x).
  { clear -T. intros p q r x (i & t & Hi & Ip & Iq & Ir & N1 & N2 & N3 & Lone) H. destruct (fourth ts T t p q r (nth_error_In _ _ Hi) Ip Iq Ir N1 N2 N3) as (d & N & St).
    exists i, t. split; [exact Hi|]. split. { apply (hull_trans [p; q; r]); [exact H|]. intros v [<-|[<-|[<-|[]]]]; apply hull_mem; assumption. }
    intros ps Ips Hps. pose proof (proj1 (hull3_ev p q r d x N) H) as (_ & _ & _ & E). destruct (walls_at p q r d N) as (E1 & E2 & E3 & E4 & _).
    destruct (hull_face (L3 p q r d) ps x) as (qs & Q & Hq); [|exact Hps|exact E|].
    - intros v Iv. apply Ips, St in Iv. destruct Iv as [<-|[<-|[<-|[<-|[]]]]]; lra.
    - exists qs. split; [intros v Iv; apply Q, Iv|]. split; [|exact Hq]. intros v Iv. destruct (Q v Iv) as (Iv' & Z). apply Ips, St in Iv'.
      destruct Iv' as [<-|[<-|[<-|[<-|[]]]]]; cbn; auto. lra. }
  destruct (On p q r x L H) as (i & t & Hi & Ht & Kt). destruct (On p' q' r' x L' H') as (j & u & Hj & Hu & Ku).
  assert (Ps : exists ps, incl ps t /\ incl ps u /\ hull ps x).
  { destruct (Nat.eq_dec i j) as [->|Nij]; [|apply (F2F i j t u Hi Hj Nij); assumption]. rewrite Hi in Hj. injection Hj as <-. exists t. split; [|split]; auto using incl_refl. }
  destruct Ps as (ps & It & Iu & Hp). destruct (Kt ps It Hp) as (qs & Q1 & Q2 & Hq). destruct (Ku qs (incl_tran Q1 Iu) Hq) as (rs & R1 & R2 & Hr).
  destruct (hull_some rs x Hr) as (v & Iv). exists v. split; [apply Q2, R1, Iv|apply R2, Iv].
Qed.
(** A property that does not change along the edges of lone faces holds for all their
    corners or for none. *)
Theorem surface_connected (P : R3 -> Prop) a b c d e f : (forall p q r, lone3 ts p q r -> P p -> P q) ->
  lone3 ts a b c -> lone3 ts d e f -> P a -> P d.
Proof.
  intros Inv La Ld Pa. apply NNPP. intros Nd. destruct inner_exists with (ts := ts) as (t0 & o0 & _ & No0); auto.
  destruct (two_normals (sub3 d a) o3) as (n & Nn & En & _).
  destruct (generic [(n, - dot3 n a)] o0 _ ltac:(intros L [<-|[]]; exact Nn) No0) as (o & No & Off). specialize (Off _ (or_introl eq_refl)).
  assert (Ny : forall s, line s a d <> o).
  { intros s E. apply Off. rewrite <- E. unfold ev, line. cbn [fst snd]. transitivity (s * dot3 (sub3 d a) n); [p3 n; p3 a; p3 d; cbn; ring|]. rewrite En. ring. }
  set (In_ := fun (W : R3 -> Prop) s => exists p q r, lone3 ts p q r /\ W p /\ cone o p q r (line s a d)).
  assert (Start : forall (W : R3 -> Prop) s, (exists b c, lone3 ts (line s a d) b c /\ W (line s a d)) -> In_ W s).
  { intros W s (b' & c' & L & Wy). exists (line s a d), b', c'. split; [exact L|]. split; [exact Wy|].
    pose proof (off_plane o _ _ _ No L) as N. apply (cone_in o _ _ _ _ 1 N); [lra|]. rewrite line_1. apply hull_mem. left. reflexivity. }
  assert (Open : forall (W : R3 -> Prop) s, ~ In_ W s -> exists k, 0 < k /\ forall h, Rabs h < k -> ~ In_ W (s + h)).
  { intros W s N. assert (Nb : nb3 (line s a d) (fun y => forall p, In p (concat ts) -> forall q, In q (concat ts) -> forall r, In r (concat ts) -> lone3 ts p q r -> W p -> ~ cone o p q r y)).
    { apply nb3_all. intros p _. apply nb3_all. intros q _. apply nb3_all. intros r _. destruct (classic (lone3 ts p q r /\ W p)) as [(L & Wp)|K]; [|exists 1; split; [lra|]; intros; tauto].
      eapply nb3_imp; [|apply (cone_open o p q r (line s a d))]; [auto|]. intros C. apply N. exists p, q, r. auto. }
    destruct (along_step _ (sub3 d a) _ Nb) as (k & Pk & Hk). exists k. split; [exact Pk|]. intros h Hh (p & q & r & L & Wp & C). destruct (lone3_verts ts p q r L) as (I1 & I2 & I3).
    apply (Hk h Hh p I1 q I2 r I3 L Wp). replace (along (line s a d) h (sub3 d a)) with (line (s + h) a d) by (unfold line, along; p3 a; p3 d; cbn; eq3; ring). exact C. }
  destruct (connected (In_ P) (In_ (fun v => ~ P v))) as (s & _ & (p & q & r & L & Wp & C) & (p' & q' & r' & L' & Wp' & C')).
  - apply Start. rewrite line_0. eauto.
  - apply Start. rewrite line_1. eauto.
  - intros s _. destruct (ray o (line s a d) No (Ny s)) as (p & q & r & k & L & Pk & H).
    pose proof (cone_in o p q r _ k (off_plane o p q r No L) Pk H) as C. destruct (classic (P p)); [left|right]; exists p, q, r; auto.
  - intros s. apply Open.
  - intros s. apply Open.
  - destruct (cone_out o p q r _ (off_plane o p q r No L) (Ny s) C) as (k & Pk & H). destruct (cone_out o p' q' r' _ (off_plane o p' q' r' No L') (Ny s) C') as (k' & Pk' & H').
    pose proof (same_ray o _ p q r k p' q' r' k' No L L' Pk Pk' H H') as <-. destruct (meet_corner p q r p' q' r' _ L L' H H') as (v & I & I').
    pose proof (lone_rot ts _ _ _ L) as R1. pose proof (lone_rot ts _ _ _ R1) as R2. pose proof (lone_rot ts _ _ _ L') as R1'. pose proof (lone_rot ts _ _ _ R1') as R2'.
    assert (Pv : P v). { destruct I as [<-|[<-|[<-|[]]]]; eauto. }
    apply Wp'. destruct I' as [<-|[<-|[<-|[]]]]; eauto.
Qed.

(** An edge of the surface that leaves another solid crosses one of its lone faces. *)
Lemma leaving_edge B p q : Forall tetr B -> face_to_face B -> reg3 B p -> ~ reg3 B q ->
  exists d e f x, lone3 B d e f /\ triple3 (sub3 q p) (sub3 e d) (sub3 f d) <> 0 /\ hull [p; q] x /\ hull [d; e; f] x.
Proof.
  intros TB FB Rp Nq.
  (* the last point in B *)
  set (E := fun u => 0 <= u <= 1 /\ reg3 B (line u p q)).
  destruct (completeness E) as (m & Ub & Lub).
  - exists 1. intros u [Hu _]. lra.
  - exists 0. split; [lra|]. rewrite line_0. exact Rp.
  - assert (M0 : 0 <= m) by (apply Ub; split; [lra|rewrite line_0; exact Rp]). assert (M1 : m <= 1) by (apply Lub; intros u [Hu _]; lra).
    assert (Near : forall h, line (m + h) p q = along (line m p q) h (sub3 q p)) by (intros h; unfold line, along; p3 p; p3 q; cbn; eq3; ring).
    assert (Rm : reg3 B (line m p q)).
    { apply NNPP. intros Nm. destruct (along_step _ (sub3 q p) _ (nb3_reg_out B TB _ Nm)) as (d & Pd & Hd).
      assert (K : is_upper_bound E (m - d / 2)); [|specialize (Lub _ K); lra].
      intros u [Hu Ru]. apply Rnot_lt_le. intros L. pose proof (Ub u (conj Hu Ru)) as U. apply (Hd (u - m)); [rewrite Rabs_left1 by lra; lra|].
      rewrite <- Near. replace (m + (u - m)) with u by ring. exact Ru. }
    assert (Lm : m < 1). { destruct M1 as [L | ->]; [exact L|]. exfalso. rewrite line_1 in Rm. contradiction. }
    apply NNPP. intros K. destruct (slide B TB FB (line m p q) (sub3 q p) Rm) as (k & Pk & Hk).
    { intros d e f L H. apply NNPP. intros Z. apply K. exists d, e, f, (line m p q). repeat split; auto. apply hull2_line. exists m. split; [lra|reflexivity]. }
    pose proof (Rmin_l (k / 2) (1 - m)). pose proof (Rmin_r (k / 2) (1 - m)). assert (Pe : 0 < Rmin (k / 2) (1 - m)) by (apply Rmin_glb_lt; lra). set (h := Rmin (k / 2) (1 - m)) in *.
    assert (X : E (m + h)). { split; [lra|]. rewrite Near. apply Hk. rewrite Rabs_pos_eq; lra. } specialize (Ub _ X). lra.
Qed.
End Connect.
