(** Numerical geometry of ico2/numericalc.py in exact real arithmetic: C26, C29, C30, C31. *)
From Coq Require Import Reals List ZArith Lia Lra Bool Permutation.
From Verif Require Import Base.Res Model.Tau Model.Arr Model.Num Model.IcoNumeric Spec.Value Spec.RVec Spec.Shape
  Spec.IcoSpec Spec.Space.
Import ListNotations.
Local Open Scope R_scope.

From Verif Require Import Proofs.ResLemmas Proofs.RVecLemmas Proofs.NumLemmas Proofs.CoplanarLemmas.

(** C26: three points or fewer are coplanar; the check never raises. *)
Lemma L_C26_few : forall draws ps, (length ps <= 3)%nat -> coplanar_check_numeric Rnum draws ps = Ok (Some true).
Proof.
  intros draws ps H. unfold coplanar_check_numeric. destruct (Nat.ltb_spec 3 (length ps)); [lia|reflexivity].
Qed.

(** If it answers True, all points lie within 1e-4 of one plane, whatever was drawn. *)
Lemma L_C26_true_near : forall draws ps, (3 < length ps)%nat -> Forall (valid_draw (length ps)) draws ->
  coplanar_check_numeric Rnum draws ps = Ok (Some true) -> near_plane (1/10000) ps.
Proof.
  intros draws ps L V H. destruct (coplanar_numeric_R draws ps V L) as [[E _]|(i & j & k & pi & pj & pk & b & _ & _ & _ & _ & S & E & Hb)].
  - rewrite E in H. discriminate.
  - rewrite E in H. injection H as ->. apply (near_plane_of ps (cross3 (sub3 pj pi) (sub3 pk pi)) pi); [apply not_small_norm; exact S|].
    apply Hb. reflexivity.
Qed.

(** If it answers False, the points are not coplanar. *)
Lemma L_C26_false_right : forall draws ps, Forall (valid_draw (length ps)) draws ->
  coplanar_check_numeric Rnum draws ps = Ok (Some false) -> ~ coplanar3 ps.
Proof.
  intros draws ps V H C. destruct (le_lt_dec (length ps) 3) as [L|L]; [rewrite (L_C26_few draws ps L) in H; discriminate|].
  destruct (coplanar_numeric_R draws ps V L) as [[E _]|(i & j & k & pi & pj & pk & b & _ & Ni & Nj & Nk & S & E & Hb)].
  - rewrite E in H. discriminate.
  - rewrite E in H. injection H as ->. assert (false = true); [|discriminate]. apply Hb.
    apply nth_error_In in Ni, Nj, Nk. pose proof (coplanar_plane ps pi pj pk C Ni Nj Nk) as P.
    rewrite Forall_forall in *. intros p Hp. rewrite (P p Hp), Rabs_R0. lra.
Qed.

(** Neither True nor False exactly when every sampled triple spans a parallelogram
    whose normal vector has all components below 1e-6; the check never raises. *)
Lemma L_C26_undecided : forall draws ps, (3 < length ps)%nat -> Forall (valid_draw (length ps)) draws ->
  (exists r, coplanar_check_numeric Rnum draws ps = Ok r) /\
  (coplanar_check_numeric Rnum draws ps = Ok None <->
   Forall (fun d => let '(i, j, k) := d in exists pi pj pk x y z, nth_error ps i = Some pi /\ nth_error ps j = Some pj /\
      nth_error ps k = Some pk /\ cross3 (sub3 pj pi) (sub3 pk pi) = (x, y, z) /\
      Rabs x < 1/1000000 /\ Rabs y < 1/1000000 /\ Rabs z < 1/1000000) draws).
Proof.
  intros draws ps L V. destruct (coplanar_numeric_R draws ps V L) as [[E F]|(i & j & k & pi & pj & pk & b & Hin & Ni & Nj & Nk & S & E & Hb)].
  - rewrite E. split; [eauto|]. split; [|reflexivity]. intros _. rewrite Forall_forall in *. intros d Hd.
    destruct (F d Hd) as (n & En & Sn). pose proof (triple_normal_R ps d (V d Hd)) as T. destruct d as [[i j] k].
    destruct T as (pi & pj & pk & Ni & Nj & Nk & _ & T). rewrite T in En. injection En as <-.
    destruct (cross3 (sub3 pj pi) (sub3 pk pi)) as [[x y] z] eqn:Ec. exists pi, pj, pk, x, y, z.
    apply small_R in Sn. tauto.
  - rewrite E. split; [eauto|]. split; [discriminate|]. intros F. exfalso. rewrite Forall_forall in F. specialize (F _ Hin). cbn beta iota in F.
    destruct F as (qi & qj & qk & x & y & z & Mi & Mj & Mk & Ec & B). rewrite Ni in Mi. rewrite Nj in Mj. rewrite Nk in Mk.
    injection Mi as <-. injection Mj as <-. injection Mk as <-. rewrite Ec in S.
    assert (small Rnum (x,y,z) = true) by (apply small_R; exact B). congruence.
Qed.

(** Coplanar points may be left undecided (callers read this as "not coplanar"),
    although another draw would have answered True ... *)
Lemma L_C26_coplanar_missed_refuted : exists draws draws' ps, coplanar3 ps /\ (3 < length ps)%nat /\ length draws = 5%nat /\
  Forall (valid_draw (length ps)) draws /\ Forall (valid_draw (length ps)) draws' /\
  coplanar_check_numeric Rnum draws ps = Ok None /\ coplanar_check_numeric Rnum draws' ps = Ok (Some true).
Proof.
  set (ps := [(0,0,0); (1,0,0); (2,0,0); (0,1,0)] : list R3).
  exists (repeat (0,1,2)%nat 5), [(0,1,3)%nat], ps.
  assert (C : coplanar3 ps).
  { exists (0,0,1), 0. split; [intros H; injection H; lra|]. repeat (apply Forall_cons; [cbn; ring|]). apply Forall_nil. }
  assert (V : Forall (valid_draw (length ps)) (repeat (0,1,2)%nat 5)).
  { repeat (apply Forall_cons; [cbn; lia|]). apply Forall_nil. }
  assert (V' : Forall (valid_draw (length ps)) [(0,1,3)%nat]).
  { repeat (apply Forall_cons; [cbn; lia|]). apply Forall_nil. }
  split; [exact C|]. split; [cbn; lia|]. split; [reflexivity|]. split; [exact V|]. split; [exact V'|].
  split.
  - apply L_C26_undecided; [cbn; lia|exact V|].
    repeat (apply Forall_cons; [exists (0,0,0), (1,0,0), (2,0,0), 0, 0, 0; repeat split; try (rewrite Rabs_R0; lra); cbn; apply f_equal2; [apply f_equal2|]; ring|]).
    apply Forall_nil.
  - assert (L : (3 < length ps)%nat) by (cbn; lia).
    destruct (coplanar_numeric_R _ ps V' L) as [[E F]|(i & j & k & pi & pj & pk & b & Hin & Ni & Nj & Nk & S & E & Hb)].
    + exfalso. apply Forall_inv in F. destruct F as (n & En & Sn). cbn in En. injection En as <-. apply small_R in Sn.
      destruct Sn as (_ & _ & Sn). apply Rabs_def2 in Sn. lra.
    + rewrite E. do 2 f_equal. apply Hb. apply nth_error_In in Ni, Nj, Nk.
      pose proof (coplanar_plane ps pi pj pk C Ni Nj Nk) as P. rewrite Forall_forall in *. intros p Hp. rewrite (P p Hp), Rabs_R0. lra.
Qed.

(** ... and True does not mean exactly coplanar. *)
Lemma L_C26_true_not_exact_refuted : exists draws ps, Forall (valid_draw (length ps)) draws /\
  coplanar_check_numeric Rnum draws ps = Ok (Some true) /\ ~ coplanar3 ps.
Proof.
  set (h := 1/100000000000). set (ps := [(0,0,0); (1,0,0); (0,1,0); (0,0,h)] : list R3).
  exists [(0,1,2)%nat], ps.
  assert (V' : Forall (valid_draw (length ps)) [(0,1,2)%nat]).
  { repeat (apply Forall_cons; [cbn; lia|]). apply Forall_nil. }
  assert (L : (3 < length ps)%nat) by (cbn; lia).
  split; [exact V'|]. split.
  - destruct (coplanar_numeric_R _ ps V' L) as [[E F]|(i & j & k & pi & pj & pk & b & Hin & Ni & Nj & Nk & S & E & Hb)].
    + exfalso. apply Forall_inv in F. destruct F as (n & En & Sn). cbn in En. injection En as <-. apply small_R in Sn.
      destruct Sn as (_ & _ & Sn). apply Rabs_def2 in Sn. lra.
    + rewrite E. do 2 f_equal. apply Hb. destruct Hin as [Hin|[]]. injection Hin as <- <- <-. cbn in Ni, Nj, Nk.
      injection Ni as <-. injection Nj as <-. injection Nk as <-.
      repeat (apply Forall_cons; [cbn; apply Rabs_def1; unfold h; lra|]). apply Forall_nil.
  - intros C. pose proof (coplanar_plane ps (0,0,0) (1,0,0) (0,1,0) C) as P.
    assert (P' : Forall (fun p => dot3 (cross3 (sub3 (1,0,0) (0,0,0)) (sub3 (0,1,0) (0,0,0))) (sub3 p (0,0,0)) = 0) ps) by (apply P; cbn; auto).
    rewrite Forall_forall in P'. specialize (P' (0,0,h)). cbn in P'. assert (h = 0); [|unfold h in *; lra].
    rewrite <- P'; [ring|auto 10].
Qed.

(** The TAU-style function applies the check to the perpendicular projections. *)
Lemma L_C26_tau : forall draws vs, Forall (fun v => length v = 6%nat) vs ->
  coplanar_check_numeric_tau Rnum draws vs = coplanar_check_numeric Rnum draws (map pp vs).
Proof. intros draws vs H. unfold coplanar_check_numeric_tau. rewrite internals_R by exact H. reflexivity. Qed.

Example E_C26_ex : valid_draw 4 (0,1,3)%nat /\ coplanar3 [(0,0,0); (1,0,0); (2,0,0); (0,1,0)] /\
  near_plane (1/10000) [(0,0,0); (1,0,0); (2,0,0); (0,1,1/100000)].
Proof.
  split; [cbn; lia|]. split.
  - exists (0,0,1), 0. split; [intros H; injection H; lra|]. repeat (apply Forall_cons; [cbn; ring|]). apply Forall_nil.
  - exists (0,0,1), 0. split; [unfold norm3; cbn; replace (0*0+0*0+1*1) with 1 by ring; apply sqrt_1|].
    repeat (apply Forall_cons; [cbn; apply Rabs_def1; lra|]). apply Forall_nil.
Qed.

(** C29: exact characterisation.  The point is accepted iff the tetrahedron is not
    flat and the absolute values of its barycentric coordinates add up to less
    than 1 + 1e-6 (they add up to 1 exactly inside). *)
Lemma L_C29_inside_iff : forall p a b c d,
  inside_outside_tetrahedron Rnum p [a; b; c; d] = Ok true <->
  ~ flat4 a b c d /\ exists ws, bary ws [a; b; c; d] p /\ Rsum (map Rabs ws) < 1 + 1/1000000.
Proof.
  intros p a b c d. rewrite <- in_tet_spec. unfold inside_outside_tetrahedron. cbn [get nth_error bind].
  split; [intros H; injection H; auto|intros ->; reflexivity].
Qed.

(** Every point of a non-flat closed tetrahedron is accepted. *)
Lemma L_C29_closed_tetrahedron : forall p a b c d, ~ flat4 a b c d -> hull [a; b; c; d] p ->
  inside_outside_tetrahedron Rnum p [a; b; c; d] = Ok true.
Proof.
  intros p a b c d Hf (ws & B & Hw). apply L_C29_inside_iff. split; [exact Hf|]. exists ws. split; [exact B|].
  replace (map Rabs ws) with ws; [destruct B as (_ & -> & _); lra|].
  clear - Hw. induction Hw as [|w ws H _ IH]; cbn; [reflexivity|]. rewrite <- IH, Rabs_pos_eq by exact H. reflexivity.
Qed.

(** A point that is accepted has no barycentric coordinate below -5e-7; a point with
    such a coordinate is rejected. *)
Lemma L_C29_far_rejected : forall p a b c d ws w, bary ws [a; b; c; d] p -> In w ws -> w <= - (1/2000000) ->
  inside_outside_tetrahedron Rnum p [a; b; c; d] = Ok false.
Proof.
  intros p a b c d ws w B Hin Hw.
  unfold inside_outside_tetrahedron. cbn [get nth_error bind]. f_equal.
  destruct (Req_dec (triple3 (sub3 b a) (sub3 c a) (sub3 d a)) 0) as [Hf|Hf]; [apply in_tet_flat; exact Hf|].
  apply not_true_iff_false. rewrite (in_tet_R p a b c d ws Hf B).
  destruct (bary4 _ _ _ _ _ _ B) as (w0 & w1 & w2 & w3 & -> & _). destruct B as (_ & S & _). cbn [map Rsum] in *.
  pose proof (Rle_abs w0) as A0. pose proof (Rle_abs w1) as A1. pose proof (Rle_abs w2) as A2. pose proof (Rle_abs w3) as A3.
  destruct Hin as [->|[->|[->|[->|[]]]]]; assert (Rabs w = - w) by (apply Rabs_left1; lra); lra.
Qed.

(** A flat tetrahedron contains nothing, not even its own vertices. *)
Lemma L_C29_flat : forall p a b c d, flat4 a b c d -> inside_outside_tetrahedron Rnum p [a; b; c; d] = Ok false.
Proof.
  intros p a b c d H. unfold inside_outside_tetrahedron. cbn [get nth_error bind]. f_equal. apply in_tet_flat. exact H.
Qed.

(** The order of the vertices does not matter. *)
Lemma L_C29_order : forall p t t', length t = 4%nat -> Permutation t t' ->
  inside_outside_tetrahedron Rnum p t = inside_outside_tetrahedron Rnum p t'.
Proof.
  assert (Flat : forall a b c d, (flat4 b a c d <-> flat4 a b c d) /\ (flat4 a c b d <-> flat4 a b c d) /\ (flat4 a b d c <-> flat4 a b c d)).
  { intros a b c d. unfold flat4.
    assert (K : forall x y, x = - y -> (x = 0 <-> y = 0)) by (intros x y ->; lra).
    repeat split; apply K; p3 a; p3 b; p3 c; p3 d; cbn; ring. }
  assert (W : forall (p a b c d a' b' c' d' : R3) f,
     (forall ws, bary ws [a;b;c;d] p -> bary (f ws) [a';b';c';d'] p /\ Rsum (map Rabs (f ws)) = Rsum (map Rabs ws)) ->
     (exists ws, bary ws [a;b;c;d] p /\ Rsum (map Rabs ws) < 1 + 1/1000000) ->
     exists ws, bary ws [a';b';c';d'] p /\ Rsum (map Rabs ws) < 1 + 1/1000000).
  { intros p a b c d a' b' c' d' f Hf (ws & B & H). destruct (Hf ws B) as [B' E]. exists (f ws). rewrite E. auto. }
  set (s0 := fun ws : list R => match ws with [x;y;z;w] => [y;x;z;w] | _ => ws end).
  set (s1 := fun ws : list R => match ws with [x;y;z;w] => [x;z;y;w] | _ => ws end).
  set (s2 := fun ws : list R => match ws with [x;y;z;w] => [x;y;w;z] | _ => ws end).
  assert (S0 : forall (p a b c d : R3) ws, bary ws [a;b;c;d] p -> bary (s0 ws) [b;a;c;d] p /\ Rsum (map Rabs (s0 ws)) = Rsum (map Rabs ws)).
  { intros p a b c d ws B. destruct (bary4 _ _ _ _ _ _ B) as (w0 & w1 & w2 & w3 & -> & _). destruct B as (_ & S & ->). unfold s0. cbn [map Rsum] in *.
    split; [|ring]. split; [reflexivity|]. split; [cbn; lra|]. p3 a; p3 b; p3 c; p3 d. cbn. unfold o3. apply f_equal2; [apply f_equal2|]; ring. }
  assert (S1 : forall (p a b c d : R3) ws, bary ws [a;b;c;d] p -> bary (s1 ws) [a;c;b;d] p /\ Rsum (map Rabs (s1 ws)) = Rsum (map Rabs ws)).
  { intros p a b c d ws B. destruct (bary4 _ _ _ _ _ _ B) as (w0 & w1 & w2 & w3 & -> & _). destruct B as (_ & S & ->). unfold s1. cbn [map Rsum] in *.
    split; [|ring]. split; [reflexivity|]. split; [cbn; lra|]. p3 a; p3 b; p3 c; p3 d. cbn. unfold o3. apply f_equal2; [apply f_equal2|]; ring. }
  assert (S2 : forall (p a b c d : R3) ws, bary ws [a;b;c;d] p -> bary (s2 ws) [a;b;d;c] p /\ Rsum (map Rabs (s2 ws)) = Rsum (map Rabs ws)).
  { intros p a b c d ws B. destruct (bary4 _ _ _ _ _ _ B) as (w0 & w1 & w2 & w3 & -> & _). destruct B as (_ & S & ->). unfold s2. cbn [map Rsum] in *.
    split; [|ring]. split; [reflexivity|]. split; [cbn; lra|]. p3 a; p3 b; p3 c; p3 d. cbn. unfold o3. apply f_equal2; [apply f_equal2|]; ring. }
  intros p t t' L P.
  assert (G : forall l l', Permutation l l' -> forall pre, length (pre ++ l) = 4%nat ->
     inside_outside_tetrahedron Rnum p (pre ++ l) = inside_outside_tetrahedron Rnum p (pre ++ l')).
  { assert (Eq : forall a b c d a' b' c' d', (in_tet Rnum p a b c d = true <-> in_tet Rnum p a' b' c' d' = true) ->
       inside_outside_tetrahedron Rnum p [a;b;c;d] = inside_outside_tetrahedron Rnum p [a';b';c';d']).
    { intros a b c d a' b' c' d' H. unfold inside_outside_tetrahedron. cbn [get nth_error bind]. f_equal. apply eq_true_iff_eq. exact H. }
    induction 1 as [|x l l' _ IH|x y l|l l' l'' P1 IH1 P2 IH2]; intros pre Lp.
    - reflexivity.
    - change (x :: l) with ([x] ++ l) in *. change (x :: l') with ([x] ++ l'). rewrite !app_assoc in *. apply IH. exact Lp.
    - destruct pre as [|p0 [|p1 [|p2 pre]]]; cbn [app length] in *.
      + destruct l as [|q1 [|q2 [|]]]; try discriminate. apply Eq. rewrite !in_tet_spec.
        rewrite (proj1 (Flat x y q1 q2)). split; intros [H1 H2]; (split; [exact H1|]); revert H2; apply (W _ _ _ _ _ _ _ _ _ s0); apply S0.
      + destruct l as [|q1 [|]]; try discriminate. apply Eq. rewrite !in_tet_spec.
        rewrite (proj1 (proj2 (Flat p0 x y q1))). split; intros [H1 H2]; (split; [exact H1|]); revert H2; apply (W _ _ _ _ _ _ _ _ _ s1); apply S1.
      + destruct l as [|]; try discriminate. apply Eq. rewrite !in_tet_spec.
        rewrite (proj2 (proj2 (Flat p0 p1 x y))). split; intros [H1 H2]; (split; [exact H1|]); revert H2; apply (W _ _ _ _ _ _ _ _ _ s2); apply S2.
      + rewrite app_length in Lp. cbn in Lp. lia.
    - rewrite IH1 by exact Lp. apply IH2. rewrite app_length in *. rewrite <- (Permutation_length P1). exact Lp. }
  apply (G t t' P []). exact L.
Qed.

(** The TAU-style function tests the perpendicular projections. *)
Lemma L_C29_tau : forall v t, length v = 6%nat -> Forall (fun u => length u = 6%nat) t ->
  inside_outside_tetrahedron_tau Rnum v t = inside_outside_tetrahedron Rnum (pp v) (map pp t).
Proof.
  intros v t Hv Ht. unfold inside_outside_tetrahedron_tau. rewrite internal_R by exact Hv. cbn [bind].
  rewrite internals_R by exact Ht. reflexivity.
Qed.

Example E_C29_ex : ~ flat4 (0,0,0) (1,0,0) (0,1,0) (0,0,1) /\ hull [(0,0,0); (1,0,0); (0,1,0); (0,0,1)] (1/4,1/4,1/2) /\
  bary [-1; 1; 1; 0] [(0,0,0); (1,0,0); (0,1,0); (0,0,1)] (1,1,0).
Proof.
  split; [unfold flat4; cbn; lra|]. split.
  - exists [0; 1/4; 1/4; 1/2]. split; [split; [reflexivity|split; [cbn; lra|cbn; unfold o3; apply f_equal2; [apply f_equal2|]; lra]]|].
    repeat (apply Forall_cons; [lra|]). apply Forall_nil.
  - split; [reflexivity|split; [cbn; lra|cbn; unfold o3; apply f_equal2; [apply f_equal2|]; lra]].
Qed.

(** C30: True exactly when no tetrahedron of the object contains the point. *)
Lemma L_C30_inverted : forall p o, Forall (fun t => length t = 4%nat) o ->
  exists r, inside_outside_obj Rnum p o = Ok r /\
    (r = true <-> forall t, In t o -> inside_outside_tetrahedron Rnum p t = Ok false).
Proof.
  intros p o H. unfold inside_outside_obj.
  assert (K : exists b, some_contains Rnum p o = Ok b /\ (b = false <-> forall t, In t o -> inside_outside_tetrahedron Rnum p t = Ok false)).
  { induction H as [|t o Ht _ IH]; cbn [some_contains].
    - exists false. split; [reflexivity|]. split; [intros _ t []|reflexivity].
    - destruct t as [|a [|b [|c [|d [|]]]]]; try discriminate Ht.
      unfold inside_outside_tetrahedron at 1. cbn [get nth_error bind].
      destruct (in_tet Rnum p a b c d) eqn:E.
      + exists true. split; [reflexivity|]. split; [discriminate|]. intros Hn. specialize (Hn _ (or_introl eq_refl)).
        unfold inside_outside_tetrahedron in Hn. cbn [get nth_error bind] in Hn. rewrite E in Hn. discriminate.
      + destruct IH as (b' & Eb & Hb). exists b'. split; [exact Eb|]. rewrite Hb. split.
        * intros Hn t [<-|Hin]; [|auto]. unfold inside_outside_tetrahedron. cbn [get nth_error bind]. rewrite E. reflexivity.
        * intros Hn t Hin. apply Hn. right. exact Hin. }
  destruct K as (b & E & Hb). rewrite E. cbn [bind]. exists (negb b). split; [reflexivity|].
  rewrite <- Hb. destruct b; split; auto; discriminate.
Qed.

(** So the documented answer (True = inside) is wrong for every point of every
    non-flat tetrahedron of the object. *)
Lemma L_C30_contract_refuted : forall p o a b c d, Forall (fun t => length t = 4%nat) o -> In [a; b; c; d] o ->
  ~ flat4 a b c d -> hull [a; b; c; d] p -> inside_outside_obj Rnum p o = Ok false.
Proof.
  intros p o a b c d Ho Hin Hf Hh. destruct (L_C30_inverted p o Ho) as (r & E & H). rewrite E. f_equal.
  destruct r; [|reflexivity]. exfalso.
  pose proof (L_C29_closed_tetrahedron p a b c d Hf Hh) as T. rewrite (proj1 H eq_refl _ Hin) in T. discriminate.
Qed.

(** The TAU-style wrapper raises on every argument. *)
Lemma L_C30_wrapper_raises : forall v o, exists e, inside_outside_obj_tau v o = Raise e.
Proof. intros v o. destruct o; cbn; eauto. Qed.

Example E_C30_ex : Forall (fun t : list R3 => length t = 4%nat) [[(0,0,0); (1,0,0); (0,1,0); (0,0,1)]] /\
  inside_outside_obj Rnum (1/4,1/4,1/2) [[(0,0,0); (1,0,0); (0,1,0); (0,0,1)]] = Ok false.
Proof.
  split; [repeat constructor|]. eapply L_C30_contract_refuted; [repeat constructor|left; reflexivity|apply E_C29_ex..].
Qed.

(** C31: exact characterisation of the segment/triangle test. *)
Lemma L_C31_iff : forall a b c d e,
  check_intersection_segment_surface_numerical Rnum [a; b] [c; d; e] = Ok true <->
  1/1000000 <= Rabs (triple3 (sub3 b a) (sub3 d c) (sub3 e c)) /\
  exists u v t, add3 a (scale3 t (sub3 b a)) = add3 c (add3 (scale3 u (sub3 d c)) (scale3 v (sub3 e c))) /\
    - (1/1000000) <= u <= 1 + 1/1000000 /\ - (1/1000000) <= v /\ u + v <= 1 + 1/1000000 /\
    - (1/1000000) <= t <= 1 + 1/1000000.
Proof.
  intros. rewrite <- seg_tri_R. unfold check_intersection_segment_surface_numerical. cbn [get nth_error bind].
  split; [intros H; injection H; auto|intros ->; reflexivity].
Qed.

(** A common point of the closed segment and the closed triangle is never missed,
    unless the two are nearly parallel. *)
Lemma L_C31_never_missed : forall a b c d e p, hull [a; b] p -> hull [c; d; e] p ->
  1/1000000 <= Rabs (triple3 (sub3 b a) (sub3 d c) (sub3 e c)) ->
  check_intersection_segment_surface_numerical Rnum [a; b] [c; d; e] = Ok true.
Proof.
  intros a b c d e p (ws & (Lw & Sw & Ew) & Hw) (xs & (Lx & Sx & Ex) & Hx) H.
  destruct ws as [|w0 [|w1 [|]]]; try discriminate Lw. destruct xs as [|x0 [|x1 [|x2 [|]]]]; try discriminate Lx.
  cbn [Rsum] in Sw, Sx. pose proof (Forall_inv Hw) as H0. pose proof (Forall_inv (Forall_inv_tail Hw)) as H1.
  pose proof (Forall_inv Hx) as K0. pose proof (Forall_inv (Forall_inv_tail Hx)) as K1. pose proof (Forall_inv (Forall_inv_tail (Forall_inv_tail Hx))) as K2.
  apply L_C31_iff. split; [exact H|]. exists x1, x2, w1.
  assert (w0 = 1 - w1) by lra. assert (x0 = 1 - x1 - x2) by lra. subst w0 x0.
  split; [|lra].
  transitivity p.
  - rewrite Ew. p3 a; p3 b. cbn. unfold o3. apply f_equal2; [apply f_equal2|]; ring.
  - rewrite Ex. p3 c; p3 d; p3 e. cbn. unfold o3. apply f_equal2; [apply f_equal2|]; ring.
Qed.

(** A (nearly) parallel pair is always reported as not intersecting. *)
Lemma L_C31_parallel : forall a b c d e, Rabs (triple3 (sub3 b a) (sub3 d c) (sub3 e c)) < 1/1000000 ->
  check_intersection_segment_surface_numerical Rnum [a; b] [c; d; e] = Ok false.
Proof.
  intros a b c d e H. unfold check_intersection_segment_surface_numerical. cbn [get nth_error bind]. f_equal.
  apply not_true_iff_false. rewrite seg_tri_R. intros [K _]. lra.
Qed.

Lemma L_C31_tau : forall s t, Forall (fun u => length u = 6%nat) s -> Forall (fun u => length u = 6%nat) t ->
  check_intersection_segment_surface_numerical_6d_tau Rnum s t =
  check_intersection_segment_surface_numerical Rnum (map pp s) (map pp t).
Proof.
  intros s t Hs Ht. unfold check_intersection_segment_surface_numerical_6d_tau. rewrite internals_R by exact Hs. cbn [bind].
  rewrite internals_R by exact Ht. reflexivity.
Qed.

Example E_C31_ex : hull [(0,0,-1); (0,0,1)] (0,0,0) /\ hull [(-1,-1,0); (2,-1,0); (-1,2,0)] (0,0,0) /\
  1/1000000 <= Rabs (triple3 (sub3 (0,0,1) (0,0,-1)) (sub3 (2,-1,0) (-1,-1,0)) (sub3 (-1,2,0) (-1,-1,0))).
Proof.
  split; [|split].
  - exists [1/2; 1/2]. split; [split; [reflexivity|split; [cbn; lra|cbn; unfold o3; apply f_equal2; [apply f_equal2|]; lra]]|].
    repeat (apply Forall_cons; [lra|]). apply Forall_nil.
  - exists [1/3; 1/3; 1/3]. split; [split; [reflexivity|split; [cbn; lra|cbn; unfold o3; apply f_equal2; [apply f_equal2|]; lra]]|].
    repeat (apply Forall_cons; [lra|]). apply Forall_nil.
  - cbn. rewrite Rabs_pos_eq; lra.
Qed.
