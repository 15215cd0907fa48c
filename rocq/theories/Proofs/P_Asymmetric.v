(** The asymmetric part of an occupation domain (ico2/occupation_domain.asymmetric) in
    exact arithmetic: C87. *)
From Coq Require Import Reals List ZArith Lia Lra Bool.
From Verif Require Import Base.Res Model.Tau Model.Arr Model.Num Model.IcoNumeric Model.IcoIntersect Model.Asymmetric
  Spec.Value Spec.RVec Spec.Shape Spec.IcoSpec Spec.Geometry Spec.Sets Spec.Space Spec.Tetra Spec.Samples Spec.Region Spec.Overlap Spec.Corner.
Import ListNotations.
Local Open Scope R_scope.

From Verif Require Import Model.IcoScalar Model.Vectors Model.IcoVolume Model.IcoMath1.
From Verif Require Import Proofs.ResLemmas Proofs.ValueLemmas Proofs.RVecLemmas Proofs.IcoProj Proofs.IcoVolumeLemmas Proofs.ScalarLemmas Proofs.VectorLemmas Proofs.SymopLemmas Proofs.NumLemmas Proofs.IntersectLemmas Proofs.ObjLemmas Proofs.DedupLemmas Proofs.P_Numeric Proofs.P_Intersect
  Proofs.Irrational Proofs.Polytope Proofs.OverlapLemmas Proofs.P_Vector Proofs.P_Volume Proofs.P_Overlap.

Lemma pp_vadd u v w : length (vals TAU u) = 6%nat -> length (vals TAU v) = 6%nat ->
  vals TAU w = vadd (vals TAU u) (vals TAU v) -> pp w = add3 (pp u) (pp v).
Proof.
  unfold pp. intros Lu Lv ->. generalize dependent (vals TAU v). generalize dependent (vals TAU u). intros l Ll k Lk.
  do 7 (destruct l as [|? l]; try discriminate Ll). do 7 (destruct k as [|? k]; try discriminate Lk).
  unfold perp. cbn. apply f_equal2; [apply f_equal2|]; ring.
Qed.
Lemma pp_vscale u k w : length (vals TAU u) = 6%nat -> vals TAU w = vscale k (vals TAU u) -> pp w = scale3 k (pp u).
Proof.
  unfold pp. intros Lu ->. generalize dependent (vals TAU u). intros l Ll.
  do 7 (destruct l as [|? l]; try discriminate Ll).
  unfold perp. cbn. apply f_equal2; [apply f_equal2|]; ring.
Qed.
Lemma good_of_vals v x : canonv v -> vals TAU v = x -> length x = 6%nat -> good 6 v.
Proof. intros C <- L. split; [apply canonv_wfv; exact C|]. rewrite vals_length in L. exact L. Qed.

(** The call is an intersection with one tetrahedron: position and position + 5 v for the
    three vectors v. *)
Lemma L_C87_reduces : forall pos a b c, good 6 pos -> good 6 a -> good 6 b -> good 6 c ->
  exists t, tets [t] /\
    map pp t = [pp pos; add3 (pp pos) (scale3 5 (pp a)); add3 (pp pos) (scale3 5 (pp b)); add3 (pp pos) (scale3 5 (pp c))] /\
    forall N delaunay draws o, asymmetric N delaunay draws o pos (A3 [a; b; c]) = intersection N delaunay draws false (A4 o) (A4 [t]).
Proof.
  intros pos a b c Gp [Wa La] [Wb Lb] [Wc Lc].
  destruct (wp_elim _ _ (mul_vectors_spec ico_arith [a; b; c] (T 5 0 1) ltac:(repeat (constructor; auto)) ltac:(cbv; discriminate))) as (m & Em & rs & -> & Cr & Vr).
  cbn [map] in Vr. destruct rs as [|a' [|b' [|c' [|? ?]]]]; try discriminate Vr. cbn [map] in Vr.
  assert (Ea : vals TAU a' = vscale (val TAU (T 5 0 1)) (vals TAU a)) by congruence.
  assert (Eb : vals TAU b' = vscale (val TAU (T 5 0 1)) (vals TAU b)) by congruence.
  assert (Ec : vals TAU c' = vscale (val TAU (T 5 0 1)) (vals TAU c)) by congruence.
  assert (V5 : val TAU (T 5 0 1) = 5) by (unfold val; cbn; field). rewrite V5 in *.
  inversion Cr as [|? ? Ca Cr']; subst. inversion Cr' as [|? ? Cb Cr'']; subst. inversion Cr'' as [|? ? Cc _]; subst.
  assert (Ga : good 6 a') by (apply (good_of_vals _ _ Ca Ea); rewrite vscale_length, vals_length; exact La).
  assert (Gb : good 6 b') by (apply (good_of_vals _ _ Cb Eb); rewrite vscale_length, vals_length; exact Lb).
  assert (Gc : good 6 c') by (apply (good_of_vals _ _ Cc Ec); rewrite vscale_length, vals_length; exact Lc).
  assert (Go : good 6 o6) by (gd).
  assert (EC : corner_tetrahedron (Some [a'; b'; c']) = Ok [[o6; a'; b'; c']]).
  { destruct Ga as [_ Ga], Gb as [_ Gb], Gc as [_ Gc]. clear - Ga Gb Gc. len6 a'. len6 b'. len6 c'. reflexivity. }
  assert (Gt : goodo 6 [[o6; a'; b'; c']]) by (repeat (constructor; auto)).
  destruct (wp_elim _ _ (shift_spec ico_arith _ pos 6 Gt Gp)) as (s & Es & o' & -> & Cs & Vs).
  cbn [map] in Vs. destruct o' as [|t [|? ?]]; try discriminate Vs. cbn [map] in Vs.
  destruct t as [|p0 [|p1 [|p2 [|p3 [|? ?]]]]]; try discriminate Vs. cbn [map] in Vs.
  exists [p0; p1; p2; p3].
  inversion Cs as [|? ? Cs' _]; subst.
  assert (Gt' : goods 6 [p0; p1; p2; p3]).
  { unfold goods, cgoods in *. eapply Forall_impl; [|exact Cs']. intros v [C L]. split; [apply canonv_wfv; exact C|exact L]. }
  split; [constructor; [split; [reflexivity|exact Gt']|constructor]|].
  assert (E0 : vals TAU p0 = vadd (vals TAU o6) (vals TAU pos)) by congruence.
  assert (E1 : vals TAU p1 = vadd (vals TAU a') (vals TAU pos)) by congruence.
  assert (E2 : vals TAU p2 = vadd (vals TAU b') (vals TAU pos)) by congruence.
  assert (E3 : vals TAU p3 = vadd (vals TAU c') (vals TAU pos)) by congruence.
  assert (L6 : forall v, good 6 v -> length (vals TAU v) = 6%nat) by (intros v [_ L]; rewrite vals_length; exact L).
  split.
  - cbn [map]. rewrite (pp_vadd _ _ _ (L6 _ Go) (L6 _ Gp) E0), (pp_vadd _ _ _ (L6 _ Ga) (L6 _ Gp) E1), (pp_vadd _ _ _ (L6 _ Gb) (L6 _ Gp) E2), (pp_vadd _ _ _ (L6 _ Gc) (L6 _ Gp) E3).
    rewrite (pp_vscale a 5 a'), (pp_vscale b 5 b'), (pp_vscale c 5 c') by (auto; rewrite vals_length; assumption).
    rewrite pp_o6. destruct (pp pos) as [[? ?] ?], (pp a) as [[? ?] ?], (pp b) as [[? ?] ?], (pp c) as [[? ?] ?]. cbn [add3 scale3].
    repeat (apply f_equal2; [apply f_equal2; [apply f_equal2|]; ring|]). reflexivity.
  - intros N delaunay draws o. unfold asymmetric. rewrite Em. cbn [bind]. rewrite EC. cbn [bind].
    change (shift (A4 [[o6; a'; b'; c']]) pos) with (shift_object_ add (A4 [[o6; a'; b'; c']]) pos). rewrite Es. reflexivity.
Qed.

(** Points with barycentric coordinates >= -h in that tetrahedron, in coordinates of the corner. *)
Lemma near_corner h P a b c p : near h [P; add3 P (scale3 5 a); add3 P (scale3 5 b); add3 P (scale3 5 c)] p -> in_corner (5*h) (5 + 5*h) P a b c p.
Proof.
  intros (ws & (L & Sm & E) & Fw). destruct ws as [|w0 [|w1 [|w2 [|w3 [|? ?]]]]]; try discriminate L.
  apply Forall_cons_iff in Fw as [A0 Fw]. apply Forall_cons_iff in Fw as [A1 Fw]. apply Forall_cons_iff in Fw as [A2 Fw]. apply Forall_cons_iff in Fw as [A3 _].
  unfold Rsum in Sm. cbn in Sm.
  exists (5*w1), (5*w2), (5*w3). repeat split; try lra.
  rewrite E. assert (E0 : w0 = 1 - w1 - w2 - w3) by lra. rewrite E0.
  destruct P as [[? ?] ?], a as [[? ?] ?], b as [[? ?] ?], c as [[? ?] ?]. unfold corner_point, o3. cbn. unfold o3. cbn.
  apply f_equal2; [apply f_equal2|]; ring.
Qed.
Lemma corner_hull P a b c p : in_corner 0 5 P a b c p -> hull [P; add3 P (scale3 5 a); add3 P (scale3 5 b); add3 P (scale3 5 c)] p.
Proof.
  intros (x & y & z & X & Y & Z & S5 & E). exists [1 - (x+y+z)/5; x/5; y/5; z/5].
  split; [split; [reflexivity|split; [unfold Rsum; cbn; lra|]]|repeat (apply Forall_cons; [lra|]); constructor].
  rewrite E. destruct P as [[? ?] ?], a as [[? ?] ?], b as [[? ?] ?], c as [[? ?] ?]. unfold corner_point. cbn. unfold o3. cbn.
  apply f_equal2; [apply f_equal2|]; field.
Qed.

(** Nothing spurious: the result lies in the object and in the corner, up to the tolerance
    of intersection(). *)
Lemma L_C87_sound : forall delaunay draws o pos a b c r p, tets o -> good 6 pos -> good 6 a -> good 6 b -> good 6 c ->
  asymmetric Rnum delaunay draws o pos (A3 [a; b; c]) = Ok (Some r) -> region r p ->
  (exists t, In t o /\ near (1/1000000) (map pp t) p) /\ in_corner (5/1000000) (5 + 5/1000000) (pp pos) (pp a) (pp b) (pp c) p.
Proof.
  intros delaunay draws o pos a b c r p To Gp Ga Gb Gc H R.
  destruct (L_C87_reduces pos a b c Gp Ga Gb Gc) as (t & Tt & Et & E). rewrite E in H.
  destruct (L_C69_sound _ _ _ _ _ _ To Tt H R) as (t1 & t2 & I1 & [<-|[]] & N1 & N2). split; [eauto|].
  rewrite Et in N2. apply near_corner in N2. replace (5/1000000) with (5 * (1/1000000)) by field. exact N2.
Qed.

(** Nothing is lost: a point of the object in the corner, within five times the given
    vectors, lies in the result. *)
Lemma L_C87_complete : forall delaunay draws o pos a b c r p, tets o -> good 6 pos -> good 6 a -> good 6 b -> good 6 c ->
  (forall t, In t o -> pvol t <> 0) -> triple3 (pp a) (pp b) (pp c) <> 0 ->
  (forall t0 t, In t0 o -> map pp t = [pp pos; add3 (pp pos) (scale3 5 (pp a)); add3 (pp pos) (scale3 5 (pp b)); add3 (pp pos) (scale3 5 (pp c))] -> decided_pair t0 t) ->
  (forall q l, delaunay q = Some l -> covers q l) ->
  asymmetric Rnum delaunay draws o pos (A3 [a; b; c]) = Ok r ->
  region o p -> in_corner 0 5 (pp pos) (pp a) (pp b) (pp c) p ->
  (exists r', r = Some r' /\ region r' p) \/
  (exists t0 n d, In t0 o /\ hull (map pp t0) p /\ norm3 n = 1 /\
     forall q, hull (map pp t0) q -> in_corner 0 5 (pp pos) (pp a) (pp b) (pp c) q -> Rabs (dot3 n q - d) < 1/10000).
Proof.
  intros delaunay draws o pos a b c r p To Gp Ga Gb Gc Vo V3 Dec Cov H Ro Co.
  destruct (L_C87_reduces pos a b c Gp Ga Gb Gc) as (t & Tt & Et & E). rewrite E in H.
  assert (Ht : hull (map pp t) p) by (rewrite Et; apply corner_hull; exact Co).
  assert (Vt : pvol t <> 0).
  { assert (L4 : length t = 4%nat) by (rewrite <- (map_length pp), Et; reflexivity).
    destruct t as [|p0 [|p1 [|p2 [|p3 [|? ?]]]]]; try discriminate L4. cbn [map] in Et. apply pvol_flat.
    replace (pp p0) with (pp pos) by congruence. replace (pp p1) with (add3 (pp pos) (scale3 5 (pp a))) by congruence.
    replace (pp p2) with (add3 (pp pos) (scale3 5 (pp b))) by congruence. replace (pp p3) with (add3 (pp pos) (scale3 5 (pp c))) by congruence.
    intros K. apply V3. revert K. unfold flat4, triple3. destruct (pp pos) as [[? ?] ?], (pp a) as [[? ?] ?], (pp b) as [[? ?] ?], (pp c) as [[? ?] ?]. cbn. intros K. nra. }
  destruct (L_C69_complete delaunay draws o [t] r p To Tt) as [L | (t1 & t2 & I1 & [<-|[]] & H1 & H2 & (n & d & Nn & Th))]; auto.
  - intros t' [I|[<-|[]]]; auto.
  - intros t1 t2 I1 [<-|[]]. apply Dec; auto.
  - exists t. split; [left; reflexivity|exact Ht].
  - right. exists t1, n, d. repeat split; auto. intros q Hq Cq. apply Th; [exact Hq|]. rewrite Et. apply corner_hull. exact Cq.
Qed.

(** The factor 5 is a limit, not a convention: points of the corner beyond it are never in
    the result, however large the object. *)
Lemma L_C87_cut : forall delaunay draws o pos a b c r x y z, tets o -> good 6 pos -> good 6 a -> good 6 b -> good 6 c ->
  triple3 (pp a) (pp b) (pp c) <> 0 -> 5 + 5/1000000 < x + y + z ->
  asymmetric Rnum delaunay draws o pos (A3 [a; b; c]) = Ok (Some r) -> ~ region r (corner_point (pp pos) (pp a) (pp b) (pp c) x y z).
Proof.
  intros delaunay draws o pos a b c r x y z To Gp Ga Gb Gc V3 Big H R.
  destruct (L_C87_sound _ _ _ _ _ _ _ _ _ To Gp Ga Gb Gc H R) as [_ (x' & y' & z' & _ & _ & _ & S5 & E)].
  enough (x' = x /\ y' = y /\ z' = z) by lra.
  revert V3 E. clear. unfold triple3, corner_point. destruct (pp pos) as [[p1 p2] p3], (pp a) as [[a1 a2] a3], (pp b) as [[b1 b2] b3], (pp c) as [[c1 c2] c3]. cbn.
  intros V3 E. assert (A1 := f_equal (fun q => fst (fst q)) E). assert (A2 := f_equal (fun q => snd (fst q)) E). assert (A3 := f_equal snd E). cbn in A1, A2, A3. clear E.
  assert (K : forall d, d * ((a2 * b3 - a3 * b2) * c1 + (a3 * b1 - a1 * b3) * c2 + (a1 * b2 - a2 * b1) * c3) = 0 -> d = 0).
  { intros d Hd. apply Rmult_integral in Hd as [Hd|Hd]; [exact Hd|contradiction]. }
  assert (B1 : (x'-x)*a1 + (y'-y)*b1 + (z'-z)*c1 = 0) by lra.
  assert (B2 : (x'-x)*a2 + (y'-y)*b2 + (z'-z)*c2 = 0) by lra.
  assert (B3 : (x'-x)*a3 + (y'-y)*b3 + (z'-z)*c3 = 0) by lra.
  split; [|split]; apply Rminus_diag_uniq, K.
  - transitivity (((x'-x)*a1 + (y'-y)*b1 + (z'-z)*c1) * (b2*c3-b3*c2) + ((x'-x)*a2 + (y'-y)*b2 + (z'-z)*c2) * (b3*c1-b1*c3) + ((x'-x)*a3 + (y'-y)*b3 + (z'-z)*c3) * (b1*c2-b2*c1)); [ring|]. rewrite B1, B2, B3. ring.
  - transitivity (((x'-x)*a1 + (y'-y)*b1 + (z'-z)*c1) * (c2*a3-c3*a2) + ((x'-x)*a2 + (y'-y)*b2 + (z'-z)*c2) * (c3*a1-c1*a3) + ((x'-x)*a3 + (y'-y)*b3 + (z'-z)*c3) * (c1*a2-c2*a1)); [ring|]. rewrite B1, B2, B3. ring.
  - transitivity (((x'-x)*a1 + (y'-y)*b1 + (z'-z)*c1) * (a2*b3-a3*b2) + ((x'-x)*a2 + (y'-y)*b2 + (z'-z)*c2) * (a3*b1-a1*b3) + ((x'-x)*a3 + (y'-y)*b3 + (z'-z)*c3) * (a1*b2-a2*b1)); [ring|]. rewrite B1, B2, B3. ring.
Qed.

(** Anything but three 6-d vectors (18 scalars) raises. *)
Lemma L_C87_shape : forall N delaunay draws o pos vs, Forall wfv vs -> length (concat vs) <> 18%nat ->
  asymmetric N delaunay draws o pos (A3 vs) = Raise ValueError.
Proof.
  intros N delaunay draws o pos vs W L.
  destruct (wp_elim _ _ (mul_vectors_spec ico_arith vs (T 5 0 1) W ltac:(cbv; discriminate))) as (m & Em & rs & -> & Cr & Vr).
  unfold asymmetric. rewrite Em. cbn [bind corner_tetrahedron].
  assert (K : length (concat rs) = length (concat vs)).
  { clear - Vr. revert vs Vr. induction rs as [|r rs IH]; intros [|v vs] Vr; try discriminate; [reflexivity|]. cbn [map] in Vr. cbn [concat]. rewrite !app_length, (IH vs) by congruence.
    f_equal. assert (E : vals TAU r = vscale (val TAU (T 5 0 1)) (vals TAU v)) by congruence. apply (f_equal (@length R)) in E. rewrite vscale_length, !vals_length in E. exact E. }
  rewrite K. destruct (Nat.eqb_spec (length (concat vs)) 18); [contradiction|]. reflexivity.
Qed.

(** A tetrahedron at the origin and the corner spanned by its edges: the hypotheses hold,
    and in exact arithmetic the tetrahedron is returned. *)
Example E_C87_run : tets [tetA] /\ good 6 o6 /\ good 6 x1 /\ good 6 x2 /\ good 6 x4 /\ pvol tetA <> 0 /\ triple3 (pp x1) (pp x2) (pp x4) <> 0 /\
  (forall t, map pp t = [pp o6; add3 (pp o6) (scale3 5 (pp x1)); add3 (pp o6) (scale3 5 (pp x2)); add3 (pp o6) (scale3 5 (pp x4))] -> decided_pair tetA t) /\
  asymmetric Rnum (fun _ => None) (fun _ _ => []) [tetA] o6 (A3 [x1; x2; x4]) = Ok (Some [tetA]).
Proof.
  assert (TA : tets [tetA]) by gd. assert (VA : pvol tetA <> 0) by (unfold tetA; nonzero).
  assert (G0 : good 6 o6) by gd. assert (G1 : good 6 x1) by gd. assert (G2 : good 6 x2) by gd. assert (G4 : good 6 x4) by gd.
  assert (V3 : triple3 (pp x1) (pp x2) (pp x4) <> 0).
  { intros K. apply (proj1 (pvol_flat o6 x1 x2 x4) VA). unfold flat4. rewrite <- K, pp_o6, pp_x1, pp_x2, pp_x4. unfold triple3. cbn. ring. }
  do 7 (split; [assumption|]). split.
  - intros t Et. assert (L4 : length t = 4%nat) by (rewrite <- (map_length pp), Et; reflexivity).
    destruct t as [|p0 [|p1 [|p2 [|p3 [|? ?]]]]]; try discriminate L4. clear L4. cbn [map] in Et.
    assert (E0 : pp p0 = (0, 0, 0)) by (rewrite <- pp_o6; congruence).
    assert (E1 : pp p1 = (5*TAU, -5, 0)) by (transitivity (add3 (pp o6) (scale3 5 (pp x1))); [congruence|]; rewrite pp_o6, pp_x1; cbn; apply f_equal2; [apply f_equal2|]; ring).
    assert (E2 : pp p2 = (-5, 0, 5*TAU)) by (transitivity (add3 (pp o6) (scale3 5 (pp x2))); [congruence|]; rewrite pp_o6, pp_x2; cbn; apply f_equal2; [apply f_equal2|]; ring).
    assert (E3 : pp p3 = (0, 5*TAU, 5)) by (transitivity (add3 (pp o6) (scale3 5 (pp x4))); [congruence|]; rewrite pp_o6, pp_x4; cbn; apply f_equal2; [apply f_equal2|]; ring).
    clear Et. unfold tetA. split; (intros s f [Es Ls] [Ef Lf]; apply subseq2 in Es; [|exact Ls]; apply subseq3 in Ef; [|exact Lf];
    (repeat (destruct Es as [<-|Es]; [|]); [.. |destruct Es]); (repeat (destruct Ef as [<-|Ef]; [|]); [.. |destruct Ef]);
    intros a b c d e Ea Eb; injection Ea as <- <-; injection Eb as <- <- <-; cbv zeta; rewrite ?E0, ?E1, ?E2, ?E3; dec_one).
  - destruct (L_C87_reduces o6 x1 x2 x4 G0 G1 G2 G4) as (t & Tt & Et & E). rewrite E.
    inversion TA as [|? ? [LA GA] _]; subst. inversion Tt as [|? ? [Lt Gt] _]; subst.
    assert (Vt : pvol t <> 0).
    { destruct t as [|p0 [|p1 [|p2 [|p3 [|? ?]]]]]; try discriminate Lt. cbn [map] in Et. apply pvol_flat.
      replace (pp p0) with (pp o6) by congruence. replace (pp p1) with (add3 (pp o6) (scale3 5 (pp x1))) by congruence.
      replace (pp p2) with (add3 (pp o6) (scale3 5 (pp x2))) by congruence. replace (pp p3) with (add3 (pp o6) (scale3 5 (pp x4))) by congruence.
      intros K. apply V3. revert K. unfold flat4, triple3. destruct (pp o6) as [[? ?] ?], (pp x1) as [[? ?] ?], (pp x2) as [[? ?] ?], (pp x4) as [[? ?] ?]. cbn. intros K. nra. }
    assert (In4 : forall v, In v tetA -> hull (map pp t) (pp v)).
    { intros v Iv. rewrite Et. apply corner_hull. unfold in_corner.
      destruct Iv as [<-|[<-|[<-|[<-|[]]]]]; [exists 0, 0, 0|exists 1, 0, 0|exists 0, 1, 0|exists 0, 0, 1]; repeat split; try lra; rewrite ?pp_o6, ?pp_x1, ?pp_x2, ?pp_x4; unfold corner_point; cbn; apply f_equal2; try apply f_equal2; ring. }
    assert (Cl : check_intersection_two_tetrahedron_4 Rnum tetA t = Ok 1%Z).
    { destruct (L_C33_classes Rnum tetA t LA GA Lt Gt) as (k & Ek & K1 & _). rewrite Ek. f_equal. apply K1.
      intros v Iv. apply inside_hull; auto. exact (goods_in 6 _ _ GA Iv). }
    destruct (L_C34_never_discards tetA [t] t (pp o6)) as (c & r & Ec & Ed & Er); [discriminate|exact GA|exact Tt|left; reflexivity|apply hull_mem; left; reflexivity|apply In4; left; reflexivity|].
    rewrite (L_C36_intersection Rnum (fun _ => None) (fun _ _ => []) false (A4 [tetA]) (A4 [t]) c r Ec Ed).
    unfold common_pieces, outer_loop, contribution. rewrite Er. cbn [bind inner_loop]. rewrite Cl. reflexivity.
Qed.
