(** Intersection of convex objects (ico2/two_occupation_domains.py intersection_convex): C91. *)
From Coq Require Import Reals List ZArith Lia Lra Bool.
From Verif Require Import Base.Res Model.Tau Model.Arr Model.Num Model.IcoIntersect Model.Convex
  Spec.Value Spec.RVec Spec.Shape Spec.Mean Spec.IcoSpec Spec.Sets Spec.Space Spec.Tetra Spec.Region Spec.Surface Spec.Solid Spec.Overlap Spec.Samples Spec.Convex.
Import ListNotations.
Local Open Scope R_scope.

From Verif Require Import Proofs.Irrational Proofs.NumLemmas Proofs.IntersectLemmas Proofs.Polytope Proofs.OverlapLemmas Proofs.P_Intersect Proofs.P_Surface Proofs.P_Overlap Proofs.Frontier3 Proofs.SolidLemmas
  Proofs.P_Solid Proofs.ConvexSets Proofs.ConvexLemmas Proofs.ConvexMain.
From Verif Require Proofs.DodeIntersectLemmas.

Lemma inhabited o : convex_solid o -> exists x, region o x.
Proof.
  intros [(Ne & To & NF & _) _]. destruct o as [|t o]; [contradiction|]. inversion To as [|? ? [L _] _]; subst. destruct t as [|v t]; [discriminate|].
  exists (pp v), (v :: t). split; [left; reflexivity|]. apply hull_mem. left. reflexivity.
Qed.
Ltac cases delaunay W := let H := fresh in pose proof W as H; destruct H as (K1 & K2 & D12 & D21 & C12 & C21);
  destruct (convex_outcome delaunay _ _ K1 K2 D12 D21 C12 C21) as [(A & E)|[(A & B & E)|[(A & E)|[(A & B & C & D & E)|(A & B & C & D & E)]]]].

(** C91: in exact arithmetic, if the first solid lies in the second it is returned unchanged. *)
Lemma L_C91_first_inside : forall delaunay o1 o2, well_placed o1 o2 -> within o1 o2 ->
  intersection_convex Rnum delaunay (A4 o1) (A4 o2) = Ok (Some o1).
Proof.
  intros delaunay o1 o2 W I. cases delaunay W; try contradiction; [exact E|]. destruct (inhabited o1 K1) as (x & R). destruct (A x). split; [exact R|apply I, R].
Qed.
(** Otherwise, if the second lies in the first, the second is. *)
Lemma L_C91_second_inside : forall delaunay o1 o2, well_placed o1 o2 -> ~ within o1 o2 -> within o2 o1 ->
  intersection_convex Rnum delaunay (A4 o1) (A4 o2) = Ok (Some o2).
Proof.
  intros delaunay o1 o2 W N I. cases delaunay W; try contradiction; [exact E|]. destruct (inhabited o2 K2) as (x & R). destruct (A x). split; [apply I, R|exact R].
Qed.
(** The empty result is returned exactly for disjoint solids, unless the triangulation itself returns nothing. *)
Lemma L_C91_disjoint : forall delaunay o1 o2, well_placed o1 o2 -> (forall x, ~ (region o1 x /\ region o2 x)) ->
  intersection_convex Rnum delaunay (A4 o1) (A4 o2) = Ok None.
Proof.
  intros delaunay o1 o2 W N. cases delaunay W; [| |exact E| |].
  - destruct (inhabited o1 K1) as (x & R). destruct (N x). split; [exact R|apply A, R].
  - destruct (inhabited o2 K2) as (x & R). destruct (N x). split; [apply B, R|exact R].
  - destruct C as (x & R). destruct (N x R).
  - destruct C as (x & C & R). destruct (N x). split; [exact (corner_region o1 x K1 C)|exact R].
Qed.
(** If the solids overlap, neither contains the other and each has a corner in the other, the
    points handed to the triangulation span exactly the common part. *)
Lemma L_C91_points : forall delaunay o1 o2 p1 p2, well_placed o1 o2 -> ~ within o1 o2 -> ~ within o2 o1 ->
  outer_corner o1 p1 -> region o2 p1 -> outer_corner o2 p2 -> region o1 p2 ->
  exists pts, goods 6 pts /\ (forall x, hull (map pp pts) x <-> region o1 x /\ region o2 x) /\
    intersection_convex Rnum delaunay (A4 o1) (A4 o2) = tetrahedralization_points Rnum delaunay pts.
Proof.
  intros delaunay o1 o2 p1 p2 W N1 N2 O1 R1 O2 R2. cases delaunay W; try contradiction.
  - destruct (A p1). split; [exact (corner_region o1 p1 K1 O1)|exact R1].
  - destruct D as [D|D]; [destruct (D p1 O1 R1)|destruct (D p2 O2 R2)].
  - exact E.
Qed.
(** If they overlap but one of them has no corner in the other, the function raises. *)
Lemma L_C91_raises : forall delaunay o1 o2 x, well_placed o1 o2 -> ~ within o1 o2 -> ~ within o2 o1 -> region o1 x -> region o2 x ->
  ((forall p, outer_corner o1 p -> ~ region o2 p) \/ (forall p, outer_corner o2 p -> ~ region o1 p)) ->
  intersection_convex Rnum delaunay (A4 o1) (A4 o2) = Raise UnboundLocalError.
Proof.
  intros delaunay o1 o2 x W N1 N2 R1 R2 H. cases delaunay W; try contradiction; [destruct (A x (conj R1 R2))|exact E|].
  destruct C as (p & P1 & P2). destruct D as (q & Q1 & Q2). destruct H as [H|H]; [destruct (H p P1 P2)|destruct (H q Q1 Q2)].
Qed.
(** Whatever is returned occupies exactly the common part, if the triangulation covers the
    hull of its points. *)
Lemma L_C91_region : forall delaunay o1 o2 r x, well_placed o1 o2 -> (forall q l, delaunay q = Some l -> covers q l) ->
  intersection_convex Rnum delaunay (A4 o1) (A4 o2) = Ok r ->
  ((exists c, r = Some c /\ region c x) <-> region o1 x /\ region o2 x).
Proof.
  intros delaunay o1 o2 r x W Cov H. cases delaunay W; rewrite H in E.
  - injection E as ->. split; [intros (c & X & R); injection X as <-; auto|]. intros (R & _). exists o1. auto.
  - injection E as ->. split; [intros (c & X & R); injection X as <-; auto|]. intros (_ & R). exists o2. auto.
  - injection E as ->. split; [intros (c & X & _); discriminate|]. intros R. destruct (A x R).
  - discriminate.
  - destruct E as (pts & G & Hp & E). symmetry in E. rewrite <- Hp. split.
    + intros (c & -> & t & It & Ht). destruct (L_C37_pieces Rnum delaunay pts (Some c) G E) as (_ & _ & _ & _ & _ & _ & _ & _ & Inc). rewrite Forall_forall in Inc.
      apply (hull_trans (map pp t)); [exact Ht|]. intros y Iy. apply in_map_iff in Iy as (v & <- & Iv). apply hull_mem, in_map, (Inc t It), Iv.
    + intros Hx. exact (tetra_covers_opt delaunay pts r x G Cov E Hx).
Qed.
(** Arguments that are not arrays of tetrahedra give no result. *)
Lemma L_C91_shape : forall N delaunay a1 a2, (forall o, a1 <> A4 o) \/ (forall o, a2 <> A4 o) -> intersection_convex N delaunay a1 a2 = Ok None.
Proof. intros N delaunay a1 a2 H. destruct a1, a2; try reflexivity. destruct H as [H|H]; exfalso; eapply H; reflexivity. Qed.

(** Coordinates along the projections of the basis vectors 1, 2 and 4. *)
Definition ax (c : R3) : R3 := let '(x, y, z) := c in (TAU * x - y, TAU * z - x, TAU * y + z).
Lemma ax_inj a b : ax a = ax b -> a = b.
Proof.
  destruct a as [[x y] z], b as [[x' y'] z']. unfold ax. intros E. injection E as E1 E2 E3. pose proof TAU_bounds. pose proof TAU_sq as TS.
  assert (Ex : x - x' = TAU * (z - z')) by lra. assert (Ey : y - y' = TAU * (TAU * (z - z'))) by (rewrite <- Ex; lra).
  assert (Ez : (TAU * (TAU * TAU) + 1) * (z - z') = 0) by (replace ((TAU * (TAU * TAU) + 1) * (z - z')) with (TAU * (TAU * (TAU * (z - z'))) + (z - z')) by ring; rewrite <- Ey; lra).
  apply Rmult_integral in Ez as [Ez|Ez]; [exfalso; rewrite TS in Ez; nra|]. rewrite Ez, !Rmult_0_r in Ey. rewrite Ez, Rmult_0_r in Ex.
  apply f_equal2; [apply f_equal2|]; lra.
Qed.
Lemma ax_comb ws ps : comb ws (map ax ps) = ax (comb ws ps).
Proof.
  revert ps. induction ws as [|w ws IH]; intros [|[[x y] z] ps]; try (cbn; unfold o3; apply f_equal2; [apply f_equal2|]; ring).
  cbn [map comb]. rewrite IH. destruct (comb ws ps) as [[x' y'] z']. unfold ax, add3, scale3. apply f_equal2; [apply f_equal2|]; ring.
Qed.
Lemma ax_near h ps p : near h (map ax ps) p -> exists ws, length ws = length ps /\ Rsum ws = 1 /\ p = ax (comb ws ps) /\ Forall (Rle (- h)) ws.
Proof. intros (ws & (L & S & ->) & P). rewrite map_length in L. exists ws. rewrite ax_comb. auto. Qed.
Lemma ax_hull ws ps p : length ws = length ps -> Rsum ws = 1 -> p = ax (comb ws ps) -> Forall (Rle 0) ws -> hull (map ax ps) p.
Proof. intros L S -> P. exists ws. split; [|exact P]. split; [rewrite map_length; exact L|]. split; [exact S|]. rewrite ax_comb. reflexivity. Qed.
Lemma ax_triple a b c d e : triple3 (sub3 (ax b) (ax a)) (sub3 (ax d) (ax c)) (sub3 (ax e) (ax c)) = - (TAU * (TAU * TAU) + 1) * triple3 (sub3 b a) (sub3 d c) (sub3 e c).
Proof. destruct a as [[? ?] ?], b as [[? ?] ?], c as [[? ?] ?], d as [[? ?] ?], e as [[? ?] ?]. cbn. ring. Qed.

Definition edges4 (c : list R3) : list (R3 * R3) := match c with [a; b; c; d] => [(a,b); (a,c); (a,d); (b,c); (b,d); (c,d)] | _ => [] end.
Definition faces4 (c : list R3) : list (R3 * R3 * R3) := match c with [a; b; c; d] => [(a,b,c); (a,b,d); (a,c,d); (b,c,d)] | _ => [] end.
(** The conditions of well_placed in these coordinates. *)
Definition corners_ok (c1 c2 : list R3) : Prop := forall v p q r, In v c1 ->
  v = comb [1 - p - q - r; p; q; r] c2 -> - (1/1000000) <= 1 - p - q - r -> - (1/1000000) <= p -> - (1/1000000) <= q -> - (1/1000000) <= r ->
  0 <= 1 - p - q - r /\ 0 <= p /\ 0 <= q /\ 0 <= r.
Definition meets_ok (c1 c2 : list R3) : Prop := forall a b c d e, In (a, b) (edges4 c1) -> In (c, d, e) (faces4 c2) ->
  triple3 (sub3 b a) (sub3 d c) (sub3 e c) = 0 \/ (1/1000000 <= Rabs (triple3 (sub3 b a) (sub3 d c) (sub3 e c)) /\
    forall p q r, comb [1 - p; p] [a; b] = comb [1 - q - r; q; r] [c; d; e] -> - (1/1000000) <= p -> p <= 1 + 1/1000000 ->
     - (1/1000000) <= 1 - q - r -> - (1/1000000) <= q -> - (1/1000000) <= r -> 0 <= p <= 1 /\ 0 <= 1 - q - r /\ 0 <= q /\ 0 <= r).

Lemma one_faces t f : outer_face [t] f -> In f (tet_faces t).
Proof. intros [I _]. unfold all_faces in I. cbn [map concat] in I. rewrite app_nil_r in I. exact I. Qed.
Lemma tet_edge a b c d f s : In f (tet_faces [a; b; c; d]) -> edge_of s f -> In s [[a; b]; [a; c]; [a; d]; [b; c]; [b; d]; [c; d]].
Proof.
  intros If [Ss Ls]. apply subseq2; [|exact Ls]. cbn [tet_faces In] in If.
  destruct If as [<-|[<-|[<-|[<-|[]]]]]; apply Verif.Proofs.DodeIntersectLemmas.tsubseq2 in Ss; try exact Ls; cbn [In] in Ss; destruct Ss as [<-|[<-|[<-|[]]]]; subs.
Qed.
Lemma one_region t x : region [t] x <-> hull (map pp t) x.
Proof. split; [intros (u & [<-|[]] & H); exact H|intros H; exists t; split; [left; reflexivity|exact H]]. Qed.
Lemma det_big : 1 <= TAU * (TAU * TAU) + 1. Proof. pose proof TAU_bounds. pose proof TAU_sq as S. rewrite S. nra. Qed.

Section One.
Variables t1 t2 : vecs.
Variables c1 c2 : list R3.
Hypothesis E1 : map pp t1 = map ax c1.
Hypothesis E2 : map pp t2 = map ax c2.
Hypothesis L1 : length c1 = 4%nat.
Hypothesis L2 : length c2 = 4%nat.

Lemma in_edges f a b : outer_face [t1] f -> edge_of [a; b] f -> exists a' b', pp a = ax a' /\ pp b = ax b' /\ In (a', b') (edges4 c1).
Proof.
  intros If Ie. apply one_faces in If. assert (Lt : length t1 = 4%nat) by (rewrite <- (map_length pp), E1, map_length; exact L1).
  destruct t1 as [|u0 [|u1 [|u2 [|u3 [|]]]]]; try discriminate Lt. destruct c1 as [|v0 [|v1 [|v2 [|v3 [|]]]]]; try discriminate L1.
  pose proof (tet_edge _ _ _ _ _ _ If Ie) as I. cbn [map] in E1. injection E1 as F0 F1 F2 F3. cbn [In] in I. cbn [edges4].
  destruct I as [I|[I|[I|[I|[I|[I|[]]]]]]]; injection I as <- <-; eexists; eexists; (split; [eassumption|split; [eassumption|]]); cbn [In]; tauto.
Qed.
Lemma in_faces g c d e : outer_face [t2] g -> g = [c; d; e] -> exists c' d' e', pp c = ax c' /\ pp d = ax d' /\ pp e = ax e' /\ In (c', d', e') (faces4 c2).
Proof.
  intros Ig ->. apply one_faces in Ig. assert (Lt : length t2 = 4%nat) by (rewrite <- (map_length pp), E2, map_length; exact L2).
  destruct t2 as [|u0 [|u1 [|u2 [|u3 [|]]]]]; try discriminate Lt. destruct c2 as [|v0 [|v1 [|v2 [|v3 [|]]]]]; try discriminate L2.
  cbn [map] in E2. injection E2 as F0 F1 F2 F3. cbn [tet_faces In] in Ig. cbn [faces4].
  destruct Ig as [I|[I|[I|[I|[]]]]]; injection I as <- <- <-; do 3 eexists; (split; [eassumption|split; [eassumption|split; [eassumption|]]]); cbn [In]; tauto.
Qed.
Lemma edge_sub a b : In (a, b) (edges4 c1) -> In a c1 /\ In b c1.
Proof. destruct c1 as [|v0 [|v1 [|v2 [|v3 [|]]]]]; try discriminate L1. cbn [edges4 In]. intros I. decompose [or] I; try contradiction; match goal with H : (_, _) = _ |- _ => injection H as <- <- end; tauto. Qed.
Lemma face_sub a b c : In (a, b, c) (faces4 c2) -> In a c2 /\ In b c2 /\ In c c2.
Proof. destruct c2 as [|v0 [|v1 [|v2 [|v3 [|]]]]]; try discriminate L2. cbn [faces4 In]. intros I. decompose [or] I; try contradiction; match goal with H : (_, _, _) = _ |- _ => injection H as <- <- <- end; tauto. Qed.

Lemma one_decided : meets_ok c1 c2 -> decided_solids [t1] [t2].
Proof.
  intros M f g s Of Og Es a b c d e -> Eg k. destruct (in_edges f a b Of Es) as (a' & b' & Pa & Pb & I1). destruct (in_faces g c d e Og Eg) as (c' & d' & e' & Pc & Pd & Pe & I2).
  unfold k. rewrite Pa, Pb, Pc, Pd, Pe, ax_triple. pose proof det_big as D. destruct (M a' b' c' d' e' I1 I2) as [Z|[B _]]; [left; rewrite Z; ring|right].
  rewrite Rabs_mult, Rabs_Ropp, (Rabs_right (TAU * (TAU * TAU) + 1)) by lra. nra.
Qed.
Lemma one_clear : corners_ok c1 c2 -> meets_ok c1 c2 -> clear_solids [t1] [t2].
Proof.
  intros C M. split.
  - intros f v t Of Iv [<-|[]] Hn. apply one_region. rewrite E2 in *. apply ax_near in Hn as (ws & Lw & Sw & Pv & Pw). apply (ax_hull ws); try assumption.
    assert (Ic : exists v', In v' c1 /\ ax v' = pp v).
    { assert (I : In (pp v) (map ax c1)).
      { rewrite <- E1. apply in_map. apply one_faces in Of. assert (Lt : length t1 = 4%nat) by (rewrite <- (map_length pp), E1, map_length; exact L1).
        destruct t1 as [|u0 [|u1 [|u2 [|u3 [|]]]]]; try discriminate Lt. cbn [tet_faces In] in Of. destruct Of as [<-|[<-|[<-|[<-|[]]]]]; cbn [In] in *; tauto. }
      apply in_map_iff in I as (v' & E & I). eauto. }
    destruct Ic as (v' & Iv' & Ev). rewrite <- Ev in Pv. apply ax_inj in Pv. rewrite L2 in Lw. destruct ws as [|w0 [|w1 [|w2 [|w3 [|]]]]]; try discriminate Lw.
    unfold Rsum in Sw. cbn in Sw. inversion Pw as [|? ? P0 Pw1]; subst. inversion Pw1 as [|? ? P1 Pw2]; subst. inversion Pw2 as [|? ? P2 Pw3]; subst. inversion Pw3 as [|? ? P3 _]; subst.
    assert (w0 = 1 - w1 - w2 - w3) as -> by lra. destruct (C _ w1 w2 w3 Iv' eq_refl P0 P1 P2 P3) as (? & ? & ? & ?). repeat (apply Forall_cons; [assumption|]). constructor.
  - intros f g a b c d e p Of Og Es Eg T N1 N2. destruct (in_edges f a b Of Es) as (a' & b' & Pa & Pb & I1). destruct (in_faces g c d e Og Eg) as (c' & d' & e' & Pc & Pd & Pe & I2).
    rewrite Pa, Pb, Pc, Pd, Pe, ax_triple in T. rewrite Eg in N2. cbn [map] in N1, N2. rewrite Pa, Pb in N1. rewrite Pc, Pd, Pe in N2.
    change [ax a'; ax b'] with (map ax [a'; b']) in N1. change [ax c'; ax d'; ax e'] with (map ax [c'; d'; e']) in N2.
    apply ax_near in N1 as (ws & Lw & Sw & Pp & Pw). apply ax_near in N2 as (us & Lu & Su & Pq & Pu).
    destruct ws as [|w0 [|w1 [|]]]; try discriminate Lw. destruct us as [|u0 [|u1 [|u2 [|]]]]; try discriminate Lu. unfold Rsum in Sw, Su. cbn in Sw, Su.
    inversion Pw as [|? ? P0 Pw1]; subst. inversion Pw1 as [|? ? P1 _]; subst. inversion Pu as [|? ? Q0 Pu1]; subst. inversion Pu1 as [|? ? Q1 Pu2]; subst. inversion Pu2 as [|? ? Q2 _]; subst.
    assert (w0 = 1 - w1) as -> by lra. assert (u0 = 1 - u1 - u2) as -> by lra. apply ax_inj in Pq.
    destruct (M a' b' c' d' e' I1 I2) as [Z|[_ H]]; [exfalso; apply T; rewrite Z; ring|].
    destruct (H w1 u1 u2 Pq P1 ltac:(lra) Q0 Q1 Q2) as (A1 & A2 & A3 & A4). rewrite !one_region, E1, E2. destruct (edge_sub _ _ I1). destruct (face_sub _ _ _ I2) as (? & ? & ?). split.
    + apply (hull_trans (map ax [a'; b'])); [apply (ax_hull [1 - w1; w1]); [reflexivity|unfold Rsum; cbn; lra|reflexivity|repeat (apply Forall_cons; [lra|]); constructor]|].
      intros y Iy. apply hull_mem. apply in_map_iff in Iy as (z & <- & Iz). apply in_map. destruct Iz as [<-|[<-|[]]]; assumption.
    + rewrite Pq. apply (hull_trans (map ax [c'; d'; e'])); [apply (ax_hull [1 - u1 - u2; u1; u2]); [reflexivity|unfold Rsum; cbn; lra|reflexivity|repeat (apply Forall_cons; [lra|]); constructor]|].
      intros y Iy. apply hull_mem. apply in_map_iff in Iy as (z & <- & Iz). apply in_map. destruct Iz as [<-|[<-|[<-|[]]]]; assumption.
Qed.
End One.
Lemma one_solid t : tets [t] -> pvol t <> 0 -> (forall f g, In f (all_faces [t]) -> In g (all_faces [t]) -> pcentre f = pcentre g \/ apart (pcentre f) (pcentre g)) -> convex_solid [t].
Proof.
  intros T V C. split.
  - split; [discriminate|]. split; [exact T|]. split; [intros u [<-|[]]; exact V|]. split; [|exact C].
    intros i j u v Hi Hj N. destruct i as [|[|]], j as [|[|]]; cbn in Hi, Hj; try discriminate. contradiction.
  - intros a b k A B Hk. rewrite one_region in *. apply (hull_convex (map pp t)); assumption.
Qed.

Definition cP : list R3 := [(0,0,0); (1,0,0); (0,1,0); (0,0,1)].
Definition cM : list R3 := [(1/4,1/4,1/4); (-3/4,1/4,1/4); (1/4,-3/4,1/4); (1/4,1/4,-3/4)].
Definition cN : list R3 := [(2/8,2/8,2/8); (1/8,1/8,-8/8); (2/8,1/8,-8/8); (1/8,2/8,-8/8)].
Definition cF : list R3 := [(9/2,0,0); (11/2,0,0); (9/2,1,0); (9/2,0,1)].
Lemma pp_at3 n a b c : (n <> 0)%Z -> pp (at3 n a b c) = ax (IZR a / IZR n, IZR b / IZR n, IZR c / IZR n).
Proof. intros N. apply IZR_neq in N. unfold at3, pp, ax. cbn. unfold val. cbn. apply f_equal2; [apply f_equal2|]; field; auto. Qed.
Ltac eqs := apply f_equal2; [apply f_equal2|]; field.
Ltac eq4 := cbn [map]; rewrite !pp_at3 by lia; apply f_equal2; [f_equal; eqs|apply f_equal2; [f_equal; eqs|apply f_equal2; [f_equal; eqs|apply f_equal2; [f_equal; eqs|reflexivity]]]].
Lemma eP : map pp tetP = map ax cP. Proof. unfold tetP, cP. eq4. Qed.
Lemma eM : map pp tetM = map ax cM. Proof. unfold tetM, cM. eq4. Qed.
Lemma eF : map pp tetF = map ax cF. Proof. unfold tetF, cF. eq4. Qed.
Lemma eN : map pp tetN = map ax cN. Proof. unfold tetN, cN. eq4. Qed.
Ltac corners := intros v p q r I E; unfold cP, cM, cN, cF in *; cbn [In] in I; cbn in E; repeat (destruct I as [<-|I]; [injection E as E1 E2 E3; intros; lra|]); destruct I.
Ltac meets := intros a b c d e I1 I2; unfold cP, cM, cN, cF in *; cbn [edges4 faces4 In] in I1, I2;
  repeat (destruct I1 as [I1|I1]; [injection I1 as <- <-; repeat (destruct I2 as [I2|I2]; [injection I2 as <- <- <-;
    first [left; cbn; lra|right; split; [cbn; apply Rabs_ge; lra|intros p q r E; cbn in E; injection E as E1 E2 E3; intros; lra]]|]); destruct I2|]); destruct I1.
Lemma c_PP : corners_ok cP cP. Proof. corners. Qed.
Lemma m_PP : meets_ok cP cP. Proof. meets. Qed.
Lemma c_PF : corners_ok cP cF. Proof. corners. Qed.
Lemma m_PF : meets_ok cP cF. Proof. meets. Qed.
Lemma c_FP : corners_ok cF cP. Proof. corners. Qed.
Lemma m_FP : meets_ok cF cP. Proof. meets. Qed.
Lemma c_PM : corners_ok cP cM. Proof. corners. Qed.
Lemma c_MP : corners_ok cM cP. Proof. corners. Qed.
Lemma c_PN : corners_ok cP cN. Proof. corners. Qed.
Lemma c_NP : corners_ok cN cP. Proof. corners. Qed.
Lemma m_PM : meets_ok cP cM. Proof. meets. Qed.
Lemma m_MP : meets_ok cM cP. Proof. meets. Qed.
Lemma m_PN : meets_ok cP cN. Proof. meets. Qed.
Lemma m_NP : meets_ok cN cP. Proof. meets. Qed.

Lemma ppoint_at3 n a b c : (n <> 0)%Z -> ppoint (at3 n a b c) = [(IZR a * TAU - IZR b) / IZR n; (IZR c * TAU - IZR a) / IZR n; (IZR b * TAU + IZR c) / IZR n].
Proof. intros N. apply IZR_neq in N. unfold at3, ppoint. cbn. unfold val. cbn. apply f_equal2; [|apply f_equal2; [|apply f_equal2; [|reflexivity]]]; field; auto. Qed.
Lemma apart_fine p q i x y : nth_error p i = Some x -> nth_error q i = Some y -> (1/1000 < x - y \/ 1/1000 < y - x) -> -10 < x < 10 -> -10 < y < 10 -> apart p q.
Proof.
  intros Hx Hy D Bx By. exists i, x, y. split; [exact Hx|]. split; [exact Hy|].
  assert (Rabs x < 10) by (apply Rabs_def1; lra). assert (Rabs y < 10) by (apply Rabs_def1; lra).
  assert (1/1000 < Rabs (x - y)) by (unfold Rabs; destruct (Rcase_abs (x - y)); lra). split; lra.
Qed.
Ltac fcentres := intros f g Hf Hg; unfold tetP, tetM, tetN, tetF in *; cbn [all_faces map tet_faces concat app In] in Hf, Hg; unfold pcentre; pose proof TAU_bounds as TB;
  repeat (destruct Hf as [<-|Hf]; [|]); try (destruct Hf); repeat (destruct Hg as [<-|Hg]; [|]); try (destruct Hg);
  first [left; reflexivity
        | right; cbn [map]; rewrite !ppoint_at3 by lia; unfold mean, zerov; cbn [vsum vadd vscale map length repeat INR];
          cbn; first [eapply (apart_fine _ _ 0); [reflexivity|reflexivity|lra|lra|lra]
          | eapply (apart_fine _ _ 1); [reflexivity|reflexivity|lra|lra|lra] | eapply (apart_fine _ _ 2); [reflexivity|reflexivity|lra|lra|lra]]].
Lemma nf t c0 c1 c2 c3 : map pp t = map ax [c0; c1; c2; c3] -> triple3 (sub3 c1 c0) (sub3 c2 c0) (sub3 c3 c0) <> 0 -> pvol t <> 0.
Proof.
  intros E T. destruct t as [|a [|b [|c [|d [|]]]]]; try discriminate E. cbn [map] in E. injection E as Ea Eb Ec Ed. apply pvol_flat. unfold flat4. rewrite Ea, Eb, Ec, Ed, ax_triple.
  intros Z. pose proof det_big. apply Rmult_integral in Z as [Z|Z]; [lra|auto].
Qed.
Lemma sP : convex_solid [tetP].
Proof. apply one_solid; [unfold tetP, at3; gd|apply (nf _ _ _ _ _ eP); cbn; lra|fcentres]. Qed.
Lemma sF : convex_solid [tetF].
Proof. apply one_solid; [unfold tetF, at3; gd|apply (nf _ _ _ _ _ eF); cbn; lra|fcentres]. Qed.
Lemma sM : convex_solid [tetM].
Proof. apply one_solid; [unfold tetM, at3; gd|apply (nf _ _ _ _ _ eM); cbn; lra|fcentres]. Qed.
Lemma sN : convex_solid [tetN].
Proof. apply one_solid; [unfold tetN, at3; gd|apply (nf _ _ _ _ _ eN); cbn; lra|fcentres]. Qed.
Lemma w_PM : well_placed [tetP] [tetM].
Proof.
  split; [exact sP|]. split; [exact sM|]. split; [apply (one_decided _ _ cP cM eP eM eq_refl eq_refl m_PM)|]. split; [apply (one_decided _ _ cM cP eM eP eq_refl eq_refl m_MP)|].
  split; [apply (one_clear _ _ cP cM eP eM eq_refl eq_refl c_PM m_PM)|apply (one_clear _ _ cM cP eM eP eq_refl eq_refl c_MP m_MP)].
Qed.
Lemma w_PN : well_placed [tetP] [tetN].
Proof.
  split; [exact sP|]. split; [exact sN|]. split; [apply (one_decided _ _ cP cN eP eN eq_refl eq_refl m_PN)|]. split; [apply (one_decided _ _ cN cP eN eP eq_refl eq_refl m_NP)|].
  split; [apply (one_clear _ _ cP cN eP eN eq_refl eq_refl c_PN m_PN)|apply (one_clear _ _ cN cP eN eP eq_refl eq_refl c_NP m_NP)].
Qed.
Lemma hull_in t c p q r x : map pp t = map ax c -> length c = 4%nat -> x = comb [1 - p - q - r; p; q; r] c -> 0 <= 1 - p - q - r -> 0 <= p -> 0 <= q -> 0 <= r -> region [t] (ax x).
Proof. intros E L -> ? ? ? ?. apply one_region. rewrite E. apply (ax_hull [1 - p - q - r; p; q; r]); [auto|unfold Rsum; cbn; lra|reflexivity|repeat (apply Forall_cons; [lra|]); constructor]. Qed.
Lemma hull_out t c x : map pp t = map ax c -> length c = 4%nat -> region [t] (ax x) -> exists p q r, x = comb [1 - p - q - r; p; q; r] c /\ 0 <= 1 - p - q - r /\ 0 <= p /\ 0 <= q /\ 0 <= r.
Proof.
  intros E L R. apply one_region in R. rewrite E in R. destruct R as (ws & (Lw & Sw & Px) & Pw). rewrite map_length, L in Lw. rewrite ax_comb in Px. apply ax_inj in Px.
  destruct ws as [|w0 [|w1 [|w2 [|w3 [|]]]]]; try discriminate Lw. unfold Rsum in Sw. cbn in Sw.
  inversion Pw as [|? ? P0 Pw1]; subst. inversion Pw1 as [|? ? P1 Pw2]; subst. inversion Pw2 as [|? ? P2 Pw3]; subst. inversion Pw3 as [|? ? P3 _]; subst.
  assert (w0 = 1 - w1 - w2 - w3) as -> by lra. exists w1, w2, w3. auto 10.
Qed.
Lemma one_corner t c : convex_solid [t] -> map pp t = map ax c -> length c = 4%nat -> forall x, outer_corner [t] x -> In x (map ax c).
Proof.
  intros K E L x. rewrite <- E. assert (Lt : length t = 4%nat) by (rewrite <- (map_length pp), E, map_length; exact L).
  intros (f & Of & Ix). apply one_faces in Of. destruct t as [|a [|b [|d [|e [|]]]]]; try discriminate Lt. cbn [tet_faces In] in Of.
  destruct Of as [<-|[<-|[<-|[<-|[]]]]]; cbn [map In] in *; tauto.
Qed.
Lemma corner_one t a b c d q : map pp t = map ax [a; b; c; d] -> a <> b -> a <> c -> b <> c -> convex_solid [t] -> q = ax a -> outer_corner [t] q.
Proof.
  intros E N1 N2 N3 K ->. apply (corner_lone [t] (proj1 K)). exists (ax b), (ax c), 0%nat, (map pp t). split; [reflexivity|]. rewrite E. cbn [map In].
  split; [tauto|]. split; [tauto|]. split; [tauto|].
  split; [intros X; apply N1, ax_inj, X|]. split; [intros X; apply N2, ax_inj, X|]. split; [intros X; apply N3, ax_inj, X|].
  intros [|[|]] u Hu; try discriminate; reflexivity.
Qed.
Ltac outside e x := let I := fresh in intros I; specialize (I (ax x)); apply (hull_out _ _ x e eq_refl) in I as (p & q & r & E & ? & ? & ? & ?); [cbn in E; injection E as E1 E2 E3; lra|].
(** A tetrahedron and its mirror image: each has one corner inside the other, and they share a parallelepiped. *)
Example E_C91_ex : well_placed [tetP] [tetM] /\ ~ within [tetP] [tetM] /\ ~ within [tetM] [tetP] /\
  outer_corner [tetP] (pp (at3 1 0 0 0)) /\ region [tetM] (pp (at3 1 0 0 0)) /\ outer_corner [tetM] (pp (at3 4 1 1 1)) /\ region [tetP] (pp (at3 4 1 1 1)).
Proof.
  split; [exact w_PM|]. split.
  - outside eM (1, 0, 0). apply (hull_in _ _ 1 0 0 _ eP eq_refl); [cbn; eqs|lra..].
  - split.
    + outside eP (-3/4, 1/4, 1/4). apply (hull_in _ _ 1 0 0 _ eM eq_refl); [cbn; eqs|lra..].
    + split; [apply (corner_one _ _ _ _ _ _ eP); [intros X; injection X; lra..|exact sP|rewrite pp_at3 by lia; f_equal; eqs]|].
      split; [rewrite pp_at3 by lia; apply (hull_in _ _ (1/4) (1/4) (1/4) _ eM eq_refl); [cbn; eqs|lra..]|].
      split; [apply (corner_one _ _ _ _ _ _ eM); [intros X; injection X; lra..|exact sM|rewrite pp_at3 by lia; f_equal; eqs]|].
      rewrite pp_at3 by lia. apply (hull_in _ _ (1/4) (1/4) (1/4) _ eP eq_refl); [cbn; eqs|lra..].
Qed.
(** The same pair in binary64, with a triangulation of the eight points that returns one tetrahedron. *)
Example E_C91_run : intersection_convex Bnum (fun q => if Nat.eqb (length q) 8 then Some [(0, 1, 2, 7)%nat] else None) (A4 [tetP]) (A4 [tetM]) =
  Ok (Some [[at3q 0 1 0; at3q 0 1 1; at3q 1 1 0; at3q 1 0 1]]).
Proof. match goal with |- _ = ?r => vm_cast_no_check (eq_refl r) end. Qed.
(** A tetrahedron contained in another (itself), and two disjoint ones. *)
Example E_C91_more : well_placed [tetP] [tetP] /\ within [tetP] [tetP] /\ well_placed [tetP] [tetF] /\ (forall x, ~ (region [tetP] x /\ region [tetF] x)).
Proof.
  split; [split; [exact sP|]; split; [exact sP|]; split; [apply (one_decided _ _ cP cP eP eP eq_refl eq_refl m_PP)|]; split; [apply (one_decided _ _ cP cP eP eP eq_refl eq_refl m_PP)|];
    split; apply (one_clear _ _ cP cP eP eP eq_refl eq_refl c_PP m_PP)|].
  split; [intros x; auto|]. split; [split; [exact sP|]; split; [exact sF|]; split; [apply (one_decided _ _ cP cF eP eF eq_refl eq_refl m_PF)|]; split; [apply (one_decided _ _ cF cP eF eP eq_refl eq_refl m_FP)|];
    split; [apply (one_clear _ _ cP cF eP eF eq_refl eq_refl c_PF m_PF)|apply (one_clear _ _ cF cP eF eP eq_refl eq_refl c_FP m_FP)]|].
  intros x [R1 R2]. assert (R1' := R1). apply one_region in R1' as (ws & (_ & _ & Ex) & _). rewrite eP, ax_comb in Ex. rewrite Ex in R1, R2.
  apply (hull_out _ _ _ eP eq_refl) in R1 as (p & q & r & E & ? & ? & ? & ?). apply (hull_out _ _ _ eF eq_refl) in R2 as (p' & q' & r' & E' & ? & ? & ? & ?).
  rewrite E in E'. cbn in E'. injection E' as E1 E2 E3. lra.
Qed.

(** So two overlapping tetrahedra can make the function raise, in exact arithmetic and in
    binary64: a spike whose tip is inside a tetrahedron. *)
Lemma L_C91_overlap_refuted : exists o1 o2 x, well_placed o1 o2 /\ region o1 x /\ region o2 x /\
  (forall delaunay, intersection_convex Rnum delaunay (A4 o1) (A4 o2) = Raise UnboundLocalError) /\
  (forall delaunay, intersection_convex Bnum delaunay (A4 o1) (A4 o2) = Raise UnboundLocalError).
Proof.
  assert (R1 : region [tetP] (ax (1/4, 1/4, 1/4))) by (apply (hull_in _ _ (1/4) (1/4) (1/4) _ eP eq_refl); [cbn; eqs|lra..]).
  assert (R2 : region [tetN] (ax (1/4, 1/4, 1/4))) by (apply (hull_in _ _ 0 0 0 _ eN eq_refl); [cbn; eqs|lra..]).
  exists [tetP], [tetN], (ax (1/4, 1/4, 1/4)). split; [exact w_PN|]. split; [exact R1|]. split; [exact R2|]. split.
  - intros delaunay. apply (L_C91_raises delaunay _ _ (ax (1/4, 1/4, 1/4)) w_PN); [| |exact R1|exact R2|].
    + outside eN (1, 0, 0). apply (hull_in _ _ 1 0 0 _ eP eq_refl); [cbn; eqs|lra..].
    + outside eP (1/8, 1/8, -8/8). apply (hull_in _ _ 1 0 0 _ eN eq_refl); [cbn; eqs|lra..].
    + left. intros p Cp Rp. apply (one_corner _ _ sP eP eq_refl) in Cp. unfold cP in Cp. cbn [map In] in Cp.
      destruct Cp as [<-|[<-|[<-|[<-|[]]]]]; apply (hull_out _ _ _ eN eq_refl) in Rp as (p & q & r & E & ? & ? & ? & ?); cbn in E; injection E as E1 E2 E3; lra.
  - intros delaunay. vm_cast_no_check (eq_refl (@Raise (option obj4) UnboundLocalError)).
Qed.
