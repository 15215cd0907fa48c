(** The intersection of two dodecagonal objects (dode2/intsct.py:422-560,
    two_occupation_domains.intersection): C74.  [N] is any arithmetic for the
    floating-point tests ([Rnum] exact, [Bnum] binary64); the triangulation is arbitrary. *)
From Coq Require Import Reals List ZArith Lia Lra Bool.
From Verif Require Import Base.Res Model.Tau Model.Arr Model.Num Model.DodeMath1 Model.DodeArea Model.IcoIntersect Model.DodeIntersect
  Spec.Value Spec.RVec Spec.Shape Spec.DodeSpec Spec.Sets Spec.Space Spec.Tetra Spec.Overlap Spec.Plane Spec.Samples Spec.DodeSamples.
Import ListNotations.
Local Open Scope R_scope.

From Verif Require Import Proofs.ResLemmas Proofs.ScalarLemmas Proofs.ValueLemmas Proofs.VectorLemmas Proofs.VectorLemmas2 Proofs.RVecLemmas Proofs.MeanLemmas Proofs.DedupLemmas Proofs.Irrational Proofs.NumLemmas
  Proofs.IntersectLemmas Proofs.ObjLemmas Proofs.DodeProj Proofs.DodeDedupLemmas Proofs.DodeAreaLemmas Proofs.PlaneLemmas Proofs.Polytope Proofs.Polygon
  Proofs.OverlapLemmas Proofs.DodeIntersectLemmas Proofs.DodeObjLemmas Proofs.P_DodeIntersect Proofs.DodeOverlapLemmas Proofs.Caratheodory.
From Coq Require Import Classical.

(** C74 for any distance test, classification and pairwise intersection: every
    triangle of the result is a triangle t1 of the first object that lies in some t2
    of the second, or belongs to what some pair (t1,t2) yields; with select='simple' it
    may also be the t1 of such a pair. *)
Lemma L_C74_members : forall rough classify inter simple o1 o2 r,
  dcommon_pieces rough classify inter simple o1 o2 = Ok (Some r) -> forall t, In t r ->
  exists i j t1 t2, nth_error o1 i = Some t1 /\ nth_error o2 j = Some t2 /\ rough t1 = Ok true /\
    ((classify t1 t2 = Ok 1%Z /\ t = t1) \/
     exists q, yields classify inter i j t1 t2 q /\ (In t q \/ (simple = true /\ t = t1))).
Proof.
  intros rough classify inter simple o1 o2 r H t Ht. unfold dcommon_pieces in H. apply bind_Ok_inv in H as (c & Ec & H).
  destruct (douter_spec _ _ _ _ _ _ _ _ Ec) as (cs & -> & L & F).
  assert (Hr : In t (concat cs)) by (destruct (concat cs); [discriminate|injection H as <-; exact Ht]).
  apply concat_In in Hr as (i & x & Hx & Htx). destruct (nth_same_length cs o1 i x L Hx) as (t1 & Ht1).
  specialize (F i t1 x Ht1 Hx). destruct (dcontribution_spec _ _ _ _ _ _ _ _ F) as [[_ ->]|(R & M & _)]; [destruct Htx|].
  destruct (M t Htx) as [(j & t2 & Hj & Hc & ->)|(j & t2 & q & Hj & Y & D)]; exists i, j, t1, t2; repeat split; auto. right. eauto.
Qed.

(** Nothing is lost: every pair contributes, except that the pairs after a t2 that
    contains t1 are not looked at. *)
Lemma L_C74_complete : forall rough classify inter o1 o2 r i t1 j t2,
  dcommon_pieces rough classify inter false o1 o2 = Ok r ->
  nth_error o1 i = Some t1 -> nth_error o2 j = Some t2 -> rough t1 = Ok true ->
  (classify t1 t2 = Ok 1%Z -> exists r', r = Some r' /\ In t1 r') /\
  ((forall j' t', (j' < j)%nat -> nth_error o2 j' = Some t' -> classify t1 t' <> Ok 1%Z) ->
   forall q, q <> [] -> yields classify inter i j t1 t2 q -> exists r', r = Some r' /\ incl q r').
Proof.
  intros rough classify inter o1 o2 r i t1 j t2 H Hi Hj Hr. unfold dcommon_pieces in H. apply bind_Ok_inv in H as (c & Ec & H).
  destruct (douter_spec _ _ _ _ _ _ _ _ Ec) as (cs & -> & L & F).
  destruct (nth_same_length o1 cs i t1 (eq_sym L) Hi) as (x & Hx).
  specialize (F i t1 x Hi Hx). destruct (dcontribution_spec _ _ _ _ _ _ _ _ F) as [[R _]|(_ & _ & C1 & C2 & _)]; [congruence|].
  assert (K : forall t, In t x -> In t (concat cs)) by (intros t Ht; apply concat_In; eauto).
  assert (S : forall t, In t x -> r = Some (concat cs)).
  { intros t Ht. apply K in Ht. destruct (concat cs); [destruct Ht|]. injection H as <-. reflexivity. }
  split.
  - intros Hc. pose proof (C1 j t2 Hj Hc) as I. exists (concat cs). split; [eapply S; exact I|apply K, I].
  - intros Hn q Nq Y. pose proof (C2 eq_refl j t2 q Hj Hn Y) as I. destruct q as [|q0 q]; [congruence|].
    exists (concat cs). split; [apply (S q0), I; left; reflexivity|]. intros t Ht. apply K, I, Ht.
Qed.

(** None exactly when no pair yields anything. *)
Lemma L_C74_none : forall rough classify inter simple o1 o2 r,
  (forall i j t1 t2, inter i j t1 t2 <> Ok (Some [])) ->
  dcommon_pieces rough classify inter simple o1 o2 = Ok r ->
  (r = None <-> forall i j t1 t2, nth_error o1 i = Some t1 -> nth_error o2 j = Some t2 -> rough t1 = Ok true ->
     classify t1 t2 <> Ok 1%Z /\ forall q, ~ yields classify inter i j t1 t2 q).
Proof.
  intros rough classify inter simple o1 o2 r NE H. unfold dcommon_pieces in H. apply bind_Ok_inv in H as (c & Ec & H).
  destruct (douter_spec _ _ _ _ _ _ _ _ Ec) as (cs & -> & L & F).
  assert (Nq : forall i j t1 t2 q, yields classify inter i j t1 t2 q -> q <> []).
  { intros i j t1 t2 q [[_ ->]|[_ Y]]; [discriminate|]. intros ->. apply (NE _ _ _ _ Y). }
  assert (E : r = None <-> concat cs = []).
  { destruct (concat cs); injection H as <-; split; congruence. }
  rewrite E, concat_nil. split.
  - intros A i j t1 t2 Hi Hj Hr. destruct (nth_same_length o1 cs i t1 (eq_sym L) Hi) as (x & Hx).
    specialize (F i t1 x Hi Hx). destruct (dcontribution_spec _ _ _ _ _ _ _ _ F) as [[R _]|(_ & _ & _ & _ & N)]; [congruence|].
    apply (proj1 (N (fun k t q _ Y => Nq _ _ _ _ _ Y)) (A i x Hx) j t2 Hj).
  - intros A i x Hx. destruct (nth_same_length cs o1 i x L Hx) as (t1 & Hi). specialize (F i t1 x Hi Hx).
    destruct (dcontribution_spec _ _ _ _ _ _ _ _ F) as [[_ ->]|(R & _ & _ & _ & N)]; [reflexivity|].
    apply (proj2 (N (fun k t q _ Y => Nq _ _ _ _ _ Y))). intros k t2 Hk. apply (A i k t1 t2 Hi Hk R).
Qed.

(** select='simple' succeeds whenever select='standard' does, and gives the same area. *)
Lemma L_C74_simple : forall rough classify inter o1 o2, tris o1 -> tris o2 ->
  (forall i j t1 t2 q, tris [t1] -> tris [t2] -> inter i j t1 t2 = Ok (Some q) -> tris q /\ q <> []) ->
  (dcommon_pieces rough classify inter false o1 o2 = Ok None -> dcommon_pieces rough classify inter true o1 o2 = Ok None) /\
  (forall r, dcommon_pieces rough classify inter false o1 o2 = Ok (Some r) ->
     exists r', dcommon_pieces rough classify inter true o1 o2 = Ok (Some r') /\ obj_area_6d (A4 r') = obj_area_6d (A4 r)).
Proof.
  intros rough classify inter o1 o2 T1 T2 HI.
  assert (HT : forall i j t1 t2 q, tris [t1] -> tris [t2] -> inter i j t1 t2 = Ok (Some q) -> tris q) by (intros i j t1 t2 q A B C; exact (proj1 (HI i j t1 t2 q A B C))).
  (* emptiness agrees *)
  assert (Emp : forall i t1 c c', In t1 o1 -> dcontribution rough classify inter false i t1 o2 = Ok c -> dcontribution rough classify inter true i t1 o2 = Ok c' -> (c = [] <-> c' = [])).
  { intros i t1 c c' Hin E E'.
    assert (Tt1 : tris [t1]) by (constructor; [unfold tris in T1; rewrite Forall_forall in T1; apply T1, Hin|constructor]).
    assert (NE : forall k t2 q, nth_error o2 k = Some t2 -> yields classify inter i k t1 t2 q -> q <> []).
    { intros k t2 q Hk [[_ ->]|[_ Y]]; [discriminate|]. refine (proj2 (HI _ _ _ _ _ Tt1 _ Y)).
      constructor; [|constructor]. unfold tris in T2. rewrite Forall_forall in T2. apply T2. eapply nth_error_In; exact Hk. }
    destruct (dcontribution_spec _ _ _ _ _ _ _ _ E) as [[R ->]|(R & _ & _ & _ & N)];
    destruct (dcontribution_spec _ _ _ _ _ _ _ _ E') as [[R' ->]|(R' & _ & _ & _ & N')]; try congruence; [tauto|].
    rewrite (N NE), (N' NE). tauto. }
  assert (EmpO : forall o i c c', incl o o1 -> douter_loop rough classify inter false i o o2 = Ok c -> douter_loop rough classify inter true i o o2 = Ok c' -> (c = [] <-> c' = [])).
  { induction o as [|t o IH]; intros i c c' Hi E E'; cbn [douter_loop] in *; [injection E as <-; injection E' as <-; tauto|].
    apply bind_Ok_inv in E as (x & Ex & E). apply bind_Ok_inv in E as (y & Ey & E). injection E as <-.
    apply bind_Ok_inv in E' as (x' & Ex' & E'). apply bind_Ok_inv in E' as (y' & Ey' & E'). injection E' as <-.
    pose proof (Emp i t x x' (Hi t (or_introl eq_refl)) Ex Ex') as K1. pose proof (IH (S i) y y' (fun z Hz => Hi z (or_intror Hz)) Ey Ey') as K2.
    split; intros A; apply app_eq_nil in A as [A B]; apply K1 in A; apply K2 in B; subst; reflexivity. }
  unfold dcommon_pieces. split.
  - intros H. apply bind_Ok_inv in H as (c & Ec & H). destruct c; [|discriminate].
    destruct (douter_simple _ _ _ HT 0 o1 o2 [] T1 T2 Ec) as (c' & Ec' & _). rewrite Ec'. cbn [bind].
    rewrite (proj1 (EmpO o1 0%nat [] c' (fun z Hz => Hz) Ec Ec') eq_refl). reflexivity.
  - intros r H. apply bind_Ok_inv in H as (c & Ec & H).
    destruct (douter_simple _ _ _ HT 0 o1 o2 c T1 T2 Ec) as (c' & Ec' & Tc & Tc' & V). rewrite Ec'. cbn [bind].
    pose proof (EmpO o1 0%nat c c' (fun z Hz => Hz) Ec Ec') as K. destruct c as [|c0 c]; [discriminate|]. injection H as <-.
    destruct c' as [|c0' c']; [exfalso; assert (c0 :: c = []) by (apply K; reflexivity); discriminate|].
    exists (c0' :: c'). split; [reflexivity|]. apply obj_area_eq; assumption.
Qed.

(** intersection() itself: arguments that are not 4-d give None, otherwise the loop runs
    with the tests of C72 and the pairwise intersection of C73. *)
Lemma L_C74_intersection : forall N delaunay simple a1 a2,
  match a1, a2 with
  | A4 o1, A4 o2 => forall c d, dcentroid_obj o2 = Ok c -> dball_radius_obj N (A4 o2) c = Ok d ->
      dintersection N delaunay simple a1 a2 =
      dcommon_pieces (fun t => rough_check_intersection_triangle_obj N t c d) (check_intersection_two_triangles N)
        (fun _ _ => intersection_two_triangles N delaunay) simple o1 o2
  | _, _ => dintersection N delaunay simple a1 a2 = Ok None
  end.
Proof.
  intros N delaunay simple a1 a2. destruct a1; try reflexivity; destruct a2; try reflexivity.
  intros c d Ec Ed. cbn [dintersection]. unfold dintersection_two_obj_1. rewrite Ec. cbn [bind]. rewrite Ed. reflexivity.
Qed.

(** The two kinds of intersection() have the same area. *)
Lemma L_C74_kinds : forall N delaunay o1 o2 r, tris o1 -> tris o2 ->
  dintersection N delaunay false (A4 o1) (A4 o2) = Ok (Some r) ->
  exists r', dintersection N delaunay true (A4 o1) (A4 o2) = Ok (Some r') /\ obj_area_6d (A4 r') = obj_area_6d (A4 r).
Proof.
  intros N delaunay o1 o2 r T1 T2 H. cbn [dintersection] in *. unfold dintersection_two_obj_1 in *.
  apply bind_Ok_inv in H as (c & -> & H). cbn [bind]. apply bind_Ok_inv in H as (d & -> & H). cbn [bind].
  refine (proj2 (L_C74_simple _ _ _ o1 o2 T1 T2 _) r H). intros i j t1 t2 q Tt1 Tt2 Hq.
  destruct (L_C73_result _ _ _ _ _ Tt1 Tt2 Hq) as (ps & _ & _ & _ & _ & _ & No & Tq & _). split; assumption.
Qed.

(** Nothing spurious: every point of the result lies in a triangle of each object, up to
    5e-7 in barycentric coordinates.  No assumption on the triangulation; all triangles
    lie in one plane. *)
Lemma L_C74_sound : forall h delaunay o1 o2 r p, tris o1 -> tris o2 -> level h (concat o1) -> level h (concat o2) ->
  dintersection Rnum delaunay false (A4 o1) (A4 o2) = Ok (Some r) -> dregion r p ->
  exists t1 t2, In t1 o1 /\ In t2 o2 /\ near (1/2000000) (map dp t1) p /\ near (1/2000000) (map dp t2) p.
Proof.
  intros h delaunay o1 o2 r p T1 T2 Lv1 Lv2 H (t & It & Hp).
  unfold tris in T1, T2. rewrite Forall_forall in T1, T2.
  cbn [dintersection] in H. unfold dintersection_two_obj_1 in H. apply bind_Ok_inv in H as (c & Ec & H). apply bind_Ok_inv in H as (d & Ed & H).
  destruct (L_C74_members _ _ _ _ _ _ _ H t It) as (i & j & t1 & t2 & N1 & N2 & _ & Y).
  apply nth_error_In in N1, N2. assert (Tt1 : tri1 t1) by exact (T1 t1 N1). assert (Tt2 : tri1 t2) by exact (T2 t2 N2).
  assert (Lv : level h (t1 ++ t2)).
  { apply level_app; [apply (level_incl _ _ _ Lv1)|apply (level_incl _ _ _ Lv2)]; intros z Z; apply in_concat; eauto. }
  assert (TT1 : tris [t1]) by (constructor; [exact Tt1|constructor]). assert (TT2 : tris [t2]) by (constructor; [exact Tt2|constructor]).
  exists t1, t2. split; [exact N1|]. split; [exact N2|].
  destruct (L_C72_classes Rnum t1 t2 TT1 TT2) as (k & Ek & K1 & K2 & K3 & _).
  destruct Y as [[Y ->]|(q & Y & [Iq|[Bad _]])]; [| |discriminate].
  - rewrite Y in Ek. injection Ek as <-. destruct K1 as [K1 _]. specialize (K1 eq_refl). split.
    + apply (near_weaken 0); [lra|]. apply hull_near0. exact Hp.
    + apply (near_hull _ (map dp t1) _ _ Hp). intros x Ix. apply in_map_iff in Ix as (v & <- & Iv). apply (dinside_near h); auto; [exact (goods_in 6 _ _ (proj2 Tt1) Iv)|].
      apply (level_incl _ _ _ Lv). intros x [<-|X]; apply in_or_app; tauto.
  - destruct Y as [[Y ->]|[Y Yi]].
    + destruct Iq as [<-|[]]. rewrite Y in Ek. injection Ek as <-. destruct K2 as [K2 _]. specialize (K2 eq_refl) as [_ K2]. split.
      * apply (near_hull _ (map dp t2) _ _ Hp). intros x Ix. apply in_map_iff in Ix as (v & <- & Iv). apply (dinside_near h); auto; [exact (goods_in 6 _ _ (proj2 Tt2) Iv)|].
        apply (level_incl _ _ _ Lv). intros x [<-|X]; apply in_or_app; tauto.
      * apply (near_weaken 0); [lra|]. apply hull_near0. exact Hp.
    + destruct (L_C73_result Rnum delaunay t1 t2 (Some q) TT1 TT2 Yi) as (ps & _ & _ & _ & _ & _ & _ & _ & Hq & _).
      split; apply (near_hull _ (map dp t) _ _ Hp); intros x Ix; apply in_map_iff in Ix as (v & <- & Iv); apply (dadmissible_near h t1 t2 v Tt1 Tt2 Lv), (Hq t v Iq Iv).
Qed.

(** Nothing lost: a point that lies in both objects lies in the result, or in a pair of
    triangles whose whole common part lies on one line.  [decided_pair2]: no two edges are
    nearly, but not exactly, parallel; [covers2]: whenever the triangulation succeeds, its
    non-flat triangles cover the hull of the points; it fails only for points on a line. *)
Lemma L_C74_nothing_lost : forall h delaunay o1 o2 r p, tris o1 -> tris o2 -> level h (concat o1) -> level h (concat o2) ->
  (forall t, In t o1 \/ In t o2 -> parea t <> 0) ->
  (forall t1 t2, In t1 o1 -> In t2 o2 -> decided_pair2 t1 t2) ->
  (forall q l, delaunay q = Some l -> covers2 q l) -> (forall q, delaunay q = None -> on_line (map pt2 q)) ->
  dintersection Rnum delaunay false (A4 o1) (A4 o2) = Ok r ->
  dregion o1 p -> dregion o2 p ->
  (exists r', r = Some r' /\ dregion r' p) \/
  (exists t1 t2, In t1 o1 /\ In t2 o2 /\ hull (map dp t1) p /\ hull (map dp t2) p /\ thin2 t1 t2).
Proof.
  intros h delaunay o1 o2 r p T1 T2 Lv1 Lv2 Vol Dec Cov Fail H (t1 & I1 & H1) (t2 & I2 & H2).
  assert (T1' := T1). assert (T2' := T2). unfold tris in T1', T2'. rewrite Forall_forall in T1', T2'.
  assert (Tt1 : tri1 t1) by exact (T1' t1 I1). assert (Tt2 : tri1 t2) by exact (T2' t2 I2).
  assert (TT1 : tris [t1]) by (constructor; [exact Tt1|constructor]). assert (TT2 : tris [t2]) by (constructor; [exact Tt2|constructor]).
  assert (Lv : level h (t1 ++ t2)).
  { apply level_app; [apply (level_incl _ _ _ Lv1)|apply (level_incl _ _ _ Lv2)]; intros z Z; apply in_concat; eauto. }
  assert (V1 := Vol t1 (or_introl I1)). assert (V2 := Vol t2 (or_intror I2)). assert (D := Dec t1 t2 I1 I2).
  assert (Ne : t1 <> []) by (intros ->; destruct Tt1; discriminate).
  destruct (L_C72_never_discards t1 o2 t2 p Ne (proj2 Tt1) T2 I2 H1 H2) as (c & d & Ec & Ed & Er).
  pose proof (L_C74_intersection Rnum delaunay false (A4 o1) (A4 o2) c d Ec Ed) as E. cbn beta iota in E. rewrite E in H. clear E.
  assert (I1' := I1). assert (I2' := I2). apply In_nth_error in I1' as (i & Hi). apply In_nth_error in I2' as (j & Hj).
  destruct (L_C74_complete _ _ _ _ _ _ i t1 j t2 H Hi Hj Er) as [C1 C2].
  destruct (classic (exists j' t', (j' < j)%nat /\ nth_error o2 j' = Some t' /\ check_intersection_two_triangles Rnum t1 t' = Ok 1%Z)) as [(j' & t' & _ & Hj' & E1)|X].
  { destruct (L_C74_complete _ _ _ _ _ _ i t1 j' t' H Hi Hj' Er) as [C1' _]. destruct (C1' E1) as (r' & -> & Ir). left. exists r'. split; [reflexivity|]. exists t1. split; assumption. }
  specialize (C2 (fun j' t' Lt Nt Et => X (ex_intro _ j' (ex_intro _ t' (conj Lt (conj Nt Et)))))).
  destruct (dclass_not_0 h t1 t2 p Tt1 Tt2 Lv V1 V2 D H1 H2) as (k & Ek & [-> | [-> | ->]]).
  - destruct (C1 Ek) as (r' & -> & Ir). left. exists r'. split; [reflexivity|]. exists t1. split; assumption.
  - destruct (C2 [t2]) as (r' & -> & Ir); [discriminate|left; split; [exact Ek|reflexivity]|].
    left. exists r'. split; [reflexivity|]. exists t2. split; [apply Ir; left; reflexivity|assumption].
  - destruct (dreached _ _ _ _ _ _ _ i j t1 t2 H Hi Hj Er) as (q & Eq); [|exact Ek|].
    { intros j' t' Lt Nt Et. apply X. eauto. }
    cbn beta in Eq.
    destruct (L_C73_result Rnum delaunay t1 t2 q TT1 TT2 Eq) as (ps & Adm' & _ & Adm & Gp & Hq).
    assert (Span : forall x, hull (map dp t1) x -> hull (map dp t2) x -> hull (map dp ps) x).
    { intros x X1 X2. apply (dcommon_span h t1 t2 x Tt1 Tt2 Lv V1 V2 D X1 X2 ps Adm). }
    assert (Lp : level h ps) by (apply Forall_forall; intros v Iv; apply (adm_level h t1 t2 v Tt1 Tt2 Lv), Adm', Iv).
    destruct q as [q|].
    + destruct Hq as (Len & Nq & _ & _ & Three & More).
      destruct (C2 q Nq) as (r' & -> & Ir); [right; split; [exact Ek|exact Eq]|].
      assert (Rq : dregion q p \/ on_line (map dp ps)).
      { destruct (Nat.eq_dec (length ps) 3) as [E3|N3].
        - left. rewrite (Three E3). exists ps. split; [left; reflexivity|apply Span; assumption].
        - destruct (More ltac:(lia)) as [Et _]. destruct (dtri_covers h delaunay ps (Some q) p Gp Lp Cov Et (Span p H1 H2)) as [(r & E & R)|(qs & Eqs & M)].
          + injection E as <-. left. exact R.
          + right. apply on_line_fl. rewrite <- M. apply Fail, Eqs. }
      destruct Rq as [(t & It & Ht)|OL].
      * left. exists r'. split; [reflexivity|]. exists t. split; [apply Ir; exact It|exact Ht].
      * right. exists t1, t2. repeat (split; [assumption|]). apply (on_line_thin t1 t2 ps); assumption.
    + right. exists t1, t2. repeat (split; [assumption|]). apply (on_line_thin t1 t2 ps); [|exact Span].
      destruct Hq as [Few|[[Many Et]|(k & pp & Ek' & Few)]].
      * apply few_on_line. rewrite map_length. exact Few.
      * destruct (dtri_covers h delaunay ps None p Gp Lp Cov Et (Span p H1 H2)) as [(r' & E & _)|(qs & Eqs & M)]; [discriminate|].
        apply on_line_fl. rewrite <- M. apply Fail, Eqs.
      * destruct ps as [|v0 ps]; [apply few_on_line; cbn; lia|].
        assert (Iv0 : In v0 pp) by (apply (dcollect_In Rnum t1 t2 k pp Tt1 Tt2 Ek'), Adm'; left; reflexivity).
        apply (same_on_line (dp v0)). apply Forall_map, Forall_forall. intros v Iv. symmetry. apply (few_hits h t1 t2 k pp v0 Tt1 Tt2 Lv Ek' Few Iv0), Adm', Iv.
Qed.

(** Exact arithmetic, one plane: intersection() never raises if the triangulation names
    existing points only. *)
Lemma L_C74_never_raises : forall h delaunay simple o1 o2, tris o1 -> tris o2 -> o2 <> [] -> level h (concat o1) -> level h (concat o2) ->
  (forall q l, delaunay q = Some l -> Forall (fun '(i, j, k) => (i < length q)%nat /\ (j < length q)%nat /\ (k < length q)%nat) l) ->
  exists r, dintersection Rnum delaunay simple (A4 o1) (A4 o2) = Ok r.
Proof.
  intros h delaunay simple o1 o2 T1 T2 N2 Lv1 Lv2 Val.
  enough (S : exists r, dintersection Rnum delaunay false (A4 o1) (A4 o2) = Ok r).
  { destruct simple; [|exact S]. destruct S as (r & Er). cbn [dintersection] in *. unfold dintersection_two_obj_1 in *.
    apply bind_Ok_inv in Er as (c & -> & Er). cbn [bind]. apply bind_Ok_inv in Er as (d & -> & Er). cbn [bind].
    destruct (L_C74_simple (fun t => rough_check_intersection_triangle_obj Rnum t c d) (check_intersection_two_triangles Rnum) (fun _ _ => intersection_two_triangles Rnum delaunay) o1 o2 T1 T2) as [S0 S1].
    { intros i j t1 t2 q Tt1 Tt2 Hq. destruct (L_C73_result _ _ _ _ _ Tt1 Tt2 Hq) as (ps & _ & _ & _ & _ & _ & No & Tq & _). split; assumption. }
    destruct r as [r|]; [destruct (S1 r Er) as (r' & E & _); eauto|eauto]. }
  assert (Inter : forall t1 t2, In t1 o1 -> In t2 o2 -> check_intersection_two_triangles Rnum t1 t2 = Ok 3%Z -> exists q, intersection_two_triangles Rnum delaunay t1 t2 = Ok q).
  { intros t1 t2 I1 I2 K. unfold tris in T1, T2. rewrite Forall_forall in T1, T2. assert (Tt1 : tri1 t1) by exact (T1 t1 I1). assert (Tt2 : tri1 t2) by exact (T2 t2 I2).
    assert (TT1 : tris [t1]) by (constructor; [exact Tt1|constructor]). assert (TT2 : tris [t2]) by (constructor; [exact Tt2|constructor]).
    assert (Lv : level h (t1 ++ t2)) by (apply level_app; [apply (level_incl _ _ _ Lv1)|apply (level_incl _ _ _ Lv2)]; intros z Z; apply in_concat; eauto).
    pose proof (L_C73_class_3 Rnum delaunay t1 t2 TT1 TT2 K) as NU. unfold intersection_two_triangles in NU |- *.
    destruct (dedge_hits_ok h t1 t2 Tt1 Tt2 Lv) as (hs & Eh).
    destruct (dvertices_inside_ok Rnum t1 t2 (proj2 Tt1) Tt2) as (a & Ea). destruct (dvertices_inside_ok Rnum t2 t1 (proj2 Tt2) Tt1) as (b & Eb).
    destruct (dcollect Rnum t1 t2) as [[k p]|e] eqn:Ec.
    - cbn [bind]. destruct (Nat.leb 3 k); [|eauto]. pose proof (dcollect_good Rnum t1 t2 k p Tt1 Tt2 Ec) as Gc. destruct (dperp_space_spec p Gc) as (ps & -> & Inc & _).
      cbn [bind]. destruct (Nat.ltb 3 (length ps)); [|destruct (Nat.eqb (length ps) 3); eauto].
      apply L_C73_pieces_total; [exact (goods_incl _ _ _ Gc Inc)|]. intros q l Lq Ed. specialize (Val q l Ed). rewrite Lq in Val. clear - Val.
      induction Val as [|[[i j] m] l (Hi & Hj & Hm) _ (ts & IH)]; [exists []; constructor|].
      apply nth_error_Some in Hi, Hj, Hm. destruct (nth_error ps i) as [x|] eqn:Ei; [|congruence]. destruct (nth_error ps j) as [y|] eqn:Ej; [|congruence]. destruct (nth_error ps m) as [z|] eqn:Em; [|congruence].
      exists ([x; y; z] :: ts). constructor; [|exact IH]. exists x, y, z. auto.
    - exfalso. cbn [bind] in NU. unfold dcollect in Ec. rewrite Eh in Ec. cbn [bind] in Ec. destruct hs; [injection Ec as <-; congruence|].
      rewrite Ea in Ec. cbn [bind] in Ec. rewrite Eb in Ec. discriminate. }
  destruct o2 as [|t0 o2']; [congruence|]. set (o2 := t0 :: o2') in *. clear N2.
  assert (Cen : exists c d, dcentroid_obj o2 = Ok c /\ dball_radius_obj Rnum (A4 o2) c = Ok d /\ good 6 c).
  { assert (To' : Forall (fun t => t <> [] /\ goods 6 t) o2).
    { eapply Forall_impl; [|exact T2]. intros x [L Gx]. split; [|exact Gx]. intros ->. discriminate. }
    assert (Ne : o2 <> []) by discriminate.
    destruct (wp_elim _ _ (centroid_obj_spec dode_arith o2 Ne To')) as (c & Ec & Cc & Vc). fold dcentroid_obj in Ec.
    assert (Gc : good 6 c).
    { apply dgood_canon; [exact Cc|]. rewrite <- (vals_length SIN), Vc. apply mean_length. rewrite Forall_map. eapply Forall_impl; [|exact T2].
      intros x [_ Gx]. apply mean_length. rewrite Forall_map. eapply Forall_impl; [|exact Gx]. intros v [_ L]. rewrite vals_length. exact L. }
    destruct (L_C72_radius o2 c (tris_goodo _ T2) Gc) as (r & Er & _). eauto. }
  destruct Cen as (c & d & Ec & Ed & Gc). cbn [dintersection]. unfold dintersection_two_obj_1. rewrite Ec. cbn [bind]. rewrite Ed. cbn [bind].
  assert (Rough : forall t, In t o1 -> exists b, rough_check_intersection_triangle_obj Rnum t c d = Ok b).
  { intros t It. unfold tris in T1. rewrite Forall_forall in T1. destruct (T1 t It) as [L G]. unfold rough_check_intersection_triangle_obj.
    assert (Ht : t <> []) by (intros ->; discriminate).
    destruct (wp_elim _ _ (centroid_spec dode_arith t Ht G)) as (m & Em & Cm & Vm). fold dcentroid in Em. rewrite Em. cbn [bind].
    assert (Gm : good 6 m).
    { apply dgood_canon; [exact Cm|]. rewrite <- (vals_length SIN), Vm. apply mean_length. rewrite Forall_map. eapply Forall_impl; [|exact G].
      intros v [_ L']. rewrite vals_length. exact L'. }
    unfold dball_radius. destruct (dball_radius_R t (A3 t) m (or_introl eq_refl) G Gm) as (b & -> & _). cbn [bind].
    rewrite ddistance_R by assumption. cbn [bind]. eauto. }
  assert (Inner : forall l i j t acc, In t o1 -> incl l o2 -> exists r,
    inner_loop (check_intersection_two_triangles Rnum) (fun _ _ => intersection_two_triangles Rnum delaunay) i j t l acc = Ok r).
  { induction l as [|t2 l IH]; intros i j t acc It Inc; [cbn; eauto|]. cbn [inner_loop].
    assert (I2 : In t2 o2) by (apply Inc; left; reflexivity). assert (Inc' : incl l o2) by (intros z Z; apply Inc; right; exact Z).
    assert (TT1 : tris [t]) by (constructor; [unfold tris in T1; rewrite Forall_forall in T1; exact (T1 t It)|constructor]).
    assert (TT2 : tris [t2]) by (constructor; [unfold tris in T2; rewrite Forall_forall in T2; exact (T2 t2 I2)|constructor]).
    destruct (L_C72_classes Rnum t t2 TT1 TT2) as (k & Ek & _). rewrite Ek. cbn [bind].
    destruct (Z.eqb k 1); [eauto|]. destruct (Z.eqb k 2); [apply IH; assumption|]. destruct (Z.eqb_spec k 3) as [->|]; [|apply IH; assumption].
    destruct (Inter t t2 It I2 Ek) as (p & ->). cbn [bind]. apply IH; assumption. }
  assert (Outer : forall l i, incl l o1 -> exists r,
    douter_loop (fun t => rough_check_intersection_triangle_obj Rnum t c d) (check_intersection_two_triangles Rnum) (fun _ _ => intersection_two_triangles Rnum delaunay) false i l o2 = Ok r).
  { induction l as [|t l IH]; intros i Inc; [cbn; eauto|]. cbn [douter_loop].
    assert (It : In t o1) by (apply Inc; left; reflexivity). destruct (IH (S i)) as (r & Er); [intros z Z; apply Inc; right; exact Z|]. rewrite Er.
    unfold dcontribution. destruct (Rough t It) as (b & ->). cbn [bind]. destruct b; [|cbn [bind]; eauto].
    destruct (Inner o2 i 0%nat t None It (incl_refl _)) as ([ins tmp] & ->). cbn [bind]. destruct tmp; cbn [bind]; eauto. }
  unfold dcommon_pieces. destruct (Outer o1 0%nat (incl_refl _)) as (r & ->). cbn [bind]. eauto.
Qed.

Lemma dp_pl x y : dp (pl x y) = (val SIN x, val SIN y, 0).
Proof.
  unfold pl, dp, dppoint. cbn. unfold dot. cbn. generalize (val SIN x), (val SIN y). intros u v. unfold val. cbn. apply f_equal2; [apply f_equal2|]; field.
Qed.
Lemma dp_o6 : dp o6 = (0, 0, 0).
Proof. unfold o6, iv, dp, dppoint. cbn. unfold dot, val. cbn. apply f_equal2; [apply f_equal2|]; field. Qed.
Lemma dp_x2 : dp x2 = (1, 0, 0).
Proof. unfold x2, iv, dp, dppoint. cbn. unfold dot, val. cbn. apply f_equal2; [apply f_equal2|]; field. Qed.
Lemma dp_x3 : dp x3 = (0, 1, 0).
Proof. unfold x3, iv, dp, dppoint. cbn. unfold dot, val. cbn. apply f_equal2; [apply f_equal2|]; field. Qed.
Ltac dps := unfold triA, triB, triH, triS, triD, q; cbn [map]; rewrite ?dp_o6, ?dp_x2, ?dp_x3, ?dp_pl; unfold val; cbn.
Ltac lev := unfold level; cbn [concat app]; unfold triA, triB, triH, triS, triD, q; cbn [concat app]; repeat (apply Forall_cons; [rewrite ?dp_o6, ?dp_x2, ?dp_x3, ?dp_pl; reflexivity|]); constructor.
Ltac nz := unfold triA, triB, triH, triS, triD; apply parea_flat; unfold flat3; dps; lra.

(** select='simple' compares areas only: two copies of a triangle with half the area of t1
    make the whole of t1 the result, although half of it is outside the second object. *)
Lemma L_C74_simple_refuted : exists o1 o2 r p, tris o1 /\ tris o2 /\ level 0 (concat o1) /\ level 0 (concat o2) /\
  dintersection Bnum (fun _ => None) true (A4 o1) (A4 o2) = Ok (Some r) /\ dregion r p /\
  forall t2, In t2 o2 -> ~ near (1/2) (map dp t2) p.
Proof.
  exists [triA], [triH; triH], [triA], (dp x3). split; [gd|]. split; [gd|]. split; [lev|]. split; [lev|]. split; [vm_cast_no_check (eq_refl (Ok (Some [triA])))|].
  split; [exists triA; split; [left; reflexivity|apply hull_mem; unfold triA; cbn; tauto]|].
  intros t2 I. assert (t2 = triH) as -> by (destruct I as [<-|[<-|[]]]; reflexivity).
  intros (ws & B & P). assert (NF : ~ flat3 (dp o6) (dp x2) (dp (pl (T 0 0 1) (T 1 0 2)))) by (unfold flat3; dps; lra).
  assert (B' : bary [-1; 0; 2] (map dp triH) (dp x3)).
  { dps. split; [reflexivity|]. split; [unfold Rsum; cbn; lra|]. unfold comb, o3. cbn. apply f_equal2; [apply f_equal2|]; field. }
  rewrite (bary3_unique _ _ _ _ _ _ NF B B') in P. inversion P; subst. lra.
Qed.

(** Vertices inside the tolerance can be taken up into the result: two triangles of
    non-zero area whose common part is an edge give a "triangle" with collinear vertices. *)
Lemma L_C74_degenerate_refuted : exists t1 t2 t, tris [t1] /\ tris [t2] /\ level 0 t1 /\ level 0 t2 /\ parea t1 <> 0 /\ parea t2 <> 0 /\
  dintersection Bnum (fun _ => None) false (A4 [t1]) (A4 [t2]) = Ok (Some [t]) /\ parea t = 0.
Proof.
  exists triA, triD, [pl (T (-1) 0 10000000) (T 0 0 1); o6; x2]. split; [gd|]. split; [gd|]. split; [lev|]. split; [lev|]. split; [nz|]. split; [nz|].
  split; [match goal with |- _ = ?r => vm_cast_no_check (eq_refl r) end|].
  destruct (Req_dec (parea [pl (T (-1) 0 10000000) (T 0 0 1); o6; x2]) 0) as [|N]; [assumption|exfalso]. apply parea_flat in N. apply N. unfold flat3. dps. lra.
Qed.

(** Triangulations as assumed above exist. *)
Example E_C74_triangulation : exists delaunay : list (list R) -> option (list (nat * nat * nat)),
  (forall q l, delaunay q = Some l -> covers2 q l) /\ (forall q, delaunay q = None -> on_line (map pt2 q)) /\
  (forall q l, delaunay q = Some l -> Forall (fun '(i, j, k) => (i < length q)%nat /\ (j < length q)%nat /\ (k < length q)%nat) l).
Proof. exists covering. exact covering_spec. Qed.

(** Two triangles that overlap without containing one another, with a common point; the
    result in binary64. *)
Example E_C74_ex : tris [triA] /\ tris [triB] /\ level 0 (concat [triA]) /\ level 0 (concat [triB]) /\ parea triA <> 0 /\ parea triB <> 0 /\
  decided_pair2 triA triB /\ dregion [triA] (dp (q 1 1)) /\ dregion [triB] (dp (q 1 1)) /\
  dintersection Bnum (fun _ => None) false (A4 [triA]) (A4 [triB]) = Ok (Some [[q 1 1; q 1 3; q 3 1]]).
Proof.
  split; [gd|]. split; [gd|]. split; [lev|]. split; [lev|]. split; [nz|]. split; [nz|]. split.
  { intros s f [Es Ls] [Ef Lf]. apply tsubseq2 in Es; [|exact Ls]. apply tsubseq2 in Ef; [|exact Lf].
    (repeat (destruct Es as [<-|Es]; [|]); [.. |destruct Es]); (repeat (destruct Ef as [<-|Ef]; [|]); [.. |destruct Ef]);
    intros a b c d Ea Eb; injection Ea as <- <-; injection Eb as <- <-; cbv zeta; dps; lra. }
  split; [exists triA; split; [left; reflexivity|apply E_C70_ex]|].
  split; [exists triB; split; [left; reflexivity|apply hull_mem; left; reflexivity]|].
  match goal with |- _ = ?r => vm_cast_no_check (eq_refl r) end.
Qed.

(** A run in exact arithmetic: a triangle contained in another. *)
Example E_C74_run : tris [triS] /\ tris [triA] /\ parea triS <> 0 /\ parea triA <> 0 /\
  dintersection Rnum (fun _ => None) false (A4 [triS]) (A4 [triA]) = Ok (Some [triS]).
Proof.
  assert (TS : tris [triS]) by gd. assert (TA : tris [triA]) by gd. assert (VA : parea triA <> 0) by nz.
  split; [exact TS|]. split; [exact TA|]. split; [nz|]. split; [exact VA|].
  inversion TS as [|? ? [LS GS] _]; subst. inversion TA as [|? ? [LA GA] _]; subst.
  assert (In3 : forall v, In v triS -> hull (map dp triA) (dp v)).
  { intros v [<-|[<-|[<-|[]]]]; [apply hull_mem; left; reflexivity|exists [1/2; 1/2; 0]|exists [1/2; 0; 1/2]];
      (split; [split; [reflexivity|split; [unfold Rsum; cbn; lra|]]|repeat (apply Forall_cons; [lra|]); constructor]); dps; unfold comb, o3; cbn;
      apply f_equal2; [apply f_equal2| |apply f_equal2|]; field. }
  assert (Lv : forall v, In v triS -> level 0 (v :: triA)).
  { intros v [<-|[<-|[<-|[]]]]; lev. }
  assert (Cl : check_intersection_two_triangles Rnum triS triA = Ok 1%Z).
  { destruct (L_C72_classes Rnum triS triA TS TA) as (k & Ek & K1 & _). rewrite Ek. f_equal. apply K1.
    intros v Iv. apply (dinside_hull 0); auto; [exact (goods_in 6 _ _ GS Iv)|split; assumption]. }
  destruct (L_C72_never_discards triS [triA] triA (dp o6)) as (c & r & Ec & Ed & Er); [discriminate|exact GS|exact TA|left; reflexivity|apply hull_mem; left; reflexivity|apply hull_mem; left; reflexivity|].
  rewrite (L_C74_intersection Rnum (fun _ => None) false (A4 [triS]) (A4 [triA]) c r Ec Ed).
  unfold dcommon_pieces, douter_loop, dcontribution. rewrite Er. cbn [bind inner_loop]. rewrite Cl. reflexivity.
Qed.
