(** The outcome of intersection_two_obj_convex for two convex solids. *)
From Coq Require Import Reals List ZArith Lia Lra Bool Classical Arith.
From Verif Require Import Base.Res Model.Tau Model.Arr Model.Num Model.IcoNumeric Model.IcoMath1 Model.IcoDedup Model.IcoIntersect Model.IcoSurface Model.Convex
  Spec.Value Spec.RVec Spec.Shape Spec.Mean Spec.IcoSpec Spec.Sets Spec.Space Spec.Tetra Spec.Region Spec.Surface Spec.Overlap Spec.Solid Spec.Convex
  Proofs.ResLemmas Proofs.NumLemmas Proofs.IntersectLemmas Proofs.DedupLemmas Proofs.P_Numeric Proofs.P_Intersect Proofs.P_Surface Proofs.OverlapLemmas Proofs.Polytope
  Proofs.RVecLemmas Proofs.Frontier Proofs.Frontier3 Proofs.ConvexSets Proofs.SolidLemmas Proofs.ConvexLemmas.
Import ListNotations.
Local Open Scope R_scope.

Lemma triple_perm (a b c d e a' b' c' d' e' : R3) : same_set [a'; b'] [a; b] -> same_set [c'; d'; e'] [c; d; e] ->
  a' <> b' -> c' <> d' -> c' <> e' -> d' <> e' -> triple3 (sub3 b a) (sub3 d c) (sub3 e c) <> 0 -> triple3 (sub3 b' a') (sub3 d' c') (sub3 e' c') <> 0.
Proof.
  intros S1 S2 N0 N1 N2 N3 T.
  assert (A : In a' [a; b] /\ In b' [a; b]) by (split; apply S1; cbn; tauto). assert (B : In c' [c; d; e] /\ In d' [c; d; e] /\ In e' [c; d; e]) by (repeat split; apply S2; cbn; tauto).
  clear S1 S2. cbn [In] in A, B. destruct A as [[<-|[<-|[]]] [<-|[<-|[]]]]; try congruence; destruct B as ([<-|[<-|[<-|[]]]] & [<-|[<-|[<-|[]]]] & [<-|[<-|[<-|[]]]]); try congruence.
  all: intros E; apply T; revert E; clear; p3 a; p3 b; p3 c; p3 d; p3 e; cbn; intros; lra.
Qed.

Section Two.
Variables o1 o2 : obj4.
Hypothesis K1 : convex_solid o1.
Hypothesis K2 : convex_solid o2.
Let ts1 := map (map pp) o1.
Let ts2 := map (map pp) o2.

Lemma solid_parts o : convex_solid o -> let ts := map (map pp) o in
  Forall tetr ts /\ face_to_face ts /\ ts <> [] /\ convex (reg3 ts) /\ (forall x, region o x <-> reg3 ts x).
Proof.
  intros [(Ne & To & NF & FF & _) Cv] ts. split; [exact (tetrs o To NF)|]. split; [exact FF|]. split; [destruct o; [contradiction|discriminate]|].
  assert (R : forall x, region o x <-> reg3 ts x) by (intros x; apply reg_iff). split; [|exact R].
  intros a b k A B Hk. apply R. apply Cv; [apply R, A|apply R, B|exact Hk].
Qed.
Lemma inside_all (A B : obj4) : convex_solid A -> convex_solid B -> (forall p, outer_corner A p -> region B p) -> forall x, region A x -> region B x.
Proof.
  intros KA KB H x Rx. destruct (solid_parts A KA) as (TA & FA & NA & CA & RA). destruct (solid_parts B KB) as (TB & FB & NB & CB & RB).
  destruct (convex_corners _ x TA FA NA CA (proj1 (RA x) Rx)) as (V & HV & Hx). apply RB. apply (cv_hull _ CB V); [|exact Hx].
  intros v Iv. apply RB, H. apply (corner_lone A (proj1 KA)), HV, Iv.
Qed.
Lemma corner_region o p : convex_solid o -> outer_corner o p -> region o p.
Proof.
  intros K C. apply (corner_lone o (proj1 K)) in C as (q & r & L). destruct (solid_parts o K) as (_ & _ & _ & _ & R). apply R.
  apply (lone3_reg _ p q r p L). apply hull_mem. left. reflexivity.
Qed.
End Two.

(** Crossings of the edges es of A with the faces fs of B. *)
Lemma crossings_found (A B : obj4) fs es x : solid A -> solid B -> decided_solids A B ->
  (forall f, In f fs <-> outer_face B f) ->
  (forall e, In e es -> exists f, outer_face A f /\ edge_of e f) -> (forall p q s, lone3 (map (map pp) A) p q s -> exists a b, In [a; b] es /\ same_set [pp a; pp b] [p; q]) ->
  cross_at (map (map pp) A) (map (map pp) B) x -> exists f s v, In f fs /\ In s es /\ intersection_segment_surface Rnum s f = Ok (Some v) /\ pp v = x.
Proof.
  intros SA SB D Hf E1 E2 (a & b & c & d & e & f & LA & LB & T & Ha & Hd).
  destruct (E2 a b c LA) as (a' & b' & Ie & Sab). destruct (lone_outer B SB d e f LB) as (g & Og & Sg). destruct (outer_facts B SB g Og) as (u & v & w & t & -> & _ & _ & Gg & LB').
  destruct (E1 _ Ie) as (fa & Ofa & Ea). destruct (edge_goods A SA _ _ Ofa Ea) as (? & ? & E & Gs & _). injection E as <- <-.
  destruct (edge_lone A SA a' b' fa Ofa Ea) as (q & La). pose proof La as (_ & _ & _ & _ & _ & _ & N0 & _). pose proof LB' as (_ & _ & _ & _ & _ & _ & N1 & N2 & N3 & _).
  destruct (segment_found a' b' u v w x) as (z & Ez & Pz).
  - apply (Forall_app (good 6) [a'; b'] [u; v; w]); split; assumption.
  - exact (D fa [u; v; w] [a'; b'] Ofa Og Ea).
  - apply (triple_perm a b d e f); assumption.
  - apply (hull_same [a; b]); [apply same_sym, Sab|exact Ha].
  - apply (hull_same [d; e; f]); [apply same_sym, Sg|exact Hd].
  - exists [u; v; w], [a'; b'], z. split; [apply Hf, Og|]. auto.
Qed.
Lemma crossings_clear (A B : obj4) fs es f s v : solid A -> solid B -> clear_solids A B ->
  (forall f, In f fs <-> outer_face B f) -> (forall e, In e es -> exists f, outer_face A f /\ edge_of e f) ->
  In f fs -> In s es -> intersection_segment_surface Rnum s f = Ok (Some v) -> region A (pp v) /\ region B (pp v).
Proof.
  intros SA SB [_ C] Hf E1 If Is H. apply Hf in If. destruct (E1 s Is) as (g & Og & Eg). destruct (edge_goods A SA s g Og Eg) as (a & b & -> & Gs & _).
  destruct (outer_facts B SB f If) as (u & v' & w & t & -> & _ & _ & Gf & _).
  destruct (meet_near [a; b] [u; v'; w] v Gs Gf eq_refl eq_refl H) as (N1 & N2).
  apply (C g [u; v'; w] a b u v' w (pp v) Og If Eg eq_refl); try assumption.
  apply (meet_transversal a b u v' w v); [|exact H]. apply (Forall_app (good 6) [a; b] [u; v'; w]); split; assumption.
Qed.
(** No crossing although some outer corner of A is inside B and some is not: impossible. *)
Lemma leaves (A B : obj4) p q : convex_solid A -> convex_solid B -> outer_corner A p -> outer_corner A q -> region B p -> ~ region B q ->
  exists x, cross_at (map (map pp) A) (map (map pp) B) x.
Proof.
  intros KA KB Cp Cq Rp Nq. apply NNPP. intros NX. apply Nq. destruct (solid_parts A KA) as (TA & FA & NA & CA & RA). destruct (solid_parts B KB) as (TB & FB & NB & CB & RB).
  apply (corner_lone A (proj1 KA)) in Cp as (p1 & p2 & Lp). apply (corner_lone A (proj1 KA)) in Cq as (q1 & q2 & Lq).
  apply (surface_connected _ TA FA NA CA (region B) p p1 p2 q q1 q2); try assumption.
  intros a b c L Ra. apply NNPP. intros Nb. apply NX. rewrite RB in Ra, Nb.
  destruct (leaving_edge _ a b TB FB Ra Nb) as (d & e & f & x & LB & T & Hx & Hf). exists x, a, b, c, d, e, f. auto.
Qed.

Theorem convex_outcome delaunay o1 o2 : convex_solid o1 -> convex_solid o2 -> decided_solids o1 o2 -> decided_solids o2 o1 -> clear_solids o1 o2 -> clear_solids o2 o1 ->
  let out := intersection_convex Rnum delaunay (A4 o1) (A4 o2) in
  ((forall x, region o1 x -> region o2 x) /\ out = Ok (Some o1)) \/
  (~ (forall x, region o1 x -> region o2 x) /\ (forall x, region o2 x -> region o1 x) /\ out = Ok (Some o2)) \/
  ((forall x, ~ (region o1 x /\ region o2 x)) /\ out = Ok None) \/
  (~ (forall x, region o1 x -> region o2 x) /\ ~ (forall x, region o2 x -> region o1 x) /\ (exists x, region o1 x /\ region o2 x) /\
   ((forall p, outer_corner o1 p -> ~ region o2 p) \/ (forall p, outer_corner o2 p -> ~ region o1 p)) /\ out = Raise UnboundLocalError) \/
  (~ (forall x, region o1 x -> region o2 x) /\ ~ (forall x, region o2 x -> region o1 x) /\ (exists p, outer_corner o1 p /\ region o2 p) /\ (exists p, outer_corner o2 p /\ region o1 p) /\
   exists pts, goods 6 pts /\ (forall x, hull (map pp pts) x <-> region o1 x /\ region o2 x) /\ out = tetrahedralization_points Rnum delaunay pts).
Proof.
  intros K1 K2 D12 D21 C12 C21 out. unfold out. clear out. cbn [intersection_convex]. unfold intersection_two_obj_convex.
  pose proof K1 as [S1 _]. pose proof K2 as [S2 _].
  destruct (surf_ok o1 S1) as (r1 & es1 & vs1 & Er1 & Hr1 & Ee1 & Ev1). destruct (surf_ok o2 S2) as (r2 & es2 & vs2 & Er2 & Hr2 & Ee2 & Ev2).
  rewrite Er1, Er2. cbn [bind]. rewrite Ee1, Ee2. cbn [bind]. rewrite Ev1. cbn [bind].
  destruct (surf_vertices o1 S1 r1 es1 vs1 Hr1 Ee1 Ev1) as (Gv1 & Vf1 & Vc1). destruct (surf_vertices o2 S2 r2 es2 vs2 Hr2 Ee2 Ev2) as (Gv2 & Vf2 & Vc2).
  destruct (vertices_in_spec o2 S2 vs1 Gv1) as (a1 & Ea1 & A1 & A2 & _). { intros v t Iv It Hn. destruct (Vf1 v Iv) as (f & Of & If). exact (proj1 C12 f v t Of If It Hn). }
  destruct (vertices_in_spec o1 S1 vs2 Gv2) as (b1 & Eb1 & B1 & B2 & _). { intros v t Iv It Hn. destruct (Vf2 v Iv) as (f & Of & If). exact (proj1 C21 f v t Of If It Hn). }
  rewrite Ea1. cbn [bind]. rewrite Ev2. cbn [bind]. rewrite Eb1. cbn [bind].
  assert (In1 : (forall x, region o1 x -> region o2 x) <-> (length a1 = length vs1)%nat).
  { rewrite A2. split.
    - intros H v Iv. apply H, corner_region; [exact K1|]. apply Vc1, in_map, Iv.
    - intros H. apply inside_all; [exact K1|exact K2|]. intros p Cp. apply Vc1, in_map_iff in Cp as (v & <- & Iv). apply H, Iv. }
  assert (In2 : (forall x, region o2 x -> region o1 x) <-> (length b1 = length vs2)%nat).
  { rewrite B2. split.
    - intros H v Iv. apply H, corner_region; [exact K2|]. apply Vc2, in_map, Iv.
    - intros H. apply inside_all; [exact K2|exact K1|]. intros p Cp. apply Vc2, in_map_iff in Cp as (v & <- & Iv). apply H, Iv. }
  destruct (Nat.eqb_spec (length a1) (length vs1)) as [Q1|Q1]; [left; split; [apply In1, Q1|reflexivity]|]. right.
  assert (N1 : ~ (forall x, region o1 x -> region o2 x)) by (rewrite In1; exact Q1).
  destruct (Nat.eqb_spec (length b1) (length vs2)) as [Q2|Q2]; [left; split; [exact N1|]; split; [apply In2, Q2|reflexivity]|]. right.
  assert (N2 : ~ (forall x, region o2 x -> region o1 x)) by (rewrite In2; exact Q2).
  destruct (surf_edges o1 S1 r1 Hr1) as (es1' & X & F1 & G1). rewrite Ee1 in X. injection X as <-. destruct (surf_edges o2 S2 r2 Hr2) as (es2' & X & F2 & G2). rewrite Ee2 in X. injection X as <-.
  assert (Two : forall A, solid A -> forall es, (forall e, In e es -> exists f, outer_face A f /\ edge_of e f) -> Forall (fun s => length s = 2%nat /\ goods 6 s) es).
  { intros A SA es HE. apply Forall_forall. intros e Ie. destruct (HE e Ie) as (f & Of & Ef). destruct (edge_goods A SA e f Of Ef) as (a & b & -> & G & _). auto. }
  assert (Three : forall A, solid A -> forall fs, (forall f, In f fs <-> outer_face A f) -> Forall (fun f => length f = 3%nat /\ goods 6 f) fs).
  { intros A SA fs HF. apply Forall_forall. intros f If. destruct (outer_facts A SA f (proj1 (HF f) If)) as (u & v & w & t & -> & _ & _ & G & _). auto. }
  destruct (cross_faces_spec r1 es2 (conj (Two o2 S2 es2 F2) (Three o1 S1 r1 Hr1))) as (p1 & Ep1 & Gp1 & P1).
  destruct (cross_faces_spec r2 es1 (conj (Two o1 S1 es1 F1) (Three o2 S2 r2 Hr2))) as (p2 & Ep2 & Gp2 & P2).
  rewrite Ep1. cbn [bind]. rewrite Ep2. cbn [bind].
  destruct (solid_parts o1 K1) as (T1 & FF1 & NE1 & CV1 & RG1). destruct (solid_parts o2 K2) as (T2 & FF2 & NE2 & CV2 & RG2).
  set (p := p1 ++ p2). assert (Gp : goods 6 p) by (apply Forall_app; auto).
  assert (Pin : forall v, In v p -> region o1 (pp v) /\ region o2 (pp v)).
  { intros v Iv. apply in_app_iff in Iv as [Iv|Iv].
    - apply P1 in Iv as (f & s & If & Is & H). apply and_comm. exact (crossings_clear o2 o1 r1 es2 f s v S2 S1 C21 Hr1 F2 If Is H).
    - apply P2 in Iv as (f & s & If & Is & H). exact (crossings_clear o1 o2 r2 es1 f s v S1 S2 C12 Hr2 F1 If Is H). }
  assert (Pall : forall x, cross_at (map (map pp) o1) (map (map pp) o2) x \/ cross_at (map (map pp) o2) (map (map pp) o1) x -> exists v, In v p /\ pp v = x).
  { intros x [H|H].
    - destruct (crossings_found o1 o2 r2 es1 x S1 S2 D12 Hr2 F1 G1 H) as (f & s & v & If & Is & Ev & <-). exists v. split; [apply in_app_iff; right; apply P2; eauto|reflexivity].
    - destruct (crossings_found o2 o1 r1 es2 x S2 S1 D21 Hr1 F2 G2 H) as (f & s & v & If & Is & Ev & <-). exists v. split; [apply in_app_iff; left; apply P1; eauto|reflexivity]. }
  assert (Ac : forall x, (exists v, In v a1 /\ pp v = x) <-> outer_corner o1 x /\ region o2 x).
  { intros x. split.
    - intros (v & Iv & <-). apply A1 in Iv as (Iv & Rv). split; [apply Vc1, in_map, Iv|exact Rv].
    - intros (Cx & Rx). apply Vc1, in_map_iff in Cx as (v & <- & Iv). exists v. split; [apply A1; auto|reflexivity]. }
  assert (Bc : forall x, (exists v, In v b1 /\ pp v = x) <-> outer_corner o2 x /\ region o1 x).
  { intros x. split.
    - intros (v & Iv & <-). apply B1 in Iv as (Iv & Rv). split; [apply Vc2, in_map, Iv|exact Rv].
    - intros (Cx & Rx). apply Vc2, in_map_iff in Cx as (v & <- & Iv). exists v. split; [apply B1; auto|reflexivity]. }
  assert (Out1 : exists q, outer_corner o1 q /\ ~ region o2 q).
  { apply NNPP. intros X. apply N1. apply inside_all; [exact K1|exact K2|]. intros q Cq. apply NNPP. intros Nq. apply X. exists q. auto. }
  assert (Out2 : exists q, outer_corner o2 q /\ ~ region o1 q).
  { apply NNPP. intros X. apply N2. apply inside_all; [exact K2|exact K1|]. intros q Cq. apply NNPP. intros Nq. apply X. exists q. auto. }
  assert (Span : forall x, region o1 x -> region o2 x -> exists ps, hull ps x /\ forall y, In y ps -> (exists v, In v a1 /\ pp v = y) \/ (exists v, In v b1 /\ pp v = y) \/ (exists v, In v p /\ pp v = y)).
  { intros x R1 R2. apply RG1 in R1. apply RG2 in R2. destruct (convex_span _ _ x T1 FF1 T2 FF2 NE1 NE2 CV1 CV2 R1 R2) as (ps & Gd & H). exists ps. split; [exact H|].
    rewrite Forall_forall in Gd. intros y Iy. destruct (Gd y Iy) as [(q & r & L & R)|[(q & r & L & R)|X]].
    - left. apply Ac. split; [apply (corner_lone o1 S1); eauto|apply RG2, R].
    - right; left. apply Bc. split; [apply (corner_lone o2 S2); eauto|apply RG1, R].
    - right; right. apply Pall. tauto. }
  destruct p as [|p0 p'] eqn:Ep.
  - left. split; [|reflexivity]. intros x (R1 & R2). destruct (Span x R1 R2) as (ps & H & Hy). destruct (hull_some ps x H) as (y & Iy).
    destruct (Hy y Iy) as [Y|[Y|(v & [] & _)]].
    + apply Ac in Y as (Cy & Ry). destruct Out1 as (q & Cq & Nq). destruct (leaves o1 o2 y q K1 K2 Cy Cq Ry Nq) as (z & Z). destruct (Pall z (or_introl Z)) as (v & [] & _).
    + apply Bc in Y as (Cy & Ry). destruct Out2 as (q & Cq & Nq). destruct (leaves o2 o1 y q K2 K1 Cy Cq Ry Nq) as (z & Z). destruct (Pall z (or_intror Z)) as (v & [] & _).
  - right. rewrite <- Ep in *. destruct (perp_space_spec p Gp) as (pt & Ept & Inc & _ & Sp). rewrite Ept. cbn [bind].
    assert (Ex : exists x, region o1 x /\ region o2 x) by (exists (pp p0); apply Pin; rewrite Ep; left; reflexivity).
    destruct a1 as [|a0 a'] eqn:Eqa.
    { left. split; [exact N1|]. split; [exact N2|]. split; [exact Ex|]. split; [|reflexivity]. left. intros q Cq Rq. destruct (proj2 (Ac q) (conj Cq Rq)) as (v & [] & _). }
    rewrite <- Eqa in *. destruct b1 as [|b0 b'] eqn:Eqb.
    { left. split; [exact N1|]. split; [exact N2|]. split; [exact Ex|]. split; [|reflexivity]. right. intros q Cq Rq. destruct (proj2 (Bc q) (conj Cq Rq)) as (v & [] & _). }
    rewrite <- Eqb in *. right. split; [exact N1|]. split; [exact N2|].
    split; [exists (pp a0); apply Ac; exists a0; split; [rewrite Eqa; left; reflexivity|reflexivity]|].
    split; [exists (pp b0); apply Bc; exists b0; split; [rewrite Eqb; left; reflexivity|reflexivity]|].
    assert (G : goods 6 (pt ++ a1 ++ b1)).
    { apply Forall_app. split; [eapply goods_incl; eassumption|]. apply Forall_app. split; apply Forall_forall; intros v Iv; [apply A1 in Iv as [Iv _]; exact (goods_in 6 _ _ Gv1 Iv)|apply B1 in Iv as [Iv _]; exact (goods_in 6 _ _ Gv2 Iv)]. }
    destruct (perp_space_spec _ G) as (pts & Epts & Inc2 & _ & Sp2). rewrite Epts. cbn [bind]. exists pts. split; [eapply goods_incl; eassumption|]. split; [|reflexivity].
    apply pp_same in Sp, Sp2.
    intros x. split.
    + intros H. assert (V : forall v, In v pts -> region o1 (pp v) /\ region o2 (pp v)).
      { intros v Iv. apply Inc2 in Iv. apply in_app_iff in Iv as [Iv|Iv]; [apply Pin, Inc, Iv|]. apply in_app_iff in Iv as [Iv|Iv].
        - destruct (proj1 (Ac (pp v)) ltac:(eauto)) as (Cv & Rv). split; [apply corner_region; assumption|exact Rv].
        - destruct (proj1 (Bc (pp v)) ltac:(eauto)) as (Cv & Rv). split; [exact Rv|apply corner_region; assumption]. }
      split; [apply RG1; apply (cv_hull _ CV1 (map pp pts)); [|exact H]|apply RG2; apply (cv_hull _ CV2 (map pp pts)); [|exact H]];
        intros y Iy; apply in_map_iff in Iy as (v & <- & Iv); [apply RG1|apply RG2]; apply V, Iv.
    + intros (R1 & R2). destruct (Span x R1 R2) as (ps & H & Hy). apply (hull_trans ps); [exact H|]. intros y Iy. apply hull_mem, Sp2. rewrite !map_app, !in_app_iff.
      destruct (Hy y Iy) as [(v & Iv & <-)|[(v & Iv & <-)|(v & Iv & <-)]]; [right; left; apply in_map, Iv|right; right; apply in_map, Iv|left; apply Sp, in_map, Iv].
Qed.
