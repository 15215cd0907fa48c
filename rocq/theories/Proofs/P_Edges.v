(** Border edges of solids and their convex hull (ico2 generate_border_edges,
    generate_convex_hull and simplification): C96, C97. *)
From Coq Require Import Reals List ZArith Lia Lra Bool.
From Verif Require Import Base.Res Model.Tau Model.Arr Model.IcoMath1 Model.Num Model.IcoNumeric Model.IcoDedup Model.IcoIntersect Model.IcoSurface Model.DodeSurface Model.Simplify
  Spec.Value Spec.RVec Spec.Shape Spec.IcoSpec Spec.Sets Spec.Space Spec.Tetra Spec.Surface Spec.Region Spec.Solid Spec.Overlap Spec.Convex Spec.Outline Spec.Edges.
Import ListNotations.
Local Open Scope R_scope.

From Coq Require Import Classical Psatz.
From Verif Require Import Proofs.Irrational Proofs.ResLemmas Proofs.NumLemmas Proofs.PlaneLemmas Proofs.Polytope Proofs.OverlapLemmas Proofs.P_Intersect Proofs.P_Surface Proofs.P_Overlap Proofs.Frontier3 Proofs.SolidLemmas Proofs.P_Solid
  Proofs.P_Convex Proofs.EdgeLemmas Proofs.BorderLemmas Proofs.Caratheodory3.

(** C96: in exact arithmetic, for a face-to-face object (s: its outer faces, C90) none of
    whose surface vertices is nearly on a line with two others, and samples with which the
    coplanarity check recognises exactly the pairs of coplanar faces, the segments returned
    cover exactly the borders of the flat parts of the surface. *)
Lemma L_C96_edges : forall draws o s, solid o -> generator_surface_1 Rnum o = Ok s -> sharp3 (concat s) ->
  (forall i j t u, nth_error s i = Some t -> nth_error s j = Some u -> i <> j ->
     exists b, coplanar_check_two_triangles Rnum (draws i j) t u = Ok b /\ (b = true <-> coplanar3 (map pp (t ++ u)))) ->
  exists r, generate_border_edges Rnum draws o = Ok r /\ forall x, drawn3 r x <-> on_border s x.
Proof.
  intros draws o s So Es Sh Lu. destruct (solid_borders draws o s So Es Sh Lu) as (r & Er & D & _). exists r. split; [|exact D]. unfold generate_border_edges. rewrite Es. exact Er.
Qed.
(** There is at least one segment, the ends of a segment are different vertices of the
    object, and no two segments continue one another in a straight line. *)
Lemma L_C96_segments : forall draws o s r, solid o -> generator_surface_1 Rnum o = Ok s -> sharp3 (concat s) ->
  (forall i j t u, nth_error s i = Some t -> nth_error s j = Some u -> i <> j ->
     exists b, coplanar_check_two_triangles Rnum (draws i j) t u = Ok b /\ (b = true <-> coplanar3 (map pp (t ++ u)))) ->
  generate_border_edges Rnum draws o = Ok r ->
  r <> [] /\ (forall e, In e r -> exists u v, e = [u; v] /\ In u (concat o) /\ In v (concat o) /\ pp u <> pp v) /\
  forall i j e f p q p' s, i <> j -> nth_error r i = Some e -> nth_error r j = Some f -> ends e p q -> ends f p' s -> pp p = pp p' -> pp q <> pp s ->
    ~ hull [pp q; pp s] (pp p).
Proof.
  intros draws o s r So Es Sh Lu E. destruct (solid_borders draws o s So Es Sh Lu) as (r' & Er & _ & Fr & Nr & _ & Irr). unfold generate_border_edges in E. rewrite Es in E. cbn [bind] in E. rewrite Er in E. injection E as <-.
  split; [exact Nr|]. split; [|exact Irr]. intros e He. rewrite Forall_forall in Fr. destruct (Fr e He) as (u & v & -> & Iu & Iv & N).
  destruct (surface_boundary o So) as (s' & Es' & _ & Sf & _). rewrite Es in Es'. injection Es' as <-.
  pose proof So as (_ & To & _). assert (I : incl (concat s) (concat o)) by (apply skin_vertices; [exact To|intros f Hf; apply Sf, Hf]). exists u, v. auto.
Qed.
(** Every point drawn lies on the boundary of the object, and nowhere where the boundary is
    flat: no edge is drawn inside a flat face. *)
Lemma L_C96_flat : forall draws o s r x, solid o -> generator_surface_1 Rnum o = Ok s -> sharp3 (concat s) ->
  (forall i j t u, nth_error s i = Some t -> nth_error s j = Some u -> i <> j ->
     exists b, coplanar_check_two_triangles Rnum (draws i j) t u = Ok b /\ (b = true <-> coplanar3 (map pp (t ++ u)))) ->
  generate_border_edges Rnum draws o = Ok r -> drawn3 r x -> boundary3 (region o) x /\ ~ flat_at (region o) x.
Proof.
  intros draws o s r x So Es Sh Lu E Dx. destruct (solid_borders draws o s So Es Sh Lu) as (r' & Er & D & _). unfold generate_border_edges in E. rewrite Es in E. cbn [bind] in E. rewrite Er in E. injection E as <-.
  apply D in Dx. split; [|intros Fl; exact (flat_no_border o s x So Es Fl Dx)].
  destruct (surface_boundary o So) as (s' & Es' & _ & Sf & Sk). rewrite Es in Es'. injection Es' as <-.
  destruct Dx as (n & d & _ & _ & Bd). intros eps He. destruct (Bd (eps / 2) ltac:(lra)) as ((y & _ & (f & If & _ & Hy) & Dy) & _).
  assert (By : boundary3 (region o) y) by (apply Sk; exists f; auto). destruct (By (eps / 2) ltac:(lra)) as ((z & Rz & Dz) & (w & Nw & Dw)). split.
  - exists z. split; [exact Rz|]. pose proof (IntersectLemmas.dist3_triangle z y x). lra.
  - exists w. split; [exact Nw|]. pose proof (IntersectLemmas.dist3_triangle w y x). lra.
Qed.
(** When the coplanarity check is right: the vertices of the two triangles are in clear
    position and one of the triples sampled is spread (vs: the distinct vertices, in the
    order in which the check indexes them). *)
Lemma L_C96_samples : forall draws t u vs, length t = 3%nat -> length u = 3%nat -> goods 6 (t ++ u) -> remove_doubling_in_perp_space (A3 (t ++ u)) = Ok vs ->
  clear_planes (t ++ u) -> Forall (valid_draw (length vs)) draws ->
  (length vs <= 3)%nat \/ (exists i j k a b c, In (i, j, k) draws /\ nth_error vs i = Some a /\ nth_error vs j = Some b /\ nth_error vs k = Some c /\ spread (pp a) (pp b) (pp c)) ->
  exists b, coplanar_check_two_triangles Rnum draws t u = Ok b /\ (b = true <-> coplanar3 (map pp (t ++ u))).
Proof. exact copl_samples. Qed.

(** C97: under the same conditions, and if the triangulation covers the hull of its points,
    succeeds unless they are coplanar and names existing points, the hull returned
    occupies exactly the convex hull of the vertices. *)
Lemma L_C97_hull : forall delaunay draws o s, solid o -> generator_surface_1 Rnum o = Ok s -> sharp3 (concat s) ->
  (forall i j t u, nth_error s i = Some t -> nth_error s j = Some u -> i <> j ->
     exists b, coplanar_check_two_triangles Rnum (draws i j) t u = Ok b /\ (b = true <-> coplanar3 (map pp (t ++ u)))) ->
  (forall q l, delaunay q = Some l -> covers q l) -> (forall q, ~ coplanar3 (map pt3 q) -> exists l, delaunay q = Some l) ->
  (forall q l, delaunay q = Some l -> Forall (fun '(i, j, k, m) => (i < length q)%nat /\ (j < length q)%nat /\ (k < length q)%nat /\ (m < length q)%nat) l) ->
  exists h, generate_convex_hull Rnum delaunay draws o = Ok (Some h) /\ forall x, region h x <-> hull (map pp (concat o)) x.
Proof.
  intros delaunay draws o s So Es Sh Lu Cov Suc Val. destruct (hull_total delaunay draws o s So Es Sh Lu Suc Val) as (r & E). destruct (hull_R delaunay draws o s r So Es Sh Lu Cov E) as (h & -> & H). eauto.
Qed.
(** simplification() does not change the region of a convex object, whatever samples its
    intersection draws. *)
Lemma L_C97_simplify : forall delaunay draws draws2 o s r, convex_solid o -> generator_surface_1 Rnum o = Ok s -> sharp3 (concat s) ->
  (forall i j t u, nth_error s i = Some t -> nth_error s j = Some u -> i <> j ->
     exists b, coplanar_check_two_triangles Rnum (draws i j) t u = Ok b /\ (b = true <-> coplanar3 (map pp (t ++ u)))) ->
  (forall q l, delaunay q = Some l -> covers q l) ->
  simplification Rnum delaunay draws draws2 (Some o) = Ok r -> exists h, r = Some h /\ forall x, region h x <-> region o x.
Proof.
  intros delaunay draws draws2 o s r (So & Co) Es Sh Lu Cov E. unfold simplification, simplification_ in E. destruct (Xyz.all_none (Some (A4 o))) eqn:An.
  { exfalso. pose proof So as (Ne & To & _). destruct (solid_point o Ne To) as (v & Hv). pose proof (tets_goods o To) as G. unfold goods in G. rewrite Forall_forall in G. destruct (G v Hv) as [_ Lv].
    destruct v as [|z v]; [discriminate Lv|]. assert (I : In z (concat (concat o))) by (apply in_concat; exists (z :: v); split; [exact Hv|left; reflexivity]). unfold Xyz.all_none in An. destruct (concat (concat o)); [destruct I|discriminate]. }
  apply bind_Ok_inv in E as (v0 & _ & E). apply bind_Ok_inv in E as (h0 & Eh & E). apply bind_Ok_inv in E as (h & En & E). apply bind_Ok_inv in E as (t & _ & E). apply bind_Ok_inv in E as (v1 & _ & E).
  destruct (hull_R delaunay draws o s h0 So Es Sh Lu Cov Eh) as (h' & -> & H). cbn [notNone] in En. injection En as <-.
  injection E as <-. destruct (same_volume v0 v1); [exists h'|exists o]; (split; [reflexivity|]); intros x; [rewrite H; apply (convex_hull_region o Co)|tauto].
Qed.


Definition cc : list R3 := [(0,0,0); (1,0,0); (2,0,0); (0,1,0); (0,0,1)].
Lemma at3_1 a b c : pp (at3 1 a b c) = ax (IZR a, IZR b, IZR c).
Proof. rewrite pp_at3 by lia. f_equal. eqs. Qed.
Lemma cut_points v : In v (concat cut) -> exists c, In c cc /\ pp v = ax c.
Proof.
  intros Hv. unfold cut in Hv. cbn [concat app In] in Hv. unfold cc. cbn [In].
  repeat (destruct Hv as [<-|Hv]; [rewrite at3_1; eexists; split; [|reflexivity]; tauto|]). destruct Hv.
Qed.
Lemma cut_solid : solid cut.
Proof.
  assert (DB := det_big).
  assert (N1 : ~ flat4 (pp (at3 1 1 0 0)) (pp (at3 1 0 1 0)) (pp (at3 1 0 0 1)) (pp (at3 1 0 0 0))) by (unfold flat4; rewrite !at3_1, ax_triple; cbn; lra).
  assert (N2 : ~ flat4 (pp (at3 1 1 0 0)) (pp (at3 1 0 1 0)) (pp (at3 1 0 0 1)) (pp (at3 1 2 0 0))) by (unfold flat4; rewrite !at3_1, ax_triple; cbn; lra).
  split; [discriminate|]. split; [unfold cut, at3; gd|]. split; [intros t [<-|[<-|[]]]; apply pvol_flat; assumption|]. split; [|clear; unfold cut; fcentres].
  unfold cut. cbn [map]. apply glued; [exact N1|exact N2|]. rewrite !at3_1, !ax_triple. cbn. nra.
Qed.
Lemma ax_dist a b : let '(x, y, z) := a in let '(x', y', z') := b in dist3 (ax a) (ax b) < 1/100 -> Rabs (x - x') < 1/10 /\ Rabs (y - y') < 1/10 /\ Rabs (z - z') < 1/10.
Proof.
  destruct a as [[x y] z], b as [[x' y'] z']. intros D. pose proof TAU_bounds as TB. pose proof TAU_sq as TS. unfold dist3 in D.
  destruct (sub3 (ax (x, y, z)) (ax (x', y', z'))) as [[e1 e2] e3] eqn:E. destruct (CoplanarLemmas.norm3_comp e1 e2 e3) as (C1 & C2 & C3). cbn in E. injection E as E1 E2 E3.
  assert (A1 : Rabs e1 < 1/100) by lra. assert (A2 : Rabs e2 < 1/100) by lra. assert (A3 : Rabs e3 < 1/100) by lra. apply Rabs_def2 in A1, A2, A3. clear D C1 C2 C3.
  set (X := x - x'). set (Y := y - y'). set (Z := z - z'). assert (F1 : e1 = TAU * X - Y) by (unfold X, Y; lra). assert (F2 : e2 = TAU * Z - X) by (unfold X, Z; lra). assert (F3 : e3 = TAU * Y + Z) by (unfold Y, Z; lra).
  clearbody X Y Z. clear E1 E2 E3. assert (Ez : (2 * TAU + 2) * Z = e3 + (TAU + 1) * e2 + TAU * e1) by (rewrite F1, F2, F3; ring [TS]).
  assert (B1 : Rabs (TAU * e1) < 2/100) by (apply Rabs_def1; nra). assert (B2 : Rabs ((TAU + 1) * e2) < 3/100) by (apply Rabs_def1; nra). apply Rabs_def2 in B1, B2.
  assert (Zb : - (2/100) < Z < 2/100) by (split; nra). assert (Xb : - (45/1000) < X < 45/1000) by (split; nra). assert (Yb : - (95/1000) < Y < 95/1000) by (split; nra).
  repeat split; apply Rabs_def1; lra.
Qed.
Lemma cut_sharp : sharp3 (concat cut).
Proof.
  intros p q r Ip Iq Ir. destruct (cut_points p Ip) as (a & Ia & ->). destruct (cut_points q Iq) as (b & Ib & ->). destruct (cut_points r Ir) as (c & Ic & ->). clear p q r Ip Iq Ir.
  assert (Far : (forall k, 0 <= k <= 1 -> let '(x, y, z) := a in let '(x', y', z') := add3 (scale3 (1 - k) b) (scale3 k c) in Rabs (x - x') < 1/10 -> Rabs (y - y') < 1/10 -> Rabs (z - z') < 1/10 -> False) ->
    forall y, hull [ax b; ax c] y -> 3/2000 <= dist3 (ax a) y).
  { intros H y (ws & (Lw & Sw & Ey) & Pw). destruct ws as [|w0 [|w1 [|]]]; try discriminate Lw. cbn [Rsum] in Sw. inversion Pw as [|? ? W0 Pw']; subst. inversion Pw' as [|? ? W1 _]; subst.
    change [ax b; ax c] with (map ax [b; c]). rewrite ax_comb. assert (w0 = 1 - w1) as -> by lra. destruct (Rle_lt_dec (3/2000) (dist3 (ax a) (ax (comb [1 - w1; w1] [b; c])))) as [|L]; [assumption|exfalso].
    specialize (H w1 ltac:(lra)). replace (comb [1 - w1; w1] [b; c]) with (add3 (scale3 (1 - w1) b) (scale3 w1 c)) in L by (destruct b as [[? ?] ?], c as [[? ?] ?]; cbn; apply f_equal2; [apply f_equal2|]; ring).
    pose proof (ax_dist a (add3 (scale3 (1 - w1) b) (scale3 w1 c))) as K. destruct a as [[x y] z], (add3 _ _) as [[x' y'] z']. destruct K as (K1 & K2 & K3); [lra|]. exact (H K1 K2 K3). }
  unfold cc in *. cbn [In] in Ia, Ib, Ic.
  assert (On : forall k, 0 <= k <= 1 -> a = add3 (scale3 (1 - k) b) (scale3 k c) -> hull [ax b; ax c] (ax a)).
  { intros k Hk E. change [ax b; ax c] with (map ax [b; c]). apply (ax_hull [1 - k; k]); [reflexivity|cbn [Rsum]; lra| |repeat (apply Forall_cons; [lra|]); apply Forall_nil].
    f_equal. rewrite E. clear. destruct b as [[? ?] ?], c as [[? ?] ?]. cbn. apply f_equal2; [apply f_equal2|]; ring. }
  repeat (destruct Ia as [<-|Ia]; [|]); try (destruct Ia); repeat (destruct Ib as [<-|Ib]; [|]); try (destruct Ib); repeat (destruct Ic as [<-|Ic]; [|]); try (destruct Ic);
    first [left; apply (On 0); [lra|cbn; apply f_equal2; [apply f_equal2|]; lra]
          |left; apply (On 1); [lra|cbn; apply f_equal2; [apply f_equal2|]; lra]
          |left; apply (On (1/2)); [lra|cbn; apply f_equal2; [apply f_equal2|]; lra]
          |right; apply Far; intros k Hk; cbn; intros A1 A2 A3; apply Rabs_def2 in A1, A2, A3; lra].
Qed.
Lemma cut_clear : clear_planes (concat cut).
Proof.
  assert (Z3 : forall v, In v (concat cut) -> exists x y z, pp v = ax (IZR x, IZR y, IZR z)).
  { intros v Hv. destruct (cut_points v Hv) as (c & Ic & ->). unfold cc in Ic. cbn [In] in Ic. destruct Ic as [<-|[<-|[<-|[<-|[<-|[]]]]]]; repeat eexists. }
  intros a b c d Ia Ib Ic Id. destruct (Z3 a Ia) as (a0 & a1 & a2 & ->). destruct (Z3 b Ib) as (b0 & b1 & b2 & ->). destruct (Z3 c Ic) as (c0 & c1 & c2 & ->). destruct (Z3 d Id) as (d0 & d1 & d2 & ->).
  unfold flat4. rewrite ax_triple. cbn. 
  match goal with |- _ * ?e = 0 \/ _ => assert (Hz : exists n, e = IZR n) by (eexists; repeat first [rewrite <- minus_IZR|rewrite <- mult_IZR|rewrite <- plus_IZR]; reflexivity) end.
  destruct Hz as (n & ->). destruct (Z.eq_dec n 0) as [->|N]; [left; ring|right].
  assert (1 <= Rabs (IZR n)) by (rewrite <- abs_IZR; apply IZR_le; lia). assert (DB := det_big). rewrite Rabs_mult, Rabs_Ropp, (Rabs_right (TAU * (TAU * TAU) + 1)) by lra. nra.
Qed.
Definition four : list (nat * nat * nat) := [(0,1,2); (0,1,3); (0,2,3); (1,2,3)]%nat.
Lemma spread_ax a b c x y z : cross3 (sub3 b a) (sub3 c a) = (x, y, z) ->
  (1/1000000 <= Rabs (y - (TAU + 1) * x - TAU * z) \/ 1/1000000 <= Rabs (x + TAU * y - (TAU + 1) * z) \/ 1/1000000 <= Rabs (- TAU * x - (TAU + 1) * y - z)) -> spread (ax a) (ax b) (ax c).
Proof.
  intros E H. unfold spread. replace (cross3 (sub3 (ax b) (ax a)) (sub3 (ax c) (ax a))) with (y - (TAU + 1) * x - TAU * z, x + TAU * y - (TAU + 1) * z, - TAU * x - (TAU + 1) * y - z); [exact H|].
  assert (TS := TAU_sq). destruct a as [[? ?] ?], b as [[? ?] ?], c as [[? ?] ?]. cbn in *. injection E as <- <- <-. apply f_equal2; [apply f_equal2|]; ring [TS].
Qed.
Lemma pp_raw a b c : pp [T a 0 1; T b 0 1; T 0 0 1; T c 0 1; T 0 0 1; T 0 0 1] = ax (IZR a, IZR b, IZR c).
Proof. exact (at3_1 a b c). Qed.
Ltac spr i j k := exists i, j, k; do 3 eexists; split; [cbn; tauto|]; split; [reflexivity|]; split; [reflexivity|]; split; [reflexivity|]; rewrite !pp_raw; eapply spread_ax; [reflexivity|];
  first [left; cbn; apply Rabs_ge; lra|right; left; cbn; apply Rabs_ge; lra|right; right; cbn; apply Rabs_ge; lra].
Lemma cut_lucky t u : In t (all_faces cut) -> In u (all_faces cut) -> t <> u ->
  exists b, coplanar_check_two_triangles Rnum four t u = Ok b /\ (b = true <-> coplanar3 (map pp (t ++ u))).
Proof.
  intros It Iu. assert (Io : incl (t ++ u) (concat cut)).
  { unfold cut, all_faces in *. cbn [map tet_faces concat app In] in *. intros v Hv. apply in_app_iff in Hv as [Hv|Hv].
    - clear Iu. repeat (destruct It as [<-|It]; [cbn [In] in Hv; cbn [In]; tauto|]). destruct It.
    - clear It. repeat (destruct Iu as [<-|Iu]; [cbn [In] in Hv; cbn [In]; tauto|]). destruct Iu. }
  assert (Cl : clear_planes (t ++ u)) by (intros a b c d Ia Ib Ic Id; apply cut_clear; apply Io; assumption).
  assert (G : goods 6 (t ++ u)) by (apply (goods_sub (concat cut)); [apply tets_goods, cut_solid|exact Io]). clear Io.
  unfold cut, all_faces in *. cbn [map tet_faces concat app In] in It, Iu. pose proof TAU_bounds as TB. pose proof TAU_sq as TS.
  repeat (destruct It as [<-|It]; [|]); try (destruct It); repeat (destruct Iu as [<-|Iu]; [|]); try (destruct Iu); intros Ne.
  all: try (destruct (Ne eq_refl)).
  all: match goal with |- exists b, coplanar_check_two_triangles Rnum four ?t ?u = _ /\ _ => let vs := eval vm_compute in (remove_doubling_in_perp_space (A3 (t ++ u))) in
         match vs with Ok ?vs => apply (copl_samples four t u vs eq_refl eq_refl G); [vm_cast_no_check (eq_refl (@Ok vecs vs))|exact Cl|idtac|idtac] end end.
  all: try (repeat (apply Forall_cons; [unfold valid_draw; cbn; lia|]); apply Forall_nil).
  all: right; first [spr 0%nat 1%nat 2%nat|spr 0%nat 1%nat 3%nat|spr 0%nat 2%nat 3%nat|spr 1%nat 2%nat 3%nat].
Qed.
Lemma cut_surface : exists s, generator_surface_1 Rnum cut = Ok s /\ sharp3 (concat s) /\
  forall i j t u, nth_error s i = Some t -> nth_error s j = Some u -> i <> j ->
    exists b, coplanar_check_two_triangles Rnum four t u = Ok b /\ (b = true <-> coplanar3 (map pp (t ++ u))).
Proof.
  destruct (surface_boundary cut cut_solid) as (s & Es & ND & Sf & _). exists s. split; [exact Es|]. pose proof cut_solid as (_ & To & _). split.
  - assert (I : incl (concat s) (concat cut)) by (apply skin_vertices; [exact To|intros f Hf; apply Sf, Hf]). intros p q r Ip Iq Ir. apply cut_sharp; apply I; assumption.
  - intros i j t u Ei Ej Nij. apply cut_lucky; [apply Sf, (nth_error_In _ _ Ei)|apply Sf, (nth_error_In _ _ Ej)|].
    intros ->. apply Nij. apply (proj1 (NoDup_nth_error s) ND); [apply nth_error_Some; congruence|congruence].
Qed.
(** The two tetrahedra of [cut]: the four samples are always good enough, and in binary64
    the six edges of the tetrahedron they make up are returned, although its surface
    consists of six triangles. *)
Example E_C96_ex : solid cut /\
  (exists s, generator_surface_1 Rnum cut = Ok s /\ sharp3 (concat s) /\
    forall i j t u, nth_error s i = Some t -> nth_error s j = Some u -> i <> j ->
      exists b, coplanar_check_two_triangles Rnum [(0,1,2); (0,1,3); (0,2,3); (1,2,3)]%nat t u = Ok b /\ (b = true <-> coplanar3 (map pp (t ++ u)))) /\
  generate_border_edges Bnum (fun _ _ => [(0,1,2); (0,1,3); (0,2,3); (1,2,3)]%nat) cut =
    Ok [[at3 1 0 1 0; at3 1 0 0 0]; [at3 1 0 1 0; at3 1 0 0 1]; [at3 1 0 0 1; at3 1 0 0 0]; [at3 1 0 1 0; at3 1 2 0 0]; [at3 1 0 0 1; at3 1 2 0 0]; [at3 1 0 0 0; at3 1 2 0 0]].
Proof. split; [exact cut_solid|]. split; [exact cut_surface|]. match goal with |- _ = ?r => vm_cast_no_check (eq_refl r) end. Qed.
(** Two coplanar faces of it: five points of which three are collinear, and a triple that is spread. *)
Example E_C96_samples_ex : let t := [at3 1 1 0 0; at3 1 0 1 0; at3 1 0 0 0] in let u := [at3 1 1 0 0; at3 1 0 1 0; at3 1 2 0 0] in
  goods 6 (t ++ u) /\ clear_planes (t ++ u) /\
  exists vs, remove_doubling_in_perp_space (A3 (t ++ u)) = Ok vs /\ Forall (valid_draw (length vs)) [(0,1,2); (0,1,3); (0,2,3); (1,2,3)]%nat /\
  exists i j k a b c, In (i, j, k) [(0,1,2); (0,1,3); (0,2,3); (1,2,3)]%nat /\ nth_error vs i = Some a /\ nth_error vs j = Some b /\ nth_error vs k = Some c /\ spread (pp a) (pp b) (pp c).
Proof.
  assert (TB := TAU_bounds). assert (TS := TAU_sq). split; [unfold at3; gd|]. split; [intros a b c d Ia Ib Ic Id; apply cut_clear; unfold cut; cbn [concat app In] in *; tauto|].
  match goal with |- exists vs, ?t = _ /\ _ => let r := eval vm_compute in t in match r with Ok ?vs => exists vs; split; [vm_cast_no_check (eq_refl (@Ok vecs vs))|] end end.
  split; [repeat (apply Forall_cons; [unfold valid_draw; cbn; lia|]); apply Forall_nil|].
  first [spr 0%nat 1%nat 2%nat|spr 0%nat 1%nat 3%nat|spr 0%nat 2%nat 3%nat|spr 1%nat 2%nat 3%nat].
Qed.
(** With unlucky samples the edges depend on them: the only sample 0,2,3 hits the collinear
    points for one pair of coplanar faces, and an edge inside a flat face is returned. *)
Lemma L_C96_unlucky_refuted : exists o d1 d2 r1 r2 x, solid o /\ Forall (valid_draw 4) d1 /\ Forall (valid_draw 4) d2 /\
  generate_border_edges Bnum (fun _ _ => d1) o = Ok r1 /\ generate_border_edges Bnum (fun _ _ => d2) o = Ok r2 /\ ~ drawn3 r1 x /\ drawn3 r2 x.
Proof.
  exists cut, four, [(0,2,3)]%nat.
  exists [[at3 1 0 1 0; at3 1 0 0 0]; [at3 1 0 1 0; at3 1 0 0 1]; [at3 1 0 0 1; at3 1 0 0 0]; [at3 1 0 1 0; at3 1 2 0 0]; [at3 1 0 0 1; at3 1 2 0 0]; [at3 1 0 0 0; at3 1 2 0 0]].
  exists [[at3 1 0 1 0; at3 1 0 0 0]; [at3 1 0 1 0; at3 1 0 0 1]; [at3 1 0 0 1; at3 1 0 0 0]; [at3 1 1 0 0; at3 1 0 0 1]; [at3 1 0 1 0; at3 1 2 0 0]; [at3 1 0 0 1; at3 1 2 0 0]; [at3 1 0 0 0; at3 1 2 0 0]].
  exists (ax (1/2, 0, 1/2)). split; [exact cut_solid|]. split; [repeat (apply Forall_cons; [unfold valid_draw; cbn; lia|]); apply Forall_nil|]. split; [repeat (apply Forall_cons; [unfold valid_draw; cbn; lia|]); apply Forall_nil|].
  split; [match goal with |- _ = ?r => vm_cast_no_check (eq_refl r) end|]. split; [match goal with |- _ = ?r => vm_cast_no_check (eq_refl r) end|]. split.
  - intros (e & Ie & He). cbn [In] in Ie. repeat (destruct Ie as [<-|Ie]; [|]); try (destruct Ie); cbn [map] in He; rewrite !at3_1 in He; destruct He as (ws & (Lw & Sw & Ex) & Pw);
      destruct ws as [|w0 [|w1 [|]]]; try discriminate Lw; cbn [Rsum] in Sw; inversion Pw as [|? ? W0 Pw']; subst; inversion Pw' as [|? ? W1 _]; subst;
      match type of Ex with _ = comb _ [ax ?b; ax ?c] => change [ax b; ax c] with (map ax [b; c]) in Ex end; rewrite ax_comb in Ex; apply ax_inj in Ex; cbn in Ex; injection Ex as E1 E2 E3; lra.
  - exists [at3 1 1 0 0; at3 1 0 0 1]. split; [cbn [In]; tauto|]. cbn [map]. rewrite !at3_1. apply (ax_hull [1/2; 1/2] [(1,0,0); (0,0,1)]); [reflexivity|cbn [Rsum]; lra|f_equal; cbn; apply f_equal2; [apply f_equal2|]; lra|].
    repeat (apply Forall_cons; [lra|]). apply Forall_nil.
Qed.
(** [cut] is convex, a triangulation as required exists, and in binary64 simplification returns one tetrahedron. *)
Lemma cut_region x y z : region cut (ax (x, y, z)) <-> 0 <= x /\ 0 <= y /\ 0 <= z /\ x / 2 + y + z <= 1.
Proof.
  assert (W : forall t c0 c1 c2 c3, map pp t = map ax [c0; c1; c2; c3] -> (hull (map pp t) (ax (x, y, z)) <-> exists w1 w2 w3, 0 <= 1 - w1 - w2 - w3 /\ 0 <= w1 /\ 0 <= w2 /\ 0 <= w3 /\ (x, y, z) = comb [1 - w1 - w2 - w3; w1; w2; w3] [c0; c1; c2; c3])).
  { intros t c0 c1 c2 c3 E. rewrite E. split.
    - intros (ws & (Lw & Sw & Ex) & Pw). destruct ws as [|w0 [|w1 [|w2 [|w3 [|]]]]]; try discriminate Lw. rewrite ax_comb in Ex. apply ax_inj in Ex. cbn [Rsum] in Sw.
      inversion Pw as [|? ? P0 Pw1]; subst. inversion Pw1 as [|? ? P1 Pw2]; subst. inversion Pw2 as [|? ? P2 Pw3]; subst. inversion Pw3 as [|? ? P3 _]; subst. assert (w0 = 1 - w1 - w2 - w3) as -> by lra. exists w1, w2, w3. auto.
    - intros (w1 & w2 & w3 & P0 & P1 & P2 & P3 & Ex). apply (ax_hull [1 - w1 - w2 - w3; w1; w2; w3]); [reflexivity|cbn [Rsum]; lra|rewrite Ex; reflexivity|repeat (apply Forall_cons; [lra|]); apply Forall_nil]. }
  assert (E1 : map pp [at3 1 1 0 0; at3 1 0 1 0; at3 1 0 0 1; at3 1 0 0 0] = map ax [(1,0,0); (0,1,0); (0,0,1); (0,0,0)]) by (cbn [map]; rewrite !at3_1; reflexivity).
  assert (E2 : map pp [at3 1 1 0 0; at3 1 0 1 0; at3 1 0 0 1; at3 1 2 0 0] = map ax [(1,0,0); (0,1,0); (0,0,1); (2,0,0)]) by (cbn [map]; rewrite !at3_1; reflexivity).
  split.
  - intros (t & [<-|[<-|[]]] & H); [apply (W _ _ _ _ _ E1) in H|apply (W _ _ _ _ _ E2) in H]; destruct H as (w1 & w2 & w3 & P0 & P1 & P2 & P3 & Ex); cbn in Ex; injection Ex as X1 X2 X3; lra.
  - intros (X & Y & Z & Su). destruct (Rle_lt_dec (x + y + z) 1) as [L|L].
    + eexists. split; [left; reflexivity|]. apply (W _ _ _ _ _ E1). exists y, z, (1 - x - y - z). repeat (split; [lra|]). cbn. apply f_equal2; [apply f_equal2|]; lra.
    + eexists. split; [right; left; reflexivity|]. apply (W _ _ _ _ _ E2). exists y, z, (x + y + z - 1). repeat (split; [lra|]). cbn. apply f_equal2; [apply f_equal2|]; lra.
Qed.
Lemma ax_onto p : exists c, p = ax c.
Proof.
  destruct p as [[e1 e2] e3]. assert (TS := TAU_sq). assert (TB := TAU_bounds). set (z := (e3 + TAU * e1 + (TAU + 1) * e2) / (2 * TAU + 2)).
  assert (Ez : (2 * TAU + 2) * z = e3 + TAU * e1 + (TAU + 1) * e2) by (unfold z; field; lra). exists (TAU * z - e2, TAU * (TAU * z - e2) - e1, z). unfold ax. apply f_equal2; [apply f_equal2|]; [ring|ring|].
  clearbody z. replace (TAU * (TAU * (TAU * z - e2) - e1) + z) with ((2 * TAU + 2) * z - (TAU + 1) * e2 - TAU * e1) by ring [TS]. rewrite Ez. ring.
Qed.
Lemma cut_convex : convex_solid cut.
Proof.
  split; [exact cut_solid|]. intros a b k Ra Rb Hk. destruct (ax_onto a) as ([[x y] z] & ->). destruct (ax_onto b) as ([[x' y'] z'] & ->). apply cut_region in Ra, Rb.
  replace (add3 (scale3 k (ax (x, y, z))) (scale3 (1 - k) (ax (x', y', z')))) with (ax (k * x + (1 - k) * x', k * y + (1 - k) * y', k * z + (1 - k) * z')) by (cbn; apply f_equal2; [apply f_equal2|]; ring).
  apply cut_region. destruct Ra as (X & Y & Z & S1), Rb as (X' & Y' & Z' & S1'). repeat split; try nra.
Qed.
Example E_C97_ex : convex_solid cut /\
  (exists s, generator_surface_1 Rnum cut = Ok s /\ sharp3 (concat s) /\
    forall i j t u, nth_error s i = Some t -> nth_error s j = Some u -> i <> j ->
      exists b, coplanar_check_two_triangles Rnum [(0,1,2); (0,1,3); (0,2,3); (1,2,3)]%nat t u = Ok b /\ (b = true <-> coplanar3 (map pp (t ++ u)))) /\
  (exists delaunay : list (list R) -> option (list (nat * nat * nat * nat)),
    (forall q l, delaunay q = Some l -> covers q l) /\ (forall q, ~ coplanar3 (map pt3 q) -> exists l, delaunay q = Some l) /\
    (forall q l, delaunay q = Some l -> Forall (fun '(i, j, k, m) => (i < length q)%nat /\ (j < length q)%nat /\ (k < length q)%nat /\ (m < length q)%nat) l)) /\
  simplification Bnum (fun q => if Nat.eqb (length q) 4 then Some [(0,1,2,3)]%nat else None) (fun _ _ => [(0,1,2); (0,1,3); (0,2,3); (1,2,3)]%nat) (fun _ _ => [(0,1,2)]%nat) (Some cut) =
    Ok (Some [[at3 1 0 1 0; at3 1 0 0 0; at3 1 0 0 1; at3 1 2 0 0]]).
Proof. split; [exact cut_convex|]. split; [exact cut_surface|]. split; [exists covering3; exact covering3_spec|]. match goal with |- _ = ?r => vm_cast_no_check (eq_refl r) end. Qed.
