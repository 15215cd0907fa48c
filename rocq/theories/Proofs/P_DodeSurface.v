(** Edges, border edges, outline and convex hull of dodecagonal objects (dode2/utils.py:298-455,
    742-790, dode2/occupation_domain.py:1084-1152): C82-C86, and C43 for dode2.  [N] is any
    arithmetic for the floating-point tests ([Rnum] exact, [Bnum] binary64); [draws i j] are
    the random samples of the coplanarity test of triangles i and j. *)
From Coq Require Import Reals List ZArith Lia Lra Bool.
From Verif Require Import Base.Res Model.Tau Model.Arr Model.Num Model.DodeArea Model.IcoSurface Model.DodeDedup Model.DodeIntersect Model.Numeric2 Model.DodeSurface
  Spec.Value Spec.RVec Spec.Shape Spec.Mean Spec.DodeSpec Spec.Sets Spec.Space Spec.Tetra Spec.Plane Spec.Surface Spec.Outline Spec.Samples Spec.DodeSamples.
Import ListNotations.
Local Open Scope R_scope.

From Verif Require Import Proofs.ResLemmas Proofs.ScalarLemmas Proofs.ValueLemmas Proofs.DedupLemmas Proofs.NumLemmas Proofs.IntersectLemmas Proofs.DodeDedupLemmas Proofs.DodeAreaLemmas
  Proofs.PlaneLemmas Proofs.Polytope Proofs.Polygon Proofs.SurfaceLemmas Proofs.MergeLemmas Proofs.DodeIntersectLemmas Proofs.P_DodeIntersect Proofs.DodeOverlapLemmas Proofs.Caratheodory
  Proofs.P_DodeOverlap Proofs.DodeSurfaceLemmas Proofs.Frontier Proofs.OutlineLemmas.

(** C82: the outline.  In exact arithmetic, for an edge-to-edge object in one plane whose
    triangles all pass the coplanarity test, outline() returns segments whose union is the
    topological boundary of the occupied part of the plane. *)
Lemma L_C82_outline : forall h draws o, patch h o ->
  (forall i j t u, nth_error o i = Some t -> nth_error o j = Some u -> i <> j -> dcoplanar_check_two_triangles Rnum (draws i j) t u = Ok true) ->
  exists r, doutline Rnum draws o = Ok r /\ forall x, drawn r x <-> boundary h (dregion o) x.
Proof. intros h draws o P C. destruct (patch_outline h draws o P C) as (r & E & B & _). eauto. Qed.

(** The ends of the segments are different vertices of the object, and no two segments of
    the outline continue one another in a straight line. *)
Lemma L_C82_segments : forall h draws o r, patch h o ->
  (forall i j t u, nth_error o i = Some t -> nth_error o j = Some u -> i <> j -> dcoplanar_check_two_triangles Rnum (draws i j) t u = Ok true) ->
  doutline Rnum draws o = Ok r ->
  r <> [] /\ (forall e, In e r -> exists u v, e = [u; v] /\ In u (concat o) /\ In v (concat o) /\ dp u <> dp v) /\
  forall i j e f p q p' s, i <> j -> nth_error r i = Some e -> nth_error r j = Some f -> ends e p q -> ends f p' s -> dp p = dp p' -> dp q <> dp s ->
    ~ hull [dp q; dp s] (dp p).
Proof.
  intros h draws o r P C E. destruct (patch_outline h draws o P C) as (r' & E' & _ & S & Nr & M). rewrite E in E'. injection E' as <-.
  split; [exact Nr|]. split; [|exact M]. intros e He. rewrite Forall_forall in S. apply (S e He).
Qed.

(** C83: the coplanarity test of two triangles of one plane in exact arithmetic.  [vs]: the
    different vertices.  The answer is True exactly if there are at most three of them or
    one of the random samples spans an area of at least 5e-7. *)
Lemma L_C83_level : forall h t u, tris [t; u] -> level h (t ++ u) ->
  exists vs, incl vs (t ++ u) /\ NoDup (map dppoint vs) /\ same_set (map dppoint vs) (map dppoint (t ++ u)) /\
    forall draws, Forall (valid_draw (length vs)) draws -> exists b, dcoplanar_check_two_triangles Rnum draws t u = Ok b /\
      (b = true <-> (length vs <= 3)%nat \/ exists i j k v0 v1 v2, In (i, j, k) draws /\ nth_error vs i = Some v0 /\ nth_error vs j = Some v1 /\ nth_error vs k = Some v2 /\
         1/1000000 <= Rabs (det2 (sub3 (dp v1) (dp v0)) (sub3 (dp v2) (dp v0)))).
Proof.
  intros h t u T Lv. inversion T as [|? ? [_ Gt] T']; subst. inversion T' as [|? ? [_ Gu] _]; subst.
  assert (G : goods 6 (t ++ u)) by (apply Forall_app; split; assumption).
  destruct (copl_level h [] t u G Lv) as (vs & Ev & I & ND & SS & _). exists vs. split; [exact I|]. split; [exact ND|]. split; [exact SS|].
  intros draws V. destruct (copl_level h draws t u G Lv) as (vs' & Ev' & _ & _ & _ & K). rewrite Ev in Ev'. injection Ev' as <-. apply K, V.
Qed.

(** * The triangle (0,0), (2,0), (0,1) cut in two *)
Lemma dp_x22 : dp x22 = (2, 0, 0).
Proof. unfold x22. rewrite dp_pl. unfold val. cbn. apply f_equal2; [apply f_equal2|]; field. Qed.
Lemma hull_dot ps (m : R3) c x : (forall p, In p ps -> c <= dot3 m p) -> hull ps x -> c <= dot3 m x.
Proof.
  intros H (ws & (L & S1 & E) & Nn). subst x. revert ws L S1 Nn. 
  assert (K : forall ps ws, (forall p, In p ps -> c <= dot3 m p) -> length ws = length ps -> Forall (fun w => 0 <= w) ws -> c * Rsum ws <= dot3 m (comb ws ps)).
  { clear. induction ps as [|p ps IH]; intros [|w ws] H L Nn; try discriminate L.
    - cbn. destruct m as [[? ?] ?]. cbn. lra.
    - inversion Nn; subst. specialize (IH ws (fun p' Hp => H p' (or_intror Hp)) (f_equal pred L) H3). specialize (H p (or_introl eq_refl)).
      replace (comb (w :: ws) (p :: ps)) with (add3 (scale3 w p) (comb ws ps)) by reflexivity. unfold Rsum in *. cbn [fold_right].
      assert (E : dot3 m (add3 (scale3 w p) (comb ws ps)) = w * dot3 m p + dot3 m (comb ws ps)) by (destruct m as [[? ?] ?], p as [[? ?] ?], (comb ws ps) as [[? ?] ?]; cbn; ring).
      rewrite E. assert (w * c <= w * dot3 m p) by (apply Rmult_le_compat_l; assumption). lra. }
  intros ws L S1 Nn. specialize (K ps ws H L Nn). rewrite S1 in K. lra.
Qed.
Lemma far2 a b (p q r y : R3) : Rabs a <= 1 -> Rabs b <= 1 -> dot3 (a, b, 0) p + 1/200 <= dot3 (a, b, 0) q -> dot3 (a, b, 0) p + 1/200 <= dot3 (a, b, 0) r -> hull [q; r] y -> 3/2000 <= dist3 p y.
Proof.
  intros Ha Hb Hq Hr H. apply (hull_dot _ (a, b, 0) (dot3 (a, b, 0) p + 1/200)) in H; [|intros s [<-|[<-|[]]]; assumption].
  clear - Ha Hb H. destruct p as [[x0 x1] x2], y as [[y0 y1] y2]. unfold dist3, norm3 in *. cbn in *.
  set (s := sqrt _). assert (S0 : 0 <= s) by apply sqrt_pos.
  assert (S2 : s * s = (x0 - y0) * (x0 - y0) + (x1 - y1) * (x1 - y1) + (x2 - y2) * (x2 - y2)).
  { unfold s. rewrite sqrt_sqrt; [ring|]. pose proof (Rle_0_sqr (x0 - y0)). pose proof (Rle_0_sqr (x1 - y1)). pose proof (Rle_0_sqr (x2 - y2)). unfold Rsqr in *. lra. }
  assert (A0 : Rabs (y0 - x0) <= s). { apply Rsqr_incr_0; [|apply Rabs_pos|exact S0]. rewrite <- Rsqr_abs. pose proof (Rle_0_sqr (x1 - y1)). pose proof (Rle_0_sqr (x2 - y2)). unfold Rsqr in *. lra. }
  assert (A1 : Rabs (y1 - x1) <= s). { apply Rsqr_incr_0; [|apply Rabs_pos|exact S0]. rewrite <- Rsqr_abs. pose proof (Rle_0_sqr (x0 - y0)). pose proof (Rle_0_sqr (x2 - y2)). unfold Rsqr in *. lra. }
  assert (B0 : a * (y0 - x0) <= s). { eapply Rle_trans; [apply Rle_abs|]. rewrite Rabs_mult. replace s with (1 * s) by ring. apply Rmult_le_compat; try apply Rabs_pos; assumption. }
  assert (B1 : b * (y1 - x1) <= s). { eapply Rle_trans; [apply Rle_abs|]. rewrite Rabs_mult. replace s with (1 * s) by ring. apply Rmult_le_compat; try apply Rabs_pos; assumption. }
  lra.
Qed.
Ltac hx := unfold x22; rewrite ?dp_o6, ?dp_x2, ?dp_x3, ?dp_pl; unfold val; cbn [ta tb tc].
Ltac ab := unfold Rabs; destruct (Rcase_abs _); lra.
Ltac sep a b := right; intros y Hy; refine (far2 a b _ _ _ y _ _ _ _ Hy); [ab|ab|hx; cbn; lra|hx; cbn; lra].
Lemma halves_sharp : sharp (concat halves).
Proof.
  assert (K : forall v, In v (concat halves) -> v = o6 \/ v = x2 \/ v = x3 \/ v = x22) by (intros v Hv; unfold halves in Hv; cbn [concat app In] in Hv; repeat (destruct Hv as [<-|Hv]; [auto|]); destruct Hv).
  intros p q r Hp Hq Hr. apply K in Hp, Hq, Hr.
  destruct Hp as [->|[->|[-> | ->]]], Hq as [->|[->|[-> | ->]]], Hr as [->|[->|[-> | ->]]];
    first [left; apply hull_mem; left; reflexivity|left; apply hull_mem; right; left; reflexivity
      |sep 1 1|sep (-1) 0|sep (1/2) 1|sep 0 (-1)
      |left; apply hull2_line; exists (1/2); split; [lra|hx; cbn; apply f_equal2; [apply f_equal2|]; field]].
Qed.
Lemma halves_patch : patch 0 halves.
Proof.
  split; [discriminate|]. split; [gd|]. split; [unfold level, halves; cbn [concat app]; repeat (apply Forall_cons; [hx; reflexivity|]); constructor|].
  split; [intros t [<-|[<-|[]]]; apply parea_flat; unfold flat3; hx; cbn; lra|]. split; [|exact halves_sharp].
  assert (Hx : forall x, hull (map dp [o6; x2; x3]) x -> hull (map dp [x2; x22; x3]) x -> hull [dp x2; dp x3] x).
  { intros x Ha Hb. cbn [map] in Ha, Hb. apply hull3_inv in Ha as (a & b & c & S & Pa & Pb & Pc & ->). apply (hull_dot _ (1, 1, 0) 1) in Hb.
    - revert Hb. hx. cbn. intros Hb. assert (a = 0) by lra. apply hull2_line. exists c. split; [lra|]. unfold line. cbn. subst a. replace b with (1 - c) by lra. apply f_equal2; [apply f_equal2|]; field.
    - intros p [<-|[<-|[<-|[]]]]; hx; cbn; lra. }
  assert (Ns : ~ same_set (map dp [o6; x2; x3]) (map dp [x2; x22; x3])).
  { intros Sx. assert (I : In (dp o6) (map dp [x2; x22; x3])) by (apply Sx; left; reflexivity). cbn [map In] in I. revert I. hx. intros [I|[I|[I|[]]]]; injection I; lra. }
  intros i j t u Ni Nj Nij. unfold halves in Ni, Nj. cbn [map] in Ni, Nj.
  destruct i as [|[|i]], j as [|[|j]]; cbn [nth_error] in Ni, Nj; try congruence; try (destruct i; discriminate Ni); try (destruct j; discriminate Nj);
    assert (Et := f_equal (fun x => match x with Some y => y | None => [] end) Ni); assert (Eu := f_equal (fun x => match x with Some y => y | None => [] end) Nj); cbn beta iota in Et, Eu; subst t u.
  - split; [exact Ns|]. intros x A B. exists [dp x2; dp x3]. split; [intros y [<-|[<-|[]]]; cbn [In]; auto|]. split; [intros y [<-|[<-|[]]]; cbn [In]; auto|apply Hx; assumption].
  - split; [intros Sx; apply Ns; intros y; symmetry; apply Sx|]. intros x A B. exists [dp x2; dp x3]. split; [intros y [<-|[<-|[]]]; cbn [In]; auto|]. split; [intros y [<-|[<-|[]]]; cbn [In]; auto|apply Hx; assumption].
Qed.
Lemma halves_coplanar : forall i j t u, nth_error halves i = Some t -> nth_error halves j = Some u -> i <> j ->
  dcoplanar_check_two_triangles Rnum [(0, 2, 3); (0, 1, 2)]%nat t u = Ok true.
Proof.
  assert (K : forall t u, goods 6 (t ++ u) -> level 0 (t ++ u) -> dremove_doubling_in_perp_space (A3 (t ++ u)) = Ok [o6; x3; x2; x22] ->
    dcoplanar_check_two_triangles Rnum [(0, 2, 3); (0, 1, 2)]%nat t u = Ok true).
  { intros t u G Lv E. destruct (copl_level 0 [(0, 2, 3); (0, 1, 2)]%nat t u G Lv) as (vs & Ev & _ & _ & _ & H). rewrite E in Ev. injection Ev as <-.
    destruct H as (b & -> & Hb); [repeat (apply Forall_cons; [cbn; lia|]); constructor|]. f_equal. apply Hb. right. exists 0%nat, 1%nat, 2%nat, o6, x3, x2.
    split; [right; left; reflexivity|]. do 3 (split; [reflexivity|]). unfold D. hx. cbn. ab. }
  pose proof (proj1 (proj2 (proj2 halves_patch))) as Lv. unfold level, halves in Lv. cbn [concat app] in Lv. rewrite Forall_forall in Lv.
  intros i j t u Ni Nj Nij. destruct i as [|[|i]], j as [|[|j]]; cbn [nth_error halves] in Ni, Nj; try congruence; try (destruct i; discriminate Ni); try (destruct j; discriminate Nj);
    assert (Et := f_equal (fun x => match x with Some y => y | None => [] end) Ni); assert (Eu := f_equal (fun x => match x with Some y => y | None => [] end) Nj); cbn beta iota in Et, Eu; subst t u;
    (apply K; [gd|apply Forall_forall; intros v Hv; apply Lv; cbn [app In] in *; tauto|vm_compute; reflexivity]).
Qed.
(** The cut is not part of the outline, and the two parts of the long side are joined. *)
Example E_C82_ex : patch 0 halves /\
  (forall i j t u, nth_error halves i = Some t -> nth_error halves j = Some u -> i <> j -> dcoplanar_check_two_triangles Rnum [(0, 2, 3); (0, 1, 2)]%nat t u = Ok true) /\
  doutline Bnum (fun _ _ => [(0, 2, 3); (0, 1, 2)]%nat) halves = Ok [[o6; x3]; [x22; x3]; [o6; x22]].
Proof. split; [exact halves_patch|]. split; [exact halves_coplanar|]. vmr. Qed.

(** Without the second assumption it fails: (0,0), (1,0), (2,0) are on one line, so if
    every random sample picks these three the two triangles count as not coplanar and the
    cut is returned as part of the outline. *)
Lemma L_C82_unlucky_refuted : exists draws o r x, patch 0 o /\ (forall i j, Forall (valid_draw 4) (draws i j)) /\
  doutline Bnum draws o = Ok r /\ drawn r x /\ ~ boundary 0 (dregion o) x.
Proof.
  exists (fun _ _ => repeat (0, 2, 3)%nat 5), halves, [[o6; x3]; [x2; x3]; [x22; x3]; [o6; x22]], (1/2, 1/2, 0).
  split; [exact halves_patch|]. split; [intros _ _; repeat (apply Forall_cons; [cbn; lia|]); constructor|]. split; [vmr|]. split.
  - exists [x2; x3]. split; [right; left; reflexivity|]. cbn [map]. apply hull2_line. exists (1/2). split; [lra|]. hx. cbn. apply f_equal2; [apply f_equal2|]; field.
  - intros [_ H]. destruct (H (1/10) ltac:(lra)) as (_ & ([[a b] c] & Hh & No & Hd)). apply No. cbn in Hh. subst c.
    unfold dist3, norm3 in Hd. cbn in Hd. set (s := sqrt _) in Hd. assert (S0 : 0 <= s) by apply sqrt_pos.
    assert (S2 : s * s = (a - 1/2) * (a - 1/2) + (b - 1/2) * (b - 1/2)).
    { unfold s. rewrite sqrt_sqrt; [field|]. pose proof (Rle_0_sqr (a - 1/2)). pose proof (Rle_0_sqr (b - 1/2)). unfold Rsqr in *. lra. }
    assert (A0 : Rabs (a - 1/2) <= s). { apply Rsqr_incr_0; [|apply Rabs_pos|exact S0]. rewrite <- Rsqr_abs. pose proof (Rle_0_sqr (b - 1/2)). unfold Rsqr in *. lra. }
    assert (A1 : Rabs (b - 1/2) <= s). { apply Rsqr_incr_0; [|apply Rabs_pos|exact S0]. rewrite <- Rsqr_abs. pose proof (Rle_0_sqr (a - 1/2)). unfold Rsqr in *. lra. }
    pose proof (Rle_abs (a - 1/2)). pose proof (Rle_abs (-(a - 1/2))). pose proof (Rle_abs (b - 1/2)). pose proof (Rle_abs (-(b - 1/2))). rewrite Rabs_Ropp in *. destruct (Rle_dec (a + b) 1) as [L|L].
    + exists [o6; x2; x3]. split; [left; reflexivity|]. cbn [map]. apply (hull3 (1 - a - b) a b); try lra. hx. cbn. apply f_equal2; [apply f_equal2|]; field.
    + exists [x2; x22; x3]. split; [right; left; reflexivity|]. cbn [map]. apply (hull3 (2 - a - 2 * b) (a + b - 1) b); try lra. hx. cbn. apply f_equal2; [apply f_equal2|]; field.
Qed.

Example E_C83_ex : tris [[o6; x2; x3]; [x2; x22; x3]] /\ level 0 ([o6; x2; x3] ++ [x2; x22; x3]) /\ dcoplanar_check_two_triangles Rnum [(0, 2, 3); (0, 1, 2)]%nat [o6; x2; x3] [x2; x22; x3] = Ok true.
Proof.
  split; [gd|]. split; [exact (proj1 (proj2 (proj2 halves_patch)))|]. apply (halves_coplanar 0 1); [reflexivity|reflexivity|discriminate].
Qed.
(** So the answer for one pair depends on the random samples. *)
Lemma L_C83_random_refuted : exists h t u d1 d2, tris [t; u] /\ level h (t ++ u) /\ Forall (valid_draw 4) d1 /\ Forall (valid_draw 4) d2 /\
  dcoplanar_check_two_triangles Rnum d1 t u = Ok true /\ dcoplanar_check_two_triangles Rnum d2 t u = Ok false.
Proof.
  exists 0, [o6; x2; x3], [x2; x22; x3], [(0, 2, 3); (0, 1, 2)]%nat, (repeat (0, 2, 3)%nat 5). destruct E_C83_ex as (T & Lv & E).
  split; [exact T|]. split; [exact Lv|]. split; [repeat (apply Forall_cons; [cbn; lia|]); constructor|]. split; [repeat (apply Forall_cons; [cbn; lia|]); constructor|]. split; [exact E|].
  destruct (copl_level 0 (repeat (0, 2, 3)%nat 5) [o6; x2; x3] [x2; x22; x3]) as (vs & Ev & _ & _ & _ & H); [gd|exact Lv|].
  assert (Ev' : dremove_doubling_in_perp_space (A3 ([o6; x2; x3] ++ [x2; x22; x3])) = Ok [o6; x3; x2; x22]) by (vm_compute; reflexivity). rewrite Ev in Ev'. injection Ev' as ->.
  destruct H as (b & -> & Hb); [repeat (apply Forall_cons; [cbn; lia|]); constructor|]. f_equal. destruct b; [|reflexivity]. exfalso.
  destruct (proj1 Hb eq_refl) as [L|(i & j & k & v0 & v1 & v2 & I & N0 & N1 & N2 & A)]; [cbn in L; lia|].
  assert (I' : (i, j, k) = (0, 2, 3)%nat) by (cbn in I; intuition). injection I' as -> -> ->. cbn [nth_error] in N0, N1, N2.
  assert (v0 = o6) by congruence. assert (v1 = x2) by congruence. assert (v2 = x22) by congruence. subst v0 v1 v2. revert A. unfold D. hx. cbn.
  intros A. match type of A with _ <= Rabs ?x => replace x with 0 in A by field end. rewrite Rabs_R0 in A. lra.
Qed.

(** C84: the edges of a list of segments (n2 = 2) or triangles (n2 = 3), in exact
    arithmetic: one edge for every midpoint, the first in the order of the list. *)
Lemma L_C84_unique_edges : forall n2 o, (n2 = 2 \/ n2 = 3)%nat -> Forall (fun t => length t = n2 /\ goods 6 t) o ->
  exists r, dgenerator_unique_edges Rnum n2 o = Ok r /\ incl r (edges_of n2 o) /\ NoDup (map dpcentre r) /\
    (forall e, In e (edges_of n2 o) -> exists! u, In u r /\ dpcentre u = dpcentre e) /\
    (forall e, In e r -> exists i, nth_error (edges_of n2 o) i = Some e /\
       forall j g, (j < i)%nat -> nth_error (edges_of n2 o) j = Some g -> dpcentre g <> dpcentre e).
Proof. exact dunique_edges_R. Qed.
(** Two edges that cross at their midpoints count as one: one of them is lost. *)
Lemma L_C84_edge_lost_refuted : exists o e r, tris o /\ In e (edges_of 3 o) /\ dgenerator_unique_edges Rnum 3 o = Ok r /\
  forall g, In g r -> ~ same_set (map dppoint e) (map dppoint g).
Proof.
  assert (To : tris crossed) by gd. destruct (L_C84_unique_edges 3 crossed) as (r & E & I & ND & U & Fst); [auto|exact To|].
  exists crossed, [x2; x3], r. split; [exact To|]. split; [cbn; auto 10|]. split; [exact E|]. intros g Hg Sg. apply dp_same in Sg.
  destruct (dedges_of_good 3 crossed) as (G & _); [auto|exact To|]. rewrite Forall_forall in G. destruct (G g (I g Hg)) as [L _]. destruct g as [|u [|v [|]]]; try discriminate L.
  assert (N23 : dp x2 <> dp x3) by (hx; intros H; injection H; lra).
  assert (Hl : line (1/2) (dp u) (dp v) = line (1/2) (dp o6) (dp (pl (T 1 0 1) (T 1 0 1)))).
  { assert (Hu : In (dp u) [dp x2; dp x3]) by (apply Sg; left; reflexivity). assert (Hv : In (dp v) [dp x2; dp x3]) by (apply Sg; right; left; reflexivity).
    assert (H1 : In (dp x2) [dp u; dp v]) by (apply Sg; left; reflexivity). assert (H2 : In (dp x3) [dp u; dp v]) by (apply Sg; right; left; reflexivity).
    cbn [In] in *. destruct Hu as [Hu|[Hu|[]]], Hv as [Hv|[Hv|[]]]; rewrite <- Hu, <- Hv in *; try (exfalso; destruct H1 as [?|[?|[]]], H2 as [?|[?|[]]]; congruence);
      hx; unfold line; cbn; apply f_equal2; [apply f_equal2| |apply f_equal2|]; field. }
  apply centre_eq in Hl. destruct (Fst _ Hg) as (i & Ei & Hi). destruct i as [|i].
  - cbn in Ei. injection Ei as <- <-. assert (H0 : In (dp o6) (map dp [x2; x3])) by (apply Sg; left; reflexivity).
    cbn [map In] in H0. revert H0. hx. intros [H0|[H0|[]]]; injection H0; lra.
  - apply (Hi 0%nat [o6; pl (T 1 0 1) (T 1 0 1)]); [lia|reflexivity|symmetry; exact Hl].
Qed.

(** The border edges of a set of triangles: in any arithmetic, only edges of exactly one
    triangle are returned ... *)
Lemma L_C84_border : forall N ts r, Forall (fun t => length t = 3%nat /\ goods 6 t /\ NoDup (map dppoint t)) ts ->
  dgen_border_edges_of_coplanar_triangles N ts = Ok r -> forall e, In e r -> In e (edges_of 3 ts) /\ donce e (edges_of 3 ts).
Proof. exact dborder_any. Qed.
(** ... and in exact arithmetic all of these, for an edge-to-edge object. *)
Lemma L_C84_patch_border : forall h o, patch h o ->
  exists r, dgen_border_edges_of_coplanar_triangles Rnum o = Ok r /\ forall e, In e r <-> In e (edges_of 3 o) /\ donce e (edges_of 3 o).
Proof.
  intros h o P. pose proof (patch_flat h o P) as NF. destruct P as (Ne & To & Le & _ & EE & _). pose proof (good3 h o To Le NF) as G3.
  destruct (dborder_complete o G3) as (r & E & C). exists r. split; [exact E|]. intros e. split; [apply (dborder_any Rnum o r G3 E)|].
  intros [Ie On]. apply C; [exact Ie|exact On|]. intros g Ig Hc. exact (mid_same h o To Le NF EE e g Ie Ig Hc).
Qed.
Example E_C84_ex : patch 0 halves /\ Forall (fun t => length t = 3%nat /\ goods 6 t) halves /\
  dgen_border_edges_of_coplanar_triangles Bnum halves = Ok [[o6; x3]; [o6; x2]; [x22; x3]; [x2; x22]].
Proof. split; [exact halves_patch|]. split; [gd|]. vmr. Qed.

(** C85: generate_border_edges() of dode2 calls a function that does not exist there. *)
Lemma L_C85_attribute : forall N draws o, dgenerate_border_edges N draws None o = Raise AttributeError.
Proof. reflexivity. Qed.
(** If that function returned all triangles it would be outline(). *)
Lemma L_C85_outline : forall N draws o, dgenerate_border_edges N draws (Some (fun o => Ok o)) o = doutline N draws o.
Proof. reflexivity. Qed.

(** C86: the convex hull, in any arithmetic, for any triangulation and any random samples:
    all vertices of the result are vertices of the object, and no triangle of it is flat. *)
Lemma L_C86_vertices : forall N delaunay draws o r, tris o -> o <> [] -> dgenerate_convex_hull N delaunay draws o = Ok (Some r) ->
  tris r /\ incl (concat r) (concat o) /\ r <> [] /\ forall t, In t r -> parea t <> 0.
Proof.
  intros N delaunay draws o r To Ne E. unfold dgenerate_convex_hull in E. apply bind_Ok_inv in E as (es & Ee & E). apply bind_Ok_inv in E as (vts & Ev & E).
  pose proof (dcleaner_incl N draws o es Ne To Ee) as Ic.
  assert (Go : goods 6 (concat o)).
  { unfold goods. apply Forall_forall. intros v Hv. apply in_concat in Hv as (t & Ht & Hv). unfold tris in To. rewrite Forall_forall in To. destruct (To t Ht) as [_ G]. unfold goods in G. rewrite Forall_forall in G. apply G, Hv. }
  assert (Gc : goods 6 (concat es)) by (eapply goods_incl; [exact Go|exact Ic]).
  destruct (dperp_space_spec_flat (concat es) (A4 es)) as (vts' & Ev' & Iv & _); [right; eauto|exact Gc|]. rewrite Ev in Ev'. injection Ev' as <-.
  assert (Gv : goods 6 vts) by (eapply goods_incl; [exact Gc|exact Iv]).
  destruct (L_C73_pieces N delaunay vts (Some r) Gv E) as (q & _ & K). destruct (delaunay q) as [l|]; [|discriminate K].
  destruct K as (ts & F & Nr & _ & I & Inc). rewrite Forall_forall in Inc.
  split; [|split; [|split; [exact Nr|intros t Ht; apply I, Ht]]].
  - apply Forall_forall. intros t Ht. apply I in Ht as [Ht _]. clear - F Gv Ht.
    induction F as [|s x l ts H _ IH]; [destruct Ht|]. destruct Ht as [<-|Ht]; [|auto]. apply (corners_at_tri vts s x Gv H).
  - intros v Hv. apply in_concat in Hv as (t & Ht & Hv). apply Ic, Iv, (Inc t Ht), Hv.
Qed.

(** In exact arithmetic, for an edge-to-edge object whose triangles all pass the
    coplanarity test and a triangulation that covers the hull of its points and fails only
    for points on a line, the result occupies exactly the convex hull of the vertices. *)
Lemma L_C86_hull : forall h delaunay draws o, patch h o ->
  (forall i j t u, nth_error o i = Some t -> nth_error o j = Some u -> i <> j -> dcoplanar_check_two_triangles Rnum (draws i j) t u = Ok true) ->
  (forall q l, delaunay q = Some l -> covers2 q l) -> (forall q, delaunay q = None -> on_line (map pt2 q)) ->
  (forall q l, delaunay q = Some l -> Forall (fun '(i, j, k) => (i < length q)%nat /\ (j < length q)%nat /\ (k < length q)%nat) l) ->
  exists r, dgenerate_convex_hull Rnum delaunay draws o = Ok (Some r) /\ forall x, dregion r x <-> hull (map dp (concat o)) x.
Proof.
  intros h delaunay draws o P C Cov Fail Val. destruct (patch_outline h draws o P C) as (es & Ee & B & Sg & Nes & _). pose proof (outline_hull h o es P B Sg) as OH.
  pose proof P as (Ne & To & Le & Np & _ & _).
  assert (Go : goods 6 (concat o)).
  { unfold goods. apply Forall_forall. intros v Hv. apply in_concat in Hv as (t & Ht & Hv). unfold tris in To. rewrite Forall_forall in To. destruct (To t Ht) as [_ G]. unfold goods in G. rewrite Forall_forall in G. apply G, Hv. }
  pose proof (dcleaner_incl Rnum draws o es Ne To Ee) as Ic.
  assert (Gc : goods 6 (concat es)) by (eapply goods_incl; [exact Go|exact Ic]).
  destruct (dperp_space_spec_flat (concat es) (A4 es)) as (vts & Ev & Iv & _ & SS); [right; eauto|exact Gc|]. apply dp_same in SS.
  assert (Gv : goods 6 vts) by (eapply goods_incl; [exact Gc|exact Iv]).
  assert (Lv : level h vts) by (apply (level_incl _ _ _ Le); intros v Hv; apply Ic, Iv, Hv).
  assert (HV : forall x, hull (map dp vts) x <-> hull (map dp (concat o)) x).
  { intros x. rewrite <- OH. split; apply hull_same; intros y; [|symmetry]; apply SS. }
  destruct (L_C73_pieces_total Rnum delaunay vts Gv) as (r & Er).
  { intros q l Lq Ed. assert (Val' : Forall (fun '(i, j, k) => (i < length vts)%nat /\ (j < length vts)%nat /\ (k < length vts)%nat) l) by (rewrite <- Lq; exact (Val q l Ed)). clear - Val'.
    assert (G : forall i, (i < length vts)%nat -> exists v, nth_error vts i = Some v) by (intros i Hi; destruct (nth_error vts i) eqn:E; [eauto|apply nth_error_None in E; lia]).
    induction Val' as [|[[i j] k] l (Hi & Hj & Hk) _ (ts & IH)]; [exists []; constructor|]. destruct (G i Hi) as (a & Ha), (G j Hj) as (b & Hb), (G k Hk) as (c & Hc).
    exists ([a; b; c] :: ts). constructor; [exists a, b, c; auto|exact IH]. }
  assert (Tot : dgenerate_convex_hull Rnum delaunay draws o = Ok r) by (unfold dgenerate_convex_hull; unfold doutline in Ee; rewrite Ee; cbn [bind]; rewrite Ev; cbn [bind]; exact Er).
  assert (NL : ~ on_line (map dp vts)).
  { intros (m & n & d & Nz & FL). assert (HL : forall x, hull (map dp (concat o)) x -> dot3 (m, n, 0) x = d).
    { intros x Hx. apply HV in Hx. rewrite Forall_forall in FL. apply Rle_antisym.
      - assert (K : - d <= dot3 (-m, -n, 0) x) by (apply (hull_dot (map dp vts)); [|exact Hx]; intros p Hp; apply FL in Hp; destruct p as [[? ?] ?]; cbn in *; lra). destruct x as [[? ?] ?]. cbn in *. lra.
      - apply (hull_dot (map dp vts)); [|exact Hx]. intros p Hp. rewrite (FL p Hp). lra. }
    destruct o as [|t o']; [congruence|]. pose proof (Forall_inv To) as [L3' _]. destruct t as [|a [|b [|c [|]]]]; try discriminate L3'.
    apply (proj1 (parea_flat a b c) (Np [a; b; c] (or_introl eq_refl))).
    assert (Ha : dot3 (m, n, 0) (dp a) = d) by (apply HL, hull_mem; left; reflexivity). assert (Hb : dot3 (m, n, 0) (dp b) = d) by (apply HL, hull_mem; right; left; reflexivity). assert (Hc : dot3 (m, n, 0) (dp c) = d) by (apply HL, hull_mem; right; right; left; reflexivity).
    unfold flat3. destruct (dp a) as [[a0 a1] a2], (dp b) as [[b0 b1] b2], (dp c) as [[c0 c1] c2]. cbn in *.
    assert (Hm : m * ((b0 - a0) * (c1 - a1) - (b1 - a1) * (c0 - a0)) = 0) by (replace (m * ((b0 - a0) * (c1 - a1) - (b1 - a1) * (c0 - a0))) with ((m * b0 + n * b1 - (m * a0 + n * a1)) * (c1 - a1) - (m * c0 + n * c1 - (m * a0 + n * a1)) * (b1 - a1)) by ring; replace (m * b0 + n * b1) with d by lra; replace (m * a0 + n * a1) with d by lra; replace (m * c0 + n * c1) with d by lra; ring).
    assert (Hn : n * ((b0 - a0) * (c1 - a1) - (b1 - a1) * (c0 - a0)) = 0) by (replace (n * ((b0 - a0) * (c1 - a1) - (b1 - a1) * (c0 - a0))) with ((m * c0 + n * c1 - (m * a0 + n * a1)) * (b0 - a0) - (m * b0 + n * b1 - (m * a0 + n * a1)) * (c0 - a0)) by ring; replace (m * b0 + n * b1) with d by lra; replace (m * a0 + n * a1) with d by lra; replace (m * c0 + n * c1) with d by lra; ring).
    apply Rmult_integral in Hm as [Hm|Hm]; [|exact Hm]. apply Rmult_integral in Hn as [Hn|Hn]; [|exact Hn]. exfalso. apply Nz. congruence. }
  assert (Cv : forall x, hull (map dp vts) x -> exists r', r = Some r' /\ dregion r' x).
  { intros x Hx. destruct (dtri_covers h delaunay vts r x Gv Lv Cov Er Hx) as [K|(qs & Ed & M)]; [exact K|]. exfalso. apply NL, on_line_fl. rewrite <- M. apply Fail, Ed. }
  assert (Nv : exists v, In v (concat o)).
  { destruct o as [|t o']; [congruence|]. pose proof (Forall_inv To) as [L3' _]. destruct t as [|a t]; [discriminate L3'|]. exists a. left. reflexivity. }
  destruct Nv as (v & Hv). destruct (Cv (dp v)) as (r' & -> & _); [apply HV, hull_mem, in_map, Hv|]. exists r'. split; [exact Tot|].
  destruct (L_C86_vertices Rnum delaunay draws o r' To Ne Tot) as (_ & Ir & _ & _).
  intros x. split.
  - intros (t & Ht & Hx). apply (hull_trans _ _ _ Hx). intros y Hy. apply hull_mem. apply in_map_iff in Hy as (w & <- & Hw). apply in_map, Ir, in_concat. eauto.
  - intros Hx. apply HV in Hx. destruct (Cv x Hx) as (r2 & E2 & H2). injection E2 as <-. exact H2.
Qed.
Example E_C86_ex : patch 0 halves /\
  (forall i j t u, nth_error halves i = Some t -> nth_error halves j = Some u -> i <> j -> dcoplanar_check_two_triangles Rnum [(0, 2, 3); (0, 1, 2)]%nat t u = Ok true) /\
  (exists delaunay : list (list R) -> option (list (nat * nat * nat)),
    (forall q l, delaunay q = Some l -> covers2 q l) /\ (forall q, delaunay q = None -> on_line (map pt2 q)) /\
    (forall q l, delaunay q = Some l -> Forall (fun '(i, j, k) => (i < length q)%nat /\ (j < length q)%nat /\ (k < length q)%nat) l)) /\
  dgenerate_convex_hull Bnum (fun _ => Some [(0, 1, 2)]%nat) (fun _ _ => [(0, 2, 3); (0, 1, 2)]%nat) halves = Ok (Some [[o6; x3; x22]]).
Proof. split; [exact halves_patch|]. split; [exact halves_coplanar|]. split; [exists covering; exact covering_spec|]. vmr. Qed.

(** C43 for dode2: with the actual hull and intersection in double precision, and a correct
    triangulation of the four vertices, this object of two triangles is replaced by one
    with twice its area. *)
Lemma L_C43_dode_area_refuted : exists o delaunay draws h v w, tris o /\
  dsimplification Bnum delaunay draws (Some o) = Ok (Some h) /\
  obj_area_6d (A4 o) = Ok (Some v) /\ obj_area_6d (A4 h) = Ok (Some w) /\ val SIN w = 2 * val SIN v /\ 0 < val SIN v.
Proof.
  exists arrow, (fun _ => Some [(0, 3, 2); (0, 2, 1); (2, 3, 1)]%nat), (fun _ _ => [(0, 1, 2); (0, 1, 3)]%nat), [[o6; x22; mid2]; [o6; mid2; x23]; [mid2; x22; x23]], (T 1 0 1), (T 2 0 1).
  split; [gd|]. split; [match goal with |- _ = ?r => vm_cast_no_check (eq_refl r) end|].
  split; [vm_compute; reflexivity|]. split; [vm_compute; reflexivity|]. unfold val. cbn [ta tb tc]. split; lra.
Qed.
