(** Border edges of a solid made of tetrahedra. *)
From Coq Require Import Reals List ZArith Lia Lra Psatz Bool Classical Arith Permutation.
From Verif Require Import Base.Res Model.Tau Model.Arr Model.Vectors Model.Num Model.IcoNumeric Model.IcoDedup Model.IcoSurface Model.DodeSurface
  Spec.Value Spec.RVec Spec.Shape Spec.Mean Spec.Sets Spec.IcoSpec Spec.Space Spec.Plane Spec.Surface Spec.Outline Spec.Region Spec.Solid Spec.Edges
  Proofs.ResLemmas Proofs.DedupLemmas Proofs.NumLemmas Proofs.PlaneLemmas Proofs.Polytope Proofs.SurfaceLemmas Proofs.MergeLemmas Proofs.OverlapLemmas Proofs.P_Surface Proofs.Frontier Proofs.Frontier3 Proofs.SolidLemmas Proofs.PlaneFrontier.
From Verif Require Proofs.OutlineLemmas.
Import ListNotations.
Local Open Scope R_scope.

(** * Points of a tetrahedron and its corners *)
Fixpoint lw (L : half) (ws : list R) (ps : list R3) : R :=
  match ws, ps with w :: ws, p :: ps => w * ev L p + lw L ws ps | _, _ => 0 end.
Lemma dot_comb L : forall ws ps, length ws = length ps -> dot3 (fst L) (comb ws ps) = lw L ws ps - snd L * Rsum ws.
Proof.
  destruct L as [[[l0 l1] l2] c]. induction ws as [|w ws IH]; intros [|p ps] E; try discriminate E; cbn [comb lw Rsum]; [unfold o3; cbn; ring|].
  injection E as E. specialize (IH ps E). cbn [fst snd] in *. destruct (comb ws ps) as [[q0 q1] q2], p as [[p0 p1] p2]. unfold ev. cbn in *. lra.
Qed.
Lemma ev_bary L ws ps x : bary ws ps x -> ev L x = lw L ws ps.
Proof. intros (E & S & ->). unfold ev. rewrite dot_comb by exact E. rewrite S. ring. Qed.
Lemma lw_zero L : forall ws ps, (forall p, In p ps -> ev L p = 0) -> lw L ws ps = 0.
Proof. induction ws as [|w ws IH]; intros [|p ps] H; cbn [lw]; try reflexivity. rewrite (H p) by (left; reflexivity). rewrite IH by (intros q Hq; apply H; right; exact Hq). ring. Qed.
Lemma lw_nonneg L : forall ws ps, Forall (Rlt 0) ws -> (forall p, In p ps -> 0 <= ev L p) -> 0 <= lw L ws ps.
Proof.
  induction ws as [|w ws IH]; intros [|p ps] P H; cbn [lw]; try lra. inversion P; subst. pose proof (H p (or_introl eq_refl)). pose proof (IH ps ltac:(assumption) (fun q Hq => H q (or_intror Hq))). nra.
Qed.
Lemma lw_pos L : forall ws ps v, length ws = length ps -> Forall (Rlt 0) ws -> (forall p, In p ps -> 0 <= ev L p) -> In v ps -> 0 < ev L v -> 0 < lw L ws ps.
Proof.
  induction ws as [|w ws IH]; intros [|p ps] v E P H I V; try discriminate E; [destruct I|]. cbn [lw]. injection E as E. inversion P as [|? ? Pw P']; subst.
  pose proof (H p (or_introl eq_refl)). pose proof (lw_nonneg L ws ps P' (fun q Hq => H q (or_intror Hq))).
  destruct I as [->|I]; [nra|]. pose proof (IH ps v E P' (fun q Hq => H q (or_intror Hq)) I V). nra.
Qed.
Lemma positive : forall ps ws, length ws = length ps -> Forall (Rle 0) ws ->
  exists us qs, length us = length qs /\ incl qs ps /\ Rsum us = Rsum ws /\ comb us qs = comb ws ps /\ Forall (Rlt 0) us.
Proof.
  induction ps as [|p ps IH]; intros [|w ws] E P; try discriminate E.
  - exists [], []. repeat split; try reflexivity; [intros x []|constructor].
  - injection E as E. inversion P as [|? ? Pw P']; subst. destruct (IH ws E P') as (us & qs & H1 & H2 & H3 & H4 & H5). destruct (Rle_lt_or_eq_dec 0 w Pw) as [Lt|<-].
    + exists (w :: us), (p :: qs). cbn [length Rsum comb]. rewrite H1, H3, H4. repeat (split; [reflexivity|]). split; [intros x [<-|Hx]; [left; reflexivity|right; apply H2, Hx]|]. repeat (split; [reflexivity|]). constructor; assumption.
    + exists us, qs. cbn [Rsum comb]. split; [exact H1|]. split; [intros x Hx; right; apply H2, Hx|]. split; [lra|]. split; [|exact H5]. rewrite H4. destruct (comb ws ps) as [[a b] c], p as [[x y] z]. cbn. eq3; ring.
Qed.
Lemma support ps x : hull ps x -> exists qs, incl qs ps /\ hull qs x /\
  forall L, (forall p, In p ps -> 0 <= ev L p) -> forall v, In v qs -> 0 < ev L v -> 0 < ev L x.
Proof.
  intros (ws & (E & S & X) & P). destruct (positive ps ws E P) as (us & qs & H1 & H2 & H3 & H4 & H5).
  assert (B : bary us qs x) by (split; [exact H1|split; [lra|congruence]]).
  exists qs. split; [exact H2|]. split; [exists us; split; [exact B|eapply Forall_impl; [|exact H5]; intros; lra]|].
  intros L HL v Iv Hv. rewrite (ev_bary L us qs x B). apply (lw_pos L us qs v); try assumption. intros p Hp. apply HL, H2, Hp.
Qed.
Lemma hull_zero L ps x : (forall p, In p ps -> ev L p = 0) -> hull ps x -> ev L x = 0.
Proof. intros H (ws & B & _). rewrite (ev_bary L ws ps x B). apply lw_zero, H. Qed.
Lemma vertex_wall t v : tetr t -> In v t -> exists L, ev L v = 1 /\ forall u, In u t -> u <> v -> ev L u = 0.
Proof.
  intros (a & b & c & d & -> & NF) I.
  assert (Ea : a = bc 1 0 0 0 a b c d) by (destruct a as [[? ?] ?], b as [[? ?] ?], c as [[? ?] ?], d as [[? ?] ?]; unfold bc; cbn; eq3; ring).
  assert (Eb : b = bc 0 1 0 0 a b c d) by (destruct a as [[? ?] ?], b as [[? ?] ?], c as [[? ?] ?], d as [[? ?] ?]; unfold bc; cbn; eq3; ring).
  assert (Ec : c = bc 0 0 1 0 a b c d) by (destruct a as [[? ?] ?], b as [[? ?] ?], c as [[? ?] ?], d as [[? ?] ?]; unfold bc; cbn; eq3; ring).
  assert (Ed : d = bc 0 0 0 1 a b c d) by (destruct a as [[? ?] ?], b as [[? ?] ?], c as [[? ?] ?], d as [[? ?] ?]; unfold bc; cbn; eq3; ring).
  pose proof (ev_of a b c d 1 0 0 0 NF ltac:(lra)) as (A0 & A1 & A2 & A3). rewrite <- Ea in A0, A1, A2, A3.
  pose proof (ev_of a b c d 0 1 0 0 NF ltac:(lra)) as (B0 & B1 & B2 & B3). rewrite <- Eb in B0, B1, B2, B3.
  pose proof (ev_of a b c d 0 0 1 0 NF ltac:(lra)) as (C0 & C1 & C2 & C3). rewrite <- Ec in C0, C1, C2, C3.
  pose proof (ev_of a b c d 0 0 0 1 NF ltac:(lra)) as (D0 & D1 & D2 & D3). rewrite <- Ed in D0, D1, D2, D3.
  destruct I as [<-|[<-|[<-|[<-|[]]]]]; [exists (L0 a b c d)|exists (L1 a b c d)|exists (L2 a b c d)|exists (L3 a b c d)]; (split; [assumption|]); intros u [<-|[<-|[<-|[<-|[]]]]] Nu; try assumption; congruence.
Qed.
Lemma positive_in t v ps x L : In v t -> incl ps t -> hull ps x -> (forall u, In u t -> u <> v -> ev L u = 0) -> 0 < ev L x -> In v ps.
Proof.
  intros Iv I H W P. apply NNPP. intros Nv. enough (ev L x = 0) by lra. apply (hull_zero L ps x); [|exact H]. intros p Hp. apply W; [apply I, Hp|intros ->; contradiction].
Qed.
Lemma common_support t f g x : tetr t -> incl f t -> incl g t -> hull f x -> hull g x -> exists m, incl m f /\ incl m g /\ hull m x.
Proof.
  intros Tt If Ig Hf Hg. destruct (support f x Hf) as (qs & Iq & Hq & Pos). exists qs. split; [exact Iq|]. split; [|exact Hq].
  intros v Iv. destruct (vertex_wall t v Tt (If _ (Iq _ Iv))) as (L & Lv & W). apply (positive_in t v g x L); try assumption; [apply If, Iq, Iv|].
  apply (Pos L) with (v := v); [|exact Iv|lra]. intros p Hp. destruct (classic (p = v)) as [->|N]; [lra|rewrite (W p (If _ Hp) N); lra].
Qed.
Lemma mid_corner t p q ps : tetr t -> In p t -> In q t -> p <> q -> incl ps t -> hull ps (line (1/2) p q) -> In p ps /\ In q ps.
Proof.
  intros Tt Ip Iq N I H.
  assert (K : forall a b, In a t -> In b t -> a <> b -> hull ps (line (1/2) a b) -> In a ps).
  { intros a b Ia Ib Nab Hx. destruct (vertex_wall t a Tt Ia) as (L & La & W). apply (positive_in t a ps _ L Ia I Hx W). rewrite ev_line, La, (W b Ib (not_eq_sym Nab)). lra. }
  split; [exact (K p q Ip Iq N H)|]. apply (K q p Iq Ip (not_eq_sym N)). rewrite line_sym. replace (1 - 1/2) with (1/2) by lra. exact H.
Qed.
Lemma half_hull3 p q : hull [p; q] (line (1/2) p q). Proof. apply hull2_line. exists (1/2). split; [lra|reflexivity]. Qed.

(** * Edges of one triangle *)
Lemma centre_line3 u v : pcentre [u; v] = let '(x, y, z) := line (1/2) (pp u) (pp v) in [x; y; z].
Proof.
  unfold pcentre. cbn [map]. destruct (pp_coords u) as (x & y & z & -> & ->). destruct (pp_coords v) as (x' & y' & z' & -> & ->).
  unfold line. cbn. unfold mean. cbn. unfold vscale. cbn. f_equal; [field|f_equal; [field|f_equal; field]].
Qed.
Lemma centre_eq3 u v u' v' : pcentre [u; v] = pcentre [u'; v'] <-> line (1/2) (pp u) (pp v) = line (1/2) (pp u') (pp v').
Proof. rewrite !centre_line3. destruct (line _ (pp u) _) as [[x y] z], (line _ (pp u') _) as [[x' y'] z']. split; [intros [= -> -> ->]|intros [= -> -> ->]]; reflexivity. Qed.
Lemma tri_edge3 t p q : length t = 3%nat -> In p (map pp t) -> In q (map pp t) -> p <> q ->
  exists k e, (k < 3)%nat /\ nth_error (tri_edges t) k = Some e /\ same_set (map pp e) [p; q].
Proof.
  intros L Hp Hq N. destruct t as [|a [|b [|c [|]]]]; try discriminate L. cbn in Hp, Hq.
  destruct Hp as [<-|[<-|[<-|[]]]], Hq as [<-|[<-|[<-|[]]]]; try congruence.
  - exists 0%nat, [a; b]. split; [lia|]. split; [reflexivity|]. intros x; cbn; tauto.
  - exists 1%nat, [a; c]. split; [lia|]. split; [reflexivity|]. intros x; cbn; tauto.
  - exists 0%nat, [a; b]. split; [lia|]. split; [reflexivity|]. intros x; cbn; tauto.
  - exists 2%nat, [b; c]. split; [lia|]. split; [reflexivity|]. intros x; cbn; tauto.
  - exists 1%nat, [a; c]. split; [lia|]. split; [reflexivity|]. intros x; cbn; tauto.
  - exists 2%nat, [b; c]. split; [lia|]. split; [reflexivity|]. intros x; cbn; tauto.
Qed.
Lemma edge_distinct3 t k e k' e' : NoDup (map pp t) -> nth_error (tri_edges t) k = Some e -> nth_error (tri_edges t) k' = Some e' ->
  same_set (map pp e) (map pp e') -> k = k'.
Proof.
  intros ND E E' S. destruct t as [|a [|b [|c [|]]]]; try (destruct k; discriminate E). cbn [map] in ND.
  inversion ND as [|? ? N1 ND1]; subst. inversion ND1 as [|? ? N2 _]; subst. cbn in N1, N2.
  assert (Nab : pp a <> pp b) by (intros X; apply N1; auto). assert (Nac : pp a <> pp c) by (intros X; apply N1; auto). assert (Nbc : pp b <> pp c) by (intros X; apply N2; auto).
  pose proof (S (pp a)) as Sa. pose proof (S (pp b)) as Sb. pose proof (S (pp c)) as Sc. clear S.
  destruct k as [|[|[|k]]]; try (destruct k; discriminate E); injection E as <-; destruct k' as [|[|[|k']]]; try (destruct k'; discriminate E'); injection E' as <-; try reflexivity; exfalso; cbn in Sa, Sb, Sc;
    first [destruct (proj1 Sa) as [?|[?|[]]]; solve [auto|congruence] | destruct (proj1 Sb) as [?|[?|[]]]; solve [auto|congruence] | destruct (proj1 Sc) as [?|[?|[]]]; solve [auto|congruence]].
Qed.
Lemma edge_ne3 t k e u v : NoDup (map pp t) -> nth_error (tri_edges t) k = Some e -> e = [u; v] -> pp u <> pp v.
Proof.
  intros ND E ->. destruct t as [|a [|b [|c [|]]]]; try (destruct k; discriminate E). cbn [map] in ND.
  inversion ND as [|? ? N1 ND1]; subst. inversion ND1 as [|? ? N2 _]; subst. cbn in N1, N2.
  destruct k as [|[|[|k]]]; try (destruct k; discriminate E); injection E as <- <-; intros X; auto.
Qed.

Section Group.
Variable o : obj4.
Hypothesis L3' : Forall (fun t : vecs => length t = 3%nat) o.
Hypothesis ND' : forall t, In t o -> NoDup (map pp t).
Let ts := map (map pp) o.
Lemma ts3_nth i t : nth_error o i = Some t -> nth_error ts i = Some (map pp t).
Proof. intros E. unfold ts. rewrite nth_error_map, E. reflexivity. Qed.
Lemma ts3_inv i t : nth_error ts i = Some t -> exists t', nth_error o i = Some t' /\ t = map pp t'.
Proof. unfold ts. rewrite nth_error_map. destruct (nth_error o i) as [t'|]; [|discriminate]. intros [= <-]. eauto. Qed.
Lemma once_lone2 i t k u v : nth_error o i = Some t -> nth_error (tri_edges t) k = Some [u; v] ->
  (once [u; v] (edges_of 3 o) <-> lone ts (pp u) (pp v)).
Proof.
  intros Ei Ek. change (edges_of 3 o) with (concat (map tri_edges o)). pose proof (nth_error_In _ _ Ei) as Ht. pose proof (OutlineLemmas.edge_ends _ _ _ Ek) as (u' & v' & Euv & Iu & Iv). injection Euv as <- <-.
  assert (Hk : (k < 3)%nat). { pose proof L3' as L. rewrite Forall_forall in L. specialize (L t Ht). destruct t as [|a [|b [|c [|]]]]; try discriminate L. assert (H : (k < length (tri_edges [a; b; c]))%nat) by (apply nth_error_Some; congruence). exact H. }
  pose proof (OutlineLemmas.edge_pos o L3' i t k Ei Hk) as Pos. rewrite Ek in Pos.
  pose proof (edge_ne3 t k _ u v (ND' t Ht) Ek eq_refl) as N.
  split.
  - intros (j & (g & Eg & Sg) & Uniq). assert (Ej : j = (3 * i + k)%nat) by (apply Uniq; exists [u; v]; split; [exact Pos|intros x; tauto]).
    exists i, (map pp t). split; [apply ts3_nth, Ei|]. split; [apply in_map, Iu|]. split; [apply in_map, Iv|]. split; [exact N|].
    intros j' w Ej' Hu Hv. apply ts3_inv in Ej' as (t' & Ej' & ->).
    pose proof (nth_error_In _ _ Ej') as Ht'. pose proof L3' as L. rewrite Forall_forall in L.
    destruct (tri_edge3 t' _ _ (L t' Ht') Hu Hv N) as (k' & e' & Hk' & Ek' & Se').
    assert (Ex : j = (3 * j' + k')%nat).
    { apply Uniq. exists e'. split; [rewrite (OutlineLemmas.edge_pos o L3' j' t' k' Ej' Hk'); exact Ek'|]. apply pp_same. intros x. cbn [map]. specialize (Se' x). tauto. }
    lia.
  - intros (i' & t' & Ei' & Hu & Hv & _ & Only). assert (Eii : i = i') by (apply (Only i (map pp t) (ts3_nth i t Ei)); apply in_map; assumption).
    exists (3 * i + k)%nat. split; [exists [u; v]; split; [exact Pos|intros x; tauto]|].
    intros n (g & En & Sg). destruct (OutlineLemmas.edge_pos_inv o L3' n g En) as (j & w & k' & Ej & Hk' & -> & Ek').
    pose proof (OutlineLemmas.edge_ends _ _ _ Ek') as (a & b & -> & Ia & Ib). apply pp_same in Sg.
    assert (Hin : forall x, In x (map pp [u; v]) -> In x (map pp w)).
    { intros x Hx. apply Sg in Hx. cbn [map In] in Hx. destruct Hx as [<-|[<-|[]]]; apply in_map; assumption. }
    assert (Ejj : j = i') by (apply (Only j (map pp w) (ts3_nth j w Ej)); apply Hin; cbn [map In]; auto).
    subst i' j. rewrite Ei in Ej. injection Ej as <-. f_equal. exact (edge_distinct3 t k _ k' _ (ND' t Ht) Ek Ek' Sg).
Qed.
End Group.

(** * Merging *)
Lemma merged_drawn3 merge (Q : vecs -> Prop) l r :
  (forall e f a, Q e -> Q f -> merge e f = Ok (Some a) -> Q a /\ forall x, hull (map pp a) x <-> hull (map pp e) x \/ hull (map pp f) x) ->
  merged merge l r -> Forall Q l -> Forall Q r /\ forall x, drawn3 r x <-> drawn3 l x.
Proof.
  intros H M. induction M as [l|l1 e l2 f l3 a r Em _ IH]; intros FQ; [split; [exact FQ|intros x; tauto]|].
  assert (Qe : Q e) by (rewrite Forall_forall in FQ; apply FQ; rewrite in_app_iff; cbn; auto).
  assert (Qf : Q f) by (rewrite Forall_forall in FQ; apply FQ; rewrite in_app_iff; cbn; rewrite in_app_iff; cbn; auto).
  destruct (H e f a Qe Qf Em) as (Qa & Ha).
  destruct IH as (Fr & Dr).
  { rewrite Forall_forall in *. intros x Hx. rewrite !in_app_iff in Hx. cbn [In] in Hx. destruct Hx as [Hx|[Hx|[Hx|[<-|[]]]]]; [| | |exact Qa]; apply FQ; rewrite in_app_iff; cbn [In]; rewrite in_app_iff; cbn [In]; auto. }
  split; [exact Fr|]. intros x. rewrite Dr. unfold drawn3. split.
  - intros (g & Hg & Hx). rewrite !in_app_iff in Hg. cbn [In] in Hg. destruct Hg as [Hg|[Hg|[Hg|[<-|[]]]]].
    1-3: exists g; split; [rewrite in_app_iff; cbn [In]; rewrite in_app_iff; cbn [In]; auto|exact Hx].
    apply Ha in Hx as [Hx|Hx]; [exists e|exists f]; (split; [|exact Hx]); rewrite in_app_iff; cbn [In]; rewrite in_app_iff; cbn [In]; auto.
  - intros (g & Hg & Hx). rewrite in_app_iff in Hg. cbn [In] in Hg. rewrite in_app_iff in Hg. cbn [In] in Hg.
    destruct Hg as [Hg|[<-|[Hg|[<-|Hg]]]].
    + exists g. rewrite in_app_iff. auto.
    + exists a. split; [rewrite !in_app_iff; cbn; auto|]. apply Ha. auto.
    + exists g. rewrite !in_app_iff. auto.
    + exists a. split; [rewrite !in_app_iff; cbn; auto|]. apply Ha. auto.
    + exists g. rewrite !in_app_iff. auto.
Qed.
Lemma on_segment_ico p q r : length p = 6%nat -> length q = 6%nat -> length r = 6%nat ->
  point_on_segment Rnum p [q; r] = Ok (on_segment Rnum (pp p) (pp q) (pp r)).
Proof.
  intros Lp Lq Lr. unfold point_on_segment. rewrite internal_R by exact Lp. cbn [bind]. unfold internals. cbn [mapM]. rewrite !internal_R by assumption. reflexivity.
Qed.
Definition seg3 (vs : vecs) (e : vecs) : Prop := exists u v, e = [u; v] /\ In u vs /\ In v vs /\ pp u <> pp v.
Lemma seg3_goods vs e : goods 6 vs -> seg3 vs e -> length e = 2%nat /\ goods 6 e.
Proof.
  intros G (u & v & -> & Hu & Hv & _). split; [reflexivity|]. unfold goods in *. rewrite Forall_forall in G. constructor; [apply G, Hu|constructor; [apply G, Hv|constructor]].
Qed.
Lemma seg3_ends vs e p q : seg3 vs e -> ends e p q -> In p vs /\ In q vs /\ pp p <> pp q.
Proof. intros (u & v & -> & Hu & Hv & N) [E|E]; injection E as <- <-; auto. Qed.
Lemma ends_hull3 e p q x : ends e p q -> (hull (map pp e) x <-> hull [pp p; pp q] x).
Proof. intros [->| ->]; cbn [map]; [tauto|apply hull_swap]. Qed.
Lemma merge_seg3 vs e f a : goods 6 vs -> sharp3 vs -> seg3 vs e -> seg3 vs f -> two_segment_into_one Rnum e f = Ok (Some a) ->
  seg3 vs a /\ forall x, hull (map pp a) x <-> hull (map pp e) x \/ hull (map pp f) x.
Proof.
  intros G Sh Se Sf E. destruct (seg3_goods vs e G Se) as (Le & Ge). destruct (seg3_goods vs f G Sf) as (Lf & Gf).
  destruct (two_segment_spec Rnum e f Le Lf Ge Gf) as (m & Em & Hm). rewrite E in Em. injection Em as <-.
  destruct Hm as (p & q & p' & r & E1 & E2 & Ep & On & ->).
  destruct (seg3_ends vs e p q Se E1) as (Ip & Iq & _). destruct (seg3_ends vs f p' r Sf E2) as (_ & Ir & _).
  rewrite on_segment_ico in On by first [exact (OutlineLemmas.good_len p _ G Ip)|exact (OutlineLemmas.good_len q _ G Iq)|exact (OutlineLemmas.good_len r _ G Ir)]. injection On as On. apply on_segment_sound in On as (N & y & Hy & Dy).
  split; [exists q, r; auto|]. intros x. rewrite (ends_hull3 e p q x E1), (ends_hull3 f p' r x E2), <- (proj1 (pp_iff p p') Ep). cbn [map].
  destruct (Sh p q r Ip Iq Ir) as [Hp|Hp]; [apply hull_divide, Hp|]. specialize (Hp y Hy). lra.
Qed.

(** * The surface of a solid *)
Lemma hull_sub ps qs x : hull ps x -> incl ps qs -> hull qs x.
Proof. intros H I. apply (hull_trans ps _ _ H). intros q Hq. apply hull_mem, I, Hq. Qed.
Lemma face_cross t k u v w : length t = 4%nat -> pvol t <> 0 -> nth_error (tet_faces t) k = Some [u; v; w] -> cross3 (sub3 (pp v) (pp u)) (sub3 (pp w) (pp u)) <> o3.
Proof.
  intros L NF E C. apply nth_error_In in E. destruct t as [|a [|b [|c [|d [|]]]]]; try discriminate L. apply pvol_flat in NF. apply NF. clear NF L. unfold flat4. cbn [tet_faces In] in E.
  destruct E as [E|[E|[E|[E|[]]]]]; injection E as <- <- <-;
    destruct (pp a) as [[a0 a1] a2], (pp b) as [[b0 b1] b2], (pp c) as [[c0 c1] c2], (pp d) as [[d0 d1] d2]; unfold o3 in C; cbn in C; unfold triple3; cbn; injection C as C1 C2 C3.
  - rewrite C1, C2, C3. ring.
  - transitivity (- (((b1 - a1) * (d2 - a2) - (b2 - a2) * (d1 - a1)) * (c0 - a0) + ((b2 - a2) * (d0 - a0) - (b0 - a0) * (d2 - a2)) * (c1 - a1) + ((b0 - a0) * (d1 - a1) - (b1 - a1) * (d0 - a0)) * (c2 - a2))); [ring|]. rewrite C1, C2, C3. ring.
  - transitivity (((c1 - a1) * (d2 - a2) - (c2 - a2) * (d1 - a1)) * (b0 - a0) + ((c2 - a2) * (d0 - a0) - (c0 - a0) * (d2 - a2)) * (b1 - a1) + ((c0 - a0) * (d1 - a1) - (c1 - a1) * (d0 - a0)) * (b2 - a2)); [ring|]. rewrite C1, C2, C3. ring.
  - transitivity (((c1 - b1) * (d2 - b2) - (c2 - b2) * (d1 - b1)) * (b0 - a0) + ((c2 - b2) * (d0 - b0) - (c0 - b0) * (d2 - b2)) * (b1 - a1) + ((c0 - b0) * (d1 - b1) - (c1 - b1) * (d0 - b0)) * (b2 - a2)); [ring|]. rewrite C1, C2, C3. ring.
Qed.
(** The plane of a triangle of non-zero area is unique. *)
Lemma plane_unique n d n' d' (a b c : R3) : n <> o3 -> n' <> o3 -> cross3 (sub3 b a) (sub3 c a) <> o3 ->
  dot3 n a = d -> dot3 n b = d -> dot3 n c = d -> dot3 n' a = d' -> dot3 n' b = d' -> dot3 n' c = d' -> forall x, dot3 n x = d -> dot3 n' x = d'.
Proof.
  intros Nn Nn' C A1 A2 A3 B1 B2 B3 x X.
  assert (K : forall n d, dot3 n a = d -> dot3 n b = d -> dot3 n c = d -> forall x, dot3 n x - d = dot3 n (sub3 x a)) by (intros m e <- _ _ y; destruct m as [[? ?] ?], y as [[? ?] ?], a as [[? ?] ?]; cbn; ring).
  assert (E1 : dot3 n (sub3 b a) = 0) by (rewrite <- (K n d A1 A2 A3); lra). assert (E2 : dot3 n (sub3 c a) = 0) by (rewrite <- (K n d A1 A2 A3); lra).
  assert (E3 : dot3 n' (sub3 b a) = 0) by (rewrite <- (K n' d' B1 B2 B3); lra). assert (E4 : dot3 n' (sub3 c a) = 0) by (rewrite <- (K n' d' B1 B2 B3); lra).
  assert (E5 : dot3 n (sub3 x a) = 0) by (rewrite <- (K n d A1 A2 A3); lra). enough (dot3 n' (sub3 x a) = 0) by (rewrite <- (K n' d' B1 B2 B3) in *; lra).
  clear K A1 A2 A3 B1 B2 B3 X. destruct (sub3 b a) as [[u0 u1] u2], (sub3 c a) as [[v0 v1] v2], (sub3 x a) as [[w0 w1] w2], n as [[n0 n1] n2], n' as [[m0 m1] m2]. cbn in *.
  destruct (perp_cross n0 n1 n2 u0 u1 u2 v0 v1 v2 E1 E2) as (P1 & P2 & P3). destruct (perp_cross m0 m1 m2 u0 u1 u2 v0 v1 v2 E3 E4) as (Q1 & Q2 & Q3).
  set (k0 := u1 * v2 - u2 * v1) in *. set (k1 := u2 * v0 - u0 * v2) in *. set (k2 := u0 * v1 - u1 * v0) in *.
  assert (Z : k0 * w0 + k1 * w1 + k2 * w2 = 0).
  { assert (N0 : n0 <> 0 \/ n1 <> 0 \/ n2 <> 0) by (apply NNPP; intros N; apply Nn; unfold o3; eq3; apply NNPP; tauto).
    destruct N0 as [N0|[N0|N0]].
    - apply (Rmult_eq_reg_l n0); [|exact N0]. transitivity (n0 * k0 * w0 + (n0 * k1) * w1 + (n0 * k2) * w2); [ring|]. rewrite P1, <- P3. transitivity (k0 * (n0 * w0 + n1 * w1 + n2 * w2)); [ring|]. rewrite E5. ring.
    - apply (Rmult_eq_reg_l n1); [|exact N0]. transitivity ((n1 * k0) * w0 + (n1 * k1) * w1 + (n1 * k2) * w2); [ring|]. rewrite <- P1, P2. transitivity (k1 * (n0 * w0 + n1 * w1 + n2 * w2)); [ring|]. rewrite E5. ring.
    - apply (Rmult_eq_reg_l n2); [|exact N0]. transitivity ((n2 * k0) * w0 + (n2 * k1) * w1 + (n2 * k2) * w2); [ring|]. rewrite P3, <- P2. transitivity (k2 * (n0 * w0 + n1 * w1 + n2 * w2)); [ring|]. rewrite E5. ring. }
  assert (C0 : k0 <> 0 \/ k1 <> 0 \/ k2 <> 0) by (apply NNPP; intros N; apply C; unfold o3; eq3; apply NNPP; tauto).
  destruct C0 as [C0|[C0|C0]].
  - apply (Rmult_eq_reg_l k0); [|exact C0]. transitivity (m0 * k0 * w0 + (m1 * k0) * w1 + (m2 * k0) * w2); [ring|]. rewrite <- Q1, Q3. transitivity (m0 * (k0 * w0 + k1 * w1 + k2 * w2)); [ring|]. rewrite Z. ring.
  - apply (Rmult_eq_reg_l k1); [|exact C0]. transitivity ((m0 * k1) * w0 + (m1 * k1) * w1 + (m2 * k1) * w2); [ring|]. rewrite Q1, <- Q2. transitivity (m1 * (k0 * w0 + k1 * w1 + k2 * w2)); [ring|]. rewrite Z. ring.
  - apply (Rmult_eq_reg_l k2); [|exact C0]. transitivity ((m0 * k2) * w0 + (m1 * k2) * w1 + (m2 * k2) * w2); [ring|]. rewrite Q2, <- Q3. transitivity (m2 * (k0 * w0 + k1 * w1 + k2 * w2)); [ring|]. rewrite Z. ring.
Qed.
Definition in_plane (n : R3) (d : R) (f : vecs) : Prop := Forall (fun v => dot3 n (pp v) = d) f.
Lemma coplanar_app f g : coplanar3 (map pp (f ++ g)) <-> exists n d, n <> o3 /\ in_plane n d f /\ in_plane n d g.
Proof.
  unfold coplanar3, in_plane. split.
  - intros (n & d & Nn & F). rewrite map_app, Forall_app, !Forall_map in F. exists n, d. tauto.
  - intros (n & d & Nn & F1 & F2). exists n, d. split; [exact Nn|]. rewrite map_app, Forall_app, !Forall_map. auto.
Qed.

Section Skin.
Variable o s : obj4.
Hypothesis To : tets o.
Hypothesis NF : forall t, In t o -> pvol t <> 0.
Hypothesis FF : face_to_face (map (map pp) o).
Hypothesis ND : NoDup s.
Hypothesis Sf : forall f, In f s -> In f (all_faces o) /\ once f (all_faces o).

Lemma skin_face f : In f s -> exists i t u v w, nth_error o i = Some t /\ f = [u; v; w] /\ incl f t /\
  pp u <> pp v /\ pp u <> pp w /\ pp v <> pp w /\ cross3 (sub3 (pp v) (pp u)) (sub3 (pp w) (pp u)) <> o3.
Proof.
  intros H. apply Sf in H as (H & _). apply In_nth_error in H as (n & En). unfold all_faces in En. destruct (face_pos_inv o (len4 o To) n f En) as (i & t & k & Ei & Hk & _ & Ek).
  pose proof (nth_error_In _ _ Ei) as Ht. destruct (face_ends _ _ _ Ek) as (u & v & w & -> & Iu & Iv & Iw). destruct (face_ne t k u v w (nodup4 o To NF t Ht) Ek) as (N1 & N2 & N3).
  exists i, t, u, v, w. split; [exact Ei|]. split; [reflexivity|]. split; [intros x [<-|[<-|[<-|[]]]]; assumption|]. repeat (split; [assumption|]). exact (face_cross t k u v w (len4_in o To t Ht) (NF t Ht) Ek).
Qed.
Lemma skin_len : Forall (fun t : vecs => length t = 3%nat) s.
Proof. apply Forall_forall. intros f Hf. destruct (skin_face f Hf) as (i & t & u & v & w & _ & -> & _). reflexivity. Qed.
Lemma skin_nodup f : In f s -> NoDup (map pp f).
Proof. intros Hf. destruct (skin_face f Hf) as (i & t & u & v & w & _ & -> & _ & N1 & N2 & N3 & _). cbn [map]. repeat (constructor; [cbn [In]; intuition congruence|]). constructor. Qed.
Lemma skin_goods f : In f s -> goods 6 f.
Proof.
  intros Hf. destruct (skin_face f Hf) as (i & t & u & v & w & Ei & _ & I & _). pose proof To as T'. unfold tets in T'. rewrite Forall_forall in T'. destruct (T' t (nth_error_In _ _ Ei)) as (_ & G).
  unfold goods in *. rewrite Forall_forall in *. intros x Hx. apply G, I, Hx.
Qed.
Lemma skin_same f g : In f s -> In g s -> same_set (map pp f) (map pp g) -> f = g.
Proof.
  intros Hf Hg E. apply Sf in Hf as (If & (j & (f' & Ef & _) & U)). apply Sf in Hg as (Ig & _). apply In_nth_error in If as (n & En). apply In_nth_error in Ig as (m & Em).
  assert (j = n) by (apply U; exists f; split; [exact En|intros x; tauto]). assert (j = m) by (apply U; exists g; split; [exact Em|apply pp_same, E]). congruence.
Qed.
Lemma tet_of i t : nth_error o i = Some t -> tetr (map pp t).
Proof. intros E. pose proof (tetrs o To NF) as T. rewrite Forall_forall in T. apply T, in_map, (nth_error_In _ _ E). Qed.
Lemma skin_meet f g x : In f s -> In g s -> hull (map pp f) x -> hull (map pp g) x -> exists ps, incl ps (map pp f) /\ incl ps (map pp g) /\ hull ps x.
Proof.
  intros Hf Hg Xf Xg. destruct (skin_face f Hf) as (i & t & _ & _ & _ & Ei & _ & If & _). destruct (skin_face g Hg) as (j & u & _ & _ & _ & Ej & _ & Ig & _).
  apply (incl_map pp) in If, Ig.
  destruct (Nat.eq_dec i j) as [<-|Nij].
  - rewrite Ei in Ej. injection Ej as <-. exact (common_support (map pp t) _ _ x (tet_of i t Ei) If Ig Xf Xg).
  - destruct (FF i j _ _ (ts4_nth o i t Ei) (ts4_nth o j u Ej) Nij) as (_ & Meet).
    destruct (Meet x (hull_sub _ _ _ Xf If) (hull_sub _ _ _ Xg Ig)) as (ps & I1 & I2 & Hp).
    destruct (common_support (map pp t) (map pp f) ps x (tet_of i t Ei) If I1 Xf Hp) as (m & J1 & J2 & Hm).
    destruct (common_support (map pp u) m (map pp g) x (tet_of j u Ej) (incl_tran J2 I2) Ig Hm Xg) as (m' & K1 & K2 & Hm').
    exists m'. split; [exact (incl_tran K1 J1)|]. auto.
Qed.
Lemma skin_ee g : NoDup g -> incl g s -> edge_to_edge (map (map pp) g).
Proof.
  intros Ng Ig i j t u Ei Ej Nij. rewrite nth_error_map in Ei, Ej. destruct (nth_error g i) as [f|] eqn:Ef; [|discriminate]. destruct (nth_error g j) as [f'|] eqn:Ef'; [|discriminate].
  injection Ei as <-. injection Ej as <-. pose proof (Ig _ (nth_error_In _ _ Ef)) as Hf. pose proof (Ig _ (nth_error_In _ _ Ef')) as Hf'. split.
  - intros E. apply (skin_same f f' Hf Hf') in E. subst f'. apply Nij. rewrite NoDup_nth_error in Ng. apply Ng; [apply nth_error_Some; congruence|congruence].
  - intros x X1 X2. exact (skin_meet f f' x Hf Hf' X1 X2).
Qed.
Lemma skin_mid1 : forall t w u v u' v', In t s -> In w s -> In u t -> In v t -> In u' w -> In v' w -> pp u <> pp v -> pp u' <> pp v' -> line (1/2) (pp u') (pp v') = line (1/2) (pp u) (pp v) -> In (pp u) [pp u'; pp v'] /\ In (pp v) [pp u'; pp v'].
Proof.
  intros t w u v u' v' Ht Hw Iu Iv Iu' Iv' N N' E.
    destruct (skin_face t Ht) as (a & tt & _ & _ & _ & Ea & _ & It & _). destruct (skin_face w Hw) as (b & tw & _ & _ & _ & Eb & _ & Iw & _).
    set (x := line (1/2) (pp u) (pp v)) in *.
    assert (Hx : hull [pp u; pp v] x) by apply half_hull3. assert (Hx' : hull [pp u'; pp v'] x) by (rewrite <- E; apply half_hull3).
    assert (I1 : incl [pp u; pp v] (map pp tt)) by (intros y [<-|[<-|[]]]; apply in_map, It; assumption).
    assert (I2 : incl [pp u'; pp v'] (map pp tw)) by (intros y [<-|[<-|[]]]; apply in_map, Iw; assumption).
    assert (M : exists ps, incl ps (map pp tt) /\ incl ps [pp u'; pp v'] /\ hull ps x).
    { destruct (Nat.eq_dec a b) as [<-|Nab]; [rewrite Ea in Eb; injection Eb as <-; exists [pp u'; pp v']; auto using incl_refl|].
      destruct (FF a b _ _ (ts4_nth o a tt Ea) (ts4_nth o b tw Eb) Nab) as (_ & Meet).
      destruct (Meet x (hull_sub _ _ _ Hx I1) (hull_sub _ _ _ Hx' I2)) as (ps & J1 & J2 & Hp).
      destruct (common_support (map pp tw) ps [pp u'; pp v'] x (tet_of b tw Eb) J2 I2 Hp Hx') as (m & K1 & K2 & Hm). exists m. split; [exact (incl_tran K1 J1)|]. auto. }
    destruct M as (ps & J1 & J2 & Hp).
    destruct (mid_corner (map pp tt) (pp u) (pp v) ps (tet_of a tt Ea) (I1 _ (or_introl eq_refl)) (I1 _ (or_intror (or_introl eq_refl))) N J1 Hp) as (A & B). auto.
Qed.
(** Edges of the surface with the same middle have the same ends. *)
Lemma skin_mid e g : In e (edges_of 3 s) -> In g (edges_of 3 s) -> pcentre g = pcentre e -> same_set (map ppoint e) (map ppoint g).
Proof.
  intros He Hg E. apply In_nth_error in He as (n & En). apply In_nth_error in Hg as (m & Em). change (edges_of 3 s) with (concat (map tri_edges s)) in *.
  destruct (OutlineLemmas.edge_pos_inv s skin_len n e En) as (i & t & k & Ei & _ & _ & Ek). destruct (OutlineLemmas.edge_pos_inv s skin_len m g Em) as (j & w & k' & Ej & _ & _ & Ek').
  destruct (OutlineLemmas.edge_ends _ _ _ Ek) as (u & v & -> & Iu & Iv). destruct (OutlineLemmas.edge_ends _ _ _ Ek') as (u' & v' & -> & Iu' & Iv').
  pose proof (nth_error_In _ _ Ei) as Ht. pose proof (nth_error_In _ _ Ej) as Hw.
  pose proof (edge_ne3 t k _ u v (skin_nodup t Ht) Ek eq_refl) as N. pose proof (edge_ne3 w k' _ u' v' (skin_nodup w Hw) Ek' eq_refl) as N'.
  apply centre_eq3 in E. apply pp_same. cbn [map].
  destruct (skin_mid1 t w u v u' v' Ht Hw Iu Iv Iu' Iv' N N' E) as (A1 & A2). destruct (skin_mid1 w t u' v' u v Hw Ht Iu' Iv' Iu Iv N' N (eq_sym E)) as (B1 & B2).
  intros x. split; intros [<-|[<-|[]]]; assumption.
Qed.
Lemma skin_plane f : In f s -> exists n d, n <> o3 /\ in_plane n d f.
Proof.
  intros Hf. destruct (skin_face f Hf) as (i & t & u & v & w & _ & -> & _ & _ & _ & _ & C). exists (cross3 (sub3 (pp v) (pp u)) (sub3 (pp w) (pp u))), (dot3 (cross3 (sub3 (pp v) (pp u)) (sub3 (pp w) (pp u))) (pp u)).
  split; [exact C|]. clear. unfold in_plane. destruct (pp u) as [[u0 u1] u2] eqn:Eu, (pp v) as [[v0 v1] v2] eqn:Ev, (pp w) as [[w0 w1] w2] eqn:Ew. repeat constructor; rewrite ?Eu, ?Ev, ?Ew; cbn; ring.
Qed.
Lemma skin_same_plane f g n d : In f s -> n <> o3 -> in_plane n d f -> coplanar3 (map pp (f ++ g)) -> in_plane n d g.
Proof.
  intros Hf Nn P C. apply coplanar_app in C as (n' & d' & Nn' & P1 & P2). destruct (skin_face f Hf) as (i & t & u & v & w & _ & -> & _ & _ & _ & _ & C).
  unfold in_plane in *. rewrite Forall_forall in *. intros x Hx. apply (plane_unique n' d' n d (pp u) (pp v) (pp w)); try assumption; first [apply P2, Hx|apply P1; cbn; auto|apply P; cbn; auto].
Qed.
Lemma skin_tri_in f n d : In f s -> in_plane n d f -> tri_in n d (map pp f).
Proof.
  intros Hf P. destruct (skin_face f Hf) as (i & t & u & v & w & _ & -> & _ & _ & _ & _ & C). unfold in_plane in P. rewrite Forall_forall in P. exists (pp u), (pp v), (pp w). split; [reflexivity|]. repeat (split; [apply P; cbn; auto|]). exact C.
Qed.
End Skin.
