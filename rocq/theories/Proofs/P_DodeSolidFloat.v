(** Unique edges and border edges of dode2 computed in int64 and binary64: C116. *)
From Coq Require Import Reals List ZArith.
From Verif Require Import Base.Res Model.Tau Model.Arr Model.Num Model.DodeDedup Model.DodeIntersect Model.IcoSurface Model.DodeSurface Model.MachineDedup Model.MachineBorder
  Spec.LinAlg Spec.Value Spec.RVec Spec.Shape Spec.Mean Spec.DodeSpec Spec.Sets Spec.Space Spec.Tetra Spec.Plane Spec.Surface Spec.Outline Spec.Grid Spec.SolidFloat Spec.Samples Spec.DodeSamples.
Import ListNotations.
Local Open Scope R_scope.

From Coq Require Import Lia Lra Permutation.
From Verif Require Import Proofs.ResLemmas Proofs.Irrational Proofs.NumLemmas Proofs.Polytope Proofs.GridInter Proofs.GridDodeInter Proofs.SurfaceLemmas Proofs.PlaneLemmas Proofs.P_DodeOverlap Proofs.DodeSurfaceLemmas Proofs.Frontier Proofs.OutlineLemmas
  Proofs.P_DodeSurface Proofs.P_MachineDedup Proofs.SolidFloat Proofs.DodeSolidFloat Proofs.P_SolidFloat Proofs.MeanLemmas Proofs.P_Dedup Proofs.DodeOverlapLemmas.

Lemma dnamed_perm vs e g : done_name vs -> incl e vs -> incl g vs -> NoDup (map dppoint e) -> NoDup (map dppoint g) -> same_set (map dppoint e) (map dppoint g) -> Permutation e g.
Proof.
  intros O Ie Ig Ne Ng S. apply NoDup_Permutation; [eapply NoDup_map_inv; exact Ne|eapply NoDup_map_inv; exact Ng|]. intros x. split; intros H.
  - pose proof (proj1 (S (dppoint x)) (in_map dppoint _ _ H)) as K. apply in_map_iff in K as (y & E & Iy). rewrite <- (O y x (Ig y Iy) (Ie x H) E). exact Iy.
  - pose proof (proj2 (S (dppoint x)) (in_map dppoint _ _ H)) as K. apply in_map_iff in K as (y & E & Iy). rewrite <- (O y x (Ie y Iy) (Ig x H) E). exact Iy.
Qed.
Lemma dsame_centre f g : NoDup (map dppoint f) -> NoDup (map dppoint g) -> same_set (map dppoint f) (map dppoint g) -> dpcentre f = dpcentre g.
Proof. intros Nf Ng S. unfold dpcentre. apply mean_perm. apply NoDup_Permutation; assumption. Qed.
Lemma dedge_nodup o : Forall (fun t => length t = 3%nat) o -> Forall (fun t => NoDup (map dppoint t)) o -> forall e, In e (edges_of 3 o) ->
  length e = 2%nat /\ NoDup (map dppoint e) /\ exists t, In t o /\ incl e t.
Proof.
  intros L ND e He. rewrite Forall_forall in L, ND. unfold edges_of in He. cbn [Nat.eqb] in He.
  apply in_concat in He as (es & Hes & He); apply in_map_iff in Hes as (t & <- & Ht); pose proof (L t Ht) as Lt; pose proof (ND t Ht) as Nt.
  destruct t as [|a [|b [|c [|]]]]; try discriminate Lt. cbn [map] in Nt. inversion Nt as [|? ? A1 N1]; subst. inversion N1 as [|? ? A2 N2]; subst. cbn [In] in *.
  destruct He as [<-|[<-|[<-|[]]]]; (split; [reflexivity|]); (split; [cbn [map]; apply NoDup_cons; [cbn [In]; intuition congruence|apply NoDup_cons; [intros []|apply NoDup_nil]]|]); exists [a; b; c]; (split; [exact Ht|]); intros x Hx; cbn in *; tauto.
Qed.

(** C116: triangles on a common denominator with coordinates of moderate size, every vertex
    written in one way; two edges have the same end points or clearly different midpoints.
    Computed in int64 and binary64, one segment is returned for every edge ... *)
Lemma L_C116_edges : forall (la : linalg) (q B : Z) (o : obj4),
  (0 <= B)%Z -> (0 < q <= 90000000)%Z -> (4 * B * q <= 10^15)%Z -> (3 * B <= 100000 * q)%Z ->
  Forall (fun t => length t = 3%nat /\ grids 6 q B t) o -> done_name (concat o) -> Forall (fun t => NoDup (map dppoint t)) o ->
  (forall e g, In e (edges_of 3 o) -> In g (edges_of 3 o) -> same_set (map dppoint e) (map dppoint g) \/ told_apart (dpcentre e) (dpcentre g)) ->
  exists r, md_generator_unique_edges (@Bmath la) 3 o = Ok r /\ incl r (edges_of 3 o) /\ NoDup r /\
    forall e, In e (edges_of 3 o) -> exists! u, In u r /\ same_set (map dppoint u) (map dppoint e).
Proof.
  intros la q B o PB Hq H1 H2 F0 O ND Hsep.
  assert (L : Forall (fun t => length t = 3%nat) o) by (eapply Forall_impl; [|exact F0]; intros ? [? _]; assumption).
  assert (G : Forall (grids 6 q B) o) by (eapply Forall_impl; [|exact F0]; intros ? [_ ?]; assumption).
  rewrite (L_C114_edges (@Bmath la) q B o PB Hq H1 G). rewrite (dunique_edges_unfold (@Bmath la) 3 o (or_intror eq_refl) L).
  pose proof (dedge_nodup o L ND) as K. set (es := edges_of 3 o) in *.
  assert (F : Forall (fun e => e <> [] /\ (length e <= 4)%nat /\ grids 6 q B e) es).
  { apply Forall_forall. intros e He. destruct (K e He) as (Le & _ & t & Ht & Ie). split; [intros ->; discriminate Le|]. split; [lia|]. rewrite Forall_forall in G. eapply grids_incl; [exact (G t Ht)|exact Ie]. }
  assert (Hes : forall e, In e es -> incl e (concat o) /\ NoDup (map dppoint e)).
  { intros e He. destruct (K e He) as (_ & Ne & t & Ht & Ie). split; [exact (in_vs o t e Ht Ie)|exact Ne]. }
  assert (Sep : forall f g, In f es -> In g es -> Permutation f g \/ told_apart (dpcentre f) (dpcentre g)).
  { intros f g Hf Hg. destruct (Hsep f g Hf Hg) as [S|A]; [left|right; exact A]. destruct (Hes f Hf) as [If Nf]. destruct (Hes g Hg) as [Ig Ng]. exact (dnamed_perm _ f g O If Ig Nf Ng S). }
  destruct (dmapM_centre (@Bmath la) es) as (ps & Eps & _); [eapply Forall_impl; [|exact F]; intros e (Ne & _ & Ge); split; [exact Ne|exact (grids_goods _ _ _ Ge)]|].
  destruct (pick_unique_any (@Bmath la) (dcentre (@Bmath la)) dpcentre es ps Eps) as (r & E & ND' & C & Fst).
  - exact (des_same q B es PB Hq H1 H2 F Sep).
  - exact (des_close q B es PB Hq H1 H2 F Sep).
  - exact (des_ordered q B es PB Hq H1 H2 F ps Eps).
  - exists r. split; [exact E|]. assert (I : incl r es) by (intros e He; destruct (Fst e He) as (i & Ei & _); eapply nth_error_In; exact Ei). split; [exact I|]. split; [eapply NoDup_map_inv; exact ND'|].
    assert (Q : forall f g, In f es -> In g es -> (same_set (map dppoint f) (map dppoint g) <-> dpcentre f = dpcentre g)).
    { intros f g Hf Hg. split.
      - destruct (Hes f Hf) as [_ Nf]. destruct (Hes g Hg) as [_ Ng]. exact (dsame_centre f g Nf Ng).
      - intros Ec. destruct (Hsep f g Hf Hg) as [S|A]; [exact S|]. rewrite Ec in A. apply told_irrefl in A as []. }
    intros e He. pose proof (C e He) as Hc. apply in_map_iff in Hc as (u & Eu & Iu). exists u. split; [split; [exact Iu|apply (Q u e (I u Iu) He), Eu]|]. intros v [Iv Sv].
    apply (Q v e (I v Iv) He) in Sv. apply (NoDup_map_inj dpcentre r); congruence || assumption.
Qed.

(** ... and the border edges are the edges that belong to one triangle only. *)
Lemma dcount_eq q B e es : (0 <= B)%Z -> (0 < q <= 20000000)%Z -> (B * q <= 10^14)%Z -> grids 6 q B e -> Forall (grids 6 q B) es -> forall n, md_count_same e es n = dcount_same e es n.
Proof.
  intros PB Hq H G F. induction F as [|g es Gg _ IH]; intros n; [reflexivity|]. cbn [md_count_same dcount_same].
  destruct (ddedup_eq q B (e ++ g) (A3 (e ++ g)) (or_introl eq_refl) PB (proj1 Hq) (proj2 Hq) H) as (r & -> & -> & _); [apply Forall_app; split; assumption|]. cbn [bind]. destruct (length r =? 2)%nat; [destruct (S n =? 2)%nat; [reflexivity|apply IH]|apply IH].
Qed.
Lemma dborder_eq q B us es : (0 <= B)%Z -> (0 < q <= 20000000)%Z -> (B * q <= 10^14)%Z -> Forall (grids 6 q B) us -> Forall (grids 6 q B) es -> md_border us es = dborder us es.
Proof.
  intros PB Hq H F G. induction F as [|u us Gu _ IH]; [reflexivity|]. cbn [md_border dborder]. rewrite (dcount_eq q B), IH by assumption. reflexivity.
Qed.
Lemma L_C116_border : forall (la : linalg) (q B : Z) (o : obj4),
  (0 <= B)%Z -> (0 < q <= 20000000)%Z -> (B * q <= 10^14)%Z -> (3 * B <= 100000 * q)%Z ->
  Forall (fun t => length t = 3%nat /\ grids 6 q B t) o -> done_name (concat o) -> Forall (fun t => NoDup (map dppoint t)) o ->
  (forall e g, In e (edges_of 3 o) -> In g (edges_of 3 o) -> same_set (map dppoint e) (map dppoint g) \/ told_apart (dpcentre e) (dpcentre g)) ->
  exists r, md_gen_border_edges_of_coplanar_triangles (@Bmath la) o = Ok r /\ forall e, In e r <-> In e (edges_of 3 o) /\ donce e (edges_of 3 o).
Proof.
  intros la q B o PB Hq H1 H2 F O ND Hsep. destruct (L_C116_edges la q B o PB ltac:(lia) ltac:(lia) H2 F O ND Hsep) as (us & Eu & I & _ & U).
  assert (L : Forall (fun t => length t = 3%nat) o) by (eapply Forall_impl; [|exact F]; intros ? [? _]; assumption).
  assert (G : Forall (grids 6 q B) o) by (eapply Forall_impl; [|exact F]; intros ? [_ ?]; assumption).
  assert (T : Forall (fun t => length t = 3%nat /\ goods 6 t /\ NoDup (map dppoint t)) o).
  { rewrite Forall_forall in *. intros t Ht. split; [exact (L t Ht)|]. split; [exact (grids_goods _ _ _ (G t Ht))|exact (ND t Ht)]. }
  pose proof (dedge_nodup o L ND) as K.
  assert (Ge : Forall (grids 6 q B) (edges_of 3 o)).
  { apply Forall_forall. intros e He. destruct (K e He) as (_ & _ & t & Ht & Ie). rewrite Forall_forall in G. eapply grids_incl; [exact (G t Ht)|exact Ie]. }
  assert (Gu : Forall (grids 6 q B) us) by (rewrite Forall_forall in *; intros u Hu; apply Ge, I, Hu).
  unfold md_gen_border_edges_of_coplanar_triangles. pose proof Eu as Eu'. rewrite (L_C114_edges (@Bmath la) q B o PB ltac:(lia) ltac:(lia) G) in Eu'.
  destruct (dborder_unfold (@Bmath la) o us T Eu') as (r & Er & Hr). unfold dgen_border_edges_of_coplanar_triangles in Er. rewrite Eu' in Er. rewrite Eu. cbn [bind] in *.
  rewrite dall_edges_3 in * by exact L. cbn [bind notNone] in *. change (concat (map tri_edges o)) with (edges_of 3 o) in *. rewrite (dborder_eq q B us (edges_of 3 o) PB Hq H1 Gu Ge).
  exists r. split; [exact Er|]. intros e. rewrite (Hr e). split; intros [He On]; (split; [|exact On]); [exact (I e He)|].
  destruct (U e He) as (u & (Iu & Su) & _). pose proof On as (j & (g & Eg & Sg) & Uj). apply In_nth_error in He as (k & Ek). pose proof (I u Iu) as Iu'. apply In_nth_error in Iu' as (m & Em).
  assert (j = k) by (apply Uj; exists e; split; [exact Ek|intros x; tauto]). assert (j = m) by (apply Uj; exists u; split; [exact Em|intros x; symmetry; apply Su]). subst. rewrite Em in Ek. injection Ek as <-. exact Iu.
Qed.

(** For an edge-to-edge object in one plane they cover exactly the boundary of its region. *)
Lemma border_drawn h o b : tris o -> level h (concat o) -> (forall t, In t o -> parea t <> 0) -> edge_to_edge (map (map dp) o) -> (forall e, In e b <-> In e (edges_of 3 o) /\ donce e (edges_of 3 o)) -> forall x, drawn b x <-> boundary h (dregion o) x.
Proof.
  intros To Le Ar EE Hb x. assert (NF : Forall (fun t => forall a b c, t = [a; b; c] -> ~ flat3 (dp a) (dp b) (dp c)) o) by (apply Forall_forall; intros t Ht u v w ->; apply parea_flat, Ar, Ht). pose proof (triangs h o To Le NF) as Tr.
  rewrite (boundary_ext h _ _ x (fun y => dreg o y)), (frontier h _ Tr EE). split.
  - intros (e & He & Hx). apply Hb in He as (Ie & On). apply In_nth_error in Ie as (n & En). destruct (edge_pos_inv o (L3 o To) n e En) as (i & t & k & Ei & _ & _ & Ek).
    destruct (edge_ends _ _ _ Ek) as (u & v & -> & _). exists (dp u), (dp v). split; [|exact Hx]. apply (donce_lone h o To Le NF i t k u v Ei Ek), On.
  - intros (p & q & L & Hx). pose proof L as (i & t' & Ei & Ip & Iq & N & _). rewrite nth_error_map in Ei. destruct (nth_error o i) as [t|] eqn:Eo; [|discriminate]. injection Ei as <-.
    pose proof (nth_error_In _ _ Eo) as Ht. pose proof (L3 o To) as L3'. rewrite Forall_forall in L3'.
    destruct (tri_edge_of t p q (L3' t Ht) Ip Iq N) as (k & e & Hk & Ek & Se).
    assert (Ie : In e (edges_of 3 o)) by (change (edges_of 3 o) with (concat (map tri_edges o)); eapply nth_error_In; rewrite (edge_pos o (L3 o To) i t k Eo Hk); exact Ek).
    exists e. split; [|apply (hull_same [p; q]); [intros z; symmetry; apply Se|exact Hx]].
    apply Hb. split; [exact Ie|]. destruct (edge_ends _ _ _ Ek) as (u & v & -> & _). apply (donce_lone h o To Le NF i t k u v Eo Ek).
    pose proof (edge_ne t k _ u v (nodups h o To Le NF t Ht) Ek eq_refl) as Nuv. cbn [map] in Se.
    assert (Eu : (dp u = p /\ dp v = q) \/ (dp u = q /\ dp v = p)).
    { pose proof (proj1 (Se (dp u)) (or_introl eq_refl)) as [Hu|[Hu|[]]]; pose proof (proj1 (Se (dp v)) (or_intror (or_introl eq_refl))) as [Hv|[Hv|[]]]; try (exfalso; congruence); auto. }
    destruct Eu as [[-> ->]|[-> ->]]; [exact L|]. destruct L as (i' & w & E1 & E2 & E3 & E4 & E5). exists i', w. repeat (split; [assumption|]). split; [congruence|]. intros j w' F1 F2 F3. exact (E5 j w' F1 F3 F2).
Qed.
Lemma L_C116_boundary : forall (la : linalg) (q B : Z) (h : R) (o : obj4),
  (0 <= B)%Z -> (0 < q <= 20000000)%Z -> (B * q <= 10^14)%Z -> (3 * B <= 100000 * q)%Z ->
  tris o -> Forall (grids 6 q B) o -> level h (concat o) -> (forall t, In t o -> parea t <> 0) -> edge_to_edge (map (map dp) o) -> done_name (concat o) ->
  (forall e g, In e (edges_of 3 o) -> In g (edges_of 3 o) -> dpcentre e = dpcentre g \/ told_apart (dpcentre e) (dpcentre g)) ->
  exists r, md_gen_border_edges_of_coplanar_triangles (@Bmath la) o = Ok r /\ forall x, drawn r x <-> boundary h (dregion o) x.
Proof.
  intros la q B h o PB Hq H1 H2 To G Le Ar EE O Hsep. assert (NF : Forall (fun t => forall a b c, t = [a; b; c] -> ~ flat3 (dp a) (dp b) (dp c)) o) by (apply Forall_forall; intros t Ht u v w ->; apply parea_flat, Ar, Ht). pose proof (good3 h o To Le NF) as G3.
  destruct (L_C116_border la q B o PB Hq H1 H2) as (r & E & Hr).
  - rewrite Forall_forall in *. intros t Ht. split; [apply (G3 t Ht)|exact (G t Ht)].
  - exact O.
  - eapply Forall_impl; [|exact G3]. intros t (_ & _ & N). exact N.
  - intros e g He Hg. destruct (Hsep e g He Hg) as [Ec|A]; [left|right; exact A]. exact (mid_same h o To Le NF EE e g He Hg (eq_sym Ec)).
  - exists r. split; [exact E|]. exact (border_drawn h o r To Le Ar EE Hr).
Qed.

Lemma dtold_pairs (Q : vecs -> vecs -> Prop) l : (forall f, Q f f) -> (forall f g, Q f g -> Q g f) -> ForallOrdPairs (fun f g => Q f g \/ told_apart (dpcentre f) (dpcentre g)) l ->
  forall f g, In f l -> In g l -> Q f g \/ told_apart (dpcentre f) (dpcentre g).
Proof.
  intros R S F f g Hf Hg. destruct (ForallOrdPairs_In F f g Hf Hg) as [->|[H|H]]; [left; apply R|exact H|]. destruct H as [H|H]; [left; apply S, H|right; apply told_sym, H].
Qed.
Ltac dpc := unfold o6, x2, x3, x22, pl, iv, dppoint; cbn; unfold dot, val; cbn; repeat (apply f_equal2; [field|]); reflexivity.
Lemma d0 : dppoint o6 = [0; 0; 0]. Proof. dpc. Qed.
Lemma d2 : dppoint x2 = [1; 0; 0]. Proof. dpc. Qed.
Lemma d3 : dppoint x3 = [0; 1; 0]. Proof. dpc. Qed.
Lemma d22 : dppoint x22 = [2; 0; 0]. Proof. dpc. Qed.
Lemma halves_name : done_name (concat halves).
Proof.
  intros u v Hu Hv E. cbn [halves concat app In] in Hu, Hv.
  repeat (destruct Hu as [<-|Hu]; [|]); try (destruct Hu); repeat (destruct Hv as [<-|Hv]; [|]); try (destruct Hv); try reflexivity;
  exfalso; rewrite ?d0, ?d2, ?d3, ?d22 in E; injection E; intros; lra.
Qed.
Lemma halves_grid : Forall (grids 6 1 2) halves.
Proof.
  unfold halves, grids, o6, x2, x3, x22, pl, iv.
  repeat (apply Forall_cons; [repeat (apply Forall_cons; [split; [reflexivity|cbn [map]; repeat (apply Forall_cons; [split; [lia|exists 1%Z; cbn; lia]|]); apply Forall_nil]|]); apply Forall_nil|]). apply Forall_nil.
Qed.
Lemma halves_edges : forall e g, In e (edges_of 3 halves) -> In g (edges_of 3 halves) -> same_set (map dppoint e) (map dppoint g) \/ told_apart (dpcentre e) (dpcentre g).
Proof.
  apply (dtold_pairs (fun f g => same_set (map dppoint f) (map dppoint g))); [intros f x; tauto|intros f g H x; specialize (H x); tauto|].
  unfold halves. cbn [edges_of Nat.eqb map tri_edges concat app]. unfold dpcentre.
  repeat (apply FOP_cons; [repeat (apply Forall_cons;
    [first [left; intros x; cbn [map In]; tauto | right; cbn [map]; rewrite ?d0, ?d2, ?d3, ?d22; unfold mean, zerov; cbn [vsum vadd vscale map length repeat INR]; cbn; first [told1 0%nat | told1 1%nat]]|]); apply Forall_nil|]); apply FOP_nil.
Qed.
Lemma halves_mids : forall e g, In e (edges_of 3 halves) -> In g (edges_of 3 halves) -> dpcentre e = dpcentre g \/ told_apart (dpcentre e) (dpcentre g).
Proof.
  intros e g He Hg. destruct (halves_edges e g He Hg) as [S|A]; [left|right; exact A]. pose proof (patch_flat 0 halves halves_patch) as NF. destruct halves_patch as (_ & To & Le & _).
  pose proof (good3 0 halves To Le NF) as G3. pose proof (dedge_nodup halves) as K. rewrite !Forall_forall in *.
  assert (Q : forall a, In a (edges_of 3 halves) -> NoDup (map dppoint a)) by (intros a Ha; destruct (K (fun t Ht => proj1 (G3 t Ht)) (fun t Ht => proj2 (proj2 (G3 t Ht))) a Ha) as (_ & N & _); exact N).
  exact (dsame_centre e g (Q e He) (Q g Hg) S).
Qed.
(** The triangle cut into two: all conditions are met and the cut is not a border edge. *)
Example E_C116_ex : patch 0 halves /\ Forall (grids 6 1 2) halves /\ done_name (concat halves) /\
  (forall e g, In e (edges_of 3 halves) -> In g (edges_of 3 halves) -> same_set (map dppoint e) (map dppoint g) \/ told_apart (dpcentre e) (dpcentre g)) /\
  (forall e g, In e (edges_of 3 halves) -> In g (edges_of 3 halves) -> dpcentre e = dpcentre g \/ told_apart (dpcentre e) (dpcentre g)) /\
  exists r, md_gen_border_edges_of_coplanar_triangles Bnum halves = Ok r /\ ~ In [x2; x3] r /\ ~ In [x3; x2] r.
Proof.
  split; [exact halves_patch|]. split; [exact halves_grid|]. split; [exact halves_name|]. split; [exact halves_edges|]. split; [exact halves_mids|].
  pose proof (patch_flat 0 halves halves_patch) as NF. destruct halves_patch as (_ & To & Le & _). pose proof (good3 0 halves To Le NF) as G3.
  destruct (L_C116_border textbook 1 2 halves ltac:(lia) ltac:(lia) ltac:(lia) ltac:(lia)) as (r & E & Hr).
  - pose proof halves_grid as Gr. rewrite Forall_forall in *. intros t Ht. split; [apply (G3 t Ht)|exact (Gr t Ht)].
  - exact halves_name.
  - eapply Forall_impl; [|exact G3]. intros t (_ & _ & N). exact N.
  - exact halves_edges.
  - assert (K : forall e, same_set (map dppoint e) (map dppoint [x2; x3]) -> ~ In e r).
    { intros e S I. apply Hr in I as (_ & j & _ & U). assert (A : j = 2%nat); [|assert (C : j = 4%nat); [|congruence]]; apply U; eexists; (split; [reflexivity|]); intros x; pose proof (S x) as Sx; cbn [map In] in *; tauto. }
    exists r. split; [exact E|]. split; apply K; intros x; cbn [map In]; tauto.
Qed.
