(** Surfaces, unique triangles and unique edges computed in int64 and binary64: C115. *)
From Coq Require Import Reals List ZArith.
From Verif Require Import Base.Res Model.Tau Model.Arr Model.Num Model.IcoDedup Model.IcoSurface Model.MachineDedup Model.MachineBorder
  Spec.LinAlg Spec.Value Spec.RVec Spec.Shape Spec.Mean Spec.IcoSpec Spec.Sets Spec.Space Spec.Region Spec.Surface Spec.Solid Spec.Grid Spec.SolidFloat Spec.Samples.
Import ListNotations.
Local Open Scope R_scope.

From Coq Require Import Lia Lra Permutation.
From Verif Require Import Proofs.ResLemmas Proofs.Irrational Proofs.NumLemmas Proofs.Polytope Proofs.GridInter Proofs.SurfaceLemmas Proofs.MergeLemmas Proofs.P_Surface Proofs.Frontier3 Proofs.SolidLemmas Proofs.P_Solid Proofs.P_MachineDedup Proofs.SolidFloat Proofs.P_Dedup.

Lemma named_perm vs e g : one_name vs -> incl e vs -> incl g vs -> NoDup (map ppoint e) -> NoDup (map ppoint g) -> same_set (map ppoint e) (map ppoint g) -> Permutation e g.
Proof.
  intros O Ie Ig Ne Ng S. apply NoDup_Permutation; [eapply NoDup_map_inv; exact Ne|eapply NoDup_map_inv; exact Ng|]. intros x. split; intros H.
  - pose proof (proj1 (S (ppoint x)) (in_map ppoint _ _ H)) as K. apply in_map_iff in K as (y & E & Iy). rewrite <- (O y x (Ig y Iy) (Ie x H) E). exact Iy.
  - pose proof (proj2 (S (ppoint x)) (in_map ppoint _ _ H)) as K. apply in_map_iff in K as (y & E & Iy). rewrite <- (O y x (Ie y Iy) (Ig x H) E). exact Iy.
Qed.
Lemma face_from o f : tets o -> In f (all_faces o) -> exists t, In t o /\ incl f t.
Proof.
  intros T Hf. unfold all_faces in Hf. apply in_concat in Hf as (l & Hl & Hf). apply in_map_iff in Hl as (t & <- & Ht). exists t. split; [exact Ht|].
  unfold tets in T. rewrite Forall_forall in T. destruct (T t Ht) as [L _]. destruct t as [|a [|b [|c [|d [|]]]]]; try discriminate L.
  destruct Hf as [<-|[<-|[<-|[<-|[]]]]]; intros x Hx; cbn in *; tauto.
Qed.
Lemma in_vs (o : obj4) t e : In t o -> incl e t -> incl e (concat o).
Proof. intros Ht Ie x Hx. apply in_concat. exists t. split; [exact Ht|apply Ie, Hx]. Qed.
Lemma grid_tets q B o : Forall (fun t => length t = 4%nat /\ grids 6 q B t) o -> tets o.
Proof. intros F. unfold tets. eapply Forall_impl; [|exact F]. intros t [L G]. split; [exact L|exact (grids_goods _ _ _ G)]. Qed.
Lemma grid_faces q B o : Forall (fun t => length t = 4%nat /\ grids 6 q B t) o -> Forall (fun e => e <> [] /\ (length e <= 4)%nat /\ grids 6 q B e) (all_faces o).
Proof.
  intros F. pose proof (grid_tets _ _ _ F) as T. apply Forall_forall. intros f Hf. destruct (all_faces_good o T f Hf) as [L _]. split; [intros ->; discriminate L|]. split; [lia|].
  destruct (face_from o f T Hf) as (t & Ht & If). rewrite Forall_forall in F. eapply grids_incl; [apply F, Ht|exact If].
Qed.
Lemma pick_perm (l : obj4) is is' r r' : Forall2 (fun i f => nth_error l i = Some f) is r -> Forall2 (fun i f => nth_error l i = Some f) is' r' -> Permutation is is' -> Permutation r r'.
Proof.
  assert (E : forall is r, Forall2 (fun i f => nth_error l i = Some f) is r -> r = map (fun i => nth i l []) is).
  { intros is0 r0 F. induction F as [|i f is0 r0 H _ IH]; [reflexivity|]. cbn [map]. rewrite <- IH. f_equal. symmetry. apply nth_error_nth. exact H. }
  intros F F' P. rewrite (E _ _ F), (E _ _ F'). apply Permutation_map, P.
Qed.

(** C115: a face-to-face solid of tetrahedra on a common denominator, with coordinates of
    moderate size and every vertex written in one way; the centres of different faces differ
    by more than twice the tolerance of np.allclose.  Computed entirely in int64 and binary64,
    the triangles returned cover exactly the boundary of the solid. *)
Lemma L_C115_surface : forall (la : linalg) (q B : Z) (o : obj4),
  (0 <= B)%Z -> (0 < q <= 90000000)%Z -> (4 * B * q <= 10^15)%Z -> (3 * B <= 100000 * q)%Z ->
  o <> [] -> Forall (fun t => length t = 4%nat /\ grids 6 q B t) o -> one_name (concat o) ->
  (forall t, In t o -> pvol t <> 0) -> face_to_face (map (map pp) o) ->
  (forall f g, In f (all_faces o) -> In g (all_faces o) -> pcentre f = pcentre g \/ told_apart (pcentre f) (pcentre g)) ->
  exists r, m_generator_surface_1 (@Bmath la) o = Ok r /\ NoDup r /\ incl r (all_faces o) /\ forall x, skin r x <-> boundary3 (region o) x.
Proof.
  intros la q B o PB Hq H1 H2 Ne F O NF FF Ap. pose proof (grid_tets _ _ _ F) as T. rewrite (proj1 (L_C113_surface (@Bmath la) q B o PB Hq H1 F)).
  assert (Ap' : forall f g, In f (all_faces o) -> In g (all_faces o) -> pcentre f = pcentre g \/ apart (pcentre f) (pcentre g)).
  { intros f g Hf Hg. destruct (Ap f g Hf Hg) as [E|A]; [left; exact E|right; apply told_apart_apart, A]. }
  assert (S : solid o) by (split; [exact Ne|]; split; [exact T|]; split; [exact NF|]; split; [exact FF|exact Ap']).
  destruct (L_C90_surface o S) as (r0 & E0 & ND0 & I0 & B0).
  assert (Done : forall r, generator_surface_1 (@Bmath la) o = Ok r -> Permutation r0 r ->
    exists r, generator_surface_1 (@Bmath la) o = Ok r /\ NoDup r /\ incl r (all_faces o) /\ forall x, skin r x <-> boundary3 (region o) x).
  { intros r E P. exists r. split; [exact E|]. split; [exact (Permutation_NoDup P ND0)|]. split; [intros f Hf; apply I0; eapply Permutation_in; [apply Permutation_sym, P|exact Hf]|].
    intros x. rewrite <- (B0 x). split; intros (f & If & Hx); exists f; (split; [|exact Hx]); (eapply Permutation_in; [|exact If]); [apply Permutation_sym, P|exact P]. }
  destruct o as [|t [|t2 o']]; [congruence| |].
  - pose proof (Forall_inv T) as [L _]. destruct t as [|a [|b [|c [|d [|]]]]]; try discriminate L. rewrite L_C24_single in E0. injection E0 as <-.
    apply (Done [[a;b;c]; [a;b;d]; [a;c;d]; [b;c;d]]); [apply L_C24_single|apply Permutation_refl].
  - set (o := t :: t2 :: o') in *. assert (Lo : (2 <= length o)%nat) by (cbn; lia).
    assert (ND4 : Forall (fun t => NoDup (map ppoint t)) o) by (apply Forall_forall; intros s Hs; apply pp_NoDup, (nodup4 _ T NF s Hs)).
    assert (Sep : forall f g, In f (all_faces o) -> In g (all_faces o) -> Permutation f g \/ told_apart (pcentre f) (pcentre g)).
    { intros f g Hf Hg. destruct (Ap f g Hf Hg) as [E|A]; [left|right; exact A]. destruct (face_from o f T Hf) as (s & Hs & If). destruct (face_from o g T Hg) as (s' & Hs' & Ig).
      apply (named_perm (concat o) f g O); [exact (in_vs o s f Hs If)|exact (in_vs o s' g Hs' Ig)|exact (faces_nodup o T ND4 f Hf)|exact (faces_nodup o T ND4 g Hg)|exact (centre_same o T NF FF f g Hf Hg E)]. }
    pose proof (grid_faces _ _ _ F) as GF.
    destruct (L_C24_surface_any (@Bmath la) o T Lo) as (is & r & E & Fr & ND & I).
    + exact (es_same q B (all_faces o) PB Hq H1 H2 GF Sep).
    + exact (es_close q B (all_faces o) PB Hq H1 H2 GF Sep).
    + exact (es_ordered q B (all_faces o) PB Hq H1 H2 GF).
    + destruct (L_C24_surface o T Lo Ap') as (is' & r' & E' & Fr' & ND' & I'). rewrite E0 in E'. injection E' as <-.
      apply (Done r E). apply (pick_perm (all_faces o) is' is r0 r Fr' Fr). apply NoDup_Permutation; [exact ND'|exact ND|]. intros i. rewrite (I i), (I' i). tauto.
Qed.

(** Under the same conditions on the centres, one triangle is kept for every face of two or
    more tetrahedra ... *)
Lemma pick_corners la q B (es : obj4) (vs : vecs) : (0 <= B)%Z -> (0 < q <= 90000000)%Z -> (4 * B * q <= 10^15)%Z -> (3 * B <= 100000 * q)%Z ->
  Forall (fun e => e <> [] /\ (length e <= 4)%nat /\ grids 6 q B e) es -> one_name vs -> (forall e, In e es -> incl e vs /\ NoDup (map ppoint e)) ->
  (forall f g, In f es -> In g es -> same_set (map ppoint f) (map ppoint g) \/ told_apart (pcentre f) (pcentre g)) ->
  exists r, (a <- mapM (centre (@Bmath la)) es ;; mapM (get es) (Model.Unique.unique_index (cmp_pt (@Bmath la)) a))%res = Ok r /\ incl r es /\ NoDup r /\
    forall e, In e es -> exists! u, In u r /\ same_set (map ppoint u) (map ppoint e).
Proof.
  intros PB Hq H1 H2 F O Hes Hsep.
  assert (Sep : forall f g, In f es -> In g es -> Permutation f g \/ told_apart (pcentre f) (pcentre g)).
  { intros f g Hf Hg. destruct (Hsep f g Hf Hg) as [S|A]; [left|right; exact A]. destruct (Hes f Hf) as [If Nf]. destruct (Hes g Hg) as [Ig Ng]. exact (named_perm vs f g O If Ig Nf Ng S). }
  destruct (mapM_centre (@Bmath la) es) as (ps & Eps & _); [eapply Forall_impl; [|exact F]; intros e (Ne & _ & G); split; [exact Ne|exact (grids_goods _ _ _ G)]|].
  destruct (pick_unique_any (@Bmath la) (centre (@Bmath la)) pcentre es ps Eps) as (r & E & ND & C & Fst).
  - exact (es_same q B es PB Hq H1 H2 F Sep).
  - exact (es_close q B es PB Hq H1 H2 F Sep).
  - exact (es_ordered q B es PB Hq H1 H2 F ps Eps).
  - exists r. split; [exact E|]. assert (I : incl r es) by (intros e He; destruct (Fst e He) as (i & Ei & _); eapply nth_error_In; exact Ei). split; [exact I|]. split; [eapply NoDup_map_inv; exact ND|].
    assert (Q : forall f g, In f es -> In g es -> (same_set (map ppoint f) (map ppoint g) <-> pcentre f = pcentre g)).
    { intros f g Hf Hg. split.
      - destruct (Hes f Hf) as [_ Nf]. destruct (Hes g Hg) as [_ Ng]. exact (same_corners_centre f g Nf Ng).
      - intros Ec. destruct (Hsep f g Hf Hg) as [S|A]; [exact S|]. rewrite Ec in A. apply told_irrefl in A as []. }
    intros e He. pose proof (C e He) as Hc. apply in_map_iff in Hc as (u & Eu & Iu). exists u. split; [split; [exact Iu|apply (Q u e (I u Iu) He), Eu]|]. intros v [Iv Sv].
    apply (Q v e (I v Iv) He) in Sv. apply (NoDup_map_inj pcentre r); congruence || assumption.
Qed.
Lemma L_C115_triangles : forall (la : linalg) (q B : Z) (o : obj4),
  (0 <= B)%Z -> (0 < q <= 90000000)%Z -> (4 * B * q <= 10^15)%Z -> (3 * B <= 100000 * q)%Z ->
  length o <> 1%nat -> Forall (fun t => length t = 4%nat /\ grids 6 q B t) o -> one_name (concat o) -> Forall (fun t => NoDup (map ppoint t)) o ->
  (forall f g, In f (all_faces o) -> In g (all_faces o) -> same_set (map ppoint f) (map ppoint g) \/ told_apart (pcentre f) (pcentre g)) ->
  exists r, m_generator_unique_triangles (@Bmath la) o = Ok r /\ incl r (all_faces o) /\ NoDup r /\
    forall f, In f (all_faces o) -> exists! u, In u r /\ same_set (map ppoint u) (map ppoint f).
Proof.
  intros la q B o PB Hq H1 H2 Lo F O ND Hsep. pose proof (grid_tets _ _ _ F) as T. rewrite (proj2 (L_C113_surface (@Bmath la) q B o PB Hq H1 F)).
  unfold generator_unique_triangles. rewrite mapM_surface by (apply tets_len, T). cbn [bind]. fold (all_faces o). rewrite (proj2 (Nat.eqb_neq _ _) Lo).
  apply (pick_corners la q B (all_faces o) (concat o)); try assumption; [exact (grid_faces _ _ _ F)|].
  intros f Hf. destruct (face_from o f T Hf) as (t & Ht & If). split; [eapply in_vs; eassumption|exact (faces_nodup o T ND f Hf)].
Qed.
(** ... and one segment for every edge of the triangles (n = 3) or tetrahedra (n = 4). *)
Lemma edge_nodup n o : n = 3%nat \/ n = 4%nat -> Forall (fun t => length t = n) o -> Forall (fun t => NoDup (map ppoint t)) o -> forall e, In e (edges_of n o) ->
  length e = 2%nat /\ NoDup (map ppoint e) /\ exists t, In t o /\ incl e t.
Proof.
  intros Hn L ND e He. rewrite Forall_forall in L, ND. unfold edges_of in He. destruct Hn as [-> | ->]; cbn [Nat.eqb] in He;
    apply in_concat in He as (es & Hes & He); apply in_map_iff in Hes as (t & <- & Ht); pose proof (L t Ht) as Lt; pose proof (ND t Ht) as Nt.
  - destruct t as [|a [|b [|c [|]]]]; try discriminate Lt. cbn [map] in Nt. inversion Nt as [|? ? A1 N1]; subst. inversion N1 as [|? ? A2 N2]; subst. cbn [In] in *.
    destruct He as [<-|[<-|[<-|[]]]]; (split; [reflexivity|]); (split; [cbn [map]; apply NoDup_cons; [cbn [In]; intuition congruence|apply NoDup_cons; [intros []|apply NoDup_nil]]|]); exists [a; b; c]; (split; [exact Ht|]); intros x Hx; cbn in *; tauto.
  - destruct t as [|a [|b [|c [|d [|]]]]]; try discriminate Lt. cbn [map] in Nt. inversion Nt as [|? ? A1 N1]; subst. inversion N1 as [|? ? A2 N2]; subst. inversion N2 as [|? ? A3 N3]; subst. cbn [In] in *.
    destruct He as [<-|[<-|[<-|[<-|[<-|[<-|[]]]]]]]; (split; [reflexivity|]); (split; [cbn [map]; apply NoDup_cons; [cbn [In]; intuition congruence|apply NoDup_cons; [intros []|apply NoDup_nil]]|]); exists [a; b; c; d]; (split; [exact Ht|]); intros x Hx; cbn in *; tauto.
Qed.
Lemma L_C115_edges : forall (la : linalg) (n : nat) (q B : Z) (o : obj4),
  (0 <= B)%Z -> (0 < q <= 90000000)%Z -> (4 * B * q <= 10^15)%Z -> (3 * B <= 100000 * q)%Z ->
  n = 3%nat \/ n = 4%nat -> Forall (fun t => length t = n /\ grids 6 q B t) o -> one_name (concat o) -> Forall (fun t => NoDup (map ppoint t)) o ->
  (forall e g, In e (edges_of n o) -> In g (edges_of n o) -> same_set (map ppoint e) (map ppoint g) \/ told_apart (pcentre e) (pcentre g)) ->
  exists r, m_generator_unique_edges (@Bmath la) n o = Ok r /\ incl r (edges_of n o) /\ NoDup r /\
    forall e, In e (edges_of n o) -> exists! u, In u r /\ same_set (map ppoint u) (map ppoint e).
Proof.
  intros la n q B o PB Hq H1 H2 Hn F O ND Hsep.
  assert (L : Forall (fun t => length t = n) o) by (eapply Forall_impl; [|exact F]; intros ? [? _]; assumption).
  assert (G : Forall (grids 6 q B) o) by (eapply Forall_impl; [|exact F]; intros ? [_ ?]; assumption).
  rewrite (L_C113_edges (@Bmath la) n q B o PB Hq H1 Hn G). rewrite (unique_edges_unfold (@Bmath la) n o (or_intror Hn) L).
  pose proof (edge_nodup n o Hn L ND) as K. apply (pick_corners la q B (edges_of n o) (concat o)); try assumption.
  - apply Forall_forall. intros e He. destruct (K e He) as (Le & _ & t & Ht & Ie). split; [intros ->; discriminate Le|]. split; [lia|]. rewrite Forall_forall in G. eapply grids_incl; [exact (G t Ht)|exact Ie].
  - intros e He. destruct (K e He) as (_ & Ne & t & Ht & Ie). split; [eapply in_vs; eassumption|exact Ne].
Qed.

(** The border edges of a set of triangles are the edges that belong to one triangle only. *)
Lemma count_eq q B e es : (0 <= B)%Z -> (0 < q <= 90000000)%Z -> (B * q <= 10^15)%Z -> grids 6 q B e -> Forall (grids 6 q B) es -> forall n, m_count_same e es n = count_same e es n.
Proof.
  intros PB Hq H G F. induction F as [|g es Gg _ IH]; intros n; [reflexivity|]. cbn [m_count_same count_same].
  destruct (dedup_eq q B (e ++ g) (A3 (e ++ g)) (or_introl eq_refl) PB (proj1 Hq) (proj2 Hq) H) as (r & -> & -> & _); [apply Forall_app; split; assumption|]. cbn [bind]. rewrite !IH. reflexivity.
Qed.
Lemma border_eq q B us es : (0 <= B)%Z -> (0 < q <= 90000000)%Z -> (B * q <= 10^15)%Z -> Forall (grids 6 q B) us -> Forall (grids 6 q B) es -> m_border us es = border us es.
Proof.
  intros PB Hq H F G. induction F as [|u us Gu _ IH]; [reflexivity|]. cbn [m_border border]. rewrite (count_eq q B), IH by assumption. reflexivity.
Qed.
Lemma L_C115_border : forall (la : linalg) (q B : Z) (o : obj4),
  (0 <= B)%Z -> (0 < q <= 90000000)%Z -> (4 * B * q <= 10^15)%Z -> (3 * B <= 100000 * q)%Z ->
  Forall (fun t => length t = 3%nat /\ grids 6 q B t) o -> one_name (concat o) -> Forall (fun t => NoDup (map ppoint t)) o ->
  (forall e g, In e (edges_of 3 o) -> In g (edges_of 3 o) -> same_set (map ppoint e) (map ppoint g) \/ told_apart (pcentre e) (pcentre g)) ->
  exists r, m_gen_border_edges_of_coplanar_triangles (@Bmath la) o = Ok r /\ forall e, In e r <-> In e (edges_of 3 o) /\ once e (edges_of 3 o).
Proof.
  intros la q B o PB Hq H1 H2 F O ND Hsep. destruct (L_C115_edges la 3 q B o PB Hq H1 H2 (or_introl eq_refl) F O ND Hsep) as (us & Eu & I & _ & U).
  assert (L : Forall (fun t => length t = 3%nat) o) by (eapply Forall_impl; [|exact F]; intros ? [? _]; assumption).
  assert (G : Forall (grids 6 q B) o) by (eapply Forall_impl; [|exact F]; intros ? [_ ?]; assumption).
  assert (T : Forall (fun t => length t = 3%nat /\ goods 6 t /\ NoDup (map ppoint t)) o).
  { rewrite Forall_forall in *. intros t Ht. split; [exact (L t Ht)|]. split; [exact (grids_goods _ _ _ (G t Ht))|exact (ND t Ht)]. }
  pose proof (edge_nodup 3 o (or_introl eq_refl) L ND) as K.
  assert (Ge : Forall (grids 6 q B) (edges_of 3 o)).
  { apply Forall_forall. intros e He. destruct (K e He) as (_ & _ & t & Ht & Ie). rewrite Forall_forall in G. eapply grids_incl; [exact (G t Ht)|exact Ie]. }
  assert (Gu : Forall (grids 6 q B) us) by (rewrite Forall_forall in *; intros u Hu; apply Ge, I, Hu).
  unfold m_gen_border_edges_of_coplanar_triangles. pose proof Eu as Eu'. rewrite (L_C113_edges (@Bmath la) 3 q B o PB Hq H1 (or_introl eq_refl) G) in Eu'.
  destruct (border_unfold (@Bmath la) o us T Eu') as (r & Er & Hr). unfold gen_border_edges_of_coplanar_triangles in Er. rewrite Eu' in Er. rewrite Eu. cbn [bind] in *.
  rewrite all_edges_3 in * by exact L. cbn [bind notNone] in *. change (concat (map tri_edges o)) with (edges_of 3 o) in *. rewrite (border_eq q B us (edges_of 3 o) PB Hq ltac:(nia) Gu Ge).
  exists r. split; [exact Er|]. intros e. rewrite (Hr e). split; intros [He On]; (split; [|exact On]); [exact (I e He)|].
  destruct (U e He) as (u & (Iu & Su) & _). pose proof On as (j & (g & Eg & Sg) & Uj). apply In_nth_error in He as (k & Ek). pose proof (I u Iu) as Iu'. apply In_nth_error in Iu' as (m & Em).
  assert (j = k) by (apply Uj; exists e; split; [exact Ek|intros x; tauto]). assert (j = m) by (apply Uj; exists u; split; [exact Em|intros x; symmetry; apply Su]). subst. rewrite Em in Ek. injection Ek as <-. exact Iu.
Qed.

Lemma told_easy p q i x y : nth_error p i = Some x -> nth_error q i = Some y -> (1/10 < x - y \/ 1/10 < y - x) -> -10 < x < 10 -> -10 < y < 10 -> told_apart p q.
Proof.
  intros Hx Hy D Bx By. exists i, x, y. split; [exact Hx|]. split; [exact Hy|].
  assert (Rabs x < 10) by (apply Rabs_def1; lra). assert (Rabs y < 10) by (apply Rabs_def1; lra).
  assert (1/10 < Rabs (x - y)) by (destruct D; [rewrite Rabs_right by lra|rewrite Rabs_left by lra]; lra). lra.
Qed.
Lemma told_sym p q : told_apart p q -> told_apart q p.
Proof. intros (i & x & y & Ex & Ey & H1 & H2). exists i, y, x. rewrite (Rabs_minus_sym y x). auto. Qed.
Lemma told_pairs (Q : vecs -> vecs -> Prop) l : (forall f, Q f f) -> (forall f g, Q f g -> Q g f) -> ForallOrdPairs (fun f g => Q f g \/ told_apart (pcentre f) (pcentre g)) l ->
  forall f g, In f l -> In g l -> Q f g \/ told_apart (pcentre f) (pcentre g).
Proof.
  intros R S F f g Hf Hg. destruct (ForallOrdPairs_In F f g Hf Hg) as [->|[H|H]]; [left; apply R|exact H|]. destruct H as [H|H]; [left; apply S, H|right; apply told_sym, H].
Qed.
Ltac told1 k := eapply (told_easy _ _ k); [reflexivity|reflexivity|first [left; lra|right; lra]|lra|lra].
Ltac told := cbn [all_faces edges_of Nat.eqb map tet_faces tet_edges concat app]; unfold pcentre;
  repeat (apply FOP_cons; [repeat (apply Forall_cons;
    [first [right; cbn [map]; rewrite ?q0, ?q1, ?q2, ?q3, ?q4, ?qe; unfold mean, zerov; cbn [vsum vadd vscale map length repeat INR]; cbn; first [told1 0%nat | told1 1%nat | told1 2%nat]
        | left; reflexivity | left; intros x; cbn [map In]; tauto]|]); apply Forall_nil|]); apply FOP_nil.
Lemma dented_name : one_name (concat dented).
Proof.
  pose proof TAU_bounds as TB. intros u v Hu Hv E. cbn [dented concat app In] in Hu, Hv.
  repeat (destruct Hu as [<-|Hu]; [|]); try (destruct Hu); repeat (destruct Hv as [<-|Hv]; [|]); try (destruct Hv); try reflexivity;
  exfalso; rewrite ?q0, ?q1, ?q2, ?q3, ?q4, ?qe in E; injection E; intros; lra.
Qed.
Lemma dented_grid : Forall (fun t => length t = 4%nat /\ grids 6 1 1 t) dented.
Proof.
  unfold dented, grids, o6, x1, x2, x4, e6, iv.
  repeat (apply Forall_cons; [split; [reflexivity|]; repeat (apply Forall_cons; [split; [reflexivity|cbn [map]; repeat (apply Forall_cons; [split; [lia|exists 1%Z; cbn; lia]|]); apply Forall_nil]|]); apply Forall_nil|]). apply Forall_nil.
Qed.
(** Two tetrahedra glued along a face: all conditions are met, and the common face is left out
    of the surface. *)
Example E_C115_ex : Forall (fun t => length t = 4%nat /\ grids 6 1 1 t) dented /\ one_name (concat dented) /\
  (forall t, In t dented -> pvol t <> 0) /\ face_to_face (map (map pp) dented) /\
  (forall f g, In f (all_faces dented) -> In g (all_faces dented) -> pcentre f = pcentre g \/ told_apart (pcentre f) (pcentre g)) /\
  (forall e g, In e (edges_of 4 dented) -> In g (edges_of 4 dented) -> same_set (map ppoint e) (map ppoint g) \/ told_apart (pcentre e) (pcentre g)) /\
  m_generator_surface_1 Bnum dented = Ok [[o6; x2; e6]; [x1; x2; e6]; [o6; x2; x4]; [o6; x1; e6]; [x1; x2; x4]; [o6; x1; x4]].
Proof.
  pose proof TAU_bounds as TB. destruct dented_solid as (_ & _ & NF & FF & _).
  split; [exact dented_grid|]. split; [exact dented_name|]. split; [exact NF|]. split; [exact FF|]. split; [apply (told_pairs (fun f g => pcentre f = pcentre g)); [reflexivity|congruence|unfold dented; told]|].
  split; [apply (told_pairs (fun f g => same_set (map ppoint f) (map ppoint g))); [intros f x; tauto|intros f g H x; specialize (H x); tauto|unfold dented; told]|]. 
  match goal with |- _ = ?r => vm_cast_no_check (eq_refl r) end.
Qed.
