(** generate_border_edges() of ico2 computed in int64 and binary64: C119. *)
From Coq Require Import Reals List ZArith.
From Verif Require Import Base.Res Model.Tau Model.Arr Model.Num Model.IcoNumeric Model.MachineInter Model.IcoDedup Model.IcoIntersect Model.IcoSurface Model.MachineDedup Model.MachineBorder Model.MachineEdges
  Spec.LinAlg Spec.Value Spec.RVec Spec.Shape Spec.Mean Spec.IcoSpec Spec.Sets Spec.Space Spec.Tetra Spec.Plane Spec.Surface Spec.Region Spec.Solid Spec.Outline Spec.Edges Spec.Grid Spec.SolidFloat Spec.Samples Spec.Convex Spec.EdgesFloat.
From Verif Require Spec.Float.
Import ListNotations.
Local Open Scope R_scope.

From Coq Require Import Lia Lra Permutation Bool.
From Flocq Require Import Core IEEE754.Binary.
From Verif Require Import Proofs.ResLemmas Proofs.Irrational Proofs.NumLemmas Proofs.PlaneLemmas Proofs.Polytope Proofs.GridInter Proofs.SurfaceLemmas Proofs.MergeLemmas Proofs.P_Surface Proofs.Frontier Proofs.Frontier3 Proofs.SolidLemmas Proofs.PlaneFrontier Proofs.EdgeLemmas Proofs.BorderLemmas
  Proofs.DedupLemmas Proofs.P_MachineDedup Proofs.RoundLemmas Proofs.FloatCalc Proofs.FloatGeom Proofs.SolidFloat Proofs.P_SolidFloat Proofs.MeanLemmas Proofs.P_Dedup Proofs.LinAlgLemmas Proofs.SegFloat.
From Verif Require Proofs.OutlineLemmas Proofs.IntersectLemmas Proofs.P_MachineOutline Proofs.CoplanarFloat Proofs.P_Convex Proofs.P_Edges Proofs.P_Overlap.

Section Machine.
Context {la : linalg} {LA : linalg_ok la}.
Variables (q B : Z).
Hypothesis PB : (0 <= B)%Z.
Hypothesis Hq : (0 < q <= 90000000)%Z.
Hypothesis H1 : (4 * B * q <= 10^15)%Z.
Hypothesis H2 : (3 * B <= 100 * q)%Z.

Lemma point_B v : gridv 6 q B v -> exists x, internal (@Bmath la) v = Ok x /\ P E0 x (pp v) /\ bnd 600 (pp v).
Proof.
  intros [L G]. assert (C : Spec.Float.coefs 100 v) by (split; [exact L|]; eapply Forall_impl; [|exact G]; intros c Gc; apply (P_MachineOutline.grid_coef100 q B); try assumption; nia).
  destruct (internal_B 100 v ltac:(lra) C) as (x & E & H). exists x. split; [exact E|]. split; [replace E0 with (10 * 100 / 2251799813685248) by (unfold E0; lra); exact H|].
  pose proof (pp_bound (la := la) 100 v C) as Bd. destruct (pp v) as [[? ?] ?]. cbn in *. lra.
Qed.
Lemma on_seg_B p a b : gridv 6 q B p -> gridv 6 q B a -> gridv 6 q B b -> exists r, point_on_segment (@Bmath la) p [a; b] = Ok r /\
  (r = true -> exists h, hull [pp a; pp b] h /\ dist3 (pp p) h < 3/2000) /\
  (hull [pp a; pp b] (pp p) -> 3/2000 <= dist3 (pp p) (pp a) -> 3/2000 <= dist3 (pp p) (pp b) -> r = true).
Proof.
  intros Gp Ga Gb. destruct (point_B p Gp) as (x & Ex & Px & Bx). destruct (point_B a Ga) as (y & Ey & Py & By). destruct (point_B b Gb) as (z & Ez & Pz & Bz).
  exists (IcoNumeric.on_segment (@Bmath la) x y z). split; [|split].
  - unfold point_on_segment. rewrite Ex. cbn [bind]. unfold internals. cbn [mapM]. rewrite Ey. cbn [bind]. rewrite Ez. cbn [bind]. reflexivity.
  - exact (on_segment_near x y z _ _ _ Px Py Pz Bx By Bz).
  - exact (on_segment_true x y z _ _ _ Px Py Pz Bx By Bz).
Qed.

Lemma vertices_eq u v : gridv 6 q B u -> gridv 6 q B v -> m_equivalent_vertices u v = equivalent_vertices u v.
Proof.
  intros Gu Gv. unfold m_equivalent_vertices, equivalent_vertices. rewrite (proj_eq q B u), (proj_eq q B v) by (assumption || lia). reflexivity.
Qed.
Lemma two_segment_eq e f : length e = 2%nat -> length f = 2%nat -> grids 6 q B e -> grids 6 q B f -> m_two_segment_into_one (@Bmath la) e f = two_segment_into_one (@Bmath la) e f.
Proof.
  intros Le Lf Ge Gf. destruct e as [|a [|b [|]]]; try discriminate Le. destruct f as [|c [|d [|]]]; try discriminate Lf.
  unfold grids in Ge, Gf. unfold m_two_segment_into_one, two_segment_into_one. cbn [get nth_error bind].
  inversion Ge as [|? ? Ga Ge']; subst. inversion Ge' as [|? ? Gb _]; subst. inversion Gf as [|? ? Gc Gf']; subst. inversion Gf' as [|? ? Gd _]; subst.
  assert (K : forall l, Forall (fun w => match w with (x, _, y, _) => gridv 6 q B x /\ gridv 6 q B y end) l -> m_first_merge (@Bmath la) l = first_merge (@Bmath la) l).
  { induction l as [|[[[e1 e2] e3] e4] l IH]; intros F; [reflexivity|]. pose proof (Forall_inv F) as [G1 G3]. pose proof (Forall_inv_tail F) as F'. cbn [m_first_merge first_merge]. rewrite (vertices_eq e1 e3 G1 G3).
    destruct (equivalent_vertices e1 e3) as [[|]|]; cbn [bind]; [|exact (IH F')|reflexivity].
    destruct (point_on_segment _ e1 [e2; e4]) as [[|]|]; cbn [bind]; [reflexivity|exact (IH F')|reflexivity]. }
  apply K. repeat (apply Forall_cons; [split; assumption|]). apply Forall_nil.
Qed.

Section Vertices.
Variable vs : vecs.
Hypothesis Gv : grids 6 q B vs.
Hypothesis Sh : sharp3 vs.
Let Gd : goods 6 vs := grids_goods _ _ _ Gv.

Lemma grid_in v : In v vs -> gridv 6 q B v.
Proof. intros H. exact (proj1 (Forall_forall _ _) Gv v H). Qed.
Lemma seg_grids e : seg3 vs e -> grids 6 q B e.
Proof. intros (u & v & -> & Hu & Hv & _). apply Forall_cons; [apply grid_in, Hu|]. apply Forall_cons; [apply grid_in, Hv|apply Forall_nil]. Qed.
Lemma sharp_apart u v : In u vs -> In v vs -> pp u <> pp v -> 3/2000 <= dist3 (pp u) (pp v).
Proof.
  intros Hu Hv N. destruct (Sh u v v Hu Hv Hv) as [H|H]; [|apply H, hull_mem; left; reflexivity].
  exfalso. apply N. apply hull2_line in H as (s & _ & ->). unfold line. destruct (pp v) as [[? ?] ?]. cbn. apply f_equal2; [apply f_equal2|]; ring.
Qed.
Lemma m_merge_seg e f a : seg3 vs e -> seg3 vs f -> m_two_segment_into_one (@Bmath la) e f = Ok (Some a) ->
  seg3 vs a /\ forall x, hull (map pp a) x <-> hull (map pp e) x \/ hull (map pp f) x.
Proof.
  intros Se Sf E. destruct (seg3_goods vs e Gd Se) as (Le & Ge). destruct (seg3_goods vs f Gd Sf) as (Lf & Gf).
  rewrite (two_segment_eq e f Le Lf (seg_grids e Se) (seg_grids f Sf)) in E.
  destruct (two_segment_spec (@Bmath la) e f Le Lf Ge Gf) as (m & Em & Hm). rewrite E in Em. injection Em as <-.
  destruct Hm as (p & a' & p' & r & E1 & E2 & Ep & On & ->).
  destruct (seg3_ends vs e p a' Se E1) as (Ip & Ia & Npa). destruct (seg3_ends vs f p' r Sf E2) as (_ & Ir & _).
  destruct (on_seg_B p a' r (grid_in p Ip) (grid_in a' Ia) (grid_in r Ir)) as (b & Eb & Hb & _). rewrite On in Eb. injection Eb as <-. destruct (Hb eq_refl) as (y & Hy & Dy).
  assert (Hp : hull [pp a'; pp r] (pp p)) by (destruct (Sh p a' r Ip Ia Ir) as [Hp|Hp]; [exact Hp|specialize (Hp y Hy); lra]).
  split.
  - exists a', r. split; [reflexivity|]. split; [exact Ia|]. split; [exact Ir|]. intros Ear. rewrite <- Ear in Hp. apply Npa. apply hull2_line in Hp as (s & _ & ->). unfold line. destruct (pp a') as [[? ?] ?]. cbn. apply f_equal2; [apply f_equal2|]; ring.
  - intros x. rewrite (ends_hull3 e p a' x E1), (ends_hull3 f p' r x E2), <- (proj1 (pp_iff p p') Ep). cbn [map]. apply hull_divide, Hp.
Qed.
Lemma m_merge_none e f p a p' s : seg3 vs e -> seg3 vs f -> m_two_segment_into_one (@Bmath la) e f = Ok None -> ends e p a -> ends f p' s -> pp p = pp p' -> ~ hull [pp a; pp s] (pp p).
Proof.
  intros Se Sf E E1 E2 Ep Hp. destruct (seg3_goods vs e Gd Se) as (Le & Ge). destruct (seg3_goods vs f Gd Sf) as (Lf & Gf).
  rewrite (two_segment_eq e f Le Lf (seg_grids e Se) (seg_grids f Sf)) in E.
  destruct (two_segment_spec (@Bmath la) e f Le Lf Ge Gf) as (m & Em & Hm). rewrite E in Em. injection Em as <-.
  specialize (Hm p a p' s E1 E2 (proj2 (pp_iff p p') Ep)). destruct (seg3_ends vs e p a Se E1) as (Ip & Ia & Npa). destruct (seg3_ends vs f p' s Sf E2) as (_ & Is & Nps).
  destruct (on_seg_B p a s (grid_in p Ip) (grid_in a Ia) (grid_in s Is)) as (b & Eb & _ & Hb). rewrite Hm in Eb. injection Eb as <-.
  assert (false = true); [|discriminate]. apply Hb; [exact Hp|apply sharp_apart; assumption|apply sharp_apart; [assumption..|congruence]].
Qed.
End Vertices.

(** Unique edges of a list of edges. *)
Lemma m_unique_list (b : obj4) vs : one_name vs ->
  (forall e, In e b -> length e = 2%nat /\ grids 6 q B e /\ incl e vs /\ NoDup (map ppoint e)) ->
  (forall e g, In e b -> In g b -> same_set (map ppoint e) (map ppoint g) \/ told_apart (pcentre e) (pcentre g)) ->
  exists r, m_generator_unique_edges (@Bmath la) 2 b = Ok r /\ incl r b /\ forall e, In e b -> exists u, In u r /\ same_set (map ppoint u) (map ppoint e).
Proof.
  intros O K Hsep. unfold m_generator_unique_edges. cbn [Nat.eqb bind].
  assert (F : Forall (fun e => e <> [] /\ (length e <= 4)%nat /\ grids 6 q B e) b).
  { apply Forall_forall. intros e He. destruct (K e He) as (Le & G & _). split; [intros ->; discriminate Le|]. split; [lia|exact G]. }
  rewrite (centres_eq (@Bmath la) q B b PB Hq H1 F).
  destruct (pick_corners la q B b vs PB Hq H1 ltac:(lia) F O) as (r & E & I & _ & U).
  - intros e He. destruct (K e He) as (_ & _ & Ie & Ne). split; assumption.
  - exact Hsep.
  - exists r. split; [exact E|]. split; [exact I|]. intros e He. destruct (U e He) as (u & Hu & _). exists u. exact Hu.
Qed.

(** The check on one triangle. *)
Lemma m_copl_self draws t : length t = 3%nat -> grids 6 q B t -> m_coplanar_check_two_triangles (@Bmath la) draws t t = Ok true.
Proof.
  intros L G. unfold m_coplanar_check_two_triangles. assert (G2 : grids 6 q B (t ++ t)) by (apply Forall_app; auto).
  destruct (dedup_eq q B (t ++ t) (A3 (t ++ t)) (or_introl eq_refl) PB (proj1 Hq) (proj2 Hq) ltac:(nia) G2) as (vs & -> & Ev & I & _). cbn [bind].
  destruct (perp_space_spec (t ++ t) (grids_goods _ _ _ G2)) as (vs' & Ev' & _ & N & S). rewrite Ev in Ev'. injection Ev' as <-.
  assert (K : (length (map ppoint vs) <= length (map ppoint t))%nat).
  { apply NoDup_incl_length; [exact N|]. intros p Hp. apply S in Hp. rewrite map_app in Hp. apply in_app_or in Hp as [Hp|Hp]; exact Hp. }
  rewrite !map_length in K.
  destruct (IntersectLemmas.internals_ok (@Bmath la) vs) as (ps & Ep & Lp).
  { apply Forall_forall. intros v Hv. apply I in Hv. exact (OutlineLemmas.good_len v (t ++ t) (grids_goods _ _ _ G2) Hv). }
  unfold coplanar_check_numeric_tau. rewrite Ep. cbn [bind]. unfold coplanar_check_numeric. destruct (Nat.ltb_spec 3 (length ps)); [lia|reflexivity].
Qed.

(** * The border of the surface *)
Section Border.
Variable o s : obj4.
Hypothesis To : tets o.
Hypothesis NF : forall t, In t o -> pvol t <> 0.
Hypothesis FF : face_to_face (map (map pp) o).
Hypothesis ND : NoDup s.
Hypothesis Sf : forall f, In f s -> In f (all_faces o) /\ once f (all_faces o).
Hypothesis Gs : Forall (grids 6 q B) s.
Hypothesis O : one_name (concat s).
Hypothesis Hmid : forall e g, In e (edges_of 3 s) -> In g (edges_of 3 s) -> pcentre e = pcentre g \/ told_apart (pcentre e) (pcentre g).

Lemma m_sep e g : In e (edges_of 3 s) -> In g (edges_of 3 s) -> same_set (map ppoint e) (map ppoint g) \/ told_apart (pcentre e) (pcentre g).
Proof. intros He Hg. destruct (Hmid e g He Hg) as [E|A]; [left|right; exact A]. exact (skin_mid o s To NF FF Sf e g He Hg (eq_sym E)). Qed.
Lemma m_group_border g : g <> [] -> NoDup g -> incl g s -> (exists n d, n <> o3 /\ forall f, In f g -> in_plane n d f) ->
  exists b, m_gen_border_edges_of_coplanar_triangles (@Bmath la) g = Ok b /\ b <> [] /\ incl b (edges_of 3 g) /\
    forall x, drawn3 b x <-> exists p q, lone (map (map pp) g) p q /\ hull [p; q] x.
Proof.
  intros Ne Ng Ig (n & d & Nn & Pl).
  assert (L3 : Forall (fun t : vecs => length t = 3%nat) g) by (apply Forall_forall; intros t Ht; pose proof (skin_len o s To NF Sf) as L; rewrite Forall_forall in L; apply L, Ig, Ht).
  assert (N3 : forall t, In t g -> NoDup (map pp t)) by (intros t Ht; apply (skin_nodup o s To NF Sf), Ig, Ht).
  assert (Tr : Forall (tri_in n d) (map (map pp) g)) by (apply Forall_map, Forall_forall; intros t Ht; apply (skin_tri_in o s To NF Sf); [apply Ig, Ht|apply Pl, Ht]).
  assert (EE : edge_to_edge (map (map pp) g)) by exact (skin_ee o s To NF FF Sf g Ng Ig).
  destruct (L_C115_border la q B g PB Hq H1 ltac:(lia)) as (b & Eb & Sb).
  { rewrite Forall_forall in *. intros t Ht. split; [exact (L3 t Ht)|exact (Gs t (Ig t Ht))]. }
  { intros u v Hu Hv. apply in_concat in Hu as (t & Ht & Hu). apply in_concat in Hv as (t' & Ht' & Hv). apply O; apply in_concat; [exists t|exists t']; auto. }
  { apply Forall_forall. intros t Ht. apply pp_NoDup, N3, Ht. }
  { intros e h He Hh. apply m_sep; [exact (proj1 (skin_edge o s To NF Sf g e Ig He))|exact (proj1 (skin_edge o s To NF Sf g h Ig Hh))]. }
  assert (Db : forall x, drawn3 b x <-> exists p q, lone (map (map pp) g) p q /\ hull [p; q] x).
  { intros x. split.
    - intros (e & He & Hx). apply Sb in He as (Ie & On). apply In_nth_error in Ie as (m & En). destruct (OutlineLemmas.edge_pos_inv g L3 m e En) as (i & t & k & Ei & _ & _ & Ek).
      destruct (OutlineLemmas.edge_ends _ _ _ Ek) as (u & v & -> & _). exists (pp u), (pp v). split; [|exact Hx]. apply (once_lone2 g L3 N3 i t k u v Ei Ek), On.
    - intros (p & z & L & Hx). pose proof L as (i & t' & Ei & Ip & Iq & N & _). rewrite nth_error_map in Ei. destruct (nth_error g i) as [t|] eqn:Eo; [|discriminate]. injection Ei as <-.
      pose proof (nth_error_In _ _ Eo) as Ht. pose proof L3 as L3'. rewrite Forall_forall in L3'.
      destruct (tri_edge3 t p z (L3' t Ht) Ip Iq N) as (k & e & Hk & Ek & Se).
      assert (Ie : In e (edges_of 3 g)) by (change (edges_of 3 g) with (concat (map tri_edges g)); eapply nth_error_In; rewrite (OutlineLemmas.edge_pos g L3 i t k Eo Hk); exact Ek).
      exists e. split; [|apply (hull_same [p; z]); [intros y; symmetry; apply Se|exact Hx]].
      apply Sb. split; [exact Ie|].
      destruct (OutlineLemmas.edge_ends _ _ _ Ek) as (u & v & -> & _). apply (once_lone2 g L3 N3 i t k u v Eo Ek).
      pose proof (edge_ne3 t k _ u v (N3 t Ht) Ek eq_refl) as Nuv. cbn [map] in Se.
      assert (Eu : (pp u = p /\ pp v = z) \/ (pp u = z /\ pp v = p)).
      { pose proof (proj1 (Se (pp u)) (or_introl eq_refl)) as [Hu|[Hu|[]]]; pose proof (proj1 (Se (pp v)) (or_intror (or_introl eq_refl))) as [Hv|[Hv|[]]]; try (exfalso; congruence); auto. }
      destruct Eu as [[-> ->]|[-> ->]]; [exact L|]. destruct L as (i' & w & F1 & F2 & F3 & F4 & F5). exists i', w. repeat (split; [assumption|]). split; [congruence|]. intros j w' G1 G2 G3. exact (F5 j w' G1 G3 G2). }
  exists b. split; [exact Eb|]. split; [|split; [intros e He; apply Sb, He|exact Db]].
  destruct (plane_lone_exists n d Nn (map (map pp) g) Tr EE) as (p & z & L); [destruct g; [contradiction|discriminate]|].
  intros ->. destruct (proj2 (Db p)) as (e & [] & _). exists p, z. split; [exact L|]. apply hull_mem. left. reflexivity.
Qed.

Hypothesis Sh : sharp3 (concat s).
Hypothesis Ne : s <> [].
Variable draws : nat -> nat -> list (nat * nat * nat).
Hypothesis Dr : forall i j t u, nth_error s i = Some t -> nth_error s j = Some u -> i <> j ->
  exists b, m_coplanar_check_two_triangles (@Bmath la) (draws i j) t u = Ok b /\ (b = true <-> coplanar3 (map pp (t ++ u))).

Lemma m_groups : exists r, get_sets_of_coplanar_triangles (fun i j => m_coplanar_check_two_triangles (@Bmath la) (draws i j)) s = Ok r /\
    (forall g, In g r -> g <> [] /\ NoDup g /\ incl g s /\ forall f f', In f g -> (In f' g <-> In f' s /\ coplanar3 (map pp (f ++ f')))) /\ (forall f, In f s -> exists g, In g r /\ In f g).
Proof.
  apply (groups_ok _ s (fun t u => coplanar3 (map pp (t ++ u)))); [exact Ne|exact ND| |exact (skin_copl o s To NF Sf)| |].
  - intros i j t u Et Eu. destruct (Nat.eq_dec i j) as [<-|N]; [|exact (Dr i j t u Et Eu N)]. assert (u = t) by congruence. subst u. pose proof (nth_error_In _ _ Et) as Ht.
    exists true. split; [|split; [intros _; exact (skin_copl o s To NF Sf t Ht)|reflexivity]]. apply m_copl_self; [|rewrite Forall_forall in Gs; exact (Gs t Ht)]. pose proof (skin_len o s To NF Sf) as L. rewrite Forall_forall in L. exact (L t Ht).
  - intros t u C. apply coplanar_app in C as (n & d & Nn & P1 & P2). apply coplanar_app. exists n, d. auto.
  - intros t u v Ht Hu Hv C1 C2. apply coplanar_app in C1 as (n & d & Nn & P1 & P2). apply coplanar_app. exists n, d. split; [exact Nn|]. split; [exact P1|]. exact (skin_same_plane o s To NF Sf u v n d Hu Nn P2 C2).
Qed.
Lemma m_cleaner : exists r, m_surface_cleaner (@Bmath la) draws s = Ok r /\ (forall x, drawn3 r x <-> on_border s x) /\
    Forall (seg3 (concat s)) r /\ r <> [] /\
    forall i j e f p q p' s, i <> j -> nth_error r i = Some e -> nth_error r j = Some f -> ends e p q -> ends f p' s -> pp p = pp p' ->
      ~ hull [pp q; pp s] (pp p).
Proof.
  destruct m_groups as (gs & Eg & Hg & Cov).
  assert (Gg : grids 6 q B (concat s)).
  { apply Forall_forall. intros v Hv. apply in_concat in Hv as (t & Ht & Hv). pose proof (proj1 (Forall_forall _ _) Gs t Ht) as G. unfold grids in G. rewrite Forall_forall in G. apply G, Hv. }
  pose proof (grids_goods _ _ _ Gg) as Gv.
  (* the borders *)
  assert (Pl : forall g, In g gs -> exists n d, n <> o3 /\ forall h, In h g <-> In h s /\ in_plane n d h).
  { intros g Ig. destruct (Hg g Ig) as (Neg & _ & Is & _). destruct g as [|f g']; [contradiction|]. destruct (skin_plane o s To NF Sf f (Is f (or_introl eq_refl))) as (n & d & Nn & P).
    exists n, d. split; [exact Nn|]. exact (group_flat o s To NF Sf gs _ f n d Hg Ig (or_introl eq_refl) Nn P). }
  destruct (mapM_exists (B := obj4) (fun g => b <- m_gen_border_edges_of_coplanar_triangles (@Bmath la) g ;; match b with [] => Raise ValueError | _ => Ok b end)%res
    (fun g b => b <> [] /\ incl b (edges_of 3 g) /\ forall x, drawn3 b x <-> exists p q, lone (map (map pp) g) p q /\ hull [p; q] x) gs) as (bs & Ebs & Fbs).
  { intros g Ig. destruct (Hg g Ig) as (Neg & Ng & Is & _). destruct (Pl g Ig) as (n & d & Nn & P).
    destruct (m_group_border g Neg Ng Is) as (b & Eb & Nb & Ib & Db); [exists n, d; split; [exact Nn|]; intros f If; apply P, If|].
    exists b. split; [rewrite Eb; cbn [bind]; clear - Nb; destruct b; [contradiction|reflexivity]|]. auto. }
  set (bb := concat bs) in *.
  assert (Ib : forall e, In e bb -> In e (edges_of 3 s) /\ seg3 (concat s) e).
  { intros e He. apply in_concat in He as (b & Hb & He). destruct (F2_in_r _ _ _ _ Fbs Hb) as (g & Ig & _ & I & _). destruct (Hg g Ig) as (_ & _ & Is & _). exact (skin_edge o s To NF Sf g e Is (I e He)). }
  assert (Db : forall x, drawn3 bb x <-> exists g, In g gs /\ exists p q, lone (map (map pp) g) p q /\ hull [p; q] x).
  { intros x. split.
    - intros (e & He & Hx). apply in_concat in He as (b & Hb & He). destruct (F2_in_r _ _ _ _ Fbs Hb) as (g & Ig & _ & _ & D). exists g. split; [exact Ig|]. apply D. exists e. auto.
    - intros (g & Ig & L). destruct (F2_in_l _ _ _ _ Fbs Ig) as (b & Hb & _ & _ & D). destruct (proj2 (D x) L) as (e & He & Hx). exists e. split; [apply in_concat; eauto|exact Hx]. }
  assert (Nb : bb <> []).
  { destruct (nonempty_in s Ne) as (f & If). destruct (Cov f If) as (g & Ig & _). destruct (F2_in_l _ _ _ _ Fbs Ig) as (b & Hb & Nb & _). intros E. destruct (nonempty_in b Nb) as (e & Ie).
    assert (In e bb) by (apply in_concat; exists b; split; [exact Hb|exact Ie]). rewrite E in H. destruct H. }
  (* border of the flat parts *)
  assert (Fl : forall g n d y, In g gs -> (forall h, In h g <-> In h s /\ in_plane n d h) -> (flat_part s n d y <-> reg (map (map pp) g) y)).
  { intros g n d y Ig P. unfold flat_part, reg. split.
    - intros (f & If & Pf & Hy). exists (map pp f). split; [apply in_map, P; split; assumption|exact Hy].
    - intros (t & Ht & Hy). apply in_map_iff in Ht as (f & <- & If). apply P in If as (If & Pf). exists f. auto. }
  assert (Bd : forall g n d, In g gs -> n <> o3 -> (forall h, In h g <-> In h s /\ in_plane n d h) -> forall x, boundary_in n d (flat_part s n d) x <-> exists p q, lone (map (map pp) g) p q /\ hull [p; q] x).
  { intros g n d Ig Nn P x. destruct (Hg g Ig) as (_ & Ng & Is & _).
    rewrite <- (plane_frontier n d Nn (map (map pp) g)).
    - unfold boundary_in. split; intros (Hx & K); (split; [exact Hx|]); intros eps Pe; destruct (K eps Pe) as ((y & A1 & A2 & A3) & z & B1 & B2 & B3); (split; [exists y; split; [exact A1|]; split; [apply (Fl g n d y Ig P); exact A2|exact A3]|exists z; split; [exact B1|]; split; [rewrite (Fl g n d z Ig P) in *; exact B2|exact B3]]).
    - apply Forall_map, Forall_forall. intros f If. apply P in If as (If & Pf). exact (skin_tri_in o s To NF Sf f n d If Pf).
    - exact (skin_ee o s To NF FF Sf g Ng Is). }
  assert (OB : forall x, on_border s x <-> exists g, In g gs /\ exists p q, lone (map (map pp) g) p q /\ hull [p; q] x).
  { intros x. split.
    - intros (n & d & Nn & Bx). pose proof Bx as (_ & K). destruct (K 1 Rlt_0_1) as ((y & _ & (f & If & Pf & _) & _) & _). destruct (Cov f If) as (g & Ig & Ifg). exists g. split; [exact Ig|].
      apply (Bd g n d Ig Nn (group_flat o s To NF Sf gs g f n d Hg Ig Ifg Nn Pf)), Bx.
    - intros (g & Ig & L). destruct (Pl g Ig) as (n & d & Nn & P). exists n, d. split; [exact Nn|]. apply (Bd g n d Ig Nn P), L. }
  (* the edges *)
  destruct (m_unique_list bb (concat s) O) as (es & Ees & I & U).
  { intros e He. destruct (Ib e He) as (_ & Se). pose proof (seg_grids _ Gg e Se) as Ge. destruct Se as (u & v & -> & Hu & Hv & N). split; [reflexivity|]. split; [exact Ge|].
    split; [intros x [<-|[<-|[]]]; assumption|]. apply pp_NoDup. cbn [map]. constructor; [intros [H|[]]; congruence|]. constructor; [intros []|constructor]. }
  { intros e g He Hgg. apply m_sep; [apply Ib, He|apply Ib, Hgg]. }
  assert (Ese : m_surface_edges (@Bmath la) draws s = Ok es).
  { unfold m_surface_edges. rewrite Eg. cbn [bind]. unfold m_all_borders. rewrite Ebs. cbn [bind]. exact Ees. }
  assert (De : forall x, drawn3 es x <-> drawn3 bb x).
  { intros x. split; [intros (e & He & Hx); exists e; split; [apply I, He|exact Hx]|].
    intros (e & He & Hx). destruct (U e He) as (u & Iu & Su). exists u. split; [exact Iu|].
    apply (hull_same (map pp e)); [|exact Hx]. apply pp_same. intros y. symmetry. apply Su. }
  assert (Fe : Forall (seg3 (concat s)) es) by (apply Forall_forall; intros e He; apply Ib, I, He).
  (* merging *)
  pose proof (fun e f a => m_merge_seg (concat s) Gg Sh e f a) as MS.
  pose proof (fun e f p a p' z => m_merge_none (concat s) Gg Sh e f p a p' z) as MN.
  destruct (merge_segments_spec (m_two_segment_into_one (@Bmath la)) es) as (out & _ & St & Sp).
  destruct (merge_loop_total (m_two_segment_into_one (@Bmath la)) (S (length es)) es (seq 0 (length es)) (seg3 (concat s)) (ok_seq es)) as (r & Er); [rewrite seq_length; lia| |exact Fe|].
  { intros e f Qe Qf. destruct (seg3_goods _ e Gv Qe) as (L1 & G1). destruct (seg3_goods _ f Gv Qf) as (L2 & G2). destruct (two_segment_spec (@Bmath la) e f L1 L2 G1 G2) as (m & Em & _).
    assert (Em' : m_two_segment_into_one (@Bmath la) e f = Ok m) by exact (eq_trans (two_segment_eq e f L1 L2 (seg_grids _ Gg e Qe) (seg_grids _ Gg f Qf)) Em).
    exists m. split; [exact Em'|]. intros a ->. exact (proj1 (MS e f a Qe Qf Em')). }
  assert (Eout : out = Ok (Some r)) by (rewrite <- (St (S (length es))) by lia; exact Er).
  destruct (Sp r Eout) as (M & Fin).
  destruct (merged_drawn3 _ (seg3 (concat s)) es r (fun e f a Qe Qf Em => MS e f a Qe Qf Em) M Fe) as (Fr & Drw).
  exists r. split; [unfold m_surface_cleaner; rewrite Ese; cbn [bind]; rewrite (St (S (length es))) by lia; rewrite Eout; reflexivity|].
  split; [intros x; rewrite Drw, De, Db, OB; tauto|]. split; [exact Fr|]. split.
  { intros ->. destruct bb as [|b0 b']; [contradiction|]. destruct (Ib b0 (or_introl eq_refl)) as (_ & u & v & -> & _).
    destruct (proj2 (Drw (pp u))) as (e & [] & _). apply De. exists [u; v]. split; [left; reflexivity|]. apply hull_mem. left. reflexivity. }
  assert (W : forall i j e f p u p' z, (i < j)%nat -> nth_error r i = Some e -> nth_error r j = Some f -> ends e p u -> ends f p' z -> pp p = pp p' -> ~ hull [pp u; pp z] (pp p)).
  { intros i j e f p u p' z Hij Ei Ej E1 E2 Ep.
    rewrite Forall_forall in Fr. assert (Qe : seg3 (concat s) e) by (eapply Fr, nth_error_In; exact Ei). assert (Qf : seg3 (concat s) f) by (eapply Fr, nth_error_In; exact Ej).
    apply (MN e f p u p' z Qe Qf); try assumption.
    apply nth_error_split in Ej as (l1 & lb & -> & Lj). rewrite nth_error_app1 in Ei by lia. apply nth_error_split in Ei as (l0 & l2 & -> & _). apply (Fin l0 e l2 f lb). rewrite <- app_assoc. reflexivity. }
  intros i j e f p u p' z Nij Ei Ej E1 E2 Ep Hp. destruct (lt_dec i j) as [L|L]; [exact (W i j e f p u p' z L Ei Ej E1 E2 Ep Hp)|].
  apply (W j i f e p' z p u ltac:(lia) Ej Ei E2 E1); [congruence|]. rewrite <- Ep. apply hull_swap, Hp.
Qed.
End Border.
End Machine.

(** The surface in binary64 consists of the same triangles as in exact arithmetic. *)
Lemma m_surface_perm (la : linalg) (q B : Z) (o : obj4) :
  (0 <= B)%Z -> (0 < q <= 90000000)%Z -> (4 * B * q <= 10^15)%Z -> (3 * B <= 100000 * q)%Z ->
  o <> [] -> Forall (fun t => length t = 4%nat /\ grids 6 q B t) o -> one_name (concat o) ->
  (forall t, In t o -> pvol t <> 0) -> face_to_face (map (map pp) o) ->
  (forall f g, In f (all_faces o) -> In g (all_faces o) -> pcentre f = pcentre g \/ told_apart (pcentre f) (pcentre g)) ->
  solid o /\ exists r0 r, generator_surface_1 Rnum o = Ok r0 /\ m_generator_surface_1 (@Bmath la) o = Ok r /\ Permutation r0 r.
Proof.
  intros PB Hq H1 H2 Ne F O NF FF Ap. pose proof (grid_tets _ _ _ F) as T. rewrite (proj1 (L_C113_surface (@Bmath la) q B o PB Hq H1 F)).
  assert (Ap' : forall f g, In f (all_faces o) -> In g (all_faces o) -> pcentre f = pcentre g \/ apart (pcentre f) (pcentre g)).
  { intros f g Hf Hg. destruct (Ap f g Hf Hg) as [E|A]; [left; exact E|right; apply told_apart_apart, A]. }
  assert (S : solid o) by (split; [exact Ne|]; split; [exact T|]; split; [exact NF|]; split; [exact FF|exact Ap']).
  split; [exact S|]. destruct (surface_boundary o S) as (r0 & E0 & _). exists r0.
  destruct o as [|t [|t2 o']]; [congruence| |].
  - pose proof (Forall_inv T) as [L _]. destruct t as [|a [|b [|c [|d [|]]]]]; try discriminate L. rewrite L_C24_single in E0. injection E0 as <-.
    exists [[a;b;c]; [a;b;d]; [a;c;d]; [b;c;d]]. split; [apply L_C24_single|]. split; [apply L_C24_single|apply Permutation_refl].
  - set (o := t :: t2 :: o') in *. assert (Lo : (2 <= length o)%nat) by (cbn; lia).
    assert (ND4 : Forall (fun t => NoDup (map ppoint t)) o) by (apply Forall_forall; intros s Hs; apply pp_NoDup, (nodup4 _ T NF s Hs)).
    assert (Sep : forall f g, In f (all_faces o) -> In g (all_faces o) -> Permutation f g \/ told_apart (pcentre f) (pcentre g)).
    { intros f g Hf Hg. destruct (Ap f g Hf Hg) as [E|A]; [left|right; exact A]. destruct (face_from o f T Hf) as (s & Hs & If). destruct (face_from o g T Hg) as (s' & Hs' & Ig).
      apply (named_perm (concat o) f g O); [exact (in_vs o s f Hs If)|exact (in_vs o s' g Hs' Ig)|exact (faces_nodup o T ND4 f Hf)|exact (faces_nodup o T ND4 g Hg)|exact (centre_same o T NF FF f g Hf Hg E)]. }
    pose proof (grid_faces _ _ _ F) as GF.
    destruct (L_C24_surface_any (@Bmath la) o T Lo) as (is & r & E & Fr & ND & I).
    + exact (es_same q B (all_faces o) PB Hq H1 H2 GF Sep).
    + exact (es_close q B (all_faces o) PB Hq H1 H2 GF Sep).
    + exact (es_ordered q B (all_faces o) PB Hq H1 H2 GF).
    + destruct (L_C24_surface o T Lo Ap') as (is' & r' & E' & Fr' & ND' & I'). rewrite E0 in E'. injection E' as <-.
      exists r. split; [exact E0|]. split; [exact E|]. apply (pick_perm (all_faces o) is' is r0 r Fr' Fr). apply NoDup_Permutation; [exact ND'|exact ND|]. intros i. rewrite (I i), (I' i). tauto.
Qed.
Lemma perm_border s s' x : Permutation s s' -> on_border s x -> on_border s' x.
Proof.
  intros P (n & d & Nn & Dx & Bd). assert (K : forall y, flat_part s n d y <-> flat_part s' n d y).
  { intros y. split; intros (f & If & H); exists f; (split; [|exact H]); (eapply Permutation_in; [|exact If]); [exact P|apply Permutation_sym, P]. }
  exists n, d. split; [exact Nn|]. split; [exact Dx|]. intros eps He. destruct (Bd eps He) as ((y & A1 & A2 & A3) & z & B1 & B2 & B3).
  split; [exists y; split; [exact A1|]; split; [apply K, A2|exact A3]|exists z; split; [exact B1|]; split; [intros C; apply B2, K, C|exact B3]].
Qed.

Lemma m_borders (la : linalg) (LA : linalg_ok la) (q B : Z) draws (o s : obj4) :
  (0 <= B)%Z -> (0 < q <= 90000000)%Z -> (4 * B * q <= 10^15)%Z -> (3 * B <= 100 * q)%Z ->
  o <> [] -> Forall (fun t => length t = 4%nat /\ grids 6 q B t) o -> one_name (concat o) ->
  (forall t, In t o -> pvol t <> 0) -> face_to_face (map (map pp) o) ->
  (forall f g, In f (all_faces o) -> In g (all_faces o) -> pcentre f = pcentre g \/ told_apart (pcentre f) (pcentre g)) ->
  (forall e g, In e (edges_of 3 (all_faces o)) -> In g (edges_of 3 (all_faces o)) -> pcentre e = pcentre g \/ told_apart (pcentre e) (pcentre g)) ->
  sharp3 (concat o) -> m_generator_surface_1 (@Bmath la) o = Ok s ->
  (forall i j t u, nth_error s i = Some t -> nth_error s j = Some u -> i <> j ->
     exists b, m_coplanar_check_two_triangles (@Bmath la) (draws i j) t u = Ok b /\ (b = true <-> coplanar3 (map pp (t ++ u)))) ->
  solid o /\ (exists s0, generator_surface_1 Rnum o = Ok s0 /\ Permutation s0 s) /\ incl (concat s) (concat o) /\ (forall x, skin s x <-> boundary3 (region o) x) /\
  exists r, m_generate_border_edges (@Bmath la) draws o = Ok r /\ (forall x, drawn3 r x <-> on_border s x) /\ Forall (seg3 (concat s)) r /\ r <> [] /\
    forall i j e f p q p' s, i <> j -> nth_error r i = Some e -> nth_error r j = Some f -> ends e p q -> ends f p' s -> pp p = pp p' -> ~ hull [pp q; pp s] (pp p).
Proof.
  intros PB Hq H1 H2 Ne F O NF FF Ap Hmid Sh Es Lu.
  destruct (m_surface_perm la q B o PB Hq H1 ltac:(lia) Ne F O NF FF Ap) as (So & s0 & s' & E0 & Es' & P). assert (X : Ok s = Ok s') by exact (eq_trans (eq_sym Es) Es'). injection X as <-.
  pose proof So as (_ & To & _). destruct (surface_boundary o So) as (s0' & E0' & ND0 & Sf0 & Sk0). rewrite E0 in E0'. injection E0' as <-.
  assert (Sf : forall f, In f s -> In f (all_faces o) /\ once f (all_faces o)) by (intros f Hf; apply Sf0; eapply Permutation_in; [apply Permutation_sym, P|exact Hf]).
  assert (Sk : forall x, skin s x <-> boundary3 (region o) x).
  { intros x. rewrite <- (Sk0 x). split; intros (f & If & Hx); exists f; (split; [|exact Hx]); (eapply Permutation_in; [|exact If]); [apply Permutation_sym, P|exact P]. }
  assert (I : incl (concat s) (concat o)) by (apply skin_vertices; [exact To|intros f Hf; apply Sf, Hf]).
  assert (Ie : forall e, In e (edges_of 3 s) -> In e (edges_of 3 (all_faces o))).
  { intros e He. change (In e (concat (map tri_edges s))) in He. change (In e (concat (map tri_edges (all_faces o)))). apply in_concat in He as (l & Hl & He). apply in_map_iff in Hl as (t & <- & Ht).
    apply in_concat. exists (tri_edges t). split; [apply in_map, Sf, Ht|exact He]. }
  assert (Ns : s <> []).
  { destruct (solid_point o Ne To) as (v & Hv). destruct (region_between o To NF FF (pp v) (vertex_region o v Hv)) as (b & _ & Bb & _). apply Sk in Bb as (f & If & _). intros ->. destruct If. }
  destruct (m_cleaner (la := la) (LA := LA) q B PB Hq H1 H2 o s To NF FF (Permutation_NoDup P ND0) Sf) with (draws := draws) as (r & Er & D & Fr & Nr & Irr).
  - apply Forall_forall. intros f Hf. destruct (face_from o f To (proj1 (Sf f Hf))) as (t & Ht & If). rewrite Forall_forall in F. eapply grids_incl; [apply F, Ht|exact If].
  - intros u v Hu Hv. apply O; apply I; assumption.
  - intros e g He Hg. apply Hmid; apply Ie; assumption.
  - intros p z w Hp Hz Hw. apply Sh; apply I; assumption.
  - exact Ns.
  - exact Lu.
  - split; [exact So|]. split; [exists s0; split; [exact E0|exact P]|]. split; [exact I|]. split; [exact Sk|]. exists r. split; [|split; [exact D|split; [exact Fr|split; [exact Nr|exact Irr]]]].
    unfold m_generate_border_edges. rewrite Es. exact Er.
Qed.

(** C119: a face-to-face solid as in C115 whose edges have midpoints that are equal or told
    apart and no vertex of which is nearly on a line with two others; s are the triangles of
    its surface, and the coplanarity check answers right for every two of them.  Computed in
    int64 and binary64 with any LAPACK/BLAS within its documented error, the segments
    returned by generate_border_edges() cover exactly the borders of the flat parts of the
    surface. *)
Lemma L_C119_edges : forall (la : linalg), linalg_ok la -> forall (q B : Z) draws (o s : obj4),
  (0 <= B)%Z -> (0 < q <= 90000000)%Z -> (4 * B * q <= 10^15)%Z -> (3 * B <= 100 * q)%Z ->
  o <> [] -> Forall (fun t => length t = 4%nat /\ grids 6 q B t) o -> one_name (concat o) ->
  (forall t, In t o -> pvol t <> 0) -> face_to_face (map (map pp) o) ->
  (forall f g, In f (all_faces o) -> In g (all_faces o) -> pcentre f = pcentre g \/ told_apart (pcentre f) (pcentre g)) ->
  (forall e g, In e (edges_of 3 (all_faces o)) -> In g (edges_of 3 (all_faces o)) -> pcentre e = pcentre g \/ told_apart (pcentre e) (pcentre g)) ->
  sharp3 (concat o) -> m_generator_surface_1 (@Bmath la) o = Ok s ->
  (forall i j t u, nth_error s i = Some t -> nth_error s j = Some u -> i <> j ->
     exists b, m_coplanar_check_two_triangles (@Bmath la) (draws i j) t u = Ok b /\ (b = true <-> coplanar3 (map pp (t ++ u)))) ->
  exists r, m_generate_border_edges (@Bmath la) draws o = Ok r /\ forall x, drawn3 r x <-> on_border s x.
Proof.
  intros la LA q B draws o s PB Hq H1 H2 Ne F O NF FF Ap Hm Sh Es Lu. destruct (m_borders la LA q B draws o s PB Hq H1 H2 Ne F O NF FF Ap Hm Sh Es Lu) as (_ & _ & _ & _ & r & E & D & _). exists r. split; [exact E|exact D].
Qed.
(** Every point drawn lies on the boundary of the solid, and not where the boundary is flat;
    the ends of the segments are different vertices of the solid, and no two segments
    continue one another in a straight line. *)
Lemma L_C119_segments : forall (la : linalg), linalg_ok la -> forall (q B : Z) draws (o s r : obj4),
  (0 <= B)%Z -> (0 < q <= 90000000)%Z -> (4 * B * q <= 10^15)%Z -> (3 * B <= 100 * q)%Z ->
  o <> [] -> Forall (fun t => length t = 4%nat /\ grids 6 q B t) o -> one_name (concat o) ->
  (forall t, In t o -> pvol t <> 0) -> face_to_face (map (map pp) o) ->
  (forall f g, In f (all_faces o) -> In g (all_faces o) -> pcentre f = pcentre g \/ told_apart (pcentre f) (pcentre g)) ->
  (forall e g, In e (edges_of 3 (all_faces o)) -> In g (edges_of 3 (all_faces o)) -> pcentre e = pcentre g \/ told_apart (pcentre e) (pcentre g)) ->
  sharp3 (concat o) -> m_generator_surface_1 (@Bmath la) o = Ok s ->
  (forall i j t u, nth_error s i = Some t -> nth_error s j = Some u -> i <> j ->
     exists b, m_coplanar_check_two_triangles (@Bmath la) (draws i j) t u = Ok b /\ (b = true <-> coplanar3 (map pp (t ++ u)))) ->
  m_generate_border_edges (@Bmath la) draws o = Ok r ->
  r <> [] /\ (forall x, drawn3 r x -> boundary3 (region o) x /\ ~ flat_at (region o) x) /\
  (forall e, In e r -> exists u v, e = [u; v] /\ In u (concat o) /\ In v (concat o) /\ pp u <> pp v) /\
  forall i j e f p a p' z, i <> j -> nth_error r i = Some e -> nth_error r j = Some f -> ends e p a -> ends f p' z -> pp p = pp p' ->
    ~ hull [pp a; pp z] (pp p).
Proof.
  intros la LA q B draws o s r PB Hq H1 H2 Ne F O NF FF Ap Hm Sh Es Lu E. destruct (m_borders la LA q B draws o s PB Hq H1 H2 Ne F O NF FF Ap Hm Sh Es Lu) as (So & (s0 & E0 & P) & I & Sk & r' & E' & D & Fr & Nr & Irr).
  assert (X : Ok r = Ok r') by exact (eq_trans (eq_sym E) E'). injection X as <-. split; [exact Nr|]. split; [|split; [|exact Irr]].
  - intros x Dx. apply D in Dx. split; [|intros Fl; exact (flat_no_border o s0 x So E0 Fl (perm_border s s0 x (Permutation_sym P) Dx))].
    destruct Dx as (n & d & _ & _ & Bd). intros eps He. destruct (Bd (eps / 2) ltac:(lra)) as ((y & _ & (f & If & _ & Hy) & Dy) & _).
    assert (By : boundary3 (region o) y) by (apply Sk; exists f; auto). destruct (By (eps / 2) ltac:(lra)) as ((z & Rz & Dz) & (w & Nw & Dw)). split.
    + exists z. split; [exact Rz|]. pose proof (IntersectLemmas.dist3_triangle z y x). lra.
    + exists w. split; [exact Nw|]. pose proof (IntersectLemmas.dist3_triangle w y x). lra.
  - intros e He. rewrite Forall_forall in Fr. destruct (Fr e He) as (u & v & -> & Iu & Iv & N). exists u, v. auto.
Qed.
(** The check answers right for two triangles of moderate size, any four vertices of which
    lie in a plane or clearly not, as soon as one sample spans a triangle that is not tiny. *)
Lemma L_C119_samples : forall (la : linalg), linalg_ok la -> forall (q B : Z) (A D : R) draws t u vs,
  (0 <= B)%Z -> (0 < q <= 90000000)%Z -> (B * q <= 10^15)%Z -> grids 6 q B (t ++ u) ->
  Float.tame A D (t ++ u) -> (A + D) * D ^ 2 <= 250 -> very_clear_planes (t ++ u) ->
  m_remove_doubling_in_perp_space (A3 (t ++ u)) = Ok vs -> Forall (valid_draw (length vs)) draws ->
  (length vs <= 3)%nat \/ (exists i j k a b c, In (i, j, k) draws /\ nth_error vs i = Some a /\ nth_error vs j = Some b /\ nth_error vs k = Some c /\ wide (pp a) (pp b) (pp c)) ->
  exists b, m_coplanar_check_two_triangles (@Bmath la) draws t u = Ok b /\ (b = true <-> coplanar3 (map pp (t ++ u))).
Proof. intros la LA q B A D draws t u vs. exact (CoplanarFloat.copl_samples_B q B A D draws t u vs). Qed.

(** The two tetrahedra of [cut]. *)
Lemma cut_grid : Forall (fun t => length t = 4%nat /\ grids 6 1 2 t) cut.
Proof.
  unfold cut, grids, at3.
  repeat (apply Forall_cons; [split; [reflexivity|]; repeat (apply Forall_cons; [split; [reflexivity|repeat (apply Forall_cons; [split; [lia|exists 1%Z; cbn; lia]|]); apply Forall_nil]|]); apply Forall_nil|]). apply Forall_nil.
Qed.
Lemma cut_name : one_name (concat cut).
Proof.
  pose proof TAU_bounds as TB. intros u v Hu Hv E. cbn [cut concat app In] in Hu, Hv.
  repeat (destruct Hu as [<-|Hu]; [|]); try (destruct Hu); repeat (destruct Hv as [<-|Hv]; [|]); try (destruct Hv); try reflexivity;
  exfalso; rewrite !P_Convex.ppoint_at3 in E by lia; injection E; intros; lra.
Qed.
Definition cut_faces : obj4 := let a := at3 1 1 0 0 in let b := at3 1 0 1 0 in let c := at3 1 0 0 1 in let d := at3 1 0 0 0 in let e := at3 1 2 0 0 in
  [[a;b;c]; [a;b;d]; [a;c;d]; [b;c;d]; [a;b;e]; [a;c;e]; [b;c;e]].
Definition cut_edges : obj4 := let a := at3 1 1 0 0 in let b := at3 1 0 1 0 in let c := at3 1 0 0 1 in let d := at3 1 0 0 0 in let e := at3 1 2 0 0 in
  [[a;b]; [a;c]; [b;c]; [a;d]; [b;d]; [c;d]; [a;e]; [b;e]; [c;e]].
Ltac told_cut := unfold cut_faces, cut_edges, pcentre; cbv zeta;
  repeat (apply FOP_cons; [repeat (apply Forall_cons;
    [right; cbn [map]; rewrite !P_Convex.ppoint_at3 by lia; unfold mean, zerov; cbn [vsum vadd vscale map length repeat INR]; cbn; first [told1 0%nat | told1 1%nat | told1 2%nat]|]); apply Forall_nil|]); apply FOP_nil.
Lemma cut_face_in f : In f (all_faces cut) -> In f cut_faces.
Proof. unfold cut, all_faces, cut_faces. cbn [map tet_faces concat app In]. cbv zeta. tauto. Qed.
Lemma cut_edge_in e : In e (edges_of 3 (all_faces cut)) -> In e cut_edges.
Proof. unfold cut, all_faces, cut_edges. cbn [map tet_faces edges_of Nat.eqb concat app tri_edges In]. cbv zeta. intuition. Qed.
Lemma cut_centres f g : In f (all_faces cut) -> In g (all_faces cut) -> pcentre f = pcentre g \/ told_apart (pcentre f) (pcentre g).
Proof.
  pose proof TAU_bounds as TB. intros Hf Hg. apply (told_pairs (fun f g => pcentre f = pcentre g) cut_faces); [reflexivity|congruence| |apply cut_face_in, Hf|apply cut_face_in, Hg]. told_cut.
Qed.
Lemma cut_mids e g : In e (edges_of 3 (all_faces cut)) -> In g (edges_of 3 (all_faces cut)) -> pcentre e = pcentre g \/ told_apart (pcentre e) (pcentre g).
Proof.
  pose proof TAU_bounds as TB. intros Hf Hg. apply (told_pairs (fun f g => pcentre f = pcentre g) cut_edges); [reflexivity|congruence| |apply cut_edge_in, Hf|apply cut_edge_in, Hg]. told_cut.
Qed.
Lemma cut_tame : Float.tame 2 5 (concat cut).
Proof.
  split; [lra|]. split; [lra|]. split; [lra|]. split.
  - unfold cut, at3. cbn [concat app]. repeat (apply Forall_cons; [split; [reflexivity|]; repeat (apply Forall_cons; [cbn; repeat split; try lia; unfold Rabs; repeat destruct (Rcase_abs _); lra|]); apply Forall_nil|]). apply Forall_nil.
  - pose proof TAU_bounds. intros p z Hp Hz. apply in_map_iff in Hp as (u & <- & Hu). apply in_map_iff in Hz as (v & <- & Hv).
    destruct (P_Edges.cut_points u Hu) as (a & Ia & ->). destruct (P_Edges.cut_points v Hv) as (b & Ib & ->). clear u v Hu Hv. unfold P_Edges.cc in *. cbn [In] in Ia, Ib.
    repeat (destruct Ia as [<-|Ia]; [|]); try (destruct Ia); repeat (destruct Ib as [<-|Ib]; [|]); try (destruct Ib); unfold Float.apart_le, P_Convex.ax; cbn; (split; [|split]); apply Rabs_le; lra.
Qed.
Lemma cut_very_clear : very_clear_planes (concat cut).
Proof.
  assert (Z3 : forall v, In v (concat cut) -> exists x y z, pp v = P_Convex.ax (IZR x, IZR y, IZR z)).
  { intros v Hv. destruct (P_Edges.cut_points v Hv) as (c & Ic & ->). unfold P_Edges.cc in Ic. cbn [In] in Ic. destruct Ic as [<-|[<-|[<-|[<-|[<-|[]]]]]]; repeat eexists. }
  intros a b c d Ia Ib Ic Id. destruct (Z3 a Ia) as (a0 & a1 & a2 & ->). destruct (Z3 b Ib) as (b0 & b1 & b2 & ->). destruct (Z3 c Ic) as (c0 & c1 & c2 & ->). destruct (Z3 d Id) as (d0 & d1 & d2 & ->).
  unfold flat4. rewrite P_Convex.ax_triple. cbn.
  match goal with |- _ * ?e = 0 \/ _ => assert (Hz : exists n, e = IZR n) by (eexists; repeat first [rewrite <- minus_IZR|rewrite <- mult_IZR|rewrite <- plus_IZR]; reflexivity) end.
  destruct Hz as (n & ->). destruct (Z.eq_dec n 0) as [->|N]; [left; ring|right].
  assert (1 <= Rabs (IZR n)) by (rewrite <- abs_IZR; apply IZR_le; lia). assert (DB := P_Convex.det_big). rewrite Rabs_mult, Rabs_Ropp, (Rabs_right (TAU * (TAU * TAU) + 1)) by lra. nra.
Qed.
Lemma wide_ax a b c x y z : cross3 (sub3 b a) (sub3 c a) = (x, y, z) ->
  (2/1000000 <= Rabs (y - (TAU + 1) * x - TAU * z) \/ 2/1000000 <= Rabs (x + TAU * y - (TAU + 1) * z) \/ 2/1000000 <= Rabs (- TAU * x - (TAU + 1) * y - z)) -> wide (P_Convex.ax a) (P_Convex.ax b) (P_Convex.ax c).
Proof.
  intros E H. unfold wide. replace (cross3 (sub3 (P_Convex.ax b) (P_Convex.ax a)) (sub3 (P_Convex.ax c) (P_Convex.ax a))) with (y - (TAU + 1) * x - TAU * z, x + TAU * y - (TAU + 1) * z, - TAU * x - (TAU + 1) * y - z); [exact H|].
  assert (TS := TAU_sq). destruct a as [[? ?] ?], b as [[? ?] ?], c as [[? ?] ?]. cbn in *. injection E as <- <- <-. apply f_equal2; [apply f_equal2|]; ring [TS].
Qed.
Ltac wid := eapply wide_ax; [reflexivity|];
  first [left; cbn; apply P_Overlap.Rabs_ge; lra|right; left; cbn; apply P_Overlap.Rabs_ge; lra|right; right; cbn; apply P_Overlap.Rabs_ge; lra].
(** Of four different vertices, the first two make a wide triangle with the third or with the
    fourth: only three of the five vertices are on a line. *)
Lemma cc_line a b c : In a P_Edges.cc -> In b P_Edges.cc -> In c P_Edges.cc -> a <> b -> a <> c -> b <> c ->
  wide (P_Convex.ax a) (P_Convex.ax b) (P_Convex.ax c) \/ (exists x y z, a = (x, 0, 0) /\ b = (y, 0, 0) /\ c = (z, 0, 0)).
Proof.
  intros Ia Ib Ic N1 N2 N3. pose proof TAU_bounds as TB. unfold P_Edges.cc in *. cbn [In] in Ia, Ib, Ic.
  repeat (destruct Ia as [<-|Ia]; [|]); try (destruct Ia); repeat (destruct Ib as [<-|Ib]; [|]); try (destruct Ib); try (destruct (N1 eq_refl));
  repeat (destruct Ic as [<-|Ic]; [|]); try (destruct Ic); try (destruct (N2 eq_refl)); try (destruct (N3 eq_refl)); clear N1 N2 N3;
  first [right; do 3 eexists; split; [reflexivity|]; split; reflexivity|left; wid].
Qed.
Lemma cc_axis a : In a P_Edges.cc -> forall x, a = (x, 0, 0) -> In a [(0,0,0); (1,0,0); (2,0,0)].
Proof. unfold P_Edges.cc. cbn [In]. intros [<-|[<-|[<-|[<-|[<-|[]]]]]] x E; injection E; intros; subst; try tauto; exfalso; lra. Qed.
Lemma cc_four a b c d : In a P_Edges.cc -> In b P_Edges.cc -> In c P_Edges.cc -> In d P_Edges.cc -> NoDup [a; b; c; d] ->
  wide (P_Convex.ax a) (P_Convex.ax b) (P_Convex.ax c) \/ wide (P_Convex.ax a) (P_Convex.ax b) (P_Convex.ax d).
Proof.
  intros Ia Ib Ic Id N. pose proof N as N0.
  apply NoDup_cons_iff in N as [Na N]. apply NoDup_cons_iff in N as [Nb N]. apply NoDup_cons_iff in N as [Nc _]. cbn [In] in Na, Nb, Nc.
  destruct (cc_line a b c Ia Ib Ic) as [W|(x & y & z & Ea & Eb & Ec)]; [intros E; apply Na; auto|intros E; apply Na; auto|intros E; apply Nb; auto|left; exact W|].
  destruct (cc_line a b d Ia Ib Id) as [W|(x' & y' & w & _ & _ & Ed)]; [intros E; apply Na; auto|intros E; apply Na; auto|intros E; apply Nb; auto|right; exact W|].
  exfalso. assert (L : (length [a; b; c; d] <= length ([(0,0,0); (1,0,0); (2,0,0)]%R))%nat).
  { apply NoDup_incl_length; [exact N0|]. intros p [<-|[<-|[<-|[<-|[]]]]]; [exact (cc_axis a Ia x Ea)|exact (cc_axis b Ib y Eb)|exact (cc_axis c Ic z Ec)|exact (cc_axis d Id w Ed)]. }
  cbn in L. lia.
Qed.
Lemma cut_lucky_B t u : In t (all_faces cut) -> In u (all_faces cut) ->
  exists b, m_coplanar_check_two_triangles Bnum [(0,1,2); (0,1,3)]%nat t u = Ok b /\ (b = true <-> coplanar3 (map pp (t ++ u))).
Proof.
  intros It Iu. assert (Io : incl (t ++ u) (concat cut)).
  { pose proof P_Edges.cut_solid as (_ & To & _). intros v Hv. apply in_app_iff in Hv as [Hv|Hv]; [destruct (face_from cut t To It) as (w & Hw & I)|destruct (face_from cut u To Iu) as (w & Hw & I)]; exact (in_vs cut w _ Hw I v Hv). }
  assert (Cl : very_clear_planes (t ++ u)) by (intros a b c d Ia Ib Ic Id; apply cut_very_clear; apply Io; assumption).
  assert (G : grids 6 1 2 (t ++ u)).
  { apply Forall_forall. intros v Hv. apply Io in Hv. apply in_concat in Hv as (w & Hw & Hv). pose proof cut_grid as F. rewrite Forall_forall in F. destruct (F w Hw) as [_ Gw]. unfold grids in Gw. rewrite Forall_forall in Gw. exact (Gw v Hv). }
  pose proof (CoplanarFloat.tame_sub 2 5 _ _ cut_tame Io) as Tm.
  destruct (dedup_eq 1 2 (t ++ u) (A3 (t ++ u)) (or_introl eq_refl) ltac:(lia) ltac:(lia) ltac:(lia) ltac:(lia) G) as (vs & Ev & Ev2 & I & _).
  destruct (perp_space_spec (t ++ u) (grids_goods _ _ _ G)) as (vs' & Ev' & _ & N & _). rewrite Ev2 in Ev'. injection Ev' as <-.
  assert (K : (length vs <= 3)%nat \/ Forall (valid_draw (length vs)) [(0,1,2); (0,1,3)]%nat /\ exists a b c d l, vs = a :: b :: c :: d :: l).
  { destruct vs as [|a [|b [|c [|d l]]]]; [left; cbn; lia..|right]. split; [|exists a, b, c, d, l; reflexivity]. repeat (apply Forall_cons; [unfold valid_draw; cbn; lia|]). apply Forall_nil. }
  destruct K as [L|(Vd & a & b & c & d & l & ->)].
  - assert (Few : coplanar3 (map pp (t ++ u))).
    { destruct (few_coplanar (map pp vs)) as (n & e & Nn & Fp); [rewrite map_length; lia|]. exists n, e. split; [exact Nn|].
      destruct (perp_space_spec (t ++ u) (grids_goods _ _ _ G)) as (vs' & Ev' & _ & _ & SS). rewrite Ev2 in Ev'. injection Ev' as <-. apply pp_same in SS. rewrite Forall_forall in *. intros p Hp. apply Fp, SS, Hp. }
    exists true. split; [|split; [intros _; exact Few|reflexivity]]. unfold m_coplanar_check_two_triangles. rewrite Ev. cbn [bind].
    destruct (IntersectLemmas.internals_ok Bnum vs) as (ps & Ep & Lp).
    { apply Forall_forall. intros v Hv. apply I in Hv. exact (OutlineLemmas.good_len v (t ++ u) (grids_goods _ _ _ G) Hv). }
    unfold coplanar_check_numeric_tau. rewrite Ep. cbn [bind]. unfold coplanar_check_numeric. destruct (Nat.ltb_spec 3 (length ps)); [lia|reflexivity].
  - apply (L_C119_samples textbook textbook_ok 1 2 2 5 _ t u _ ltac:(lia) ltac:(lia) ltac:(lia) G Tm ltac:(lra) Cl Ev Vd). right.
    assert (Np : NoDup (map pp (a :: b :: c :: d :: l))).
    { clear - N. induction (a :: b :: c :: d :: l) as [|x m IH]; [constructor|]. cbn [map] in *. apply NoDup_cons_iff in N as [X N]. constructor; [|exact (IH N)].
      intros H. apply in_map_iff in H as (y & E & Iy). apply X. apply SolidLemmas.pp_iff in E. rewrite <- E. apply in_map. exact Iy. }
    clear N. rename Np into N. cbn [map] in N.
    destruct (P_Edges.cut_points a) as (a' & Ia & Ea); [apply Io, I; cbn; tauto|]. destruct (P_Edges.cut_points b) as (b' & Ib & Eb); [apply Io, I; cbn; tauto|].
    destruct (P_Edges.cut_points c) as (c' & Ic & Ec); [apply Io, I; cbn; tauto|]. destruct (P_Edges.cut_points d) as (d' & Id & Ed); [apply Io, I; cbn; tauto|].
    rewrite Ea, Eb, Ec, Ed in N.
    assert (N4 : NoDup [a'; b'; c'; d']).
    { apply (NoDup_map_inv P_Convex.ax). cbn [map]. change (NoDup ([P_Convex.ax a'; P_Convex.ax b'; P_Convex.ax c'; P_Convex.ax d'] ++ map pp l)) in N. exact (proj1 (NoDup_halves _ _ N)). }
    destruct (cc_four a' b' c' d' Ia Ib Ic Id N4) as [W|W].
    + exists 0%nat, 1%nat, 2%nat, a, b, c. rewrite Ea, Eb, Ec. split; [cbn; tauto|]. repeat (split; [reflexivity|]). exact W.
    + exists 0%nat, 1%nat, 3%nat, a, b, d. rewrite Ea, Eb, Ed. split; [cbn; tauto|]. repeat (split; [reflexivity|]). exact W.
Qed.
(** All conditions are met by two tetrahedra that together make up one, with two samples;
    the inner edges of the flat faces are left out. *)
Example E_C119_ex : let two := fun _ _ : nat => [(0,1,2); (0,1,3)]%nat in
  cut <> [] /\ Forall (fun t => length t = 4%nat /\ grids 6 1 2 t) cut /\ one_name (concat cut) /\
  (forall t, In t cut -> pvol t <> 0) /\ face_to_face (map (map pp) cut) /\
  (forall f g, In f (all_faces cut) -> In g (all_faces cut) -> pcentre f = pcentre g \/ told_apart (pcentre f) (pcentre g)) /\
  (forall e g, In e (edges_of 3 (all_faces cut)) -> In g (edges_of 3 (all_faces cut)) -> pcentre e = pcentre g \/ told_apart (pcentre e) (pcentre g)) /\
  sharp3 (concat cut) /\ exists s, m_generator_surface_1 Bnum cut = Ok s /\
  (forall i j t u, nth_error s i = Some t -> nth_error s j = Some u -> i <> j ->
     exists b, m_coplanar_check_two_triangles Bnum (two i j) t u = Ok b /\ (b = true <-> coplanar3 (map pp (t ++ u)))) /\
  exists r, m_generate_border_edges Bnum two cut = Ok r /\ forall x, drawn3 r x <-> on_border s x.
Proof.
  intros two. destruct P_Edges.cut_solid as (Ne & To & NF & FF & _).
  destruct (L_C115_surface textbook 1 2 cut ltac:(lia) ltac:(lia) ltac:(lia) ltac:(lia) Ne cut_grid cut_name NF FF cut_centres) as (s & Es & ND & Is & _).
  assert (Lu : forall i j t u, nth_error s i = Some t -> nth_error s j = Some u -> i <> j ->
     exists b, m_coplanar_check_two_triangles Bnum (two i j) t u = Ok b /\ (b = true <-> coplanar3 (map pp (t ++ u)))).
  { intros i j t u Ei Ej Nij. apply cut_lucky_B; [apply Is, (nth_error_In _ _ Ei)|apply Is, (nth_error_In _ _ Ej)].
  }
  split; [exact Ne|]. split; [exact cut_grid|]. split; [exact cut_name|]. split; [exact NF|]. split; [exact FF|]. split; [exact cut_centres|]. split; [exact cut_mids|]. split; [exact P_Edges.cut_sharp|].
  exists s. split; [exact Es|]. split; [exact Lu|].
  exact (L_C119_edges textbook textbook_ok 1 2 two cut s ltac:(lia) ltac:(lia) ltac:(lia) ltac:(lia) Ne cut_grid cut_name NF FF cut_centres cut_mids P_Edges.cut_sharp Es Lu).
Qed.
