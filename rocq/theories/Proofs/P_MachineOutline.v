(** outline() of dode2 computed in int64 and binary64: C117. *)
From Coq Require Import Reals List ZArith.
From Verif Require Import Base.Res Model.Tau Model.Arr Model.Num Model.DodeDedup Model.DodeIntersect Model.Numeric2 Model.IcoSurface Model.DodeSurface Model.MachineDedup Model.MachineBorder Model.MachineOutline
  Spec.LinAlg Spec.Value Spec.RVec Spec.Shape Spec.Mean Spec.DodeSpec Spec.Sets Spec.Space Spec.Tetra Spec.Plane Spec.Surface Spec.Outline Spec.Grid Spec.SolidFloat Spec.Samples Spec.DodeSamples.
Import ListNotations.
Local Open Scope R_scope.

From Coq Require Import Lia Lra Permutation Bool.
From Flocq Require Import Core IEEE754.Binary.
From Verif Require Import Proofs.ResLemmas Proofs.Irrational Proofs.NumLemmas Proofs.Polytope Proofs.GridInter Proofs.GridDodeInter Proofs.SurfaceLemmas Proofs.MergeLemmas Proofs.PlaneLemmas Proofs.P_DodeOverlap Proofs.DodeOverlapLemmas Proofs.DodeSurfaceLemmas Proofs.Frontier Proofs.OutlineLemmas
  Proofs.P_DodeSurface Proofs.P_MachineDedup Proofs.RoundLemmas Proofs.FloatCalc Proofs.FloatGeom Proofs.DodeFloat Proofs.SolidFloat Proofs.DodeSolidFloat Proofs.P_SolidFloat Proofs.P_DodeSolidFloat Proofs.MeanLemmas Proofs.P_Dedup Proofs.LinAlgLemmas Proofs.SegFloat.

Lemma grid_coef100 q B x : (0 <= B)%Z -> (B <= 2^53)%Z -> (q <= 2^53)%Z -> (3 * B <= 100 * q)%Z -> on_grid q B x -> Spec.Float.coef 100 x.
Proof.
  destruct x as [a b c]. unfold on_grid, Spec.Float.coef. cbn [ta tb tc]. intros PB HB Hq H (Pq & k & Ek & Ha & Hb).
  assert (Nk : k <> 0%Z) by (intros ->; lia). assert (Nc : c <> 0%Z) by (intros ->; lia).
  rewrite Z.abs_mul in Ha, Hb. assert (Ec : (Z.abs k * Z.abs c = q)%Z) by (rewrite <- Z.abs_mul, Ek; lia). assert (K1 : (1 <= Z.abs k)%Z) by lia.
  split; [exact Nc|]. split; [pose proof (Z.abs_nonneg a); nia|]. split; [pose proof (Z.abs_nonneg b); nia|]. split; [pose proof (Z.abs_nonneg c); nia|].
  rewrite <- !abs_IZR, <- !mult_IZR, <- plus_IZR. apply IZR_le. apply (Z.mul_le_mono_pos_l _ _ (Z.abs k)); [lia|]. nia.
Qed.

Section Machine.
Context {la : linalg} {LA : linalg_ok la}.
Variables (q B : Z).
Hypothesis PB : (0 <= B)%Z.
Hypothesis Hq : (0 < q <= 20000000)%Z.
Hypothesis H1 : (B * q <= 10^14)%Z.
Hypothesis H2 : (3 * B <= 100 * q)%Z.

Lemma point_B v : gridv 6 q B v -> exists x, dinternal (@Bmath la) v = Ok x /\ P E0 x (dp v) /\ bnd 600 (dp v).
Proof.
  intros [L G]. assert (C : Spec.Float.coefs 100 v) by (split; [exact L|]; eapply Forall_impl; [|exact G]; intros c Gc; apply (grid_coef100 q B); try assumption; nia).
  destruct (dinternal_B 100 v ltac:(lra) C) as (x & E & H). exists x. split; [exact E|]. split; [replace E0 with (10 * 100 / 2251799813685248) by (unfold E0; lra); exact H|].
  pose proof (dp_bound (la := la) 100 v C) as Bd. destruct (dp v) as [[? ?] ?]. cbn in *. lra.
Qed.
Lemma on_seg_B p a b : gridv 6 q B p -> gridv 6 q B a -> gridv 6 q B b -> exists r, dpoint_on_segment (@Bmath la) p [a; b] = Ok r /\
  (r = true -> exists h, hull [dp a; dp b] h /\ dist3 (dp p) h < 3/2000) /\
  (hull [dp a; dp b] (dp p) -> 3/2000 <= dist3 (dp p) (dp a) -> 3/2000 <= dist3 (dp p) (dp b) -> r = true).
Proof.
  intros Gp Ga Gb. destruct (point_B p Gp) as (x & Ex & Px & Bx). destruct (point_B a Ga) as (y & Ey & Py & By). destruct (point_B b Gb) as (z & Ez & Pz & Bz).
  exists (IcoNumeric.on_segment (@Bmath la) x y z). split; [|split].
  - unfold dpoint_on_segment. rewrite Ex. cbn [bind]. unfold dinternals. cbn [mapM]. rewrite Ey. cbn [bind]. rewrite Ez. cbn [bind]. reflexivity.
  - exact (on_segment_near x y z _ _ _ Px Py Pz Bx By Bz).
  - exact (on_segment_true x y z _ _ _ Px Py Pz Bx By Bz).
Qed.

Lemma vertices_eq u v : gridv 6 q B u -> gridv 6 q B v -> md_equivalent_vertices u v = dequivalent_vertices u v.
Proof.
  intros Gu Gv. unfold md_equivalent_vertices, dequivalent_vertices. rewrite (dproj_eq q B u), (dproj_eq q B v) by (assumption || lia). reflexivity.
Qed.
Lemma two_segment_eq e f : length e = 2%nat -> length f = 2%nat -> grids 6 q B e -> grids 6 q B f -> md_two_segment_into_one (@Bmath la) e f = dtwo_segment_into_one (@Bmath la) e f.
Proof.
  intros Le Lf Ge Gf. destruct e as [|a [|b [|]]]; try discriminate Le. destruct f as [|c [|d [|]]]; try discriminate Lf.
  unfold grids in Ge, Gf.   unfold md_two_segment_into_one, dtwo_segment_into_one. cbn [get nth_error bind].
  inversion Ge as [|? ? Ga Ge']; subst. inversion Ge' as [|? ? Gb _]; subst. inversion Gf as [|? ? Gc Gf']; subst. inversion Gf' as [|? ? Gd _]; subst.
  assert (K : forall l, Forall (fun w => match w with (x, _, y, _) => gridv 6 q B x /\ gridv 6 q B y end) l -> md_first_merge (@Bmath la) l = dfirst_merge (@Bmath la) l).
  { induction l as [|[[[e1 e2] e3] e4] l IH]; intros F; [reflexivity|]. pose proof (Forall_inv F) as [G1 G3]. pose proof (Forall_inv_tail F) as F'. cbn [md_first_merge dfirst_merge]. rewrite (vertices_eq e1 e3 G1 G3).
    destruct (dequivalent_vertices e1 e3) as [[|]|]; cbn [bind]; [|exact (IH F')|reflexivity].
    destruct (dpoint_on_segment _ e1 [e2; e4]) as [[|]|]; cbn [bind]; [reflexivity|exact (IH F')|reflexivity]. }
  apply K. repeat (apply Forall_cons; [split; assumption|]). apply Forall_nil.
Qed.

Section Vertices.
Variable vs : vecs.
Hypothesis Gv : grids 6 q B vs.
Hypothesis Sh : sharp vs.
Let Gd : goods 6 vs := grids_goods _ _ _ Gv.

Lemma grid_in v : In v vs -> gridv 6 q B v.
Proof. intros H. exact (proj1 (Forall_forall _ _) Gv v H). Qed.
Lemma seg_grids e : seg vs e -> grids 6 q B e.
Proof. intros (u & v & -> & Hu & Hv & _). apply Forall_cons; [apply grid_in, Hu|]. apply Forall_cons; [apply grid_in, Hv|apply Forall_nil]. Qed.
Lemma sharp_apart u v : In u vs -> In v vs -> dp u <> dp v -> 3/2000 <= dist3 (dp u) (dp v).
Proof.
  intros Hu Hv N. destruct (Sh u v v Hu Hv Hv) as [H|H]; [|apply H, hull_mem; left; reflexivity].
  exfalso. apply N. apply hull2_line in H as (s & _ & ->). unfold line. destruct (dp v) as [[? ?] ?]. cbn. apply f_equal2; [apply f_equal2|]; ring.
Qed.
Lemma m_merge_seg e f a : seg vs e -> seg vs f -> md_two_segment_into_one (@Bmath la) e f = Ok (Some a) ->
  seg vs a /\ forall x, hull (map dp a) x <-> hull (map dp e) x \/ hull (map dp f) x.
Proof.
  intros Se Sf E. destruct (seg_goods vs e Gd Se) as (Le & Ge). destruct (seg_goods vs f Gd Sf) as (Lf & Gf).
  rewrite (two_segment_eq e f Le Lf (seg_grids e Se) (seg_grids f Sf)) in E.
  destruct (dtwo_segment_spec (@Bmath la) e f Le Lf Ge Gf) as (m & Em & Hm). rewrite E in Em. injection Em as <-.
  destruct Hm as (p & a' & p' & r & E1 & E2 & Ep & On & ->).
  destruct (seg_ends vs e p a' Se E1) as (Ip & Ia & Npa). destruct (seg_ends vs f p' r Sf E2) as (_ & Ir & _).
  destruct (on_seg_B p a' r (grid_in p Ip) (grid_in a' Ia) (grid_in r Ir)) as (b & Eb & Hb & _). rewrite On in Eb. injection Eb as <-. destruct (Hb eq_refl) as (y & Hy & Dy).
  assert (Hp : hull [dp a'; dp r] (dp p)) by (destruct (Sh p a' r Ip Ia Ir) as [Hp|Hp]; [exact Hp|specialize (Hp y Hy); lra]).
  split.
  - exists a', r. split; [reflexivity|]. split; [exact Ia|]. split; [exact Ir|]. intros Ear. rewrite <- Ear in Hp. apply Npa. apply hull2_line in Hp as (s & _ & ->). unfold line. destruct (dp a') as [[? ?] ?]. cbn. apply f_equal2; [apply f_equal2|]; ring.
  - intros x. rewrite (ends_hull e p a' x E1), (ends_hull f p' r x E2), <- (proj1 (dp_iff p p') Ep). cbn [map]. apply hull_divide, Hp.
Qed.
Lemma m_merge_none e f p a p' s : seg vs e -> seg vs f -> md_two_segment_into_one (@Bmath la) e f = Ok None -> ends e p a -> ends f p' s -> dp p = dp p' -> ~ hull [dp a; dp s] (dp p).
Proof.
  intros Se Sf E E1 E2 Ep Hp. destruct (seg_goods vs e Gd Se) as (Le & Ge). destruct (seg_goods vs f Gd Sf) as (Lf & Gf).
  rewrite (two_segment_eq e f Le Lf (seg_grids e Se) (seg_grids f Sf)) in E.
  destruct (dtwo_segment_spec (@Bmath la) e f Le Lf Ge Gf) as (m & Em & Hm). rewrite E in Em. injection Em as <-.
  specialize (Hm p a p' s E1 E2 (proj2 (dp_iff p p') Ep)). destruct (seg_ends vs e p a Se E1) as (Ip & Ia & Npa). destruct (seg_ends vs f p' s Sf E2) as (_ & Is & Nps).
  destruct (on_seg_B p a s (grid_in p Ip) (grid_in a Ia) (grid_in s Is)) as (b & Eb & _ & Hb). rewrite Hm in Eb. injection Eb as <-.
  assert (false = true); [|discriminate]. apply Hb; [exact Hp|apply sharp_apart; assumption|apply sharp_apart; [assumption..|congruence]].
Qed.
End Vertices.

(** Unique edges of a list of edges. *)
Lemma m_unique_list (b : obj4) vs : done_name vs ->
  (forall e, In e b -> length e = 2%nat /\ grids 6 q B e /\ incl e vs /\ NoDup (map dppoint e)) ->
  (forall e g, In e b -> In g b -> same_set (map dppoint e) (map dppoint g) \/ told_apart (dpcentre e) (dpcentre g)) ->
  exists r, md_generator_unique_edges (@Bmath la) 2 b = Ok r /\ incl r b /\ forall e, In e b -> exists u, In u r /\ same_set (map dppoint u) (map dppoint e).
Proof.
  intros O K Hsep. unfold md_generator_unique_edges. cbn [Nat.eqb bind].
  assert (F : Forall (fun e => e <> [] /\ (length e <= 4)%nat /\ grids 6 q B e) b).
  { apply Forall_forall. intros e He. destruct (K e He) as (Le & G & _). split; [intros ->; discriminate Le|]. split; [lia|exact G]. }
  rewrite (dcentres_eq (@Bmath la) q B b PB ltac:(lia) ltac:(lia) F).
  assert (Sep : forall f g, In f b -> In g b -> Permutation f g \/ told_apart (dpcentre f) (dpcentre g)).
  { intros f g Hf Hg. destruct (Hsep f g Hf Hg) as [S|A]; [left|right; exact A]. destruct (K f Hf) as (_ & _ & If & Nf). destruct (K g Hg) as (_ & _ & Ig & Ng). exact (dnamed_perm _ f g O If Ig Nf Ng S). }
  destruct (dmapM_centre (@Bmath la) b) as (ps & Eps & _); [eapply Forall_impl; [|exact F]; intros e (Ne & _ & Ge); split; [exact Ne|exact (grids_goods _ _ _ Ge)]|].
  destruct (pick_unique_any (@Bmath la) (dcentre (@Bmath la)) dpcentre b ps Eps) as (r & E & ND' & C & Fst).
  - exact (des_same q B b PB ltac:(lia) ltac:(lia) ltac:(lia) F Sep).
  - exact (des_close q B b PB ltac:(lia) ltac:(lia) ltac:(lia) F Sep).
  - exact (des_ordered q B b PB ltac:(lia) ltac:(lia) ltac:(lia) F ps Eps).
  - exists r. split; [exact E|]. assert (I : incl r b) by (intros e He; destruct (Fst e He) as (i & Ei & _); eapply nth_error_In; exact Ei). split; [exact I|].
    intros e He. pose proof (C e He) as Hc. apply in_map_iff in Hc as (u & Eu & Iu). exists u. split; [exact Iu|].
    destruct (Hsep u e (I u Iu) He) as [S|A]; [exact S|]. rewrite Eu in A. apply told_irrefl in A as [].
Qed.
End Machine.

(** C117: outline() of an edge-to-edge patch, computed in int64 and binary64 with any
    LAPACK/BLAS within its documented error, draws exactly the boundary of the patch ... *)
Lemma m_outline (la : linalg) (LA : linalg_ok la) (q B : Z) (h : R) draws (o : obj4) :
  (0 <= B)%Z -> (0 < q <= 20000000)%Z -> (B * q <= 10^14)%Z -> (3 * B <= 100 * q)%Z ->
  patch h o -> Forall (grids 6 q B) o -> done_name (concat o) ->
  (forall e g, In e (edges_of 3 o) -> In g (edges_of 3 o) -> dpcentre e = dpcentre g \/ told_apart (dpcentre e) (dpcentre g)) ->
  (forall i t t0, nth_error o (S i) = Some t -> nth_error o 0 = Some t0 -> md_coplanar_check_two_triangles (@Bmath la) (draws (S i) 0%nat) t t0 = Ok true) ->
  exists r, md_outline (@Bmath la) draws o = Ok r /\ (forall x, drawn r x <-> boundary h (dregion o) x) /\    Forall (seg (concat o)) r /\ r <> [] /\    forall i j e f p q p' s, i <> j -> nth_error r i = Some e -> nth_error r j = Some f -> ends e p q -> ends f p' s -> dp p = dp p' ->
      ~ hull [dp q; dp s] (dp p).
Proof.
  intros PB Hq H1 H2 Pa G O Hmid Hc. pose proof (patch_flat h o Pa) as NF. destruct Pa as (Ne & To & Le & Ar & EE & Sh).
  pose proof (triangs h o To Le NF) as Tr. pose proof (good3 h o To Le NF) as G3.
  assert (Gv : grids 6 q B (concat o)).
  { apply Forall_forall. intros v Hv. apply in_concat in Hv as (t & Ht & Hv). rewrite Forall_forall in G. pose proof (G t Ht) as Gt. unfold grids in Gt. rewrite Forall_forall in Gt. apply Gt, Hv. }
  pose proof (grids_goods _ _ _ Gv) as Gd.
  assert (Hsep : forall e g, In e (edges_of 3 o) -> In g (edges_of 3 o) -> same_set (map dppoint e) (map dppoint g) \/ told_apart (dpcentre e) (dpcentre g)).
  { intros e g He Hg. destruct (Hmid e g He Hg) as [Ec|A]; [left|right; exact A]. exact (mid_same h o To Le NF EE e g He Hg (eq_sym Ec)). }
  assert (ND : Forall (fun t => NoDup (map dppoint t)) o) by (eapply Forall_impl; [|exact G3]; intros t (_ & _ & N); exact N).
  assert (Eseg : forall e, In e (edges_of 3 o) -> seg (concat o) e).
  { intros e He. apply In_nth_error in He as (n & En). destruct (edge_pos_inv o (L3 o To) n e En) as (i & t & k & Ei & _ & _ & Ek). pose proof (nth_error_In _ _ Ei) as Ht.
    destruct (edge_ends _ _ _ Ek) as (u & v & -> & Iu & Iv). exists u, v. split; [reflexivity|]. split; [apply in_concat; eauto|]. split; [apply in_concat; eauto|].
    exact (edge_ne t k _ u v (nodups h o To Le NF t Ht) Ek eq_refl). }
  destruct (L_C116_border la q B o PB Hq H1 ltac:(lia)) as (b & Eb & Hb).
  { rewrite Forall_forall in *. intros t Ht. split; [apply (G3 t Ht)|exact (G t Ht)]. }
  { exact O. } { exact ND. } { exact Hsep. }
  pose proof (border_drawn h o b To Le Ar EE Hb) as Db.
  assert (Nb : b <> []).
  { destruct (lone_exists h (map (map dp) o) Tr EE) as (p & s & L); [destruct o; [contradiction|discriminate]|].
    intros ->. destruct (proj2 (Db p)) as (e & [] & _). rewrite (boundary_ext h _ _ p (fun y => dreg o y)), (frontier h _ Tr EE). exists p, s. split; [exact L|]. apply hull_mem. left. reflexivity. }
  assert (Eg : get_sets_of_coplanar_triangles (fun i j => md_coplanar_check_two_triangles (@Bmath la) (draws i j)) o = Ok [o]).
  { destruct o as [|t0 o']; [contradiction|]. apply one_group. intros i t Ei. apply Hc; [exact Ei|reflexivity]. }
  pose proof (dedge_nodup o (L3 o To) ND) as K.
  destruct (m_unique_list (la := la) q B PB Hq H1 H2 b (concat o) O) as (es & Ees & I & U).
  { intros e He. apply Hb in He as (Ie & _). destruct (K e Ie) as (L2 & Nd & t & Ht & It). split; [exact L2|]. split; [exact (seg_grids q B _ Gv e (Eseg e Ie))|]. split; [exact (in_vs o t e Ht It)|exact Nd]. }
  { intros e g He Hg. apply Hsep; apply Hb; assumption. }
  assert (Ese : md_surface_edges (@Bmath la) draws o = Ok es).
  { unfold md_surface_edges. rewrite Eg. cbn [bind]. unfold md_all_borders. cbn [mapM]. rewrite Eb. cbn [bind]. destruct b as [|b0 b']; [contradiction|]. cbn [bind concat]. rewrite app_nil_r. exact Ees. }
  assert (De : forall x, drawn es x <-> drawn b x).
  { intros x. split; [intros (e & He & Hx); exists e; split; [apply I, He|exact Hx]|].
    intros (e & He & Hx). destruct (U e He) as (u & Iu & Su). exists u. split; [exact Iu|].
    apply (hull_same (map dp e)); [|exact Hx]. apply dp_same. intros y. symmetry. apply Su. }
  assert (Fe : Forall (seg (concat o)) es) by (apply Forall_forall; intros e He; apply Eseg, Hb, I, He).
  pose proof (fun e f a => m_merge_seg (la := la) (LA := LA) q B PB Hq H1 H2 (concat o) Gv Sh e f a) as MS.
  pose proof (fun e f p a p' s => m_merge_none (la := la) (LA := LA) q B PB Hq H1 H2 (concat o) Gv Sh e f p a p' s) as MN.
  destruct (merge_segments_spec (md_two_segment_into_one (@Bmath la)) es) as (out & _ & St & Sp).
  destruct (merge_loop_total (md_two_segment_into_one (@Bmath la)) (S (length es)) es (seq 0 (length es)) (seg (concat o)) (ok_seq es)) as (r & Er); [rewrite seq_length; lia| |exact Fe|].
  { intros e f Qe Qf. destruct (seg_goods _ e Gd Qe) as (L1 & G1). destruct (seg_goods _ f Gd Qf) as (L2 & G2). destruct (dtwo_segment_spec (@Bmath la) e f L1 L2 G1 G2) as (m & Em & _).
    assert (Em' : md_two_segment_into_one (@Bmath la) e f = Ok m) by exact (eq_trans (two_segment_eq q B PB Hq H1 e f L1 L2 (seg_grids q B _ Gv e Qe) (seg_grids q B _ Gv f Qf)) Em).
    exists m. split; [exact Em'|]. intros a ->. exact (proj1 (MS e f a Qe Qf Em')). }
  assert (Eout : out = Ok (Some r)) by (rewrite <- (St (S (length es))) by lia; exact Er).
  destruct (Sp r Eout) as (M & Fin).
  destruct (merged_drawn _ (seg (concat o)) es r (fun e f a Qe Qf Em => MS e f a Qe Qf Em) M Fe) as (Fr & Dr).
  exists r. split; [unfold md_outline, md_surface_cleaner; rewrite Ese; cbn [bind]; rewrite (St (S (length es))) by lia; rewrite Eout; reflexivity|].
  split; [intros x; rewrite Dr, De; apply Db|]. split; [exact Fr|]. split.
  { intros ->. destruct b as [|b0 b']; [contradiction|]. destruct (Eseg b0 (proj1 (proj1 (Hb b0) (or_introl eq_refl)))) as (u & v & -> & _).
    destruct (proj2 (Dr (dp u))) as (e & [] & _). apply De. exists [u; v]. split; [left; reflexivity|]. apply hull_mem. left. reflexivity. }
  assert (W : forall i j e f p q p' s, (i < j)%nat -> nth_error r i = Some e -> nth_error r j = Some f -> ends e p q -> ends f p' s -> dp p = dp p' -> ~ hull [dp q; dp s] (dp p)).
  { intros i j e f p u p' s Hij Ei Ej E1 E2 Ep.
    rewrite Forall_forall in Fr. assert (Qe : seg (concat o) e) by (eapply Fr, nth_error_In; exact Ei). assert (Qf : seg (concat o) f) by (eapply Fr, nth_error_In; exact Ej).
    apply (MN e f p u p' s Qe Qf); try assumption.
    apply nth_error_split in Ej as (l1 & lb & -> & Lj). rewrite nth_error_app1 in Ei by lia. apply nth_error_split in Ei as (l0 & l2 & -> & _). apply (Fin l0 e l2 f lb). rewrite <- app_assoc. reflexivity. }
  intros i j e f p u p' s Nij Ei Ej E1 E2 Ep Hp. destruct (lt_dec i j) as [L|L]; [exact (W i j e f p u p' s L Ei Ej E1 E2 Ep Hp)|].
  apply (W j i f e p' s p u ltac:(lia) Ej Ei E2 E1); [congruence|]. rewrite <- Ep. apply hull_swap, Hp.
Qed.
Lemma L_C117_outline : forall (la : linalg), linalg_ok la -> forall (q B : Z) (h : R) draws (o : obj4),
  (0 <= B)%Z -> (0 < q <= 20000000)%Z -> (B * q <= 10^14)%Z -> (3 * B <= 100 * q)%Z ->
  patch h o -> Forall (grids 6 q B) o -> done_name (concat o) ->
  (forall e g, In e (edges_of 3 o) -> In g (edges_of 3 o) -> dpcentre e = dpcentre g \/ told_apart (dpcentre e) (dpcentre g)) ->
  (forall i t t0, nth_error o (S i) = Some t -> nth_error o 0 = Some t0 -> md_coplanar_check_two_triangles (@Bmath la) (draws (S i) 0%nat) t t0 = Ok true) ->
  exists r, md_outline (@Bmath la) draws o = Ok r /\ forall x, drawn r x <-> boundary h (dregion o) x.
Proof.
  intros la LA q B h draws o PB Hq H1 H2 Pa G O Hm Hc. destruct (m_outline la LA q B h draws o PB Hq H1 H2 Pa G O Hm Hc) as (r & E & D & _). exists r. split; [exact E|exact D].
Qed.

(** ... with segments between different vertices of the patch, no two of which continue one
    another in a straight line. *)
Lemma L_C117_segments : forall (la : linalg), linalg_ok la -> forall (q B : Z) (h : R) draws (o r : obj4),
  (0 <= B)%Z -> (0 < q <= 20000000)%Z -> (B * q <= 10^14)%Z -> (3 * B <= 100 * q)%Z ->
  patch h o -> Forall (grids 6 q B) o -> done_name (concat o) ->
  (forall e g, In e (edges_of 3 o) -> In g (edges_of 3 o) -> dpcentre e = dpcentre g \/ told_apart (dpcentre e) (dpcentre g)) ->
  (forall i t t0, nth_error o (S i) = Some t -> nth_error o 0 = Some t0 -> md_coplanar_check_two_triangles (@Bmath la) (draws (S i) 0%nat) t t0 = Ok true) ->
  md_outline (@Bmath la) draws o = Ok r ->
  r <> [] /\ (forall e, In e r -> exists u v, e = [u; v] /\ In u (concat o) /\ In v (concat o) /\ dp u <> dp v) /\
  forall i j e f p a p' s, i <> j -> nth_error r i = Some e -> nth_error r j = Some f -> ends e p a -> ends f p' s -> dp p = dp p' ->
    ~ hull [dp a; dp s] (dp p).
Proof.
  intros la LA q B h draws o r PB Hq H1 H2 Pa G O Hm Hc E. destruct (m_outline la LA q B h draws o PB Hq H1 H2 Pa G O Hm Hc) as (r' & E' & _ & S & Nr & M).
  assert (Er : Ok r = Ok r') by exact (eq_trans (eq_sym E) E'). injection Er as <-. split; [exact Nr|]. split; [|exact M]. intros e He. rewrite Forall_forall in S. apply (S e He).
Qed.

(** The triangle cut into two: all conditions are met if the sample drawn is that of the
    first three vertices. *)
Example E_C117_ex : exists draws, patch 0 halves /\ Forall (grids 6 1 2) halves /\ done_name (concat halves) /\
  (forall e g, In e (edges_of 3 halves) -> In g (edges_of 3 halves) -> dpcentre e = dpcentre g \/ told_apart (dpcentre e) (dpcentre g)) /\
  (forall i t t0, nth_error halves (S i) = Some t -> nth_error halves 0 = Some t0 -> md_coplanar_check_two_triangles Bnum (draws (S i) 0%nat) t t0 = Ok true) /\
  exists r, md_outline Bnum draws halves = Ok r /\ forall x, drawn r x <-> boundary 0 (dregion halves) x.
Proof.
  exists (fun _ _ => [(0, 1, 2)%nat]). set (dr := fun _ _ : nat => [(0, 1, 2)%nat]).
  assert (C : forall i t t0, nth_error halves (S i) = Some t -> nth_error halves 0 = Some t0 -> md_coplanar_check_two_triangles Bnum (dr (S i) 0%nat) t t0 = Ok true).
  { intros [|[|i]] t t0 E1 E2; try discriminate E1. injection E1 as <-. injection E2 as <-. match goal with |- _ = ?r => vm_cast_no_check (eq_refl r) end. }
  split; [exact halves_patch|]. split; [exact halves_grid|]. split; [exact halves_name|]. split; [exact halves_mids|]. split; [exact C|].
  exact (L_C117_outline textbook textbook_ok 1 2 0 dr halves ltac:(lia) ltac:(lia) ltac:(lia) ltac:(lia) halves_patch halves_grid halves_name halves_mids C).
Qed.
