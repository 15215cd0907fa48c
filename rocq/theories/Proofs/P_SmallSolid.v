(** Solids with small coordinates computed in int64 and binary64: C120. *)
From Coq Require Import Reals List ZArith.
From Verif Require Import Base.Res Model.Tau Model.Arr Model.Num Model.IcoNumeric Model.MachineInter Model.IcoDedup Model.IcoIntersect Model.IcoSurface Model.MachineDedup Model.MachineBorder Model.MachineEdges
  Spec.LinAlg Spec.Value Spec.RVec Spec.Shape Spec.Mean Spec.IcoSpec Spec.Sets Spec.Space Spec.Tetra Spec.Plane Spec.Surface Spec.Region Spec.Solid Spec.Outline Spec.Edges Spec.Grid Spec.SolidFloat Spec.Samples Spec.Convex Spec.EdgesFloat.
From Verif Require Spec.Float.
Import ListNotations.
Local Open Scope R_scope.

From Coq Require Import Lia Lra.
From Verif Require Import Proofs.SurfaceLemmas Proofs.SolidFloat Proofs.P_SolidFloat Proofs.RingFloor Proofs.P_MachineEdges.
From Verif Require Proofs.BorderLemmas Proofs.IntersectLemmas Proofs.OutlineLemmas Proofs.P_Convex Proofs.NumLemmas Proofs.LinAlgLemmas Proofs.CoplanarFloat Proofs.P_Edges Proofs.GridInter Proofs.SolidLemmas Proofs.DedupLemmas.

(** C120: when the coordinates, brought to a common denominator of at most 5000, have
    numerators up to 6, the centres of two faces (or of two edges) are the same point or are
    told apart by the float64 comparison. *)
Lemma L_C120_centres : forall (q : Z) f g, (0 < q <= 5000)%Z -> grids 6 q 6 f -> grids 6 q 6 g ->
  (length f = 2 \/ length f = 3)%nat -> length g = length f -> pcentre f = pcentre g \/ told_apart (pcentre f) (pcentre g).
Proof. exact centres_told. Qed.

Section Small.
Variables (q : Z) (o : obj4).
Hypothesis Hq : (0 < q <= 5000)%Z.
Hypothesis F : Forall (fun t => length t = 4%nat /\ grids 6 q 6 t) o.
Lemma vertex_grid v : In v (concat o) -> gridv 6 q 6 v.
Proof. intros Hv. apply in_concat in Hv as (w & Hw & Hv). destruct (proj1 (Forall_forall _ _) F w Hw) as [_ G]. exact (proj1 (Forall_forall _ _) G v Hv). Qed.
Lemma part_grid f : incl f (concat o) -> grids 6 q 6 f.
Proof. intros I. apply Forall_forall. intros v Hv. apply vertex_grid, I, Hv. Qed.
Lemma face_part f : In f (all_faces o) -> length f = 3%nat /\ incl f (concat o).
Proof.
  intros Hf. destruct (face_from o f (grid_tets _ _ _ F) Hf) as (t & Ht & I). split; [|exact (in_vs o t f Ht I)].
  unfold all_faces in Hf. apply in_concat in Hf as (l & Hl & Hf). apply in_map_iff in Hl as (t' & <- & Ht'). destruct (proj1 (Forall_forall _ _) F t' Ht') as [L _].
  destruct t' as [|a [|b [|c [|d [|]]]]]; try discriminate L. cbn in Hf. destruct Hf as [<-|[<-|[<-|[<-|[]]]]]; reflexivity.
Qed.
Lemma edge_part e : In e (edges_of 3 (all_faces o)) -> length e = 2%nat /\ incl e (concat o).
Proof.
  intros He. change (In e (concat (map tri_edges (all_faces o)))) in He. apply in_concat in He as (l & Hl & He). apply in_map_iff in Hl as (f & <- & Hf).
  destruct (face_part f Hf) as [L I]. destruct f as [|a [|b [|c [|]]]]; try discriminate L.
  cbn in He. destruct He as [<-|[<-|[<-|[]]]]; (split; [reflexivity|]); intros v Hv; apply I; cbn in *; tauto.
Qed.
Lemma faces_told f g : In f (all_faces o) -> In g (all_faces o) -> pcentre f = pcentre g \/ told_apart (pcentre f) (pcentre g).
Proof. intros Hf Hg. destruct (face_part f Hf) as [Lf If]. destruct (face_part g Hg) as [Lg Ig]. apply (centres_told q); [exact Hq|apply part_grid, If|apply part_grid, Ig|auto|congruence]. Qed.
Lemma edges_told e g : In e (edges_of 3 (all_faces o)) -> In g (edges_of 3 (all_faces o)) -> pcentre e = pcentre g \/ told_apart (pcentre e) (pcentre g).
Proof. intros Hf Hg. destruct (edge_part e Hf) as [Lf If]. destruct (edge_part g Hg) as [Lg Ig]. apply (centres_told q); [exact Hq|apply part_grid, If|apply part_grid, Ig|auto|congruence]. Qed.
End Small.

(** So the surface of a face-to-face solid with such coordinates, computed in int64 and
    float64, is its boundary, with no condition on the centres. *)
Lemma L_C120_surface : forall (la : linalg) (q : Z) (o : obj4),
  (0 < q <= 5000)%Z -> o <> [] -> Forall (fun t => length t = 4%nat /\ grids 6 q 6 t) o -> one_name (concat o) ->
  (forall t, In t o -> pvol t <> 0) -> face_to_face (map (map pp) o) ->
  exists s, m_generator_surface_1 (@Bmath la) o = Ok s /\ NoDup s /\ incl s (all_faces o) /\ forall x, skin s x <-> boundary3 (region o) x.
Proof.
  intros la q o Hq Ne F O NF FF. apply (L_C115_surface la q 6 o); try assumption; try lia. exact (faces_told q o Hq F).
Qed.

(** With denominators up to 7 the coplanarity check answers right for two triangles of
    moderate size as soon as one sample consists of three points that are not on one line. *)
Lemma L_C120_check : forall (la : linalg), linalg_ok la -> forall (q : Z) (A D : R) draws t u vs,
  (0 < q <= 7)%Z -> grids 6 q 6 (t ++ u) -> Float.tame A D (t ++ u) -> (A + D) * D ^ 2 <= 250 ->
  m_remove_doubling_in_perp_space (A3 (t ++ u)) = Ok vs ->
  (length vs <= 3)%nat \/ Forall (valid_draw (length vs)) draws /\ (exists i j k a b c, In (i, j, k) draws /\ nth_error vs i = Some a /\ nth_error vs j = Some b /\ nth_error vs k = Some c /\
     cross3 (sub3 (pp b) (pp a)) (sub3 (pp c) (pp a)) <> o3) ->
  exists b, m_coplanar_check_two_triangles (@Bmath la) draws t u = Ok b /\ (b = true <-> coplanar3 (map pp (t ++ u))).
Proof.
  intros la LA q A D draws t u vs Hq G Tm M Ev S.
  destruct (GridInter.dedup_eq q 6 (t ++ u) (A3 (t ++ u)) (or_introl eq_refl) ltac:(lia) ltac:(lia) ltac:(lia) ltac:(lia) G) as (vs' & E1 & E2 & I & _). rewrite Ev in E1. injection E1 as <-.
  destruct S as [L|[Vd (i & j & k & a & b & c & Hin & Ea & Eb & Ec & N)]].
  - exists true. split; [|split; [intros _|reflexivity]].
    + unfold m_coplanar_check_two_triangles. rewrite Ev. cbn [bind]. destruct (IntersectLemmas.internals_ok (@Bmath la) vs) as (ps & Ep & Lp).
      { apply Forall_forall. intros v Hv. apply I in Hv. exact (OutlineLemmas.good_len v (t ++ u) (GridInter.grids_goods _ _ _ G) Hv). }
      unfold coplanar_check_numeric_tau. rewrite Ep. cbn [bind]. unfold coplanar_check_numeric. destruct (Nat.ltb_spec 3 (length ps)); [lia|reflexivity].
    + destruct (BorderLemmas.few_coplanar (map pp vs)) as (n & e & Nn & Fp); [rewrite map_length; lia|]. exists n, e. split; [exact Nn|].
      destruct (DedupLemmas.perp_space_spec (t ++ u) (GridInter.grids_goods _ _ _ G)) as (vs' & Ev' & _ & _ & SS). rewrite E2 in Ev'. injection Ev' as <-. apply SolidLemmas.pp_same in SS. rewrite Forall_forall in *. intros p Hp. apply Fp, SS, Hp.
  - apply (L_C119_samples la LA q 6 A D draws t u vs ltac:(lia) ltac:(lia) ltac:(lia) G Tm M (grid_planes q _ Hq G) Ev Vd). right. exists i, j, k, a, b, c. repeat (split; [assumption|]).
    assert (Gv : forall v n, nth_error vs n = Some v -> gridv 6 q 6 v) by (intros v n E; exact (proj1 (Forall_forall _ _) G v (I v (nth_error_In _ _ E)))).
    apply (grid_wide q); [exact Hq|exact (Gv _ _ Ea)|exact (Gv _ _ Eb)|exact (Gv _ _ Ec)|exact N].
Qed.

(** Together: a face-to-face solid of moderate size with small coordinates, no vertex of which
    is nearly on a line with two others.  If, for every two triangles of the surface with more
    than three different vertices, one of the samples drawn is not on one line, then
    generate_border_edges() run with int64 and float64 draws exactly the borders of the flat
    parts of the surface; what it draws lies where the boundary of the solid is not flat. *)
Lemma L_C120_edges : forall (la : linalg), linalg_ok la -> forall (q : Z) (A D : R) draws (o s : obj4),
  (0 < q <= 7)%Z -> o <> [] -> Forall (fun t => length t = 4%nat /\ grids 6 q 6 t) o -> one_name (concat o) ->
  (forall t, In t o -> pvol t <> 0) -> face_to_face (map (map pp) o) ->
  sharp3 (concat o) -> Float.tame A D (concat o) -> (A + D) * D ^ 2 <= 250 -> m_generator_surface_1 (@Bmath la) o = Ok s ->
  (forall i j t u vs, nth_error s i = Some t -> nth_error s j = Some u -> i <> j -> m_remove_doubling_in_perp_space (A3 (t ++ u)) = Ok vs ->
     (length vs <= 3)%nat \/ Forall (valid_draw (length vs)) (draws i j) /\
     (exists x y z a b c, In (x, y, z) (draws i j) /\ nth_error vs x = Some a /\ nth_error vs y = Some b /\ nth_error vs z = Some c /\
        cross3 (sub3 (pp b) (pp a)) (sub3 (pp c) (pp a)) <> o3)) ->
  exists r, m_generate_border_edges (@Bmath la) draws o = Ok r /\ (forall x, drawn3 r x <-> on_border s x) /\
    (forall x, drawn3 r x -> boundary3 (region o) x /\ ~ flat_at (region o) x).
Proof.
  intros la LA q A D draws o s Hq Ne F O NF FF Sh Tm M Es S. assert (Hq' : (0 < q <= 5000)%Z) by lia.
  destruct (L_C120_surface la q o Hq' Ne F O NF FF) as (s' & Es' & _ & Is & _). rewrite Es in Es'. injection Es' as <-.
  assert (Lu : forall i j t u, nth_error s i = Some t -> nth_error s j = Some u -> i <> j ->
     exists b, m_coplanar_check_two_triangles (@Bmath la) (draws i j) t u = Ok b /\ (b = true <-> coplanar3 (map pp (t ++ u)))).
  { intros i j t u Ei Ej Nij. pose proof (proj2 (face_part q o F t (Is t (nth_error_In _ _ Ei)))) as It. pose proof (proj2 (face_part q o F u (Is u (nth_error_In _ _ Ej)))) as Iu.
    assert (I : incl (t ++ u) (concat o)) by (apply incl_app; assumption). pose proof (part_grid q o F _ I) as G.
    destruct (GridInter.dedup_eq q 6 (t ++ u) (A3 (t ++ u)) (or_introl eq_refl) ltac:(lia) ltac:(lia) ltac:(lia) ltac:(lia) G) as (vs & Ev & _).
    exact (L_C120_check la LA q A D (draws i j) t u vs Hq G (CoplanarFloat.tame_sub A D _ _ Tm I) M Ev (S i j t u vs Ei Ej Nij Ev)). }
  destruct (L_C119_edges la LA q 6 draws o s ltac:(lia) ltac:(lia) ltac:(lia) ltac:(lia) Ne F O NF FF (faces_told q o Hq' F) (edges_told q o Hq' F) Sh Es Lu) as (r & Er & Dr).
  exists r. split; [exact Er|]. split; [exact Dr|].
  exact (proj1 (proj2 (L_C119_segments la LA q 6 draws o s r ltac:(lia) ltac:(lia) ltac:(lia) ltac:(lia) Ne F O NF FF (faces_told q o Hq' F) (edges_told q o Hq' F) Sh Es Lu Er))).
Qed.

(** All conditions are met by the two tetrahedra that together make up one, with two samples
    for every pair of triangles. *)
Lemma cut_grid6 : Forall (fun t => length t = 4%nat /\ grids 6 1 6 t) cut.
Proof.
  eapply Forall_impl; [|exact cut_grid]. intros t [L G]. split; [exact L|]. eapply Forall_impl; [|exact G]. intros v [L6 Gv]. split; [exact L6|]. eapply Forall_impl; [|exact Gv].
  intros x (Pq & k & E & Ha & Hb). split; [exact Pq|]. exists k. split; [exact E|]. split; lia.
Qed.
Lemma wide_cross a b c : wide a b c -> cross3 (sub3 b a) (sub3 c a) <> o3.
Proof. unfold wide. intros W E. rewrite E in W. unfold o3 in W. rewrite Rabs_R0 in W. lra. Qed.
Lemma cut_samples t u vs : In t (all_faces cut) -> In u (all_faces cut) -> m_remove_doubling_in_perp_space (A3 (t ++ u)) = Ok vs ->
  (length vs <= 3)%nat \/ Forall (valid_draw (length vs)) [(0,1,2); (0,1,3)]%nat /\
  (exists x y z a b c, In (x, y, z) [(0,1,2); (0,1,3)]%nat /\ nth_error vs x = Some a /\ nth_error vs y = Some b /\ nth_error vs z = Some c /\
        cross3 (sub3 (pp b) (pp a)) (sub3 (pp c) (pp a)) <> o3).
Proof.
  intros It Iu Ev. pose proof (proj2 (face_part 1 cut cut_grid6 t It)) as Jt. pose proof (proj2 (face_part 1 cut cut_grid6 u Iu)) as Ju.
  assert (Io : incl (t ++ u) (concat cut)) by (apply incl_app; assumption). pose proof (part_grid 1 cut cut_grid6 _ Io) as G.
  destruct (GridInter.dedup_eq 1 6 (t ++ u) (A3 (t ++ u)) (or_introl eq_refl) ltac:(lia) ltac:(lia) ltac:(lia) ltac:(lia) G) as (vs' & E1 & E2 & I & _). rewrite Ev in E1. injection E1 as <-.
  destruct (DedupLemmas.perp_space_spec (t ++ u) (GridInter.grids_goods _ _ _ G)) as (vs' & Ev' & _ & N & _). rewrite E2 in Ev'. injection Ev' as <-.
  destruct vs as [|a [|b [|c [|d l]]]]; [left; cbn; lia..|right]. split; [repeat (apply Forall_cons; [unfold valid_draw; cbn; lia|]); apply Forall_nil|].
  assert (Np : NoDup (map pp (a :: b :: c :: d :: l))).
  { clear - N. induction (a :: b :: c :: d :: l) as [|x m IH]; [constructor|]. cbn [map] in *. apply NoDup_cons_iff in N as [X N]. constructor; [|exact (IH N)].
    intros H. apply in_map_iff in H as (y & E & Iy). apply X. apply SolidLemmas.pp_iff in E. rewrite <- E. apply in_map. exact Iy. }
  cbn [map] in Np.
  destruct (P_Edges.cut_points a) as (a' & Ia & Ea); [apply Io, I; cbn; tauto|]. destruct (P_Edges.cut_points b) as (b' & Ib & Eb); [apply Io, I; cbn; tauto|].
  destruct (P_Edges.cut_points c) as (c' & Ic & Ec); [apply Io, I; cbn; tauto|]. destruct (P_Edges.cut_points d) as (d' & Id & Ed); [apply Io, I; cbn; tauto|].
  rewrite Ea, Eb, Ec, Ed in Np.
  assert (N4 : NoDup [a'; b'; c'; d']).
  { apply (NoDup_map_inv P_Convex.ax). cbn [map]. change (NoDup ([P_Convex.ax a'; P_Convex.ax b'; P_Convex.ax c'; P_Convex.ax d'] ++ map pp l)) in Np. exact (proj1 (BorderLemmas.NoDup_halves _ _ Np)). }
  destruct (cc_four a' b' c' d' Ia Ib Ic Id N4) as [W|W].
  - exists 0%nat, 1%nat, 2%nat, a, b, c. rewrite Ea, Eb, Ec. split; [cbn; tauto|]. repeat (split; [reflexivity|]). exact (wide_cross _ _ _ W).
  - exists 0%nat, 1%nat, 3%nat, a, b, d. rewrite Ea, Eb, Ed. split; [cbn; tauto|]. repeat (split; [reflexivity|]). exact (wide_cross _ _ _ W).
Qed.
Example E_C120_ex : let two := fun _ _ : nat => [(0,1,2); (0,1,3)]%nat in
  cut <> [] /\ Forall (fun t => length t = 4%nat /\ grids 6 1 6 t) cut /\ one_name (concat cut) /\
  (forall t, In t cut -> pvol t <> 0) /\ face_to_face (map (map pp) cut) /\ sharp3 (concat cut) /\ Float.tame 2 5 (concat cut) /\ (2 + 5) * 5 ^ 2 <= 250 /\
  exists s, m_generator_surface_1 Bnum cut = Ok s /\ (forall x, skin s x <-> boundary3 (region cut) x) /\
  (forall i j t u vs, nth_error s i = Some t -> nth_error s j = Some u -> i <> j -> m_remove_doubling_in_perp_space (A3 (t ++ u)) = Ok vs ->
     (length vs <= 3)%nat \/ Forall (valid_draw (length vs)) (two i j) /\
     (exists x y z a b c, In (x, y, z) (two i j) /\ nth_error vs x = Some a /\ nth_error vs y = Some b /\ nth_error vs z = Some c /\
        cross3 (sub3 (pp b) (pp a)) (sub3 (pp c) (pp a)) <> o3)) /\
  exists r, m_generate_border_edges Bnum two cut = Ok r /\ (forall x, drawn3 r x <-> on_border s x).
Proof.
  intros two. destruct P_Edges.cut_solid as (Ne & To & NF & FF & _).
  destruct (L_C120_surface textbook 1 cut ltac:(lia) Ne cut_grid6 cut_name NF FF) as (s & Es & ND & Is & Bs).
  assert (S : forall i j t u vs, nth_error s i = Some t -> nth_error s j = Some u -> i <> j -> m_remove_doubling_in_perp_space (A3 (t ++ u)) = Ok vs ->
     (length vs <= 3)%nat \/ Forall (valid_draw (length vs)) (two i j) /\
     (exists x y z a b c, In (x, y, z) (two i j) /\ nth_error vs x = Some a /\ nth_error vs y = Some b /\ nth_error vs z = Some c /\
        cross3 (sub3 (pp b) (pp a)) (sub3 (pp c) (pp a)) <> o3)).
  { intros i j t u vs Ei Ej _ Ev. exact (cut_samples t u vs (Is _ (nth_error_In _ _ Ei)) (Is _ (nth_error_In _ _ Ej)) Ev). }
  split; [exact Ne|]. split; [exact cut_grid6|]. split; [exact cut_name|]. split; [exact NF|]. split; [exact FF|]. split; [exact P_Edges.cut_sharp|]. split; [exact cut_tame|]. split; [lra|].
  exists s. split; [exact Es|]. split; [exact Bs|]. split; [exact S|].
  destruct (L_C120_edges textbook LinAlgLemmas.textbook_ok 1 2 5 two cut s ltac:(lia) Ne cut_grid6 cut_name NF FF P_Edges.cut_sharp cut_tame ltac:(lra) Es S) as (r & Er & Dr & _). exists r. split; [exact Er|exact Dr].
Qed.
