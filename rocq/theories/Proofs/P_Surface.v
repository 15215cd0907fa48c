(** Surfaces, unique edges, coplanar groups, merging of edges, border edges and convex
    hull (ico2/utils.py): C24, C25, C27, C28, C57, C58, C80. *)
From Coq Require Import Reals List ZArith Lia Lra Bool Permutation.
From Verif Require Import Base.Res Model.Tau Model.Arr Model.IcoDedup Model.Num Model.IcoNumeric Model.IcoIntersect Model.IcoSurface
  Spec.Value Spec.RVec Spec.Shape Spec.Mean Spec.IcoSpec Spec.Geometry Spec.Sets Spec.Space Spec.Surface Spec.Samples.
Import ListNotations.
Local Open Scope R_scope.

From Verif Require Import Spec.Tetra Proofs.Irrational Proofs.ResLemmas Proofs.ScalarLemmas Proofs.RVecLemmas Proofs.VectorLemmas Proofs.MeanLemmas Proofs.DedupLemmas
  Proofs.NumLemmas Proofs.IntersectLemmas Proofs.SurfaceLemmas Proofs.MergeLemmas Proofs.P_Intersect.

Lemma same_corners_centre f g : NoDup (map ppoint f) -> NoDup (map ppoint g) -> same_set (map ppoint f) (map ppoint g) -> pcentre f = pcentre g.
Proof. intros Nf Ng S. unfold pcentre. apply mean_perm. apply NoDup_Permutation; assumption. Qed.
Lemma faces_nodup o : tets o -> Forall (fun t => NoDup (map ppoint t)) o -> forall f, In f (all_faces o) -> NoDup (map ppoint f).
Proof.
  intros T ND f Hf. unfold all_faces in Hf. apply in_concat in Hf as (l & Hl & Hf). apply in_map_iff in Hl as (t & <- & Ht).
  unfold tets in T. rewrite Forall_forall in T, ND. destruct (T t Ht) as [L G]. specialize (ND t Ht).
  destruct t as [|a [|b [|c [|d [|]]]]]; try discriminate L. pose proof (faces_nd a b c d G ND) as K. rewrite Forall_forall in K. apply K, Hf.
Qed.
Lemma not_apart p : ~ apart p p.
Proof. intros (i & x & y & Ex & Ey & A & _). rewrite Ex in Ey. injection Ey as <-. rewrite Rminus_diag_eq, Rabs_R0 in A by reflexivity. pose proof (Rabs_pos x). lra. Qed.

Lemma apart_easy p q i x y : nth_error p i = Some x -> nth_error q i = Some y -> (1/10 < x - y \/ 1/10 < y - x) -> -10 < x < 10 -> -10 < y < 10 -> apart p q.
Proof.
  intros Hx Hy D Bx By. exists i, x, y. split; [exact Hx|]. split; [exact Hy|].
  assert (Rabs x < 10) by (apply Rabs_def1; lra). assert (Rabs y < 10) by (apply Rabs_def1; lra).
  assert (1/10 < Rabs (x - y)) by (destruct D; [rewrite Rabs_right by lra|rewrite Rabs_left by lra]; lra). lra.
Qed.
Lemma AB_faces : forall f g, In f (all_faces [tetA; tetB]) -> In g (all_faces [tetA; tetB]) ->
  same_set (map ppoint f) (map ppoint g) \/ apart (pcentre f) (pcentre g).
Proof.
  pose proof TAU_bounds as TB.
  assert (P0 : ppoint o6 = [0; 0; 0]) by (unfold ppoint, o6, iv; cbn; unfold val; cbn [ta tb tc]; apply f_equal2; [|apply f_equal2; [|apply f_equal2; [|reflexivity]]]; field).
  assert (P1 : ppoint x1 = [TAU; -1; 0]) by (unfold ppoint, x1, iv; cbn; unfold val; cbn [ta tb tc]; apply f_equal2; [|apply f_equal2; [|apply f_equal2; [|reflexivity]]]; field).
  assert (P2 : ppoint x2 = [-1; 0; TAU]) by (unfold ppoint, x2, iv; cbn; unfold val; cbn [ta tb tc]; apply f_equal2; [|apply f_equal2; [|apply f_equal2; [|reflexivity]]]; field).
  assert (P4 : ppoint x4 = [0; TAU; 1]) by (unfold ppoint, x4, iv; cbn; unfold val; cbn [ta tb tc]; apply f_equal2; [|apply f_equal2; [|apply f_equal2; [|reflexivity]]]; field).
  assert (P6 : ppoint x6 = [0; TAU; -1]) by (unfold ppoint, x6, iv; cbn; unfold val; cbn [ta tb tc]; apply f_equal2; [|apply f_equal2; [|apply f_equal2; [|reflexivity]]]; field).
  intros f g Hf Hg. cbn [all_faces map tet_faces tetA tetB concat app In] in Hf, Hg. unfold pcentre.
  repeat (destruct Hf as [<-|Hf]; [|]); try (destruct Hf);
  repeat (destruct Hg as [<-|Hg]; [|]); try (destruct Hg);
  first [left; intros x; reflexivity
        | right; cbn [map]; rewrite ?P0, ?P1, ?P2, ?P4, ?P6; unfold mean, zerov; cbn [vsum vadd vscale map length repeat INR];
          cbn; first [eapply (apart_easy _ _ 0); [reflexivity|reflexivity|lra|lra|lra]
          | eapply (apart_easy _ _ 1); [reflexivity|reflexivity|lra|lra|lra] | eapply (apart_easy _ _ 2); [reflexivity|reflexivity|lra|lra|lra]]].
Qed.
Lemma AB_nodup : Forall (fun t => NoDup (map ppoint t)) [tetA; tetB].
Proof.
  pose proof TAU_bounds as TB.
  assert (P0 : ppoint o6 = [0; 0; 0]) by (unfold ppoint, o6, iv; cbn; unfold val; cbn [ta tb tc]; apply f_equal2; [|apply f_equal2; [|apply f_equal2; [|reflexivity]]]; field).
  assert (P1 : ppoint x1 = [TAU; -1; 0]) by (unfold ppoint, x1, iv; cbn; unfold val; cbn [ta tb tc]; apply f_equal2; [|apply f_equal2; [|apply f_equal2; [|reflexivity]]]; field).
  assert (P2 : ppoint x2 = [-1; 0; TAU]) by (unfold ppoint, x2, iv; cbn; unfold val; cbn [ta tb tc]; apply f_equal2; [|apply f_equal2; [|apply f_equal2; [|reflexivity]]]; field).
  assert (P4 : ppoint x4 = [0; TAU; 1]) by (unfold ppoint, x4, iv; cbn; unfold val; cbn [ta tb tc]; apply f_equal2; [|apply f_equal2; [|apply f_equal2; [|reflexivity]]]; field).
  assert (P6 : ppoint x6 = [0; TAU; -1]) by (unfold ppoint, x6, iv; cbn; unfold val; cbn [ta tb tc]; apply f_equal2; [|apply f_equal2; [|apply f_equal2; [|reflexivity]]]; field).
  repeat apply Forall_cons; try apply Forall_nil; cbn [tetA tetB map]; rewrite P0, P1, P2, ?P4, ?P6;
  repeat (constructor; [cbn [In]; intros H; repeat (destruct H as [H|H]; [injection H; lra|]); exact H|]); constructor.
Qed.

(** C24: the surface of one tetrahedron is its four faces. *)
Lemma L_C24_single : forall N a b c d, generator_surface_1 N [[a; b; c; d]] = Ok [[a;b;c]; [a;b;d]; [a;c;d]; [b;c;d]].
Proof. reflexivity. Qed.

(** Two or more tetrahedra, in exact arithmetic, when different face centres are told apart
    by np.allclose: every face whose centre belongs to no other face is returned exactly
    once, and no other face is. *)
Lemma L_C24_surface : forall o, tets o -> (2 <= length o)%nat ->
  (forall f g, In f (all_faces o) -> In g (all_faces o) -> pcentre f = pcentre g \/ apart (pcentre f) (pcentre g)) ->
  exists is r, generator_surface_1 Rnum o = Ok r /\ Forall2 (fun i f => nth_error (all_faces o) i = Some f) is r /\
    NoDup is /\ forall i, In i is <-> alone (all_faces o) i.
Proof.
  intros o T L H. destruct (surface_R o T) as (is & r & E & ND & F & I); [lia|lia|exact H|]. exists is, r. auto.
Qed.

(** The same in any arithmetic that computes equal centres as equal numbers, different
    ones as not close, and compares the computed coordinates like real numbers. *)
Lemma L_C24_surface_any : forall N o, tets o -> (2 <= length o)%nat ->
  (forall f g, In f (all_faces o) -> In g (all_faces o) -> pcentre f = pcentre g -> centre N f = centre N g) ->
  (forall f g p q, In f (all_faces o) -> In g (all_faces o) -> centre N f = Ok p -> centre N g = Ok q ->
     (allclose N p q = true <-> pcentre f = pcentre g)) ->
  (forall ps, mapM (centre N) (all_faces o) = Ok ps -> ordered N (allclose N) ps) ->
  exists is r, generator_surface_1 N o = Ok r /\ Forall2 (fun i f => nth_error (all_faces o) i = Some f) is r /\
    NoDup is /\ forall i, In i is <-> alone (all_faces o) i.
Proof.
  intros N o T L H1 H2 H3. destruct (surface_spec N o T) as (is & r & E & ND & F & I); [lia|lia|exact H1|exact H2|exact H3|]. exists is, r. auto.
Qed.

(** Face-to-face tetrahedra (any two faces have the same corners or centres that are told
    apart): the surface consists of the faces that belong to one tetrahedron only. *)
Lemma L_C24_boundary : forall o, tets o -> (2 <= length o)%nat -> Forall (fun t => NoDup (map ppoint t)) o ->
  (forall f g, In f (all_faces o) -> In g (all_faces o) ->
     same_set (map ppoint f) (map ppoint g) \/ apart (pcentre f) (pcentre g)) ->
  exists r, generator_surface_1 Rnum o = Ok r /\ NoDup r /\ forall f, In f r <-> In f (all_faces o) /\ once f (all_faces o).
Proof.
  intros o T L ND0 H. pose proof (faces_nodup o T ND0) as FN.
  assert (SC : forall f g, In f (all_faces o) -> In g (all_faces o) -> same_set (map ppoint f) (map ppoint g) <-> pcentre f = pcentre g).
  { intros f g Hf Hg. split; [apply same_corners_centre; auto|]. intros E. destruct (H f g Hf Hg) as [S|A]; [exact S|]. rewrite E in A. apply not_apart in A as []. }
  destruct (L_C24_surface o T L) as (is & r & E & F & ND & I).
  { intros f g Hf Hg. destruct (H f g Hf Hg) as [S|A]; [left; apply SC; assumption|auto]. }
  exists r. split; [exact E|].
  assert (Inr : forall f, In f r <-> exists i, nth_error (all_faces o) i = Some f /\ alone (all_faces o) i).
  { intros f. split.
    - intros Hf. apply In_nth_error in Hf as (n & Hn). destruct (F2_nth' _ _ _ _ _ F Hn) as (i & Hi & Ef). exists i. split; [exact Ef|]. apply I. eapply nth_error_In; exact Hi.
    - intros (i & Ef & A). apply I in A. apply In_nth_error in A as (n & Hn). destruct (F2_nth _ _ _ _ _ F Hn) as (f' & Hf & Ef'). rewrite Ef in Ef'. injection Ef' as <-.
      eapply nth_error_In; exact Hf. }
  split.
  - assert (Al : forall i, In i is -> alone (all_faces o) i) by (intros i Hi; apply I, Hi). clear - F ND Al.
    induction F as [|i f is r Ef F IH]; [constructor|]. inversion ND as [|? ? Ni ND']; subst. constructor.
    + intros Hf. apply In_nth_error in Hf as (n & Hn). destruct (F2_nth' _ _ _ _ _ F Hn) as (j & Hj & Ef'). destruct (Al i (or_introl eq_refl)) as (f' & E1 & U).
      rewrite Ef in E1. injection E1 as <-. apply nth_error_In in Hj. specialize (U j f Ef' eq_refl). congruence.
    + apply IH; [exact ND'|]. intros j Hj. apply Al. right. exact Hj.
  - intros f. rewrite Inr. split.
    + intros (i & Ef & (f' & Ef' & U)). rewrite Ef in Ef'. injection Ef' as <-. pose proof (nth_error_In _ _ Ef) as If. split; [exact If|].
      exists i. split; [exists f; split; [exact Ef|intros x; tauto]|]. intros j (g & Eg & S). symmetry. apply (U j g Eg). symmetry. apply SC; [exact If|eapply nth_error_In; exact Eg|exact S].
    + intros (Hf & i & (g & Eg & S) & U). pose proof Hf as Hf0. apply In_nth_error in Hf as (k & Hk). assert (i = k) by (apply U; exists f; split; [exact Hk|intros x; tauto]). subst k.
      exists i. split; [exact Hk|]. exists f. split; [exact Hk|]. intros j g' Eg' Ec. symmetry. apply U. exists g'. split; [exact Eg'|].
      apply SC; [exact Hf0|eapply nth_error_In; exact Eg'|auto].
Qed.

(** An object with no tetrahedron raises. *)
Lemma L_C24_empty : forall N, generator_surface_1 N [] = Raise IndexError.
Proof. reflexivity. Qed.

(** In binary64 the claim fails even for two tetrahedra on opposite sides of a common face:
    a vertex of that face written with different 6-d coordinates (same point of
    perpendicular space) is computed with a rounding error that sorts another centre
    between the two copies, and both copies of the inner face are returned. *)
Definition k6 : vec := [T (-1) 1 1; T 1 0 1; T 0 0 1; T 1 (-1) 1; T 0 0 1; T 1 0 1].
Definition x1k : vec := [T 0 1 1; T 1 0 1; T 0 0 1; T 1 (-1) 1; T 0 0 1; T 1 0 1].
Definition mx1 : vec := iv [-1;0;0;0;0;0]%Z.
Definition mx3 : vec := iv [0;0;-1;0;0;0]%Z.
Lemma ppoint_x1k : ppoint x1k = ppoint x1.
Proof. unfold ppoint, x1k, x1, iv. cbn. unfold val; cbn [ta tb tc]. apply f_equal2; [|apply f_equal2; [|apply f_equal2; [|reflexivity]]]; field [TAU_sq]. Qed.
Lemma L_C24_binary64_refuted : exists t1 t2 f1 f2 r, tets [t1; t2] /\ In f1 (tet_faces t1) /\ In f2 (tet_faces t2) /\
  map ppoint f1 = map ppoint f2 /\ generator_surface_1 Bnum [t1; t2] = Ok r /\ In f1 r /\ In f2 r /\ length r = 8%nat.
Proof.
  exists [x1; mx1; x2; mx3], [x1k; mx1; x2; x3], [x1; mx1; x2], [x1k; mx1; x2]. 
  destruct (generator_surface_1 Bnum [[x1; mx1; x2; mx3]; [x1k; mx1; x2; x3]]) as [r|] eqn:E; [|vm_compute in E; discriminate].
  exists r. split; [gd|]. split; [left; reflexivity|]. split; [left; reflexivity|]. split; [cbn [map]; rewrite ppoint_x1k; reflexivity|]. split; [reflexivity|].
  vm_compute in E. injection E as <-. vm_compute. tauto.
Qed.

Example E_C24_hyps : tets [tetA; tetB] /\ Forall (fun t => NoDup (map ppoint t)) [tetA; tetB] /\
  forall f g, In f (all_faces [tetA; tetB]) -> In g (all_faces [tetA; tetB]) ->
    same_set (map ppoint f) (map ppoint g) \/ apart (pcentre f) (pcentre g).
Proof. split; [gd|]. split; [exact AB_nodup|exact AB_faces]. Qed.
Example E_C24_ex : exists r, generator_surface_1 Bnum [tetA; tetB] = Ok r /\ length r = 6%nat /\ ~ In [o6; x1; x2] r /\ length (all_faces [tetA; tetB]) = 8%nat.
Proof.
  destruct (generator_surface_1 Bnum [tetA; tetB]) as [r|] eqn:E; [|vm_compute in E; discriminate]. exists r. split; [reflexivity|]. vm_compute in E. injection E as <-.
  split; [reflexivity|]. split; [|reflexivity]. intros H. cbn in H. repeat (destruct H as [H|H]; [discriminate H|]). exact H.
Qed.

(** C25: the "unique" edges: one edge per midpoint.  [n2]: the number of vertices of the
    elements of the object (2: edges, 3: triangles, 4: tetrahedra). *)
Lemma L_C25_unique_edges : forall n2 o, (n2 = 2 \/ n2 = 3 \/ n2 = 4)%nat -> Forall (fun t => length t = n2 /\ goods 6 t) o ->
  exists r, generator_unique_edges Rnum n2 o = Ok r /\ incl r (edges_of n2 o) /\ NoDup (map pcentre r) /\
    (forall e, In e (edges_of n2 o) -> exists! u, In u r /\ pcentre u = pcentre e) /\
    (forall e, In e r -> exists i, nth_error (edges_of n2 o) i = Some e /\
       forall j g, (j < i)%nat -> nth_error (edges_of n2 o) j = Some g -> pcentre g <> pcentre e).
Proof.
  intros n2 o Hn H. assert (Hl : Forall (fun t => length t = n2) o) by (eapply Forall_impl; [|exact H]; intros ? [? _]; assumption).
  destruct (edges_of_good n2 o Hn H) as (G & _). destruct (pick_unique_R (edges_of n2 o)) as (r & E & ND & C & Fst).
  { eapply Forall_impl; [|exact G]. intros e [L Ge]. split; [intros ->; discriminate|exact Ge]. }
  rewrite <- (unique_edges_unfold Rnum n2 o Hn Hl) in E. exists r. split; [exact E|]. split; [eapply unique_edges_incl; eassumption|]. split; [exact ND|]. split; [|exact Fst].
  intros e He. pose proof (C e He) as Hc. apply in_map_iff in Hc as (u & Eu & Iu). exists u. split; [auto|]. intros v [Iv Ev].
  apply (NoDup_map_inj pcentre r); congruence || assumption.
Qed.

(** Two edges with different end points but the same midpoint are never both returned:
    in the union of two tetrahedra the edge from x1 to x2 is lost because an earlier edge
    crosses it. *)
Definition crossing1 : vecs := [o6; iv [1;1;0;0;0;0]%Z; x4; x6].
Definition crossing2 : vecs := [x1; x2; x3; x5].
Lemma L_C25_edge_lost_refuted : exists o e r, tets o /\ In e (edges_of 4 o) /\ generator_unique_edges Rnum 4 o = Ok r /\
  forall g, In g r -> ~ same_set (map ppoint e) (map ppoint g).
Proof.
  set (o := [crossing1; crossing2]). assert (T : tets o) by gd.
  destruct (L_C25_unique_edges 4 o) as (r & E & I & ND & U & Fst); [auto|exact T|].
  exists o, [x1; x2], r. split; [exact T|]. split; [cbn; auto 10|]. split; [exact E|]. intros g Hg S.
  assert (P1 : ppoint x1 = [TAU; -1; 0]).
  { unfold ppoint, x1, iv. cbn. unfold val; cbn [ta tb tc]. apply f_equal2; [|apply f_equal2; [|apply f_equal2; [|reflexivity]]]; field. }
  assert (P2 : ppoint x2 = [-1; 0; TAU]).
  { unfold ppoint, x2, iv. cbn. unfold val; cbn [ta tb tc]. apply f_equal2; [|apply f_equal2; [|apply f_equal2; [|reflexivity]]]; field. }
  assert (P0 : ppoint o6 = [0; 0; 0]).
  { unfold ppoint, o6, iv. cbn. unfold val; cbn [ta tb tc]. apply f_equal2; [|apply f_equal2; [|apply f_equal2; [|reflexivity]]]; field. }
  assert (P12 : ppoint (iv [1;1;0;0;0;0]%Z) = [TAU - 1; -1; TAU]).
  { unfold ppoint, iv. cbn. unfold val; cbn [ta tb tc]. apply f_equal2; [|apply f_equal2; [|apply f_equal2; [|reflexivity]]]; field. }
  pose proof TAU_bounds as TB.
  assert (Ge : exists u v, g = [u; v]).
  { destruct (edges_of_good 4 o) as (G & _); [auto|exact T|]. rewrite Forall_forall in G. destruct (G g (I g Hg)) as [L _]. destruct g as [|u [|v [|]]]; try discriminate L. eauto. }
  destruct Ge as (u & v & ->).
  assert (Ec : pcentre [u; v] = pcentre [o6; iv [1;1;0;0;0;0]%Z]).
  { assert (Hu : In (ppoint u) [ppoint x1; ppoint x2]) by (apply S; left; reflexivity).
    assert (Hv : In (ppoint v) [ppoint x1; ppoint x2]) by (apply S; right; left; reflexivity).
    assert (H1 : In (ppoint x1) [ppoint u; ppoint v]) by (apply S; left; reflexivity).
    assert (H2 : In (ppoint x2) [ppoint u; ppoint v]) by (apply S; right; left; reflexivity).
    assert (N12 : ppoint x1 <> ppoint x2) by (rewrite P1, P2; intros H; injection H; lra).
    unfold pcentre. cbn [map]. rewrite P0, P12. 
    assert (Cs : mean 3 [[TAU; -1; 0]; [-1; 0; TAU]] = mean 3 [[0; 0; 0]; [TAU - 1; -1; TAU]] /\ mean 3 [[-1; 0; TAU]; [TAU; -1; 0]] = mean 3 [[0; 0; 0]; [TAU - 1; -1; TAU]]).
    { unfold mean, zerov. cbn. split; (apply f_equal2; [|apply f_equal2; [|apply f_equal2; [|reflexivity]]]; field). }
    rewrite <- P1, <- P2 in Cs. cbn [In] in *. destruct Hu as [Hu|[Hu|[]]], Hv as [Hv|[Hv|[]]]; rewrite <- Hu, <- Hv in *; try tauto; exfalso; destruct H1 as [?|[?|[]]], H2 as [?|[?|[]]]; congruence. }
  destruct (Fst _ Hg) as (i & Ei & Hi). destruct i as [|i].
  - cbn in Ei. injection Ei as <- <-. assert (H0 : In (ppoint o6) (map ppoint [x1; x2])) by (apply S; left; reflexivity).
    cbn [map In] in H0. rewrite P0, P1, P2 in H0. destruct H0 as [H0|[H0|[]]]; injection H0; lra.
  - apply (Hi 0%nat [o6; iv [1;1;0;0;0;0]%Z]); [lia|reflexivity|auto].
Qed.

(** In binary64 "one edge per midpoint" fails too: the same edge, with one end point written
    with other 6-d coordinates, is returned twice. *)
Lemma L_C25_binary64_refuted : exists e f r, Forall (fun t => length t = 2%nat /\ goods 6 t) [e; f] /\ map ppoint e = map ppoint f /\
  generator_unique_edges Bnum 2 [e; f] = Ok r /\ In e r /\ In f r.
Proof.
  exists [x1; mx1], [x1k; mx1].
  destruct (generator_unique_edges Bnum 2 [[x1; mx1]; [x1k; mx1]]) as [r|] eqn:E; [|vm_compute in E; discriminate].
  exists r. split; [gd|]. split; [cbn [map]; rewrite ppoint_x1k; reflexivity|]. split; [reflexivity|]. vm_compute in E. injection E as <-. vm_compute. tauto.
Qed.

Example E_C25_ex : (exists r, generator_unique_edges Bnum 4 [tetA; tetB] = Ok r /\ length r = 9%nat) /\
  length (edges_of 4 [tetA; tetB]) = 12%nat /\ tets [tetA; tetB].
Proof.
  split; [|split; [reflexivity|gd]]. destruct (generator_unique_edges Bnum 4 [tetA; tetB]) as [r|] eqn:E; [|vm_compute in E; discriminate].
  exists r. split; [reflexivity|]. vm_compute in E. injection E as <-. reflexivity.
Qed.

(** C80: the "unique" triangles of two or more tetrahedra: one face per centre, the first
    in the list. *)
Lemma L_C80_unique_triangles : forall o, tets o -> length o <> 1%nat ->
  exists r, generator_unique_triangles Rnum o = Ok r /\ incl r (all_faces o) /\ NoDup (map pcentre r) /\
    (forall f, In f (all_faces o) -> exists! u, In u r /\ pcentre u = pcentre f) /\
    (forall f, In f r -> exists i, nth_error (all_faces o) i = Some f /\
       forall j g, (j < i)%nat -> nth_error (all_faces o) j = Some g -> pcentre g <> pcentre f).
Proof.
  intros o T L. unfold generator_unique_triangles. rewrite mapM_surface by (apply tets_len, T). cbn [bind]. fold (all_faces o).
  rewrite (proj2 (Nat.eqb_neq _ _) L). destruct (pick_unique_R (all_faces o)) as (r & E & ND & C & Fst).
  { apply Forall_forall. intros f Hf. destruct (all_faces_good o T f Hf) as [Lf Gf]. split; [intros ->; discriminate|exact Gf]. }
  exists r. split; [exact E|]. split; [intros f Hf; destruct (Fst f Hf) as (i & Ei & _); eapply nth_error_In; exact Ei|]. split; [exact ND|]. split; [|exact Fst].
  intros e He. pose proof (C e He) as Hc. apply in_map_iff in Hc as (u & Eu & Iu). exists u. split; [auto|]. intros v [Iv Ev].
  apply (NoDup_map_inj pcentre r); congruence || assumption.
Qed.
(** One tetrahedron: its four faces. *)
Lemma L_C80_single : forall N a b c d, generator_unique_triangles N [[a; b; c; d]] = Ok [[a;b;c]; [a;b;d]; [a;c;d]; [b;c;d]].
Proof. reflexivity. Qed.
(** When faces with equal centres have equal corners, every face is represented by exactly
    one triangle with the same corners. *)
Lemma L_C80_corners : forall o, tets o -> length o <> 1%nat -> Forall (fun t => NoDup (map ppoint t)) o ->
  (forall f g, In f (all_faces o) -> In g (all_faces o) -> pcentre f = pcentre g -> same_set (map ppoint f) (map ppoint g)) ->
  exists r, generator_unique_triangles Rnum o = Ok r /\ incl r (all_faces o) /\ NoDup r /\
    forall f, In f (all_faces o) -> exists! u, In u r /\ same_set (map ppoint u) (map ppoint f).
Proof.
  intros o T L ND H. destruct (L_C80_unique_triangles o T L) as (r & E & I & N & U & _). exists r. split; [exact E|]. split; [exact I|]. split; [eapply NoDup_map_inv; exact N|].
  intros f Hf. destruct (U f Hf) as (u & (Iu & Eu) & Uu). exists u. split; [split; [exact Iu|apply H; [apply I, Iu|exact Hf|exact Eu]]|].
  intros v (Iv & Sv). apply Uu. split; [exact Iv|]. apply same_corners_centre; [apply (faces_nodup o T ND), I, Iv|apply (faces_nodup o T ND), Hf|exact Sv].
Qed.
(** Otherwise a face is lost: of two different faces with the same centre only the first
    is returned. *)
Definition cofaced1 : vecs := [o6; iv [1;1;0;0;0;0]%Z; x3; x5].
Definition cofaced2 : vecs := [x1; x2; x3; x6].
Ltac pt3 := unfold ppoint, o6, x1, x2, x3, x5, x6, iv; cbn; unfold val; cbn [ta tb tc]; apply f_equal2; [|apply f_equal2; [|apply f_equal2; [|reflexivity]]]; field.
Lemma L_C80_face_lost_refuted : exists o f r, tets o /\ Forall (fun t => NoDup (map ppoint t)) o /\ In f (all_faces o) /\ generator_unique_triangles Rnum o = Ok r /\
  forall g, In g r -> ~ same_set (map ppoint f) (map ppoint g).
Proof.
  set (o := [cofaced1; cofaced2]). assert (T : tets o) by gd.
  assert (P0 : ppoint o6 = [0; 0; 0]) by pt3. assert (P1 : ppoint x1 = [TAU; -1; 0]) by pt3. assert (P2 : ppoint x2 = [-1; 0; TAU]) by pt3.
  assert (P3 : ppoint x3 = [-1; 0; -TAU]) by pt3. assert (P5 : ppoint x5 = [-TAU; -1; 0]) by pt3. assert (P6 : ppoint x6 = [0; TAU; -1]) by pt3.
  assert (P12 : ppoint (iv [1;1;0;0;0;0]%Z) = [TAU - 1; -1; TAU]) by pt3. pose proof TAU_bounds as TB.
  assert (ND : Forall (fun t => NoDup (map ppoint t)) o).
  { unfold o, cofaced1, cofaced2. repeat (apply Forall_cons || apply Forall_nil); cbn [map]; rewrite ?P0, ?P1, ?P2, ?P3, ?P5, ?P6, ?P12;
      repeat (apply NoDup_cons; [cbn [In]; intros K; repeat (destruct K as [K|K]; [injection K; lra|]); exact K|]); apply NoDup_nil. }
  destruct (L_C80_unique_triangles o T) as (r & E & I & N & U & Fst); [discriminate|].
  exists o, [x1; x2; x3], r. split; [exact T|]. split; [exact ND|]. split; [cbn; tauto|]. split; [exact E|]. intros g Hg S.
  assert (Ec : pcentre g = pcentre [o6; iv [1;1;0;0;0;0]%Z; x3]).
  { transitivity (pcentre [x1; x2; x3]).
    - apply same_corners_centre; [apply (faces_nodup o T ND), I, Hg|apply (faces_nodup o T ND); cbn; tauto|intros x; symmetry; apply S].
    - unfold pcentre. cbn [map]. rewrite P0, P1, P2, P3, P12. unfold mean, zerov. cbn. apply f_equal2; [|apply f_equal2; [|apply f_equal2; [|reflexivity]]]; field. }
  destruct (Fst _ Hg) as (i & Ei & Hi). destruct i as [|i].
  - cbn in Ei. injection Ei as <-. assert (H0 : In (ppoint o6) (map ppoint [x1; x2; x3])) by (apply S; left; reflexivity).
    cbn [map In] in H0. rewrite P0, P1, P2, P3 in H0. destruct H0 as [H0|[H0|[H0|[]]]]; injection H0; lra.
  - apply (Hi 0%nat [o6; iv [1;1;0;0;0;0]%Z; x3]); [lia|reflexivity|auto].
Qed.
(** In binary64 the common face of two tetrahedra can be returned twice. *)
Lemma L_C80_binary64_refuted : exists t1 t2 f1 f2 r, tets [t1; t2] /\ In f1 (tet_faces t1) /\ In f2 (tet_faces t2) /\
  map ppoint f1 = map ppoint f2 /\ generator_unique_triangles Bnum [t1; t2] = Ok r /\ In f1 r /\ In f2 r.
Proof.
  exists [x1; mx1; x2; mx3], [x1k; mx1; x2; x3], [x1; mx1; x2], [x1k; mx1; x2]. 
  destruct (generator_unique_triangles Bnum [[x1; mx1; x2; mx3]; [x1k; mx1; x2; x3]]) as [r|] eqn:E; [|vm_compute in E; discriminate].
  exists r. split; [gd|]. split; [left; reflexivity|]. split; [left; reflexivity|]. split; [cbn [map]; rewrite ppoint_x1k; reflexivity|]. split; [reflexivity|].
  vm_compute in E. injection E as <-. vm_compute. tauto.
Qed.
Example E_C80_ex : tets [tetA; tetB] /\ Forall (fun t => NoDup (map ppoint t)) [tetA; tetB] /\
  (forall f g, In f (all_faces [tetA; tetB]) -> In g (all_faces [tetA; tetB]) -> pcentre f = pcentre g -> same_set (map ppoint f) (map ppoint g)) /\
  exists r, generator_unique_triangles Bnum [tetA; tetB] = Ok r /\ length r = 7%nat.
Proof.
  split; [gd|]. split; [exact AB_nodup|]. split.
  - intros f g Hf Hg Eq. destruct (AB_faces f g Hf Hg) as [S|A]; [exact S|]. rewrite Eq in A. apply not_apart in A as [].
  - destruct (generator_unique_triangles Bnum [tetA; tetB]) as [r|] eqn:E; [|vm_compute in E; discriminate].
    exists r. split; [reflexivity|]. vm_compute in E. injection E as <-. reflexivity.
Qed.

(** C27: the coplanar groups, for any test: every triangle in exactly one group, no group
    empty, each member tested coplanar with the first triangle of its group (which comes
    first in the surface), and not with the first triangle of any earlier group. *)
Lemma L_C27_partition : forall copl surface r, surface <> [] -> get_sets_of_coplanar_triangles copl surface = Ok r ->
  exists gs : list (list nat), Forall2 (Forall2 (fun i t => nth_error surface i = Some t)) gs r /\
    Permutation (concat gs) (seq 0 (length surface)) /\
    (forall g, In g gs -> exists h l, g = h :: l /\ forall i, In i l -> (h < i)%nat /\
       exists t u, nth_error surface i = Some t /\ nth_error surface h = Some u /\ copl i h t u = Ok true) /\
    (forall a b i h g' l, nth_error gs a = Some (h :: l) -> nth_error gs b = Some g' -> (a < b)%nat -> In i g' -> (h < i)%nat /\
       exists t u, nth_error surface i = Some t /\ nth_error surface h = Some u /\ copl i h t u = Ok false).
Proof. exact groups_spec. Qed.

(** It raises only if the test raises; an empty surface gives one empty group. *)
Lemma L_C27_total : forall copl surface,
  (forall i j t u, nth_error surface i = Some t -> nth_error surface j = Some u -> exists b, copl i j t u = Ok b) ->
  exists r, get_sets_of_coplanar_triangles copl surface = Ok r.
Proof. exact groups_total. Qed.
Lemma L_C27_empty : forall copl, get_sets_of_coplanar_triangles copl [] = Ok [[]].
Proof. reflexivity. Qed.

Example E_C27_ex : exists a b c d, get_sets_of_coplanar_triangles (fun _ _ => coplanar_check_two_triangles Bnum [(0,1,2)%nat])
    [[o6; x1; x2]; [o6; x1; x4]; [x1; x2; iv [1;1;0;0;0;0]%Z]; [o6; x2; x4]] = Ok [[a; b]; [c]; [d]] /\ a = [o6; x1; x2] /\ b = [x1; x2; iv [1;1;0;0;0;0]%Z].
Proof.
  exists [o6; x1; x2], [x1; x2; iv [1;1;0;0;0;0]%Z], [o6; x1; x4], [o6; x2; x4].
  split; [vm_compute; reflexivity|split; reflexivity].
Qed.

(** C28: the merging loop terminates, for every list of segments and every merge function:
    more rounds than there are segments never change the outcome, and it has then finished. *)
Lemma L_C28_terminates : forall merge edges, exists out, out <> Ok None /\
  forall fuel, (length edges < fuel)%nat -> merge_segments merge fuel edges = out.
Proof. intros merge edges. destruct (merge_segments_spec merge edges) as (out & H1 & H2 & _). eauto. Qed.

(** What it returns is obtained from the input by replacing two segments by one, again and
    again, until no two segments (the earlier one first) can be merged. *)
Lemma L_C28_result : forall merge fuel edges r, merge_segments merge fuel edges = Ok (Some r) ->
  merged merge edges r /\ (length r <= length edges)%nat /\
  forall l1 e l2 f l3, r = l1 ++ e :: l2 ++ f :: l3 -> merge e f = Ok None.
Proof.
  intros merge fuel edges r E. unfold merge_segments in E. destruct (merge_loop_spec merge fuel edges _ edges r (ok_seq edges) (F2_seq edges) E) as (M & Fin).
  split; [exact M|]. split; [eapply merged_length; exact M|exact Fin].
Qed.

(** It raises only if the merge function does. *)
Lemma L_C28_total : forall (merge : vecs -> vecs -> res (option vecs)) (Q : vecs -> Prop) edges fuel, Forall Q edges ->
  (forall e f, Q e -> Q f -> exists o, merge e f = Ok o /\ forall a, o = Some a -> Q a) -> (length edges < fuel)%nat ->
  exists r, merge_segments merge fuel edges = Ok (Some r).
Proof.
  intros merge Q edges fuel FQ HQ Hf. unfold merge_segments. eapply (merge_loop_total merge fuel edges _ Q (ok_seq edges)); [rewrite seq_length; exact Hf|exact HQ|exact FQ].
Qed.

(** Merging two segments: with the answer of the point-on-segment test taken as given, in
    any arithmetic, two segments become one exactly if they share an end point and the test
    puts it on the segment between the two other ends, which are the ends of the new one. *)
Lemma L_C28_two_segments : forall N s1 s2, length s1 = 2%nat -> length s2 = 2%nat -> goods 6 s1 -> goods 6 s2 ->
  exists o, two_segment_into_one N s1 s2 = Ok o /\
    match o with
    | Some s => exists p q p' r, ends s1 p q /\ ends s2 p' r /\ ppoint p = ppoint p' /\ point_on_segment N p [q; r] = Ok true /\ s = [q; r]
    | None => forall p q p' r, ends s1 p q -> ends s2 p' r -> ppoint p = ppoint p' -> point_on_segment N p [q; r] = Ok false
    end.
Proof. exact two_segment_spec. Qed.

(** The point-on-segment test in exact arithmetic: a point of a segment with different ends
    passes; a point that passes lies within 0.0015 of the segment. *)
Lemma L_C28_on_segment : forall p a b, length p = 6%nat -> length a = 6%nat -> length b = 6%nat ->
  exists on, point_on_segment Rnum p [a; b] = Ok on /\
    (pp a <> pp b -> hull [pp a; pp b] (pp p) -> on = true) /\
    (on = true -> pp a <> pp b /\ exists h, hull [pp a; pp b] h /\ dist3 (pp p) h < 3/2000).
Proof.
  intros p a b Lp La Lb. exists (on_segment Rnum (pp p) (pp a) (pp b)). split.
  - unfold point_on_segment, internals. cbn [mapM]. rewrite !internal_R by assumption. reflexivity.
  - split; [apply on_segment_complete|apply on_segment_sound].
Qed.

(** Hence in exact arithmetic two collinear segments with a common end point between the
    others are merged ... *)
Lemma L_C28_collinear_merged : forall p q p' r, goods 6 [p; q; p'; r] -> ppoint p = ppoint p' -> pp q <> pp r -> hull [pp q; pp r] (pp p) ->
  forall s1 s2, ends s1 p q -> ends s2 p' r -> exists s, two_segment_into_one Rnum s1 s2 = Ok (Some s).
Proof.
  intros p q p' r G E Nq Hh s1 s2 E1 E2. unfold goods in G. rewrite Forall_forall in G.
  assert (Gp : good 6 p) by (apply G; cbn; auto). assert (Gq : good 6 q) by (apply G; cbn; auto). assert (Gp' : good 6 p') by (apply G; cbn; auto). assert (Gr : good 6 r) by (apply G; cbn; auto).
  destruct (two_segment_spec Rnum s1 s2) as (o & Eo & Ho).
  - destruct E1 as [-> | -> ]; reflexivity.
  - destruct E2 as [-> | -> ]; reflexivity.
  - destruct E1 as [-> | -> ]; repeat (apply Forall_cons; [assumption|]); apply Forall_nil.
  - destruct E2 as [-> | -> ]; repeat (apply Forall_cons; [assumption|]); apply Forall_nil.
  - destruct o as [s|]; [eauto|]. exfalso. specialize (Ho p q p' r E1 E2 E).
    destruct (L_C28_on_segment p q r) as (on & Eon & C & _); [apply Gp|apply Gq|apply Gr|]. rewrite Eon in Ho. injection Ho as ->. discriminate (C Nq Hh).
Qed.
(** ... but so are, in binary64, two segments whose common end point is off the line. *)
Definition p6 : vec := [T 1 0 1; T 0 0 1; T 0 0 1; T 1 0 2000; T 0 0 1; T 0 0 1].
Lemma L_C28_not_collinear_refuted : exists p q r, goods 6 [p; q; r] /\ two_segment_into_one Bnum [q; p] [p; r] = Ok (Some [q; r]) /\
  cross3 (sub3 (pp p) (pp q)) (sub3 (pp r) (pp q)) <> o3.
Proof.
  exists p6, o6, (iv [2;0;0;0;0;0]%Z). split; [gd|]. split; [vm_compute; reflexivity|].
  unfold pp, p6, o6, iv. cbn. unfold val; cbn [ta tb tc]. unfold o3. intros H. injection H. intros _ _. lra.
Qed.

(** Every end point that remains is an end point of an input segment. *)
Lemma L_C28_endpoints : forall N fuel edges r, merge_segments (two_segment_into_one N) fuel edges = Ok (Some r) -> incl (concat r) (concat edges).
Proof.
  intros N fuel edges r E. destruct (L_C28_result _ _ _ _ E) as (M & _). eapply merged_vertices; [|exact M].
  intros e f a H. apply (two_segment_incl N e f a H).
Qed.

Example E_C28_ex : merge_segments (two_segment_into_one Bnum) 4 [[o6; x1]; [x2; x4]; [x1; iv [2;0;0;0;0;0]%Z]] = Ok (Some [[x2; x4]; [o6; iv [2;0;0;0;0;0]%Z]]) /\
  goods 6 [x1; o6; x1; iv [2;0;0;0;0;0]%Z] /\ hull [pp o6; pp (iv [2;0;0;0;0;0]%Z)] (pp x1) /\ pp o6 <> pp (iv [2;0;0;0;0;0]%Z).
Proof.
  split; [vm_compute; reflexivity|]. split; [gd|].
  assert (E0 : pp o6 = (0, 0, 0)) by (unfold pp, o6, iv; cbn; unfold val; cbn [ta tb tc]; apply f_equal2; [apply f_equal2|]; field).
  assert (E1 : pp x1 = (TAU, -1, 0)) by (unfold pp, x1, iv; cbn; unfold val; cbn [ta tb tc]; apply f_equal2; [apply f_equal2|]; field).
  assert (E2 : pp (iv [2;0;0;0;0;0]%Z) = (2 * TAU, -2, 0)) by (unfold pp, iv; cbn; unfold val; cbn [ta tb tc]; apply f_equal2; [apply f_equal2|]; field).
  rewrite E0, E1, E2. split.
  - exists [1/2; 1/2]. split; [split; [reflexivity|split; [cbn; lra|]]|].
    + cbn. apply f_equal2; [apply f_equal2|]; field.
    + constructor; [lra|constructor; [lra|constructor]].
  - intros H. injection H. lra.
Qed.

(** C57: border edges of a set of triangles, in any arithmetic: every edge returned is an
    edge of a triangle, and exactly one triangle has it. *)
Lemma L_C57_border : forall N ts r, Forall (fun t => length t = 3%nat /\ goods 6 t /\ NoDup (map ppoint t)) ts ->
  gen_border_edges_of_coplanar_triangles N ts = Ok r -> forall e, In e r -> In e (edges_of 3 ts) /\ once e (edges_of 3 ts).
Proof.
  intros N ts r T E e He. assert (T' : Forall (fun t => length t = 3%nat /\ goods 6 t) ts) by (eapply Forall_impl; [|exact T]; intros t (H1 & H2 & _); auto).
  split; [eapply border_incl; eassumption|]. apply (border_once N ts r e T E He).
Qed.
(** In exact arithmetic every such edge is returned, provided no other edge crosses it at
    its midpoint. *)
Lemma L_C57_border_complete : forall ts, Forall (fun t => length t = 3%nat /\ goods 6 t /\ NoDup (map ppoint t)) ts ->
  exists r, gen_border_edges_of_coplanar_triangles Rnum ts = Ok r /\
    forall e, In e (edges_of 3 ts) -> once e (edges_of 3 ts) ->
      (forall g, In g (edges_of 3 ts) -> pcentre g = pcentre e -> same_set (map ppoint e) (map ppoint g)) -> In e r.
Proof.
  intros ts T. assert (T' : Forall (fun t => length t = 3%nat /\ goods 6 t) ts) by (eapply Forall_impl; [|exact T]; intros t (H1 & H2 & _); auto).
  destruct (L_C25_unique_edges 3 ts) as (us & Eu & I & _ & U & _); [auto|exact T'|].
  destruct (border_unfold Rnum ts us T Eu) as (r & Er & Hr). exists r. split; [exact Er|]. intros e He On Hm. apply Hr. split; [|exact On].
  destruct (U e He) as (u & (Iu & Cu) & _). assert (S : same_set (map ppoint e) (map ppoint u)) by (apply Hm; [apply I, Iu|exact Cu]).
  destruct On as (j & (g & Eg & Sg) & Uj). pose proof (I u Iu) as Iu'. apply In_nth_error in He as (k1 & Hk1). apply In_nth_error in Iu' as (k2 & Hk2).
  assert (j = k1) by (apply Uj; exists e; split; [exact Hk1|intros x; tauto]). assert (j = k2) by (apply Uj; exists u; split; [exact Hk2|exact S]). subst. rewrite Hk1 in Hk2. injection Hk2 as <-. exact Iu.
Qed.
Example E_C57_ex : exists r, gen_border_edges_of_coplanar_triangles Bnum [[o6; x1; x2]; [x1; x2; iv [1;1;0;0;0;0]%Z]] = Ok r /\ length r = 4%nat /\ ~ In [x1; x2] r.
Proof.
  destruct (gen_border_edges_of_coplanar_triangles Bnum [[o6; x1; x2]; [x1; x2; iv [1;1;0;0;0;0]%Z]]) as [r|] eqn:E; [|vm_compute in E; discriminate].
  exists r. split; [reflexivity|]. vm_compute in E. injection E as <-. split; [reflexivity|]. intros H. cbn in H. repeat (destruct H as [H|H]; [discriminate H|]). exact H.
Qed.

(** C58: the convex hull of an object, in any arithmetic, for any triangulation and any
    random samples: all vertices of the result are vertices of the object, and no
    tetrahedron of it is flat. *)
Lemma L_C58_vertices : forall N delaunay draws o r, tets o -> generate_convex_hull N delaunay draws o = Ok (Some r) ->
  tets r /\ incl (concat r) (concat o) /\ r <> [] /\ forall t, In t r -> pvol t <> 0.
Proof.
  intros N delaunay draws o r T E. unfold generate_convex_hull in E. apply bind_Ok_inv in E as (s & Es & E). apply bind_Ok_inv in E as (es & Ee & E). apply bind_Ok_inv in E as (vts & Ev & E).
  assert (Ne : s <> []).
  { intros ->. unfold surface_cleaner, surface_edges in Ee. cbn [get_sets_of_coplanar_triangles length seq Nat.sub foldM bind combine map filter snd] in Ee. discriminate Ee. }
  pose proof (surface_incl N o s T Es) as Is.
  assert (Ts : Forall (fun t => length t = 3%nat /\ goods 6 t) s) by (apply Forall_forall; intros t Ht; apply (all_faces_good o T), Is, Ht).
  pose proof (cleaner_incl N draws s es Ne Ts Ee) as Ic.
  assert (If : incl (concat s) (concat o)).
  { intros v Hv. apply in_concat in Hv as (f & Hf & Hv). apply Is in Hf. unfold all_faces in Hf. apply in_concat in Hf as (l & Hl & Hf). apply in_map_iff in Hl as (t & <- & Ht).
    apply in_concat. exists t. split; [exact Ht|]. unfold tets in T. rewrite Forall_forall in T. destruct (T t Ht) as [L _]. destruct t as [|a [|b [|c [|d [|]]]]]; try discriminate L.
    cbn in Hf. destruct Hf as [<-|[<-|[<-|[<-|[]]]]]; cbn in *; tauto. }
  assert (Go : goods 6 (concat o)).
  { unfold goods. apply Forall_forall. intros v Hv. apply in_concat in Hv as (t & Ht & Hv). unfold tets in T. rewrite Forall_forall in T. destruct (T t Ht) as [_ G]. unfold goods in G. rewrite Forall_forall in G. apply G, Hv. }
  assert (Gc : goods 6 (concat es)) by (eapply goods_incl; [exact Go|intros v Hv; apply If, Ic, Hv]).
  destruct (perp_space_spec_flat (concat es) (A4 es)) as (vts' & Ev' & Iv & _); [right; eauto|exact Gc|]. rewrite Ev in Ev'. injection Ev' as <-.
  assert (Gv : goods 6 vts) by (eapply goods_incl; [exact Gc|exact Iv]).
  destruct (L_C37_pieces N delaunay vts (Some r) Gv E) as (q & l & ts & _ & F & Nr & _ & I & Inc). rewrite Forall_forall in Inc.
  assert (L4 : forall t, In t ts -> length t = 4%nat).
  { intros t Ht. apply In_nth_error in Ht as (n & Hn). destruct (F2_nth' _ _ _ _ _ F Hn) as ([[[i j] k] m] & _ & (a & b & c & d & _ & _ & _ & _ & ->)). reflexivity. }
  split; [|split; [|split; [exact Nr|intros t Ht; apply I, Ht]]].
  - apply Forall_forall. intros t Ht. split; [apply L4, I, Ht|]. eapply goods_incl; [exact Gv|apply Inc, Ht].
  - intros v Hv. apply in_concat in Hv as (t & Ht & Hv). apply If, Ic, Iv, (Inc t Ht), Hv.
Qed.
Example E_C58_ex : generate_convex_hull Bnum (fun _ => Some [(0,1,2,3)]%nat) (fun _ _ => [(0,1,2)%nat]) [tetA] = Ok (Some [[x2; o6; x4; x1]]) /\ tets [tetA].
Proof. split; [vm_compute; reflexivity|gd]. Qed.
