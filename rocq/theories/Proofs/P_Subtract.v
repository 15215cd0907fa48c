(** Subtraction of objects (ico2/two_occupation_domains.py subtraction): C92. *)
From Coq Require Import Reals List ZArith Lia Lra Bool Permutation.
From Verif Require Import Base.Res Model.Tau Model.Arr Model.Num Model.IcoNumeric Model.IcoIntersect Model.IcoSurface Model.Subtract
  Spec.Value Spec.RVec Spec.Shape Spec.Mean Spec.IcoSpec Spec.Sets Spec.Space Spec.Tetra Spec.Region Spec.Surface Spec.Solid Spec.Overlap Spec.Samples Spec.Convex Spec.Subtract.
Import ListNotations.
Local Open Scope R_scope.

From Verif Require Import Proofs.ResLemmas Proofs.IcoVolumeLemmas Proofs.Irrational Proofs.NumLemmas Proofs.IntersectLemmas Proofs.Polytope Proofs.OverlapLemmas Proofs.P_Intersect Proofs.SurfaceLemmas Proofs.P_Surface Proofs.P_Overlap
  Proofs.SolidLemmas Proofs.P_Convex Proofs.SubtractLemmas.

Lemma combos_subseq {A} (L : list A) ks l1 r l2 : concat (map (fun k => combinations k L) ks) = l1 ++ r :: l2 -> subseq r L.
Proof.
  intros E. assert (I : In r (concat (map (fun k => combinations k L) ks))) by (rewrite E; apply in_elt).
  apply in_concat in I as (x & Ix & I). apply in_map_iff in Ix as (k & <- & _). apply combinations_in in I. apply I.
Qed.
Lemma two_out N o t v w l1 l2 l3 x : t = l1 ++ v :: l2 ++ w :: l3 -> outside_obj N o v -> outside_obj N o w -> ~ one_out N o t x.
Proof.
  intros -> Ov Ow (m1 & m2 & E & _ & I).
  assert (K : forall y, outside_obj N o y -> ~ In y (m1 ++ m2)). { intros y Oy Iy. destruct (I y Iy) as (u & Iu & Hu). rewrite (Oy u Iu) in Hu. discriminate. }
  assert (P : Permutation (v :: w :: l1 ++ l2 ++ l3) (x :: m1 ++ m2)).
  { transitivity (l1 ++ v :: l2 ++ w :: l3).
    - apply Permutation_cons_app. rewrite app_assoc. transitivity ((l1 ++ l2) ++ w :: l3); [apply Permutation_cons_app; reflexivity|rewrite app_assoc; reflexivity].
    - rewrite E. symmetry. apply Permutation_middle. }
  assert (Pv : In v (x :: m1 ++ m2)) by (apply (Permutation_in _ P); left; reflexivity).
  destruct Pv as [->|Iv]; [|exact (K v Ov Iv)]. apply Permutation_cons_inv in P. apply (K w Ow). apply (Permutation_in _ P). left. reflexivity.
Qed.

(** Whatever the arithmetic, triangulation and sampling: when one tetrahedron minus an
    object is returned, exactly one vertex v of the tetrahedron tests outside the object,
    and the result consists of tetrahedra joining v to surface triangles of the common part
    whose vertices test as lying on the surface of the object. *)
Lemma L_C92_pieces : forall N delaunay draws argsort t o s r, permutes argsort -> length t = 4%nat -> goods 6 t -> tets o ->
  tetrahedron_not_obj_1 N delaunay draws argsort t o s = Ok (Some r) ->
  exists c v, intersection_two_obj_1 N delaunay draws false [t] o = Ok (Some c) /\ one_out N o t v /\ tets r /\
    forall u, In u r -> exists f, u = v :: f /\ In f (all_faces c) /\ Forall (on_skin N s) f.
Proof.
  intros N delaunay draws argsort t o s r P L G To H. destruct (not_obj_spec N delaunay draws argsort P t o s _ L G To H) as (c & Ec & Tc & v & Q & fs & Ov & Ne & I & Sk & Pm & TL & C).
  exists c, v. split; [exact Ec|]. split; [exact Ov|]. assert (S : incl r Q).
  { destruct C as [(-> & _)|(_ & l1 & l2 & E & _)]; [intros x; auto|]. intros x Ix. apply combos_subseq in E. exact (subseq_in _ _ E x Ix). }
  split. { unfold tets in *. rewrite Forall_forall in *. intros u Iu. apply TL, S, Iu. }
  intros u Iu. apply S in Iu. apply (Permutation_in _ Pm) in Iu. apply in_map_iff in Iu as (f & <- & If). exists f. split; [reflexivity|]. split; [apply I, If|].
  rewrite Forall_forall in Sk. exact (Sk f If).
Qed.
(** The test on the volumes: let V be the exact volume of the tetrahedron less that of the
    common part.  Either all the tetrahedra are returned and their volumes add up to V, or
    they do not, and the volumes of the returned choice plus those of all the choices tried before add up to V. *)
Lemma L_C92_volume : forall N delaunay draws argsort t o s r, permutes argsort -> length t = 4%nat -> goods 6 t -> tets o ->
  tetrahedron_not_obj_1 N delaunay draws argsort t o s = Ok (Some r) ->
  exists c, intersection_two_obj_1 N delaunay draws false [t] o = Ok (Some c) /\
    (total r = pvol t - total c \/
     exists l ks l1 l2, tets l /\ ks = seq 1 (length l - 2) /\ total l <> pvol t - total c /\ subseq r l /\
       concat (map (fun k => combinations k l) ks) = l1 ++ r :: l2 /\ Rsum (map total l1) + total r = pvol t - total c).
Proof.
  intros N delaunay draws argsort t o s r P L G To H. destruct (not_obj_spec N delaunay draws argsort P t o s _ L G To H) as (c & Ec & Tc & v & Q & fs & Ov & Ne & I & Sk & Pm & TL & C).
  exists c. split; [exact Ec|]. destruct C as [(-> & E)|(D & l1 & l2 & E & V)]; [left; exact E|right]. exists Q, (seq 1 (length Q - 2)), l1, l2.
  split; [exact TL|]. split; [reflexivity|]. split; [exact D|]. split; [exact (combos_subseq _ _ _ _ _ E)|]. split; [exact E|].
  rewrite map_app, Rsum_app in V. cbn [map] in V. cbn [Rsum] in V. lra.
Qed.
(** In particular the volume returned is never more than that. *)
Lemma L_C92_bound : forall N delaunay draws argsort t o s r, permutes argsort -> length t = 4%nat -> goods 6 t -> tets o ->
  tetrahedron_not_obj_1 N delaunay draws argsort t o s = Ok (Some r) ->
  exists c, intersection_two_obj_1 N delaunay draws false [t] o = Ok (Some c) /\ total r <= pvol t - total c.
Proof.
  intros N delaunay draws argsort t o s r P L G To H. destruct (L_C92_volume N delaunay draws argsort t o s r P L G To H) as (c & Ec & [E|(l & ks & l1 & l2 & Tl & _ & _ & _ & E & V)]); exists c; (split; [exact Ec|]); [lra|].
  enough (0 <= Rsum (map total l1)) by lra. clear. induction l1 as [|x l1 IH]; [cbn; lra|]. cbn [map Rsum].
  enough (0 <= total x) by lra. clear. unfold total. induction x as [|u x IH]; [cbn; lra|]. cbn [map Rsum].
  enough (0 <= pvol u) by lra. unfold pvol, Spec.Geometry.tetvol. destruct (map _ u) as [|? [|? [|? [|? [|]]]]]; try lra. apply Rmult_le_pos; [apply Rabs_pos|lra].
Qed.
(** With two vertices outside the object nothing is ever returned. *)
Lemma L_C92_two_outside : forall N delaunay draws argsort t o s v w l1 l2 l3, permutes argsort -> length t = 4%nat -> goods 6 t -> tets o ->
  t = l1 ++ v :: l2 ++ w :: l3 -> outside_obj N o v -> outside_obj N o w -> exists e, tetrahedron_not_obj_1 N delaunay draws argsort t o s = Raise e.
Proof.
  intros N delaunay draws argsort t o s v w l1 l2 l3 P L G To Et Ov Ow. destruct (tetrahedron_not_obj_1 N delaunay draws argsort t o s) as [r|e] eqn:H; [|eauto]. exfalso.
  destruct (not_obj_spec N delaunay draws argsort P t o s _ L G To H) as (c & _ & _ & C). destruct r as [r|].
  - destruct C as (x & _ & _ & O & _). exact (two_out N o t v w l1 l2 l3 x Et Ov Ow O).
  - destruct C as [A|(x & O)]; [|exact (two_out N o t v w l1 l2 l3 x Et Ov Ow O)]. destruct (A v) as (u & Iu & Hu); [rewrite Et; apply in_elt|]. rewrite (Ov u Iu) in Hu. discriminate.
Qed.
(** With no vertex outside, no object is returned, even if the tetrahedron sticks out elsewhere. *)
Lemma L_C92_none_outside : forall N delaunay draws argsort t o s r, permutes argsort -> length t = 4%nat -> goods 6 t -> tets o ->
  (forall v, In v t -> in_obj N o v) -> tetrahedron_not_obj_1 N delaunay draws argsort t o s = Ok r -> r = None.
Proof.
  intros N delaunay draws argsort t o s r P L G To A H. destruct r as [r|]; [|reflexivity]. exfalso.
  destruct (not_obj_spec N delaunay draws argsort P t o s _ L G To H) as (c & _ & _ & x & _ & _ & O & _). destruct O as (m1 & m2 & E & O & _).
  destruct (A x) as (u & Iu & Hu); [rewrite E; apply in_elt|]. rewrite (O u Iu) in Hu. discriminate.
Qed.
(** The other function for a tetrahedron never returns an object. *)
Lemma L_C92_second : forall N delaunay draws t o r, tetrahedron_not_obj_2 N delaunay draws t o = Ok r -> r = None.
Proof.
  intros N delaunay draws t o r H. unfold tetrahedron_not_obj_2 in H. apply bind_Ok_inv in H as (? & _ & H). apply bind_Ok_inv in H as (c & _ & H). destruct c as [c|]; [|discriminate].
  apply bind_Ok_inv in H as (? & _ & H). apply bind_Ok_inv in H as (? & _ & H). apply bind_Ok_inv in H as (? & _ & H). apply bind_Ok_inv in H as (? & _ & H). congruence.
Qed.

Lemma loop_some (f : nat -> vecs -> obj4 -> obj4 -> res (option obj4)) o2 s2 o1 : forall i out r, subtract_loop f i o1 o2 s2 out = Ok (Some r) ->
  forall t, In t o1 -> exists j q, f j t o2 s2 = Ok (Some q) /\ incl q r.
Proof.
  assert (Acc : forall o1 i out r, subtract_loop f i o1 o2 s2 (Some out) = Ok (Some r) -> incl out r).
  { clear. induction o1 as [|t o1 IH]; intros i out r H; cbn [subtract_loop] in H; [injection H as ->; intros x; auto|].
    apply bind_Ok_inv in H as (a & _ & H). destruct a as [q|]; [|discriminate]. cbn [oapp] in H. apply IH in H. intros x Ix. apply H, in_or_app. left. exact Ix. }
  induction o1 as [|t o1 IH]; intros i out r H u I; [destruct I|]. cbn [subtract_loop] in H. apply bind_Ok_inv in H as (a & Ea & H). destruct a as [q|]; [|discriminate].
  destruct I as [<-|I]; [|exact (IH _ _ _ H u I)]. exists i, q. split; [exact Ea|]. destruct out as [out|]; cbn [oapp] in H; apply Acc in H; intros x Ix; apply H; [apply in_or_app; right|]; exact Ix.
Qed.
(** A whole object minus another is only ever returned when every tetrahedron of the first
    has exactly one vertex outside the second. *)
Lemma L_C92_whole : forall N delaunay draws argsort o1 o2 r, permutes argsort -> tets o1 -> tets o2 ->
  subtraction_1 N delaunay draws argsort (A4 o1) (A4 o2) = Ok (Some r) -> forall t, In t o1 -> exists v, one_out N o2 t v /\ exists f, In (v :: f) r.
Proof.
  intros N delaunay draws argsort o1 o2 r P T1 T2 H t I. unfold subtraction_1, subtraction, subtraction_two_obj in H. apply bind_Ok_inv in H as (s2 & _ & H).
  destruct (loop_some _ _ _ _ _ _ _ H t I) as (j & q & E & S). unfold tets in T1. rewrite Forall_forall in T1. destruct (T1 t I) as [L G].
  destruct (not_obj_spec N delaunay (draws j) argsort P t o2 s2 _ L G T2 E) as (c & _ & _ & v & Q & fs & O & Ne & _ & _ & Pm & TL & C).
  exists v. split; [exact O|]. assert (D : subseq q Q /\ q <> []).
  { destruct C as [(-> & _)|(_ & l1 & l2 & E' & _)].
    - split; [clear; induction Q; constructor; assumption|]. intros ->. apply Permutation_nil in Pm. destruct fs; [contradiction|discriminate].
    - split; [exact (combos_subseq _ _ _ _ _ E')|]. intros ->. assert (In [] (concat (map (fun k => combinations k Q) (seq 1 (length Q - 2))))) as I' by (rewrite E'; apply in_elt).
      apply in_concat in I' as (x & Ix & I'). apply in_map_iff in Ix as (k & <- & Ik). apply combinations_in in I' as [_ Lk]. apply in_seq in Ik. cbn in Lk. lia. }
  destruct D as [D Nq]. destruct q as [|u q]; [contradiction|]. assert (Iu : In u Q) by (apply (subseq_in _ _ D); left; reflexivity).
  apply (Permutation_in _ Pm) in Iu. apply in_map_iff in Iu as (f & <- & _). exists f. apply S. left. reflexivity.
Qed.
(** Two objects that do not meet: in exact arithmetic, when no vertex or crossing is within
    the tolerance, the intersection is None whatever the triangulation and sampling ... *)
Lemma L_C92_no_common : forall delaunay draws simple o1 o2, tets o1 -> tets o2 -> o2 <> [] ->
  (forall t1 t2, In t1 o1 -> In t2 o2 -> clear_pair t1 t2 /\ clear_pair t2 t1) -> (forall p, ~ (region o1 p /\ region o2 p)) ->
  intersection Rnum delaunay draws simple (A4 o1) (A4 o2) = Ok None.
Proof. intros delaunay draws simple o1 o2 T1 T2 Ne C D. exact (disjoint_none delaunay draws simple o1 o2 T1 T2 Ne C D). Qed.
(** ... and so subtraction raises although the answer is the first object itself. *)
Lemma L_C92_disjoint : forall delaunay draws argsort t o1 o2 s, tets (t :: o1) -> tets o2 -> o2 <> [] ->
  (forall t2, In t2 o2 -> clear_pair t t2 /\ clear_pair t2 t) -> (forall p, hull (map pp t) p -> ~ region o2 p) ->
  generator_surface_1 Rnum o2 = Ok s ->
  subtraction_1 Rnum delaunay draws argsort (A4 (t :: o1)) (A4 o2) = Raise AttributeError.
Proof.
  intros delaunay draws argsort t o1 o2 s T1 T2 Ne C D Es. unfold subtraction_1, subtraction, subtraction_two_obj. rewrite Es. cbn [bind subtract_loop].
  unfold tetrahedron_not_obj_1. rewrite disjoint_none; [reflexivity| |exact T2|exact Ne| |].
  - inversion T1; subst. constructor; [assumption|constructor].
  - intros t1 t2 [<-|[]] I. exact (C t2 I).
  - intros p [(u & [<-|[]] & H) R]. exact (D p H R).
Qed.

(** Concrete cases. *)
Lemma by_value_permutes N : permutes (by_value N).
Proof.
  intros l. unfold by_value.
  assert (Ins : forall x (l : list (F N * nat)), Permutation (insert N x l) (x :: l)).
  { intros x. induction l0 as [|y l0 IH]; cbn [insert]; [reflexivity|]. destruct (flt N (fst x) (fst y)); [reflexivity|]. rewrite IH. apply perm_swap. }
  assert (S : forall l : list (F N * nat), Permutation (fold_right (insert N) [] l) l).
  { induction l0 as [|x l0 IH]; cbn [fold_right]; [reflexivity|]. rewrite Ins, IH. reflexivity. }
  rewrite S. enough (E : forall l : list (F N), forall a, map snd (combine l (seq a (length l))) = seq a (length l)) by (rewrite E; reflexivity).
  clear. induction l as [|x l IH]; intros a; [reflexivity|]. cbn. f_equal. apply IH.
Qed.
Definition cQ : list R3 := [(0,0,0); (-1,0,0); (0,1,0); (0,0,1)].
Definition cW : list R3 := [(-1,0,0); (0,1,0); (0,0,1); (-1/16,2/16,3/16)].
Definition cR : list R3 := [(0,0,0); (0,1,0); (0,0,1); (-1/16,2/16,3/16)].
Definition tetR : vecs := [at3 1 0 0 0; at3 1 0 1 0; at3 1 0 0 1; [T (-1) 0 16; T 2 0 16; T 0 0 1; T 3 0 16; T 0 0 1; T 0 0 1]].
Lemma eQ : map pp tetQ = map ax cQ. Proof. unfold tetQ, cQ. eq4. Qed.
Lemma eW : map pp tetW = map ax cW. Proof. unfold tetW, cW. eq4. Qed.
Lemma eR : map pp tetR = map ax cR. Proof. unfold tetR, cR. change [T (-1) 0 16; T 2 0 16; T 0 0 1; T 3 0 16; T 0 0 1; T 0 0 1] with (at3 16 (-1) 2 3). eq4. Qed.
Lemma pvol_ax t c0 c1 c2 c3 : map pp t = map ax [c0; c1; c2; c3] -> pvol t = (TAU * (TAU * TAU) + 1) * (Rabs (triple3 (sub3 c1 c0) (sub3 c2 c0) (sub3 c3 c0)) / 6).
Proof.
  intros E. assert (Lt : length t = 4%nat) by (rewrite <- (map_length pp), E; reflexivity).
  destruct t as [|a [|b [|c [|d [|]]]]]; try discriminate Lt. cbn [map] in E. injection E as Ea Eb Ec Ed.
  assert (K : forall p0 p1 p2 p3, length p0 = 3%nat -> length p1 = 3%nat -> length p2 = 3%nat -> length p3 = 3%nat ->
     Spec.Geometry.tetvol [p0;p1;p2;p3] = Rabs (triple3 (sub3 (tri3 p1) (tri3 p0)) (sub3 (tri3 p2) (tri3 p0)) (sub3 (tri3 p3) (tri3 p0))) / 6).
  { intros p0 p1 p2 p3 K0 K1 K2 K3. d3 p0 K0. d3 p1 K1. d3 p2 K2. d3 p3 K3. unfold Spec.Geometry.tetvol, Spec.Geometry.det3. cbn. unfold dot; cbn. f_equal. f_equal. ring. }
  unfold pvol. cbn [map]. rewrite K by reflexivity. rewrite <- !pp_tri3, Ea, Eb, Ec, Ed, ax_triple, Rabs_mult, Rabs_Ropp. pose proof det_big. rewrite (Rabs_right (TAU * (TAU * TAU) + 1)) by lra. field.
Qed.
(** In binary64, subtracting a tetrahedron with a common base and apex inside: three pieces
    are needed, the first choice of a single piece is returned since the volumes tried happen
    to add up; a point of the difference is lost. *)
Lemma L_C92_difference_refuted : exists o1 o2 r p, tets o1 /\ tets o2 /\ (forall p, region o2 p -> region o1 p) /\
  subtraction_1 Bnum (fun _ => None) (fun _ _ _ => []) (by_value Bnum) (A4 o1) (A4 o2) = Ok (Some r) /\
  region o1 p /\ ~ region o2 p /\ ~ region r p /\ total r < total o1 - total o2.
Proof.
  exists [tetQ], [tetW], [tetR], (ax (-17/64, 18/64, 3/64)). split; [gd|]. split; [gd|].
  split. { intros p Hp. apply one_region in Hp. rewrite eW in Hp. apply one_region. rewrite eQ. apply (hull_trans _ _ _ Hp).
    intros y Iy. cbn [cW map In] in Iy. assert (M : forall c, In c cQ -> hull (map ax cQ) (ax c)) by (intros; apply hull_mem, in_map; assumption).
    destruct Iy as [<-|[<-|[<-|[<-|[]]]]].
    - apply M. unfold cQ. cbn [In]. tauto.
    - apply M. unfold cQ. cbn [In]. tauto.
    - apply M. unfold cQ. cbn [In]. tauto.
    - apply (ax_hull [10/16; 1/16; 2/16; 3/16]); [reflexivity|unfold Rsum; cbn; lra|f_equal; cbn; eqs|repeat (apply Forall_cons; [lra|]); constructor]. }
  split; [vm_cast_no_check (eq_refl (Ok (Some [tetR])))|].
  split; [apply (hull_in _ _ (17/64) (18/64) (3/64) _ eQ eq_refl); [cbn; eqs|lra..]|].
  split. { intros H. apply (hull_out _ _ _ eW eq_refl) in H as (p & q & r & E & ? & ? & ? & ?). cbn in E. injection E as E1 E2 E3. lra. }
  split. { intros H. apply (hull_out _ _ _ eR eq_refl) in H as (p & q & r & E & ? & ? & ? & ?). cbn in E. injection E as E1 E2 E3. lra. }
  unfold total. cbn [map Rsum]. rewrite (pvol_ax _ _ _ _ _ eQ), (pvol_ax _ _ _ _ _ eW), (pvol_ax _ _ _ _ _ eR). pose proof det_big.
  match goal with |- ?d * (Rabs ?x / 6) + 0 < ?d * (Rabs ?y / 6) + 0 - (?d * (Rabs ?z / 6) + 0) =>
    assert (Ex : Rabs x = 1/16) by (cbn; unfold Rabs; destruct (Rcase_abs _); lra);
    assert (Ey : Rabs y = 1) by (cbn; unfold Rabs; destruct (Rcase_abs _); lra);
    assert (Ez : Rabs z = 10/16) by (cbn; unfold Rabs; destruct (Rcase_abs _); lra); rewrite Ex, Ey, Ez; lra end.
Qed.

Section Pair.
Variables t1 t2 : vecs.
Variables c1 c2 : list R3.
Hypothesis E1 : map pp t1 = map ax c1.
Hypothesis E2 : map pp t2 = map ax c2.
Hypothesis L1 : length c1 = 4%nat.
Hypothesis L2 : length c2 = 4%nat.
Lemma pair_clear : corners_ok c1 c2 -> meets_ok c1 c2 -> clear_pair t1 t2.
Proof.
  intros C M.
  assert (Lt1 : length t1 = 4%nat) by (rewrite <- (map_length pp), E1, map_length; exact L1). assert (Lt2 : length t2 = 4%nat) by (rewrite <- (map_length pp), E2, map_length; exact L2).
  split.
  - intros v Iv Hn. rewrite E2 in *. apply ax_near in Hn as (ws & Lw & Sw & Pv & Pw). apply (ax_hull ws); try assumption.
    assert (Ic : exists v', In v' c1 /\ ax v' = pp v).
    { assert (I : In (pp v) (map ax c1)) by (rewrite <- E1; apply in_map; exact Iv). apply in_map_iff in I as (v' & E & I). eauto. }
    destruct Ic as (v' & Iv' & Ev). rewrite <- Ev in Pv. apply ax_inj in Pv. rewrite L2 in Lw. destruct ws as [|w0 [|w1 [|w2 [|w3 [|]]]]]; try discriminate Lw.
    cbn in Sw. inversion Pw as [|? ? P0 Pw1]; subst. inversion Pw1 as [|? ? P1 Pw2]; subst. inversion Pw2 as [|? ? P2 Pw3]; subst. inversion Pw3 as [|? ? P3 _]; subst.
    assert (w0 = 1 - w1 - w2 - w3) as -> by lra. destruct (C _ w1 w2 w3 Iv' eq_refl P0 P1 P2 P3) as (? & ? & ? & ?). repeat (apply Forall_cons; [assumption|]). constructor.
  - intros a b c d e p Es Ef T N1 N2.
    assert (Ia : exists a' b', pp a = ax a' /\ pp b = ax b' /\ In (a', b') (edges4 c1)).
    { destruct Es as [Es _]. destruct t1 as [|u0 [|u1 [|u2 [|u3 [|]]]]]; try discriminate Lt1. destruct c1 as [|v0 [|v1 [|v2 [|v3 [|]]]]]; try discriminate L1.
      apply subseq2 in Es; [|reflexivity]. cbn [map] in E1. injection E1 as F0 F1 F2 F3. cbn [In] in Es. cbn [edges4].
      destruct Es as [I|[I|[I|[I|[I|[I|[]]]]]]]; injection I as <- <-; eexists; eexists; (split; [eassumption|split; [eassumption|]]); cbn [In]; tauto. }
    assert (Ib : exists c' d' e', pp c = ax c' /\ pp d = ax d' /\ pp e = ax e' /\ In (c', d', e') (faces4 c2)).
    { destruct Ef as [Ef _]. destruct t2 as [|u0 [|u1 [|u2 [|u3 [|]]]]]; try discriminate Lt2. destruct c2 as [|v0 [|v1 [|v2 [|v3 [|]]]]]; try discriminate L2.
      apply subseq3 in Ef; [|reflexivity]. cbn [map] in E2. injection E2 as F0 F1 F2 F3. cbn [In] in Ef. cbn [faces4].
      destruct Ef as [I|[I|[I|[I|[]]]]]; injection I as <- <- <-; do 3 eexists; (split; [eassumption|split; [eassumption|split; [eassumption|]]]); cbn [In]; tauto. }
    destruct Ia as (a' & b' & Pa & Pb & I1). destruct Ib as (c' & d' & e' & Pc & Pd & Pe & I2).
    rewrite Pa, Pb, Pc, Pd, Pe, ax_triple in T. cbn [map] in N1, N2. rewrite Pa, Pb in N1. rewrite Pc, Pd, Pe in N2.
    change [ax a'; ax b'] with (map ax [a'; b']) in N1. change [ax c'; ax d'; ax e'] with (map ax [c'; d'; e']) in N2.
    apply ax_near in N1 as (ws & Lw & Sw & Pp & Pw). apply ax_near in N2 as (us & Lu & Su & Pq & Pu).
    destruct ws as [|w0 [|w1 [|]]]; try discriminate Lw. destruct us as [|u0 [|u1 [|u2 [|]]]]; try discriminate Lu. cbn in Sw, Su.
    inversion Pw as [|? ? P0 Pw1]; subst. inversion Pw1 as [|? ? P1 _]; subst. inversion Pu as [|? ? Q0 Pu1]; subst. inversion Pu1 as [|? ? Q1 Pu2]; subst. inversion Pu2 as [|? ? Q2 _]; subst.
    assert (w0 = 1 - w1) as -> by lra. assert (u0 = 1 - u1 - u2) as -> by lra. apply ax_inj in Pq.
    destruct (M a' b' c' d' e' I1 I2) as [Z|[_ H]]; [exfalso; apply T; rewrite Z; ring|].
    destruct (H w1 u1 u2 Pq P1 ltac:(lra) Q0 Q1 Q2) as (A1 & A2 & A3 & A4). cbn [map]. rewrite Pa, Pb, Pc, Pd, Pe. split.
    + apply (ax_hull [1 - w1; w1] [a'; b']); [reflexivity|cbn; lra|reflexivity|repeat (apply Forall_cons; [lra|]); constructor].
    + rewrite Pq. apply (ax_hull [1 - u1 - u2; u1; u2] [c'; d'; e']); [reflexivity|cbn; lra|reflexivity|repeat (apply Forall_cons; [lra|]); constructor].
Qed.
End Pair.
(** A corner cut off in binary64, with a triangulation of the six points of the common part. *)
Example E_C92_run : permutes (by_value Bnum) /\ tets [tetP] /\ tets [tetB] /\
  subtraction_1 Bnum (fun q => if Nat.eqb (length q) 6 then Some [(0, 2, 4, 1)%nat; (2, 4, 1, 3)%nat; (4, 1, 3, 5)%nat] else None)
    (fun _ _ _ => []) (by_value Bnum) (A4 [tetP]) (A4 [tetB]) = Ok (Some [tip]).
Proof. split; [apply by_value_permutes|]. split; [gd|]. split; [gd|]. match goal with |- _ = ?r => vm_cast_no_check (eq_refl r) end. Qed.
(** Two vertices outside, and none. *)
Example E_C92_vertices : outside_obj Bnum [tetN] (at3 1 1 0 0) /\ outside_obj Bnum [tetN] (at3 1 0 1 0) /\ (forall v, In v tetP -> in_obj Bnum [tetP] v).
Proof.
  split; [intros u [<-|[]]; match goal with |- _ = ?r => vm_cast_no_check (eq_refl r) end|]. split; [intros u [<-|[]]; match goal with |- _ = ?r => vm_cast_no_check (eq_refl r) end|].
  intros v I. exists tetP. split; [left; reflexivity|]. unfold tetP in I. cbn [In] in I. destruct I as [<-|[<-|[<-|[<-|[]]]]]; match goal with |- _ = ?r => vm_cast_no_check (eq_refl r) end.
Qed.
(** Two tetrahedra far apart. *)
Example E_C92_apart : tets [tetP] /\ tets [tetF] /\ clear_pair tetP tetF /\ clear_pair tetF tetP /\ (forall p, hull (map pp tetP) p -> ~ region [tetF] p) /\
  exists s, generator_surface_1 Rnum [tetF] = Ok s.
Proof.
  split; [gd|]. split; [gd|]. split; [exact (pair_clear _ _ cP cF eP eF eq_refl eq_refl c_PF m_PF)|]. split; [exact (pair_clear _ _ cF cP eF eP eq_refl eq_refl c_FP m_FP)|]. split.
  - intros x R1 R2. apply one_region in R1. assert (R1' := R1). apply one_region in R1' as (ws & (_ & _ & Ex) & _). rewrite eP, ax_comb in Ex. rewrite Ex in R1, R2.
    apply (hull_out _ _ _ eP eq_refl) in R1 as (p & q & r & E & ? & ? & ? & ?). apply (hull_out _ _ _ eF eq_refl) in R2 as (p' & q' & r' & E' & ? & ? & ? & ?).
    rewrite E in E'. cbn in E'. injection E' as E1 E2 E3. lra.
  - eexists. apply L_C24_single.
Qed.
