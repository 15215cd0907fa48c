(** ico2/intsct.py: subtraction of an object from a tetrahedron. *)
From Coq Require Import Reals List ZArith Lia Lra Bool Arith Permutation.
From Verif Require Import Base.Res Model.Tau Model.Arr Model.Num Model.IcoScalar Model.IcoVolume Model.IcoNumeric Model.IcoMath1 Model.IcoDedup Model.IcoIntersect Model.IcoSurface Model.Subtract
  Spec.Value Spec.RVec Spec.Shape Spec.Mean Spec.IcoSpec Spec.Sets Spec.Space Spec.Tetra Spec.Region Spec.Surface Spec.Overlap Spec.Subtract
  Proofs.ResLemmas Proofs.ValueLemmas Proofs.Irrational Proofs.ScalarLemmas Proofs.IcoVolumeLemmas Proofs.NumLemmas Proofs.IntersectLemmas Proofs.DedupLemmas Proofs.P_Numeric Proofs.P_Intersect Proofs.SurfaceLemmas Proofs.P_Surface Proofs.OverlapLemmas Proofs.Polytope Proofs.RVecLemmas Proofs.MeanLemmas Proofs.VectorLemmas Proofs.VectorLemmas2.
Import ListNotations.
Local Open Scope R_scope.

Section Any.
Variable N : num.

Lemma on_some_spec v s b : on_some N v s = Ok b -> (b = true -> on_skin N s v).
Proof.
  intros H ->. induction s as [|f s IH]; cbn [on_some] in H; [discriminate|]. apply bind_Ok_inv in H as (c & Ec & H). destruct c.
  - exists f. split; [left; reflexivity|exact Ec].
  - destruct (IH H) as (g & Ig & Eg). exists g. split; [right; exact Ig|exact Eg].
Qed.
Lemma count_on_le f s n : count_on N f s = Ok n -> (n <= length f)%nat /\ (n = length f -> Forall (on_skin N s) f).
Proof.
  revert n. induction f as [|v f IH]; intros n H; cbn [count_on] in H; [injection H as <-; split; [cbn; lia|constructor]|].
  apply bind_Ok_inv in H as (b & Eb & H). apply bind_Ok_inv in H as (m & Em & H). destruct (IH m Em) as [L A]. injection H as <-. destruct b; cbn [length].
  - split; [lia|]. intros E. constructor; [exact (on_some_spec v s true Eb eq_refl)|apply A; lia].
  - split; [lia|]. intros E. lia.
Qed.
Lemma triangles_on_spec fs s r : Forall (fun f => length f = 3%nat) fs -> triangles_on N fs s = Ok r -> subseq r fs /\ Forall (fun f => Forall (on_skin N s) f) r.
Proof.
  intros L. revert r. induction L as [|f fs Lf L IH]; intros r H; cbn [triangles_on] in H; [injection H as <-; split; constructor|].
  apply bind_Ok_inv in H as (n & En & H). apply bind_Ok_inv in H as (q & Eq & H). destruct (IH q Eq) as [S A]. injection H as <-.
  destruct (Nat.eqb_spec n 3) as [-> |_].
  - split; [apply sub_take, S|]. constructor; [apply (proj2 (count_on_le f s 3 En)); lia|exact A].
  - split; [apply sub_skip, S|exact A].
Qed.
Lemma inside_some_spec v o b : inside_some N v o = Ok b -> if b then in_obj N o v else outside_obj N o v.
Proof.
  revert b. induction o as [|u o IH]; intros b H; cbn [inside_some] in H; [injection H as <-; intros ? []|].
  apply bind_Ok_inv in H as (c & Ec & H). destruct c.
  - injection H as <-. exists u. split; [left; reflexivity|exact Ec].
  - specialize (IH b H). destruct b.
    + destruct IH as (w & Iw & Ew). exists w. split; [right; exact Iw|exact Ew].
    + intros w [<-|Iw]; [exact Ec|apply IH, Iw].
Qed.
Lemma vertex_out_some o vs a r : vertex_out N vs o (Some a) = Ok r -> r = Some a /\ forall w, In w vs -> in_obj N o w.
Proof.
  induction vs as [|v vs IH]; intros H; cbn [vertex_out] in H; [injection H as <-; split; [reflexivity|intros ? []]|].
  apply bind_Ok_inv in H as (b & Eb & H). pose proof (inside_some_spec v o b Eb) as S. destruct b; [|discriminate]. destruct (IH H) as [E A].
  split; [exact E|]. intros w [<-|I]; [exact S|apply A, I].
Qed.
Lemma vertex_out_spec o vs r : vertex_out N vs o None = Ok r ->
  match r with Some v => one_out N o vs v | None => forall w, In w vs -> in_obj N o w end.
Proof.
  induction vs as [|v vs IH]; intros H; cbn [vertex_out] in H; [injection H as <-; intros ? []|].
  apply bind_Ok_inv in H as (b & Eb & H). pose proof (inside_some_spec v o b Eb) as S. destruct b.
  - specialize (IH H). destruct r as [a|].
    + destruct IH as (l1 & l2 & -> & O & A). exists (v :: l1), l2. split; [reflexivity|]. split; [exact O|]. intros w [<-|I]; [exact S|apply A, I].
    + intros w [<-|I]; [exact S|apply IH, I].
  - apply vertex_out_some in H as [-> A]. exists [], vs. split; [reflexivity|]. split; [exact S|exact A].
Qed.
Lemma surface_incl o r : tets o -> generator_surface_1 N o = Ok r -> incl r (all_faces o).
Proof.
  intros To H. unfold generator_surface_1 in H. apply bind_Ok_inv in H as (ts & Et & H).
  rewrite mapM_surface in Et by (eapply Forall_impl; [|exact To]; intros t [L _]; exact L). injection Et as <-. fold (all_faces o) in H.
  destruct (length o =? 1)%nat; [injection H as <-; intros f I; exact I|]. apply bind_Ok_inv in H as (xyz & _ & H). apply bind_Ok_inv in H as (lst & _ & H).
  revert r H. induction lst as [|i lst IH]; intros r H; cbn [mapM] in H; [injection H as <-; intros ? []|].
  apply bind_Ok_inv in H as (f & Ef & H). apply bind_Ok_inv in H as (r' & Er & H). injection H as <-. unfold get in Ef. destruct (nth_error (all_faces o) i) eqn:En; [|discriminate]. injection Ef as ->.
  intros g [<-|I]; [eapply nth_error_In; eassumption|apply (IH r' Er), I].
Qed.
Lemma faces_good o f : tets o -> In f (all_faces o) -> length f = 3%nat /\ goods 6 f.
Proof.
  intros To I. unfold all_faces in I. apply in_concat in I as (fs & Ifs & I). apply in_map_iff in Ifs as (t & <- & It).
  unfold tets in To. rewrite Forall_forall in To. destruct (To t It) as [L G]. destruct t as [|a [|b [|c [|d [|]]]]]; try discriminate L.
  inversion G as [|? ? Ga G1]; subst. inversion G1 as [|? ? Gb G2]; subst. inversion G2 as [|? ? Gc G3]; subst. inversion G3 as [|? ? Gd _]; subst.
  cbn [tet_faces In] in I. destruct I as [<-|[<-|[<-|[<-|[]]]]]; (split; [reflexivity|]); repeat (apply Forall_cons; [assumption|]); constructor.
Qed.
Lemma intersection_tets delaunay draws simple o1 o2 r : tets o1 -> tets o2 -> intersection_two_obj_1 N delaunay draws simple o1 o2 = Ok (Some r) -> tets r.
Proof.
  intros T1 T2 H. unfold intersection_two_obj_1 in H. apply bind_Ok_inv in H as (c & Ec & H). apply bind_Ok_inv in H as (d & Ed & H).
  unfold tets in *. rewrite Forall_forall in *. intros t It.
  destruct (L_C36_members _ _ _ _ _ _ _ H t It) as (i & j & t1 & t2 & N1 & N2 & _ & Y).
  apply nth_error_In in N1, N2. destruct Y as [[_ ->]|(q & Y & [Iq|[_ ->]])]; [apply T1, N1| |apply T1, N1].
  destruct Y as [[_ ->]|[_ Y]]; [destruct Iq as [<-|[]]; apply T2, N2|].
  destruct (T1 t1 N1) as [L1 G1]. destruct (T2 t2 N2) as [L2 G2].
  destruct (L_C35_result N delaunay (draws i j) t1 t2 (Some q) L1 G1 L2 G2 Y) as (ps & _ & _ & _ & G & P4 & _ & _ & Hq & Four & More).
  split; [apply (Hq t Iq)|]. destruct (Nat.eq_dec (length ps) 4) as [E|NE].
  - rewrite (Four E) in Iq. destruct Iq as [<-|[]]. exact G.
  - destruct (L_C37_pieces N delaunay ps (Some q) G (More ltac:(lia))) as (_ & _ & _ & _ & _ & _ & _ & _ & Inc). rewrite Forall_forall in Inc.
    eapply goods_incl; [exact G|exact (Inc t Iq)].
Qed.
(** The search through the combinations. *)
Lemma try_spec vol2 vol cs r : wf vol -> canon vol2 -> Forall (fun c => tets c /\ c <> []) cs -> try_combinations vol2 vol cs = Ok r ->
  match r with
  | (Some c, w) => exists l1 l2, cs = l1 ++ c :: l2 /\ val TAU vol + Rsum (map total (l1 ++ [c])) = val TAU vol2
  | (None, w) => wf w /\ val TAU w = val TAU vol + Rsum (map total cs)
  end.
Proof.
  intros W C2 Hc. revert vol W r. induction Hc as [|c cs [Tc Nc] Hc IH]; intros vol W r H; cbn [try_combinations] in H.
  - injection H as <-. split; [exact W|]. unfold Rsum. cbn. lra.
  - apply bind_Ok_inv in H as (w & Ew & H). pose proof (sum_volumes_spec vol c W Tc) as S. rewrite Ew in S. destruct S as (Cw & _ & Vw). specialize (Cw Nc). fold (total c) in Vw.
    destruct (tau_eqb w vol2) eqn:Eq.
    + injection H as <-. apply tau_eqb_eq in Eq as ->. exists [], cs. split; [reflexivity|]. unfold Rsum. cbn. lra.
    + specialize (IH w (canon_wf _ Cw) r H). destruct r as [[q|] z].
      * destruct IH as (l1 & l2 & -> & E). exists (c :: l1), l2. split; [reflexivity|]. cbn [map app] in *. unfold Rsum in *. cbn. lra.
      * destruct IH as [Wz Ez]. split; [exact Wz|]. cbn [map]. unfold Rsum in *. cbn. lra.
Qed.
Lemma combinations_in {A} k (l c : list A) : In c (combinations k l) -> subseq c l /\ length c = k.
Proof.
  revert l c. induction k as [|k IH]; intros l c H.
  - destruct l; destruct H as [<-|[]]; split; constructor.
  - induction l as [|x l IHl]; cbn [combinations] in H; [destruct H|]. apply in_app_iff in H as [H|H].
    + apply in_map_iff in H as (d & <- & H). destruct (IH l d H) as [S L]. split; [apply sub_take, S|cbn; lia].
    + destruct (IHl H) as [S L]. split; [apply sub_skip, S|exact L].
Qed.
Lemma combos_tets k tmp : (1 <= k)%nat -> tets tmp -> Forall (fun c => tets c /\ c <> []) (combinations k tmp).
Proof.
  intros Hk T. apply Forall_forall. intros c Hc. apply combinations_in in Hc as [S L]. split; [|intros ->; cbn in L; lia].
  unfold tets in *. rewrite Forall_forall in *. intros t It. apply T. eapply subseq_in; eassumption.
Qed.
Lemma search_spec vol2 tmp nums vol r : wf vol -> canon vol2 -> tets tmp -> Forall (le 1) nums -> search vol2 vol tmp nums = Ok (Some r) ->
  exists l1 l2, concat (map (fun k => combinations k tmp) nums) = l1 ++ r :: l2 /\ val TAU vol + Rsum (map total (l1 ++ [r])) = val TAU vol2.
Proof.
  intros W C2 T Hn. revert vol W. induction Hn as [|k nums Hk Hn IH]; intros vol W H; cbn [search] in H; [discriminate|].
  apply bind_Ok_inv in H as ([found w] & Et & H). pose proof (try_spec vol2 vol _ _ W C2 (combos_tets k tmp Hk T) Et) as S. cbn beta iota in S. destruct found as [c|].
  - injection H as <-. destruct S as (l1 & l2 & E & V). exists l1, (l2 ++ concat (map (fun k => combinations k tmp) nums)). cbn [map concat]. rewrite E, <- app_assoc. split; [reflexivity|exact V].
  - destruct S as [Ww Vw]. destruct (IH w Ww H) as (l1 & l2 & E & V). exists (combinations k tmp ++ l1), l2. cbn [map concat]. rewrite E, <- app_assoc. split; [reflexivity|].
    rewrite <- app_assoc, map_app, Rsum_app. lra.
Qed.
End Any.

Lemma mapM_get {A} (l : list A) is r : mapM (get l) is = Ok r -> Forall2 (fun i x => nth_error l i = Some x) is r.
Proof.
  revert r. induction is as [|i is IH]; intros r H; cbn [mapM] in H; [injection H as <-; constructor|].
  apply bind_Ok_inv in H as (x & Ex & H). apply bind_Ok_inv in H as (q & Eq & H). injection H as <-. constructor; [|apply IH, Eq].
  unfold get in Ex. destruct (nth_error l i); [injection Ex as ->; reflexivity|discriminate].
Qed.
Lemma mapM_get_perm {A} (l : list A) is r : Permutation is (seq 0 (length l)) -> mapM (get l) is = Ok r -> Permutation r l.
Proof.
  intros P H. apply mapM_get in H.
  assert (Q : forall is js, Permutation is js -> forall r, Forall2 (fun i x => nth_error l i = Some x) is r -> exists r', Forall2 (fun i x => nth_error l i = Some x) js r' /\ Permutation r r').
  { clear. intros is js P. induction P as [|i is js P IH|i j is|is js ks _ IH1 _ IH2]; intros r H.
    - inversion H; subst. exists []. split; constructor.
    - inversion H as [|? x ? q Hx Hq]; subst. destruct (IH q Hq) as (q' & Hq' & Pq). exists (x :: q'). split; [constructor; assumption|constructor; exact Pq].
    - inversion H as [|? x ? q Hx Hq]; subst. inversion Hq as [|? y ? q' Hy Hq']; subst. exists (y :: x :: q'). split; [repeat constructor; assumption|apply perm_swap].
    - destruct (IH1 r H) as (r1 & H1 & P1). destruct (IH2 r1 H1) as (r2 & H2 & P2). exists r2. split; [exact H2|eapply perm_trans; eassumption]. }
  destruct (Q _ _ P r H) as (r' & Hr' & Pr). assert (r' = l) as ->; [|exact Pr]. clear - Hr'.
  assert (G : forall k m q, Forall2 (fun i x => nth_error l i = Some x) (seq k m) q -> (k + m = length l)%nat -> q = skipn k l).
  { intros k m. revert k. induction m as [|m IH]; intros k q F E.
    - inversion F; subst. rewrite skipn_all2 by lia. reflexivity.
    - cbn [seq] in F. inversion F as [|? x ? q' Hx Hq]; subst. rewrite (IH (S k) q' Hq ltac:(lia)). clear - Hx. revert k Hx. induction l as [|y l IH]; intros [|k] Hx; try discriminate; cbn in *; [injection Hx as ->; reflexivity|apply IH, Hx]. }
  exact (G 0%nat (length l) r' Hr' eq_refl).
Qed.

Section Main.
Variable N : num.
Variable delaunay : list (list (F N)) -> option (list simplex).
Variable draws : nat -> nat -> list (nat * nat * nat).
Variable argsort : list (F N) -> list nat.
Hypothesis Pm : permutes argsort.

Lemma mapM_len {A B} (f : A -> res B) l r : mapM f l = Ok r -> length r = length l.
Proof.
  revert r. induction l as [|x l IH]; intros r H; cbn [mapM] in H; [injection H as <-; reflexivity|].
  apply bind_Ok_inv in H as (y & _ & H). apply bind_Ok_inv in H as (q & Eq & H). injection H as <-. cbn. f_equal. apply IH, Eq.
Qed.
(** Everything about a successful run. *)
Lemma not_obj_spec t o s r : length t = 4%nat -> goods 6 t -> tets o ->
  tetrahedron_not_obj_1 N delaunay draws argsort t o s = Ok r ->
  exists c, intersection_two_obj_1 N delaunay draws false [t] o = Ok (Some c) /\ tets c /\
  match r with
  | None => (forall w, In w t -> in_obj N o w) \/ exists v, one_out N o t v
  | Some r => exists v L fs, one_out N o t v /\ fs <> [] /\ incl fs (all_faces c) /\ Forall (fun f => Forall (on_skin N s) f) fs /\ Permutation L (map (cons v) fs) /\ tets L /\
      ((r = L /\ total r = pvol t - total c) \/
       (total L <> pvol t - total c /\ exists l1 l2, concat (map (fun k => combinations k L) (seq 1 (length L - 2))) = l1 ++ r :: l2 /\ Rsum (map total (l1 ++ [r])) = pvol t - total c))
  end.
Proof.
  intros Lt Gt To H. unfold tetrahedron_not_obj_1 in H. apply bind_Ok_inv in H as (common & Ec & H). destruct common as [c|]; [|discriminate].
  assert (T1 : tets [t]) by (constructor; [split; assumption|constructor]). pose proof (intersection_tets N _ _ _ _ _ _ T1 To Ec) as Tc. exists c. split; [exact Ec|]. split; [exact Tc|].
  apply bind_Ok_inv in H as (sc & Es & H). apply bind_Ok_inv in H as (vol0 & E0 & H). apply bind_Ok_inv in H as (vol1 & E1 & H). apply bind_Ok_inv in H as (vol2 & E2 & H).
  apply bind_Ok_inv in H as (tc & Et & H). destruct tc as [|f0 tc'] eqn:Etc; [discriminate|]. rewrite <- Etc in *. apply bind_Ok_inv in H as (out & Eo & H). pose proof (vertex_out_spec N o t out Eo) as Vo.
  pose proof (surface_incl N c sc Tc Es) as Inc.
  destruct (triangles_on_spec N sc s tc) as [St On]; [apply Forall_forall; intros f If; apply (faces_good c f Tc), Inc, If|exact Et|].
  pose proof (sum_volumes_spec t0 [t] (canon_wf _ canon_t0) T1) as W0. rewrite E0 in W0. destruct W0 as (C0 & _ & V0). specialize (C0 ltac:(discriminate)).
  pose proof (sum_volumes_spec t0 c (canon_wf _ canon_t0) Tc) as W1. rewrite E1 in W1. destruct W1 as (C1 & C1' & V1).
  assert (Wf1 : wf vol1) by (destruct c as [|? ?]; [rewrite (C1' eq_refl); apply canon_wf, canon_t0|apply canon_wf, C1; discriminate]).
  pose proof (sub_spec vol0 vol1 (canon_wf _ C0) Wf1) as W2. rewrite E2 in W2.
  assert (Z0 : val TAU t0 = 0) by (unfold val, t0; cbn; field).
  assert (V2 : canon vol2 /\ val TAU vol2 = pvol t - total c).
  { destruct W2 as [C2 V2]. split; [exact C2|]. rewrite V2, V0, V1, Z0. unfold total, Rsum. cbn. lra. }
  destruct V2 as [C2 V2]. destruct out as [v|]; [|injection H as <-; left; exact Vo].
  apply bind_Ok_inv in H as (dd & Ed & H). apply bind_Ok_inv in H as (tr & Er & H). apply bind_Ok_inv in H as (vol & Ev & H).
  assert (Ptr : Permutation tr tc). { apply (mapM_get_perm tc (argsort dd)); [|exact Er]. rewrite <- (mapM_len _ _ _ Ed). apply Pm. }
  set (L := map (cons v) tr) in *.
  assert (Gv : good 6 v). { destruct Vo as (l1 & l2 & -> & _). apply (goods_in 6 _ _ Gt). apply in_elt. }
  assert (TL : tets L).
  { apply Forall_forall. intros u Iu. apply in_map_iff in Iu as (f & <- & If). destruct (faces_good c f Tc) as [Lf Gf]; [apply Inc, (subseq_in _ _ St), (Permutation_in _ Ptr If)|]. split; [cbn; lia|constructor; assumption]. }
  pose proof (sum_volumes_spec t0 L (canon_wf _ canon_t0) TL) as WL. rewrite Ev in WL. destruct WL as (CL & _ & VL). rewrite Z0, Rplus_0_l in VL. fold (total L) in VL.
  assert (NL : L <> []). { intros E. apply map_eq_nil in E. rewrite E in Ptr. apply Permutation_nil in Ptr. rewrite Etc in Ptr. discriminate. }
  specialize (CL NL).
  assert (Pl : one_out N o t v /\ tc <> [] /\ incl tc (all_faces c) /\ Forall (fun f => Forall (on_skin N s) f) tc /\ Permutation L (map (cons v) tc) /\ tets L).
  { split; [exact Vo|]. split; [rewrite Etc; discriminate|]. split; [intros f If; apply Inc, (subseq_in _ _ St), If|]. split; [exact On|]. split; [apply Permutation_map, Ptr|exact TL]. }
  destruct (tau_eqb vol vol2) eqn:Eq.
  - injection H as <-. apply tau_eqb_eq in Eq as ->. exists v, L, tc. destruct Pl as (? & ? & ? & ? & ? & ?). repeat (split; [assumption|]). left. split; [reflexivity|]. lra.
  - destruct (length L <=? 2)%nat; [discriminate|]. destruct r as [r|]; [|right; exists v; exact Vo].
    destruct (search_spec vol2 L (seq 1 (length L - 2)) t0 r (canon_wf _ canon_t0) C2 TL) as (l1 & l2 & E & V); [apply Forall_forall; intros k Hk; apply in_seq in Hk; lia|exact H|].
    exists v, L, tc. destruct Pl as (? & ? & ? & ? & ? & ?). repeat (split; [assumption|]). right. split.
    + intros X. assert (vol = vol2) as -> by (apply (canon_val_eq TAU _ _ TAU_irrational); [exact CL|exact C2|lra]). rewrite (proj2 (tau_eqb_eq vol2 vol2) eq_refl) in Eq. discriminate.
    + exists l1, l2. split; [exact E|]. lra.
Qed.
End Main.

(** Disjoint objects in exact arithmetic. *)
Lemma rough_total t c r : t <> [] -> goods 6 t -> good 6 c -> exists b, rough_check_intersection_tetrahedron_obj Rnum t c r = Ok b.
Proof.
  intros Ht G Gc. unfold rough_check_intersection_tetrahedron_obj.
  destruct (wp_elim _ _ (centroid_spec ico_arith t Ht G)) as (m & Em & Cm & Vm). fold centroid in Em. rewrite Em. cbn [bind].
  assert (Gm : good 6 m).
  { apply good_canon; [exact Cm|]. rewrite <- (vals_length TAU), Vm. apply mean_length. rewrite Forall_map. eapply Forall_impl; [|exact G].
    intros v [_ L]. rewrite vals_length. exact L. }
  unfold ball_radius. destruct (ball_radius_R t (A3 t) m (or_introl eq_refl) G Gm) as (b & -> & _). cbn [bind].
  rewrite distance_R by assumption. cbn [bind]. eauto.
Qed.
Lemma obj_centre o : tets o -> o <> [] -> exists c r, centroid_obj o = Ok c /\ good 6 c /\ ball_radius_obj Rnum (A4 o) c = Ok r.
Proof.
  intros To Ne.
  assert (To' : Forall (fun t => t <> [] /\ goods 6 t) o).
  { eapply Forall_impl; [|exact To]. intros x [L Gx]. split; [|exact Gx]. intros ->. discriminate. }
  destruct (wp_elim _ _ (centroid_obj_spec ico_arith o Ne To')) as (c & Ec & Cc & Vc). fold centroid_obj in Ec.
  assert (Gc : good 6 c).
  { apply good_canon; [exact Cc|]. rewrite <- (vals_length TAU), Vc. apply mean_length. rewrite Forall_map. eapply Forall_impl; [|exact To].
    intros x [_ Gx]. apply mean_length. rewrite Forall_map. eapply Forall_impl; [|exact Gx]. intros v [_ L]. rewrite vals_length. exact L. }
  destruct (L_C34_radius o c (tets_goodo _ To) Gc) as (r & Er & _). eauto 6.
Qed.
Lemma check_clear t1 t2 s f : tet4 t1 -> tet4 t2 -> clear_pair t1 t2 -> edge_of s t1 -> face_of f t2 ->
  check_intersection_segment_surface_numerical_6d_tau Rnum s f = Ok true -> exists p, hull (map pp t1) p /\ hull (map pp t2) p.
Proof.
  intros [L1 G1] [L2 G2] [_ C] [Ss Ls] [Sf Lf] H. pose proof (subseq_goods _ _ Ss G1) as Gs. pose proof (subseq_goods _ _ Sf G2) as Gf.
  destruct s as [|a [|b [|]]]; try discriminate Ls. destruct f as [|c [|d [|e [|]]]]; try discriminate Lf.
  assert (G : goods 6 [a; b; c; d; e]) by (apply (Forall_app (good 6) [a; b] [c; d; e]); split; assumption).
  destruct (L_C32_exact a b c d e G) as (o & E & Ho). destruct o as [p|]; [|congruence].
  destruct (meet_near [a; b] [c; d; e] p Gs Gf eq_refl eq_refl E) as [N1 N2].
  destruct (C a b c d e (pp p) (conj Ss eq_refl) (conj Sf eq_refl) (meet_transversal a b c d e p G E) N1 N2) as [H1 H2].
  exists (pp p). split; apply hull_near0; [eapply near_subseq; [lra|apply subseq_map; exact Ss|]|eapply near_subseq; [lra|apply subseq_map; exact Sf|]]; apply hull_near0; assumption.
Qed.
Lemma apart_class t1 t2 : tet4 t1 -> tet4 t2 -> clear_pair t1 t2 -> clear_pair t2 t1 -> (forall p, hull (map pp t1) p -> hull (map pp t2) p -> False) ->
  check_intersection_two_tetrahedron_4 Rnum t1 t2 = Ok 0%Z.
Proof.
  intros T1 T2 C1 C2 D. pose proof T1 as [L1 G1]. pose proof T2 as [L2 G2]. destruct (L_C33_classes Rnum t1 t2 L1 G1 L2 G2) as (k & E & _ & _ & _ & K0). rewrite E. f_equal. apply K0.
  destruct t1 as [|a t1]; [discriminate|]. destruct t2 as [|b t2]; [discriminate|].
  split. { intros H. apply (D (pp a)); [apply hull_mem; left; reflexivity|]. apply (proj1 C1 a); [left; reflexivity|]. apply inside_near; [exact (goods_in 6 _ _ G1 (or_introl eq_refl))|exact L2|exact G2|]. apply H. left. reflexivity. }
  split. { intros H. apply (D (pp b)); [|apply hull_mem; left; reflexivity]. apply (proj1 C2 b); [left; reflexivity|]. apply inside_near; [exact (goods_in 6 _ _ G2 (or_introl eq_refl))|exact L1|exact G1|]. apply H. left. reflexivity. }
  split.
  - intros (s & f & Es & Ef & M). destruct (check_clear _ _ s f T1 T2 C1 Es Ef M) as (p & H1 & H2). exact (D p H1 H2).
  - intros (s & f & Es & Ef & M). destruct (check_clear _ _ s f T2 T1 C2 Es Ef M) as (p & H2 & H1). exact (D p H1 H2).
Qed.
Lemma disjoint_none delaunay draws simple o1 o2 : tets o1 -> tets o2 -> o2 <> [] ->
  (forall t1 t2, In t1 o1 -> In t2 o2 -> clear_pair t1 t2 /\ clear_pair t2 t1) -> (forall p, ~ (region o1 p /\ region o2 p)) ->
  intersection_two_obj_1 Rnum delaunay draws simple o1 o2 = Ok None.
Proof.
  intros T1 T2 Ne C D. unfold intersection_two_obj_1. destruct (obj_centre o2 T2 Ne) as (c & r & -> & Gc & Er). cbn [bind]. rewrite Er. cbn [bind]. clear Er.
  assert (Cl : forall t1 t2, In t1 o1 -> In t2 o2 -> check_intersection_two_tetrahedron_4 Rnum t1 t2 = Ok 0%Z).
  { intros t1 t2 I1 I2. unfold tets in T1, T2. rewrite Forall_forall in T1, T2. destruct (C t1 t2 I1 I2) as [C1 C2]. apply apart_class; [exact (T1 t1 I1)|exact (T2 t2 I2)|exact C1|exact C2|].
    intros p H1 H2. apply (D p). split; [exists t1|exists t2]; split; assumption. }
  unfold common_pieces. enough (E : forall i, outer_loop (fun t => rough_check_intersection_tetrahedron_obj Rnum t c r) (check_intersection_two_tetrahedron_4 Rnum)
    (fun i j => intersection_two_tetrahedron_4 Rnum delaunay (draws i j)) simple i o1 o2 = Ok []) by (rewrite E; reflexivity).
  assert (Inn : forall t1, In t1 o1 -> forall i j, inner_loop (check_intersection_two_tetrahedron_4 Rnum) (fun i j => intersection_two_tetrahedron_4 Rnum delaunay (draws i j)) i j t1 o2 None = Ok (false, None)).
  { intros t1 I1. assert (K : forall t2, In t2 o2 -> check_intersection_two_tetrahedron_4 Rnum t1 t2 = Ok 0%Z) by (intros; apply Cl; assumption). clear - K.
    induction o2 as [|t2 o2 IH]; intros i j; cbn [inner_loop]; [reflexivity|]. rewrite (K t2 (or_introl eq_refl)). cbn [bind Z.eqb]. apply IH. intros t I. apply K. right. exact I. }
  clear C D Cl Ne. induction T1 as [|t1 o1 [L G] T1 IH]; intros i; cbn [outer_loop]; [reflexivity|].
  assert (Ec : contribution (fun t => rough_check_intersection_tetrahedron_obj Rnum t c r) (check_intersection_two_tetrahedron_4 Rnum)
    (fun i j => intersection_two_tetrahedron_4 Rnum delaunay (draws i j)) simple i t1 o2 = Ok []).
  { unfold contribution. destruct (rough_total t1 c r) as (b & ->); [intros ->; discriminate|exact G|exact Gc|]. cbn [bind]. destruct b; [|reflexivity]. rewrite Inn by (left; reflexivity). reflexivity. }
  rewrite Ec. cbn [bind]. rewrite IH; [reflexivity|]. intros t I. apply Inn. right. exact I.
Qed.
