(** The intersection of two objects is the right part of space (ico2/intsct.py,
    two_occupation_domains.intersection) in exact arithmetic: C69. *)
From Coq Require Import Reals List ZArith Lia Lra Bool.
From Verif Require Import Base.Res Model.Tau Model.Arr Model.Num Model.IcoNumeric Model.IcoMath1 Model.IcoIntersect
  Spec.Value Spec.RVec Spec.Shape Spec.IcoSpec Spec.Sets Spec.Space Spec.Tetra Spec.Samples Spec.Region Spec.Overlap.
Import ListNotations.
Local Open Scope R_scope.

From Verif Require Import Proofs.ResLemmas Proofs.NumLemmas Proofs.IntersectLemmas Proofs.ObjLemmas Proofs.DedupLemmas Proofs.P_Numeric Proofs.P_Intersect
  Proofs.Irrational Proofs.Polytope Proofs.OverlapLemmas.
From Coq Require Import Classical.

(** Nothing spurious: every point of the result lies in a tetrahedron of each object, up
    to 1e-6 in barycentric coordinates.  No assumption on the triangulation, the samples
    or the position of the tetrahedra. *)
Lemma L_C69_sound : forall delaunay draws o1 o2 r p, tets o1 -> tets o2 ->
  intersection Rnum delaunay draws false (A4 o1) (A4 o2) = Ok (Some r) -> region r p ->
  exists t1 t2, In t1 o1 /\ In t2 o2 /\ near (1/1000000) (map pp t1) p /\ near (1/1000000) (map pp t2) p.
Proof.
  intros delaunay draws o1 o2 r p T1 T2 H (t & It & Hp).
  unfold tets in T1, T2. rewrite Forall_forall in T1, T2.
  cbn [intersection] in H. unfold intersection_two_obj_1 in H. apply bind_Ok_inv in H as (c & Ec & H). apply bind_Ok_inv in H as (d & Ed & H).
  destruct (L_C36_members _ _ _ _ _ _ _ H t It) as (i & j & t1 & t2 & N1 & N2 & _ & Y).
  apply nth_error_In in N1, N2. destruct (T1 t1 N1) as [L1 G1]. destruct (T2 t2 N2) as [L2 G2].
  exists t1, t2. split; [exact N1|]. split; [exact N2|].
  destruct (L_C33_classes Rnum t1 t2 L1 G1 L2 G2) as (k & Ek & K1 & K2 & K3 & _).
  destruct Y as [[Y ->]|(q & Y & [Iq|[Bad _]])]; [| |discriminate].
  - rewrite Y in Ek. injection Ek as <-. destruct K1 as [K1 _]. specialize (K1 eq_refl). split.
    + apply (near_weaken 0); [lra|]. apply hull_near0. exact Hp.
    + apply (near_hull _ (map pp t1) _ _ Hp). intros x Ix. apply in_map_iff in Ix as (v & <- & Iv). apply inside_near; auto. exact (goods_in 6 _ _ G1 Iv).
  - destruct Y as [[Y ->]|[Y Yi]].
    + destruct Iq as [<-|[]]. rewrite Y in Ek. injection Ek as <-. destruct K2 as [K2 _]. specialize (K2 eq_refl) as [_ K2]. split.
      * apply (near_hull _ (map pp t2) _ _ Hp). intros x Ix. apply in_map_iff in Ix as (v & <- & Iv). apply inside_near; auto. exact (goods_in 6 _ _ G2 Iv).
      * apply (near_weaken 0); [lra|]. apply hull_near0. exact Hp.
    + destruct (L_C35_result Rnum delaunay (draws i j) t1 t2 (Some q) L1 G1 L2 G2 Yi) as (ps & _ & _ & _ & _ & _ & _ & _ & Hq & _).
      destruct (Hq t Iq) as [_ Ht].
      split; apply (near_hull _ (map pp t) _ _ Hp); intros x Ix; apply in_map_iff in Ix as (v & <- & Iv); apply (admissible_near t1 t2 v); auto.
Qed.

(** Nothing lost: a point that lies in both objects lies in the result, or in a pair of
    tetrahedra whose whole common part is thinner than 2e-4.  [decided_pair]: no edge is
    nearly, but not exactly, parallel to a face; [covers]: whenever the triangulation
    succeeds, its non-flat tetrahedra cover the hull of the points. *)
Lemma L_C69_complete : forall delaunay draws o1 o2 r p, tets o1 -> tets o2 ->
  (forall t, In t o1 \/ In t o2 -> pvol t <> 0) ->
  (forall t1 t2, In t1 o1 -> In t2 o2 -> decided_pair t1 t2) ->
  (forall q l, delaunay q = Some l -> covers q l) ->
  intersection Rnum delaunay draws false (A4 o1) (A4 o2) = Ok r ->
  region o1 p -> region o2 p ->
  (exists r', r = Some r' /\ region r' p) \/
  (exists t1 t2, In t1 o1 /\ In t2 o2 /\ hull (map pp t1) p /\ hull (map pp t2) p /\ thin t1 t2).
Proof.
  intros delaunay draws o1 o2 r p T1 T2 Vol Dec Cov H (t1 & I1 & H1) (t2 & I2 & H2).
  assert (T1' := T1). assert (T2' := T2). unfold tets in T1', T2'. rewrite Forall_forall in T1', T2'.
  destruct (T1' t1 I1) as [L1 G1]. destruct (T2' t2 I2) as [L2 G2].
  assert (V1 := Vol t1 (or_introl I1)). assert (V2 := Vol t2 (or_intror I2)). assert (D := Dec t1 t2 I1 I2).
  assert (Ne : t1 <> []) by (intros ->; discriminate).
  destruct (L_C34_never_discards t1 o2 t2 p Ne G1 T2 I2 H1 H2) as (c & d & Ec & Ed & Er).
  pose proof (L_C36_intersection Rnum delaunay draws false (A4 o1) (A4 o2) c d Ec Ed) as E. cbn beta iota in E. rewrite E in H. clear E.
  assert (I1' := I1). assert (I2' := I2). apply In_nth_error in I1' as (i & Hi). apply In_nth_error in I2' as (j & Hj).
  destruct (L_C36_complete _ _ _ _ _ _ i t1 j t2 H Hi Hj Er) as [C1 C2].
  destruct (classic (exists j' t', (j' < j)%nat /\ nth_error o2 j' = Some t' /\ check_intersection_two_tetrahedron_4 Rnum t1 t' = Ok 1%Z)) as [(j' & t' & _ & Hj' & E1)|X].
  { destruct (L_C36_complete _ _ _ _ _ _ i t1 j' t' H Hi Hj' Er) as [C1' _]. destruct (C1' E1) as (r' & -> & Ir). left. exists r'. split; [reflexivity|]. exists t1. split; assumption. }
  specialize (C2 (fun j' t' Lt Nt Et => X (ex_intro _ j' (ex_intro _ t' (conj Lt (conj Nt Et)))))).
  destruct (class_not_0 t1 t2 p L1 G1 L2 G2 V1 V2 D H1 H2) as (k & Ek & [-> | [-> | ->]]).
  - destruct (C1 Ek) as (r' & -> & Ir). left. exists r'. split; [reflexivity|]. exists t1. split; assumption.
  - destruct (C2 [t2]) as (r' & -> & Ir); [discriminate|left; split; [exact Ek|reflexivity]|].
    left. exists r'. split; [reflexivity|]. exists t2. split; [apply Ir; left; reflexivity|assumption].
  - destruct (intersection_two_tetrahedron_4 Rnum delaunay (draws i j) t1 t2) as [q|e] eqn:Eq.
    + destruct (L_C35_result Rnum delaunay (draws i j) t1 t2 q L1 G1 L2 G2 Eq) as (ps & _ & _ & Adm & Gp & Hq).
      assert (Span : forall x, hull (map pp t1) x -> hull (map pp t2) x -> hull (map pp ps) x).
      { intros x X1 X2. apply (common_span t1 t2 x L1 G1 L2 G2 V1 V2 D X1 X2 ps Adm). }
      destruct q as [q|].
      * destruct Hq as (Len & _ & Nq & _ & Four & More).
        destruct (C2 q Nq) as (r' & -> & Ir); [right; split; [exact Ek|exact Eq]|].
        assert (Rq : region q p).
        { destruct (Nat.eq_dec (length ps) 4) as [E4|N4].
          - rewrite (Four E4). exists ps. split; [left; reflexivity|apply Span; assumption].
          - apply (tetra_covers delaunay ps q p Gp Cov); [apply More; lia|apply Span; assumption]. }
        left. exists r'. split; [reflexivity|]. destruct Rq as (t & It & Ht). exists t. split; [apply Ir; exact It|exact Ht].
      * right. exists t1, t2. split; [exact I1|]. split; [exact I2|]. split; [exact H1|]. split; [exact H2|].
        apply (thin_of t1 t2 ps); [|exact Span]. destruct Hq as [Few|Cp]; [apply few_near_plane; rewrite map_length; exact Few|].
        rewrite L_C26_tau in Cp by (apply goods_l6; exact Gp).
        destruct (le_lt_dec (length ps) 3) as [Le|Gt]; [apply few_near_plane; rewrite map_length; lia|].
        apply (coplanar_true_near (draws i j)); [rewrite map_length; exact Gt|exact Cp].
    + exfalso. destruct (reached _ _ _ _ _ _ _ i j t1 t2 H Hi Hj Er) as (q & Q); [|exact Ek|congruence].
      intros j' t' Lt Nt Et. apply X. eauto.
Qed.

Lemma pp_o6 : pp o6 = (0, 0, 0).
Proof. unfold pp, o6, iv. cbn. unfold val. cbn. apply f_equal2; [apply f_equal2|]; field. Qed.
Lemma pp_x1 : pp x1 = (TAU, -1, 0).
Proof. unfold pp, x1, iv. cbn. unfold val. cbn. apply f_equal2; [apply f_equal2|]; field. Qed.
Lemma pp_x2 : pp x2 = (-1, 0, TAU).
Proof. unfold pp, x2, iv. cbn. unfold val. cbn. apply f_equal2; [apply f_equal2|]; field. Qed.
Lemma pp_x4 : pp x4 = (0, TAU, 1).
Proof. unfold pp, x4, iv. cbn. unfold val. cbn. apply f_equal2; [apply f_equal2|]; field. Qed.
Lemma pp_x6 : pp x6 = (0, TAU, -1).
Proof. unfold pp, x6, iv. cbn. unfold val. cbn. apply f_equal2; [apply f_equal2|]; field. Qed.
Lemma pp_h4 : pp [T 0 0 1; T 0 0 1; T 0 0 1; T 1 0 2; T 0 0 1; T 0 0 1] = (0, TAU / 2, 1 / 2).
Proof. unfold pp. cbn. unfold val. cbn. apply f_equal2; [apply f_equal2|]; field. Qed.
Lemma Rabs_ge x h : h <= x \/ x <= - h -> h <= Rabs x.
Proof. intros [H|H]; unfold Rabs; destruct (Rcase_abs x); lra. Qed.
Lemma TAU_2 : TAU ^ 2 = TAU + 1. Proof. pose proof TAU_sq. lra. Qed.
Lemma TAU_3 : TAU ^ 3 = 2 * TAU + 1.
Proof. pose proof TAU_sq as S. replace (TAU ^ 3) with (TAU * (TAU * TAU)) by ring. rewrite S. ring_simplify. rewrite TAU_2. ring. Qed.
Ltac dec_one := rewrite ?pp_o6, ?pp_x1, ?pp_x2, ?pp_x4, ?pp_x6, ?pp_h4; cbn; pose proof TAU_bounds as TB;
  match goal with |- ?e = 0 \/ _ => let x := fresh "x" in let E := fresh "E" in remember e as x eqn:E; field_simplify in E; rewrite ?TAU_3, ?TAU_2 in E;
    first [left; lra | right; apply Rabs_ge; lra] end.
Ltac dec_all := intros s f [Es Ls] [Ef Lf]; apply subseq2 in Es; [|exact Ls]; apply subseq3 in Ef; [|exact Lf];
  (repeat (destruct Es as [<-|Es]; [|]); [.. |destruct Es]); (repeat (destruct Ef as [<-|Ef]; [|]); [.. |destruct Ef]);
    intros a b c d e Ea Eb; injection Ea as <- <-; injection Eb as <- <- <-; cbv zeta; dec_one.
Ltac nonzero := apply pvol_flat; unfold flat4; rewrite ?pp_o6, ?pp_x1, ?pp_x2, ?pp_x4, ?pp_x6, ?pp_h4; cbn; pose proof TAU_bounds as TB;
  match goal with |- ?e <> 0 => let x := fresh "x" in let E := fresh "E" in remember e as x eqn:E; field_simplify in E; rewrite ?TAU_3, ?TAU_2 in E; lra end.

(** If no vertex and no crossing point lies in the tolerance shell, the result is inside
    both objects exactly. *)
Lemma L_C69_sound_exact : forall delaunay draws o1 o2 r p, tets o1 -> tets o2 ->
  (forall t1 t2, In t1 o1 -> In t2 o2 -> clear_pair t1 t2 /\ clear_pair t2 t1) ->
  intersection Rnum delaunay draws false (A4 o1) (A4 o2) = Ok (Some r) -> region r p -> region o1 p /\ region o2 p.
Proof.
  intros delaunay draws o1 o2 r p T1 T2 Cl H (t & It & Hp).
  unfold tets in T1, T2. rewrite Forall_forall in T1, T2.
  cbn [intersection] in H. unfold intersection_two_obj_1 in H. apply bind_Ok_inv in H as (c & Ec & H). apply bind_Ok_inv in H as (d & Ed & H).
  destruct (L_C36_members _ _ _ _ _ _ _ H t It) as (i & j & t1 & t2 & N1 & N2 & _ & Y).
  apply nth_error_In in N1, N2. destruct (T1 t1 N1) as [L1 G1]. destruct (T2 t2 N2) as [L2 G2].
  destruct (Cl t1 t2 N1 N2) as [C1 C2].
  enough (G : hull (map pp t1) p /\ hull (map pp t2) p) by (destruct G; split; [exists t1|exists t2]; auto).
  destruct (L_C33_classes Rnum t1 t2 L1 G1 L2 G2) as (k & Ek & K1 & K2 & K3 & _).
  destruct Y as [[Y ->]|(q & Y & [Iq|[Bad _]])]; [| |discriminate].
  - rewrite Y in Ek. injection Ek as <-. destruct K1 as [K1 _]. specialize (K1 eq_refl). split; [exact Hp|].
    apply (hull_trans (map pp t1) _ _ Hp). intros x Ix. apply in_map_iff in Ix as (v & <- & Iv). apply (proj1 C1 v Iv), inside_near; auto. exact (goods_in 6 _ _ G1 Iv).
  - destruct Y as [[Y ->]|[Y Yi]].
    + destruct Iq as [<-|[]]. rewrite Y in Ek. injection Ek as <-. destruct K2 as [K2 _]. specialize (K2 eq_refl) as [_ K2]. split; [|exact Hp].
      apply (hull_trans (map pp t2) _ _ Hp). intros x Ix. apply in_map_iff in Ix as (v & <- & Iv). apply (proj1 C2 v Iv), inside_near; auto. exact (goods_in 6 _ _ G2 Iv).
    + destruct (L_C35_result Rnum delaunay (draws i j) t1 t2 (Some q) L1 G1 L2 G2 Yi) as (ps & _ & _ & _ & _ & _ & _ & _ & Hq & _).
      destruct (Hq t Iq) as [_ Ht].
      assert (A : forall v, In v t -> hull (map pp t1) (pp v) /\ hull (map pp t2) (pp v)).
      { intros v Iv. destruct (Ht v Iv) as [[I S]|[[I S]|[(s & f & [Ss Ls] & [Sf Lf] & S)|(s & f & [Ss Ls] & [Sf Lf] & S)]]].
        - split; [apply hull_mem, in_map, I|]. apply (proj1 C1 v I), inside_near; auto. exact (goods_in 6 _ _ G1 I).
        - split; [|apply hull_mem, in_map, I]. apply (proj1 C2 v I), inside_near; auto. exact (goods_in 6 _ _ G2 I).
        - destruct (meet_near s f v (subseq_goods _ _ Ss G1) (subseq_goods _ _ Sf G2) Ls Lf S) as [A B].
          destruct s as [|sa [|sb [|]]]; try discriminate Ls. destruct f as [|fa [|fb [|fc [|]]]]; try discriminate Lf.
          assert (T5 : goods 6 [sa; sb; fa; fb; fc]) by (apply (Forall_app (good 6) [sa; sb] [fa; fb; fc]); split; [exact (subseq_goods _ _ Ss G1)|exact (subseq_goods _ _ Sf G2)]).
          destruct (proj2 C1 sa sb fa fb fc (pp v) (conj Ss Ls) (conj Sf Lf) (meet_transversal _ _ _ _ _ v T5 S) A B) as [A' B'].
          split; apply hull_near0; [eapply near_subseq; [lra|apply subseq_map; exact Ss|]|eapply near_subseq; [lra|apply subseq_map; exact Sf|]]; apply hull_near0; assumption.
        - destruct (meet_near s f v (subseq_goods _ _ Ss G2) (subseq_goods _ _ Sf G1) Ls Lf S) as [A B].
          destruct s as [|sa [|sb [|]]]; try discriminate Ls. destruct f as [|fa [|fb [|fc [|]]]]; try discriminate Lf.
          assert (T5 : goods 6 [sa; sb; fa; fb; fc]) by (apply (Forall_app (good 6) [sa; sb] [fa; fb; fc]); split; [exact (subseq_goods _ _ Ss G2)|exact (subseq_goods _ _ Sf G1)]).
          destruct (proj2 C2 sa sb fa fb fc (pp v) (conj Ss Ls) (conj Sf Lf) (meet_transversal _ _ _ _ _ v T5 S) A B) as [A' B'].
          split; apply hull_near0; [eapply near_subseq; [lra|apply subseq_map; exact Sf|]|eapply near_subseq; [lra|apply subseq_map; exact Ss|]]; apply hull_near0; assumption. }
      split; apply (hull_trans (map pp t) _ _ Hp); intros x Ix; apply in_map_iff in Ix as (v & <- & Iv); apply A; exact Iv.
Qed.

(** kind='simple' replaces the pieces by the whole tetrahedron when the volumes agree, and
    gives points far outside the second object if that object covers a part twice. *)
Lemma L_C69_simple_refuted : exists o1 o2 r p, tets o1 /\ tets o2 /\
  intersection Bnum (fun _ => None) (fun _ _ => []) true (A4 o1) (A4 o2) = Ok (Some r) /\ region r p /\
  forall t2, In t2 o2 -> ~ near (1/2) (map pp t2) p.
Proof.
  exists [tetA], [tetS; tetS], [tetA], (pp x4). split; [gd|]. split; [gd|]. split; [vm_cast_no_check (eq_refl (Ok (Some [tetA])))|].
  split; [exists tetA; split; [left; reflexivity|apply hull_mem; unfold tetA; cbn; tauto]|].
  intros t2 I. assert (t2 = tetS) as -> by (destruct I as [<-|[<-|[]]]; reflexivity).
  intros (ws & B & P). assert (NF : ~ flat4 (pp o6) (pp x1) (pp x2) (pp [T 0 0 1; T 0 0 1; T 0 0 1; T 1 0 2; T 0 0 1; T 0 0 1])).
  { apply pvol_flat. nonzero. }
  assert (B' : bary [-1; 0; 0; 2] (map pp tetS) (pp x4)).
  { unfold tetS. cbn [map]. rewrite pp_o6, pp_x1, pp_x2, pp_x4, pp_h4. split; [reflexivity|]. split; [unfold Rsum; cbn; lra|]. unfold comb, o3. cbn.
    apply f_equal2; [apply f_equal2|]; field. }
  rewrite (bary_unique _ _ _ _ _ _ _ NF B B') in P. inversion P; subst. lra.
Qed.

(** Two tetrahedra that overlap without containing one another meet the hypotheses, and
    have a common point. *)
Example E_C69_ex : tets [tetA] /\ tets [tetB] /\ pvol tetA <> 0 /\ pvol tetB <> 0 /\ decided_pair tetA tetB /\
  (forall q l, (fun _ : list (list R) => @None (list simplex)) q = Some l -> covers q l) /\
  region [tetA] (0, (2*TAU-3)*TAU/2, (2*TAU-3)/2) /\ region [tetB] (0, (2*TAU-3)*TAU/2, (2*TAU-3)/2).
Proof.
  split; [gd|]. split; [gd|]. split; [unfold tetA; nonzero|]. split; [unfold tetB; nonzero|]. split; [split; dec_all|]. split; [discriminate|].
  pose proof TAU_bounds as TB. pose proof TAU_sq as SQ. split.
  - exists tetA. split; [left; reflexivity|]. unfold tetA. cbn [map]. rewrite pp_o6, pp_x1, pp_x2, pp_x4.
    exists [1 - (2*TAU-3)/2; 0; 0; (2*TAU-3)/2]. split; [split; [reflexivity|split; [unfold Rsum; cbn; lra|]]|repeat (apply Forall_cons; [lra|]); constructor].
    unfold comb, o3. cbn. apply f_equal2; [apply f_equal2|]; field.
  - exists tetB. split; [left; reflexivity|]. unfold tetB. cbn [map]. rewrite pp_o6, pp_x1, pp_x2, pp_x6.
    exists [1/2; TAU - 3/2; (2-TAU)/2; (2-TAU)/2]. split; [split; [reflexivity|split; [unfold Rsum; cbn; lra|]]|].
    + unfold comb, o3. cbn. apply f_equal2; [apply f_equal2|]; field [SQ].
    + repeat (apply Forall_cons; [|]); try constructor; try lra.
Qed.

(** Any tetrahedron and itself. *)
Example E_C69_clear_ex : clear_pair tetA tetA.
Proof. apply clear_self. Qed.

(** A run in exact arithmetic: a tetrahedron contained in another. *)
Example E_C69_run : tets [tetS] /\ tets [tetA] /\ pvol tetS <> 0 /\ pvol tetA <> 0 /\ decided_pair tetS tetA /\
  intersection Rnum (fun _ => None) (fun _ _ => []) false (A4 [tetS]) (A4 [tetA]) = Ok (Some [tetS]).
Proof.
  assert (TS : tets [tetS]) by gd. assert (TA : tets [tetA]) by gd.
  assert (VA : pvol tetA <> 0) by (unfold tetA; nonzero).
  split; [exact TS|]. split; [exact TA|]. split; [unfold tetS; nonzero|]. split; [exact VA|]. split; [split; dec_all|].
  inversion TS as [|? ? [LS GS] _]; subst. inversion TA as [|? ? [LA GA] _]; subst.
  assert (In4 : forall v, In v tetS -> hull (map pp tetA) (pp v)).
  { intros v [<-|[<-|[<-|[<-|[]]]]].
    1-3: apply hull_mem; unfold tetA; cbn; tauto.
    unfold tetA. cbn [map]. rewrite pp_o6, pp_x1, pp_x2, pp_x4, pp_h4.
    exists [1/2; 0; 0; 1/2]. split; [split; [reflexivity|split; [unfold Rsum; cbn; lra|]]|repeat (apply Forall_cons; [lra|]); constructor].
    unfold comb, o3. cbn. apply f_equal2; [apply f_equal2|]; field. }
  assert (Cl : check_intersection_two_tetrahedron_4 Rnum tetS tetA = Ok 1%Z).
  { destruct (L_C33_classes Rnum tetS tetA LS GS LA GA) as (k & Ek & K1 & _). rewrite Ek. f_equal. apply K1.
    intros v Iv. apply inside_hull; auto. exact (goods_in 6 _ _ GS Iv). }
  destruct (L_C34_never_discards tetS [tetA] tetA (pp o6)) as (c & r & Ec & Ed & Er); [discriminate|exact GS|exact TA|left; reflexivity|apply hull_mem; left; reflexivity|apply hull_mem; left; reflexivity|].
  rewrite (L_C36_intersection Rnum (fun _ => None) (fun _ _ => []) false (A4 [tetS]) (A4 [tetA]) c r Ec Ed).
  unfold common_pieces, outer_loop, contribution. rewrite Er. cbn [bind inner_loop]. rewrite Cl. reflexivity.
Qed.
