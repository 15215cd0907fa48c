(** The coplanarity check of ico2/numericalc.py and the completeness of the intersection of
    ico2 objects in binary64: C105, C95.
    Here la is any np.dot and np.linalg.det accurate to the bounds of Spec/LinAlg; C108 says
    which evaluations are.  Examples and refutations use the textbook ones (Bnum). *)
From Coq Require Import Reals List ZArith Lia Lra Bool.
From Verif Require Import Base.Res Model.Tau Model.Arr Model.Num Model.IcoNumeric Model.IcoMath1 Model.IcoIntersect
  Spec.LinAlg Spec.Value Spec.RVec Spec.Shape Spec.IcoSpec Spec.Sets Spec.Space Spec.Tetra Spec.Samples Spec.Region Spec.Overlap Spec.Convex Spec.Float Spec.SpaceFloat.
Import ListNotations.
Local Open Scope R_scope.

From Verif Require Proofs.LinAlgLemmas.
From Coq Require Import Classical.
From Verif Require Import Proofs.ResLemmas Proofs.NumLemmas Proofs.IntersectLemmas Proofs.ObjLemmas Proofs.DedupLemmas Proofs.P_Numeric Proofs.P_Intersect
  Proofs.Irrational Proofs.Polytope Proofs.Caratheodory3 Proofs.OverlapLemmas Proofs.P_Overlap Proofs.P_Convex Proofs.P_Subtract Proofs.FloatGeom Proofs.FloatTests Proofs.FloatOverlap Proofs.FloatCoplanar Proofs.P_Float.

(** C105: points taken for coplanar in binary64 lie near one plane, whatever the samples ... *)
Lemma L_C105_true_near : forall la, linalg_ok la ->
  forall A D draws vs, tame A D vs -> (3 < length vs)%nat ->
  coplanar_check_numeric_tau (@Bmath la) draws vs = Ok (Some true) -> near_plane (flatness A D) (map pp vs).
Proof. intros la LA. intros A D draws vs T L H. exact (flat_true A D draws vs T L H). Qed.
(** ... and exactly coplanar points of small size are never said not to be coplanar. *)
Lemma L_C105_false_right : forall la, linalg_ok la ->
  forall A D draws vs, tame A D vs -> (3 < length vs)%nat -> (A + D) * D ^ 2 <= 250 ->
  coplanar_check_numeric_tau (@Bmath la) draws vs = Ok (Some false) -> ~ coplanar3 (map pp vs).
Proof. intros la LA. intros A D draws vs T L M H C. exact (flat_false A D draws vs T L M C H). Qed.
(** The check never raises. *)
Lemma L_C105_defined : forall la, linalg_ok la ->
  forall A D draws vs, tame A D vs -> Forall (valid_draw (length vs)) draws ->
  exists r, coplanar_check_numeric_tau (@Bmath la) draws vs = Ok r.
Proof. intros la LA. exact flat_total. Qed.

Lemma parallelogram (a b c d : R3) : d = add3 b (sub3 c a) -> coplanar3 [a; b; c; d].
Proof.
  intros ->. destruct (two_normals (sub3 b a) (sub3 c a)) as (e & Ne & H & H'). exists e, (dot3 e a). split; [exact Ne|].
  destruct a as [[? ?] ?], b as [[? ?] ?], c as [[? ?] ?], e as [[? ?] ?]. cbn in H, H'. repeat (apply Forall_cons; [cbn; lra|]). apply Forall_nil.
Qed.
Ltac coefs3 := repeat (apply Forall_cons; [coefs1|]); apply Forall_nil.
Lemma spread_in D ps : Forall (fun p => Forall (apart_le D p) ps) ps -> spread D ps.
Proof. intros H p q Ip Iq. rewrite Forall_forall in H. specialize (H p Ip). rewrite Forall_forall in H. exact (H q Iq). Qed.
Ltac spread3 := rewrite ?pp_at3 by lia; pose proof TAU_bounds; apply spread_in;
  repeat (apply Forall_cons; [repeat (apply Forall_cons; [unfold apart_le, ax; cbn; split; [|split]; apply Rabs_le; lra|]); apply Forall_nil|]); apply Forall_nil.
(** A parallelogram with coordinates of at most 20 that is said not to be plane. *)
Lemma L_C105_coplanar_missed_refuted : exists draws vs, tame 20 90 vs /\ coplanar3 (map pp vs) /\ length vs = 4%nat /\ length draws = 1%nat /\ Forall (valid_draw (length vs)) draws /\
  coplanar_check_numeric_tau Bnum draws vs = Ok (Some false).
Proof.
  exists [(0, 1, 2)]%nat, [at3 1 (-9) 15 19; at3 1 (-11) (-8) (-11); at3 1 13 8 13; at3 1 11 (-15) (-17)].
  split. { split; [lra|]. split; [lra|]. split; [lra|]. split; [coefs3|]. cbn [map]. spread3. }
  split. { cbn [map]. apply parallelogram. rewrite !pp_at3 by lia. unfold ax. cbn. apply f_equal2; [apply f_equal2|]; field. }
  split; [reflexivity|]. split; [reflexivity|]. split; [repeat (apply Forall_cons; [cbn; lia|]); apply Forall_nil|].
  match goal with |- _ = ?r => vm_cast_no_check (eq_refl r) end.
Qed.
(** A parallelogram and a tetrahedron, told apart. *)
Example E_C105_ex : let sq := [at3 1 0 0 0; at3 1 1 0 0; at3 1 0 1 0; at3 1 1 1 0] in
  tame 1 5 sq /\ tame 1 5 tetP /\ (1 + 5) * 5 ^ 2 <= 250 /\ flatness 1 5 < 1/1000 /\ coplanar3 (map pp sq) /\ Forall (valid_draw (length sq)) [(0, 1, 2)]%nat /\
  coplanar_check_numeric_tau Bnum [(0, 1, 2)]%nat sq = Ok (Some true) /\ coplanar_check_numeric_tau Bnum [(0, 1, 2)]%nat tetP = Ok (Some false).
Proof.
  cbn zeta. split. { split; [lra|]. split; [lra|]. split; [lra|]. split; [coefs3|]. cbn [map]. spread3. }
  split. { apply (tame_incl _ _ _ _ PM_tame). intros v I. apply in_app_iff. left. exact I. }
  split; [lra|]. split; [unfold flatness; lra|].
  split. { cbn [map]. apply parallelogram. rewrite !pp_at3 by lia. unfold ax. cbn. apply f_equal2; [apply f_equal2|]; field. }
  split; [repeat (apply Forall_cons; [cbn; lia|]); apply Forall_nil|].
  split; match goal with |- _ = ?r => vm_cast_no_check (eq_refl r) end.
Qed.

(** The triangulation of the collected points. *)
Lemma tetra_covers_N N delaunay p o q : triangulates3 N delaunay -> goods 6 p -> tetrahedralization_points N delaunay p = Ok (Some o) -> hull (map pp p) q ->
  region o q \/ coplanar3 (map pp p).
Proof.
  intros Tr G H Hq. unfold tetrahedralization_points in H. destruct p as [|p0 p']; [discriminate|]. set (p := p0 :: p') in *.
  apply bind_Ok_inv in H as (qs & Eq & H). change (space_points N p = Ok qs) in Eq. destruct (delaunay qs) as [l|] eqn:Ed; [|discriminate].
  destruct (Tr p qs l G Eq Ed) as [Cov|C]; [left|right; exact C]. apply bind_Ok_inv in H as (o' & Eo & H).
  assert (H' : o' = o) by (destruct o'; [discriminate|injection H; auto]). subst o'. clear H.
  set (es := map ppoint p) in Cov. assert (M : map pt3 es = map pp p) by (unfold es; rewrite map_map; reflexivity).
  destruct (Cov q) as (i & j & k & m & a & b & c & d & Il & Na & Nb & Nc & Nd & NF & Hh); [rewrite M; exact Hq|].
  destruct (keep_spec p l o G Eo) as (ts & F2 & _ & I).
  assert (Get : forall x y, nth_error es x = Some y -> exists v, nth_error p x = Some v /\ pt3 y = pp v).
  { intros x y Nx. unfold es in Nx. rewrite nth_error_map in Nx. destruct (nth_error p x) as [v|]; [|discriminate]. injection Nx as <-. exists v. split; reflexivity. }
  destruct (Get i a Na) as (va & Va & Ea). destruct (Get j b Nb) as (vb & Vb & Eb). destruct (Get k c Nc) as (vc & Vc & Ec). destruct (Get m d Nd) as (vd & Vd & Ed').
  assert (T : exists t, In t ts /\ vertices_at p (i, j, k, m) t).
  { clear - F2 Il. induction F2 as [|s t l ts H _ IH]; [destruct Il|]. destruct Il as [->|Il]; [exists t; cbn; tauto|]. destruct (IH Il) as (t' & It & V). exists t'. cbn; tauto. }
  destruct T as (t & It & (a' & b' & c' & d' & Pa & Pb & Pc & Pd & ->)).
  rewrite Va in Pa. rewrite Vb in Pb. rewrite Vc in Pc. rewrite Vd in Pd. injection Pa as <-. injection Pb as <-. injection Pc as <-. injection Pd as <-.
  cbn [map] in Hh. rewrite Ea, Eb, Ec, Ed' in *. assert (Io : In [va; vb; vc; vd] o) by (apply I; split; [exact It|]; apply pvol_flat; exact NF).
  exists [va; vb; vc; vd]. split; [exact Io|exact Hh].
Qed.
Lemma near_plane_weaken h h' ps : h <= h' -> near_plane h ps -> near_plane h' ps.
Proof. intros L (n & d & Nn & H). exists n, d. split; [exact Nn|]. eapply Forall_impl; [|exact H]. cbn. intros. lra. Qed.
Lemma coplanar_near h ps : 0 < h -> coplanar3 ps -> near_plane h ps.
Proof.
  intros Hh (m & k & Nz & H). destruct (unit_of m Nz) as (n & Nn & U). destruct (U k) as (j & Hj). exists n, j. split; [exact Nn|].
  eapply Forall_impl; [|exact H]. cbn. intros p Hp. rewrite (Hj p Hp). replace (j - j) with 0 by ring. rewrite Rabs_R0. lra.
Qed.
Lemma thin_by_of h t1 t2 ps : 0 < h -> near_plane h (map pp ps) -> (forall q, hull (map pp t1) q -> hull (map pp t2) q -> hull (map pp ps) q) -> thin_by h t1 t2.
Proof.
  intros Hh (n & d & Nn & H) S. exists n, d. split; [exact Nn|]. intros q H1 H2. apply (hull_slab (map pp ps)); [lra|exact H|apply S; assumption].
Qed.
(** C95: nothing is lost in binary64.  A common point of two tetrahedra that pass the test of
    the bounding spheres lies in the result, unless their common part is thin. *)
Lemma L_C95_nothing_lost : forall la, linalg_ok la ->
  forall delaunay draws o1 o2 r t1 t2 p A D A' D', tets o1 -> tets o2 -> In t1 o1 -> In t2 o2 ->
  triangulates3 (@Bmath la) delaunay ->
  intersection (@Bmath la) delaunay draws false (A4 o1) (A4 o2) = Ok r ->
  fit_pair A D t1 t2 -> steep t1 t2 -> steep t2 t1 -> tame_points (@Bmath la) A' D' t1 t2 ->
  (forall c d, centroid_obj o2 = Ok c -> ball_radius_obj (@Bmath la) (A4 o2) c = Ok d -> rough_check_intersection_tetrahedron_obj (@Bmath la) t1 c d = Ok true) ->
  hull (map pp t1) p -> hull (map pp t2) p ->
  (exists r', r = Some r' /\ region r' p) \/ thin_by (flatness A' D') t1 t2.
Proof.
  intros la LA. intros delaunay draws o1 o2 r t1 t2 p A D A' D' T1 T2 I1 I2 Tri H F S1 S2 Tp Ro H1 H2.
  assert (T1' := T1). assert (T2' := T2). unfold tets in T1', T2'. rewrite Forall_forall in T1', T2'.
  destruct (T1' t1 I1) as [L1 G1]. destruct (T2' t2 I2) as [L2 G2].
  cbn [intersection] in H. unfold intersection_two_obj_1 in H. apply bind_Ok_inv in H as (c & Ec & H). apply bind_Ok_inv in H as (d & Ed & H).
  assert (Er := Ro c d Ec Ed).
  assert (I1' := I1). assert (I2' := I2). apply In_nth_error in I1' as (i & Hi). apply In_nth_error in I2' as (j & Hj).
  destruct (L_C36_complete _ _ _ _ _ _ i t1 j t2 H Hi Hj Er) as [C1 C2].
  destruct (classic (exists j' t', (j' < j)%nat /\ nth_error o2 j' = Some t' /\ check_intersection_two_tetrahedron_4 Bmath t1 t' = Ok 1%Z)) as [(j' & t' & _ & Hj' & E1)|X].
  { destruct (L_C36_complete _ _ _ _ _ _ i t1 j' t' H Hi Hj' Er) as [C1' _]. destruct (C1' E1) as (r' & -> & Ir). left. exists r'. split; [reflexivity|]. exists t1. split; assumption. }
  specialize (C2 (fun j' t' Lt Nt Et => X (ex_intro _ j' (ex_intro _ t' (conj Lt (conj Nt Et)))))).
  destruct (class_not_0_B A D t1 t2 p F S1 S2 L1 G1 L2 G2 H1 H2) as (k & Ek & [-> | [-> | ->]]).
  - destruct (C1 Ek) as (r' & -> & Ir). left. exists r'. split; [reflexivity|]. exists t1. split; assumption.
  - destruct (C2 [t2]) as (r' & -> & Ir); [discriminate|left; split; [exact Ek|reflexivity]|].
    left. exists r'. split; [reflexivity|]. exists t2. split; [apply Ir; left; reflexivity|assumption].
  - destruct (intersection_two_tetrahedron_4 Bmath delaunay (draws i j) t1 t2) as [q|e] eqn:Eq.
    + destruct (L_C35_result Bmath delaunay (draws i j) t1 t2 q L1 G1 L2 G2 Eq) as (ps & Adm' & _ & Adm & Gp & Hq).
      assert (Span : forall x, hull (map pp t1) x -> hull (map pp t2) x -> hull (map pp ps) x).
      { intros x X1 X2. apply (common_span_B A D t1 t2 x F S1 S2 L1 G1 L2 G2 X1 X2 ps Adm). }
      assert (Tm : tame A' D' ps) by (apply Tp, Forall_forall; exact Adm').
      assert (Fp : 1/10000 <= flatness A' D').
      { unfold flatness. destruct Tm as (HA & HD & _). assert (0 < (A' + D') * D' ^ 2) by (apply Rmult_lt_0_compat; [lra|apply pow_lt; lra]). lra. }
      destruct q as [q|].
      * destruct Hq as (Len & _ & Nq & _ & Four & More).
        destruct (C2 q Nq) as (r' & -> & Ir); [right; split; [exact Ek|exact Eq]|].
        assert (Rq : region q p \/ coplanar3 (map pp ps)).
        { destruct (Nat.eq_dec (length ps) 4) as [E4|N4].
          - left. rewrite (Four E4). exists ps. split; [left; reflexivity|apply Span; assumption].
          - apply (tetra_covers_N Bmath delaunay ps q p Tri Gp); [apply More; lia|apply Span; assumption]. }
        destruct Rq as [(t & It & Ht)|Cp].
        -- left. exists r'. split; [reflexivity|]. exists t. split; [apply Ir; exact It|exact Ht].
        -- right. apply (thin_by_of _ t1 t2 ps); [lra| |exact Span]. apply coplanar_near; [lra|exact Cp].
      * right. apply (thin_by_of _ t1 t2 ps); [lra| |exact Span]. destruct (le_lt_dec (length ps) 3) as [Le|Gt]; [apply (near_plane_weaken (1/10000)); [exact Fp|]; apply few_near_plane; rewrite map_length; lia|].
        destruct Hq as [Few|Cp]; [lia|]. exact (flat_true A' D' (draws i j) ps Tm Gt Cp).
    + exfalso. destruct (reached _ _ _ _ _ _ _ i j t1 t2 H Hi Hj Er) as (q & Q); [|exact Ek|congruence].
      intros j' t' Lt Nt Et. apply X. eauto.
Qed.

Lemma space_points_length N ps q : space_points N ps = Ok q -> length q = length ps.
Proof. intros H. apply mapM_length in H. symmetry. congruence. Qed.
Definition all_quads (q : list (list (F Bnum))) : option (list (nat * nat * nat * nat)) := if Nat.leb (length q) 20 then Some (quads (length q)) else None.
Lemma all_quads_ok : triangulates3 Bnum all_quads.
Proof.
  intros ps q l G E H. assert (l = quads (length q)) as -> by (unfold all_quads in H; destruct (Nat.leb _ _); congruence). rewrite (space_points_length _ _ _ E).
  destruct (classic (coplanar3 (map pp ps))) as [C|C]; [right; exact C|left].
  replace (length ps) with (length (map ppoint ps)) by apply map_length. apply quads_cover. rewrite map_map. exact C.
Qed.
Definition crossings (t1 t2 : vecs) : vecs :=
  flat_map (fun s => flat_map (fun f => match intersection_segment_surface Bnum s f with Ok (Some v) => [v] | _ => [] end)
    (match t2 with [a; b; c; d] => [[a; b; c]; [a; b; d]; [a; c; d]; [b; c; d]] | _ => [] end))
    (match t1 with [a; b; c; d] => [[a; b]; [a; c]; [a; d]; [b; c]; [b; d]; [c; d]] | _ => [] end).
Lemma crossings_all t1 t2 s f v : length t1 = 4%nat -> length t2 = 4%nat -> edge_of s t1 -> face_of f t2 -> intersection_segment_surface Bnum s f = Ok (Some v) -> In v (crossings t1 t2).
Proof.
  intros L1 L2 [Es Ls] [Ef Lf] H. destruct t1 as [|a [|b [|c [|d [|]]]]]; try discriminate L1. destruct t2 as [|a' [|b' [|c' [|d' [|]]]]]; try discriminate L2.
  apply subseq2 in Es; [|exact Ls]. apply subseq3 in Ef; [|exact Lf]. unfold crossings. apply in_flat_map. exists s. split; [cbn [In] in *; tauto|]. apply in_flat_map. exists f. split; [cbn [In] in *; tauto|].
  rewrite H. left. reflexivity.
Qed.

Lemma pp_at3q a b c : pp (at3q a b c) = ax (IZR a / 4, IZR b / 4, IZR c / 4).
Proof.
  unfold at3q, pp, ax. cbn. destruct (Z.eqb_spec a 0) as [->|Na], (Z.eqb_spec b 0) as [->|Nb], (Z.eqb_spec c 0) as [->|Nc]; unfold val; cbn; (apply f_equal2; [apply f_equal2|]); field.
Qed.
Definition PM_all : vecs := tetP ++ tetM ++ [at3q 1 0 0; at3q 0 1 0; at3q 0 0 1; at3q 0 1 1; at3q 1 0 1; at3q 1 1 0].
Lemma PM_in v : admissible (fun v t => inside_outside_tetrahedron_tau Bnum v t = Ok true) (fun s f v => intersection_segment_surface Bnum s f = Ok (Some v)) tetP tetM v -> In v PM_all.
Proof.
  assert (X1 : crossings tetP tetM = [at3q 1 0 0; at3q 0 1 0; at3q 0 0 1]) by (match goal with |- _ = ?r => vm_cast_no_check (eq_refl r) end).
  assert (X2 : crossings tetM tetP = [at3q 0 1 1; at3q 1 0 1; at3q 1 1 0]) by (match goal with |- _ = ?r => vm_cast_no_check (eq_refl r) end).
  unfold PM_all. rewrite in_app_iff. intros [[I _]|[[I _]|[(s & f & Es & Ef & H)|(s & f & Es & Ef & H)]]].
  - left. exact I.
  - right. apply in_app_iff. left. exact I.
  - apply (crossings_all tetP tetM s f v eq_refl eq_refl Es Ef) in H. rewrite X1 in H. right. apply in_app_iff. right. clear - H. cbn [In] in *. tauto.
  - apply (crossings_all tetM tetP s f v eq_refl eq_refl Es Ef) in H. rewrite X2 in H. right. apply in_app_iff. right. clear - H. cbn [In] in *. tauto.
Qed.
Lemma PM_points : tame_points Bnum 1 5 tetP tetM.
Proof.
  assert (T : tame 1 5 PM_all).
  { split; [lra|]. split; [lra|]. split; [lra|]. split.
    - unfold PM_all. rewrite app_assoc. apply Forall_app. split; [apply PM_tame|]. repeat (apply Forall_cons; [split; [reflexivity|]; unfold at3q; cbn; repeat (apply Forall_cons; [cbn; repeat split; try lia; unfold Rabs; repeat destruct (Rcase_abs _); lra|]); apply Forall_nil|]). apply Forall_nil.
    - unfold PM_all. rewrite !map_app, eP, eM. unfold cP, cM. cbn [map app]. rewrite !pp_at3q. spread3. }
  intros ps Ad. apply (tame_incl 1 5 PM_all ps T). intros v Iv. rewrite Forall_forall in Ad. apply PM_in, Ad, Iv.
Qed.
Lemma PM_result : exists r, intersection Bnum all_quads (fun _ _ => [(0, 1, 2); (0, 1, 3); (0, 2, 3); (1, 2, 3)])%nat false (A4 [tetP]) (A4 [tetM]) = Ok (Some r).
Proof.
  assert (X : match intersection Bnum all_quads (fun _ _ => [(0, 1, 2); (0, 1, 3); (0, 2, 3); (1, 2, 3)])%nat false (A4 [tetP]) (A4 [tetM]) with Ok (Some _) => true | _ => false end = true)
    by (vm_cast_no_check (eq_refl true)).
  destruct (intersection Bnum all_quads _ false (A4 [tetP]) (A4 [tetM])) as [[r|]|]; try discriminate X. exists r. reflexivity.
Qed.
(** The same two tetrahedra as before: the crossing points are of moderate size, the bounding
    spheres overlap, and with a triangulation that covers the hull of any points the result is
    computed; a common part within 3e-4 of a plane would be allowed to be lost. *)
Example E_C95_complete : exists delaunay draws r, triangulates3 Bnum delaunay /\
  intersection Bnum delaunay draws false (A4 [tetP]) (A4 [tetM]) = Ok (Some r) /\
  tets [tetP] /\ tets [tetM] /\ fit_pair 1 5 tetP tetM /\ steep tetP tetM /\ steep tetM tetP /\ tame_points Bnum 1 5 tetP tetM /\ flatness 1 5 < 3/10000 /\
  (forall c d, centroid_obj [tetM] = Ok c -> ball_radius_obj Bnum (A4 [tetM]) c = Ok d -> rough_check_intersection_tetrahedron_obj Bnum tetP c d = Ok true) /\
  hull (map pp tetP) (pp (at3 4 1 1 1)) /\ hull (map pp tetM) (pp (at3 4 1 1 1)).
Proof.
  destruct E_C95_ex as (G1 & G2 & F & S1 & S2 & _ & _ & _ & H1 & H2 & _).
  exists all_quads, (fun _ _ => [(0, 1, 2); (0, 1, 3); (0, 2, 3); (1, 2, 3)])%nat.
  destruct PM_result as (r & X). exists r.
  split; [exact all_quads_ok|]. split; [exact X|]. split; [exact G1|]. split; [exact G2|]. split; [exact F|]. split; [exact S1|]. split; [exact S2|]. split; [exact PM_points|].
  split; [unfold flatness; lra|]. split; [|split; assumption]. intros c d Ec Ed.
  assert (Y : bind (centroid_obj [tetM]) (fun c => bind (ball_radius_obj Bnum (A4 [tetM]) c) (fun d => rough_check_intersection_tetrahedron_obj Bnum tetP c d)) = Ok true) by (vm_cast_no_check (eq_refl (@Ok bool true))).
  rewrite Ec in Y. cbn [bind] in Y. rewrite Ed in Y. exact Y.
Qed.

(** The textbook np.dot and np.linalg.det meet the bounds asked of la. *)
Example E_C105_linalg : linalg_ok textbook.
Proof. exact Proofs.LinAlgLemmas.textbook_ok. Qed.
