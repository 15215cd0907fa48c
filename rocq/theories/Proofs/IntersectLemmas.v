(** Lemmas about Model/IcoIntersect.v. *)
From Coq Require Import Reals List ZArith Lia Lra Psatz Bool Arith.
From Verif Require Import Base.Res Model.Tau Model.Arr Model.IcoScalar Model.Vectors Model.IcoMath1 Model.Num Model.IcoNumeric
  Model.IcoVolume Model.IcoDedup Model.IcoIntersect
  Spec.Value Spec.RVec Spec.Shape Spec.Mean Spec.IcoSpec Spec.Geometry Spec.Sets Spec.Space Spec.Tetra
  Proofs.ResLemmas Proofs.Irrational Proofs.ValueLemmas Proofs.ScalarLemmas Proofs.RVecLemmas Proofs.VectorLemmas
  Proofs.IcoProj Proofs.GeomLemmas Proofs.IcoVolumeLemmas Proofs.DedupLemmas Proofs.NumLemmas Proofs.CoplanarLemmas.
Import ListNotations.
Local Open Scope R_scope.

Notation l6 := (fun v : vec => length v = 6%nat).
Lemma good_l6 v : good 6 v -> l6 v. Proof. intros [_ H]. exact H. Qed.
Lemma goods_l6 vs : goods 6 vs -> Forall l6 vs. Proof. apply Forall_impl. exact good_l6. Qed.

(** Nothing raises on 6-d vectors, in any arithmetic. *)
Lemma internal_ok N v : l6 v -> exists p, internal N v = Ok p.
Proof.
  intros L. unfold internal, numerical_vector.
  destruct v as [|v0 [|v1 [|v2 [|v3 [|v4 [|v5 [|]]]]]]]; try discriminate L. eexists. reflexivity.
Qed.
Lemma internals_ok N vs : Forall l6 vs -> exists ps, internals N vs = Ok ps /\ length ps = length vs.
Proof.
  intros H. unfold internals. induction H as [|v vs Hv _ (ps & E & L)]; cbn [mapM]; [exists []; auto|].
  destruct (internal_ok N v Hv) as (p & ->). cbn [bind]. rewrite E. exists (p :: ps). cbn. auto.
Qed.

Lemma inside_ok N v t : l6 v -> Forall l6 t -> length t = 4%nat -> exists b, inside_outside_tetrahedron_tau N v t = Ok b.
Proof.
  intros Hv Ht L. unfold inside_outside_tetrahedron_tau. destruct (internal_ok N v Hv) as (p & ->). cbn [bind].
  destruct (internals_ok N t Ht) as (q & -> & Lq). cbn [bind]. rewrite L in Lq.
  destruct q as [|a [|b [|c [|d [|]]]]]; try discriminate Lq. eexists. reflexivity.
Qed.
Lemma segsur_ok N s f : Forall l6 s -> Forall l6 f -> length s = 2%nat -> length f = 3%nat ->
  exists b, check_intersection_segment_surface_numerical_6d_tau N s f = Ok b.
Proof.
  intros Hs Hf Ls Lf. unfold check_intersection_segment_surface_numerical_6d_tau.
  destruct (internals_ok N s Hs) as (q & -> & Lq). cbn [bind]. destruct (internals_ok N f Hf) as (r & -> & Lr). cbn [bind].
  rewrite Ls in Lq. rewrite Lf in Lr. destruct q as [|? [|? [|]]]; try discriminate Lq. destruct r as [|? [|? [|? [|]]]]; try discriminate Lr.
  eexists. reflexivity.
Qed.

(** Edges and faces of a tetrahedron are its sub-sequences of length 2 and 3. *)
Lemma subseq_inv {A} (s : list A) x l : subseq s (x :: l) -> s = [] \/ subseq s l \/ exists s', s = x :: s' /\ subseq s' l.
Proof. intros H. inversion H; subst; eauto. Qed.
Lemma subseq_len {A} (s l : list A) : subseq s l -> (length s <= length l)%nat.
Proof. induction 1; cbn; lia. Qed.
Lemma subseq_nil_inv {A} (s : list A) : subseq s [] -> s = []. Proof. inversion 1; reflexivity. Qed.
Lemma subseq_full {A} (s l : list A) : subseq s l -> length s = length l -> s = l.
Proof.
  induction 1 as [l|x s l H IH|x s l H IH]; cbn; intros E.
  - destruct l; [reflexivity|discriminate].
  - f_equal. apply IH. lia.
  - apply subseq_len in H. lia.
Qed.
Lemma subseq_incl {A} (s l : list A) : subseq s l -> incl s l.
Proof. induction 1; intros y Hy; cbn in *; [tauto|destruct Hy; auto|auto]. Qed.

Lemma subseq1 {A} (s l : list A) : subseq s l -> length s = 1%nat -> exists y, s = [y] /\ In y l.
Proof.
  intros H L. destruct s as [|y [|]]; try discriminate. exists y. split; [reflexivity|]. apply (subseq_incl _ _ H). left. reflexivity.
Qed.
Lemma subseq2 {A} (a b c d : A) s : subseq s [a;b;c;d] -> length s = 2%nat -> In s [[a;b];[a;c];[a;d];[b;c];[b;d];[c;d]].
Proof.
  intros H L.
  repeat (apply subseq_inv in H; destruct H as [->|[H|(s' & -> & H)]]; [discriminate L| |
      cbn in L; injection L as L; destruct (subseq1 _ _ H L) as (y & -> & Hy); cbn in Hy |- *;
      decompose [or] Hy; try contradiction; subst; tauto]).
  apply subseq_nil_inv in H. subst. discriminate.
Qed.
Lemma subseq3 {A} (a b c d : A) s : subseq s [a;b;c;d] -> length s = 3%nat -> In s [[a;b;c];[a;b;d];[a;c;d];[b;c;d]].
Proof.
  intros H L. cbn. apply subseq_inv in H. destruct H as [->|[H|(s' & -> & H)]]; [discriminate L| |].
  - apply subseq_full in H; [subst; tauto|exact L].
  - cbn in L. injection L as L.
    apply subseq_inv in H. destruct H as [->|[H|(s'' & -> & H)]]; [discriminate L| |].
    + apply subseq_full in H; [subst; tauto|exact L].
    + cbn in L. injection L as L. destruct (subseq1 _ _ H L) as (y & -> & Hy). cbn in Hy. decompose [or] Hy; try contradiction; subst; tauto.
Qed.

Ltac subs := repeat first [apply sub_nil|apply sub_take|apply sub_skip].

Lemma edge_pick t s : length t = 4%nat -> (edge_of s t <-> exists e, In e edge_ix /\ pick2 t e = Ok s).
Proof.
  intros L. destruct t as [|a [|b [|c [|d [|]]]]]; try discriminate L. split.
  - intros [H Ls]. apply subseq2 in H; [|exact Ls]. cbn in H. unfold edge_ix.
    destruct H as [<-|[<-|[<-|[<-|[<-|[<-|[]]]]]]];
    [exists (0,1)%nat|exists (0,2)%nat|exists (0,3)%nat|exists (1,2)%nat|exists (1,3)%nat|exists (2,3)%nat]; (split; [cbn; tauto|reflexivity]).
  - intros (e & He & Hp). cbn in He. decompose [or] He; try contradiction; subst e; cbn in Hp; injection Hp as <-; (split; [|reflexivity]); subs.
Qed.
Lemma face_pick t s : length t = 4%nat -> (face_of s t <-> exists e, In e face_ix /\ pick3 t e = Ok s).
Proof.
  intros L. destruct t as [|a [|b [|c [|d [|]]]]]; try discriminate L. split.
  - intros [H Ls]. apply subseq3 in H; [|exact Ls]. cbn in H. unfold face_ix.
    destruct H as [<-|[<-|[<-|[<-|[]]]]];
    [exists (0,1,2)%nat|exists (0,1,3)%nat|exists (0,2,3)%nat|exists (1,2,3)%nat]; (split; [cbn; tauto|reflexivity]).
  - intros (e & He & Hp). cbn in He. decompose [or] He; try contradiction; subst e; cbn in Hp; injection Hp as <-; (split; [|reflexivity]); subs.
Qed.
Lemma edge_pick_ok t e : length t = 4%nat -> In e edge_ix -> exists s, pick2 t e = Ok s /\ edge_of s t.
Proof.
  intros L He. assert (H : exists s, pick2 t e = Ok s).
  { destruct t as [|a [|b [|c [|d [|]]]]]; try discriminate L. cbn in He. decompose [or] He; try contradiction; subst e; eexists; reflexivity. }
  destruct H as (s & H). exists s. split; [exact H|]. apply edge_pick; eauto.
Qed.
Lemma face_pick_ok t e : length t = 4%nat -> In e face_ix -> exists s, pick3 t e = Ok s /\ face_of s t.
Proof.
  intros L He. assert (H : exists s, pick3 t e = Ok s).
  { destruct t as [|a [|b [|c [|d [|]]]]]; try discriminate L. cbn in He. decompose [or] He; try contradiction; subst e; eexists; reflexivity. }
  destruct H as (s & H). exists s. split; [exact H|]. apply face_pick; eauto.
Qed.
Lemma edge_l6 s t : edge_of s t -> Forall l6 t -> Forall l6 s.
Proof. intros [H _] F. rewrite Forall_forall in *. intros v Hv. apply F, (subseq_incl _ _ H), Hv. Qed.
Lemma face_l6 s t : face_of s t -> Forall l6 t -> Forall l6 s.
Proof. intros [H _] F. rewrite Forall_forall in *. intros v Hv. apply F, (subseq_incl _ _ H), Hv. Qed.

(** Classification. *)
Lemma all_inside_spec N vs t : Forall l6 vs -> Forall l6 t -> length t = 4%nat ->
  exists b, all_inside N vs t = Ok b /\ (b = true <-> forall v, In v vs -> inside_outside_tetrahedron_tau N v t = Ok true).
Proof.
  intros Hv Ht L. induction Hv as [|v vs Hv _ (b & E & Hb)]; cbn [all_inside].
  - exists true. split; [reflexivity|]. split; [intros _ v []|reflexivity].
  - destruct (inside_ok N v t Hv Ht L) as (x & Ex). rewrite Ex. cbn [bind]. destruct x.
    + exists b. split; [exact E|]. rewrite Hb. split; [intros H u [<-|Hu]; auto|intros H u Hu; apply H; right; exact Hu].
    + exists false. split; [reflexivity|]. split; [discriminate|]. intros H. rewrite (H v (or_introl eq_refl)) in Ex. discriminate.
Qed.

Notation meetsN N := (fun s f => check_intersection_segment_surface_numerical_6d_tau N s f = Ok true).

Lemma edge_meets_ok N t1 t2 c : Forall l6 t1 -> Forall l6 t2 -> length t1 = 4%nat -> length t2 = 4%nat -> In c pairs_ix ->
  exists s f b, pick2 t1 (fst c) = Ok s /\ pick3 t2 (snd c) = Ok f /\ edge_of s t1 /\ face_of f t2 /\
   edge_meets N t1 t2 c = Ok b /\ check_intersection_segment_surface_numerical_6d_tau N s f = Ok b.
Proof.
  intros H1 H2 L1 L2 Hc. destruct c as [e f]. apply in_prod_iff in Hc as [He Hf].
  destruct (edge_pick_ok t1 e L1 He) as (s & Es & Hs). destruct (face_pick_ok t2 f L2 Hf) as (g & Eg & Hg).
  destruct (segsur_ok N s g (edge_l6 _ _ Hs H1) (face_l6 _ _ Hg H2) (proj2 Hs) (proj2 Hg)) as (b & Eb).
  exists s, g, b. unfold edge_meets. cbn [fst snd]. rewrite Es, Eg. cbn [bind]. tauto.
Qed.

Lemma some_meet_spec N t1 t2 : Forall l6 t1 -> Forall l6 t2 -> length t1 = 4%nat -> length t2 = 4%nat ->
  exists b, some_meet N t1 t2 pairs_ix = Ok b /\ (b = true <-> crosses (meetsN N) t1 t2 \/ crosses (meetsN N) t2 t1).
Proof.
  intros H1 H2 L1 L2.
  assert (K : forall cs, incl cs pairs_ix -> exists b, some_meet N t1 t2 cs = Ok b /\
     (b = true <-> exists c, In c cs /\ (edge_meets N t1 t2 c = Ok true \/ edge_meets N t2 t1 c = Ok true))).
  { induction cs as [|c cs IH]; intros Hi; cbn [some_meet].
    - exists false. split; [reflexivity|]. split; [discriminate|intros (c & [] & _)].
    - destruct IH as (b & E & Hb); [intros x Hx; apply Hi; right; exact Hx|].
      assert (Hc : In c pairs_ix) by (apply Hi; left; reflexivity).
      destruct (edge_meets_ok N t1 t2 c H1 H2 L1 L2 Hc) as (_ & _ & x & _ & _ & _ & _ & Ex & _).
      destruct (edge_meets_ok N t2 t1 c H2 H1 L2 L1 Hc) as (_ & _ & y & _ & _ & _ & _ & Ey & _).
      rewrite Ex. cbn [bind]. destruct x; [exists true; split; [reflexivity|]; split; [|reflexivity]; intros _; exists c; cbn; auto|].
      rewrite Ey. cbn [bind]. destruct y; [exists true; split; [reflexivity|]; split; [|reflexivity]; intros _; exists c; cbn; auto|].
      exists b. split; [exact E|]. rewrite Hb. split.
      + intros (c' & Hc' & D). exists c'. cbn; auto.
      + intros (c' & [<-|Hc'] & D); [|eauto]. rewrite Ex, Ey in D. destruct D; discriminate. }
  destruct (K pairs_ix (fun x H => H)) as (b & E & Hb). exists b. split; [exact E|]. rewrite Hb.
  assert (J : forall u v, Forall l6 u -> Forall l6 v -> length u = 4%nat -> length v = 4%nat ->
     (crosses (meetsN N) u v <-> exists c, In c pairs_ix /\ edge_meets N u v c = Ok true)).
  { intros u v Hu Hv Lu Lv. split.
    - intros (s & f & Hs & Hf & Ht). apply (edge_pick u s Lu) in Hs as (e & He & Es). apply (face_pick v f Lv) in Hf as (g & Hg & Eg).
      exists (e, g). split; [apply in_prod; assumption|]. unfold edge_meets. cbn [fst snd]. rewrite Es, Eg. exact Ht.
    - intros (c & Hc & Em). destruct (edge_meets_ok N u v c Hu Hv Lu Lv Hc) as (s & f & x & _ & _ & Hs & Hf & Ex & Et).
      rewrite Em in Ex. injection Ex as <-. exists s, f. tauto. }
  rewrite (J t1 t2), (J t2 t1) by assumption. split.
  - intros (c & Hc & [D|D]); [left|right]; eauto.
  - intros [(c & Hc & D)|(c & Hc & D)]; exists c; auto.
Qed.

Lemma classify_spec N t1 t2 : Forall l6 t1 -> Forall l6 t2 -> length t1 = 4%nat -> length t2 = 4%nat ->
  let in1 := forall v, In v t1 -> inside_outside_tetrahedron_tau N v t2 = Ok true in
  let in2 := forall v, In v t2 -> inside_outside_tetrahedron_tau N v t1 = Ok true in
  let cr := crosses (meetsN N) t1 t2 \/ crosses (meetsN N) t2 t1 in
  (in1 /\ check_intersection_two_tetrahedron_4 N t1 t2 = Ok 1%Z) \/
  (~ in1 /\ in2 /\ check_intersection_two_tetrahedron_4 N t1 t2 = Ok 2%Z) \/
  (~ in1 /\ ~ in2 /\ cr /\ check_intersection_two_tetrahedron_4 N t1 t2 = Ok 3%Z) \/
  (~ in1 /\ ~ in2 /\ ~ cr /\ check_intersection_two_tetrahedron_4 N t1 t2 = Ok 0%Z).
Proof.
  intros H1 H2 L1 L2 in1 in2 cr. unfold check_intersection_two_tetrahedron_4.
  destruct (all_inside_spec N t1 t2 H1 H2 L2) as (b & -> & Hb). destruct (all_inside_spec N t2 t1 H2 H1 L1) as (b' & -> & Hb').
  cbn [bind]. fold in1 in Hb. fold in2 in Hb'.
  destruct (some_meet_spec N t1 t2 H1 H2 L1 L2) as (m & -> & Hm). fold cr in Hm. cbn [bind].
  destruct b; [left; split; [apply Hb; reflexivity|reflexivity]|].
  assert (~ in1) by (intros H; apply Hb in H; discriminate).
  destruct b'; [right; left; split; [assumption|]; split; [apply Hb'; reflexivity|reflexivity]|].
  assert (~ in2) by (intros H0; apply Hb' in H0; discriminate).
  destruct m; right; right; [left|right]; (repeat split; try assumption).
  - apply Hm; reflexivity.
  - intros H3. apply Hm in H3. discriminate.
Qed.

(** Exact intersection point. *)
Definition tri3 (l : list R) : R3 := match l with [x; y; z] => (x, y, z) | _ => o3 end.
Lemma pp_tri3 v : pp v = tri3 (perp (vals TAU v)). Proof. reflexivity. Qed.
Ltac d3 u L := destruct u as [|? [|? [|? [|]]]]; try discriminate L.
Lemma tri3_cross u v : length u = 3%nat -> length v = 3%nat -> tri3 (cross u v) = cross3 (tri3 u) (tri3 v).
Proof. intros Lu Lv. d3 u Lu. d3 v Lv. reflexivity. Qed.
Lemma tri3_dot u v : length u = 3%nat -> length v = 3%nat -> dot u v = dot3 (tri3 u) (tri3 v).
Proof. intros Lu Lv. d3 u Lu. d3 v Lv. unfold dot. cbn. ring. Qed.
Lemma perp_len3 x : length (perp x) = 3%nat. Proof. reflexivity. Qed.
Lemma perp_affine x y k : length x = 6%nat -> length y = 6%nat ->
  tri3 (perp (vsub x y)) = sub3 (tri3 (perp x)) (tri3 (perp y)) /\
  tri3 (perp (vadd x (vscale k y))) = add3 (tri3 (perp x)) (scale3 k (tri3 (perp y))).
Proof.
  intros Lx Ly. destruct x as [|? [|? [|? [|? [|? [|? [|]]]]]]]; try discriminate Lx.
  destruct y as [|? [|? [|? [|? [|? [|? [|]]]]]]]; try discriminate Ly.
  split; cbn; unfold dot; cbn; apply f_equal2; [apply f_equal2| |apply f_equal2|]; ring.
Qed.

Lemma diff_proj a b : good 6 a -> good 6 b -> exists d r, sub_vectors a b = Ok d /\ good 6 d /\
  vals TAU d = vsub (vals TAU a) (vals TAU b) /\ projection3 d = Ok r /\ good 3 r /\ tri3 (vals TAU r) = sub3 (pp a) (pp b).
Proof.
  intros [Wa La] [Wb Lb].
  destruct (wp_elim _ _ (sub_vectors_spec ico_arith a b Wa Wb ltac:(lia))) as (d & Ed & Cd & Vd).
  assert (Ld : length d = 6%nat) by (rewrite <- (vals_length TAU), Vd, vsub_length; rewrite !vals_length; lia).
  assert (Gd : good 6 d) by (apply good_canon; assumption).
  destruct (wp_elim _ _ (projection3_spec d Gd)) as (r & Er & Cr & Vr).
  exists d, r. split; [exact Ed|]. split; [exact Gd|]. split; [exact Vd|]. split; [exact Er|]. split.
  - apply good_canon; [exact Cr|]. rewrite <- (vals_length TAU), Vr. reflexivity.
  - rewrite Vr, Vd, (proj1 (perp_affine _ _ 0 (eq_trans (vals_length _ _) La) (eq_trans (vals_length _ _) Lb))). reflexivity.
Qed.

Lemma cross_wp u v : good 3 u -> good 3 v ->
  wp (outer_product u v) (fun r => good 3 r /\ tri3 (vals TAU r) = cross3 (tri3 (vals TAU u)) (tri3 (vals TAU v))).
Proof.
  intros [Wu Lu] [Wv Lv]. eapply wp_mono; [apply (outer_product_spec ico_arith); assumption|]. intros r [Cr Vr]. split.
  - apply good_canon; [exact Cr|]. rewrite <- (vals_length TAU), Vr. apply cross_length; rewrite vals_length; assumption.
  - rewrite Vr. apply tri3_cross; rewrite vals_length; assumption.
Qed.
Lemma dot_wp u v : good 3 u -> good 3 v ->
  wp (inner_product u v) (fun o => exists r, o = Some r /\ canon r /\ val TAU r = dot3 (tri3 (vals TAU u)) (tri3 (vals TAU v))).
Proof.
  intros [Wu Lu] [Wv Lv]. pose proof (inner_product_spec ico_arith u v Wu Wv) as H. rewrite Lu, Lv in H. cbn [Nat.eqb] in H.
  eapply wp_mono; [exact H|]. intros o (r & -> & C & V). exists r. split; [reflexivity|]. split; [exact C|].
  rewrite V. apply tri3_dot; rewrite vals_length; assumption.
Qed.

Lemma iss_spec N A B C D E : good 6 A -> good 6 B -> good 6 C -> good 6 D -> good 6 E ->
  check_intersection_segment_surface_numerical_6d_tau N [A;B] [C;D;E] = Ok true ->
  let AB := sub3 (pp B) (pp A) in let CD := sub3 (pp D) (pp C) in let CE := sub3 (pp E) (pp C) in let CA := sub3 (pp A) (pp C) in
  let bunbo := dot3 (cross3 AB CE) CD in
  if Req_EM_T bunbo 0 then intersection_segment_surface N [A;B] [C;D;E] = Raise TypeError
  else exists p, intersection_segment_surface N [A;B] [C;D;E] = Ok (Some p) /\ cgood 6 p /\
    vals TAU p = vadd (vals TAU A) (vscale (dot3 (cross3 CA CD) CE / bunbo) (vsub (vals TAU B) (vals TAU A))).
Proof.
  intros GA GB GC GD GE Ht AB CD CE CA bunbo.
  unfold intersection_segment_surface. rewrite Ht. cbn [bind get nth_error].
  destruct (diff_proj B A GB GA) as (d & ab & Ed & Gd & Vd & Eab & Gab & Vab).
  destruct (diff_proj D C GD GC) as (d1 & cd & Ed1 & _ & _ & Ecd & Gcd & Vcd).
  destruct (diff_proj E C GE GC) as (d2 & ce & Ed2 & _ & _ & Ece & Gce & Vce).
  destruct (diff_proj A C GA GC) as (d3 & ca & Ed3 & _ & _ & Eca & Gca & Vca).
  rewrite Ed; cbn [bind]. rewrite Eab; cbn [bind]. rewrite Ed1; cbn [bind]. rewrite Ecd; cbn [bind].
  rewrite Ed2; cbn [bind]. rewrite Ece; cbn [bind]. rewrite Ed3; cbn [bind]. rewrite Eca; cbn [bind].
  destruct (wp_elim _ _ (cross_wp ab ce Gab Gce)) as (P & EP & GP & VP). rewrite EP; cbn [bind].
  destruct (wp_elim _ _ (cross_wp ca cd Gca Gcd)) as (Q & EQ & GQ & VQ). rewrite EQ; cbn [bind].
  destruct (wp_elim _ _ (dot_wp P cd GP Gcd)) as (o1 & Eo1 & x & -> & Cx & Vx). rewrite Eo1; cbn [bind].
  destruct (wp_elim _ _ (dot_wp Q ce GQ Gce)) as (o2 & Eo2 & y & -> & Cy & Vy). rewrite Eo2; cbn [bind notNone].
  rewrite VP, Vab, Vce, Vcd in Vx. fold AB CE CD bunbo in Vx. rewrite VQ, Vca, Vcd, Vce in Vy. fold CA CD CE in Vy.
  pose proof (div_spec y x (canon_wf _ Cy) (canon_wf _ Cx)) as Hd.
  pose proof (val_zero_iff TAU x TAU_irrational (canon_wf _ Cx)) as Hz. rewrite Vx in Hz.
  destruct (Req_EM_T bunbo 0) as [E0|E0].
  - apply Hz in E0 as [E1 E2]. rewrite E1, E2 in Hd. cbn in Hd. rewrite Hd. reflexivity.
  - replace (Z.eqb (ta x) 0 && Z.eqb (tb x) 0) with false in Hd.
    2:{ symmetry. apply not_true_iff_false. rewrite andb_true_iff, !Z.eqb_eq. intros H. apply E0, Hz, H. }
    destruct (wp_elim _ _ Hd) as (o & Eo & t & -> & Ct & Vt). rewrite Eo; cbn [bind notNone].
    destruct (wp_elim _ _ (mul_vector_spec ico_arith d t (proj1 Gd) (canon_wf _ Ct))) as (m & Em & Cm & Vm).
    fold mul_vector in Em. rewrite Em; cbn [bind].
    assert (Lm : length m = 6%nat) by (rewrite <- (vals_length TAU), Vm, vscale_length, vals_length; apply Gd).
    destruct (wp_elim _ _ (add_vectors_spec ico_arith A m (proj1 GA) (canonv_wfv _ Cm) ltac:(rewrite Lm, (proj2 GA); lia))) as (p & Ep & Cp & Vp).
    fold add_vectors in Ep. rewrite Ep; cbn [bind]. exists p. split; [reflexivity|].
    rewrite Vm, Vd, Vt, Vx, Vy in Vp. split; [|exact Vp]. split; [exact Cp|].
    rewrite <- (vals_length TAU), Vp. destruct GA as [_ LA]. destruct GB as [_ LB].
    assert (Ls : length (vsub (vals TAU B) (vals TAU A)) = 6%nat) by (rewrite vsub_length; rewrite !vals_length; lia).
    rewrite vadd_length; rewrite ?vscale_length, vals_length; lia.
Qed.

(** The line A+t(B-A) meets the plane of C,D,E exactly once when not parallel. *)
Lemma mt_solution (a b c d e : R3) :
  let D := dot3 (cross3 (sub3 b a) (sub3 e c)) (sub3 d c) in D <> 0 ->
  let u := dot3 (cross3 (sub3 b a) (sub3 e c)) (sub3 a c) / D in
  let v := dot3 (cross3 (sub3 a c) (sub3 d c)) (sub3 b a) / D in
  let t := dot3 (cross3 (sub3 a c) (sub3 d c)) (sub3 e c) / D in
  add3 a (scale3 t (sub3 b a)) = add3 c (add3 (scale3 u (sub3 d c)) (scale3 v (sub3 e c))).
Proof.
  intros D HD u v t. subst u v t D. p3 a; p3 b; p3 c; p3 d; p3 e. cbn in *. apply f_equal2; [apply f_equal2|]; field; exact HD.
Qed.
Lemma mt_unique (a b c d e : R3) u v t : 
  let D := dot3 (cross3 (sub3 b a) (sub3 e c)) (sub3 d c) in D <> 0 ->
  add3 a (scale3 t (sub3 b a)) = add3 c (add3 (scale3 u (sub3 d c)) (scale3 v (sub3 e c))) ->
  t = dot3 (cross3 (sub3 a c) (sub3 d c)) (sub3 e c) / D.
Proof.
  intros D HD H.
  assert (Ht : t * D = dot3 (cross3 (sub3 a c) (sub3 d c)) (sub3 e c)).
  { assert (K : dot3 (cross3 (sub3 (add3 a (scale3 t (sub3 b a))) c) (sub3 d c)) (sub3 e c) = 0).
    { rewrite H. p3 a; p3 b; p3 c; p3 d; p3 e. cbn. ring. }
    transitivity (dot3 (cross3 (sub3 a c) (sub3 d c)) (sub3 e c) - dot3 (cross3 (sub3 (add3 a (scale3 t (sub3 b a))) c) (sub3 d c)) (sub3 e c)).
    - unfold D. p3 a; p3 b; p3 c; p3 d; p3 e. cbn. ring.
    - rewrite K. ring. }
  rewrite <- Ht. field. exact HD.
Qed.
Lemma triple_bunbo (a b c d e : R3) : triple3 (sub3 b a) (sub3 d c) (sub3 e c) = - dot3 (cross3 (sub3 b a) (sub3 e c)) (sub3 d c).
Proof. p3 a; p3 b; p3 c; p3 d; p3 e. cbn. ring. Qed.

(** Norms. *)
Lemma cauchy p q : dot3 p q <= norm3 p * norm3 q.
Proof.
  destruct (Rle_lt_dec (dot3 p q) 0) as [H|H]; [pose proof (norm3_pos p); pose proof (norm3_pos q); nra|].
  assert (K : dot3 p q * dot3 p q <= (norm3 p * norm3 q) * (norm3 p * norm3 q)).
  { replace ((norm3 p * norm3 q) * (norm3 p * norm3 q)) with ((norm3 p * norm3 p) * (norm3 q * norm3 q)) by ring.
    rewrite !norm3_sq. destruct p as [[a b] c], q as [[x y] z]. cbn.
    pose proof (Rle_0_sqr (a*y-b*x)) as S1. pose proof (Rle_0_sqr (b*z-c*y)) as S2. pose proof (Rle_0_sqr (a*z-c*x)) as S3. unfold Rsqr in *.
    apply Rminus_le. replace (_ - _) with (- ((a*y-b*x)*(a*y-b*x) + (b*z-c*y)*(b*z-c*y) + (a*z-c*x)*(a*z-c*x))) by ring. lra. }
  pose proof (Rmult_le_pos _ _ (norm3_pos p) (norm3_pos q)). nra.
Qed.
Lemma norm3_triangle p q : norm3 (add3 p q) <= norm3 p + norm3 q.
Proof.
  pose proof (cauchy p q) as C. pose proof (norm3_sq p) as P. pose proof (norm3_sq q) as Q. pose proof (norm3_sq (add3 p q)) as S.
  pose proof (norm3_pos p). pose proof (norm3_pos q). pose proof (norm3_pos (add3 p q)).
  assert (E : dot3 (add3 p q) (add3 p q) = dot3 p p + 2 * dot3 p q + dot3 q q) by (p3 p; p3 q; cbn; ring).
  rewrite E in S. nra.
Qed.
Lemma norm3_scale k p : 0 <= k -> norm3 (scale3 k p) = k * norm3 p.
Proof.
  intros H. unfold norm3. replace (dot3 (scale3 k p) (scale3 k p)) with (k * k * dot3 p p) by (p3 p; cbn; ring).
  rewrite sqrt_mult; [|nra|apply dot3_pos]. rewrite sqrt_square by exact H. reflexivity.
Qed.
Lemma norm3_o3 : norm3 o3 = 0. Proof. unfold norm3, o3. cbn. replace (0*0+0*0+0*0) with 0 by ring. apply sqrt_0. Qed.
Lemma dist3_sym p q : dist3 p q = dist3 q p.
Proof. unfold dist3, norm3. f_equal. p3 p; p3 q; cbn; ring. Qed.
Lemma dist3_triangle p q r : dist3 p r <= dist3 p q + dist3 q r.
Proof.
  unfold dist3. replace (sub3 p r) with (add3 (sub3 p q) (sub3 q r)); [apply norm3_triangle|].
  p3 p; p3 q; p3 r; cbn. apply f_equal2; [apply f_equal2|]; ring.
Qed.

Lemma comb_sub ws ps c : length ws = length ps ->
  sub3 (comb ws ps) (scale3 (Rsum ws) c) = comb ws (map (fun p => sub3 p c) ps).
Proof.
  revert ps; induction ws as [|w ws IH]; intros [|p ps] L; try discriminate L; cbn [comb Rsum map].
  - p3 c. cbn. unfold o3. apply f_equal2; [apply f_equal2|]; ring.
  - rewrite <- IH by (cbn in L; lia). generalize (comb ws ps) (Rsum ws). intros q k. p3 c; p3 p; p3 q. cbn. apply f_equal2; [apply f_equal2|]; ring.
Qed.
Lemma comb_norm ws qs r : Forall (Rle 0) ws -> Forall (fun q => norm3 q <= r) qs -> length ws = length qs ->
  norm3 (comb ws qs) <= Rsum ws * r.
Proof.
  intros Hw; revert qs; induction Hw as [|w ws Hw _ IH]; intros [|q qs] Hq L; try discriminate L; cbn [comb Rsum].
  - rewrite norm3_o3. lra.
  - eapply Rle_trans; [apply norm3_triangle|]. rewrite norm3_scale by exact Hw.
    specialize (IH qs (Forall_inv_tail Hq) ltac:(cbn in L; lia)). pose proof (Forall_inv Hq). cbn beta in *. nra.
Qed.
Lemma hull_ball ps p c r : hull ps p -> Forall (fun q => dist3 q c <= r) ps -> dist3 p c <= r.
Proof.
  intros (ws & (L & S & ->) & Hw) H. unfold dist3 in *.
  replace (sub3 (comb ws ps) c) with (comb ws (map (fun p => sub3 p c) ps)).
  - replace r with (Rsum ws * r) by (rewrite S; ring). apply comb_norm; [exact Hw| |rewrite map_length; exact L].
    rewrite Forall_map. exact H.
  - rewrite <- comb_sub by exact L. rewrite S. f_equal. p3 c. cbn. apply f_equal2; [apply f_equal2|]; ring.
Qed.

(** Ball radius and distance in exact arithmetic. *)
Lemma length_numerical_R r : length r = 3%nat -> length_numerical Rnum r = norm3 (tri3 (vals TAU r)).
Proof.
  intros L. unfold length_numerical. rewrite numerical_vector_R. d3 r L. reflexivity.
Qed.
Lemma distance_R a b : good 6 a -> good 6 b -> distance_in_perp_space Rnum a b = Ok (dist3 (pp a) (pp b)).
Proof.
  intros Ga Gb. unfold distance_in_perp_space. destruct (diff_proj a b Ga Gb) as (d & r & -> & _ & _ & Er & [_ Lr] & Vr).
  cbn [bind]. rewrite Er. cbn [bind]. rewrite length_numerical_R by exact Lr. rewrite Vr. reflexivity.
Qed.
Lemma farther_R c dd v : good 6 c -> good 6 v -> farther Rnum c dd v = Ok (Rmax dd (dist3 (pp v) (pp c))).
Proof.
  intros Gc Gv. unfold farther. destruct (diff_proj v c Gv Gc) as (d & r & -> & _ & _ & Er & [_ Lr] & Vr).
  cbn [bind]. rewrite Er. cbn [bind]. rewrite length_numerical_R by exact Lr. rewrite Vr. fold (dist3 (pp v) (pp c)). cbv zeta. toR.
  apply (f_equal (@Ok R)). unfold Rmax. destruct (Rle_dec dd (dist3 (pp v) (pp c))) as [H|H]; destruct (Rltb dd (dist3 (pp v) (pp c))) eqn:E; try reflexivity.
  - apply Rltb_false in E. lra.
  - apply Rltb_true in E. lra.
Qed.
Lemma fold_farther c vs dd : good 6 c -> goods 6 vs -> exists r, foldM (farther Rnum c) dd vs = Ok r /\ dd <= r /\
  (forall v, In v vs -> dist3 (pp v) (pp c) <= r) /\ (r = dd \/ exists v, In v vs /\ r = dist3 (pp v) (pp c)).
Proof.
  intros Gc Gv. revert dd. induction Gv as [|v vs Hv _ IH]; intros dd; cbn [foldM].
  - exists dd. split; [reflexivity|]. split; [lra|]. split; [intros v []|left; reflexivity].
  - rewrite farther_R by assumption. cbn [bind]. destruct (IH (Rmax dd (dist3 (pp v) (pp c)))) as (r & E & H1 & H2 & H3).
    exists r. split; [exact E|]. pose proof (Rmax_l dd (dist3 (pp v) (pp c))). pose proof (Rmax_r dd (dist3 (pp v) (pp c))).
    split; [lra|]. split; [intros u [<-|Hu]; [lra|auto]|].
    destruct H3 as [->|(u & Hu & ->)]; [|right; exists u; cbn; auto].
    unfold Rmax. destruct (Rle_dec dd (dist3 (pp v) (pp c))); [right; exists v; cbn; auto|left; reflexivity].
Qed.
Lemma pp_ppoint u v : ppoint u = ppoint v -> pp u = pp v.
Proof. unfold ppoint, pp. intros ->. reflexivity. Qed.
Lemma ball_radius_R vs a c : (a = A3 vs \/ exists o, a = A4 o /\ vs = concat o) -> goods 6 vs -> good 6 c ->
  exists r, ball_radius_obj Rnum a c = Ok r /\ 0 <= r /\ (forall v, In v vs -> dist3 (pp v) (pp c) <= r) /\
    (r = 0 \/ exists v, In v vs /\ r = dist3 (pp v) (pp c)).
Proof.
  intros Ha Gv Gc. unfold ball_radius_obj. destruct (perp_space_spec_flat vs a Ha Gv) as (u & -> & I & _ & S). cbn [bind].
  destruct (fold_farther c u 0 Gc (goods_incl _ _ _ Gv I)) as (r & E & H1 & H2 & H3). exists r. split; [exact E|]. split; [exact H1|]. split.
  - intros v Hv. assert (Hp : In (ppoint v) (map ppoint u)) by (apply S, in_map, Hv).
    apply in_map_iff in Hp as (w & Ew & Hw). rewrite <- (pp_ppoint _ _ Ew). apply H2, Hw.
  - destruct H3 as [->|(v & Hv & ->)]; [left; reflexivity|right; exists v; split; [apply I, Hv|reflexivity]].
Qed.

(** Collected points. *)
Notation insideN N := (fun v t => inside_outside_tetrahedron_tau N v t = Ok true).
Notation meetatN N := (fun s f v => intersection_segment_surface N s f = Ok (Some v)).
Definition tet4 (t : vecs) : Prop := length t = 4%nat /\ goods 6 t.

Lemma subseq_goods s t : subseq s t -> goods 6 t -> goods 6 s.
Proof. intros H G. eapply goods_incl; [exact G|apply subseq_incl; exact H]. Qed.

(** The tests of the two packages agree: no point without a positive test. *)
Lemma iss_good N s f v : goods 6 s -> goods 6 f -> length s = 2%nat -> length f = 3%nat ->
  intersection_segment_surface N s f = Ok (Some v) -> cgood 6 v /\ check_intersection_segment_surface_numerical_6d_tau N s f = Ok true.
Proof.
  intros Gs Gf Ls Lf H. destruct s as [|A [|B [|]]]; try discriminate Ls. destruct f as [|C [|D [|E [|]]]]; try discriminate Lf.
  destruct (segsur_ok N [A;B] [C;D;E] (goods_l6 _ Gs) (goods_l6 _ Gf) eq_refl eq_refl) as (b & Eb).
  destruct b; [|unfold intersection_segment_surface in H; rewrite Eb in H; discriminate].
  split; [|exact Eb].
  pose proof (Forall_inv Gs) as GA. pose proof (Forall_inv (Forall_inv_tail Gs)) as GB. pose proof (Forall_inv Gf) as GC.
  pose proof (Forall_inv (Forall_inv_tail Gf)) as GD. pose proof (Forall_inv (Forall_inv_tail (Forall_inv_tail Gf))) as GE.
  pose proof (iss_spec N A B C D E GA GB GC GD GE Eb) as K. cbv zeta in K. destruct (Req_EM_T _ 0) in K.
  - rewrite K in H. discriminate.
  - destruct K as (p & Ep & Cp & _). rewrite H in Ep. injection Ep as <-. exact Cp.
Qed.

Lemma edge_points_In N t1 t2 e : tet4 t1 -> tet4 t2 -> edge_points N t1 t2 pairs_ix = Ok e ->
  forall v, In v e <-> (exists s f, edge_of s t1 /\ face_of f t2 /\ meetatN N s f v) \/ (exists s f, edge_of s t2 /\ face_of f t1 /\ meetatN N s f v).
Proof.
  intros [L1 G1] [L2 G2].
  assert (K : forall cs e, edge_points N t1 t2 cs = Ok e -> forall v, In v e <-> exists c, In c cs /\
     (edge_point N t1 t2 c = Ok (Some v) \/ edge_point N t2 t1 c = Ok (Some v))).
  { induction cs as [|c cs IH]; intros e' H v; cbn [edge_points] in H.
    - injection H as <-. split; [intros []|intros (c & [] & _)].
    - apply bind_Ok_inv in H as (o1 & E1 & H). apply bind_Ok_inv in H as (o2 & E2 & H). apply bind_Ok_inv in H as (r & Er & H). injection H as <-.
      rewrite !in_app_iff, (IH r Er v).
      assert (O : forall o : option vec, In v (olist o) <-> o = Some v).
      { intros [x|]; cbn; [split; [intros [->|[]]; reflexivity|intros H; injection H as ->; auto]|split; [intros []|discriminate]]. }
      rewrite !O. split.
      + intros [->|[->|(c' & Hc & D)]]; [exists c; cbn; auto|exists c; cbn; auto|exists c'; cbn; auto].
      + intros (c' & [<-|Hc] & D); [|right; right; eauto]. rewrite E1, E2 in D. destruct D as [D|D]; injection D as ->; auto. }
  intros H v. rewrite (K _ _ H v).
  assert (J : forall u w, length u = 4%nat -> length w = 4%nat ->
     ((exists s f, edge_of s u /\ face_of f w /\ meetatN N s f v) <-> exists c, In c pairs_ix /\ edge_point N u w c = Ok (Some v))).
  { intros u w Lu Lw. split.
    - intros (s & f & Hs & Hf & Ht). apply (edge_pick u s Lu) in Hs as (x & He & Es). apply (face_pick w f Lw) in Hf as (g & Hg & Eg).
      exists (x, g). split; [apply in_prod; assumption|]. unfold edge_point. cbn [fst snd]. rewrite Es, Eg. exact Ht.
    - intros ([x g] & Hc & Em). apply in_prod_iff in Hc as [Hx Hg].
      destruct (edge_pick_ok u x Lu Hx) as (s & Es & Hs). destruct (face_pick_ok w g Lw Hg) as (f & Ef & Hf).
      unfold edge_point in Em. cbn [fst snd] in Em. rewrite Es, Ef in Em. exists s, f. tauto. }
  rewrite (J t1 t2), (J t2 t1) by assumption. split.
  - intros (c & Hc & [D|D]); [left|right]; eauto.
  - intros [(c & Hc & D)|(c & Hc & D)]; exists c; auto.
Qed.

Lemma vertices_inside_In N vs t r : vertices_inside N vs t = Ok r -> forall v, In v r <-> In v vs /\ insideN N v t.
Proof.
  revert r. induction vs as [|u vs IH]; intros r H v; cbn [vertices_inside] in H.
  - injection H as <-. cbn. tauto.
  - apply bind_Ok_inv in H as (b & Eb & H). apply bind_Ok_inv in H as (r' & Er & H). injection H as <-.
    specialize (IH r' Er v). destruct b; cbn [In]; rewrite IH; split.
    + intros [<-|[H1 H2]]; auto.
    + intros [[<-|H1] H2]; auto.
    + intros [H1 H2]; auto.
    + intros [[<-|H1] H2]; [congruence|auto].
Qed.
Lemma collect_In N t1 t2 p : tet4 t1 -> tet4 t2 -> collect N t1 t2 = Ok p ->
  forall v, In v p <-> admissible (insideN N) (meetatN N) t1 t2 v.
Proof.
  intros T1 T2 H v. unfold collect in H. apply bind_Ok_inv in H as (e & Ee & H). apply bind_Ok_inv in H as (a & Ea & H).
  apply bind_Ok_inv in H as (b & Eb & H). injection H as <-. rewrite !in_app_iff.
  rewrite (edge_points_In N t1 t2 e T1 T2 Ee v), (vertices_inside_In N _ _ _ Ea v), (vertices_inside_In N _ _ _ Eb v).
  unfold admissible. tauto.
Qed.
Lemma admissible_good N t1 t2 v : tet4 t1 -> tet4 t2 -> admissible (insideN N) (meetatN N) t1 t2 v -> good 6 v.
Proof.
  intros [L1 G1] [L2 G2] [[H _]|[[H _]|[(s & f & [Hs Ls] & [Hf Lf] & H)|(s & f & [Hs Ls] & [Hf Lf] & H)]]].
  - eapply goods_in; [exact G1|exact H].
  - eapply goods_in; [exact G2|exact H].
  - destruct (iss_good N s f v (subseq_goods _ _ Hs G1) (subseq_goods _ _ Hf G2) Ls Lf H) as [[C L] _]. apply good_canon; assumption.
  - destruct (iss_good N s f v (subseq_goods _ _ Hs G2) (subseq_goods _ _ Hf G1) Ls Lf H) as [[C L] _]. apply good_canon; assumption.
Qed.
Lemma collect_good N t1 t2 p : tet4 t1 -> tet4 t2 -> collect N t1 t2 = Ok p -> goods 6 p.
Proof.
  intros T1 T2 H. apply Forall_forall. intros v Hv. apply (admissible_good N t1 t2 v T1 T2), (collect_In N t1 t2 p T1 T2 H), Hv.
Qed.

(** In exact arithmetic collecting never raises. *)
Lemma iss_R_ok s f : goods 6 s -> goods 6 f -> length s = 2%nat -> length f = 3%nat ->
  exists o, intersection_segment_surface Rnum s f = Ok o.
Proof.
  intros Gs Gf Ls Lf. destruct s as [|A [|B [|]]]; try discriminate Ls. destruct f as [|C [|D [|E [|]]]]; try discriminate Lf.
  destruct (segsur_ok Rnum [A;B] [C;D;E] (goods_l6 _ Gs) (goods_l6 _ Gf) eq_refl eq_refl) as (b & Eb).
  destruct b; [|exists None; unfold intersection_segment_surface; rewrite Eb; reflexivity].
  pose proof (Forall_inv Gs) as GA. pose proof (Forall_inv (Forall_inv_tail Gs)) as GB. pose proof (Forall_inv Gf) as GC.
  pose proof (Forall_inv (Forall_inv_tail Gf)) as GD. pose proof (Forall_inv (Forall_inv_tail (Forall_inv_tail Gf))) as GE.
  pose proof (iss_spec Rnum A B C D E GA GB GC GD GE Eb) as K. cbv zeta in K. destruct (Req_EM_T _ 0) as [E0|E0] in K.
  - exfalso. unfold check_intersection_segment_surface_numerical_6d_tau in Eb.
    rewrite !internals_R in Eb by (apply goods_l6; assumption). cbn [bind map check_intersection_segment_surface_numerical get nth_error] in Eb.
    injection Eb as Eb. apply seg_tri_R in Eb as [Eb _]. rewrite triple_bunbo, E0, Ropp_0, Rabs_R0 in Eb. lra.
  - destruct K as (p & Ep & _). eauto.
Qed.
Lemma collect_R_ok t1 t2 : tet4 t1 -> tet4 t2 -> exists p, collect Rnum t1 t2 = Ok p.
Proof.
  intros [L1 G1] [L2 G2]. unfold collect.
  assert (EP : forall u w c, tet4 u -> tet4 w -> In c pairs_ix -> exists o, edge_point Rnum u w c = Ok o).
  { intros u w [x g] [Lu Gu] [Lw Gw] Hc. apply in_prod_iff in Hc as [Hx Hg].
    destruct (edge_pick_ok u x Lu Hx) as (s & Es & Hs & Ls). destruct (face_pick_ok w g Lw Hg) as (f & Ef & Hf & Lf).
    unfold edge_point. cbn [fst snd]. rewrite Es, Ef. cbn [bind]. apply iss_R_ok; try assumption; eapply subseq_goods; eassumption. }
  assert (K : forall cs, incl cs pairs_ix -> exists e, edge_points Rnum t1 t2 cs = Ok e).
  { induction cs as [|c cs IH]; intros Hi; cbn [edge_points]; [eauto|].
    destruct IH as (e & ->); [intros x Hx; apply Hi; right; exact Hx|].
    destruct (EP t1 t2 c) as (o1 & ->); [split; assumption..|apply Hi; left; reflexivity|]. cbn [bind].
    destruct (EP t2 t1 c) as (o2 & ->); [split; assumption..|apply Hi; left; reflexivity|]. cbn [bind]. eauto. }
  destruct (K pairs_ix (fun x H => H)) as (e & ->). cbn [bind].
  assert (V : forall vs t, goods 6 vs -> tet4 t -> exists r, vertices_inside Rnum vs t = Ok r).
  { intros vs t Gv [Lt Gt]. induction Gv as [|v vs Hv _ (r & IH)]; cbn [vertices_inside]; [eauto|].
    destruct (inside_ok Rnum v t (good_l6 _ Hv) (goods_l6 _ Gt) Lt) as (b & ->). cbn [bind]. rewrite IH. cbn [bind]. eauto. }
  destruct (V t1 t2 G1 (conj L2 G2)) as (a & ->). cbn [bind]. destruct (V t2 t1 G2 (conj L1 G1)) as (b & ->). cbn [bind]. eauto.
Qed.

(** Tetrahedralisation. *)
Lemma pick4_spec p s t : pick4 p s = Ok t <-> vertices_at p s t.
Proof.
  destruct s as [[[i j] k] l]. unfold pick4, vertices_at, get.
  destruct (nth_error p i) as [a|]; cbn [bind]; [|split; [discriminate|intros (? & ? & ? & ? & H & _); discriminate]].
  destruct (nth_error p j) as [b|]; cbn [bind]; [|split; [discriminate|intros (? & ? & ? & ? & _ & H & _); discriminate]].
  destruct (nth_error p k) as [c|]; cbn [bind]; [|split; [discriminate|intros (? & ? & ? & ? & _ & _ & H & _); discriminate]].
  destruct (nth_error p l) as [d|]; cbn [bind]; [|split; [discriminate|intros (? & ? & ? & ? & _ & _ & _ & H & _); discriminate]].
  split; [intros H; injection H as <-; eauto 10|]. intros (a' & b' & c' & d' & H1 & H2 & H3 & H4 & ->). congruence.
Qed.
Lemma vertices_at_tet p s t : goods 6 p -> vertices_at p s t -> tet4 t /\ incl t p.
Proof.
  destruct s as [[[i j] k] l]. intros G (a & b & c & d & H1 & H2 & H3 & H4 & ->).
  apply nth_error_In in H1, H2, H3, H4.
  assert (I : incl [a;b;c;d] p) by (intros x [<-|[<-|[<-|[<-|[]]]]]; assumption).
  split; [split; [reflexivity|eapply goods_incl; eassumption]|exact I].
Qed.
Lemma is_zero2_spec v : wf v -> (is_zero2 v = true <-> val TAU v = 0).
Proof.
  intros W. rewrite (val_zero_iff TAU v TAU_irrational W). unfold is_zero2. rewrite andb_true_iff, !Z.eqb_eq. tauto.
Qed.
Lemma keep_spec p l o : goods 6 p -> keep_simplices p l = Ok o -> exists ts, Forall2 (vertices_at p) l ts /\ subseq o ts /\
  (forall t, In t o <-> In t ts /\ pvol t <> 0).
Proof.
  intros G. revert o. induction l as [|s l IH]; intros o H; cbn [keep_simplices] in H.
  - injection H as <-. exists []. split; [constructor|]. split; [constructor|]. cbn. tauto.
  - apply bind_Ok_inv in H as (t & Et & H). apply bind_Ok_inv in H as (v & Ev & H). apply bind_Ok_inv in H as (r & Er & H). injection H as <-.
    destruct (IH r Er) as (ts & F & S & I). apply pick4_spec in Et. destruct (vertices_at_tet p s t G Et) as [[Lt Gt] _].
    pose proof (tetvol6_spec t Lt Gt) as V. rewrite Ev in V. cbn in V. destruct V as [C V].
    pose proof (is_zero2_spec v (canon_wf _ C)) as Z. rewrite V in Z.
    exists (t :: ts). split; [constructor; assumption|]. destruct (is_zero2 v).
    + split; [apply sub_skip; exact S|]. intros t'. rewrite I. cbn. split; [tauto|]. intros [[<-|H] N]; [|tauto]. exfalso. apply N, Z. reflexivity.
    + split; [apply sub_take; exact S|]. intros t'. cbn. rewrite I. split.
      * intros [<-|[H N]]; [|tauto]. split; [auto|]. intros N. apply Z in N. discriminate.
      * intros [[<-|H] N]; tauto.
Qed.
Lemma keep_ok p l ts : goods 6 p -> Forall2 (vertices_at p) l ts -> exists o, keep_simplices p l = Ok o.
Proof.
  intros G. induction 1 as [|s t l ts H _ (o & IH)]; cbn [keep_simplices]; [eauto|].
  destruct (vertices_at_tet p s t G H) as [[Lt Gt] _]. apply pick4_spec in H. rewrite H. cbn [bind].
  destruct (wp_elim _ _ (tetvol6_spec t Lt Gt)) as (v & -> & _). cbn [bind]. rewrite IH. cbn [bind]. eauto.
Qed.
