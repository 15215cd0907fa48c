(** Lemmas about Model/DodeIntersect.v. *)
From Coq Require Import Reals List ZArith Lia Lra Psatz Bool Arith.
From Verif Require Import Base.Res Model.Tau Model.Arr Model.DodeScalar Model.Vectors Model.DodeMath1 Model.Num Model.IcoNumeric
  Model.DodeNumeric Model.DodeArea Model.IcoDedup Model.DodeDedup Model.IcoIntersect Model.DodeIntersect
  Spec.Value Spec.RVec Spec.Shape Spec.Mean Spec.DodeSpec Spec.Sets Spec.Space Spec.Tetra Spec.Plane
  Proofs.ResLemmas Proofs.Irrational Proofs.ValueLemmas Proofs.ScalarLemmas Proofs.RVecLemmas Proofs.VectorLemmas
  Proofs.IcoProj Proofs.DedupLemmas Proofs.NumLemmas Proofs.IntersectLemmas Proofs.DodeProj Proofs.DodeDedupLemmas Proofs.PlaneLemmas.
Import ListNotations.
Local Open Scope R_scope.

(** Nothing raises on 6-d vectors, in any arithmetic. *)
Lemma dinternal_ok N v : l6 v -> exists p, dinternal N v = Ok p.
Proof.
  intros L. unfold dinternal, dnumerical_vector.
  destruct v as [|v0 [|v1 [|v2 [|v3 [|v4 [|v5 [|]]]]]]]; try discriminate L. eexists. reflexivity.
Qed.
Lemma dinternals_ok N vs : Forall l6 vs -> exists ps, dinternals N vs = Ok ps /\ length ps = length vs.
Proof.
  intros H. unfold dinternals. induction H as [|v vs Hv _ (ps & E & L)]; cbn [mapM]; [exists []; auto|].
  destruct (dinternal_ok N v Hv) as (p & ->). cbn [bind]. rewrite E. exists (p :: ps). cbn. auto.
Qed.
Lemma dinside_ok N v t : l6 v -> Forall l6 t -> length t = 3%nat -> exists b, inside_outside_triangle_tau N v t = Ok b.
Proof.
  intros Hv Ht L. unfold inside_outside_triangle_tau. destruct (dinternal_ok N v Hv) as (p & ->). cbn [bind].
  destruct (dinternals_ok N t Ht) as (q & -> & Lq). cbn [bind]. rewrite L in Lq.
  destruct q as [|a [|b [|c [|]]]]; try discriminate Lq. eexists. reflexivity.
Qed.
Lemma segseg_ok N s e : Forall l6 s -> Forall l6 e -> length s = 2%nat -> length e = 2%nat ->
  exists b, dcheck_intersection_two_segment_numerical_6d_tau N s e = Ok b.
Proof.
  intros Hs He Ls Le. unfold dcheck_intersection_two_segment_numerical_6d_tau.
  destruct (dinternals_ok N s Hs) as (q & -> & Lq). cbn [bind]. destruct (dinternals_ok N e He) as (r & -> & Lr). cbn [bind].
  rewrite Ls in Lq. rewrite Le in Lr. destruct q as [|? [|? [|]]]; try discriminate Lq. destruct r as [|? [|? [|]]]; try discriminate Lr.
  eexists. reflexivity.
Qed.

(** Edges of a triangle. *)
Lemma tsubseq2 {A} (a b c : A) s : subseq s [a;b;c] -> length s = 2%nat -> In s [[a;b];[a;c];[b;c]].
Proof.
  intros H L.
  repeat (apply subseq_inv in H; destruct H as [->|[H|(s' & -> & H)]]; [discriminate L| |
      cbn in L; injection L as L; destruct (subseq1 _ _ H L) as (y & -> & Hy); cbn in Hy |- *;
      decompose [or] Hy; try contradiction; subst; tauto]).
  apply subseq_nil_inv in H. subst. discriminate.
Qed.
Lemma tedge_pick t s : length t = 3%nat -> (edge_of s t <-> exists e, In e tedge_ix /\ pick2 t e = Ok s).
Proof.
  intros L. destruct t as [|a [|b [|c [|]]]]; try discriminate L. split.
  - intros [H Ls]. apply tsubseq2 in H; [|exact Ls]. cbn in H. unfold tedge_ix.
    destruct H as [<-|[<-|[<-|[]]]];
    [exists (0,1)%nat|exists (0,2)%nat|exists (1,2)%nat]; (split; [cbn; tauto|reflexivity]).
  - intros (e & He & Hp). cbn in He. decompose [or] He; try contradiction; subst e; cbn in Hp; injection Hp as <-; (split; [|reflexivity]); subs.
Qed.
Lemma tedge_pick_ok t e : length t = 3%nat -> In e tedge_ix -> exists s, pick2 t e = Ok s /\ edge_of s t.
Proof.
  intros L He. assert (H : exists s, pick2 t e = Ok s).
  { destruct t as [|a [|b [|c [|]]]]; try discriminate L. cbn in He. decompose [or] He; try contradiction; subst e; eexists; reflexivity. }
  destruct H as (s & H). exists s. split; [exact H|]. apply tedge_pick; eauto.
Qed.
Lemma pick3_id t : length t = 3%nat -> pick3 t (0,1,2)%nat = Ok t.
Proof. intros L. destruct t as [|a [|b [|c [|]]]]; try discriminate L. reflexivity. Qed.

Notation meets2 N := (fun s e => dcheck_intersection_two_segment_numerical_6d_tau N s e = Ok true).

(** A segment meets a triangle when it meets one of its edges. *)
Lemma pick2_internals N t e s : pick2 t e = Ok s -> forall ps, dinternals N t = Ok ps ->
  exists p q, get ps (fst e) = Ok p /\ get ps (snd e) = Ok q /\ dinternals N s = Ok [p; q].
Proof.
  destruct e as [i j]. unfold pick2. intros H ps Hp. apply bind_Ok_inv in H as (a & Ea & H). apply bind_Ok_inv in H as (b & Eb & H).
  injection H as <-. cbn [fst snd].
  assert (K : forall vs qs k v, mapM (dinternal N) vs = Ok qs -> get vs k = Ok v -> exists p, get qs k = Ok p /\ dinternal N v = Ok p).
  { induction vs as [|u vs IH]; intros qs k v H Hk.
    - destruct k; discriminate Hk.
    - cbn [mapM] in H. apply bind_Ok_inv in H as (p & Ep & H). apply bind_Ok_inv in H as (qs' & Eq & H). injection H as <-.
      destruct k; [injection Hk as <-; exists p; auto|]. exact (IH _ k v Eq Hk). }
  destruct (K _ _ _ _ Hp Ea) as (p & Gp & Ip). destruct (K _ _ _ _ Hp Eb) as (q & Gq & Iq).
  exists p, q. split; [exact Gp|]. split; [exact Gq|]. unfold dinternals. cbn [mapM]. rewrite Ip. cbn [bind]. rewrite Iq. reflexivity.
Qed.
Lemma dsegsur_spec N s t : Forall l6 s -> Forall l6 t -> length s = 2%nat -> length t = 3%nat ->
  exists b, dcheck_intersection_segment_surface_numerical_6d_tau N s t = Ok b /\
    (b = true <-> exists e, edge_of e t /\ meets2 N s e).
Proof.
  intros Hs Ht Ls Lt. unfold dcheck_intersection_segment_surface_numerical_6d_tau, dcheck_intersection_segment_surface_numerical.
  destruct (dinternals_ok N s Hs) as (ln & El & _). destruct (dinternals_ok N t Ht) as (tr & Et & _). rewrite El. cbn [bind]. rewrite Et. cbn [bind].
  assert (K : forall cs, incl cs tedge_ix -> exists b, some_edge_meets N ln tr cs = Ok b /\
     (b = true <-> exists c e, In c cs /\ pick2 t c = Ok e /\ meets2 N s e)).
  { induction cs as [|[i j] cs IH]; intros Hi; cbn [some_edge_meets].
    - exists false. split; [reflexivity|]. split; [discriminate|]. intros (c & e & [] & _).
    - destruct IH as (b & E & Hb); [intros x Hx; apply Hi; right; exact Hx|].
      destruct (tedge_pick_ok t (i, j) Lt) as (e & Ee & He); [apply Hi; left; reflexivity|].
      destruct (pick2_internals N t (i, j) e Ee tr Et) as (p & q & Gp & Gq & Ie). cbn [fst snd] in Gp, Gq. rewrite Gp. cbn [bind]. rewrite Gq. cbn [bind].
      destruct (segseg_ok N s e Hs (edge_l6 _ _ He Ht) Ls (proj2 He)) as (x & Ex).
      pose proof Ex as Ex'. unfold dcheck_intersection_two_segment_numerical_6d_tau in Ex'. rewrite El in Ex'. cbn [bind] in Ex'. rewrite Ie in Ex'. cbn [bind] in Ex'.
      rewrite Ex'. cbn [bind]. destruct x.
      + exists true. split; [reflexivity|]. split; [|reflexivity]. intros _. exists (i, j), e. cbn. auto.
      + exists b. split; [exact E|]. rewrite Hb. split.
        * intros (c & f & Hc & Hf & Hm). exists c, f. cbn; auto.
        * intros (c & f & [<-|Hc] & Hf & Hm); [|eauto]. rewrite Ee in Hf. injection Hf as <-. congruence. }
  destruct (K tedge_ix (fun x H => H)) as (b & E & Hb). exists b. split; [exact E|]. rewrite Hb. split.
  - intros (c & e & Hc & He & Hm). exists e. split; [apply tedge_pick; eauto|exact Hm].
  - intros (e & He & Hm). apply (tedge_pick t e Lt) in He as (c & Hc & He). eauto.
Qed.

(** Classification. *)
Lemma dall_inside_spec N vs t : Forall l6 vs -> Forall l6 t -> length t = 3%nat ->
  exists b, dall_inside N vs t = Ok b /\ (b = true <-> forall v, In v vs -> inside_outside_triangle_tau N v t = Ok true).
Proof.
  intros Hv Ht L. induction Hv as [|v vs Hv _ (b & E & Hb)]; cbn [dall_inside].
  - exists true. split; [reflexivity|]. split; [intros _ v []|reflexivity].
  - destruct (dinside_ok N v t Hv Ht L) as (x & Ex). rewrite Ex. cbn [bind]. destruct x.
    + exists b. split; [exact E|]. rewrite Hb. split; [intros H u [<-|Hu]; auto|intros H u Hu; apply H; right; exact Hu].
    + exists false. split; [reflexivity|]. split; [discriminate|]. intros H. rewrite (H v (or_introl eq_refl)) in Ex. discriminate.
Qed.
Lemma dedge_meets_ok N t1 t2 c : Forall l6 t1 -> Forall l6 t2 -> length t1 = 3%nat -> length t2 = 3%nat -> In c tedge_ix ->
  exists s b, pick2 t1 c = Ok s /\ edge_of s t1 /\ dedge_meets N t1 t2 c = Ok b /\ (b = true <-> exists e, edge_of e t2 /\ meets2 N s e).
Proof.
  intros H1 H2 L1 L2 Hc. destruct (tedge_pick_ok t1 c L1 Hc) as (s & Es & Hs).
  destruct (dsegsur_spec N s t2 (edge_l6 _ _ Hs H1) H2 (proj2 Hs) L2) as (b & Eb & Hb).
  exists s, b. unfold dedge_meets. rewrite Es. cbn [bind]. tauto.
Qed.
Lemma dsome_meet_spec N t1 t2 : Forall l6 t1 -> Forall l6 t2 -> length t1 = 3%nat -> length t2 = 3%nat ->
  exists b, dsome_meet N t1 t2 tedge_ix = Ok b /\ (b = true <-> edges_cross (meets2 N) t1 t2 \/ edges_cross (meets2 N) t2 t1).
Proof.
  intros H1 H2 L1 L2.
  assert (K : forall cs, incl cs tedge_ix -> exists b, dsome_meet N t1 t2 cs = Ok b /\
     (b = true <-> exists c, In c cs /\ (dedge_meets N t1 t2 c = Ok true \/ dedge_meets N t2 t1 c = Ok true))).
  { induction cs as [|c cs IH]; intros Hi; cbn [dsome_meet].
    - exists false. split; [reflexivity|]. split; [discriminate|intros (c & [] & _)].
    - destruct IH as (b & E & Hb); [intros x Hx; apply Hi; right; exact Hx|].
      assert (Hc : In c tedge_ix) by (apply Hi; left; reflexivity).
      destruct (dedge_meets_ok N t1 t2 c H1 H2 L1 L2 Hc) as (_ & x & _ & _ & Ex & _).
      destruct (dedge_meets_ok N t2 t1 c H2 H1 L2 L1 Hc) as (_ & y & _ & _ & Ey & _).
      rewrite Ex. cbn [bind]. destruct x; [exists true; split; [reflexivity|]; split; [|reflexivity]; intros _; exists c; cbn; auto|].
      rewrite Ey. cbn [bind]. destruct y; [exists true; split; [reflexivity|]; split; [|reflexivity]; intros _; exists c; cbn; auto|].
      exists b. split; [exact E|]. rewrite Hb. split.
      + intros (c' & Hc' & D). exists c'. cbn; auto.
      + intros (c' & [<-|Hc'] & D); [|eauto]. rewrite Ex, Ey in D. destruct D; discriminate. }
  destruct (K tedge_ix (fun x H => H)) as (b & E & Hb). exists b. split; [exact E|]. rewrite Hb.
  assert (J : forall u v, Forall l6 u -> Forall l6 v -> length u = 3%nat -> length v = 3%nat ->
     (edges_cross (meets2 N) u v <-> exists c, In c tedge_ix /\ dedge_meets N u v c = Ok true)).
  { intros u v Hu Hv Lu Lv. split.
    - intros (s & e & Hs & He & Ht). apply (tedge_pick u s Lu) in Hs as (c & Hc & Es). exists c. split; [exact Hc|].
      destruct (dedge_meets_ok N u v c Hu Hv Lu Lv Hc) as (s' & x & Es' & _ & Ex & Hx). rewrite Es in Es'. injection Es' as <-.
      rewrite Ex. f_equal. apply Hx. eauto.
    - intros (c & Hc & Em). destruct (dedge_meets_ok N u v c Hu Hv Lu Lv Hc) as (s & x & _ & Hs & Ex & Hx).
      rewrite Em in Ex. injection Ex as <-. destruct (proj1 Hx eq_refl) as (e & He & Ht). exists s, e. tauto. }
  rewrite (J t1 t2), (J t2 t1) by assumption. split.
  - intros (c & Hc & [D|D]); [left|right]; eauto.
  - intros [(c & Hc & D)|(c & Hc & D)]; exists c; auto.
Qed.
Lemma dclassify_spec N t1 t2 : Forall l6 t1 -> Forall l6 t2 -> length t1 = 3%nat -> length t2 = 3%nat ->
  let in1 := forall v, In v t1 -> inside_outside_triangle_tau N v t2 = Ok true in
  let in2 := forall v, In v t2 -> inside_outside_triangle_tau N v t1 = Ok true in
  let cr := edges_cross (meets2 N) t1 t2 \/ edges_cross (meets2 N) t2 t1 in
  (in1 /\ check_intersection_two_triangles N t1 t2 = Ok 1%Z) \/
  (~ in1 /\ in2 /\ check_intersection_two_triangles N t1 t2 = Ok 2%Z) \/
  (~ in1 /\ ~ in2 /\ cr /\ check_intersection_two_triangles N t1 t2 = Ok 3%Z) \/
  (~ in1 /\ ~ in2 /\ ~ cr /\ check_intersection_two_triangles N t1 t2 = Ok 0%Z).
Proof.
  intros H1 H2 L1 L2 in1 in2 cr. unfold check_intersection_two_triangles.
  destruct (dall_inside_spec N t1 t2 H1 H2 L2) as (b & -> & Hb). destruct (dall_inside_spec N t2 t1 H2 H1 L1) as (b' & -> & Hb').
  cbn [bind]. fold in1 in Hb. fold in2 in Hb'.
  destruct (dsome_meet_spec N t1 t2 H1 H2 L1 L2) as (m & -> & Hm). fold cr in Hm. cbn [bind].
  destruct b; [left; split; [apply Hb; reflexivity|reflexivity]|].
  assert (~ in1) by (intros H; apply Hb in H; discriminate).
  destruct b'; [right; left; split; [assumption|]; split; [apply Hb'; reflexivity|reflexivity]|].
  assert (~ in2) by (intros H0; apply Hb' in H0; discriminate).
  destruct m; right; right; [left|right]; (repeat split; try assumption).
  - apply Hm; reflexivity.
  - intros H3. apply Hm in H3. discriminate.
Qed.

(** Exact crossing point. *)
Lemma dp_tri3 v : dp v = tri3 (dperp (vals SIN v)). Proof. reflexivity. Qed.
Lemma dperp_affine x y k : length x = 6%nat -> length y = 6%nat ->
  tri3 (dperp (vsub x y)) = sub3 (tri3 (dperp x)) (tri3 (dperp y)) /\
  tri3 (dperp (vadd x (vscale k y))) = add3 (tri3 (dperp x)) (scale3 k (tri3 (dperp y))).
Proof.
  intros Lx Ly. destruct x as [|? [|? [|? [|? [|? [|? [|]]]]]]]; try discriminate Lx.
  destruct y as [|? [|? [|? [|? [|? [|? [|]]]]]]]; try discriminate Ly.
  split; cbn; unfold dot; cbn; apply f_equal2; [apply f_equal2| |apply f_equal2|]; ring.
Qed.
Lemma ddiff_proj a b : good 6 a -> good 6 b -> exists d r, dsub_vectors a b = Ok d /\ good 6 d /\
  vals SIN d = vsub (vals SIN a) (vals SIN b) /\ dprojection3 d = Ok r /\ good 3 r /\ tri3 (vals SIN r) = sub3 (dp a) (dp b).
Proof.
  intros [Wa La] [Wb Lb].
  destruct (wp_elim _ _ (sub_vectors_spec dode_arith a b Wa Wb ltac:(lia))) as (d & Ed & Cd & Vd).
  assert (Ld : length d = 6%nat) by (rewrite <- (vals_length SIN), Vd, vsub_length; rewrite !vals_length; lia).
  assert (Gd : good 6 d) by (apply dgood_canon; assumption).
  destruct (wp_elim _ _ (dprojection3_spec d Gd)) as (r & Er & Cr & Vr).
  exists d, r. split; [exact Ed|]. split; [exact Gd|]. split; [exact Vd|]. split; [exact Er|]. split.
  - apply dgood_canon; [exact Cr|]. rewrite <- (vals_length SIN), Vr. reflexivity.
  - rewrite Vr, Vd, (proj1 (dperp_affine _ _ 0 (eq_trans (vals_length _ _) La) (eq_trans (vals_length _ _) Lb))). reflexivity.
Qed.
Lemma ddot_wp u v : good 3 u -> good 3 v ->
  wp (dinner_product u v) (fun o => exists r, o = Some r /\ canon r /\ val SIN r = dot3 (tri3 (vals SIN u)) (tri3 (vals SIN v))).
Proof.
  intros [Wu Lu] [Wv Lv]. pose proof (inner_product_spec dode_arith u v Wu Wv) as H. rewrite Lu, Lv in H. cbn [Nat.eqb] in H.
  eapply wp_mono; [exact H|]. intros o (r & -> & C & V). exists r. split; [reflexivity|]. split; [exact C|].
  rewrite V. apply tri3_dot; rewrite vals_length; assumption.
Qed.
Lemma ddotp u v : good 3 u -> good 3 v -> exists r, (d <- dinner_product u v ;; notNone d)%res = Ok r /\ canon r /\
  val SIN r = dot3 (tri3 (vals SIN u)) (tri3 (vals SIN v)).
Proof.
  intros Gu Gv. destruct (wp_elim _ _ (ddot_wp u v Gu Gv)) as (o & -> & r & -> & C & V). exists r. auto.
Qed.

Lemma its_spec N A B C D : good 6 A -> good 6 B -> good 6 C -> good 6 D ->
  dcheck_intersection_two_segment_numerical_6d_tau N [A;B] [C;D] = Ok true ->
  let AB := sub3 (dp B) (dp A) in let CD := sub3 (dp D) (dp C) in let AC := sub3 (dp C) (dp A) in
  let bunbo := dot3 AB CD * dot3 CD AB - dot3 AB AB * dot3 CD CD in
  let bunshi := dot3 AC CD * dot3 CD AB - dot3 CD CD * dot3 AC AB in
  if Req_EM_T bunbo 0 then dintersection_two_segment N [A;B] [C;D] = Raise TypeError
  else exists p, dintersection_two_segment N [A;B] [C;D] = Ok (Some p) /\ cgood 6 p /\
    vals SIN p = vadd (vals SIN A) (vscale (bunshi / bunbo) (vsub (vals SIN B) (vals SIN A))).
Proof.
  intros GA GB GC GD Ht AB CD AC bunbo bunshi.
  unfold dintersection_two_segment. rewrite Ht. cbn [bind get nth_error].
  destruct (ddiff_proj B A GB GA) as (d & ab & Ed & Gd & Vd & Eab & Gab & Vab).
  destruct (ddiff_proj D C GD GC) as (d1 & cd & Ed1 & _ & _ & Ecd & Gcd & Vcd).
  destruct (ddiff_proj C A GC GA) as (d3 & ac & Ed3 & _ & _ & Eac & Gac & Vac).
  rewrite Ed; cbn [bind]. rewrite Eab; cbn [bind]. rewrite Ed1; cbn [bind]. rewrite Ecd; cbn [bind].
  rewrite Ed3; cbn [bind]. rewrite Eac; cbn [bind]. cbv zeta.
  fold AB in Vab. fold CD in Vcd. fold AC in Vac.
  destruct (ddotp ab cd Gab Gcd) as (r1 & E1 & C1 & V1). destruct (ddotp cd ab Gcd Gab) as (r2 & E2 & C2 & V2).
  destruct (ddotp ab ab Gab Gab) as (r3 & E3 & C3 & V3). destruct (ddotp cd cd Gcd Gcd) as (r4 & E4 & C4 & V4).
  destruct (ddotp ac cd Gac Gcd) as (r5 & E5 & C5 & V5). destruct (ddotp ac ab Gac Gab) as (r6 & E6 & C6 & V6).
  rewrite Vab, ?Vcd, ?Vac in *.
  rewrite E1; cbn [bind]. rewrite E2; cbn [bind].
  assert (M : forall x y, canon x -> canon y -> exists z, dmul x y = Ok z /\ canon z /\ val SIN z = val SIN x * val SIN y).
  { intros x y Cx Cy. destruct (wp_elim _ _ (g_mul dode_arith x y (canon_wf _ Cx) (canon_wf _ Cy))) as (z & Ez & Cz & Vz). eauto. }
  assert (S : forall x y, canon x -> canon y -> exists z, dsub x y = Ok z /\ canon z /\ val SIN z = val SIN x - val SIN y).
  { intros x y Cx Cy. destruct (wp_elim _ _ (dsub_spec x y (canon_wf _ Cx) (canon_wf _ Cy))) as (z & Ez & Cz & Vz). eauto. }
  destruct (M r1 r2 C1 C2) as (z1 & Z1 & D1 & W1). rewrite Z1; cbn [bind]. rewrite E3; cbn [bind]. rewrite E4; cbn [bind].
  destruct (M r3 r4 C3 C4) as (z2 & Z2 & D2 & W2). rewrite Z2; cbn [bind].
  destruct (S z1 z2 D1 D2) as (x & Ex & Cx & Vx). rewrite Ex; cbn [bind]. rewrite E5; cbn [bind].
  destruct (M r5 r2 C5 C2) as (z3 & Z3 & D3 & W3). rewrite Z3; cbn [bind]. rewrite E6; cbn [bind].
  destruct (M r4 r6 C4 C6) as (z4 & Z4 & D4 & W4). rewrite Z4; cbn [bind].
  destruct (S z3 z4 D3 D4) as (y & Ey & Cy & Vy). rewrite Ey; cbn [bind].
  assert (Vx' : val SIN x = bunbo) by (rewrite Vx, W1, W2, V1, V2, V3, V4; reflexivity).
  assert (Vy' : val SIN y = bunshi) by (rewrite Vy, W3, W4, V5, V2, V4, V6; reflexivity).
  pose proof (ddiv_spec y x (canon_wf _ Cy) (canon_wf _ Cx)) as Hd.
  pose proof (val_zero_iff SIN x SIN_irrational (canon_wf _ Cx)) as Hz. rewrite Vx' in Hz.
  destruct (Req_EM_T bunbo 0) as [E0|E0].
  - apply Hz in E0 as [F1 F2]. rewrite F1, F2 in Hd. cbn in Hd. rewrite Hd. reflexivity.
  - replace (Z.eqb (ta x) 0 && Z.eqb (tb x) 0) with false in Hd.
    2:{ symmetry. apply not_true_iff_false. rewrite andb_true_iff, !Z.eqb_eq. intros H. apply E0, Hz, H. }
    destruct (wp_elim _ _ Hd) as (o & Eo & t & -> & Ct & Vt). rewrite Eo; cbn [bind notNone].
    destruct (wp_elim _ _ (mul_vector_spec dode_arith d t (proj1 Gd) (canon_wf _ Ct))) as (m & Em & Cm & Vm).
    fold dmul_vector in Em. rewrite Em; cbn [bind].
    assert (Lm : length m = 6%nat) by (rewrite <- (vals_length SIN), Vm, vscale_length, vals_length; apply Gd).
    destruct (wp_elim _ _ (add_vectors_spec dode_arith A m (proj1 GA) (canonv_wfv _ Cm) ltac:(rewrite Lm, (proj2 GA); lia))) as (p & Ep & Cp & Vp).
    fold dadd_vectors in Ep. rewrite Ep; cbn [bind]. exists p. split; [reflexivity|].
    rewrite Vm, Vd, Vt, Vx', Vy' in Vp. split; [|exact Vp]. split; [exact Cp|].
    rewrite <- (vals_length SIN), Vp. destruct GA as [_ LA]. destruct GB as [_ LB].
    assert (Ls : length (vsub (vals SIN B) (vals SIN A)) = 6%nat) by (rewrite vsub_length; rewrite !vals_length; lia).
    rewrite vadd_length; rewrite ?vscale_length, vals_length; lia.
Qed.

(** The crossing point in exact arithmetic. *)
Lemma level_in h vs v : level h vs -> In v vs -> height (dp v) = h.
Proof. unfold level. rewrite Forall_forall. auto. Qed.
Lemma level_incl h vs us : level h vs -> incl us vs -> level h us.
Proof. unfold level. rewrite !Forall_forall. auto. Qed.
Lemma segseg_R A B C D : goods 6 [A;B;C;D] ->
  dcheck_intersection_two_segment_numerical_6d_tau Rnum [A;B] [C;D] = Ok (seg_seg Rnum (dp A) (dp B) (dp C) (dp D)).
Proof.
  intros G. unfold dcheck_intersection_two_segment_numerical_6d_tau.
  apply goods_l6 in G. inversion G as [|? ? GA X1]; subst. inversion X1 as [|? ? GB X2]; subst. inversion X2 as [|? ? GC X3]; subst. inversion X3 as [|? ? GD _]; subst.
  rewrite !dinternals_R by (repeat (apply Forall_cons; [assumption|]); constructor). reflexivity.
Qed.
Lemma hull_pair a b p : hull [a; b] p -> exists t, 0 <= t <= 1 /\ p = add3 a (scale3 t (sub3 b a)).
Proof.
  intros (ws & (L & S & E) & P). destruct ws as [|w0 [|w1 [|]]]; try discriminate L. cbn in S. exists w1.
  pose proof (Forall_inv P). pose proof (Forall_inv (Forall_inv_tail P)). split; [lra|].
  rewrite E. assert (w0 = 1 - w1) by lra. subst w0. p3 a; p3 b. unfold o3. cbn. apply f_equal2; [apply f_equal2|]; ring.
Qed.
Lemma crossing_param (a b c d : R3) t u : let AB := sub3 b a in let CD := sub3 d c in let AC := sub3 c a in
  let bunbo := dot3 AB CD * dot3 CD AB - dot3 AB AB * dot3 CD CD in
  let bunshi := dot3 AC CD * dot3 CD AB - dot3 CD CD * dot3 AC AB in
  add3 a (scale3 t AB) = add3 c (scale3 u CD) -> bunshi = t * bunbo.
Proof.
  intros AB CD AC bunbo bunshi E.
  assert (H : AC = sub3 (scale3 t AB) (scale3 u CD)).
  { unfold AC. clearbody AB CD. clear -E. p3 a; p3 c; p3 AB; p3 CD. cbn in *. injection E as E1 E2 E3. apply f_equal2; [apply f_equal2|]; lra. }
  unfold bunshi, bunbo. rewrite H. clearbody AB CD. p3 AB; p3 CD. cbn. ring.
Qed.
Lemma its_plane h A B C D : goods 6 [A;B;C;D] -> level h [A;B;C;D] ->
  let k := det2 (sub3 (dp B) (dp A)) (sub3 (dp D) (dp C)) in
  exists o, dintersection_two_segment Rnum [A;B] [C;D] = Ok o /\
   match o with
   | Some v => cgood 6 v /\ 1/1000000 <= k * k /\ hull [dp A; dp B] (dp v) /\ hull [dp C; dp D] (dp v) /\
       exists t, vals SIN v = vadd (vals SIN A) (vscale t (vsub (vals SIN B) (vals SIN A)))
   | None => k * k < 1/1000000 \/ forall p, ~ (hull [dp A; dp B] p /\ hull [dp C; dp D] p)
   end.
Proof.
  intros G V k. pose proof (segseg_R A B C D G) as Ck.
  assert (HA : height (dp A) = h) by (apply (level_in h _ _ V); cbn; tauto). assert (HB : height (dp B) = h) by (apply (level_in h _ _ V); cbn; tauto).
  assert (HC : height (dp C) = h) by (apply (level_in h _ _ V); cbn; tauto). assert (HD : height (dp D) = h) by (apply (level_in h _ _ V); cbn; tauto).
  pose proof (seg_seg_plane h _ _ _ _ HA HB HC HD) as Sp. fold k in Sp.
  destruct (seg_seg Rnum (dp A) (dp B) (dp C) (dp D)).
  - destruct (proj1 Sp eq_refl) as (Kb & p & Hp1 & Hp2).
    assert (GA : good 6 A) by (apply (goods_in 6 _ _ G); cbn; tauto). assert (GB : good 6 B) by (apply (goods_in 6 _ _ G); cbn; tauto).
    assert (GC : good 6 C) by (apply (goods_in 6 _ _ G); cbn; tauto). assert (GD : good 6 D) by (apply (goods_in 6 _ _ G); cbn; tauto).
    pose proof (its_spec Rnum A B C D GA GB GC GD Ck) as Is. cbv zeta in Is.
    destruct (hull_pair _ _ _ Hp1) as (t & Ht & Et). destruct (hull_pair _ _ _ Hp2) as (u & Hu & Eu).
    pose proof (crossing_param (dp A) (dp B) (dp C) (dp D) t u) as Cp. cbv zeta in Cp. rewrite <- Et, <- Eu in Cp. specialize (Cp eq_refl).
    destruct (Req_EM_T _ 0) as [Z|NZ] in Is.
    + exfalso. rewrite lagrange in Z.
      assert (EK : dot3 (cross3 (sub3 (dp B) (dp A)) (sub3 (dp D) (dp C))) (cross3 (sub3 (dp B) (dp A)) (sub3 (dp D) (dp C))) = k * k).
      { unfold k. clear -HA HB HC HD. destruct (dp A) as [[a0 a1] a2], (dp B) as [[b0 b1] b2], (dp C) as [[c0 c1] c2], (dp D) as [[d0 d1] d2]. unfold height in *; cbn [snd] in *. subst. cbn. ring. }
      rewrite EK in Z. lra.
    + destruct Is as (v & Ev & Cv & Vv). exists (Some v). split; [exact Ev|]. split; [exact Cv|]. split; [exact Kb|].
      assert (E : dp v = p).
      { assert (LA : length (vals SIN A) = 6%nat) by (rewrite vals_length; apply GA).
        assert (LB : length (vals SIN B) = 6%nat) by (rewrite vals_length; apply GB).
        assert (LS : length (vsub (vals SIN B) (vals SIN A)) = 6%nat) by (rewrite vsub_length; lia).
        rewrite dp_tri3, Vv. rewrite (proj2 (dperp_affine _ _ _ LA LS)), (proj1 (dperp_affine _ _ 0 LB LA)).
        rewrite <- !dp_tri3, Et, Cp. f_equal. f_equal. field. exact NZ. }
      rewrite E. split; [exact Hp1|]. split; [exact Hp2|]. eexists. exact Vv.
  - exists None. split; [unfold dintersection_two_segment; rewrite Ck; reflexivity|].
    destruct (Rlt_le_dec (k * k) (1/1000000)) as [Kl|Kg]; [left; exact Kl|right]. intros p Hp. assert (false = true) by (apply Sp; eauto). discriminate.
Qed.

(** Ball radius and distance in exact arithmetic. *)
Lemma dlength_numerical_R r : length r = 3%nat -> dlength_numerical Rnum r = norm3 (tri3 (vals SIN r)).
Proof.
  intros L. unfold dlength_numerical. rewrite dnumerical_vector_R. d3 r L. reflexivity.
Qed.
Lemma ddistance_R a b : good 6 a -> good 6 b -> ddistance_in_perp_space Rnum a b = Ok (dist3 (dp a) (dp b)).
Proof.
  intros Ga Gb. unfold ddistance_in_perp_space. destruct (ddiff_proj a b Ga Gb) as (d & r & -> & _ & _ & Er & [_ Lr] & Vr).
  cbn [bind]. rewrite Er. cbn [bind]. rewrite dlength_numerical_R by exact Lr. rewrite Vr. reflexivity.
Qed.
Lemma dfarther_R c dd v : good 6 c -> good 6 v -> dfarther Rnum c dd v = Ok (Rmax dd (dist3 (dp v) (dp c))).
Proof.
  intros Gc Gv. unfold dfarther. destruct (ddiff_proj v c Gv Gc) as (d & r & -> & _ & _ & Er & [_ Lr] & Vr).
  cbn [bind]. rewrite Er. cbn [bind]. rewrite dlength_numerical_R by exact Lr. rewrite Vr. fold (dist3 (dp v) (dp c)). cbv zeta. toR.
  apply (f_equal (@Ok R)). unfold Rmax. destruct (Rle_dec dd (dist3 (dp v) (dp c))) as [H|H]; destruct (Rltb dd (dist3 (dp v) (dp c))) eqn:E; try reflexivity.
  - apply Rltb_false in E. lra.
  - apply Rltb_true in E. lra.
Qed.
Lemma dfold_farther c vs dd : good 6 c -> goods 6 vs -> exists r, foldM (dfarther Rnum c) dd vs = Ok r /\ dd <= r /\
  (forall v, In v vs -> dist3 (dp v) (dp c) <= r) /\ (r = dd \/ exists v, In v vs /\ r = dist3 (dp v) (dp c)).
Proof.
  intros Gc Gv. revert dd. induction Gv as [|v vs Hv _ IH]; intros dd; cbn [foldM].
  - exists dd. split; [reflexivity|]. split; [lra|]. split; [intros v []|left; reflexivity].
  - rewrite dfarther_R by assumption. cbn [bind]. destruct (IH (Rmax dd (dist3 (dp v) (dp c)))) as (r & E & H1 & H2 & H3).
    exists r. split; [exact E|]. pose proof (Rmax_l dd (dist3 (dp v) (dp c))). pose proof (Rmax_r dd (dist3 (dp v) (dp c))).
    split; [lra|]. split; [intros u [<-|Hu]; [lra|auto]|].
    destruct H3 as [->|(u & Hu & ->)]; [|right; exists u; cbn; auto].
    unfold Rmax. destruct (Rle_dec dd (dist3 (dp v) (dp c))); [right; exists v; cbn; auto|left; reflexivity].
Qed.
Lemma dp_ppoint u v : dppoint u = dppoint v -> dp u = dp v.
Proof. unfold dp. intros ->. reflexivity. Qed.
Lemma dball_radius_R vs a c : (a = A3 vs \/ exists o, a = A4 o /\ vs = concat o) -> goods 6 vs -> good 6 c ->
  exists r, dball_radius_obj Rnum a c = Ok r /\ 0 <= r /\ (forall v, In v vs -> dist3 (dp v) (dp c) <= r) /\
    (r = 0 \/ exists v, In v vs /\ r = dist3 (dp v) (dp c)).
Proof.
  intros Ha Gv Gc. unfold dball_radius_obj. destruct (dperp_space_spec_flat vs a Ha Gv) as (u & -> & I & _ & S). cbn [bind].
  destruct (dfold_farther c u 0 Gc (goods_incl _ _ _ Gv I)) as (r & E & H1 & H2 & H3). exists r. split; [exact E|]. split; [exact H1|]. split.
  - intros v Hv. assert (Hp : In (dppoint v) (map dppoint u)) by (apply S, in_map, Hv).
    apply in_map_iff in Hp as (w & Ew & Hw). rewrite <- (dp_ppoint _ _ Ew). apply H2, Hw.
  - destruct H3 as [->|(v & Hv & ->)]; [left; reflexivity|right; exists v; split; [apply I, Hv|reflexivity]].
Qed.

(** Collected points. *)
Notation dinsideN N := (fun v t => inside_outside_triangle_tau N v t = Ok true).
Notation dmeetatN N := (fun s e v => dintersection_two_segment N s e = Ok (Some v)).
Definition tri1 (t : vecs) : Prop := length t = 3%nat /\ goods 6 t.

Lemma its_good N s e o : goods 6 s -> goods 6 e -> length s = 2%nat -> length e = 2%nat -> dintersection_two_segment N s e = Ok o ->
  match o with
  | Some v => cgood 6 v /\ dcheck_intersection_two_segment_numerical_6d_tau N s e = Ok true
  | None => dcheck_intersection_two_segment_numerical_6d_tau N s e = Ok false
  end.
Proof.
  intros Gs Ge Ls Le H. destruct s as [|A [|B [|]]]; try discriminate Ls. destruct e as [|C [|D [|]]]; try discriminate Le.
  destruct (segseg_ok N [A;B] [C;D] (goods_l6 _ Gs) (goods_l6 _ Ge) eq_refl eq_refl) as (b & Eb).
  pose proof (Forall_inv Gs) as GA. pose proof (Forall_inv (Forall_inv_tail Gs)) as GB. pose proof (Forall_inv Ge) as GC.
  pose proof (Forall_inv (Forall_inv_tail Ge)) as GD. destruct b.
  - pose proof (its_spec N A B C D GA GB GC GD Eb) as K. cbv zeta in K. destruct (Req_EM_T _ 0) in K.
    + rewrite K in H. discriminate.
    + destruct K as (p & Ep & Cp & _). rewrite H in Ep. injection Ep as ->. auto.
  - unfold dintersection_two_segment in H. rewrite Eb in H. injection H as <-. exact Eb.
Qed.

Lemma iseg_surface N s t r : goods 6 s -> length s = 2%nat -> tri1 t -> dintersection_segment_surface N s t = Ok r ->
  (forall v, In v r <-> exists e, edge_of e t /\ dmeetatN N s e v) /\
  (forall e, edge_of e t -> dcheck_intersection_two_segment_numerical_6d_tau N s e = Ok true -> exists v, dmeetatN N s e v).
Proof.
  intros Gs Ls [Lt Gt] H. unfold dintersection_segment_surface in H.
  destruct (dsegsur_spec N s t (goods_l6 _ Gs) (goods_l6 _ Gt) Ls Lt) as (b & Eb & Hb). rewrite Eb in H. cbn [bind] in H.
  destruct b.
  - assert (K : forall cs r, segment_edges N s t cs = Ok r ->
      (forall v, In v r <-> exists c e, In c cs /\ pick2 t c = Ok e /\ dmeetatN N s e v) /\
      (forall c e, In c cs -> pick2 t c = Ok e -> exists o, dintersection_two_segment N s e = Ok o)).
    { clear. induction cs as [|c cs IH]; intros r H; cbn [segment_edges] in H.
      - injection H as <-. split; [intros v; split; [intros []|intros (c & e & [] & _)]|intros c e []].
      - apply bind_Ok_inv in H as (e & Ee & H). apply bind_Ok_inv in H as (o & Eo & H). apply bind_Ok_inv in H as (r' & Er & H). injection H as <-.
        destruct (IH r' Er) as [K1 K2]. split.
        + intros v. rewrite in_app_iff, K1.
          assert (O : In v (olist o) <-> o = Some v).
          { destruct o as [x|]; cbn; [split; [intros [->|[]]; reflexivity|intros H; injection H as ->; auto]|split; [intros []|discriminate]]. }
          rewrite O. split.
          * intros [->|(c' & e' & Hc & He & Hm)]; [exists c, e; cbn; auto|exists c', e'; cbn; auto].
          * intros (c' & e' & [<-|Hc] & He & Hm); [|right; eauto]. rewrite Ee in He. injection He as <-. left. congruence.
        + intros c' e' [<-|Hc] He; [|eauto]. rewrite Ee in He. injection He as <-. eauto. }
    destruct (K _ _ H) as [K1 K2]. split.
    + intros v. rewrite K1. split.
      * intros (c & e & Hc & He & Hm). exists e. split; [apply tedge_pick; eauto|exact Hm].
      * intros (e & He & Hm). apply (tedge_pick t e Lt) in He as (c & Hc & He). eauto.
    + intros e He Hm. pose proof He as He'. apply (tedge_pick t e Lt) in He' as (c & Hc & Ep). destruct (K2 c e Hc Ep) as (o & Eo).
      pose proof (its_good N s e o Gs (subseq_goods _ _ (proj1 He) Gt) Ls (proj2 He) Eo) as G. destruct o as [v|]; [eauto|congruence].
  - injection H as <-. split.
    + intros v. split; [intros []|]. intros (e & He & Hm).
      pose proof (its_good N s e _ Gs (subseq_goods _ _ (proj1 He) Gt) Ls (proj2 He) Hm) as [_ G].
      assert (false = true) by (apply Hb; eauto). discriminate.
    + intros e He Hm. assert (false = true) by (apply Hb; eauto). discriminate.
Qed.

Lemma dedge_points_In N t1 t2 c r : tri1 t1 -> tri1 t2 -> In c tedge_ix -> dedge_points N t1 t2 c = Ok r ->
  exists s, pick2 t1 c = Ok s /\ edge_of s t1 /\ (forall v, In v r <-> exists e, edge_of e t2 /\ dmeetatN N s e v) /\
   (forall e, edge_of e t2 -> dcheck_intersection_two_segment_numerical_6d_tau N s e = Ok true -> exists v, dmeetatN N s e v).
Proof.
  intros [L1 G1] [L2 G2] Hc H. unfold dedge_points in H. destruct (tedge_pick_ok t1 c L1 Hc) as (s & Es & Hs). rewrite Es, pick3_id in H by exact L2.
  cbn [bind] in H. exists s. split; [exact Es|]. split; [exact Hs|].
  apply (iseg_surface N s t2 r (subseq_goods _ _ (proj1 Hs) G1) (proj2 Hs) (conj L2 G2) H).
Qed.
Lemma hit_In p v : In v (concat (hit p)) <-> In v p.
Proof. destruct p; cbn; [tauto|rewrite app_nil_r; tauto]. Qed.
Lemma dedge_hits_In N t1 t2 h : tri1 t1 -> tri1 t2 -> dedge_hits N t1 t2 tedge_ix = Ok h ->
  forall v, In v (concat h) <-> (exists s e, edge_of s t1 /\ edge_of e t2 /\ dmeetatN N s e v) \/ (exists s e, edge_of s t2 /\ edge_of e t1 /\ dmeetatN N s e v).
Proof.
  intros T1 T2.
  assert (K : forall cs h, dedge_hits N t1 t2 cs = Ok h ->
     (forall v, In v (concat h) <-> exists c r, In c cs /\ In v r /\ (dedge_points N t1 t2 c = Ok r \/ dedge_points N t2 t1 c = Ok r)) /\
     (forall c, In c cs -> exists r r', dedge_points N t1 t2 c = Ok r /\ dedge_points N t2 t1 c = Ok r')).
  { induction cs as [|c cs IH]; intros h' H; cbn [dedge_hits] in H.
    - injection H as <-. split; [intros v; split; [intros []|intros (c & r & [] & _)]|intros c []].
    - apply bind_Ok_inv in H as (o1 & E1 & H). apply bind_Ok_inv in H as (o2 & E2 & H). apply bind_Ok_inv in H as (r & Er & H). injection H as <-.
      destruct (IH r Er) as [K1 K2]. split.
      + intros v. rewrite !concat_app, !in_app_iff, !hit_In, K1. split.
        * intros [I|[I|(c' & r' & Hc & D)]]; [exists c, o1; cbn; auto|exists c, o2; cbn; auto|exists c', r'; cbn; tauto].
        * intros (c' & r' & [<-|Hc] & I & D); [|right; right; eauto]. rewrite E1, E2 in D. destruct D as [D|D]; injection D as <-; auto.
      + intros c' [<-|Hc]; [eauto|auto]. }
  intros H v. destruct (K _ _ H) as [K1 K2]. rewrite K1. split.
  - intros (c & r & Hc & I & [D|D]).
    + destruct (dedge_points_In N t1 t2 c r T1 T2 Hc D) as (s & _ & Hs & J & _). apply J in I as (e & He & Hm). left. eauto.
    + destruct (dedge_points_In N t2 t1 c r T2 T1 Hc D) as (s & _ & Hs & J & _). apply J in I as (e & He & Hm). right. eauto.
  - intros [(s & e & Hs & He & Hm)|(s & e & Hs & He & Hm)].
    + apply (tedge_pick t1 s (proj1 T1)) in Hs as (c & Hc & Es). destruct (K2 c Hc) as (r & r' & E & _).
      destruct (dedge_points_In N t1 t2 c r T1 T2 Hc E) as (s' & Es' & _ & J & _). rewrite Es in Es'. injection Es' as <-.
      exists c, r. split; [exact Hc|]. split; [apply J; eauto|left; exact E].
    + apply (tedge_pick t2 s (proj1 T2)) in Hs as (c & Hc & Es). destruct (K2 c Hc) as (r' & r & _ & E).
      destruct (dedge_points_In N t2 t1 c r T2 T1 Hc E) as (s' & Es' & _ & J & _). rewrite Es in Es'. injection Es' as <-.
      exists c, r. split; [exact Hc|]. split; [apply J; eauto|right; exact E].
Qed.
Lemma hits_nonempty N t1 t2 cs h : dedge_hits N t1 t2 cs = Ok h -> Forall (fun p => p <> []) h.
Proof.
  revert h. induction cs as [|c cs IH]; intros h H; cbn [dedge_hits] in H; [injection H as <-; constructor|].
  apply bind_Ok_inv in H as (o1 & E1 & H). apply bind_Ok_inv in H as (o2 & E2 & H). apply bind_Ok_inv in H as (r & Er & H). injection H as <-.
  apply Forall_app. split; [destruct o1; repeat constructor; discriminate|]. apply Forall_app. split; [destruct o2; repeat constructor; discriminate|auto].
Qed.
Lemma hits_empty N t1 t2 cs h : dedge_hits N t1 t2 cs = Ok h -> (h = [] <-> forall v, ~ In v (concat h)).
Proof.
  intros H. split; [intros -> v []|]. intros A. destruct h as [|p h]; [reflexivity|]. pose proof (Forall_inv (hits_nonempty _ _ _ _ _ H)) as Np.
  destruct p as [|v p]; [contradiction|]. exfalso. apply (A v). left. reflexivity.
Qed.

Lemma dvertices_inside_In N vs t r : dvertices_inside N vs t = Ok r -> forall v, In v r <-> In v vs /\ dinsideN N v t.
Proof.
  revert r. induction vs as [|u vs IH]; intros r H v; cbn [dvertices_inside] in H.
  - injection H as <-. cbn. tauto.
  - apply bind_Ok_inv in H as (b & Eb & H). apply bind_Ok_inv in H as (r' & Er & H). injection H as <-.
    specialize (IH r' Er v). destruct b; cbn [In]; rewrite IH; split.
    + intros [<-|[H1 H2]]; auto.
    + intros [[<-|H1] H2]; auto.
    + intros [H1 H2]; auto.
    + intros [[<-|H1] H2]; [congruence|auto].
Qed.
Lemma dvertices_inside_ok N vs t : goods 6 vs -> tri1 t -> exists r, dvertices_inside N vs t = Ok r.
Proof.
  intros Gv [Lt Gt]. induction Gv as [|v vs Hv _ (r & IH)]; cbn [dvertices_inside]; [eauto|].
  destruct (dinside_ok N v t (good_l6 _ Hv) (goods_l6 _ Gt) Lt) as (b & ->). cbn [bind]. rewrite IH. cbn [bind]. eauto.
Qed.
Notation admR N t1 t2 v := (admissible2 (dinsideN N) (dmeetatN N) t1 t2 v).
Lemma dcollect_In N t1 t2 k p : tri1 t1 -> tri1 t2 -> dcollect N t1 t2 = Ok (k, p) -> forall v, In v p <-> admR N t1 t2 v.
Proof.
  intros T1 T2 H v. unfold dcollect in H. apply bind_Ok_inv in H as (h & Eh & H).
  assert (X : exists a b, dvertices_inside N t1 t2 = Ok a /\ dvertices_inside N t2 t1 = Ok b /\ p = concat h ++ a ++ b).
  { destruct h; [discriminate|]. apply bind_Ok_inv in H as (a & Ea & H). apply bind_Ok_inv in H as (b & Eb & H). injection H as <- <-. eauto. }
  destruct X as (a & b & Ea & Eb & ->). rewrite !in_app_iff.
  rewrite (dedge_hits_In N t1 t2 h T1 T2 Eh v), (dvertices_inside_In N _ _ _ Ea v), (dvertices_inside_In N _ _ _ Eb v).
  unfold admissible2. tauto.
Qed.
Lemma dadmissible_good N t1 t2 v : tri1 t1 -> tri1 t2 -> admR N t1 t2 v -> good 6 v.
Proof.
  intros [L1 G1] [L2 G2] [[H _]|[[H _]|[(s & f & [Hs Ls] & [Hf Lf] & H)|(s & f & [Hs Ls] & [Hf Lf] & H)]]].
  - exact (goods_in 6 _ _ G1 H).
  - exact (goods_in 6 _ _ G2 H).
  - destruct (its_good N s f _ (subseq_goods _ _ Hs G1) (subseq_goods _ _ Hf G2) Ls Lf H) as [[C L] _]. apply dgood_canon; assumption.
  - destruct (its_good N s f _ (subseq_goods _ _ Hs G2) (subseq_goods _ _ Hf G1) Ls Lf H) as [[C L] _]. apply dgood_canon; assumption.
Qed.
Lemma dcollect_good N t1 t2 k p : tri1 t1 -> tri1 t2 -> dcollect N t1 t2 = Ok (k, p) -> goods 6 p.
Proof.
  intros T1 T2 H. apply Forall_forall. intros v Hv. apply (dadmissible_good N t1 t2 v T1 T2), (dcollect_In N t1 t2 k p T1 T2 H), Hv.
Qed.

(** Triangulation. *)
Lemma pick3_spec p s t : pick3 p s = Ok t <-> corners_at p s t.
Proof.
  destruct s as [[i j] k]. unfold pick3, corners_at, get.
  destruct (nth_error p i) as [a|]; cbn [bind]; [|split; [discriminate|intros (? & ? & ? & H & _); discriminate]].
  destruct (nth_error p j) as [b|]; cbn [bind]; [|split; [discriminate|intros (? & ? & ? & _ & H & _); discriminate]].
  destruct (nth_error p k) as [c|]; cbn [bind]; [|split; [discriminate|intros (? & ? & ? & _ & _ & H & _); discriminate]].
  split; [intros H; injection H as <-; eauto 10|]. intros (a' & b' & c' & H1 & H2 & H3 & ->). congruence.
Qed.
Lemma corners_at_tri p s t : goods 6 p -> corners_at p s t -> tri1 t /\ incl t p.
Proof.
  destruct s as [[i j] k]. intros G (a & b & c & H1 & H2 & H3 & ->).
  apply nth_error_In in H1, H2, H3.
  assert (I : incl [a;b;c] p) by (intros x [<-|[<-|[<-|[]]]]; assumption).
  split; [split; [reflexivity|eapply goods_incl; eassumption]|exact I].
Qed.
Lemma dis_zero2_spec v : wf v -> (is_zero2 v = true <-> val SIN v = 0).
Proof.
  intros W. rewrite (val_zero_iff SIN v SIN_irrational W). unfold is_zero2. rewrite andb_true_iff, !Z.eqb_eq. tauto.
Qed.
Lemma dkeep_spec p l o : goods 6 p -> dkeep_simplices p l = Ok o -> exists ts, Forall2 (corners_at p) l ts /\ subseq o ts /\
  (forall t, In t o <-> In t ts /\ parea t <> 0).
Proof.
  intros G. revert o. induction l as [|s l IH]; intros o H; cbn [dkeep_simplices] in H.
  - injection H as <-. exists []. split; [constructor|]. split; [constructor|]. cbn. tauto.
  - apply bind_Ok_inv in H as (t & Et & H). apply bind_Ok_inv in H as (v & Ev & H). apply bind_Ok_inv in H as (r & Er & H). injection H as <-.
    destruct (IH r Er) as (ts & F & S & I). apply pick3_spec in Et. destruct (corners_at_tri p s t G Et) as [[Lt Gt] _].
    pose proof (triarea6_spec t Lt Gt) as V. rewrite Ev in V. cbn in V. destruct V as [C V].
    pose proof (dis_zero2_spec v (canon_wf _ C)) as Z. rewrite V in Z.
    exists (t :: ts). split; [constructor; assumption|]. destruct (is_zero2 v).
    + split; [apply sub_skip; exact S|]. intros t'. rewrite I. cbn. split; [tauto|]. intros [[<-|H] N]; [|tauto]. exfalso. apply N, Z. reflexivity.
    + split; [apply sub_take; exact S|]. intros t'. cbn. rewrite I. split.
      * intros [<-|[H N]]; [|tauto]. split; [auto|]. intros N. apply Z in N. discriminate.
      * intros [[<-|H] N]; tauto.
Qed.
Lemma dkeep_ok p l ts : goods 6 p -> Forall2 (corners_at p) l ts -> exists o, dkeep_simplices p l = Ok o.
Proof.
  intros G. induction 1 as [|s t l ts H _ (o & IH)]; cbn [dkeep_simplices]; [eauto|].
  destruct (corners_at_tri p s t G H) as [[Lt Gt] _]. apply pick3_spec in H. rewrite H. cbn [bind].
  destruct (wp_elim _ _ (triarea6_spec t Lt Gt)) as (v & -> & _). cbn [bind]. rewrite IH. cbn [bind]. eauto.
Qed.
