(** Unique edges, border edges, merging of edges and outline in dode2. *)
From Coq Require Import Reals List ZArith Lia Lra Bool Permutation Sorting.Sorted Arith.
From Verif Require Import Base.Res Model.Tau Model.Arr Model.Vectors Model.DodeMath1 Model.Unique Model.IcoDedup Model.DodeDedup Model.Num Model.IcoNumeric
  Model.IcoIntersect Model.IcoSurface Model.DodeIntersect Model.Numeric2 Model.DodeSurface
  Spec.Value Spec.RVec Spec.Shape Spec.Mean Spec.DodeSpec Spec.Sets Spec.Space Spec.Tetra Spec.Surface Spec.Plane Spec.Outline
  Proofs.ResLemmas Proofs.ValueLemmas Proofs.ScalarLemmas Proofs.RVecLemmas Proofs.VectorLemmas Proofs.MeanLemmas Proofs.UniqueLemmas Proofs.DedupLemmas
  Proofs.NumLemmas Proofs.DodeProj Proofs.DodeDedupLemmas Proofs.PlaneLemmas Proofs.DodeIntersectLemmas Proofs.SurfaceLemmas Proofs.MergeLemmas.
Import ListNotations.

Lemma dcentre_ok N t : t <> [] -> goods 6 t -> exists p, dcentre N t = Ok p.
Proof.
  intros Ht G. unfold dcentre. destruct (wp_elim _ _ (centroid_spec dode_arith t Ht G)) as (m & Em & Cm & Vm). fold dcentroid in Em. rewrite Em. cbn [bind].
  apply dinternal_ok. rewrite <- (vals_length SIN), Vm. apply mean_length. rewrite Forall_map. eapply Forall_impl; [|exact G].
  intros v [_ L]. rewrite vals_length. exact L.
Qed.
Lemma dperp_mean l : Forall (fun v => length v = 6%nat) l -> dperp (mean 6 l) = mean 3 (map dperp l).
Proof.
  intros H. unfold mean. rewrite map_length. unfold dperp. rewrite matvec_vscale. rewrite (matvec_vsum dperp_rows 6 l H). reflexivity.
Qed.
Lemma dcentre_R t : t <> [] -> goods 6 t -> exists p, dcentre Rnum t = Ok p /\ [fst (fst p); snd (fst p); snd p] = dpcentre t.
Proof.
  intros Ht G. unfold dcentre. destruct (wp_elim _ _ (centroid_spec dode_arith t Ht G)) as (m & Em & Cm & Vm). fold dcentroid in Em. rewrite Em. cbn [bind].
  assert (L : length m = 6%nat). { rewrite <- (vals_length SIN), Vm. apply mean_length. rewrite Forall_map. eapply Forall_impl; [|exact G].
  intros v [_ L]. rewrite vals_length. exact L. }
  rewrite dinternal_R by exact L. exists (dp m). split; [reflexivity|]. unfold dpcentre, dppoint.
  rewrite <- (map_map (vals SIN) dperp), <- dperp_mean, <- Vm. reflexivity.
  rewrite Forall_map. eapply Forall_impl; [|exact G]. intros v [_ L']. rewrite vals_length. exact L'.
Qed.

Lemma dmapM_centre N fs : Forall (fun f => f <> [] /\ goods 6 f) fs -> exists ps, mapM (dcentre N) fs = Ok ps /\ Forall2 (fun f p => dcentre N f = Ok p) fs ps.
Proof.
  induction 1 as [|f fs [Hf G] _ (ps & E & F)]; [exists []; split; [reflexivity|constructor]|]. destruct (dcentre_ok N f Hf G) as (p & Ep).
  cbn [mapM]. rewrite Ep. cbn [bind]. rewrite E. cbn [bind]. exists (p :: ps). split; [reflexivity|constructor; assumption].
Qed.
Lemma dpick_unique_R es : Forall (fun f => f <> [] /\ goods 6 f) es ->
  exists r, (a <- mapM (dcentre Rnum) es ;; mapM (get es) (unique_index (cmp_pt Rnum) a))%res = Ok r /\
    NoDup (map dpcentre r) /\ (forall e, In e es -> In (dpcentre e) (map dpcentre r)) /\
    (forall e, In e r -> exists i, nth_error es i = Some e /\ forall j g, (j < i)%nat -> nth_error es j = Some g -> dpcentre g <> dpcentre e).
Proof.
  intros H. destruct (dmapM_centre Rnum es H) as (ps & Eps & FF). rewrite Eps. cbn [bind].
  destruct (ordered_R ps) as (v & Hv & _). clear v Hv.
  assert (Hv : forall (p q : pt Rnum) (x y : F Rnum), In p ps -> In q ps -> In x (coords p) -> In y (coords q) -> (flt Rnum x y = true <-> (x < y)%R)).
  { intros p q x y _ _ _ _. apply Rltb_true. }
  rewrite (unique_index_map (cmp_pt Rnum) lexR (keyof (fun x : F Rnum => x)) ps (cmp_pt_key Rnum (fun x : F Rnum => x) ps Hv)). set (ks := map (keyof (fun x : F Rnum => x)) ps).
  assert (Ek : ks = map dpcentre es).
  { unfold ks. clear - H FF. induction FF as [|e p es ps E FF IH]; [reflexivity|]. inversion H as [|? ? [He Ge] H']; subst. cbn [map]. f_equal; [|apply IH; assumption].
    destruct (dcentre_R e He Ge) as (p' & Ep' & Kp). rewrite E in Ep'. injection Ep' as <-. rewrite <- Kp. unfold keyof. rewrite map_id. destruct p as [[a b] c]. reflexivity. }
  assert (Lk : length es = length ks) by (rewrite Ek, map_length; reflexivity).
  destruct (unique_index_get lexR lawful_lexR es ks Lk) as (r & Er & Fr). exists r. split; [exact Er|].
  assert (Mr : map dpcentre r = unique lexR ks).
  { pose proof (unique_index_keys lexR lawful_lexR ks) as K. rewrite Ek in K at 1.
    clear - Fr K. revert K. generalize (unique lexR ks). induction Fr as [|i e is r Ei Fr IH]; intros u K; destruct u as [|k u]; try discriminate K; [reflexivity|].
    cbn [map] in *. injection K as K1 K2. rewrite nth_error_map, Ei in K1. cbn in K1. injection K1 as ->. f_equal. apply IH, K2. }
  split; [rewrite Mr; apply (unique_NoDup lexR lawful_lexR)|]. split.
  - intros e He. rewrite Mr. apply (unique_In lexR lawful_lexR). rewrite Ek. apply in_map, He.
  - intros e He. apply In_nth_error in He as (n & Hn). destruct (F2_nth' _ _ _ _ _ Fr Hn) as (i & Hi & Ei). exists i. split; [exact Ei|].
    apply nth_error_In, (unique_index_spec lexR lawful_lexR) in Hi as (k & Hk & Hm). rewrite Ek, nth_error_map, Ei in Hk. cbn in Hk. injection Hk as <-.
    intros j g Hj Eg E. specialize (Hm j). rewrite Ek, nth_error_map, Eg in Hm. cbn in Hm. rewrite E in Hm. specialize (Hm eq_refl). lia.
Qed.

Lemma dall_edges_3 o : Forall (fun t => length t = 3%nat) o -> dgenerator_all_edges 3 o = Ok (Some (concat (map tri_edges o))).
Proof.
  intros H. unfold dgenerator_all_edges. cbn [Nat.eqb]. assert (E : mapM get_triangle_edge o = Ok (map tri_edges o)).
  { induction H as [|t o L _ IH]; [reflexivity|]. cbn [mapM map]. destruct t as [|a [|b [|c [|]]]]; try discriminate L. cbn -[mapM]. rewrite IH. reflexivity. }
  rewrite E. reflexivity.
Qed.
Lemma dunique_edges_unfold N n2 o : (n2 = 2 \/ n2 = 3)%nat -> Forall (fun t => length t = n2) o ->
  dgenerator_unique_edges N n2 o = (a <- mapM (dcentre N) (edges_of n2 o) ;; mapM (get (edges_of n2 o)) (unique_index (cmp_pt N) a))%res.
Proof.
  intros H L. unfold dgenerator_unique_edges, edges_of. destruct H as [-> | -> ]; cbn [Nat.eqb bind]; [reflexivity|].
  rewrite dall_edges_3 by exact L. reflexivity.
Qed.
Lemma dedges_of_good n2 o : (n2 = 2 \/ n2 = 3)%nat -> Forall (fun t => length t = n2 /\ goods 6 t) o ->
  Forall (fun e => length e = 2%nat /\ goods 6 e) (edges_of n2 o) /\ (forall e, In e (edges_of n2 o) -> exists t, In t o /\ incl e t).
Proof. intros Hn. apply edges_of_good. tauto. Qed.
Lemma dunique_edges_incl N n2 o r : (n2 = 2 \/ n2 = 3)%nat -> Forall (fun t => length t = n2) o ->
  dgenerator_unique_edges N n2 o = Ok r -> incl r (edges_of n2 o).
Proof.
  intros H L E. rewrite dunique_edges_unfold in E by assumption. apply bind_Ok_inv in E as (a & _ & E). eapply mapM_get_incl; exact E.
Qed.

Lemma dequivalent_vertices_ok u v : good 6 u -> good 6 v -> exists r, dequivalent_vertices u v = Ok r /\ (r = true <-> dppoint u = dppoint v).
Proof.
  intros Hu Hv. unfold dequivalent_vertices.
  pose proof (dprojection3_spec u Hu) as Su. apply wp_elim in Su as (a & Ea & Ca & Va).
  pose proof (dprojection3_spec v Hv) as Sv. apply wp_elim in Sv as (b & Eb & Cb & Vb).
  rewrite Ea, Eb. cbn [bind]. exists (vec_eqb a b). split; [reflexivity|]. rewrite vec_eqb_eq. unfold dppoint. rewrite <- Va, <- Vb.
  split; [congruence|]. apply dvals_inj; assumption.
Qed.
Lemma dpoint_on_segment_ok N p a b : length p = 6%nat -> length a = 6%nat -> length b = 6%nat -> exists r, dpoint_on_segment N p [a; b] = Ok r.
Proof.
  intros Hp Ha Hb. unfold dpoint_on_segment. destruct (dinternal_ok N p Hp) as (x & ->). destruct (dinternal_ok N a Ha) as (y & Ey). destruct (dinternal_ok N b Hb) as (z & Ez).
  cbn [bind]. unfold dinternals. cbn [mapM]. rewrite Ey, Ez. cbn. eauto.
Qed.

Definition dhit (N : num) (q : vec * vec * vec * vec) : Prop :=
  let '(e1a, e1b, e2a, e2b) := q in dppoint e1a = dppoint e2a /\ dpoint_on_segment N e1a [e1b; e2b] = Ok true.
Lemma dfirst_merge_spec N l : (forall q, In q l -> let '(a, b, c, d) := q in goods 6 [a; b; c; d]) ->
  exists o, dfirst_merge N l = Ok o /\
    match o with
    | Some s => exists e1a e1b e2a e2b, In (e1a, e1b, e2a, e2b) l /\ dhit N (e1a, e1b, e2a, e2b) /\ s = [e1b; e2b]
    | None => forall q, In q l -> ~ dhit N q
    end.
Proof.
  induction l as [|[[[a b] c] d] l IH]; intros G; [exists None; split; [reflexivity|intros q []]|].
  pose proof (G _ (or_introl eq_refl)) as G0. cbn in G0. unfold goods in G0. rewrite Forall_forall in G0.
  assert (Ga : good 6 a) by (apply G0; cbn; auto). assert (Gb : good 6 b) by (apply G0; cbn; auto).
  assert (Gc : good 6 c) by (apply G0; cbn; auto). assert (Gd : good 6 d) by (apply G0; cbn; auto). clear G0.
  destruct IH as (o & E & Ho); [intros q Hq; apply G; right; exact Hq|].
  cbn [dfirst_merge]. destruct (dequivalent_vertices_ok a c Ga Gc) as (r & -> & Hr). cbn [bind].
  destruct (dpoint_on_segment_ok N a b d) as (on & Eon); [apply Ga|apply Gb|apply Gd|].
  assert (Rest : ~ dhit N (a, b, c, d) -> exists o', dfirst_merge N l = Ok o' /\ match o' with
     | Some s => exists e1a e1b e2a e2b, In (e1a, e1b, e2a, e2b) ((a, b, c, d) :: l) /\ dhit N (e1a, e1b, e2a, e2b) /\ s = [e1b; e2b]
     | None => forall q, In q ((a, b, c, d) :: l) -> ~ dhit N q end).
  { intros Nh. exists o. split; [exact E|]. destruct o as [s|].
    - destruct Ho as (w & x & y & z & I & H). exists w, x, y, z. split; [right; exact I|exact H].
    - intros q [<-|Hq]; auto. }
  destruct r.
  - rewrite Eon. cbn [bind]. destruct on.
    + exists (Some [b; d]). split; [reflexivity|]. exists a, b, c, d. split; [left; reflexivity|]. split; [split; [apply Hr; reflexivity|exact Eon]|reflexivity].
    + apply Rest. intros [_ H]. congruence.
  - apply Rest. intros [H _]. apply Hr in H. discriminate.
Qed.

Lemma dtwo_segment_spec N s1 s2 : length s1 = 2%nat -> length s2 = 2%nat -> goods 6 s1 -> goods 6 s2 ->
  exists o, dtwo_segment_into_one N s1 s2 = Ok o /\
    match o with
    | Some s => exists p q p' r, ends s1 p q /\ ends s2 p' r /\ dppoint p = dppoint p' /\ dpoint_on_segment N p [q; r] = Ok true /\ s = [q; r]
    | None => forall p q p' r, ends s1 p q -> ends s2 p' r -> dppoint p = dppoint p' -> dpoint_on_segment N p [q; r] = Ok false
    end.
Proof.
  intros L1 L2 G1 G2. destruct s1 as [|a [|b [|]]]; try discriminate L1. destruct s2 as [|c [|d [|]]]; try discriminate L2.
  inversion G1 as [|? ? Ga G1']; subst. inversion G1' as [|? ? Gb _]; subst. inversion G2 as [|? ? Gc G2']; subst. inversion G2' as [|? ? Gd _]; subst.
  unfold dtwo_segment_into_one. cbn [get nth_error bind].
  destruct (dfirst_merge_spec N [(a,b,c,d);(a,b,d,c);(b,a,c,d);(b,a,d,c)]) as (o & E & Ho).
  { intros q Hq. cbn in Hq. destruct Hq as [<-|[<-|[<-|[<-|[]]]]]; (repeat (apply Forall_cons; [assumption|]); apply Forall_nil). }
  exists o. split; [exact E|]. destruct o as [s|].
  - destruct Ho as (w & x & y & z & I & [H1 H2] & ->). exists w, x, y, z. cbn in I. unfold ends.
    destruct I as [I|[I|[I|[I|[]]]]]; injection I as <- <- <- <-; auto 10.
  - intros p q p' r [E1|E1] [E2|E2] Ep; injection E1 as -> ->; injection E2 as -> ->.
    + destruct (dpoint_on_segment_ok N p q r) as ([] & H); [apply Ga|apply Gb|apply Gd| |exact H]. exfalso. apply (Ho (p, q, p', r)); [cbn; auto 10|split; [exact Ep|exact H]].
    + destruct (dpoint_on_segment_ok N p q r) as ([] & H); [apply Ga|apply Gb|apply Gc| |exact H]. exfalso. apply (Ho (p, q, p', r)); [cbn; auto 10|split; [exact Ep|exact H]].
    + destruct (dpoint_on_segment_ok N p q r) as ([] & H); [apply Gb|apply Ga|apply Gd| |exact H]. exfalso. apply (Ho (p, q, p', r)); [cbn; auto 10|split; [exact Ep|exact H]].
    + destruct (dpoint_on_segment_ok N p q r) as ([] & H); [apply Gb|apply Ga|apply Gc| |exact H]. exfalso. apply (Ho (p, q, p', r)); [cbn; auto 10|split; [exact Ep|exact H]].
Qed.
Lemma dtwo_segment_incl N s1 s2 s : dtwo_segment_into_one N s1 s2 = Ok (Some s) -> incl s (s1 ++ s2) /\ length s = 2%nat.
Proof.
  intros E. unfold dtwo_segment_into_one in E. apply bind_Ok_inv in E as (a & Ea & E). apply bind_Ok_inv in E as (b & Eb & E). apply bind_Ok_inv in E as (c & Ec & E). apply bind_Ok_inv in E as (d & Ed & E).
  assert (I : forall l, (forall q, In q l -> let '(w, x, y, z) := q in In x [a;b] /\ In z [c;d]) -> dfirst_merge N l = Ok (Some s) -> incl s ([a;b] ++ [c;d]) /\ length s = 2%nat).
  { induction l as [|[[[w x] y] z] l IH]; intros Hl El; cbn [dfirst_merge] in El; [discriminate|]. apply bind_Ok_inv in El as (r & _ & El).
    assert (K : dfirst_merge N l = Ok (Some s) -> incl s ([a;b] ++ [c;d]) /\ length s = 2%nat) by (apply IH; intros q Hq; apply Hl; right; exact Hq).
    destruct r; [|auto]. apply bind_Ok_inv in El as (on & _ & El). destruct on; [|auto]. injection El as <-. destruct (Hl _ (or_introl eq_refl)) as [Hx Hz].
    split; [|reflexivity]. intros v [<-|[<-|[]]]; apply in_or_app; auto. }
  assert (A : forall (l : vecs) i v, get l i = Ok v -> In v l) by (intros l i v H; unfold get in H; destruct (nth_error l i) eqn:En; [injection H as <-; eapply nth_error_In; exact En|discriminate]).
  apply I in E.
  - destruct E as [E L]. split; [|exact L]. intros v Hv. apply E in Hv. apply in_or_app. apply A in Ea, Eb, Ec, Ed. cbn in Hv. destruct Hv as [<-|[<-|[<-|[<-|[]]]]]; auto.
  - intros q Hq. cbn in Hq. destruct Hq as [<-|[<-|[<-|[<-|[]]]]]; cbn; auto.
Qed.

Definition dsameb (e g : vecs) : bool := match dstacked_points e g with Ok n => Nat.eqb n 2 | Raise _ => false end.
Lemma dsameb_spec e g : length e = 2%nat -> length g = 2%nat -> goods 6 e -> goods 6 g -> NoDup (map dppoint e) -> NoDup (map dppoint g) ->
  (dsameb e g = true <-> same_set (map dppoint e) (map dppoint g)).
Proof. intros Le Lg Ge Gg Ne Ng. destruct (dequivalent_n_set 2 e g Ge Gg Le Lg Ne Ng) as (m & E & H). unfold dsameb. rewrite E. exact H. Qed.
Lemma dcount_same_spec e edges : goods 6 e -> Forall (goods 6) edges -> forall c, (c < 2)%nat ->
  dcount_same e edges c = Ok (Nat.min 2 (c + length (filter (dsameb e) edges))).
Proof.
  intros Ge. induction 1 as [|g edges Gg _ IH]; intros c Hc; cbn [dcount_same filter length]; [f_equal; lia|].
  unfold dsameb at 1. unfold dstacked_points. destruct (dperp_space_spec (e ++ g) (goods_app 6 e g Ge Gg)) as (r & -> & _). cbn [bind].
  destruct (Nat.eqb_spec (length r) 2).
  - destruct (Nat.eqb_spec (S c) 2) as [Ec|Nc]; cbn [length]; [f_equal; lia|]. rewrite IH by lia. f_equal. lia.
  - apply IH, Hc.
Qed.
Lemma dborder_spec us edges : Forall (goods 6) us -> Forall (goods 6) edges ->
  dborder us edges = Ok (filter (fun e => Nat.eqb (length (filter (dsameb e) edges)) 1) us).
Proof.
  intros Hu He. induction Hu as [|e us Ge _ IH]; [reflexivity|]. cbn [dborder filter]. rewrite dcount_same_spec by (assumption || lia). cbn [bind]. rewrite IH. cbn [bind].
  set (n := length (filter (dsameb e) edges)). destruct (Nat.eqb_spec n 1) as [->|Nn]; [reflexivity|]. destruct (Nat.eqb_spec (Nat.min 2 (0 + n)) 1); [lia|reflexivity].
Qed.
Lemma dborder_incl N ts r : Forall (fun t => length t = 3%nat /\ goods 6 t) ts -> dgen_border_edges_of_coplanar_triangles N ts = Ok r -> incl r (edges_of 3 ts).
Proof.
  intros T E. assert (T3 : Forall (fun t => length t = 3%nat) ts) by (eapply Forall_impl; [|exact T]; intros ? [? _]; assumption).
  destruct (dedges_of_good 3 ts (or_intror eq_refl) T) as (Ge & _). assert (Ge' : Forall (goods 6) (edges_of 3 ts)) by (eapply Forall_impl; [|exact Ge]; intros ? [_ ?]; assumption).
  unfold dgen_border_edges_of_coplanar_triangles in E. apply bind_Ok_inv in E as (us & Eu & E). pose proof (dunique_edges_incl N 3 ts us (or_intror eq_refl) T3 Eu) as I.
  rewrite dall_edges_3 in E by exact T3. cbn [bind notNone] in E. change (concat (map tri_edges ts)) with (edges_of 3 ts) in E.
  assert (Gu : Forall (goods 6) us) by (rewrite Forall_forall in *; intros u Hu; apply Ge', I, Hu).
  rewrite (dborder_spec us _ Gu Ge') in E. injection E as <-. intros e He. apply filter_In in He as [He _]. apply I, He.
Qed.
Lemma dsurface_edges_incl N draws surface r : surface <> [] -> Forall (fun t => length t = 3%nat /\ goods 6 t) surface ->
  dsurface_edges N draws surface = Ok r -> incl r (edges_of 3 surface).
Proof.
  intros Hs T E. unfold dsurface_edges in E. apply bind_Ok_inv in E as (sets & Es & E). apply bind_Ok_inv in E as (es & Eb & E).
  assert (I : incl es (edges_of 3 surface)).
  { unfold dall_borders in Eb. apply bind_Ok_inv in Eb as (bs & Eb & Ec). injection Ec as <-. intros e He. apply in_concat in He as (b & Hb & He).
    destruct (mapM_in _ _ _ _ Eb Hb) as (s & Hss & Ebs). apply bind_Ok_inv in Ebs as (b' & Eb' & Ebs). assert (b' = b) by (destruct b'; [discriminate|injection Ebs; auto]). subst b'.
    pose proof (sets_incl _ _ _ Hs Es s Hss) as Is. assert (Ts : Forall (fun t => length t = 3%nat /\ goods 6 t) s) by (rewrite Forall_forall in *; intros t Ht; apply T, Is, Ht).
    apply (dborder_incl N s b Ts Eb') in He. unfold edges_of in *. cbn [Nat.eqb] in *. apply in_concat in He as (l & Hl & He). apply in_map_iff in Hl as (t & <- & Ht).
    apply in_concat. exists (tri_edges t). split; [apply in_map, Is, Ht|exact He]. }
  intros e He. apply I. assert (L2 : Forall (fun t => length t = 2%nat) es).
  { destruct (dedges_of_good 3 surface (or_intror eq_refl) T) as (Ge & _). rewrite Forall_forall in *. intros x Hx. apply Ge, I, Hx. }
  apply (dunique_edges_incl N 2 es r (or_introl eq_refl) L2 E). exact He.
Qed.
Lemma dcleaner_incl N draws surface r : surface <> [] -> Forall (fun t => length t = 3%nat /\ goods 6 t) surface ->
  dsurface_cleaner N draws surface = Ok r -> incl (concat r) (concat surface).
Proof.
  intros Hs T E. unfold dsurface_cleaner in E. apply bind_Ok_inv in E as (es & Ee & E). apply bind_Ok_inv in E as (m & Em & E).
  destruct m as [m|]; [|discriminate]. cbn in E. injection E as <-.
  destruct (merge_segments_spec (dtwo_segment_into_one N) es) as (out & _ & St & Sp). rewrite St in Em by lia. destruct (Sp m Em) as (M & _).
  pose proof (merged_vertices _ _ _ (fun e f a H => proj1 (dtwo_segment_incl N e f a H)) M) as I1.
  pose proof (dsurface_edges_incl N draws surface es Hs T Ee) as I2. intros x Hx. apply I1 in Hx. apply in_concat in Hx as (e & He & Hx).
  destruct (dedges_of_good 3 surface (or_intror eq_refl) T) as (_ & K). destruct (K e (I2 e He)) as (t & Ht & It). apply in_concat. exists t. auto.
Qed.

Lemma dborder_unfold N ts us : Forall (fun t => length t = 3%nat /\ goods 6 t /\ NoDup (map dppoint t)) ts -> dgenerator_unique_edges N 3 ts = Ok us ->
  exists r, dgen_border_edges_of_coplanar_triangles N ts = Ok r /\ forall e, In e r <-> In e us /\ donce e (edges_of 3 ts).
Proof.
  intros T Eu. assert (T' : Forall (fun t => length t = 3%nat /\ goods 6 t) ts) by (eapply Forall_impl; [|exact T]; intros t (H1 & H2 & _); auto).
  assert (T3 : Forall (fun t => length t = 3%nat) ts) by (eapply Forall_impl; [|exact T]; intros ? [? _]; assumption).
  destruct (dedges_of_good 3 ts (or_intror eq_refl) T') as (Ge & _). assert (Ge' : Forall (goods 6) (edges_of 3 ts)) by (eapply Forall_impl; [|exact Ge]; intros ? [_ ?]; assumption).
  assert (ND : forall e, In e (edges_of 3 ts) -> NoDup (map dppoint e)).
  { intros e He. unfold edges_of in He. cbn [Nat.eqb] in He. apply in_concat in He as (l & Hl & He). apply in_map_iff in Hl as (t & <- & Ht). rewrite Forall_forall in T.
    destruct (T t Ht) as (L & _ & N0). destruct t as [|a [|b [|c [|]]]]; try discriminate L. cbn [map] in N0. repeat match goal with H : NoDup (_ :: _) |- _ => apply NoDup_cons_iff in H as [? ?] end. cbn [In] in *.
    cbn in He. destruct He as [<-|[<-|[<-|[]]]]; cbn [map]; repeat constructor; cbn [In]; tauto. }
  pose proof (dunique_edges_incl N 3 ts us (or_intror eq_refl) T3 Eu) as I.
  assert (Gu : Forall (goods 6) us) by (rewrite Forall_forall in *; intros u Hu; apply Ge', I, Hu).
  unfold dgen_border_edges_of_coplanar_triangles. rewrite Eu. cbn [bind]. rewrite dall_edges_3 by exact T3. cbn [bind notNone]. change (concat (map tri_edges ts)) with (edges_of 3 ts).
  rewrite (dborder_spec us _ Gu Ge'). eexists. split; [reflexivity|]. intros e. rewrite filter_In, Nat.eqb_eq, filter_one.
  assert (K : In e us -> forall g, In g (edges_of 3 ts) -> (dsameb e g = true <-> same_set (map dppoint e) (map dppoint g))).
  { intros He g Hg. rewrite Forall_forall in Ge. destruct (Ge e (I e He)), (Ge g Hg). apply dsameb_spec; auto. }
  unfold donce. split; intros (He & j & (g & Eg & Sg) & U); (split; [exact He|]); exists j.
  - split; [exists g; split; [exact Eg|apply K; auto; eapply nth_error_In; exact Eg]|]. intros k (h & Eh & Sh). apply U. exists h. split; [exact Eh|]. apply K; auto. eapply nth_error_In; exact Eh.
  - split; [exists g; split; [exact Eg|apply K; auto; eapply nth_error_In; exact Eg]|]. intros k (h & Eh & Sh). apply U. exists h. split; [exact Eh|]. apply K; auto. eapply nth_error_In; exact Eh.
Qed.
Lemma dborder_once N ts r e : Forall (fun t => length t = 3%nat /\ goods 6 t /\ NoDup (map dppoint t)) ts ->
  dgen_border_edges_of_coplanar_triangles N ts = Ok r -> In e r -> donce e (edges_of 3 ts).
Proof.
  intros T E He. pose proof E as E0. unfold dgen_border_edges_of_coplanar_triangles in E0. apply bind_Ok_inv in E0 as (us & Eu & _).
  destruct (dborder_unfold N ts us T Eu) as (r' & Er & Hr). rewrite E in Er. injection Er as <-. apply Hr, He.
Qed.
Lemma dsame_corners_centre f g : NoDup (map dppoint f) -> NoDup (map dppoint g) -> same_set (map dppoint f) (map dppoint g) -> dpcentre f = dpcentre g.
Proof. intros Nf Ng S. unfold dpcentre. apply mean_perm. apply NoDup_Permutation; assumption. Qed.
Lemma dunique_edges_R : forall n2 o, (n2 = 2 \/ n2 = 3)%nat -> Forall (fun t => length t = n2 /\ goods 6 t) o ->
  exists r, dgenerator_unique_edges Rnum n2 o = Ok r /\ incl r (edges_of n2 o) /\ NoDup (map dpcentre r) /\
    (forall e, In e (edges_of n2 o) -> exists! u, In u r /\ dpcentre u = dpcentre e) /\
    (forall e, In e r -> exists i, nth_error (edges_of n2 o) i = Some e /\
       forall j g, (j < i)%nat -> nth_error (edges_of n2 o) j = Some g -> dpcentre g <> dpcentre e).
Proof.
  intros n2 o Hn H. assert (Hl : Forall (fun t => length t = n2) o) by (eapply Forall_impl; [|exact H]; intros ? [? _]; assumption).
  destruct (dedges_of_good n2 o Hn H) as (G & _). destruct (dpick_unique_R (edges_of n2 o)) as (r & E & ND & C & Fst).
  { eapply Forall_impl; [|exact G]. intros e [L Ge]. split; [intros ->; discriminate|exact Ge]. }
  rewrite <- (dunique_edges_unfold Rnum n2 o Hn Hl) in E. exists r. split; [exact E|]. split; [eapply dunique_edges_incl; eassumption|]. split; [exact ND|]. split; [|exact Fst].
  intros e He. pose proof (C e He) as Hc. apply in_map_iff in Hc as (u & Eu & Iu). exists u. split; [auto|]. intros v [Iv Ev].
  apply (NoDup_map_inj dpcentre r); congruence || assumption.
Qed.

Lemma dborder_any : forall N ts r, Forall (fun t => length t = 3%nat /\ goods 6 t /\ NoDup (map dppoint t)) ts ->
  dgen_border_edges_of_coplanar_triangles N ts = Ok r -> forall e, In e r -> In e (edges_of 3 ts) /\ donce e (edges_of 3 ts).
Proof.
  intros N ts r T E e He. assert (T' : Forall (fun t => length t = 3%nat /\ goods 6 t) ts) by (eapply Forall_impl; [|exact T]; intros t (H1 & H2 & _); auto).
  split; [eapply dborder_incl; eassumption|]. apply (dborder_once N ts r e T E He).
Qed.
Lemma dborder_complete : forall ts, Forall (fun t => length t = 3%nat /\ goods 6 t /\ NoDup (map dppoint t)) ts ->
  exists r, dgen_border_edges_of_coplanar_triangles Rnum ts = Ok r /\
    forall e, In e (edges_of 3 ts) -> donce e (edges_of 3 ts) ->
      (forall g, In g (edges_of 3 ts) -> dpcentre g = dpcentre e -> same_set (map dppoint e) (map dppoint g)) -> In e r.
Proof.
  intros ts T. assert (T' : Forall (fun t => length t = 3%nat /\ goods 6 t) ts) by (eapply Forall_impl; [|exact T]; intros t (H1 & H2 & _); auto).
  destruct (dunique_edges_R 3 ts) as (us & Eu & I & _ & U & _); [auto|exact T'|].
  destruct (dborder_unfold Rnum ts us T Eu) as (r & Er & Hr). exists r. split; [exact Er|]. intros e He On Hm. apply Hr. split; [|exact On].
  destruct (U e He) as (u & (Iu & Cu) & _). assert (S : same_set (map dppoint e) (map dppoint u)) by (apply Hm; [apply I, Iu|exact Cu]).
  destruct On as (j & (g & Eg & Sg) & Uj). pose proof (I u Iu) as Iu'. apply In_nth_error in He as (k1 & Hk1). apply In_nth_error in Iu' as (k2 & Hk2).
  assert (j = k1) by (apply Uj; exists e; split; [exact Hk1|intros x; tauto]). assert (j = k2) by (apply Uj; exists u; split; [exact Hk2|exact S]). subst. rewrite Hk1 in Hk2. injection Hk2 as <-. exact Iu.
Qed.
