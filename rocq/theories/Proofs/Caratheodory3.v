(** A triangulation oracle with the properties the theorems ask for exists in three
    dimensions: every point of the hull of points that are not coplanar lies in a
    tetrahedron of these points that is not flat. *)
From Coq Require Import Reals List Lia Lra Psatz Bool Classical.
From Verif Require Import Model.Tau Spec.RVec Spec.Space Spec.Tetra Spec.Overlap Proofs.PlaneLemmas Proofs.Polytope.
Import ListNotations.
Local Open Scope R_scope.

Lemma pick_step (l : list (R * R)) k : 0 <= k -> (forall w a, In (w, a) l -> 0 <= w - k * a) ->
  (forall w a, In (w, a) l -> 0 <= w) \/
  exists s w0 a0, 0 <= s <= k /\ In (w0, a0) l /\ w0 - s * a0 = 0 /\ a0 < 0 /\ forall w a, In (w, a) l -> 0 <= w - s * a.
Proof.
  intros Hk. induction l as [|[w1 a1] l IH]; intros H; [left; intros ? ? []|].
  assert (H1 := H w1 a1 (or_introl eq_refl)).
  assert (K : exists s, 0 <= s <= k /\ (forall w a, In (w, a) l -> 0 <= w - s * a) /\ ((forall w a, In (w, a) l -> 0 <= w) /\ s = 0 \/ exists w0 a0, In (w0, a0) l /\ w0 - s * a0 = 0 /\ a0 < 0)).
  { destruct IH as [IH|(s & w0 & a0 & Hs & I & Z & A & P)]; [intros w a I; apply H; right; exact I| |].
    - exists 0. split; [lra|]. split; [intros w a I; specialize (IH w a I); lra|left; auto].
    - exists s. split; [exact Hs|]. split; [exact P|right; eauto]. }
  destruct K as (s & Hs & P & C). destruct (Rle_lt_dec 0 (w1 - s * a1)) as [Q|Q].
  - destruct C as [[C ->]|(w0 & a0 & I & Z & A)]; [left; intros w a [E|I]; [injection E as <- <-; lra|exact (C w a I)]|].
    right. exists s, w0, a0. split; [exact Hs|]. split; [right; exact I|]. split; [exact Z|]. split; [exact A|]. intros w a [E|J]; [injection E as <- <-; exact Q|exact (P w a J)].
  - right. assert (A1 : a1 < 0) by nra. exists (w1 / a1), w1, a1. assert (E1 : w1 / a1 * a1 = w1) by (field; lra). set (r := w1 / a1) in *. clearbody r.
    assert (S1 : s < r) by nra. assert (S2 : r <= k) by nra. split; [lra|]. split; [left; reflexivity|]. split; [lra|]. split; [exact A1|].
    intros w a [E|I]; [injection E as <- <-; lra|]. pose proof (P w a I) as P1. pose proof (H w a (or_intror I)) as P2.
    destruct (Rle_lt_dec 0 a); nra.
Qed.
Lemma swap_flat b c d e a b0 b1 b2 b3 : b0 + b1 + b2 + b3 = 1 -> a = comb [b0; b1; b2; b3] [b; c; d; e] ->
  triple3 (sub3 c a) (sub3 d a) (sub3 e a) = b0 * triple3 (sub3 c b) (sub3 d b) (sub3 e b) /\
  triple3 (sub3 b a) (sub3 d a) (sub3 e a) = - b1 * triple3 (sub3 c b) (sub3 d b) (sub3 e b) /\
  triple3 (sub3 b a) (sub3 c a) (sub3 e a) = b2 * triple3 (sub3 c b) (sub3 d b) (sub3 e b) /\
  triple3 (sub3 b a) (sub3 c a) (sub3 d a) = - b3 * triple3 (sub3 c b) (sub3 d b) (sub3 e b).
Proof.
  intros S ->. assert (b0 = 1 - b1 - b2 - b3) as -> by lra. destruct b as [[? ?] ?], c as [[? ?] ?], d as [[? ?] ?], e as [[? ?] ?]. cbn. repeat split; ring.
Qed.
Lemma weights4 w0 w1 w2 w3 a b c d p : 0 <= w0 -> 0 <= w1 -> 0 <= w2 -> 0 <= w3 -> w0 + w1 + w2 + w3 = 1 -> p = comb [w0; w1; w2; w3] [a; b; c; d] -> hull [a; b; c; d] p.
Proof. intros. exists [w0; w1; w2; w3]. split; [split; [reflexivity|split; [cbn [Rsum]; lra|assumption]]|]. repeat (apply Forall_cons; [assumption|]). apply Forall_nil. Qed.
Lemma coords4 b c d e p : ~ flat4 b c d e -> exists w0 w1 w2 w3, w0 + w1 + w2 + w3 = 1 /\ p = comb [w0; w1; w2; w3] [b; c; d; e].
Proof. intros NF. destruct (walls_bary b c d e p NF) as (_ & S & E). do 4 eexists. split; [|exact E]. cbn [Rsum] in S. lra. Qed.
Lemma exchange a b c d e q p k : ~ flat4 b c d e -> hull [b; c; d; e] q -> 0 <= k <= 1 -> p = add3 (scale3 k a) (scale3 (1 - k) q) ->
  exists t0 t1 t2 t3, incl [t0; t1; t2; t3] [a; b; c; d; e] /\ ~ flat4 t0 t1 t2 t3 /\ hull [t0; t1; t2; t3] p.
Proof.
  intros NF (bs & (Lb & Sb & Eq) & Pb) Hk Ep. destruct bs as [|b0 [|b1 [|b2 [|b3 [|]]]]]; try discriminate Lb. cbn [Rsum] in Sb.
  inversion Pb as [|? ? B0 Pb1]; subst. inversion Pb1 as [|? ? B1 Pb2]; subst. inversion Pb2 as [|? ? B2 Pb3]; subst. inversion Pb3 as [|? ? B3 _]; subst. clear Pb Pb1 Pb2 Pb3 Lb.
  destruct (coords4 b c d e a NF) as (a0 & a1 & a2 & a3 & Sa & Ea). destruct (swap_flat b c d e a a0 a1 a2 a3 Sa Ea) as (T0 & T1 & T2 & T3).
  set (w0 := k * a0 + (1 - k) * b0). set (w1 := k * a1 + (1 - k) * b1). set (w2 := k * a2 + (1 - k) * b2). set (w3 := k * a3 + (1 - k) * b3).
  assert (Sw : w0 + w1 + w2 + w3 = 1) by (unfold w0, w1, w2, w3; replace (k * a0 + (1 - k) * b0 + (k * a1 + (1 - k) * b1) + (k * a2 + (1 - k) * b2) + (k * a3 + (1 - k) * b3)) with (k * (a0 + a1 + a2 + a3) + (1 - k) * (b0 + (b1 + (b2 + (b3 + 0))))) by ring; rewrite Sa, Sb; ring).
  set (p := add3 (scale3 k a) (scale3 (1 - k) (comb [b0; b1; b2; b3] [b; c; d; e]))).
  assert (Ew : p = comb [w0; w1; w2; w3] [b; c; d; e]) by (unfold p; rewrite Ea; unfold w0, w1, w2, w3; clear; destruct b as [[? ?] ?], c as [[? ?] ?], d as [[? ?] ?], e as [[? ?] ?]; cbn; apply f_equal2; [apply f_equal2|]; ring).
  assert (G : forall s, p = add3 (scale3 s a) (comb [w0 - s * a0; w1 - s * a1; w2 - s * a2; w3 - s * a3] [b; c; d; e])) by (intros s; rewrite Ew, Ea; clear; destruct b as [[? ?] ?], c as [[? ?] ?], d as [[? ?] ?], e as [[? ?] ?]; cbn; apply f_equal2; [apply f_equal2|]; ring).
  destruct (pick_step [(w0, a0); (w1, a1); (w2, a2); (w3, a3)] k ltac:(lra)) as [P|(s & v & al & Hs & I & Z & A & P)].
  { intros w x I. cbn [In] in I. destruct I as [I|[I|[I|[I|[]]]]]; injection I as <- <-; unfold w0, w1, w2, w3; nra. }
  - exists b, c, d, e. split; [intros x Hx; right; exact Hx|]. split; [exact NF|].
    apply (weights4 w0 w1 w2 w3); [apply (P w0 a0)|apply (P w1 a1)|apply (P w2 a2)|apply (P w3 a3)|exact Sw|exact Ew]; cbn [In]; tauto.
  - pose proof (P w0 a0 ltac:(cbn [In]; tauto)) as P0. pose proof (P w1 a1 ltac:(cbn [In]; tauto)) as P1. pose proof (P w2 a2 ltac:(cbn [In]; tauto)) as P2. pose proof (P w3 a3 ltac:(cbn [In]; tauto)) as P3.
    specialize (G s). clear Ew Ea. clearbody w0 w1 w2 w3 p.
    assert (Ss : s + (w0 - s * a0) + (w1 - s * a1) + (w2 - s * a2) + (w3 - s * a3) = 1) by (replace (s + (w0 - s * a0) + (w1 - s * a1) + (w2 - s * a2) + (w3 - s * a3)) with (w0 + w1 + w2 + w3 + s * (1 - (a0 + a1 + a2 + a3))) by ring; rewrite Sw, Sa; ring).
    set (v0 := w0 - s * a0) in *. set (v1 := w1 - s * a1) in *. set (v2 := w2 - s * a2) in *. set (v3 := w3 - s * a3) in *. 
    destruct Hs as [S0 _]. cbn [In] in I. destruct I as [I|[I|[I|[I|[]]]]]; injection I as <- <-.
    + exists a, c, d, e. split; [intros x Hx; cbn [In] in *; tauto|]. split; [unfold flat4; rewrite T0; intros F; apply Rmult_integral in F as [F|F]; [lra|exact (NF F)]|].
      apply (weights4 s v1 v2 v3); [exact S0|exact P1|exact P2|exact P3|fold v0 in Z; lra|]. fold v0 in Z. rewrite G, Z. clear. destruct a as [[? ?] ?], b as [[? ?] ?], c as [[? ?] ?], d as [[? ?] ?], e as [[? ?] ?]. cbn. apply f_equal2; [apply f_equal2|]; ring.
    + exists a, b, d, e. split; [intros x Hx; cbn [In] in *; tauto|]. split; [unfold flat4; rewrite T1; intros F; apply Rmult_integral in F as [F|F]; [lra|exact (NF F)]|].
      apply (weights4 s v0 v2 v3); [exact S0|exact P0|exact P2|exact P3|fold v1 in Z; lra|]. fold v1 in Z. rewrite G, Z. clear. destruct a as [[? ?] ?], b as [[? ?] ?], c as [[? ?] ?], d as [[? ?] ?], e as [[? ?] ?]. cbn. apply f_equal2; [apply f_equal2|]; ring.
    + exists a, b, c, e. split; [intros x Hx; cbn [In] in *; tauto|]. split; [unfold flat4; rewrite T2; intros F; apply Rmult_integral in F as [F|F]; [lra|exact (NF F)]|].
      apply (weights4 s v0 v1 v3); [exact S0|exact P0|exact P1|exact P3|fold v2 in Z; lra|]. fold v2 in Z. rewrite G, Z. clear. destruct a as [[? ?] ?], b as [[? ?] ?], c as [[? ?] ?], d as [[? ?] ?], e as [[? ?] ?]. cbn. apply f_equal2; [apply f_equal2|]; ring.
    + exists a, b, c, d. split; [intros x Hx; cbn [In] in *; tauto|]. split; [unfold flat4; rewrite T3; intros F; apply Rmult_integral in F as [F|F]; [lra|exact (NF F)]|].
      apply (weights4 s v0 v1 v2); [exact S0|exact P0|exact P1|exact P2|fold v3 in Z; lra|]. fold v3 in Z. rewrite G, Z. clear. destruct a as [[? ?] ?], b as [[? ?] ?], c as [[? ?] ?], d as [[? ?] ?], e as [[? ?] ?]. cbn. apply f_equal2; [apply f_equal2|]; ring.
Qed.
Lemma dot_self u : dot3 u u = 0 -> u = o3.
Proof. destruct u as [[x y] z]. cbn. intros H. unfold o3. apply f_equal2; [apply f_equal2|]; nra. Qed.
Lemma parallel u v n : u <> o3 -> cross3 u v = o3 -> dot3 n u = 0 -> dot3 n v = 0.
Proof.
  intros Nu C D. assert (E : dot3 u u * dot3 n v = dot3 n u * dot3 u v - dot3 (cross3 u v) (cross3 n u)) by (destruct u as [[? ?] ?], v as [[? ?] ?], n as [[? ?] ?]; cbn; ring).
  rewrite C, D in E. replace (dot3 o3 (cross3 n u)) with 0 in E by (destruct (cross3 n u) as [[? ?] ?]; cbn; ring). apply (Rmult_eq_reg_l (dot3 u u)); [lra|]. intros Z. apply Nu, dot_self, Z.
Qed.
Lemma dot_diff n x y : dot3 n (sub3 x y) = dot3 n x - dot3 n y.
Proof. destruct n as [[? ?] ?], x as [[? ?] ?], y as [[? ?] ?]. cbn. ring. Qed.
Lemma nonflat_exists ps : ~ coplanar3 ps -> exists a b c d, incl [a; b; c; d] ps /\ ~ flat4 a b c d.
Proof.
  intros NC. apply NNPP. intros N. apply NC. assert (Fl : forall a b c d, In a ps -> In b ps -> In c ps -> In d ps -> flat4 a b c d).
  { intros a b c d Ia Ib Ic Id. apply NNPP. intros NF. apply N. exists a, b, c, d. split; [intros x [<-|[<-|[<-|[<-|[]]]]]; assumption|exact NF]. }
  clear N NC. destruct (classic (exists a b c, In a ps /\ In b ps /\ In c ps /\ cross3 (sub3 b a) (sub3 c a) <> o3)) as [(a & b & c & Ia & Ib & Ic & C)|N].
  - exists (cross3 (sub3 b a) (sub3 c a)), (dot3 (cross3 (sub3 b a) (sub3 c a)) a). split; [exact C|]. apply Forall_forall. intros d Id. specialize (Fl a b c d Ia Ib Ic Id). unfold flat4, triple3 in Fl. rewrite dot_diff in Fl. lra.
  - destruct ps as [|a ps]; [exists (1,0,0), 0; split; [intros E; injection E; lra|constructor]|].
    destruct (classic (exists b, In b ps /\ b <> a)) as [(b & Ib & Nb)|N2].
    + destruct (two_normals (sub3 b a) (sub3 b a)) as (n & Nn & D & _). exists n, (dot3 n a). split; [exact Nn|]. apply Forall_forall. intros c Ic.
      assert (C : cross3 (sub3 b a) (sub3 c a) = o3) by (apply NNPP; intros C; apply N; exists a, b, c; split; [left; reflexivity|]; split; [right; exact Ib|]; split; [exact Ic|exact C]).
      assert (Nu : sub3 b a <> o3) by (intros Z; apply Nb; destruct a as [[? ?] ?], b as [[? ?] ?]; cbn in Z; injection Z as Z1 Z2 Z3; apply f_equal2; [apply f_equal2|]; lra).
      assert (D' : dot3 n (sub3 b a) = 0) by (rewrite <- D; destruct n as [[? ?] ?], (sub3 b a) as [[? ?] ?]; cbn; ring). pose proof (parallel _ _ n Nu C D') as Q. rewrite dot_diff in Q. lra.
    + exists (1,0,0), (dot3 (1,0,0) a). split; [intros E; injection E; lra|]. apply Forall_forall. intros c [<-|Ic]; [reflexivity|]. destruct (classic (c = a)) as [->|Nc]; [reflexivity|]. exfalso. apply N2. eauto.
Qed.
Lemma hull_cons a ps p : ps <> [] -> hull (a :: ps) p -> exists k q, 0 <= k <= 1 /\ hull ps q /\ p = add3 (scale3 k a) (scale3 (1 - k) q).
Proof.
  intros Np (ws & (Lw & Sw & Ep) & Pw). destruct ws as [|w ws]; [discriminate|]. inversion Pw as [|? ? W0 Pw']; subst. rewrite Rsum_cons in Sw. injection Lw as Lw.
  assert (S0 : 0 <= Rsum ws) by (clear - Pw'; induction Pw' as [|x l H _ IH]; [change (Rsum []) with 0; lra|rewrite Rsum_cons; lra]).
  destruct (Req_dec (Rsum ws) 0) as [Z|Z].
  - destruct ps as [|b ps]; [contradiction|]. exists 1, b. split; [lra|]. split; [apply hull_mem; left; reflexivity|].
    assert (Zs : forall x, In x ws -> x = 0).
    { clear - Pw' Z. induction Pw' as [|x l H P IH]; [intros ? []|]. rewrite Rsum_cons in Z. assert (0 <= Rsum l) by (clear - P; induction P as [|x l H _ IH]; [change (Rsum []) with 0; lra|rewrite Rsum_cons; lra]). intros y [<-|Iy]; [lra|apply IH; [lra|exact Iy]]. }
    assert (Zc : forall us qs, (forall x, In x us -> x = 0) -> comb us qs = o3).
    { clear. induction us as [|u us IH]; intros [|q qs] H; try reflexivity. rewrite comb_cons, (H u) by (left; reflexivity). rewrite IH by (intros x Hx; apply H; right; exact Hx). destruct q as [[? ?] ?]. unfold o3. cbn. apply f_equal2; [apply f_equal2|]; ring. }
    rewrite comb_cons, (Zc ws _ Zs). assert (w = 1) as -> by lra. destruct a as [[? ?] ?], b as [[? ?] ?]. cbn. apply f_equal2; [apply f_equal2|]; ring.
  - exists w, (scale3 (/ Rsum ws) (comb ws ps)). split; [lra|]. split.
    + exists (map (Rmult (/ Rsum ws)) ws). assert (Sc : forall k us, Rsum (map (Rmult k) us) = k * Rsum us) by (clear; induction us as [|u us IH]; [change (Rsum (map (Rmult k) [])) with 0; change (Rsum []) with 0; ring|cbn [map]; rewrite !Rsum_cons, IH; ring]).
      assert (Cc : forall k us qs, comb (map (Rmult k) us) qs = scale3 k (comb us qs)).
      { clear. intros k. induction us as [|u us IH]; intros [|q qs]; try (cbn; unfold o3; apply f_equal2; [apply f_equal2|]; ring). cbn [map]. rewrite !comb_cons, IH. destruct q as [[? ?] ?], (comb us qs) as [[? ?] ?]. cbn. apply f_equal2; [apply f_equal2|]; ring. }
      split; [split; [rewrite map_length; exact Lw|split; [rewrite Sc; field; exact Z|symmetry; apply Cc]]|].
      apply Forall_map. eapply Forall_impl; [|exact Pw']. intros x Hx. cbn beta. apply Rmult_le_pos; [left; apply Rinv_0_lt_compat; lra|exact Hx].
    + rewrite comb_cons. replace (1 - w) with (Rsum ws) by lra. destruct a as [[? ?] ?], (comb ws ps) as [[? ?] ?]. cbn. apply f_equal2; [apply f_equal2|]; field; exact Z.
Qed.
Lemma carath3 ps p : ~ coplanar3 ps -> hull ps p -> exists a b c d, incl [a; b; c; d] ps /\ ~ flat4 a b c d /\ hull [a; b; c; d] p.
Proof.
  intros NC Hp. destruct (nonflat_exists ps NC) as (a & b & c & d & I & NF).
  assert (G : forall l q, incl l ps -> hull (l ++ [a; b; c; d]) q -> exists a b c d, incl [a; b; c; d] ps /\ ~ flat4 a b c d /\ hull [a; b; c; d] q).
  { induction l as [|x l IH]; intros q Il Hq; [exists a, b, c, d; auto|]. cbn [app] in Hq. apply hull_cons in Hq as (k & r & Hk & Hr & Er); [|destruct l; discriminate].
    destruct (IH r) as (t0 & t1 & t2 & t3 & It & NT & Ht); [intros y Hy; apply Il; right; exact Hy|exact Hr|].
    destruct (exchange x t0 t1 t2 t3 r q k NT Ht Hk Er) as (s0 & s1 & s2 & s3 & Is & NS & Hs). exists s0, s1, s2, s3. split; [|auto]. intros y Hy. apply Is in Hy. destruct Hy as [<-|Hy]; [apply Il; left; reflexivity|apply It, Hy]. }
  apply (G ps p); [apply incl_refl|]. apply (hull_trans _ _ _ Hp). intros y Hy. apply hull_mem, in_app_iff. left. exact Hy.
Qed.
Definition quads (n : nat) : list (nat * nat * nat * nat) := list_prod (list_prod (list_prod (seq 0 n) (seq 0 n)) (seq 0 n)) (seq 0 n).
Lemma quads_spec n i j k m : In (i, j, k, m) (quads n) <-> (i < n)%nat /\ (j < n)%nat /\ (k < n)%nat /\ (m < n)%nat.
Proof. unfold quads. rewrite !in_prod_iff, !in_seq. lia. Qed.
Lemma quads_cover q : ~ coplanar3 (map pt3 q) -> covers q (quads (length q)).
Proof.
  intros NC p Hp. destruct (carath3 _ p NC Hp) as (a & b & c & d & I & NF & H).
  assert (Ia : In a (map pt3 q)) by (apply I; cbn; tauto). assert (Ib : In b (map pt3 q)) by (apply I; cbn; tauto). assert (Ic : In c (map pt3 q)) by (apply I; cbn; tauto). assert (Id : In d (map pt3 q)) by (apply I; cbn; tauto).
  apply in_map_iff in Ia as (a' & <- & Ia). apply in_map_iff in Ib as (b' & <- & Ib). apply in_map_iff in Ic as (c' & <- & Ic). apply in_map_iff in Id as (d' & <- & Id).
  apply In_nth_error in Ia as (i & Na), Ib as (j & Nb), Ic as (k & Nc), Id as (m & Nd).
  exists i, j, k, m, a', b', c', d'. split; [|auto 10]. apply quads_spec. repeat split; apply nth_error_Some; congruence.
Qed.
Definition all_flat3 (q : list (list R)) : bool :=
  forallb (fun '(i, j, k, m) => let p n := pt3 (nth n q []) in if Req_EM_T (triple3 (sub3 (p j) (p i)) (sub3 (p k) (p i)) (sub3 (p m) (p i))) 0 then true else false) (quads (length q)).
Lemma all_flat3_coplanar q : all_flat3 q = true -> coplanar3 (map pt3 q).
Proof.
  intros H. apply NNPP. intros NC. destruct q as [|l q']; [apply NC; exists (1,0,0), 0; split; [intros E; injection E; lra|constructor]|]. set (q := l :: q') in *.
  destruct (quads_cover q NC (pt3 l)) as (i & j & k & m & a & b & c & d & It & Na & Nb & Nc & Nd & NF & _); [apply hull_mem; left; reflexivity|].
  unfold all_flat3 in H. rewrite forallb_forall in H. specialize (H (i, j, k, m) It). cbn beta iota zeta in H.
  rewrite (nth_error_nth _ _ [] Na), (nth_error_nth _ _ [] Nb), (nth_error_nth _ _ [] Nc), (nth_error_nth _ _ [] Nd) in H. destruct (Req_EM_T _ 0) as [E|]; [exact (NF E)|discriminate].
Qed.
Lemma coplanar_flat ps a b c d : coplanar3 ps -> incl [a; b; c; d] ps -> flat4 a b c d.
Proof.
  intros (n & e & Nn & P) I. rewrite Forall_forall in P.
  assert (Pa := P a (I a ltac:(cbn; tauto))). assert (Pb := P b (I b ltac:(cbn; tauto))). assert (Pc := P c (I c ltac:(cbn; tauto))). assert (Pd := P d (I d ltac:(cbn; tauto))).
  assert (Q : forall x, dot3 n x = e -> dot3 n (sub3 x a) = 0) by (intros x Hx; rewrite dot_diff; lra). apply Q in Pb, Pc, Pd. unfold flat4. 
  set (u := sub3 b a) in *. set (v := sub3 c a) in *. set (w := sub3 d a) in *. clearbody u v w. clear - Nn Pb Pc Pd.
  assert (E : scale3 (triple3 u v w) n = add3 (add3 (scale3 (dot3 n u) (cross3 v w)) (scale3 (dot3 n v) (cross3 w u))) (scale3 (dot3 n w) (cross3 u v))) by (destruct u as [[? ?] ?], v as [[? ?] ?], w as [[? ?] ?], n as [[? ?] ?]; cbn; apply f_equal2; [apply f_equal2|]; ring).
  rewrite Pb, Pc, Pd in E. destruct n as [[n0 n1] n2]. set (t := triple3 u v w) in *. clearbody t.
  assert (Z : scale3 t (n0, n1, n2) = o3) by (rewrite E; destruct (cross3 v w) as [[? ?] ?], (cross3 w u) as [[? ?] ?], (cross3 u v) as [[? ?] ?]; unfold o3; cbn; apply f_equal2; [apply f_equal2|]; ring).
  apply NNPP. intros Nt. apply Nn. cbn in Z. unfold o3 in *. injection Z as Z0 Z1 Z2. apply f_equal2; [apply f_equal2|]; apply (Rmult_eq_reg_l t); lra.
Qed.
Lemma coplanar_all_flat3 q : coplanar3 (map pt3 q) -> all_flat3 q = true.
Proof.
  intros C. unfold all_flat3. apply forallb_forall. intros [[[i j] k] m] It. apply quads_spec in It as (Hi & Hj & Hk & Hm). destruct (Req_EM_T _ 0) as [|N]; [reflexivity|exfalso]. apply N.
  apply (coplanar_flat _ _ _ _ _ C). intros x Hx. cbn [In] in Hx. destruct Hx as [<-|[<-|[<-|[<-|[]]]]]; apply in_map, nth_In; assumption.
Qed.
Definition covering3 (q : list (list R)) : option (list (nat * nat * nat * nat)) := if all_flat3 q then None else Some (quads (length q)).
Lemma covering3_spec : (forall q l, covering3 q = Some l -> covers q l) /\ (forall q, ~ coplanar3 (map pt3 q) -> exists l, covering3 q = Some l) /\
  (forall q l, covering3 q = Some l -> Forall (fun '(i, j, k, m) => (i < length q)%nat /\ (j < length q)%nat /\ (k < length q)%nat /\ (m < length q)%nat) l).
Proof.
  unfold covering3. split; [|split].
  - intros q l H. destruct (all_flat3 q) eqn:E; [discriminate|]. injection H as <-. apply quads_cover. intros C. apply coplanar_all_flat3 in C. congruence.
  - intros q NC. destruct (all_flat3 q) eqn:E; [|eauto]. destruct (NC (all_flat3_coplanar q E)).
  - intros q l H. destruct (all_flat3 q); [discriminate|]. injection H as <-. apply Forall_forall. intros [[[i j] k] m] I. apply quads_spec, I.
Qed.
