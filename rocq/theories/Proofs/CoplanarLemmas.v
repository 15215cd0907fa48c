(** The randomised coplanarity check in exact real arithmetic. *)
From Coq Require Import Reals List ZArith Lia Lra Psatz Bool Arith.
From Verif Require Import Base.Res Model.Tau Model.Arr Model.Num Model.IcoNumeric Spec.Value Spec.RVec
  Spec.IcoSpec Spec.Space Proofs.ResLemmas Proofs.RVecLemmas Proofs.NumLemmas.
Import ListNotations.
Local Open Scope R_scope.

Lemma get_lt {A} (l : list A) i : (i < length l)%nat -> exists x, get l i = Ok x /\ nth_error l i = Some x.
Proof.
  intros H. unfold get. destruct (nth_error l i) as [x|] eqn:E; [eauto|].
  apply nth_error_None in E. lia.
Qed.

Lemma dot3_scale k p q : dot3 (scale3 k p) q = k * dot3 p q. Proof. p3 p; p3 q; cbn; ring. Qed.
Lemma dot3_sub p q r : dot3 p (sub3 q r) = dot3 p q - dot3 p r. Proof. p3 p; p3 q; p3 r; cbn; ring. Qed.
Lemma dot3_pos p : 0 <= dot3 p p. Proof. p3 p; cbn; nra. Qed.
Lemma norm3_sq p : norm3 p * norm3 p = dot3 p p. Proof. unfold norm3. apply sqrt_sqrt, dot3_pos. Qed.
Lemma norm3_pos p : 0 <= norm3 p. Proof. apply sqrt_pos. Qed.
Lemma dot3_zero p : dot3 p p = 0 -> p = o3.
Proof. p3 p. cbn. intros H. unfold o3. assert (r = 0) by nra. assert (r0 = 0) by nra. assert (r1 = 0) by nra. congruence. Qed.
Lemma norm3_comp x y z : Rabs x <= norm3 (x, y, z) /\ Rabs y <= norm3 (x, y, z) /\ Rabs z <= norm3 (x, y, z).
Proof. unfold norm3; cbn. repeat split; rewrite <- sqrt_Rsqr_abs; apply sqrt_le_1_alt; unfold Rsqr; nra. Qed.

Lemma small_R (n : R3) : small Rnum n = true <-> let '(x, y, z) := n in Rabs x < 1/1000000 /\ Rabs y < 1/1000000 /\ Rabs z < 1/1000000.
Proof.
  destruct n as [[x y] z]. unfold small. toR. rewrite !andb_true_iff, !Rltb_true. tauto.
Qed.
Lemma not_small_norm (n : R3) : small Rnum n = false -> 1/1000000 <= norm3 n.
Proof.
  intros H. destruct n as [[x y] z]. destruct (norm3_comp x y z) as (H1 & H2 & H3).
  destruct (Rle_dec (1/1000000) (norm3 (x,y,z))) as [|C]; [assumption|]. exfalso.
  assert (small Rnum (x,y,z) = true); [|congruence]. apply small_R. repeat split; lra.
Qed.

(** If three points of a plane span a normal vector n, every point of the plane is
    orthogonal to n. *)
Lemma plane_normal (m n u v w : R3) : n = cross3 u v -> m <> o3 -> dot3 m u = 0 -> dot3 m v = 0 -> dot3 m w = 0 -> dot3 n w = 0.
Proof.
  intros -> Hm Hu Hv Hw.
  assert (K : cross3 (cross3 (cross3 u v) m) w = sub3 (scale3 (dot3 (cross3 u v) w) m) (scale3 (dot3 m w) (cross3 u v))).
  { p3 m; p3 u; p3 v; p3 w. cbn. apply f_equal2; [apply f_equal2|]; ring. }
  assert (K2 : cross3 (cross3 u v) m = sub3 (scale3 (dot3 m u) v) (scale3 (dot3 m v) u)).
  { p3 m; p3 u; p3 v. cbn. apply f_equal2; [apply f_equal2|]; ring. }
  rewrite K2, Hu, Hv, Hw in K. set (k := dot3 (cross3 u v) w) in *. clearbody k.
  destruct (Req_dec k 0) as [|Hk]; [assumption|]. exfalso. apply Hm. clear - K Hk.
  p3 m; p3 u; p3 v; p3 w. cbn in K. injection K as K1 K2 K3. unfold o3.
  apply f_equal2; [apply f_equal2|]; apply (Rmult_eq_reg_l k); auto; lra.
Qed.

Lemma triple_normal_R ps d : valid_draw (length ps) d ->
  let '(i, j, k) := d in exists pi pj pk, nth_error ps i = Some pi /\ nth_error ps j = Some pj /\ nth_error ps k = Some pk /\
   get ps i = Ok pi /\
   triple_normal Rnum ps d = Ok (cross3 (sub3 pj pi) (sub3 pk pi)).
Proof.
  destruct d as [[i j] k]. intros (Hi & Hj & Hk & _).
  destruct (get_lt ps i Hi) as (pi & Ei & Ni). destruct (get_lt ps j Hj) as (pj & Ej & Nj). destruct (get_lt ps k Hk) as (pk & Ek & Nk).
  exists pi, pj, pk. split; [exact Ni|]. split; [exact Nj|]. split; [exact Nk|]. split; [exact Ei|].
  unfold triple_normal. change (Num.pt Rnum) with R3 in *. rewrite Ei, Ej, Ek. cbn [bind]. toR. reflexivity.
Qed.

Lemma first_good_R ps draws : Forall (valid_draw (length ps)) draws ->
  (first_good Rnum ps draws = Ok None /\ Forall (fun d => exists n, triple_normal Rnum ps d = Ok n /\ small Rnum n = true) draws) \/
  (exists d n, In d draws /\ first_good Rnum ps draws = Ok (Some (d, n)) /\ triple_normal Rnum ps d = Ok n /\ small Rnum n = false).
Proof.
  induction 1 as [|d draws Hd _ IH]; cbn [first_good]; [left; split; [reflexivity|constructor]|].
  assert (T : exists n, triple_normal Rnum ps d = Ok n).
  { pose proof (triple_normal_R ps d Hd) as T. destruct d as [[i j] k]. destruct T as (pi & pj & pk & _ & _ & _ & _ & T). eauto. }
  destruct T as (n & En). rewrite En. cbn [bind]. destruct (small Rnum n) eqn:Es.
  - destruct IH as [[E Fl]|(d' & n' & Hin & E & H)].
    + left. split; [exact E|]. constructor; eauto.
    + right. exists d', n'. cbn. tauto.
  - right. exists d, n. cbn. tauto.
Qed.

Lemma all_near_R ps n p0 l : Forall (fun i => (i < length ps)%nat) l ->
  exists b, all_near Rnum ps n p0 l = Ok b /\
    (b = true <-> forall i p, In i l -> nth_error ps i = Some p -> Rabs (dot3 n (sub3 p p0)) < 1/10000000000).
Proof.
  induction 1 as [|i l Hi _ IH]; cbn [all_near].
  - exists true. split; [reflexivity|]. split; [intros _ i p []|reflexivity].
  - destruct (get_lt ps i Hi) as (p & Ep & Np). change (Num.pt Rnum) with R3 in *. rewrite Ep. cbn [bind]. toR.
    destruct (Rltb (Rabs (dot3 n (sub3 p p0))) (1/10000000000)) eqn:E.
    + destruct IH as (b & Eb & Hb). exists b. split; [exact Eb|]. rewrite Hb. apply Rltb_true in E. split.
      * intros H i' p' [<-|Hin] Hp; [congruence|eauto].
      * intros H i' p' Hin Hp. apply (H i' p'); [right|]; assumption.
    + exists false. split; [reflexivity|]. split; [discriminate|]. intros H. apply Rltb_false in E.
      specialize (H i p (or_introl eq_refl) Np). lra.
Qed.

Lemma others_spec n d x : In x (others n d) <-> (x < n)%nat /\ let '(i,j,k) := d in x <> i /\ x <> j /\ x <> k.
Proof.
  destruct d as [[i j] k]. unfold others. rewrite filter_In, in_seq. cbn [existsb].
  rewrite negb_true_iff, !orb_false_iff, !Nat.eqb_neq. split; [intros [? (? & ? & ? & _)]|intros (? & ? & ? & ?)]; repeat split; auto; lia.
Qed.

Lemma coplanar_numeric_R draws ps : Forall (valid_draw (length ps)) draws -> (3 < length ps)%nat ->
  (coplanar_check_numeric Rnum draws ps = Ok None /\ Forall (fun d => exists n, triple_normal Rnum ps d = Ok n /\ small Rnum n = true) draws) \/
  (exists i j k pi pj pk b, let n := cross3 (sub3 pj pi) (sub3 pk pi) in
     In (i,j,k) draws /\ nth_error ps i = Some pi /\ nth_error ps j = Some pj /\ nth_error ps k = Some pk /\ small Rnum n = false /\
     coplanar_check_numeric Rnum draws ps = Ok (Some b) /\
     (b = true <-> Forall (fun p => Rabs (dot3 n (sub3 p pi)) < 1/10000000000) ps)).
Proof.
  intros Hd L. unfold coplanar_check_numeric. rewrite (proj2 (Nat.ltb_lt _ _) L).
  destruct (first_good_R ps draws Hd) as [[E Fl]|(d & n & Hin & E & En & Es)].
  - left. change (Num.pt Rnum) with R3 in *. rewrite E. split; [reflexivity|exact Fl].
  - right. pose proof (proj1 (Forall_forall _ _) Hd d Hin) as Vd. destruct d as [[i j] k].
    destruct (triple_normal_R ps (i,j,k) Vd) as (pi & pj & pk & Ni & Nj & Nk & Gi & T). rewrite T in En. injection En as <-.
    change (Num.pt Rnum) with R3 in *. rewrite E. cbn [bind fst]. rewrite Gi. cbn [bind].
    destruct (all_near_R ps (cross3 (sub3 pj pi) (sub3 pk pi)) pi (others (length ps) (i,j,k))) as (b & Eb & Hb).
    { rewrite Forall_forall. intros x Hx. apply others_spec in Hx. tauto. }
    rewrite Eb. cbn [bind]. exists i, j, k, pi, pj, pk, b. cbv zeta. split; [exact Hin|]. split; [exact Ni|]. split; [exact Nj|]. split; [exact Nk|].
    split; [exact Es|]. split; [reflexivity|]. rewrite Hb, Forall_forall. split.
    + intros H p Hp. apply In_nth_error in Hp as (x & Nx).
      assert (Hx : (x < length ps)%nat) by (apply nth_error_Some; congruence).
      assert (Z : forall q, q = 0 -> Rabs q < 1/10000000000) by (intros q ->; rewrite Rabs_R0; lra).
      destruct (Nat.eq_dec x i) as [->|Di]; [rewrite Ni in Nx; injection Nx as <-; apply Z; p3 pi; p3 pj; p3 pk; cbn; ring|].
      destruct (Nat.eq_dec x j) as [->|Dj]; [rewrite Nj in Nx; injection Nx as <-; apply Z; p3 pi; p3 pj; p3 pk; cbn; ring|].
      destruct (Nat.eq_dec x k) as [->|Dk]; [rewrite Nk in Nx; injection Nx as <-; apply Z; p3 pi; p3 pj; p3 pk; cbn; ring|].
      apply (H x p); [apply others_spec; tauto|exact Nx].
    + intros H x p Hx Nx. apply H. apply nth_error_In with x. exact Nx.
Qed.

Lemma coplanar_plane ps pi pj pk : coplanar3 ps -> In pi ps -> In pj ps -> In pk ps ->
  Forall (fun p => dot3 (cross3 (sub3 pj pi) (sub3 pk pi)) (sub3 p pi) = 0) ps.
Proof.
  intros (m & d & Hm & H) Hi Hj Hk. rewrite Forall_forall in *. intros p Hp.
  apply (plane_normal m _ (sub3 pj pi) (sub3 pk pi) _ eq_refl Hm); rewrite dot3_sub;
    rewrite (H pi Hi); [rewrite (H pj Hj)|rewrite (H pk Hk)|rewrite (H p Hp)]; ring.
Qed.

Lemma near_plane_of ps n p0 : 1/1000000 <= norm3 n -> Forall (fun p => Rabs (dot3 n (sub3 p p0)) < 1/10000000000) ps ->
  near_plane (1/10000) ps.
Proof.
  intros Hn H. set (k := norm3 n) in *. assert (kp : 0 < k) by lra.
  exists (scale3 (/ k) n), (/ k * dot3 n p0). split.
  - unfold norm3. replace (dot3 (scale3 (/k) n) (scale3 (/k) n)) with (dot3 n n * (/ k * / k)) by (clearbody k; p3 n; cbn; ring).
    rewrite <- norm3_sq. fold k. replace (k * k * (/k * /k)) with 1 by (field; lra). apply sqrt_1.
  - rewrite Forall_forall in *. intros p Hp. specialize (H p Hp). rewrite dot3_scale.
    replace (/ k * dot3 n p - / k * dot3 n p0) with (/ k * dot3 n (sub3 p p0)) by (rewrite dot3_sub; ring).
    rewrite Rabs_mult, (Rabs_pos_eq (/ k)) by (left; apply Rinv_0_lt_compat; exact kp).
    apply Rmult_lt_reg_l with k; [exact kp|]. rewrite <- Rmult_assoc, Rinv_r by lra. rewrite Rmult_1_l. nra.
Qed.
