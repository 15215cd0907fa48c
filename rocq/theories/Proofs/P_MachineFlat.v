(** The coplanarity test of dode2 and outline() in int64 and binary64, for objects whose
    vertices have the same sixth coordinate: C118. *)
From Coq Require Import Reals List ZArith.
From Verif Require Import Base.Res Model.Tau Model.Arr Model.Num Model.DodeDedup Model.DodeIntersect Model.Numeric2 Model.IcoSurface Model.DodeSurface Model.MachineDodeInter Model.MachineDedup Model.MachineBorder Model.MachineOutline
  Spec.LinAlg Spec.Value Spec.RVec Spec.Shape Spec.Mean Spec.DodeSpec Spec.Sets Spec.Space Spec.Tetra Spec.Plane Spec.Surface Spec.Outline Spec.Grid Spec.SolidFloat Spec.Samples Spec.DodeSamples.
Import ListNotations.
Local Open Scope R_scope.

From Coq Require Import Lia Lra.
From Flocq Require Import Core IEEE754.Binary.
From Verif Require Import Proofs.ResLemmas Proofs.DodeDedupLemmas Proofs.GridInter Proofs.GridDodeInter Proofs.P_DodeOverlap Proofs.DodeSurfaceLemmas Proofs.Frontier Proofs.OutlineLemmas
  Proofs.P_DodeSurface Proofs.RoundLemmas Proofs.FloatGeom Proofs.DodeFloat Proofs.P_DodeSolidFloat Proofs.LinAlgLemmas Proofs.SegFloat Proofs.FlatFloat Proofs.P_MachineOutline.

Lemma dinternal_last N v c x : nth_error v 5 = Some c -> dinternal N v = Ok x -> snd x = DodeNumeric.dnumeric_value N c.
Proof.
  intros E H. destruct v as [|v0 [|v1 [|v2 [|v3 [|v4 [|v5 v]]]]]]; try discriminate E. cbn in E. injection E as ->. unfold dinternal, dprojection3_numerical, DodeNumeric.dnumerical_vector in H. cbn [map get nth_error bind] in H. injection H as <-. reflexivity.
Qed.
Section Machine.
Context {la : linalg} {LA : linalg_ok la}.
Variables (q B : Z).
Hypothesis PB : (0 <= B)%Z.
Hypothesis Hq : (0 < q <= 20000000)%Z.
Hypothesis H1 : (B * q <= 10^14)%Z.
Hypothesis H2 : (3 * B <= 100 * q)%Z.

Lemma points_B c vs : grids 6 q B vs -> (forall v, In v vs -> nth_error v 5 = Some c) -> exists xs, dinternals (@Bmath la) vs = Ok xs /\ Forall2 (lev (DodeNumeric.dnumeric_value (@Bmath la) c)) xs (map dp vs).
Proof.
  intros G. induction G as [|v vs Gv _ IH]; intros L; [exists []; split; [reflexivity|constructor]|]. destruct IH as (xs & E & F); [intros w Hw; apply L; right; exact Hw|].
  destruct (point_B q B PB Hq H1 H2 v Gv) as (x & Ex & Px & Bx). exists (x :: xs). split; [unfold dinternals in *; cbn [mapM]; rewrite Ex; cbn [bind]; rewrite E; reflexivity|].
  cbn [map]. constructor; [|exact F]. split; [exact Px|]. split; [exact Bx|]. exact (dinternal_last _ v c x (L v (or_introl eq_refl)) Ex).
Qed.
Lemma check_B c t u : grids 6 q B (t ++ u) -> (forall v, In v (t ++ u) -> nth_error v 5 = Some c) ->
  exists vs, md_remove_doubling_in_perp_space (A3 (t ++ u)) = Ok vs /\ incl vs (t ++ u) /\ NoDup (map dppoint vs) /\ same_set (map dppoint vs) (map dppoint (t ++ u)) /\
    forall draws, Forall (valid_draw (length vs)) draws -> exists b, md_coplanar_check_two_triangles (@Bmath la) draws t u = Ok b /\
      ((length vs <= 3)%nat -> b = true) /\
      (forall d A, In d draws -> span (map dp vs) d A -> 2/1000000 <= A -> b = true) /\
      ((3 < length vs)%nat -> (forall d A, In d draws -> span (map dp vs) d A -> A <= 5/10000000) -> b = false).
Proof.
  intros G L. pose proof (grids_goods _ _ _ G) as Gd. destruct (dperp_space_spec (t ++ u) Gd) as (vs & Ev & I & ND & S).
  destruct (ddedup_eq q B (t ++ u) (A3 (t ++ u)) (or_introl eq_refl) PB (proj1 Hq) (proj2 Hq) H1 G) as (r & Er & Er' & _). rewrite Ev in Er'. injection Er' as <-.
  exists vs. split; [exact Er|]. split; [exact I|]. split; [exact ND|]. split; [exact S|]. intros draws V.
  destruct (points_B c vs (grids_incl _ _ _ _ _ G I) (fun v Hv => L v (I v Hv))) as (xs & Ex & F).
  assert (Ln : length xs = length vs) by (rewrite <- (map_length dp vs); clear - F; induction F; cbn; congruence).
  destruct (coplanar_B _ xs (map dp vs) F draws) as (o & Eo & Ho & K1 & K2 & K3); [rewrite Ln; exact V|]. rewrite Ln in *.
  exists (match o with Some b => b | None => false end). split.
  - unfold md_coplanar_check_two_triangles. rewrite Er. cbn [bind]. unfold dcoplanar_check_numeric_tau. rewrite Ex. cbn [bind].
    refine (eq_trans (f_equal (fun y => bind y _) Eo) _). reflexivity.
  - split; [intros Hl; rewrite (K1 Hl); reflexivity|]. split; [intros d A Hd SA LA'; rewrite (K2 d A Hd SA LA'); reflexivity|]. intros Hl Hs. rewrite (K3 Hl Hs). reflexivity.
Qed.
End Machine.

Lemma span_dp vs i j k v0 v1 v2 : nth_error vs i = Some v0 -> nth_error vs j = Some v1 -> nth_error vs k = Some v2 -> span (map dp vs) (i, j, k) (Rabs (det2 (sub3 (dp v1) (dp v0)) (sub3 (dp v2) (dp v0)))).
Proof. intros E0 E1 E2. exists (dp v0), (dp v1), (dp v2). rewrite !nth_error_map, E0, E1, E2. auto. Qed.
Lemma span_inv vs i j k A : span (map dp vs) (i, j, k) A -> exists v0 v1 v2, nth_error vs i = Some v0 /\ nth_error vs j = Some v1 /\ nth_error vs k = Some v2 /\ A = Rabs (det2 (sub3 (dp v1) (dp v0)) (sub3 (dp v2) (dp v0))).
Proof.
  intros (p0 & p1 & p2 & E0 & E1 & E2 & ->). rewrite nth_error_map in E0, E1, E2. destruct (nth_error vs i) as [v0|]; [|discriminate]. destruct (nth_error vs j) as [v1|]; [|discriminate]. destruct (nth_error vs k) as [v2|]; [|discriminate].
  exists v0, v1, v2. repeat (split; [reflexivity|]). injection E0 as <-. injection E1 as <-. injection E2 as <-. reflexivity.
Qed.

(** C118: the coplanarity test of two triangles whose vertices have the same sixth coordinate.
    [vs]: the different vertices.  The answer is True if there are at most three of them or
    a sample spans a triangle of area at least 1e-6, and False if there are more and every
    sample spans a triangle of area at most 2.5e-7 (numbers below are twice the area). *)
Lemma L_C118_coplanar : forall (la : linalg), linalg_ok la -> forall (q B : Z) (c : tau) (t u : vecs),
  (0 <= B)%Z -> (0 < q <= 20000000)%Z -> (B * q <= 10^14)%Z -> (3 * B <= 100 * q)%Z ->
  grids 6 q B (t ++ u) -> (forall v, In v (t ++ u) -> nth_error v 5 = Some c) ->
  exists vs, incl vs (t ++ u) /\ NoDup (map dppoint vs) /\ same_set (map dppoint vs) (map dppoint (t ++ u)) /\
    forall draws, Forall (valid_draw (length vs)) draws -> exists b, md_coplanar_check_two_triangles (@Bmath la) draws t u = Ok b /\
      ((length vs <= 3)%nat -> b = true) /\
      (forall i j k v0 v1 v2, In (i, j, k) draws -> nth_error vs i = Some v0 -> nth_error vs j = Some v1 -> nth_error vs k = Some v2 ->
         2/1000000 <= Rabs (det2 (sub3 (dp v1) (dp v0)) (sub3 (dp v2) (dp v0))) -> b = true) /\
      ((3 < length vs)%nat -> (forall i j k v0 v1 v2, In (i, j, k) draws -> nth_error vs i = Some v0 -> nth_error vs j = Some v1 -> nth_error vs k = Some v2 ->
         Rabs (det2 (sub3 (dp v1) (dp v0)) (sub3 (dp v2) (dp v0))) <= 5/10000000) -> b = false).
Proof.
  intros la LA q B c t u PB Hq H1 H2 G L. destruct (check_B (la := la) (LA := LA) q B PB Hq H1 H2 c t u G L) as (vs & _ & I & ND & S & K). exists vs. split; [exact I|]. split; [exact ND|]. split; [exact S|].
  intros draws V. destruct (K draws V) as (b & E & K1 & K2 & K3). exists b. split; [exact E|]. split; [exact K1|]. split.
  - intros i j k v0 v1 v2 Hd N0 N1 N2. apply (K2 (i, j, k) _ Hd (span_dp vs i j k v0 v1 v2 N0 N1 N2)).
  - intros Hl Hs. apply (K3 Hl). intros [[i j] k] A Hd SA. apply span_inv in SA as (v0 & v1 & v2 & N0 & N1 & N2 & ->). exact (Hs i j k v0 v1 v2 Hd N0 N1 N2).
Qed.

(** outline() draws the boundary if, for every triangle and the first one, some sample of
    three of their different vertices [vs] spans a triangle of area at least 1e-6. *)
Lemma L_C118_outline : forall (la : linalg), linalg_ok la -> forall (q B : Z) (h : R) (c : tau) draws (o : obj4),
  (0 <= B)%Z -> (0 < q <= 20000000)%Z -> (B * q <= 10^14)%Z -> (3 * B <= 100 * q)%Z ->
  patch h o -> Forall (grids 6 q B) o -> done_name (concat o) -> (forall v, In v (concat o) -> nth_error v 5 = Some c) ->
  (forall e g, In e (edges_of 3 o) -> In g (edges_of 3 o) -> dpcentre e = dpcentre g \/ told_apart (dpcentre e) (dpcentre g)) ->
  (forall n t t0 vs, nth_error o (S n) = Some t -> nth_error o 0 = Some t0 -> md_remove_doubling_in_perp_space (A3 (t ++ t0)) = Ok vs ->
     Forall (valid_draw (length vs)) (draws (S n) 0%nat) /\
     exists i j k v0 v1 v2, In (i, j, k) (draws (S n) 0%nat) /\ nth_error vs i = Some v0 /\ nth_error vs j = Some v1 /\ nth_error vs k = Some v2 /\
       2/1000000 <= Rabs (det2 (sub3 (dp v1) (dp v0)) (sub3 (dp v2) (dp v0)))) ->
  exists r, md_outline (@Bmath la) draws o = Ok r /\ forall x, drawn r x <-> boundary h (dregion o) x.
Proof.
  intros la LA q B h c draws o PB Hq H1 H2 Pa G O L Hm Hd. apply (L_C117_outline la LA q B); try assumption.
  intros n t t0 Et E0. pose proof (nth_error_In _ _ Et) as It. pose proof (nth_error_In _ _ E0) as I0.
  assert (Gt : grids 6 q B (t ++ t0)) by (rewrite Forall_forall in G; apply Forall_app; split; [exact (G t It)|exact (G t0 I0)]).
  assert (Lt : forall v, In v (t ++ t0) -> nth_error v 5 = Some c) by (intros v Hv; apply L, in_concat; apply in_app_or in Hv as [Hv|Hv]; eauto).
  destruct (check_B (la := la) (LA := LA) q B PB Hq H1 H2 c t t0 Gt Lt) as (vs & Ev & _ & _ & _ & K). destruct (Hd n t t0 vs Et E0 Ev) as (V & i & j & k & v0 & v1 & v2 & Hin & N0 & N1 & N2 & A).
  destruct (K _ V) as (b & E & _ & K2 & _). rewrite (K2 (i, j, k) _ Hin (span_dp vs i j k v0 v1 v2 N0 N1 N2) A) in E. exact E.
Qed.

(** The triangle cut into two, with a sample of three vertices of one of the halves. *)
Example E_C118_ex : patch 0 halves /\ Forall (grids 6 1 2) halves /\ done_name (concat halves) /\ (forall v, In v (concat halves) -> nth_error v 5 = Some (T 0 0 1)) /\
  (forall e g, In e (edges_of 3 halves) -> In g (edges_of 3 halves) -> dpcentre e = dpcentre g \/ told_apart (dpcentre e) (dpcentre g)) /\
  (forall n t t0 vs, nth_error halves (S n) = Some t -> nth_error halves 0 = Some t0 -> md_remove_doubling_in_perp_space (A3 (t ++ t0)) = Ok vs ->
     Forall (valid_draw (length vs)) [(0, 1, 2)%nat] /\
     exists i j k v0 v1 v2, In (i, j, k) [(0, 1, 2)%nat] /\ nth_error vs i = Some v0 /\ nth_error vs j = Some v1 /\ nth_error vs k = Some v2 /\
       2/1000000 <= Rabs (det2 (sub3 (dp v1) (dp v0)) (sub3 (dp v2) (dp v0)))).
Proof.
  split; [exact halves_patch|]. split; [exact halves_grid|]. split; [exact halves_name|]. split; [|split; [exact halves_mids|]].
  - intros v Hv. cbn [halves concat app In] in Hv. repeat (destruct Hv as [<-|Hv]; [reflexivity|]). destruct Hv.
  - intros [|[|n]] t t0 vs E1 E2 Ev; try discriminate E1. injection E1 as <-. injection E2 as <-.
    assert (Ev' : md_remove_doubling_in_perp_space (A3 ([x2; x22; x3] ++ [o6; x2; x3])) = Ok [o6; x3; x2; x22]) by (vm_compute; reflexivity). rewrite Ev in Ev'. injection Ev' as ->.
    split; [apply Forall_cons; [cbn; lia|apply Forall_nil]|]. exists 0%nat, 1%nat, 2%nat, o6, x3, x2. split; [left; reflexivity|]. repeat (split; [reflexivity|]).
    hx. cbn. match goal with |- _ <= Rabs ?x => replace x with (-1) by field end. rewrite Rabs_left; lra.
Qed.
