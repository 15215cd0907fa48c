(** Flat dodecagonal objects with small coordinates computed in int64 and binary64: C121. *)
From Coq Require Import Reals List ZArith.
From Verif Require Import Base.Res Model.Tau Model.Arr Model.Num Model.DodeDedup Model.DodeIntersect Model.Numeric2 Model.IcoSurface Model.DodeSurface Model.MachineDodeInter Model.MachineDedup Model.MachineBorder Model.MachineOutline
  Spec.LinAlg Spec.Value Spec.RVec Spec.Shape Spec.Mean Spec.DodeSpec Spec.Sets Spec.Space Spec.Tetra Spec.Plane Spec.Surface Spec.Outline Spec.Grid Spec.SolidFloat Spec.Samples Spec.DodeSamples.
Import ListNotations.
Local Open Scope R_scope.

From Coq Require Import Lia Lra.
From Verif Require Import Proofs.GridDodeInter Proofs.P_DodeSurface Proofs.P_DodeSolidFloat Proofs.LinAlgLemmas Proofs.P_MachineOutline Proofs.P_MachineFlat Proofs.RingFloor3.

(** C121: when the coordinates, brought to a common denominator of at most 4000, have
    numerators up to 4, the midpoints of two edges are the same point or are told apart by
    the float64 comparison. *)
Lemma L_C121_midpoints : forall (q : Z) e g, (0 < q <= 4000)%Z -> grids 6 q 4 e -> grids 6 q 4 g -> length e = 2%nat -> length g = 2%nat ->
  dpcentre e = dpcentre g \/ told_apart (dpcentre e) (dpcentre g).
Proof. exact mids_told. Qed.

Lemma grids_up q B B' vs : (B <= B')%Z -> grids 6 q B vs -> grids 6 q B' vs.
Proof.
  intros H G. eapply Forall_impl; [|exact G]. intros v [L Gv]. split; [exact L|]. eapply Forall_impl; [|exact Gv]. intros x (Pq & k & E & Ha & Hb). split; [exact Pq|]. exists k. split; [exact E|]. lia.
Qed.
Lemma vertex_in q B (o : obj4) v : Forall (grids 6 q B) o -> In v (concat o) -> gridv 6 q B v.
Proof. intros F Hv. apply in_concat in Hv as (w & Hw & Hv). exact (proj1 (Forall_forall _ _) (proj1 (Forall_forall _ _) F w Hw) v Hv). Qed.
Lemma patch_told q o : (0 < q <= 4000)%Z -> tris o -> Forall (grids 6 q 4) o -> forall e g, In e (edges_of 3 o) -> In g (edges_of 3 o) -> dpcentre e = dpcentre g \/ told_apart (dpcentre e) (dpcentre g).
Proof.
  intros Hq T F. assert (P : forall e, In e (edges_of 3 o) -> length e = 2%nat /\ grids 6 q 4 e).
  { intros e He. change (In e (concat (map tri_edges o))) in He. apply in_concat in He as (l & Hl & He). apply in_map_iff in Hl as (f & <- & Hf).
    unfold tris in T. destruct (proj1 (Forall_forall _ _) T f Hf) as [L _]. pose proof (proj1 (Forall_forall _ _) F f Hf) as G. unfold grids in *. rewrite Forall_forall in G.
    destruct f as [|a [|b [|c [|]]]]; try discriminate L. cbn in He.
    destruct He as [<-|[<-|[<-|[]]]]; (split; [reflexivity|]); apply Forall_forall; intros v Hv; apply G; cbn in *; tauto. }
  intros e g He Hg. destruct (P e He) as [Le Ge]. destruct (P g Hg) as [Lg Gg]. exact (mids_told q e g Hq Ge Gg Le Lg).
Qed.

(** So the border edges found in int64 and float64 draw the boundary of a flat edge-to-edge
    object with such coordinates, with no condition on the midpoints. *)
Lemma L_C121_boundary : forall (la : linalg) (q : Z) (h : R) (o : obj4),
  (0 < q <= 4000)%Z -> tris o -> Forall (grids 6 q 4) o -> level h (concat o) -> (forall t, In t o -> parea t <> 0) -> edge_to_edge (map (map dp) o) -> done_name (concat o) ->
  exists r, md_gen_border_edges_of_coplanar_triangles (@Bmath la) o = Ok r /\ forall x, drawn r x <-> boundary h (dregion o) x.
Proof.
  intros la q h o Hq T F Le NF EE O. apply (L_C116_boundary la q 4 h o); try assumption; try lia. exact (patch_told q o Hq T F).
Qed.

(** outline() draws the boundary of a flat object with a common denominator q and numerators
    up to B, q B at most 3, if for every triangle and the first one some sample of three of
    their different vertices [vs] is not on one line. *)
Lemma L_C121_outline : forall (la : linalg), linalg_ok la -> forall (q B : Z) (h : R) (c : tau) draws (o : obj4),
  (0 <= B)%Z -> (0 < q <= 4000)%Z -> (q * B <= 3)%Z ->
  patch h o -> Forall (grids 6 q B) o -> done_name (concat o) -> (forall v, In v (concat o) -> nth_error v 5 = Some c) ->
  (forall n t t0 vs, nth_error o (S n) = Some t -> nth_error o 0 = Some t0 -> md_remove_doubling_in_perp_space (A3 (t ++ t0)) = Ok vs ->
     Forall (valid_draw (length vs)) (draws (S n) 0%nat) /\
     exists i j k v0 v1 v2, In (i, j, k) (draws (S n) 0%nat) /\ nth_error vs i = Some v0 /\ nth_error vs j = Some v1 /\ nth_error vs k = Some v2 /\
       det2 (sub3 (dp v1) (dp v0)) (sub3 (dp v2) (dp v0)) <> 0) ->
  exists r, md_outline (@Bmath la) draws o = Ok r /\ forall x, drawn r x <-> boundary h (dregion o) x.
Proof.
  intros la LA q B h c draws o PB Hq Hm P F O C S.
  assert (F4 : Forall (grids 6 q 4) o) by (eapply Forall_impl; [|exact F]; intros t; apply grids_up; nia).
  assert (T : tris o) by apply P.
  apply (L_C118_outline la LA q B h c draws o); try assumption; try nia; [exact (patch_told q o Hq T F4)|].
  intros n t t0 vs E1 E2 Ev. destruct (S n t t0 vs E1 E2 Ev) as (Vd & i & j & k & v0 & v1 & v2 & Hin & H0 & H1 & H2 & N). split; [exact Vd|].
  exists i, j, k, v0, v1, v2. repeat (split; [assumption|]).
  assert (G : grids 6 q B (t ++ t0)) by (unfold grids; apply Forall_app; split; [exact (proj1 (Forall_forall _ _) F t (nth_error_In _ _ E1))|exact (proj1 (Forall_forall _ _) F t0 (nth_error_In _ _ E2))]).
  destruct (ddedup_eq q B (t ++ t0) (A3 (t ++ t0)) (or_introl eq_refl) PB ltac:(lia) ltac:(lia) ltac:(lia) G) as (vs' & E' & _ & I & _). rewrite Ev in E'. injection E' as <-.
  assert (Gv : forall v m, nth_error vs m = Some v -> gridv 6 q B v) by (intros v m E; exact (proj1 (Forall_forall _ _) G v (I v (nth_error_In _ _ E)))).
  apply (det_big q B); [exact PB|lia|exact Hm|exact (Gv _ _ H0)|exact (Gv _ _ H1)|exact (Gv _ _ H2)|exact N].
Qed.

(** The triangle cut into two, with a sample of three vertices of one of the halves. *)
Example E_C121_ex : tris halves /\ Forall (grids 6 1 4) halves /\ patch 0 halves /\ Forall (grids 6 1 2) halves /\ done_name (concat halves) /\ (forall v, In v (concat halves) -> nth_error v 5 = Some (T 0 0 1)) /\
  (forall n t t0 vs, nth_error halves (S n) = Some t -> nth_error halves 0 = Some t0 -> md_remove_doubling_in_perp_space (A3 (t ++ t0)) = Ok vs ->
     Forall (valid_draw (length vs)) [(0, 1, 2)%nat] /\
     exists i j k v0 v1 v2, In (i, j, k) [(0, 1, 2)%nat] /\ nth_error vs i = Some v0 /\ nth_error vs j = Some v1 /\ nth_error vs k = Some v2 /\
       det2 (sub3 (dp v1) (dp v0)) (sub3 (dp v2) (dp v0)) <> 0) /\
  exists r, md_outline Bnum (fun _ _ => [(0, 1, 2)%nat]) halves = Ok r /\ forall x, drawn r x <-> boundary 0 (dregion halves) x.
Proof.
  destruct E_C118_ex as (P & F & O & C & _ & Sm).
  assert (S' : forall n t t0 vs, nth_error halves (S n) = Some t -> nth_error halves 0 = Some t0 -> md_remove_doubling_in_perp_space (A3 (t ++ t0)) = Ok vs ->
     Forall (valid_draw (length vs)) [(0, 1, 2)%nat] /\
     exists i j k v0 v1 v2, In (i, j, k) [(0, 1, 2)%nat] /\ nth_error vs i = Some v0 /\ nth_error vs j = Some v1 /\ nth_error vs k = Some v2 /\
       det2 (sub3 (dp v1) (dp v0)) (sub3 (dp v2) (dp v0)) <> 0).
  { intros n t t0 vs E1 E2 Ev. destruct (Sm n t t0 vs E1 E2 Ev) as (Vd & i & j & k & v0 & v1 & v2 & Hin & H0 & H1 & H2 & N). split; [exact Vd|].
    exists i, j, k, v0, v1, v2. repeat (split; [assumption|]). intros Z. rewrite Z, Rabs_R0 in N. lra. }
  split; [apply P|]. split; [eapply Forall_impl; [|exact F]; intros t; apply grids_up; lia|]. split; [exact P|]. split; [exact F|]. split; [exact O|]. split; [exact C|]. split; [exact S'|].
  exact (L_C121_outline textbook textbook_ok 1 2 0 (T 0 0 1) (fun _ _ => [(0, 1, 2)%nat]) halves ltac:(lia) ltac:(lia) ltac:(lia) P F O C S').
Qed.
