(** Simplification by the convex hull: C43. *)
From Coq Require Import Reals List ZArith Bool Lia Lra.
From Verif Require Import Base.Res Model.Tau Model.Arr Model.Num Model.IcoVolume Model.IcoIntersect Model.DodeArea Model.Simplify
  Spec.Value Spec.RVec Spec.Shape Spec.Geometry Spec.IcoSpec Spec.DodeSpec Spec.Sets Spec.Space Spec.Samples Spec.Region.
Import ListNotations.
Local Open Scope R_scope.

From Verif Require Import Model.Xyz Proofs.ResLemmas Proofs.ValueLemmas Proofs.Irrational Proofs.DedupLemmas Proofs.IcoVolumeLemmas Proofs.DodeAreaLemmas Proofs.XyzLemmas Proofs.P_Volume.

Lemma same_volume_ok w a b : irrational w -> canon a -> canon b -> (same_volume (Some a) (Some b) = true <-> val w a = val w b).
Proof.
  intros I Ca Cb. cbn [same_volume]. rewrite tau_eqb_eq. split; [intros ->; reflexivity|]. apply (canon_val_eq w); assumption.
Qed.
Lemma bool_case (b : bool) (P : Prop) (A : Type) (x y : A) : (b = true <-> P) -> (P -> (if b then x else y) = x) /\ (~ P -> (if b then x else y) = y).
Proof. intros H. destruct b; split; intros Q; try reflexivity; exfalso; [apply Q, H; reflexivity|apply H in Q; discriminate]. Qed.

(** C43: whatever the hull h and the intersection t are, the decision depends on their
    volumes only: h if the total volume of t is that of the object, else the object. *)
Lemma L_C43_decision : forall hull inter o h t, o <> [] -> tets o -> hull o = Ok (Some h) -> inter h o = Ok (Some t) -> tets t ->
  (Rsum (map pvol t) = Rsum (map pvol o) -> simplification_ volume hull inter (Some o) = Ok (Some h)) /\
  (Rsum (map pvol t) <> Rsum (map pvol o) -> simplification_ volume hull inter (Some o) = Ok (Some o)).
Proof.
  intros hull inter o h t N To Eh Et Tt. unfold simplification_.
  rewrite (all_none_some o 4); [|exact N|lia|eapply Forall_impl; [|exact To]; intros x Hx; apply Hx|eapply Forall_impl; [|exact To]; intros x Hx; apply Hx].
  destruct (L_C16_sum o To) as (v0 & E0 & C0 & V0). destruct (L_C16_sum t Tt) as (v1 & E1 & C1 & V1).
  rewrite E0. cbn [bind]. rewrite Eh. cbn [bind notNone]. rewrite Et. cbn [bind]. rewrite E1. cbn [bind].
  destruct (bool_case _ _ _ h o (same_volume_ok TAU v0 v1 TAU_irrational C0 C1)) as [P Q]. rewrite V0, V1 in P, Q.
  split; intros E; [rewrite P by (symmetry; exact E)|rewrite Q by (intros E'; apply E; symmetry; exact E')]; reflexivity.
Qed.

(** The object lies inside its hull, and a correct intersection with a larger object
    keeps the volume.  Hence, with a correct hull and intersection, the hull is returned
    for every object, convex or not. *)
Lemma L_C43_always_hull : forall hull inter o h, o <> [] -> tets o -> hull o = Ok (Some h) ->
  (forall p, region o p -> region h p) ->
  (forall a b, tets b -> (forall p, region b p -> region a p) -> exists t, inter a b = Ok (Some t) /\ tets t /\ Rsum (map pvol t) = Rsum (map pvol b)) ->
  simplification_ volume hull inter (Some o) = Ok (Some h).
Proof.
  intros hull inter o h N To Eh Sub Hi. destruct (Hi h o To Sub) as (t & Et & Tt & V).
  apply (proj1 (L_C43_decision hull inter o h t N To Eh Et Tt)), V.
Qed.

(** No object, no volume. *)
Lemma L_C43_empty : forall vol hull inter, simplification_ vol hull inter None = Ok None /\ simplification_ vol hull inter (Some []) = Ok None.
Proof. intros. split; reflexivity. Qed.

(** The volume is not preserved: with the actual hull and intersection in double
    precision, and a correct triangulation of the five vertices, this object of two
    tetrahedra is replaced by one with 3/2 of its volume. *)
Definition triangulate (p : list (list (F Bnum))) : option (list simplex) :=
  if Nat.eqb (length p) 5 then Some [(2,4,0,3);(2,4,0,1);(2,0,3,1)]%nat else Some [(0,1,2,3)]%nat.
Lemma L_C43_volume_refuted : exists o delaunay draws h v w, tets o /\
  simplification Bnum delaunay draws draws (Some o) = Ok (Some h) /\
  volume (A4 o) = Ok (Some v) /\ volume (A4 h) = Ok (Some w) /\ val TAU w = 3 / 2 * val TAU v /\ 0 < val TAU v.
Proof.
  exists dented, triangulate, (fun _ _ => [(0,1,2);(0,1,3)]%nat), dented_hull, (T 2 2 3), (T 1 1 1).
  split; [repeat (apply Forall_cons || apply Forall_nil || split); try reflexivity; unfold wf; cbn; lia|].
  split; [vm_cast_no_check (eq_refl (@Ok (option obj4) (Some dented_hull)))|].
  split; [vm_compute; reflexivity|]. split; [vm_compute; reflexivity|]. unfold val. cbn [ta tb tc].
  pose proof TAU_bounds. split; lra.
Qed.

(** dode2: the same with areas. *)
Lemma L_C43_dode_decision : forall hull inter o h t, o <> [] -> tris o -> hull o = Ok (Some h) -> inter h o = Ok (Some t) -> tris t ->
  (Rsum (map parea t) = Rsum (map parea o) -> simplification_ dvolume hull inter (Some o) = Ok (Some h)) /\
  (Rsum (map parea t) <> Rsum (map parea o) -> simplification_ dvolume hull inter (Some o) = Ok (Some o)).
Proof.
  intros hull inter o h t N To Eh Et Tt. unfold simplification_.
  rewrite (all_none_some o 3); [|exact N|lia|eapply Forall_impl; [|exact To]; intros x Hx; apply Hx|eapply Forall_impl; [|exact To]; intros x Hx; apply Hx].
  pose proof (obj_area_spec o To) as S0. apply wp_elim in S0 as (x0 & E0 & v0 & -> & C0 & V0).
  pose proof (obj_area_spec t Tt) as S1. apply wp_elim in S1 as (x1 & E1 & v1 & -> & C1 & V1).
  change (dvolume (A4 o)) with (obj_area_6d (A4 o)). rewrite E0. cbn [bind]. rewrite Eh. cbn [bind notNone]. rewrite Et. cbn [bind].
  change (dvolume (A4 t)) with (obj_area_6d (A4 t)). rewrite E1. cbn [bind].
  destruct (bool_case _ _ _ h o (same_volume_ok SIN v0 v1 SIN_irrational C0 C1)) as [P Q]. rewrite V0, V1 in P, Q.
  split; intros E; [rewrite P by (symmetry; exact E)|rewrite Q by (intros E'; apply E; symmetry; exact E')]; reflexivity.
Qed.

Example E_C43_ex : tets dented /\ (forall p, region dented p -> region dented_hull p) /\ dented <> [] /\
  simplification_ volume (fun _ => Ok (Some [tetA])) (fun _ o => Ok (Some o)) (Some dented) = Ok (Some [tetA]) /\
  simplification_ volume (fun _ => Ok (Some [tetA])) (fun h _ => Ok (Some h)) (Some dented) = Ok (Some dented).
Proof.
  split; [repeat (apply Forall_cons || apply Forall_nil || split); try reflexivity; unfold wf; cbn; lia|].
  split; [intros p (t & It & H); exists t; split; [destruct It as [E|[E|[]]]; rewrite <- E; cbn; auto|exact H]|]. split; [discriminate|].
  split; vm_compute; reflexivity.
Qed.
