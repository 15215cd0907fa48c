(** The surface of a solid (ico2/utils.py generator_surface_1): C90. *)
From Coq Require Import Reals List ZArith Lia Lra Bool.
From Verif Require Import Base.Res Model.Tau Model.Arr Model.Num Model.IcoSurface
  Spec.Value Spec.RVec Spec.Shape Spec.Mean Spec.IcoSpec Spec.Sets Spec.Space Spec.Region Spec.Surface Spec.Solid Spec.Samples.
Import ListNotations.
Local Open Scope R_scope.

From Verif Require Import Proofs.Irrational Proofs.NumLemmas Proofs.Polytope Proofs.OverlapLemmas Proofs.P_Intersect Proofs.P_Surface Proofs.P_Overlap Proofs.Frontier3 Proofs.SolidLemmas.

(** C90: in exact arithmetic, the triangles returned for a face-to-face object cover
    exactly the topological boundary of the region it occupies. *)
Lemma L_C90_surface : forall o, solid o ->
  exists r, generator_surface_1 Rnum o = Ok r /\ NoDup r /\ incl r (all_faces o) /\ forall x, skin r x <-> boundary3 (region o) x.
Proof.
  intros o S. destruct (surface_boundary o S) as (r & E & ND & H & B). exists r. split; [exact E|]. split; [exact ND|]. split; [intros f Hf; apply H, Hf|exact B].
Qed.

Ltac ptp := unfold ppoint, o6, x1, x2, x3, x4, x6, e6, x1k, mx1, mx3, iv; cbn; unfold val; cbn [ta tb tc]; apply f_equal2; [|apply f_equal2; [|apply f_equal2; [|reflexivity]]]; field [TAU_sq].
Lemma q0 : ppoint o6 = [0; 0; 0]. Proof. ptp. Qed.
Lemma q1 : ppoint x1 = [TAU; -1; 0]. Proof. ptp. Qed.
Lemma q2 : ppoint x2 = [-1; 0; TAU]. Proof. ptp. Qed.
Lemma q4 : ppoint x4 = [0; TAU; 1]. Proof. ptp. Qed.
Lemma qe : ppoint e6 = [-TAU; 1 - TAU; -1]. Proof. ptp. Qed.
Lemma qm1 : ppoint mx1 = [-TAU; 1; 0]. Proof. ptp. Qed.
Lemma q3 : ppoint x3 = [-1; 0; -TAU]. Proof. ptp. Qed.
Lemma qm3 : ppoint mx3 = [1; 0; TAU]. Proof. ptp. Qed.
Lemma pp_of v a b c : ppoint v = [a; b; c] -> pp v = (a, b, c).
Proof. unfold ppoint, pp. intros ->. reflexivity. Qed.
Ltac pps := rewrite ?(pp_of _ _ _ _ q0), ?(pp_of _ _ _ _ q1), ?(pp_of _ _ _ _ q2), ?(pp_of _ _ _ _ q3), ?(pp_of _ _ _ _ q4), ?(pp_of _ _ _ _ qe), ?(pp_of _ _ _ _ qm1), ?(pp_of _ _ _ _ qm3).
Ltac centres := intros f g Hf Hg; cbn [all_faces map tet_faces concat app In] in Hf, Hg; unfold pcentre;
  repeat (destruct Hf as [<-|Hf]; [|]); try (destruct Hf); repeat (destruct Hg as [<-|Hg]; [|]); try (destruct Hg);
  first [left; cbn [map]; rewrite ?ppoint_x1k; reflexivity
        | right; cbn [map]; rewrite ?ppoint_x1k, ?q0, ?q1, ?q2, ?q3, ?q4, ?qe, ?qm1, ?qm3; unfold mean, zerov; cbn [vsum vadd vscale map length repeat INR];
          cbn; first [eapply (apart_easy _ _ 0); [reflexivity|reflexivity|lra|lra|lra]
          | eapply (apart_easy _ _ 1); [reflexivity|reflexivity|lra|lra|lra] | eapply (apart_easy _ _ 2); [reflexivity|reflexivity|lra|lra|lra]]].
Lemma dented_solid : solid dented.
Proof.
  pose proof TAU_bounds as TB. pose proof TAU_sq as TS.
  assert (NA : ~ flat4 (pp o6) (pp x1) (pp x2) (pp x4)) by (unfold flat4; pps; cbn; nra).
  assert (NE : ~ flat4 (pp o6) (pp x1) (pp x2) (pp e6)) by (unfold flat4; pps; cbn; nra).
  split; [discriminate|]. split; [unfold dented, e6; gd|]. split.
  - intros t [<-|[<-|[]]]; apply pvol_flat; assumption.
  - split; [apply glued; [exact NA|exact NE|pps; cbn; nra]|]. unfold dented. centres.
Qed.
(** A dent: two tetrahedra glued along a face; six faces remain. *)
Example E_C90_ex : solid dented /\ exists r, generator_surface_1 Bnum dented = Ok r /\ length r = 6%nat /\ ~ In [o6; x1; x2] r.
Proof.
  split; [exact dented_solid|]. destruct (generator_surface_1 Bnum dented) as [r|] eqn:E; [|vm_compute in E; discriminate]. exists r. split; [reflexivity|]. vm_compute in E. injection E as <-.
  split; [reflexivity|]. intros H. cbn in H. repeat (destruct H as [H|H]; [discriminate H|]). exact H.
Qed.

(** In binary64 it fails: a vertex of the common face of two tetrahedra is written with
    different 6-d coordinates, and the common face is returned although it lies inside. *)
Lemma pp_x1k : pp x1k = pp x1. Proof. apply pp_iff, ppoint_x1k. Qed.
Lemma L_C90_binary64_refuted : exists o r x, solid o /\ generator_surface_1 Bnum o = Ok r /\ skin r x /\ ~ boundary3 (region o) x.
Proof.
  pose proof TAU_bounds as TB. pose proof TAU_sq as TS.
  set (o := [[x1; mx1; x2; mx3]; [x1k; mx1; x2; x3]]).
  assert (N1 : ~ flat4 (pp x1) (pp mx1) (pp x2) (pp mx3)) by (unfold flat4; pps; cbn; nra).
  assert (N2 : ~ flat4 (pp x1) (pp mx1) (pp x2) (pp x3)) by (unfold flat4; pps; cbn; nra).
  assert (S : solid o).
  { split; [discriminate|]. split; [unfold o; gd|]. split.
    - intros t [<-|[<-|[]]]; apply pvol_flat; rewrite ?pp_x1k; assumption.
    - split; [unfold o; cbn [map]; rewrite pp_x1k; apply glued; [exact N1|exact N2|pps; cbn; nra]|]. unfold o. centres. }
  destruct (generator_surface_1 Bnum o) as [r|] eqn:E; [|vm_compute in E; discriminate].
  exists o, r, (mid3 (pp x1) (pp mx1) (pp x2)). split; [exact S|]. split; [exact E|]. 
  assert (I : In [x1; mx1; x2] r) by (vm_compute in E; injection E as <-; vm_compute; tauto).
  split; [exists [x1; mx1; x2]; split; [exact I|apply relint_hull, mid3_relint]|].
  intros B. destruct S as (_ & To & NF & FF & _). apply (boundary_faces o To NF FF) in B as (f & If & On & Hx).
  assert (Nb : nb3 (mid3 (pp x1) (pp mx1) (pp x2)) (reg3 (map (map pp) o))).
  { destruct (nonflat_apex _ _ _ _ N1) as (m1 & m2 & m3 & _).
    apply (shared_inner3 _ (tetrs o To NF) FF (map pp [x1; mx1; x2; mx3]) (pp x1) (pp mx1) (pp x2)); try assumption; [left; reflexivity|cbn [map In]; auto..|apply mid3_relint|].
    intros (i & t & Ei & _ & _ & _ & _ & _ & _ & U). assert (E0 : 0%nat = i) by (apply (U 0%nat (map pp [x1; mx1; x2; mx3])); [reflexivity|cbn [map In]; auto..]).
    assert (E1 : 1%nat = i) by (apply (U 1%nat (map pp [x1k; mx1; x2; x3])); [reflexivity|cbn [map In]; rewrite ?pp_x1k; auto..]). congruence. }
  apply In_nth_error in If as (n & En). unfold all_faces in En. destruct (face_pos_inv o (len4 o To) n f En) as (i & t & k & Ei & Hk & -> & Ek).
  destruct (face_ends _ _ _ Ek) as (u & v & w & -> & _). apply (once_lone o To NF i t k u v w Ei Ek) in On.
  exact (lone_outer3 _ (tetrs o To NF) FF _ _ _ _ On Hx Nb).
Qed.
