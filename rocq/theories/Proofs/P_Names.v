(** When every vertex is written in one way; surfaces and boundaries of objects with small
    coordinates in lowest terms: C122. *)
From Coq Require Import Reals List ZArith.
From Verif Require Import Base.Res Model.Tau Model.Arr Model.Num Model.MachineInter Model.MachineDodeInter Model.IcoDedup Model.IcoSurface Model.MachineDedup Model.MachineBorder
  Spec.LinAlg Spec.Value Spec.RVec Spec.Shape Spec.Mean Spec.IcoSpec Spec.DodeSpec Spec.Sets Spec.Space Spec.Tetra Spec.Plane Spec.Surface Spec.Region Spec.Solid Spec.Outline Spec.Edges Spec.Grid Spec.SolidFloat Spec.Samples Spec.DodeSamples.
Import ListNotations.
Local Open Scope R_scope.

From Coq Require Import Lia Lra.
From Verif Require Import Proofs.DedupLemmas Proofs.DodeDedupLemmas Proofs.P_SmallSolid Proofs.P_SmallPatch.
From Verif Require Spec.Convex Proofs.IcoProj Proofs.DodeProj Proofs.P_Edges Proofs.P_MachineFlat Proofs.P_MachineOutline.

Lemma rat w v : canonv v -> Forall (fun t => tb t = 0%Z) v -> Forall rational (vals w v).
Proof.
  intros C F. apply Forall_forall. intros y Hy. apply in_map_iff in Hy as (t & <- & Ht). destruct (proj1 (Forall_forall _ _) C t Ht) as [Pc _].
  exists (ta t), (tc t). split; [lia|]. unfold val. rewrite (proj1 (Forall_forall _ _) F t Ht). unfold Rdiv. ring.
Qed.
Lemma par_perp_inj x y : length x = 6%nat -> length y = 6%nat -> par x = par y -> perp x = perp y -> x = y.
Proof.
  intros Lx Ly H K. destruct x as [|x0 [|x1 [|x2 [|x3 [|x4 [|x5 [|]]]]]]]; try discriminate Lx. destruct y as [|y0 [|y1 [|y2 [|y3 [|y4 [|y5 [|]]]]]]]; try discriminate Ly.
  unfold par, perp, par_rows, perp_rows, matvec, dot in H, K. cbn in H, K. injection H as A1 A2 A3. injection K as B1 B2 B3.
  assert (E : [x0 - y0; x1 - y1; x2 - y2; x3 - y3; x4 - y4; x5 - y5] = [0; 0; 0; 0; 0; 0]).
  { apply IcoProj.proj_injective; [reflexivity| |]; unfold par, perp, par_rows, perp_rows, matvec, dot; cbn; (apply f_equal2; [lra|]; apply f_equal2; [lra|]; apply f_equal2; [lra|reflexivity]). }
  injection E as E0 E1 E2 E3 E4 E5. repeat (apply f_equal2; [lra|]). reflexivity.
Qed.

(** C122: vertices in lowest terms, all with rational coordinates or all with the same part in
    parallel space: every vertex is written in one way. *)
Lemma L_C122_names : forall vs, Forall (fun v => length v = 6%nat /\ canonv v) vs ->
  Forall (Forall (fun t => tb t = 0%Z)) vs \/ (forall u v, In u vs -> In v vs -> par (vals TAU u) = par (vals TAU v)) -> one_name vs.
Proof.
  intros vs F H u v Hu Hv E. destruct (proj1 (Forall_forall _ _) F u Hu) as [Lu Cu]. destruct (proj1 (Forall_forall _ _) F v Hv) as [Lv Cv].
  apply (vals_inj u v Cu Cv). destruct H as [H|H].
  - apply IcoProj.perp_rational_inj; [unfold vals; rewrite map_length; exact Lu|unfold vals; rewrite map_length; exact Lv| | |exact E]; apply rat; try assumption; [exact (proj1 (Forall_forall _ _) H u Hu)|exact (proj1 (Forall_forall _ _) H v Hv)].
  - apply par_perp_inj; [unfold vals; rewrite map_length; exact Lu|unfold vals; rewrite map_length; exact Lv|exact (H u v Hu Hv)|exact E].
Qed.
(** In dode2 the fifth coordinate, which is not seen in perpendicular space, must also be the
    same for all vertices. *)
Lemma L_C122_dode_names : forall vs, Forall (fun v => length v = 6%nat /\ canonv v) vs ->
  Forall (Forall (fun t => tb t = 0%Z)) vs /\ (forall u v, In u vs -> In v vs -> nth_error u 4 = nth_error v 4) \/
  (forall u v, In u vs -> In v vs -> dpar (vals SIN u) = dpar (vals SIN v)) -> done_name vs.
Proof.
  intros vs F H u v Hu Hv E. destruct (proj1 (Forall_forall _ _) F u Hu) as [Lu Cu]. destruct (proj1 (Forall_forall _ _) F v Hv) as [Lv Cv].
  apply (dvals_inj u v Cu Cv). destruct H as [[H H5]|H].
  - assert (Lu' : length (vals SIN u) = 6%nat) by (unfold vals; rewrite map_length; exact Lu). assert (Lv' : length (vals SIN v) = 6%nat) by (unfold vals; rewrite map_length; exact Lv).
    destruct (proj1 (DodeProj.dperp_rational_inj (vals SIN u) (vals SIN v) Lu' Lv' (rat SIN u Cu (proj1 (Forall_forall _ _) H u Hu)) (rat SIN v Cv (proj1 (Forall_forall _ _) H v Hv))) E) as [E4 E6].
    specialize (H5 u v Hu Hv). destruct u as [|u0 [|u1 [|u2 [|u3 [|u4 [|u5 [|]]]]]]]; try discriminate Lu. destruct v as [|v0 [|v1 [|v2 [|v3 [|v4 [|v5 [|]]]]]]]; try discriminate Lv.
    cbn in *. injection E4 as -> -> -> ->. injection H5 as ->. rewrite E6. reflexivity.
  - apply DodeProj.dproj_injective; [unfold vals; rewrite map_length; exact Lu|unfold vals; rewrite map_length; exact Lv|exact (H u v Hu Hv)|exact E].
Qed.

(** So the surface of a face-to-face solid whose coordinates are rational numbers in lowest
    terms with a common denominator up to 5000 and numerators (on that denominator) up to 6
    is computed right in int64 and float64 ... *)
Lemma L_C122_surface : forall (la : linalg) (q : Z) (o : obj4),
  (0 < q <= 5000)%Z -> o <> [] -> Forall (fun t => length t = 4%nat /\ grids 6 q 6 t) o -> Forall canonv (concat o) -> Forall (Forall (fun t => tb t = 0%Z)) (concat o) ->
  (forall t, In t o -> pvol t <> 0) -> face_to_face (map (map pp) o) ->
  exists s, m_generator_surface_1 (@Bmath la) o = Ok s /\ NoDup s /\ incl s (all_faces o) /\ forall x, skin s x <-> boundary3 (region o) x.
Proof.
  intros la q o Hq Ne F C R NF FF. apply (L_C120_surface la q o Hq Ne F); try assumption. apply L_C122_names; [|left; exact R].
  apply Forall_forall. intros v Hv. split; [exact (proj1 (vertex_grid q o F v Hv))|exact (proj1 (Forall_forall _ _) C v Hv)].
Qed.
(** ... and so is the boundary of a flat edge-to-edge dodecagonal object whose vertices have
    the same fifth coordinate. *)
Lemma L_C122_boundary : forall (la : linalg) (q : Z) (h : R) (o : obj4),
  (0 < q <= 4000)%Z -> tris o -> Forall (grids 6 q 4) o -> Forall canonv (concat o) -> Forall (Forall (fun t => tb t = 0%Z)) (concat o) ->
  (forall u v, In u (concat o) -> In v (concat o) -> nth_error u 4 = nth_error v 4) ->
  level h (concat o) -> (forall t, In t o -> parea t <> 0) -> edge_to_edge (map (map dp) o) ->
  exists r, md_gen_border_edges_of_coplanar_triangles (@Bmath la) o = Ok r /\ forall x, drawn r x <-> boundary h (dregion o) x.
Proof.
  intros la q h o Hq T F C R E5 Le NF EE. apply (L_C121_boundary la q h o Hq T F Le NF EE). apply L_C122_dode_names; [|left; split; [exact R|exact E5]].
  apply Forall_forall. intros v Hv. split; [exact (proj1 (vertex_in q 4 o v F Hv))|exact (proj1 (Forall_forall _ _) C v Hv)].
Qed.

(** The two tetrahedra of [cut] and the two triangles of [halves] meet the conditions. *)
Example E_C122_ex : (cut <> [] /\ Forall (fun t => length t = 4%nat /\ grids 6 1 6 t) cut /\ Forall canonv (concat cut) /\ Forall (Forall (fun t => tb t = 0%Z)) (concat cut) /\
    (forall t, In t cut -> pvol t <> 0) /\ face_to_face (map (map pp) cut)) /\
  (tris halves /\ Forall (grids 6 1 4) halves /\ Forall canonv (concat halves) /\ Forall (Forall (fun t => tb t = 0%Z)) (concat halves) /\
    (forall u v, In u (concat halves) -> In v (concat halves) -> nth_error u 4 = nth_error v 4) /\
    level 0 (concat halves) /\ (forall t, In t halves -> parea t <> 0) /\ edge_to_edge (map (map dp) halves)).
Proof.
  split.
  - destruct P_Edges.cut_solid as (Ne & _ & NF & FF & _). split; [exact Ne|]. split; [exact cut_grid6|]. split; [|split; [|split; [exact NF|exact FF]]].
    + unfold cut, Convex.at3; cbn [concat app]. repeat (apply Forall_cons; [repeat (apply Forall_cons; [split; [cbn; lia|reflexivity]|]); apply Forall_nil|]). apply Forall_nil.
    + unfold cut, Convex.at3; cbn [concat app]. repeat (apply Forall_cons; [repeat (apply Forall_cons; [reflexivity|]); apply Forall_nil|]). apply Forall_nil.
  - destruct E_C121_ex as (Tr & F & P & _). split; [exact Tr|]. split; [exact F|]. split; [|split; [|split; [|split; [apply P|split; apply P]]]].
    + unfold halves. cbn [concat app]. repeat (apply Forall_cons; [repeat (apply Forall_cons; [split; [cbn; lia|reflexivity]|]); apply Forall_nil|]). apply Forall_nil.
    + unfold halves. cbn [concat app]. repeat (apply Forall_cons; [repeat (apply Forall_cons; [reflexivity|]); apply Forall_nil|]). apply Forall_nil.
    + intros u v Hu Hv. cbn [halves concat app In] in Hu, Hv. transitivity (Some (T 0 0 1)); [|symmetry];
      [repeat (destruct Hu as [<-|Hu]; [reflexivity|]); destruct Hu|repeat (destruct Hv as [<-|Hv]; [reflexivity|]); destruct Hv].
Qed.
