(** The edges of the tetrahedra of a solid: C123. *)
From Coq Require Import Reals List ZArith.
From Verif Require Import Base.Res Model.Tau Model.Arr Model.Num Model.IcoNumeric Model.IcoDedup Model.IcoSurface Model.MachineDedup Model.MachineBorder
  Spec.LinAlg Spec.Value Spec.RVec Spec.Shape Spec.Mean Spec.IcoSpec Spec.Sets Spec.Space Spec.Tetra Spec.Surface Spec.Region Spec.Solid Spec.Outline Spec.Edges Spec.Grid Spec.SolidFloat Spec.Samples.
Import ListNotations.
Local Open Scope R_scope.

From Coq Require Import Lia Lra.
From Verif Require Import Proofs.Polytope Proofs.Frontier Proofs.Frontier3 Proofs.SurfaceLemmas Proofs.SolidFloat Proofs.SolidLemmas Proofs.EdgeLemmas Proofs.P_SolidFloat Proofs.RingFloor Proofs.P_SmallSolid.
From Verif Require Proofs.P_Edges Proofs.P_MachineEdges.

Lemma tet_edge_in o e : Forall (fun t : vecs => length t = 4%nat /\ goods 6 t) o -> In e (edges_of 4 o) ->
  exists t u v, In t o /\ e = [u; v] /\ In u t /\ In v t /\ (NoDup (map pp t) -> pp u <> pp v).
Proof.
  intros F He. change (In e (concat (map tet_edges o))) in He. apply in_concat in He as (l & Hl & He). apply in_map_iff in Hl as (t & <- & Ht).
  destruct (proj1 (Forall_forall _ _) F t Ht) as [L _]. destruct t as [|a [|b [|c [|d [|]]]]]; try discriminate L. exists [a; b; c; d].
  cbn [tet_edges In] in He. destruct He as [<-|[<-|[<-|[<-|[<-|[<-|[]]]]]]]; do 2 eexists; (split; [exact Ht|]); (split; [reflexivity|]); (split; [cbn; tauto|]); (split; [cbn; tauto|]);
    cbn [map]; intros N; rewrite !NoDup_cons_iff in N; cbn [In] in N; intros E; intuition congruence.
Qed.
Section Mid.
Variable o : obj4.
Hypothesis To : Forall (fun t : vecs => length t = 4%nat /\ goods 6 t) o.
Hypothesis NF : forall t, In t o -> pvol t <> 0.
Hypothesis FF : face_to_face (map (map pp) o).
Lemma half_in t w u v u' v' : In t o -> In w o -> In u t -> In v t -> In u' w -> In v' w -> pp u <> pp v -> line (1/2) (pp u') (pp v') = line (1/2) (pp u) (pp v) ->
  In (pp u) [pp u'; pp v'] /\ In (pp v) [pp u'; pp v'].
Proof.
  intros Ht Hw Iu Iv Iu' Iv' N E. apply In_nth_error in Ht as (a & Ea). apply In_nth_error in Hw as (b & Eb).
  set (x := line (1/2) (pp u) (pp v)) in *.
  assert (Hx : hull [pp u; pp v] x) by apply half_hull3. assert (Hx' : hull [pp u'; pp v'] x) by (rewrite <- E; apply half_hull3).
  assert (I1 : incl [pp u; pp v] (map pp t)) by (intros y [<-|[<-|[]]]; apply in_map; assumption).
  assert (I2 : incl [pp u'; pp v'] (map pp w)) by (intros y [<-|[<-|[]]]; apply in_map; assumption).
  assert (M : exists ps, incl ps (map pp t) /\ incl ps [pp u'; pp v'] /\ hull ps x).
  { destruct (Nat.eq_dec a b) as [<-|Nab]; [rewrite Ea in Eb; injection Eb as <-; exists [pp u'; pp v']; auto using incl_refl|].
    destruct (FF a b _ _ (ts4_nth o a t Ea) (ts4_nth o b w Eb) Nab) as (_ & Meet).
    destruct (Meet x (hull_sub _ _ _ Hx I1) (hull_sub _ _ _ Hx' I2)) as (ps & J1 & J2 & Hp).
    destruct (common_support (map pp w) ps [pp u'; pp v'] x (tet_of o To NF b w Eb) J2 I2 Hp Hx') as (m & K1 & K2 & Hm). exists m. split; [exact (incl_tran K1 J1)|]. auto. }
  destruct M as (ps & J1 & J2 & Hp).
  destruct (mid_corner (map pp t) (pp u) (pp v) ps (tet_of o To NF a t Ea) (I1 _ (or_introl eq_refl)) (I1 _ (or_intror (or_introl eq_refl))) N J1 Hp) as (A & B). auto.
Qed.
End Mid.

(** C123: in a face-to-face solid made of tetrahedra that are not flat, two edges with the
    same midpoint have the same end points: the midpoint identifies an edge. *)
Lemma L_C123_midpoints : forall o : obj4, Forall (fun t => length t = 4%nat /\ goods 6 t) o ->
  (forall t, In t o -> pvol t <> 0) -> face_to_face (map (map pp) o) ->
  forall e g, In e (edges_of 4 o) -> In g (edges_of 4 o) -> pcentre e = pcentre g -> same_set (map ppoint e) (map ppoint g).
Proof.
  intros o To NF FF e g He Hg E. destruct (tet_edge_in o e To He) as (t & u & v & Ht & -> & Iu & Iv & N). destruct (tet_edge_in o g To Hg) as (w & u' & v' & Hw & -> & Iu' & Iv' & N').
  specialize (N (nodup4 o To NF t Ht)). specialize (N' (nodup4 o To NF w Hw)). apply centre_eq3 in E. apply pp_same. cbn [map].
  destruct (half_in o To NF FF t w u v u' v' Ht Hw Iu Iv Iu' Iv' N (eq_sym E)) as (A1 & A2). destruct (half_in o To NF FF w t u' v' u v Hw Ht Iu' Iv' Iu Iv N' E) as (B1 & B2).
  intros x. split; intros [<-|[<-|[]]]; assumption.
Qed.

(** So for a face-to-face solid with small coordinates, in which a vertex is always written
    the same way, generator_unique_edges() run with int64 and float64 returns edges of the
    tetrahedra only, and every one of them exactly once, with no condition on midpoints. *)
Lemma L_C123_edges : forall (la : linalg) (q : Z) (o : obj4),
  (0 < q <= 5000)%Z -> Forall (fun t => length t = 4%nat /\ grids 6 q 6 t) o -> one_name (concat o) ->
  (forall t, In t o -> pvol t <> 0) -> face_to_face (map (map pp) o) ->
  exists r, m_generator_unique_edges (@Bmath la) 4 o = Ok r /\ incl r (edges_of 4 o) /\ NoDup r /\
    forall e, In e (edges_of 4 o) -> exists! u, In u r /\ same_set (map ppoint u) (map ppoint e).
Proof.
  intros la q o Hq F O NF FF. pose proof (grid_tets _ _ _ F) as To.
  apply (L_C115_edges la 4 q 6 o); try assumption; try lia.
  - apply Forall_forall. intros t Ht. apply pp_NoDup, (nodup4 o To NF t Ht).
  - intros e g He Hg.
    assert (K : forall x, In x (edges_of 4 o) -> length x = 2%nat /\ grids 6 q 6 x).
    { intros x Hx. destruct (tet_edge_in o x To Hx) as (t & u & v & Ht & -> & Iu & Iv & _). split; [reflexivity|]. destruct (proj1 (Forall_forall _ _) F t Ht) as [_ G].
      apply Forall_forall. intros y [<-|[<-|[]]]; [exact (proj1 (Forall_forall _ _) G u Iu)|exact (proj1 (Forall_forall _ _) G v Iv)]. }
    destruct (K e He) as [Le Ge]. destruct (K g Hg) as [Lg Gg].
    destruct (centres_told q e g Hq Ge Gg (or_introl Le) ltac:(congruence)) as [E|E]; [left; exact (L_C123_midpoints o To NF FF e g He Hg E)|right; exact E].
Qed.

(** The conditions are met by two tetrahedra that share a face: of their twelve edges, three
    are shared. *)
Example E_C123_ex : Forall (fun t => length t = 4%nat /\ grids 6 1 6 t) cut /\ one_name (concat cut) /\
  (forall t, In t cut -> pvol t <> 0) /\ face_to_face (map (map pp) cut) /\ length (edges_of 4 cut) = 12%nat /\
  exists r, m_generator_unique_edges Bnum 4 cut = Ok r /\ incl r (edges_of 4 cut) /\ NoDup r.
Proof.
  destruct P_Edges.cut_solid as (Ne & To & NF & FF & _). split; [exact cut_grid6|]. split; [exact P_MachineEdges.cut_name|]. split; [exact NF|]. split; [exact FF|]. split; [reflexivity|].
  destruct (L_C123_edges textbook 1 cut ltac:(lia) cut_grid6 P_MachineEdges.cut_name NF FF) as (r & Er & I & N & _). exists r. auto.
Qed.
