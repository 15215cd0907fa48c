(** Lemmas for the intersection of convex objects (ico2/intsct.py intersection_two_obj_convex). *)
From Coq Require Import Reals List ZArith Lia Lra Bool Classical Arith.
From Verif Require Import Base.Res Model.Tau Model.Arr Model.Num Model.IcoNumeric Model.IcoMath1 Model.IcoDedup Model.IcoIntersect Model.IcoSurface Model.Convex
  Spec.Value Spec.RVec Spec.Shape Spec.Mean Spec.IcoSpec Spec.Sets Spec.Space Spec.Tetra Spec.Region Spec.Surface Spec.Overlap Spec.Solid Spec.Convex
  Proofs.ResLemmas Proofs.NumLemmas Proofs.IntersectLemmas Proofs.DedupLemmas Proofs.P_Numeric Proofs.P_Intersect Proofs.P_Surface Proofs.OverlapLemmas Proofs.Polytope
  Proofs.RVecLemmas Proofs.Frontier Proofs.Frontier3 Proofs.ConvexSets Proofs.SolidLemmas.
Import ListNotations.
Local Open Scope R_scope.

(** ** Edges with the same midpoint *)
Section Mid.
Variable ts : list (list R3).
Hypothesis T : Forall tetr ts.
Hypothesis F2F : face_to_face ts.
Lemma rest2 t a b : In t ts -> In a t -> In b t -> a <> b -> exists c d, ~ flat4 a b c d /\ same_set t [a; b; c; d].
Proof.
  intros It Ia Ib N. pose proof T as T'. rewrite Forall_forall in T'. destruct (T' t It) as (p & q & r & s & Et & NF).
  destruct (nonflat_apex p q r s NF) as (n1 & n2 & n3 & n4 & n5 & n6).
  assert (C : exists c, In c t /\ a <> c /\ b <> c).
  { rewrite Et in *. cbn in Ia, Ib. destruct Ia as [<-|[<-|[<-|[<-|[]]]]], Ib as [<-|[<-|[<-|[<-|[]]]]]; try congruence;
    first [exists p; cbn; split; [tauto|split; congruence]|exists q; cbn; split; [tauto|split; congruence]|exists r; cbn; split; [tauto|split; congruence]]. }
  destruct C as (c & Ic & N1 & N2). destruct (fourth ts T t a b c It Ia Ib Ic N N1 N2) as (d & NF' & S). exists c, d. auto.
Qed.
Lemma mid_need t a b ps : In t ts -> In a t -> In b t -> a <> b -> incl ps t -> hull ps (line (1/2) a b) -> In a ps /\ In b ps.
Proof.
  intros It Ia Ib N Ips H. destruct (rest2 t a b It Ia Ib N) as (c & d & NF & S).
  assert (K : forall a b, ~ flat4 a b c d -> same_set t [a; b; c; d] -> hull ps (line (1/2) a b) -> In a ps).
  { clear - Ips. intros a b NF S H. assert (NF' : ~ flat4 b c d a) by (intros E; apply NF; revert E; unfold flat4; p3 a; p3 b; p3 c; p3 d; cbn; intros; lra).
    apply (need3 b c d a ps (line (1/2) a b) NF'); [|intros v Iv; apply Ips, S in Iv; cbn in *; tauto|exact H].
    destruct (walls_at b c d a NF') as (E1 & _ & _ & E4 & _). rewrite ev_line, E1, E4. lra. }
  split; [exact (K a b NF S H)|]. apply (K b a).
  - intros E. apply NF. revert E. unfold flat4. p3 a; p3 b; p3 c; p3 d. cbn. intros. lra.
  - intros x. rewrite (S x). cbn. tauto.
  - replace (line (1/2) b a) with (line (1/2) a b) by (unfold line; p3 a; p3 b; cbn; eq3; field). exact H.
Qed.
Lemma same_mid i j t u a b c d : nth_error ts i = Some t -> nth_error ts j = Some u -> In a t -> In b t -> a <> b -> In c u -> In d u -> c <> d ->
  line (1/2) a b = line (1/2) c d -> same_set [a; b] [c; d].
Proof.
  intros Hi Hj Ia Ib N Ic Id N' E. pose proof (nth_error_In _ _ Hi) as It. pose proof (nth_error_In _ _ Hj) as Iu.
  assert (Hx : forall (t : list R3) a b, In a t -> In b t -> hull t (line (1/2) a b)).
  { intros t' a' b' A B. apply (hull_trans [a'; b']); [apply hull2_line; exists (1/2); split; [lra|reflexivity]|]. intros v [<-|[<-|[]]]; apply hull_mem; assumption. }
  assert (Ps : exists ps, incl ps t /\ incl ps u /\ hull ps (line (1/2) a b)).
  { destruct (Nat.eq_dec i j) as [->|Nij].
    - rewrite Hi in Hj. injection Hj as <-. exists t. split; [|split]; auto using incl_refl.
    - apply (F2F i j t u Hi Hj Nij); [|rewrite E]; auto. }
  destruct Ps as (ps & Pt & Pu & H). destruct (mid_need t a b ps It Ia Ib N Pt H) as (A & B). rewrite E in H. destruct (mid_need u c d ps Iu Ic Id N' Pu H) as (C & D).
  (* now all four are corners of t *)
  assert (K : forall a b c d : R3, In a t -> In b t -> In c t -> In d t -> a <> b -> c <> d -> line (1/2) a b = line (1/2) c d -> c = a \/ c = b).
  { clear - T It. intros a b c d Ia Ib Ic Id N N' E. apply NNPP. intros X. assert (Na : a <> c) by (intros ->; tauto). assert (Nb : b <> c) by (intros ->; tauto).
    destruct (fourth ts T t a b c It Ia Ib Ic N Na Nb) as (g & NF & S). assert (NF' : ~ flat4 a b g c) by (intros Q; apply NF; revert Q; unfold flat4; p3 a; p3 b; p3 c; p3 g; cbn; intros; lra).
    destruct (walls_at a b g c NF') as (E1 & E2 & E3 & E4 & _). apply (f_equal (ev (L3 a b g c))) in E. rewrite !ev_line, E1, E2, E4 in E.
    apply S in Id. destruct Id as [<-|[<-|[<-|[<-|[]]]]]; try congruence; [rewrite E1 in E|rewrite E2 in E|rewrite E3 in E]; lra. }
  assert (Hc : c = a \/ c = b) by (apply (K a b c d); auto). assert (Hd : d = a \/ d = b).
  { apply (K a b d c); auto. rewrite E. unfold line. p3 c; p3 d. cbn. eq3; field. }
  destruct Hc as [-> | ->], Hd as [-> | ->]; try congruence; intros x; cbn; tauto.
Qed.
End Mid.

Lemma centre_half u v : pcentre [u; v] = let '(x, y, z) := line (1/2) (pp u) (pp v) in [x; y; z].
Proof.
  destruct (pp_coords u) as (a & b & c & Eu & ->). destruct (pp_coords v) as (a' & b' & c' & Ev & ->).
  unfold pcentre. cbn [map]. rewrite Eu, Ev. unfold mean, line. cbn. f_equal; [field|f_equal; [field|f_equal; field]].
Qed.
Lemma half_centre u v u' v' : pcentre [u; v] = pcentre [u'; v'] -> line (1/2) (pp u) (pp v) = line (1/2) (pp u') (pp v').
Proof. rewrite !centre_half. destruct (line (1/2) (pp u) (pp v)) as [[a b] c], (line (1/2) (pp u') (pp v')) as [[a' b'] c']. intros [= -> -> ->]. reflexivity. Qed.

(** ** The surface of one solid: faces, edges, vertices *)
Section One.
Variable o : obj4.
Hypothesis So : solid o.
Let ts := map (map pp) o.
Let To := proj1 (proj2 So).
Let NF := proj1 (proj2 (proj2 So)).
Let FF := proj1 (proj2 (proj2 (proj2 So))).
Let T := tetrs o To NF.

Lemma outer_facts f : outer_face o f -> exists u v w t, f = [u; v; w] /\ In t o /\ incl f t /\ goods 6 f /\ lone3 ts (pp u) (pp v) (pp w).
Proof.
  intros (If & On). apply In_nth_error in If as (n & En). unfold all_faces in En. destruct (face_pos_inv o (len4 o To) n f En) as (i & t & k & Ei & Hk & -> & Ek).
  destruct (face_ends _ _ _ Ek) as (u & v & w & -> & Iu & Iv & Iw). exists u, v, w, t. split; [reflexivity|]. split; [exact (nth_error_In _ _ Ei)|].
  assert (Inc : incl [u; v; w] t) by (intros x [<-|[<-|[<-|[]]]]; assumption). split; [exact Inc|]. split.
  - pose proof To as To'. unfold tets in To'. rewrite Forall_forall in To'. destruct (To' t (nth_error_In _ _ Ei)) as [_ G]. eapply goods_incl; eassumption.
  - apply (once_lone o To NF i t k u v w Ei Ek), On.
Qed.
Lemma lone_outer p q r : lone3 ts p q r -> exists f, outer_face o f /\ same_set (map pp f) [p; q; r].
Proof.
  intros L. pose proof L as (i & t & Ei & Ip & Iq & Ir & N1 & N2 & N3 & Lo). apply ts4_inv in Ei as (t' & Ei & ->). pose proof (nth_error_In _ _ Ei) as Ht.
  destruct (tet_face_of t' p q r (len4_in o To t' Ht) Ip Iq Ir N1 N2 N3) as (k & e & Hk & Ek & Se). destruct (face_ends _ _ _ Ek) as (u & v & w & -> & _).
  exists [u; v; w]. split; [|exact Se]. split.
  - apply (nth_error_In _ (4 * i + k)). unfold all_faces. rewrite (face_pos o (len4 o To) i t' k Ei Hk). exact Ek.
  - apply (once_lone o To NF i t' k u v w Ei Ek). destruct (face_ne t' k u v w (nodup4 o To NF t' Ht) Ek) as (N1' & N2' & N3').
    apply (lone3_perm _ p q r); auto. intros x Hx. apply Se. exact Hx.
Qed.
Lemma corner_lone p : outer_corner o p <-> exists q r, lone3 ts p q r.
Proof.
  split.
  - intros (f & Of & Ip). destruct (outer_facts f Of) as (u & v & w & t & -> & _ & _ & _ & L). pose proof (lone_rot ts _ _ _ L) as L'. pose proof (lone_rot ts _ _ _ L') as L''.
    destruct Ip as [<-|[<-|[<-|[]]]]; eauto.
  - intros (q & r & L). destruct (lone_outer p q r L) as (f & Of & S). exists f. split; [exact Of|]. apply S. cbn. tauto.
Qed.

Lemma tri_edge_of s u v w : In s (tri_edges [u; v; w]) <-> edge_of s [u; v; w].
Proof.
  unfold edge_of. cbn. split.
  - intros [<-|[<-|[<-|[]]]]; (split; [|reflexivity]); repeat constructor.
  - intros [H L]. destruct s as [|a [|b [|]]]; try discriminate L. clear L.
    apply subseq_pair in H as [[<- [<-|[<-|[]]]]|H]; [tauto|tauto|]. apply subseq_pair in H as [[<- [<-|[]]]|H]; [tauto|].
    apply subseq_pair in H as [[_ []]|H]. inversion H.
Qed.

Lemma swap2 {A} (x y : A) : same_set [x; y] [y; x]. Proof. intros z. cbn [In]. tauto. Qed.
Lemma surf_edges r : (forall f, In f r <-> outer_face o f) -> exists es, generator_unique_edges Rnum 3 r = Ok es /\
  (forall e, In e es -> exists f, outer_face o f /\ edge_of e f) /\
  (forall p q s, lone3 ts p q s -> exists a b, In [a; b] es /\ same_set [pp a; pp b] [p; q]).
Proof.
  intros Hr. assert (G : Forall (fun t => length t = 3%nat /\ goods 6 t) r).
  { apply Forall_forall. intros f If. destruct (outer_facts f (proj1 (Hr f) If)) as (u & v & w & t & -> & _ & _ & Gf & _). auto. }
  destruct (L_C25_unique_edges 3 r ltac:(auto) G) as (es & Ee & Inc & _ & Ex & _). exists es. split; [exact Ee|].
  assert (Ed : forall e, In e (edges_of 3 r) <-> exists f, outer_face o f /\ edge_of e f).
  { intros e. unfold edges_of. cbn [Nat.eqb]. rewrite in_concat. split.
    - intros (l & Il & Ie). apply in_map_iff in Il as (f & <- & If). apply Hr in If. exists f. split; [exact If|].
      destruct (outer_facts f If) as (u & v & w & t & -> & _). apply tri_edge_of, Ie.
    - intros (f & Of & Ie). exists (tri_edges f). split; [apply in_map, Hr, Of|]. destruct (outer_facts f Of) as (u & v & w & t & -> & _). apply tri_edge_of, Ie. }
  split; [intros e Ie; apply Ed, Inc, Ie|]. intros p q s L. destruct (lone_outer p q s L) as (f & Of & Sf). pose proof (outer_facts f Of) as (u & v & w & t & -> & It & Itf & Gf & Lf).
  assert (X : exists a b, edge_of [a; b] [u; v; w] /\ same_set [pp a; pp b] [p; q]).
  { pose proof (Sf p) as P. pose proof (Sf q) as Q. cbn [map In] in P, Q. assert (Npq : p <> q) by (destruct L as (i & t' & _ & _ & _ & _ & N & _); exact N).
    destruct (proj2 P (or_introl eq_refl)) as [<-|[<-|[<-|[]]]], (proj2 Q (or_intror (or_introl eq_refl))) as [<-|[<-|[<-|[]]]]; try congruence.
    all: first [exists u, v; split; [apply tri_edge_of; left; reflexivity|first [exact (fun x => iff_refl _)|exact (swap2 _ _)]]|
      exists u, w; split; [apply tri_edge_of; right; left; reflexivity|first [exact (fun x => iff_refl _)|exact (swap2 _ _)]]|
      exists v, w; split; [apply tri_edge_of; right; right; left; reflexivity|first [exact (fun x => iff_refl _)|exact (swap2 _ _)]]]. }
  destruct X as (a & b & Eab & Sab). destruct (Ex [a; b]) as (e & (Ie & Ce) & _). { apply Ed. exists [u; v; w]. auto. }
  destruct (proj1 (Ed e) (Inc e Ie)) as (g & Og & Eg). destruct (outer_facts g Og) as (u' & v' & w' & t' & -> & It' & Itg & _ & Lg).
  destruct Eg as [Sg Lg']. destruct e as [|a' [|b' [|]]]; try discriminate Lg'. exists a', b'. split; [exact Ie|].
  apply half_centre in Ce. apply In_nth_error in It as (i & Ei). apply In_nth_error in It' as (j & Ej).
  assert (Ne : forall x y u v w, lone3 ts (pp u) (pp v) (pp w) -> edge_of [x; y] [u; v; w] -> pp x <> pp y).
  { clear. intros x y u v w (i & t & _ & _ & _ & _ & N1 & N2 & N3 & _) E. apply tri_edge_of in E. cbn in E. destruct E as [E|[E|[E|[]]]]; injection E as <- <-; assumption. }
  assert (Inn : forall x y (f t : vecs), edge_of [x; y] f -> incl f t -> In (pp x) (map pp t) /\ In (pp y) (map pp t)).
  { clear. intros x y f t [S _] I. split; apply in_map, I, (subseq_in _ _ S); cbn; tauto. }
  assert (Ege : edge_of [a'; b'] [u'; v'; w']) by (split; [exact Sg|reflexivity]).
  destruct (Inn a' b' _ t' Ege Itg) as (I1 & I2). destruct (Inn a b _ t Eab Itf) as (I3 & I4).
  pose proof (same_mid ts T FF j i _ _ _ _ _ _ (ts4_nth o j t' Ej) (ts4_nth o i t Ei) I1 I2 (Ne _ _ _ _ _ Lg Ege) I3 I4 (Ne _ _ _ _ _ Lf Eab) Ce) as SS.
  intros x. rewrite (SS x). apply Sab.
Qed.
Lemma edge_goods e f : outer_face o f -> edge_of e f -> exists a b, e = [a; b] /\ goods 6 e /\ In a f /\ In b f.
Proof.
  intros Of [S L]. destruct (outer_facts f Of) as (u & v & w & t & -> & _ & _ & G & _). destruct e as [|a [|b [|]]]; try discriminate L. exists a, b. split; [reflexivity|].
  split; [eapply subseq_goods; eassumption|]. split; apply (subseq_in _ _ S); cbn; tauto.
Qed.
Lemma edge_lone a b f : outer_face o f -> edge_of [a; b] f -> exists q, lone3 ts (pp a) (pp b) q.
Proof.
  intros Of E. destruct (outer_facts f Of) as (u & v & w & t & -> & _ & _ & _ & L). apply tri_edge_of in E. pose proof L as (i & z & _ & _ & _ & _ & N1 & N2 & N3 & _).
  cbn in E. destruct E as [E|[E|[E|[]]]]; injection E as <- <-.
  - exists (pp w). exact L.
  - exists (pp v). apply (lone3_perm ts _ _ _ _ _ _ L); auto. intros x. cbn. tauto.
  - exists (pp u). apply lone_rot, L.
Qed.
Lemma surf_vertices r es vs : (forall f, In f r <-> outer_face o f) -> generator_unique_edges Rnum 3 r = Ok es -> remove_doubling_in_perp_space (A4 es) = Ok vs ->
  goods 6 vs /\ (forall v, In v vs -> exists f, outer_face o f /\ In v f) /\ (forall p, outer_corner o p <-> In p (map pp vs)).
Proof.
  intros Hr Ee Ev. destruct (surf_edges r Hr) as (es' & Ee' & E1 & E2). rewrite Ee in Ee'. injection Ee' as <-.
  assert (Vf : forall v, In v (concat es) -> good 6 v /\ exists f, outer_face o f /\ In v f).
  { intros v Iv. apply in_concat in Iv as (e & Ie & Iv). destruct (E1 e Ie) as (f & Of & Ef). destruct (edge_goods e f Of Ef) as (a & b & -> & G & Ia & Ib).
    split; [exact (goods_in 6 _ _ G Iv)|]. exists f. split; [exact Of|]. destruct Iv as [<-|[<-|[]]]; assumption. }
  assert (G : goods 6 (concat es)) by (apply Forall_forall; intros v Iv; apply Vf, Iv).
  destruct (perp_space_spec_flat (concat es) (A4 es) ltac:(right; eauto) G) as (vs' & Ev' & Inc & _ & S). rewrite Ev in Ev'. injection Ev' as <-.
  split; [eapply goods_incl; eassumption|]. split; [intros v Iv; apply Vf, Inc, Iv|].
  assert (S' : same_set (map pp vs) (map pp (concat es))) by (apply pp_same, S).
  intros p. rewrite (S' p). split.
  - intros C. apply corner_lone in C as (q & s & L). destruct (E2 p q s L) as (a & b & Ie & Sab).
    assert (Ip : In p [pp a; pp b]) by (apply Sab; cbn; tauto). apply in_map_iff.
    destruct Ip as [<-|[<-|[]]]; [exists a|exists b]; (split; [reflexivity|]); apply in_concat; exists [a; b]; cbn; auto.
  - intros Ip. apply in_map_iff in Ip as (v & <- & Iv). destruct (Vf v Iv) as (_ & f & Of & Ivf). exists f. split; [exact Of|apply in_map, Ivf].
Qed.
Lemma surf_ok : exists r es vs, generator_surface_1 Rnum o = Ok r /\ (forall f, In f r <-> outer_face o f) /\
  generator_unique_edges Rnum 3 r = Ok es /\ remove_doubling_in_perp_space (A4 es) = Ok vs.
Proof.
  destruct (surface_boundary o So) as (r & Er & _ & Hr & _). destruct (surf_edges r Hr) as (es & Ee & E1 & _).
  assert (G : goods 6 (concat es)).
  { apply Forall_forall. intros v Iv. apply in_concat in Iv as (e & Ie & Iv). destruct (E1 e Ie) as (f & Of & Ef). destruct (edge_goods e f Of Ef) as (a & b & -> & G & _). exact (goods_in 6 _ _ G Iv). }
  destruct (perp_space_spec_flat (concat es) (A4 es) ltac:(right; eauto) G) as (vs & Ev & _). exists r, es, vs. auto.
Qed.

(** ** Which vertices are inside *)
Lemma inside_obj_spec v : good 6 v -> exists b, inside_obj Rnum v o = Ok b /\ (region o (pp v) -> b = true) /\ (b = true -> exists t, In t o /\ near (1/1000000) (map pp t) (pp v)).
Proof.
  intros Gv. pose proof To as To'. pose proof NF as NF'. unfold tets in To'. clear - Gv To' NF'. induction To' as [|t o [Lt Gt] To' IH]; cbn [inside_obj].
  - exists false. split; [reflexivity|]. split; [intros (t & [] & _)|discriminate].
  - destruct IH as (b & Eb & B1 & B2). { intros t' I. apply NF'. right. exact I. }
    destruct (inside_ok Rnum v t (good_l6 _ Gv) (goods_l6 _ Gt) Lt) as (x & Ex). rewrite Ex. cbn [bind]. destruct x.
    + exists true. split; [reflexivity|]. split; [auto|]. intros _. exists t. split; [left; reflexivity|]. exact (inside_near v t Gv Lt Gt Ex).
    + exists b. split; [exact Eb|]. split.
      * intros (t' & [<-|I] & H); [|apply B1; exists t'; auto]. exfalso. rewrite (inside_hull v t Gv Lt Gt (NF' t (or_introl eq_refl)) H) in Ex. discriminate.
      * intros Q. destruct (B2 Q) as (t' & I & H). exists t'. split; [right; exact I|exact H].
Qed.
Lemma vertices_in_spec vs : goods 6 vs -> (forall v t, In v vs -> In t o -> near (1/1000000) (map pp t) (pp v) -> region o (pp v)) ->
  exists r, vertices_in_obj Rnum vs o = Ok r /\ (forall v, In v r <-> In v vs /\ region o (pp v)) /\ (length r = length vs <-> forall v, In v vs -> region o (pp v)) /\ (length r <= length vs)%nat.
Proof.
  intros G C. induction G as [|v vs Gv G IH]; cbn [vertices_in_obj].
  - exists []. split; [reflexivity|]. split; [cbn; tauto|]. split; [split; [intros _ v []|reflexivity]|auto].
  - destruct IH as (r & Er & R1 & R2 & R3). { intros u t I. apply C. right. exact I. }
    destruct (inside_obj_spec v Gv) as (b & Eb & B1 & B2). rewrite Eb, Er. cbn [bind].
    assert (B : b = true <-> region o (pp v)). { split; [|exact B1]. intros Q. destruct (B2 Q) as (t & I & H). apply (C v t (or_introl eq_refl) I H). }
    destruct b.
    + exists (v :: r). split; [reflexivity|]. pose proof (proj1 B eq_refl) as Rv. split; [|split; [|cbn [length]; lia]].
      * intros u. cbn [In]. rewrite R1. split; [intros [<-|[I H]]; auto|intros [[<-|I] H]; auto].
      * cbn [length]. split; [intros E u [<-|I]; [exact Rv|apply R2; [lia|exact I]]|]. intros H. f_equal. apply R2. intros u I. apply H. right. exact I.
    + exists r. assert (Nv : ~ region o (pp v)) by (intros H; apply B in H; discriminate). split; [reflexivity|]. split; [|split; [|cbn [length]; lia]].
      * intros u. cbn [In]. rewrite R1. split; [intros [I H]; auto|intros [[<-|I] H]; [contradiction|auto]].
      * cbn [length]. split; [lia|]. intros H. exfalso. apply Nv, H. left. reflexivity.
Qed.
End One.

(** ** Crossings *)
Lemma segment_found A B C D E p : goods 6 [A; B; C; D; E] -> decided [A; B] [C; D; E] ->
  triple3 (sub3 (pp B) (pp A)) (sub3 (pp D) (pp C)) (sub3 (pp E) (pp C)) <> 0 -> hull (map pp [A; B]) p -> hull (map pp [C; D; E]) p ->
  exists v, intersection_segment_surface Rnum [A; B] [C; D; E] = Ok (Some v) /\ pp v = p.
Proof.
  intros G5 Hd T Hs Hf. cbn [map] in *. specialize (Hd A B C D E eq_refl eq_refl). cbv zeta in Hd. destruct Hd as [Z|Big]; [contradiction|].
  assert (Gs : goods 6 [A;B]) by (eapply goods_incl; [exact G5|intros x [<-|[<-|[]]]; cbn; auto]).
  assert (Gf : goods 6 [C;D;E]) by (eapply goods_incl; [exact G5|intros x [<-|[<-|[<-|[]]]]; cbn; auto 10]).
  assert (Ck : check_intersection_segment_surface_numerical_6d_tau Rnum [A; B] [C; D; E] = Ok true).
  { rewrite L_C31_tau by (apply goods_l6; assumption). apply (L_C31_never_missed _ _ _ _ _ p); assumption. }
  destruct (L_C32_exact A B C D E G5) as (o & Eo & Ho). destruct o as [v|]; [|congruence].
  destruct Ho as (_ & _ & t & x & y & _ & E1 & E2 & _). exists v. split; [exact Eo|].
  destruct Hs as (ws & (Lw & Sw & Ew) & Pw). destruct Hf as (us & (Lu & Su & Eu) & Pu).
  destruct ws as [|w0 [|w1 [|]]]; try discriminate Lw. destruct us as [|u0 [|u1 [|u2 [|]]]]; try discriminate Lu.
  unfold Rsum in Sw, Su. cbn [fold_right] in Sw, Su. assert (w0 = 1 - w1) by lra. assert (u0 = 1 - u1 - u2) by lra. subst w0 u0.
  assert (P1 : p = add3 (pp A) (scale3 w1 (sub3 (pp B) (pp A)))).
  { rewrite Ew. generalize (pp A) (pp B). intros a b. p3 a. p3 b. unfold o3. cbn. apply f_equal2; [apply f_equal2|]; ring. }
  assert (P2 : p = add3 (pp C) (add3 (scale3 u1 (sub3 (pp D) (pp C))) (scale3 u2 (sub3 (pp E) (pp C))))).
  { rewrite Eu. generalize (pp C) (pp D) (pp E). intros c d e. p3 c. p3 d. p3 e. unfold o3. cbn. apply f_equal2; [apply f_equal2|]; ring. }
  assert (Nz : dot3 (cross3 (sub3 (pp B) (pp A)) (sub3 (pp E) (pp C))) (sub3 (pp D) (pp C)) <> 0).
  { intros Z. apply T. rewrite triple_bunbo, Z. ring. }
  rewrite E1, P1. f_equal. f_equal.
  rewrite (mt_unique (pp A) (pp B) (pp C) (pp D) (pp E) x y t Nz) by congruence.
  rewrite (mt_unique (pp A) (pp B) (pp C) (pp D) (pp E) u1 u2 w1 Nz) by congruence. reflexivity.
Qed.
Definition two3 (es fs : obj4) : Prop := Forall (fun s => length s = 2%nat /\ goods 6 s) es /\ Forall (fun f => length f = 3%nat /\ goods 6 f) fs.
Lemma cross_edges_spec f es : length f = 3%nat -> goods 6 f -> Forall (fun s => length s = 2%nat /\ goods 6 s) es ->
  exists ps, cross_edges Rnum f es = Ok ps /\ goods 6 ps /\ forall v, In v ps <-> exists s, In s es /\ intersection_segment_surface Rnum s f = Ok (Some v).
Proof.
  intros Lf Gf H. destruct f as [|C [|D [|E [|]]]]; try discriminate Lf. induction H as [|s es [Ls Gs] H (ps & Ep & Gp & P)]; cbn [cross_edges].
  - exists []. split; [reflexivity|]. split; [constructor|]. intros v. split; [intros []|intros (s & [] & _)].
  - destruct s as [|A [|B [|]]]; try discriminate Ls.
    assert (G5 : goods 6 [A; B; C; D; E]) by (apply (Forall_app (good 6) [A; B] [C; D; E]); split; assumption).
    destruct (L_C32_exact A B C D E G5) as (o & Eo & Ho). destruct o as [u|].
    + destruct Ho as (Ck & Cg & _). rewrite Ck. cbn [bind]. rewrite Eo. cbn [bind olist]. rewrite Ep. cbn [bind app]. exists (u :: ps). split; [reflexivity|].
      split; [constructor; [|exact Gp]; destruct Cg as [W L]; split; [apply canonv_wfv, W|exact L]|].
      intros v. cbn [In]. rewrite P. split.
      * intros [<-|(s & I & Es)]; [exists [A; B]; auto|exists s; auto].
      * intros (s & [<-|I] & Es); [left; congruence|right; exists s; auto].
    + rewrite Ho. cbn [bind]. rewrite Ep. cbn [bind app]. exists ps. split; [reflexivity|]. split; [exact Gp|].
      intros v. rewrite P. split; [intros (s & I & Es); exists s; cbn [In]; auto|]. intros (s & [<-|I] & Es); [congruence|exists s; auto].
Qed.
Lemma cross_faces_spec fs es : two3 es fs -> exists ps, cross_faces Rnum fs es = Ok ps /\ goods 6 ps /\
  forall v, In v ps <-> exists f s, In f fs /\ In s es /\ intersection_segment_surface Rnum s f = Ok (Some v).
Proof.
  intros [He Hf]. induction Hf as [|f fs [Lf Gf] Hf (ps & Ep & Gp & P)]; cbn [cross_faces].
  - exists []. split; [reflexivity|]. split; [constructor|]. intros v. split; [intros []|intros (f & s & [] & _)].
  - destruct (cross_edges_spec f es Lf Gf He) as (qs & Eq & Gq & Q). rewrite Eq. cbn [bind]. rewrite Ep. cbn [bind]. exists (qs ++ ps). split; [reflexivity|].
    split; [apply Forall_app; auto|]. intros v. rewrite in_app_iff, Q, P. split.
    + intros [(s & I & Es)|(g & s & I & J & Es)]; [exists f, s; cbn [In]; auto|exists g, s; cbn [In]; auto].
    + intros (g & s & [<-|I] & J & Es); [left; exists s; auto|right; exists g, s; auto].
Qed.
