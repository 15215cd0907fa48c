(** The surface of a face-to-face object is the boundary of its region. *)
From Coq Require Import Reals List ZArith Lia Lra Bool.
From Verif Require Import Base.Res Model.Tau Model.Arr Model.Num Model.IcoSurface
  Spec.Value Spec.RVec Spec.Shape Spec.Mean Spec.IcoSpec Spec.Sets Spec.Space Spec.Region Spec.Surface Spec.Solid
  Proofs.NumLemmas Proofs.IntersectLemmas Proofs.OverlapLemmas Proofs.Polytope Proofs.Frontier Proofs.Frontier3 Proofs.P_Surface.
Import ListNotations.
Local Open Scope R_scope.

Lemma pp_coords v : exists x y z, ppoint v = [x; y; z] /\ pp v = (x, y, z).
Proof. unfold ppoint, pp, perp. cbn [matvec map perp_rows]. do 3 eexists. split; reflexivity. Qed.
Lemma pp_iff u v : ppoint u = ppoint v <-> pp u = pp v.
Proof.
  destruct (pp_coords u) as (x & y & z & -> & ->). destruct (pp_coords v) as (x' & y' & z' & -> & ->).
  split; [intros [= -> -> ->]|intros [= -> -> ->]]; reflexivity.
Qed.
Lemma pp_in u l : In (ppoint u) (map ppoint l) <-> In (pp u) (map pp l).
Proof. rewrite !in_map_iff. split; intros (v & E & H); exists v; (split; [|exact H]); apply pp_iff; exact E. Qed.
Lemma pp_same l m : same_set (map ppoint l) (map ppoint m) <-> same_set (map pp l) (map pp m).
Proof.
  assert (K : forall l m, (forall u, In u l -> In (ppoint u) (map ppoint m)) <-> (forall u, In u l -> In (pp u) (map pp m))).
  { intros l' m'. split; intros H u Hu; apply pp_in, H, Hu. }
  assert (S : forall (A : Type) (f : vec -> A) (l m : vecs), same_set (map f l) (map f m) <-> (forall u, In u l -> In (f u) (map f m)) /\ (forall u, In u m -> In (f u) (map f l))).
  { intros A f l' m'. split.
    - intros H. split; intros u Hu; apply H, in_map, Hu.
    - intros [H1 H2] x. split; intros Hx; apply in_map_iff in Hx as (u & <- & Hu); auto. }
  rewrite !S, !K. tauto.
Qed.
Lemma pp_NoDup l : NoDup (map pp l) -> NoDup (map ppoint l).
Proof.
  induction l as [|u l IH]; intros H; [constructor|]. cbn [map] in *. inversion H as [|? ? N H']; subst. constructor; [|auto]. rewrite pp_in. exact N.
Qed.
Lemma centre_mid u v w : pcentre [u; v; w] = let '(x, y, z) := mid3 (pp u) (pp v) (pp w) in [x; y; z].
Proof.
  unfold pcentre. cbn [map]. destruct (pp_coords u) as (x & y & z & -> & ->). destruct (pp_coords v) as (x' & y' & z' & -> & ->). destruct (pp_coords w) as (x'' & y'' & z'' & -> & ->).
  unfold mid3. cbn. unfold mean. cbn. unfold vscale. cbn. f_equal; [field|f_equal; [field|f_equal; field]].
Qed.
Lemma mid_centre u v w u' v' w' : pcentre [u; v; w] = pcentre [u'; v'; w'] <-> mid3 (pp u) (pp v) (pp w) = mid3 (pp u') (pp v') (pp w').
Proof. rewrite !centre_mid. destruct (mid3 (pp u) _ _) as [[x y] z], (mid3 (pp u') _ _) as [[x' y'] z']. split; [intros [= -> -> ->]|intros [= -> -> ->]]; reflexivity. Qed.

(** Positions of the faces. *)
Lemma face_pos o : Forall (fun t => length t = 4%nat) o -> forall i t k, nth_error o i = Some t -> (k < 4)%nat ->
  nth_error (concat (map tet_faces o)) (4 * i + k) = nth_error (tet_faces t) k.
Proof.
  induction 1 as [|t0 o L _ IH]; intros i t k Ei Hk; [destruct i; discriminate|].
  assert (Lt : length (tet_faces t0) = 4%nat) by (destruct t0 as [|a [|b [|c [|d [|]]]]]; try discriminate L; reflexivity).
  cbn [map concat]. destruct i as [|i].
  - injection Ei as ->. cbn [Nat.mul Nat.add]. rewrite nth_error_app1 by lia. reflexivity.
  - rewrite nth_error_app2 by lia. replace (4 * S i + k - length (tet_faces t0))%nat with (4 * i + k)%nat by lia. apply IH; assumption.
Qed.
Lemma face_pos_inv o : Forall (fun t => length t = 4%nat) o -> forall n e, nth_error (concat (map tet_faces o)) n = Some e ->
  exists i t k, nth_error o i = Some t /\ (k < 4)%nat /\ n = (4 * i + k)%nat /\ nth_error (tet_faces t) k = Some e.
Proof.
  induction 1 as [|t0 o L _ IH]; intros n e En; [destruct n; discriminate|].
  assert (Lt : length (tet_faces t0) = 4%nat) by (destruct t0 as [|a [|b [|c [|d [|]]]]]; try discriminate L; reflexivity).
  cbn [map concat] in En. destruct (lt_dec n 4) as [Hn|Hn].
  - rewrite nth_error_app1 in En by lia. exists 0%nat, t0, n. split; [reflexivity|]. split; [exact Hn|]. split; [lia|exact En].
  - rewrite nth_error_app2 in En by lia. destruct (IH _ _ En) as (i & t & k & Ei & Hk & E & Et). exists (S i), t, k. split; [exact Ei|]. split; [exact Hk|]. split; [lia|exact Et].
Qed.
(** Faces of one tetrahedron. *)
Lemma face_ends t k e : nth_error (tet_faces t) k = Some e -> exists u v w, e = [u; v; w] /\ In u t /\ In v t /\ In w t.
Proof.
  intros E. apply nth_error_In in E. destruct t as [|a [|b [|c [|d [|]]]]]; cbn in E; try contradiction.
  destruct E as [<-|[<-|[<-|[<-|[]]]]]; [exists a, b, c|exists a, b, d|exists a, c, d|exists b, c, d]; cbn; auto 10.
Qed.
Lemma four_ne a b c d : NoDup (map pp [a; b; c; d]) -> pp a <> pp b /\ pp a <> pp c /\ pp a <> pp d /\ pp b <> pp c /\ pp b <> pp d /\ pp c <> pp d.
Proof.
  cbn [map]. intros ND. inversion ND as [|? ? N1 ND1]; subst. inversion ND1 as [|? ? N2 ND2]; subst. inversion ND2 as [|? ? N3 _]; subst. cbn [In] in *.
  repeat split; intros X; first [solve [apply N1; rewrite X; auto]|solve [apply N2; rewrite X; auto]|solve [apply N3; rewrite X; auto]].
Qed.
Lemma tet_face_of t p q r : length t = 4%nat -> In p (map pp t) -> In q (map pp t) -> In r (map pp t) -> p <> q -> p <> r -> q <> r ->
  exists k e, (k < 4)%nat /\ nth_error (tet_faces t) k = Some e /\ same_set (map pp e) [p; q; r].
Proof.
  intros L Hp Hq Hr N1 N2 N3. destruct t as [|a [|b [|c [|d [|]]]]]; try discriminate L. cbn [map In] in Hp, Hq, Hr.
  destruct Hp as [<-|[<-|[<-|[<-|[]]]]], Hq as [<-|[<-|[<-|[<-|[]]]]], Hr as [<-|[<-|[<-|[<-|[]]]]]; try congruence;
  first [exists 0%nat, [a; b; c]; split; [lia|]; split; [reflexivity|]; intros x; cbn [map In]; tauto
        |exists 1%nat, [a; b; d]; split; [lia|]; split; [reflexivity|]; intros x; cbn [map In]; tauto
        |exists 2%nat, [a; c; d]; split; [lia|]; split; [reflexivity|]; intros x; cbn [map In]; tauto
        |exists 3%nat, [b; c; d]; split; [lia|]; split; [reflexivity|]; intros x; cbn [map In]; tauto].
Qed.
Lemma face_distinct t k e k' e' : length t = 4%nat -> NoDup (map pp t) -> nth_error (tet_faces t) k = Some e -> nth_error (tet_faces t) k' = Some e' ->
  same_set (map pp e) (map pp e') -> k = k'.
Proof.
  intros L ND E E' S. destruct t as [|a [|b [|c [|d [|]]]]]; try discriminate L. destruct (four_ne a b c d ND) as (n1 & n2 & n3 & n4 & n5 & n6).
  pose proof (S (pp a)) as Sa. pose proof (S (pp b)) as Sb. pose proof (S (pp c)) as Sc. pose proof (S (pp d)) as Sd. clear S.
  destruct k as [|[|[|[|k]]]]; try (destruct k; discriminate E); injection E as <-; destruct k' as [|[|[|[|k']]]]; try (destruct k'; discriminate E'); injection E' as <-; try reflexivity; exfalso; cbn [map In] in Sa, Sb, Sc, Sd;
    first [destruct (proj1 Sa) as [?|[?|[?|[]]]]; solve [auto|congruence] | destruct (proj1 Sb) as [?|[?|[?|[]]]]; solve [auto|congruence] | destruct (proj1 Sc) as [?|[?|[?|[]]]]; solve [auto|congruence]| destruct (proj1 Sd) as [?|[?|[?|[]]]]; solve [auto 10|congruence]].
Qed.
Lemma face_ne t k u v w : NoDup (map pp t) -> nth_error (tet_faces t) k = Some [u; v; w] -> pp u <> pp v /\ pp u <> pp w /\ pp v <> pp w.
Proof.
  intros ND E. apply nth_error_In in E. destruct t as [|a [|b [|c [|d [|]]]]]; try (destruct E; fail).
  destruct (four_ne a b c d ND) as (n1 & n2 & n3 & n4 & n5 & n6). cbn [tet_faces In] in E.
  destruct E as [E|[E|[E|[E|[]]]]]; injection E as <- <- <-; auto.
Qed.

Section Main.
Variable o : obj4.
Hypothesis To : tets o.
Hypothesis NF : forall t, In t o -> pvol t <> 0.
Hypothesis FF : face_to_face (map (map pp) o).
Let ts := map (map pp) o.

Lemma len4 : Forall (fun t : vecs => length t = 4%nat) o.
Proof. eapply Forall_impl; [|exact To]. intros t [L _]. exact L. Qed.
Lemma len4_in t : In t o -> length t = 4%nat.
Proof. intros H. pose proof len4 as L. rewrite Forall_forall in L. auto. Qed.
Lemma tetrs : Forall tetr ts.
Proof.
  unfold ts. apply Forall_map, Forall_forall. intros t Ht. pose proof (len4_in t Ht) as L. specialize (NF t Ht).
  destruct t as [|a [|b [|c [|d [|]]]]]; try discriminate L. exists (pp a), (pp b), (pp c), (pp d). split; [reflexivity|]. apply pvol_flat, NF.
Qed.
Lemma tetr_NoDup t : tetr t -> NoDup t.
Proof.
  intros (a & b & c & d & -> & N). destruct (nonflat_apex a b c d N) as (n1 & n2 & n3 & n4 & n5 & n6).
  repeat (constructor; [cbn [In]; intuition congruence|]). constructor.
Qed.
Lemma nodup4 t : In t o -> NoDup (map pp t).
Proof. intros Ht. apply tetr_NoDup. pose proof tetrs as T. rewrite Forall_forall in T. apply T. unfold ts. apply in_map, Ht. Qed.
Lemma reg_iff x : region o x <-> reg3 ts x.
Proof.
  unfold ts. split.
  - intros (t & Ht & Hx). exists (map pp t). split; [apply in_map, Ht|exact Hx].
  - intros (t & Ht & Hx). apply in_map_iff in Ht as (t' & <- & Ht). exists t'. auto.
Qed.
Lemma ts4_nth i t : nth_error o i = Some t -> nth_error ts i = Some (map pp t).
Proof. intros E. unfold ts. rewrite nth_error_map, E. reflexivity. Qed.
Lemma ts4_inv i t : nth_error ts i = Some t -> exists t', nth_error o i = Some t' /\ t = map pp t'.
Proof. unfold ts. rewrite nth_error_map. destruct (nth_error o i) as [t'|]; [|discriminate]. intros [= <-]. eauto. Qed.

Lemma once_lone i t k u v w : nth_error o i = Some t -> nth_error (tet_faces t) k = Some [u; v; w] ->
  (once [u; v; w] (all_faces o) <-> lone3 ts (pp u) (pp v) (pp w)).
Proof.
  intros Ei Ek. unfold all_faces. pose proof (nth_error_In _ _ Ei) as Ht. pose proof (face_ends _ _ _ Ek) as (u' & v' & w' & Euv & Iu & Iv & Iw). injection Euv as <- <- <-.
  assert (Hk : (k < 4)%nat). { pose proof (len4_in t Ht) as L. destruct t as [|a [|b [|c [|d [|]]]]]; try discriminate L. assert (H : (k < length (tet_faces [a; b; c; d]))%nat) by (apply nth_error_Some; congruence). exact H. }
  pose proof (face_pos o len4 i t k Ei Hk) as Pos. rewrite Ek in Pos.
  destruct (face_ne t k u v w (nodup4 t Ht) Ek) as (N1 & N2 & N3).
  split.
  - intros (j & (g & Eg & Sg) & Uniq). assert (Ej : j = (4 * i + k)%nat) by (apply Uniq; exists [u; v; w]; split; [exact Pos|intros x; tauto]).
    exists i, (map pp t). split; [apply ts4_nth, Ei|]. split; [apply in_map, Iu|]. split; [apply in_map, Iv|]. split; [apply in_map, Iw|]. repeat (split; [assumption|]).
    intros j' z Ej' Hu Hv Hw. apply ts4_inv in Ej' as (t' & Ej' & ->).
    pose proof (nth_error_In _ _ Ej') as Ht'.
    destruct (tet_face_of t' _ _ _ (len4_in t' Ht') Hu Hv Hw N1 N2 N3) as (k' & e' & Hk' & Ek' & Se').
    assert (Ex : j = (4 * j' + k')%nat).
    { apply Uniq. exists e'. split; [rewrite (face_pos o len4 j' t' k' Ej' Hk'); exact Ek'|]. apply pp_same. intros x. cbn [map]. specialize (Se' x). tauto. }
    lia.
  - intros (i' & t' & Ei' & Hu & Hv & Hw & _ & _ & _ & Only). assert (Eii : i = i') by (apply (Only i (map pp t) (ts4_nth i t Ei)); apply in_map; assumption).
    exists (4 * i + k)%nat. split; [exists [u; v; w]; split; [exact Pos|intros x; tauto]|].
    intros n (g & En & Sg). destruct (face_pos_inv o len4 n g En) as (j & z & k' & Ej & Hk' & -> & Ek').
    pose proof (face_ends _ _ _ Ek') as (a & b & c & -> & Ia & Ib & Ic). apply pp_same in Sg.
    assert (Hin : forall x, In x (map pp [u; v; w]) -> In x (map pp z)).
    { intros x Hx. apply Sg in Hx. cbn [map In] in Hx. destruct Hx as [<-|[<-|[<-|[]]]]; apply in_map; assumption. }
    assert (Ejj : j = i') by (apply (Only j (map pp z) (ts4_nth j z Ej)); apply Hin; cbn [map In]; auto).
    subst i' j. rewrite Ei in Ej. injection Ej as <-. f_equal. exact (face_distinct t k _ k' _ (len4_in t Ht) (nodup4 t Ht) Ek Ek' Sg).
Qed.
(** Faces with the same centre have the same corners. *)
Lemma centre_same e g : In e (all_faces o) -> In g (all_faces o) -> pcentre e = pcentre g -> same_set (map ppoint e) (map ppoint g).
Proof.
  intros He Hg E. apply In_nth_error in He as (n & En). apply In_nth_error in Hg as (m & Em). unfold all_faces in *.
  destruct (face_pos_inv o len4 n e En) as (i & t & k & Ei & _ & _ & Ek). destruct (face_pos_inv o len4 m g Em) as (j & z & k' & Ej & _ & _ & Ek').
  destruct (face_ends _ _ _ Ek) as (u & v & w & -> & Iu & Iv & Iw). destruct (face_ends _ _ _ Ek') as (u' & v' & w' & -> & Iu' & Iv' & Iw').
  pose proof (nth_error_In _ _ Ei) as Ht. pose proof (nth_error_In _ _ Ej) as Hz.
  destruct (face_ne t k u v w (nodup4 t Ht) Ek) as (N1 & N2 & N3). destruct (face_ne z k' u' v' w' (nodup4 z Hz) Ek') as (N1' & N2' & N3').
  apply mid_centre in E. apply pp_same. cbn [map].
  apply (same_corners3 ts tetrs FF i j (map pp t) (map pp z) _ _ _ _ _ _ (mid3 (pp u) (pp v) (pp w)) (ts4_nth i t Ei) (ts4_nth j z Ej)); try (apply in_map; assumption); try assumption; [apply mid3_relint|rewrite E; apply mid3_relint].
Qed.
(** The faces that occur once cover the boundary and nothing else. *)
Lemma boundary_faces x : boundary3 (region o) x <-> exists f, In f (all_faces o) /\ once f (all_faces o) /\ hull (map pp f) x.
Proof.
  assert (B : boundary3 (region o) x <-> boundary3 (reg3 ts) x).
  { unfold boundary3. split; intros H e Pe; destruct (H e Pe) as ((y & Ry & Dy) & z & Rz & Dz); (split; [exists y|exists z]); (split; [|assumption]); rewrite ?reg_iff in *; try assumption; rewrite <- ?reg_iff in *; assumption. }
  rewrite B, (frontier3 ts tetrs FF x). split.
  - intros (p & q & r & L & Hx). pose proof L as (i & t & Ei & Ip & Iq & Ir & N1 & N2 & N3 & _). apply ts4_inv in Ei as (t' & Ei & ->). pose proof (nth_error_In _ _ Ei) as Ht.
    destruct (tet_face_of t' p q r (len4_in t' Ht) Ip Iq Ir N1 N2 N3) as (k & e & Hk & Ek & Se). destruct (face_ends _ _ _ Ek) as (u & v & w & -> & _).
    exists [u; v; w]. assert (Pos : nth_error (all_faces o) (4 * i + k) = Some [u; v; w]) by (unfold all_faces; rewrite (face_pos o len4 i t' k Ei Hk); exact Ek).
    split; [exact (nth_error_In _ _ Pos)|]. split; [|apply (hull_same [p; q; r]); [apply same_sym, Se|exact Hx]].
    apply (once_lone i t' k u v w Ei Ek). destruct L as (i0 & t0 & E0 & J1 & J2 & J3 & M1 & M2 & M3 & U). destruct (face_ne t' k u v w (nodup4 t' Ht) Ek) as (N1' & N2' & N3').
    assert (Sub : forall s : list R3, In p s -> In q s -> In r s -> In (pp u) s /\ In (pp v) s /\ In (pp w) s).
    { intros s A1 A2 A3. assert (K : forall y, In y [p; q; r] -> In y s) by (intros y [<-|[<-|[<-|[]]]]; assumption).
      repeat split; apply K, Se; cbn [map In]; auto. }
    assert (Sub' : forall s : list R3, In (pp u) s -> In (pp v) s -> In (pp w) s -> In p s /\ In q s /\ In r s).
    { intros s A1 A2 A3. assert (K : forall y, In y (map pp [u; v; w]) -> In y s) by (intros y [<-|[<-|[<-|[]]]]; assumption).
      repeat split; apply K, Se; cbn [In]; auto. }
    exists i0, t0. split; [exact E0|]. destruct (Sub t0 J1 J2 J3) as (K1 & K2 & K3). repeat (split; [assumption|]).
    intros j s Ej A1 A2 A3. destruct (Sub' s A1 A2 A3) as (Q1 & Q2 & Q3). exact (U j s Ej Q1 Q2 Q3).
  - intros (f & If & On & Hx). apply In_nth_error in If as (n & En). unfold all_faces in En. destruct (face_pos_inv o len4 n f En) as (i & t & k & Ei & Hk & -> & Ek).
    destruct (face_ends _ _ _ Ek) as (u & v & w & -> & _). exists (pp u), (pp v), (pp w). split; [|exact Hx]. apply (once_lone i t k u v w Ei Ek), On.
Qed.
End Main.

Lemma surface_boundary o : solid o -> exists r, generator_surface_1 Rnum o = Ok r /\ NoDup r /\ (forall f, In f r <-> In f (all_faces o) /\ once f (all_faces o)) /\
  forall x, skin r x <-> boundary3 (region o) x.
Proof.
  intros (Ne & To & NF & FF & Ap).
  assert (Fin : forall r, (forall f, In f r <-> In f (all_faces o) /\ once f (all_faces o)) -> forall x, skin r x <-> boundary3 (region o) x).
  { intros r H x. rewrite (boundary_faces o To NF FF x). split.
    - intros (f & If & Hx). apply H in If as [If On]. exists f. auto.
    - intros (f & If & On & Hx). exists f. split; [apply H; auto|exact Hx]. }
  destruct o as [|t o']; [contradiction|]. destruct o' as [|t2 o'].
  - pose proof (len4_in _ To t (or_introl eq_refl)) as L. pose proof (nodup4 [t] To NF t (or_introl eq_refl)) as ND.
    destruct t as [|a [|b [|c [|d [|]]]]]; try discriminate L. set (t := [a; b; c; d]) in *.
    exists (tet_faces t). split; [exact (L_C24_single Rnum a b c d)|].
    assert (Ea : all_faces [t] = tet_faces t) by (unfold all_faces; cbn [map concat]; apply app_nil_r).
    assert (On : forall f, In f (tet_faces t) -> once f (all_faces [t])).
    { intros f If. rewrite Ea. apply In_nth_error in If as (k & Ek). exists k. split; [exists f; split; [exact Ek|intros x; tauto]|].
      intros k' (g & Eg & Sg). apply pp_same in Sg. exact (face_distinct t k f k' g L ND Ek Eg Sg). }
    assert (Q : forall f, In f (tet_faces t) <-> In f (all_faces [t]) /\ once f (all_faces [t])).
    { intros f. rewrite Ea at 1. split; [intros If; split; [exact If|apply On, If]|tauto]. }
    split; [|split; [exact Q|exact (Fin _ Q)]]. apply (NoDup_map_inv (map ppoint)).
    apply NoDup_nth_error. intros k k' Hk E. rewrite map_length in Hk. rewrite !nth_error_map in E.
    destruct (nth_error (tet_faces t) k) as [f|] eqn:Ek; [|apply nth_error_None in Ek; lia]. destruct (nth_error (tet_faces t) k') as [g|] eqn:Ek'; [|discriminate E].
    injection E as E. apply (face_distinct t k f k' g L ND Ek Ek'). apply pp_same. rewrite E. intros x. tauto.
  - destruct (L_C24_boundary (t :: t2 :: o') To ltac:(cbn; lia)) as (r & Er & ND & H).
    + apply Forall_forall. intros s Hs. apply pp_NoDup, (nodup4 _ To NF s Hs).
    + intros f g If Ig. destruct (Ap f g If Ig) as [E|A]; [left; exact (centre_same _ To NF FF f g If Ig E)|right; exact A].
    + exists r. split; [exact Er|]. split; [exact ND|]. split; [exact H|exact (Fin r H)].
Qed.
