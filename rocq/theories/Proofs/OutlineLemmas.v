(** The outline of an edge-to-edge object of dode2. *)
From Coq Require Import Reals List ZArith Lia Lra Psatz Bool Classical Arith.
From Verif Require Import Base.Res Model.Tau Model.Arr Model.Vectors Model.Num Model.IcoNumeric Model.IcoSurface Model.DodeIntersect Model.Numeric2 Model.DodeDedup Model.DodeSurface
  Spec.Value Spec.RVec Spec.Shape Spec.Mean Spec.Sets Spec.DodeSpec Spec.Space Spec.Plane Spec.Surface Spec.Outline
  Proofs.ResLemmas Proofs.CoplanarLemmas Proofs.DodeDedupLemmas Proofs.NumLemmas Proofs.PlaneLemmas Proofs.Polytope Proofs.SurfaceLemmas Proofs.MergeLemmas Proofs.DodeIntersectLemmas Proofs.DodeOverlapLemmas Proofs.DodeSurfaceLemmas Proofs.Frontier.
Import ListNotations.
Local Open Scope R_scope.

(** * Points *)
Lemma dp_iff u v : dppoint u = dppoint v <-> dp u = dp v.
Proof.
  split; [apply dp_ppoint|]. destruct (dp_coords u) as (x & y & z & -> & _ & ->). destruct (dp_coords v) as (x' & y' & z' & -> & _ & ->). intros [= -> -> ->]. reflexivity.
Qed.
Lemma dp_in u l : In (dppoint u) (map dppoint l) <-> In (dp u) (map dp l).
Proof. rewrite !in_map_iff. split; intros (v & E & H); exists v; (split; [|exact H]); apply dp_iff; exact E. Qed.
Lemma dp_same l m : same_set (map dppoint l) (map dppoint m) <-> same_set (map dp l) (map dp m).
Proof.
  assert (K : forall l m, (forall u, In u l -> In (dppoint u) (map dppoint m)) <-> (forall u, In u l -> In (dp u) (map dp m))).
  { intros l' m'. split; intros H u Hu; apply dp_in, H, Hu. }
  assert (S : forall (A : Type) (f : vec -> A) (l m : vecs), same_set (map f l) (map f m) <-> (forall u, In u l -> In (f u) (map f m)) /\ (forall u, In u m -> In (f u) (map f l))).
  { intros A f l' m'. split.
    - intros H. split; intros u Hu; apply H, in_map, Hu.
    - intros [H1 H2] x. split; intros Hx; apply in_map_iff in Hx as (u & <- & Hu); auto. }
  rewrite !S, !K. tauto.
Qed.
Lemma dp_NoDup l : NoDup (map dp l) -> NoDup (map dppoint l).
Proof.
  induction l as [|u l IH]; intros H; [constructor|]. cbn [map] in *. inversion H as [|? ? N H']; subst. constructor; [|auto]. rewrite dp_in. exact N.
Qed.
Lemma centre_line u v : dpcentre [u; v] = let '(x, y, z) := line (1/2) (dp u) (dp v) in [x; y; z].
Proof.
  unfold dpcentre. cbn [map]. destruct (dp_coords u) as (x & y & z & -> & _ & ->). destruct (dp_coords v) as (x' & y' & z' & -> & _ & ->).
  unfold line. cbn. unfold mean. cbn. unfold vscale. cbn. f_equal; [field|f_equal; [field|f_equal; field]].
Qed.
Lemma centre_eq u v u' v' : dpcentre [u; v] = dpcentre [u'; v'] <-> line (1/2) (dp u) (dp v) = line (1/2) (dp u') (dp v').
Proof. rewrite !centre_line. destruct (line _ (dp u) _) as [[x y] z], (line _ (dp u') _) as [[x' y'] z']. split; [intros [= -> -> ->]|intros [= -> -> ->]]; reflexivity. Qed.

(** * Positions of the edges *)
Lemma edge_pos o : Forall (fun t => length t = 3%nat) o -> forall i t k, nth_error o i = Some t -> (k < 3)%nat ->
  nth_error (concat (map tri_edges o)) (3 * i + k) = nth_error (tri_edges t) k.
Proof.
  induction 1 as [|t0 o L _ IH]; intros i t k Ei Hk; [destruct i; discriminate|].
  assert (Lt : length (tri_edges t0) = 3%nat) by (destruct t0 as [|a [|b [|c [|]]]]; try discriminate L; reflexivity).
  cbn [map concat]. destruct i as [|i].
  - injection Ei as ->. cbn [Nat.mul Nat.add]. rewrite nth_error_app1 by lia. reflexivity.
  - rewrite nth_error_app2 by lia. replace (3 * S i + k - length (tri_edges t0))%nat with (3 * i + k)%nat by lia. apply IH; assumption.
Qed.
Lemma edge_pos_inv o : Forall (fun t => length t = 3%nat) o -> forall n e, nth_error (concat (map tri_edges o)) n = Some e ->
  exists i t k, nth_error o i = Some t /\ (k < 3)%nat /\ n = (3 * i + k)%nat /\ nth_error (tri_edges t) k = Some e.
Proof.
  induction 1 as [|t0 o L _ IH]; intros n e En; [destruct n; discriminate|].
  assert (Lt : length (tri_edges t0) = 3%nat) by (destruct t0 as [|a [|b [|c [|]]]]; try discriminate L; reflexivity).
  cbn [map concat] in En. destruct (lt_dec n 3) as [Hn|Hn].
  - rewrite nth_error_app1 in En by lia. exists 0%nat, t0, n. split; [reflexivity|]. split; [exact Hn|]. split; [lia|exact En].
  - rewrite nth_error_app2 in En by lia. destruct (IH _ _ En) as (i & t & k & Ei & Hk & E & Et). exists (S i), t, k. split; [exact Ei|]. split; [exact Hk|]. split; [lia|exact Et].
Qed.

(** * One group *)
Lemma one_group copl (t0 : vecs) o : (forall i t, nth_error (t0 :: o) (S i) = Some t -> copl (S i) 0%nat t t0 = Ok true) ->
  get_sets_of_coplanar_triangles copl (t0 :: o) = Ok [t0 :: o].
Proof.
  intros H. unfold get_sets_of_coplanar_triangles. cbn [length]. rewrite Nat.sub_0_r || (replace (S (length o) - 1)%nat with (length o) by lia).
  assert (K : forall n k, (k + n <= length o)%nat -> foldM (group_step copl (t0 :: o)) ([0%nat], repeat 0%nat (S k)) (seq (S k) n) = Ok ([0%nat], repeat 0%nat (S (k + n)))).
  { induction n as [|n IH]; intros k Hk; [rewrite Nat.add_0_r; reflexivity|]. cbn [seq foldM].
    unfold group_step at 1. cbn [find_group]. unfold get. destruct (nth_error (t0 :: o) (S k)) as [t|] eqn:Ek; [|exfalso; apply (proj2 (nth_error_Some (t0 :: o) (S k))); [cbn; lia|exact Ek]].
    cbn [bind nth_error]. rewrite (H k t Ek). cbn [bind].
    replace (repeat 0%nat (S k) ++ [0%nat]) with (repeat 0%nat (S (S k))) by exact (repeat_cons (S k) 0%nat).
    rewrite IH by lia. replace (k + S n)%nat with (S k + n)%nat by lia. reflexivity. }
  specialize (K (length o) 0%nat ltac:(lia)). cbn [repeat Nat.add] in K. change [0%nat] with (repeat 0%nat 1) at 2. cbn [repeat]. rewrite K. cbn [bind map].
  do 2 f_equal. assert (C : forall (l : obj4), map snd (filter (fun p : nat * vecs => Nat.eqb 0 (fst p)) (combine (repeat 0%nat (length l)) l)) = l).
  { induction l as [|x l IHl]; [reflexivity|]. cbn. f_equal. exact IHl. }
  f_equal. exact (C (t0 :: o)).
Qed.
(** * Edges of one triangle *)
Lemma edge_ends t k e : nth_error (tri_edges t) k = Some e -> exists u v, e = [u; v] /\ In u t /\ In v t.
Proof.
  intros E. apply nth_error_In in E. destruct t as [|a [|b [|c [|]]]]; cbn in E; try contradiction.
  destruct E as [<-|[<-|[<-|[]]]]; [exists a, b|exists a, c|exists b, c]; cbn; auto 10.
Qed.
Lemma tri_edge_of t p q : length t = 3%nat -> In p (map dp t) -> In q (map dp t) -> p <> q ->
  exists k e, (k < 3)%nat /\ nth_error (tri_edges t) k = Some e /\ same_set (map dp e) [p; q].
Proof.
  intros L Hp Hq N. destruct t as [|a [|b [|c [|]]]]; try discriminate L. cbn in Hp, Hq.
  destruct Hp as [<-|[<-|[<-|[]]]], Hq as [<-|[<-|[<-|[]]]]; try congruence.
  - exists 0%nat, [a; b]. split; [lia|]. split; [reflexivity|]. intros x; cbn; tauto.
  - exists 1%nat, [a; c]. split; [lia|]. split; [reflexivity|]. intros x; cbn; tauto.
  - exists 0%nat, [a; b]. split; [lia|]. split; [reflexivity|]. intros x; cbn; tauto.
  - exists 2%nat, [b; c]. split; [lia|]. split; [reflexivity|]. intros x; cbn; tauto.
  - exists 1%nat, [a; c]. split; [lia|]. split; [reflexivity|]. intros x; cbn; tauto.
  - exists 2%nat, [b; c]. split; [lia|]. split; [reflexivity|]. intros x; cbn; tauto.
Qed.
Lemma edge_distinct t k e k' e' : NoDup (map dp t) -> nth_error (tri_edges t) k = Some e -> nth_error (tri_edges t) k' = Some e' ->
  same_set (map dp e) (map dp e') -> k = k'.
Proof.
  intros ND E E' S. destruct t as [|a [|b [|c [|]]]]; try (destruct k; discriminate E). cbn [map] in ND.
  inversion ND as [|? ? N1 ND1]; subst. inversion ND1 as [|? ? N2 _]; subst. cbn in N1, N2.
  assert (Nab : dp a <> dp b) by (intros X; apply N1; auto). assert (Nac : dp a <> dp c) by (intros X; apply N1; auto). assert (Nbc : dp b <> dp c) by (intros X; apply N2; auto).
  pose proof (S (dp a)) as Sa. pose proof (S (dp b)) as Sb. pose proof (S (dp c)) as Sc. clear S.
  destruct k as [|[|[|k]]]; try (destruct k; discriminate E); injection E as <-; destruct k' as [|[|[|k']]]; try (destruct k'; discriminate E'); injection E' as <-; try reflexivity; exfalso; cbn in Sa, Sb, Sc;
    first [destruct (proj1 Sa) as [?|[?|[]]]; solve [auto|congruence] | destruct (proj1 Sb) as [?|[?|[]]]; solve [auto|congruence] | destruct (proj1 Sc) as [?|[?|[]]]; solve [auto|congruence]].
Qed.
Lemma edge_ne t k e u v : NoDup (map dp t) -> nth_error (tri_edges t) k = Some e -> e = [u; v] -> dp u <> dp v.
Proof.
  intros ND E ->. destruct t as [|a [|b [|c [|]]]]; try (destruct k; discriminate E). cbn [map] in ND.
  inversion ND as [|? ? N1 ND1]; subst. inversion ND1 as [|? ? N2 _]; subst. cbn in N1, N2.
  destruct k as [|[|[|k]]]; try (destruct k; discriminate E); injection E as <- <-; intros X; auto.
Qed.

Section Main.
Variable h : R.
Variable o : obj4.
Hypothesis To : tris o.
Hypothesis Le : level h (concat o).
Hypothesis NF : Forall (fun t => forall a b c, t = [a; b; c] -> ~ flat3 (dp a) (dp b) (dp c)) o.
Hypothesis EE : edge_to_edge (map (map dp) o).
Let ts := map (map dp) o.

Lemma L3 : Forall (fun t : vecs => length t = 3%nat) o.
Proof. eapply Forall_impl; [|exact To]. intros t [L _]. exact L. Qed.
Lemma triangs : Forall (triang h) ts.
Proof.
  unfold ts. apply Forall_map, Forall_forall. intros t Ht. unfold tris in To. rewrite Forall_forall in To, NF. destruct (To t Ht) as [L _].
  destruct t as [|a [|b [|c [|]]]]; try discriminate L. exists (dp a), (dp b), (dp c). split; [reflexivity|].
  unfold level in Le. rewrite Forall_forall in Le. assert (K : forall v, In v [a; b; c] -> height (dp v) = h) by (intros v Hv; apply Le, in_concat; eauto).
  repeat (split; [apply K; cbn; auto|]). exact (NF _ Ht a b c eq_refl).
Qed.
Lemma triang_NoDup t : triang h t -> NoDup t.
Proof.
  intros (a & b & c & -> & _ & _ & _ & N). constructor; [|constructor; [|constructor; [intros []|constructor]]].
  - intros [<-|[<-|[]]]; apply N; [apply D_pp|apply D_pxp].
  - intros [<-|[]]. apply N, D_px.
Qed.
Lemma nodups t : In t o -> NoDup (map dp t).
Proof. intros Ht. apply triang_NoDup. pose proof triangs as T. rewrite Forall_forall in T. apply T. unfold ts. apply in_map, Ht. Qed.
Lemma good3 : Forall (fun t => length t = 3%nat /\ goods 6 t /\ NoDup (map dppoint t)) o.
Proof.
  apply Forall_forall. intros t Ht. pose proof To as T'. unfold tris in T'. rewrite Forall_forall in T'. destruct (T' t Ht) as [L G]. split; [exact L|]. split; [exact G|]. apply dp_NoDup, nodups, Ht.
Qed.
Lemma dreg x : dregion o x <-> reg ts x.
Proof.
  unfold ts. split.
  - intros (t & Ht & Hx). exists (map dp t). split; [apply in_map, Ht|exact Hx].
  - intros (t & Ht & Hx). apply in_map_iff in Ht as (t' & <- & Ht). exists t'. auto.
Qed.
Lemma ts_nth i t : nth_error o i = Some t -> nth_error ts i = Some (map dp t).
Proof. intros E. unfold ts. rewrite nth_error_map, E. reflexivity. Qed.
Lemma ts_inv i t : nth_error ts i = Some t -> exists t', nth_error o i = Some t' /\ t = map dp t'.
Proof. unfold ts. rewrite nth_error_map. destruct (nth_error o i) as [t'|]; [|discriminate]. intros [= <-]. eauto. Qed.

Lemma donce_lone i t k u v : nth_error o i = Some t -> nth_error (tri_edges t) k = Some [u; v] ->
  (donce [u; v] (edges_of 3 o) <-> lone ts (dp u) (dp v)).
Proof.
  intros Ei Ek. change (edges_of 3 o) with (concat (map tri_edges o)). pose proof (nth_error_In _ _ Ei) as Ht. pose proof (edge_ends _ _ _ Ek) as (u' & v' & Euv & Iu & Iv). injection Euv as <- <-.
  assert (Hk : (k < 3)%nat). { pose proof L3 as L. rewrite Forall_forall in L. specialize (L t Ht). destruct t as [|a [|b [|c [|]]]]; try discriminate L. assert (H : (k < length (tri_edges [a; b; c]))%nat) by (apply nth_error_Some; congruence). exact H. }
  pose proof (edge_pos o L3 i t k Ei Hk) as Pos. rewrite Ek in Pos.
  pose proof (edge_ne t k _ u v (nodups t Ht) Ek eq_refl) as N.
  split.
  - intros (j & (g & Eg & Sg) & Uniq). assert (Ej : j = (3 * i + k)%nat) by (apply Uniq; exists [u; v]; split; [exact Pos|intros x; tauto]).
    exists i, (map dp t). split; [apply ts_nth, Ei|]. split; [apply in_map, Iu|]. split; [apply in_map, Iv|]. split; [exact N|].
    intros j' w Ej' Hu Hv. apply ts_inv in Ej' as (t' & Ej' & ->).
    pose proof (nth_error_In _ _ Ej') as Ht'. pose proof L3 as L. rewrite Forall_forall in L.
    destruct (tri_edge_of t' _ _ (L t' Ht') Hu Hv N) as (k' & e' & Hk' & Ek' & Se').
    assert (Ex : j = (3 * j' + k')%nat).
    { apply Uniq. exists e'. split; [rewrite (edge_pos o L3 j' t' k' Ej' Hk'); exact Ek'|]. apply dp_same. intros x. cbn [map]. specialize (Se' x). tauto. }
    lia.
  - intros (i' & t' & Ei' & Hu & Hv & _ & Only). assert (Eii : i = i') by (apply (Only i (map dp t) (ts_nth i t Ei)); apply in_map; assumption).
    exists (3 * i + k)%nat. split; [exists [u; v]; split; [exact Pos|intros x; tauto]|].
    intros n (g & En & Sg). destruct (edge_pos_inv o L3 n g En) as (j & w & k' & Ej & Hk' & -> & Ek').
    pose proof (edge_ends _ _ _ Ek') as (a & b & -> & Ia & Ib). apply dp_same in Sg.
    assert (Hin : forall x, In x (map dp [u; v]) -> In x (map dp w)).
    { intros x Hx. apply Sg in Hx. cbn [map In] in Hx. destruct Hx as [<-|[<-|[]]]; apply in_map; assumption. }
    assert (Ejj : j = i') by (apply (Only j (map dp w) (ts_nth j w Ej)); apply Hin; cbn [map In]; auto).
    subst i' j. rewrite Ei in Ej. injection Ej as <-. f_equal. exact (edge_distinct t k _ k' _ (nodups t Ht) Ek Ek' Sg).
Qed.

(** Edges with the same middle have the same ends. *)
Lemma mid_one t p q p' q' : In t ts -> In p t -> In q t -> p <> q -> In p' t -> In q' t -> hull [p'; q'] (line (1/2) p q) -> In p [p'; q'] /\ In q [p'; q'].
Proof.
  intros Ht Hp Hq N Hp' Hq' Hm. destruct (third h ts triangs t p q Ht Hp Hq N) as (r & _ & _ & _ & ND & St).
  assert (I : incl [p'; q'] [p; q; r]) by (intros x [<-|[<-|[]]]; apply St; assumption).
  destruct (edge_point_pos p q r (1/2) ND ltac:(lra)) as (Q1 & Q2).
  split; [exact (need p q r _ _ Q1 I Hm)|exact (need q r p _ _ Q2 (incl_rot _ _ _ _ I) Hm)].
Qed.
Lemma half_hull p q : hull [p; q] (line (1/2) p q). Proof. apply hull2_line. exists (1/2). split; [lra|reflexivity]. Qed.
Lemma mid_same e g : In e (edges_of 3 o) -> In g (edges_of 3 o) -> dpcentre g = dpcentre e -> same_set (map dppoint e) (map dppoint g).
Proof.
  intros He Hg E. apply In_nth_error in He as (n & En). apply In_nth_error in Hg as (m & Em). change (edges_of 3 o) with (concat (map tri_edges o)) in *.
  destruct (edge_pos_inv o L3 n e En) as (i & t & k & Ei & _ & _ & Ek). destruct (edge_pos_inv o L3 m g Em) as (j & w & k' & Ej & _ & _ & Ek').
  destruct (edge_ends _ _ _ Ek) as (u & v & -> & Iu & Iv). destruct (edge_ends _ _ _ Ek') as (u' & v' & -> & Iu' & Iv').
  pose proof (nth_error_In _ _ Ei) as Ht. pose proof (nth_error_In _ _ Ej) as Hw.
  pose proof (edge_ne t k _ u v (nodups t Ht) Ek eq_refl) as N. pose proof (edge_ne w k' _ u' v' (nodups w Hw) Ek' eq_refl) as N'.
  apply centre_eq in E. apply dp_same. cbn [map].
  assert (Tt : In (map dp t) ts) by (apply in_map, Ht). assert (Tw : In (map dp w) ts) by (apply in_map, Hw).
  assert (Iu1 : In (dp u) (map dp t)) by (apply in_map, Iu). assert (Iv1 : In (dp v) (map dp t)) by (apply in_map, Iv).
  assert (Iu2 : In (dp u') (map dp w)) by (apply in_map, Iu'). assert (Iv2 : In (dp v') (map dp w)) by (apply in_map, Iv').
  assert (Iw : In (dp u') (map dp t) /\ In (dp v') (map dp t)).
  { destruct (Nat.eq_dec i j) as [<-|Nij]; [rewrite Ei in Ej; injection Ej as <-; auto|].
    destruct (EE i j _ _ (ts_nth i t Ei) (ts_nth j w Ej) Nij) as (_ & Meet).
    destruct (Meet (line (1/2) (dp u') (dp v'))) as (ps & I1 & I2 & Hps).
    - rewrite E. apply (hull_trans [dp u; dp v]); [apply half_hull|]. intros x [<-|[<-|[]]]; apply hull_mem; assumption.
    - apply (hull_trans [dp u'; dp v']); [apply half_hull|]. intros x [<-|[<-|[]]]; apply hull_mem; assumption.
    - destruct (third h ts triangs (map dp w) (dp u') (dp v') Tw Iu2 Iv2 N') as (r & _ & _ & _ & ND & St).
      assert (I : incl ps [dp u'; dp v'; r]) by (intros x Hx; apply St, I2, Hx).
      destruct (edge_point_pos (dp u') (dp v') r (1/2) ND ltac:(lra)) as (Q1 & Q2).
      split; apply I1; [exact (need _ _ r _ _ Q1 I Hps)|exact (need _ r _ _ _ Q2 (incl_rot _ _ _ _ I) Hps)]. }
  destruct Iw as (Iu3 & Iv3).
  assert (A : In (dp u) [dp u'; dp v'] /\ In (dp v) [dp u'; dp v']) by (apply (mid_one (map dp t)); try assumption; rewrite <- E; apply half_hull).
  assert (B : In (dp u') [dp u; dp v] /\ In (dp v') [dp u; dp v]) by (apply (mid_one (map dp t)); try assumption; rewrite E; apply half_hull).
  intros x. split; intros [<-|[<-|[]]]; tauto.
Qed.
End Main.
(** * Merging *)
Lemma merged_drawn merge (Q : vecs -> Prop) l r :
  (forall e f a, Q e -> Q f -> merge e f = Ok (Some a) -> Q a /\ forall x, hull (map dp a) x <-> hull (map dp e) x \/ hull (map dp f) x) ->
  merged merge l r -> Forall Q l -> Forall Q r /\ forall x, drawn r x <-> drawn l x.
Proof.
  intros H M. induction M as [l|l1 e l2 f l3 a r Em _ IH]; intros FQ; [split; [exact FQ|intros x; tauto]|].
  assert (Qe : Q e) by (rewrite Forall_forall in FQ; apply FQ; rewrite in_app_iff; cbn; auto).
  assert (Qf : Q f) by (rewrite Forall_forall in FQ; apply FQ; rewrite in_app_iff; cbn; rewrite in_app_iff; cbn; auto).
  destruct (H e f a Qe Qf Em) as (Qa & Ha).
  destruct IH as (Fr & Dr).
  { rewrite Forall_forall in *. intros x Hx. rewrite !in_app_iff in Hx. cbn [In] in Hx. destruct Hx as [Hx|[Hx|[Hx|[<-|[]]]]]; [| | |exact Qa]; apply FQ; rewrite in_app_iff; cbn [In]; rewrite in_app_iff; cbn [In]; auto. }
  split; [exact Fr|]. intros x. rewrite Dr. unfold drawn. split.
  - intros (g & Hg & Hx). rewrite !in_app_iff in Hg. cbn [In] in Hg. destruct Hg as [Hg|[Hg|[Hg|[<-|[]]]]].
    1-3: exists g; split; [rewrite in_app_iff; cbn [In]; rewrite in_app_iff; cbn [In]; auto|exact Hx].
    apply Ha in Hx as [Hx|Hx]; [exists e|exists f]; (split; [|exact Hx]); rewrite in_app_iff; cbn [In]; rewrite in_app_iff; cbn [In]; auto.
  - intros (g & Hg & Hx). rewrite in_app_iff in Hg. cbn [In] in Hg. rewrite in_app_iff in Hg. cbn [In] in Hg.
    destruct Hg as [Hg|[<-|[Hg|[<-|Hg]]]].
    + exists g. rewrite in_app_iff. auto.
    + exists a. split; [rewrite !in_app_iff; cbn; auto|]. apply Ha. auto.
    + exists g. rewrite !in_app_iff. auto.
    + exists a. split; [rewrite !in_app_iff; cbn; auto|]. apply Ha. auto.
    + exists g. rewrite !in_app_iff. auto.
Qed.

Lemma on_segment_dode p q r : length p = 6%nat -> length q = 6%nat -> length r = 6%nat ->
  dpoint_on_segment Rnum p [q; r] = Ok (on_segment Rnum (dp p) (dp q) (dp r)).
Proof.
  intros Lp Lq Lr. unfold dpoint_on_segment. rewrite dinternal_R by exact Lp. cbn [bind]. unfold dinternals. cbn [mapM]. rewrite !dinternal_R by assumption. reflexivity.
Qed.
(** A segment between two different points of vs. *)
Definition seg (vs : vecs) (e : vecs) : Prop := exists u v, e = [u; v] /\ In u vs /\ In v vs /\ dp u <> dp v.
Lemma good_len v vs : goods 6 vs -> In v vs -> length v = 6%nat.
Proof. intros G H. unfold goods in G. rewrite Forall_forall in G. destruct (G v H) as (_ & L). exact L. Qed.
Lemma seg_goods vs e : goods 6 vs -> seg vs e -> length e = 2%nat /\ goods 6 e.
Proof.
  intros G (u & v & -> & Hu & Hv & _). split; [reflexivity|]. unfold goods in *. rewrite Forall_forall in G. constructor; [apply G, Hu|constructor; [apply G, Hv|constructor]].
Qed.
Lemma seg_ends vs e p q : seg vs e -> ends e p q -> In p vs /\ In q vs /\ dp p <> dp q.
Proof. intros (u & v & -> & Hu & Hv & N) [E|E]; injection E as <- <-; auto. Qed.
Lemma ends_hull e p q x : ends e p q -> (hull (map dp e) x <-> hull [dp p; dp q] x).
Proof. intros [->| ->]; cbn [map]; [tauto|apply hull_swap]. Qed.
Lemma merge_seg vs e f a : goods 6 vs -> sharp vs -> seg vs e -> seg vs f -> dtwo_segment_into_one Rnum e f = Ok (Some a) ->
  seg vs a /\ forall x, hull (map dp a) x <-> hull (map dp e) x \/ hull (map dp f) x.
Proof.
  intros G Sh Se Sf E. destruct (seg_goods vs e G Se) as (Le & Ge). destruct (seg_goods vs f G Sf) as (Lf & Gf).
  destruct (dtwo_segment_spec Rnum e f Le Lf Ge Gf) as (m & Em & Hm). rewrite E in Em. injection Em as <-.
  destruct Hm as (p & q & p' & r & E1 & E2 & Ep & On & ->).
  destruct (seg_ends vs e p q Se E1) as (Ip & Iq & _). destruct (seg_ends vs f p' r Sf E2) as (_ & Ir & _).
  rewrite on_segment_dode in On by first [exact (good_len p _ G Ip)|exact (good_len q _ G Iq)|exact (good_len r _ G Ir)]. injection On as On. apply on_segment_sound in On as (N & y & Hy & Dy).
  split; [exists q, r; auto|]. intros x. rewrite (ends_hull e p q x E1), (ends_hull f p' r x E2), <- (proj1 (dp_iff p p') Ep). cbn [map].
  destruct (Sh p q r Ip Iq Ir) as [Hp|Hp]; [apply hull_divide, Hp|]. specialize (Hp y Hy). lra.
Qed.

Lemma boundary_ext h (A B : R3 -> Prop) x : (forall y, A y <-> B y) -> (boundary h A x <-> boundary h B x).
Proof.
  intros H. unfold boundary. split; intros (Hx & K); (split; [exact Hx|]); intros eps P; destruct (K eps P) as ((y & A1 & A2 & A3) & z & B1 & B2 & B3);
    (split; [exists y; split; [exact A1|]; split; [apply H; exact A2|exact A3]|exists z; split; [exact B1|]; split; [rewrite H in *; exact B2|exact B3]]).
Qed.

Lemma outline_R h draws o : o <> [] -> tris o -> level h (concat o) ->
  Forall (fun t => forall a b c, t = [a; b; c] -> ~ flat3 (dp a) (dp b) (dp c)) o -> edge_to_edge (map (map dp) o) -> sharp (concat o) ->
  (forall i j t u, nth_error o i = Some t -> nth_error o j = Some u -> i <> j -> dcoplanar_check_two_triangles Rnum (draws i j) t u = Ok true) ->
  exists r, doutline Rnum draws o = Ok r /\ (forall x, drawn r x <-> boundary h (dregion o) x) /\
    Forall (seg (concat o)) r /\ r <> [] /\
    forall i j e f p q p' s, i <> j -> nth_error r i = Some e -> nth_error r j = Some f -> ends e p q -> ends f p' s -> dp p = dp p' -> dp q <> dp s ->
      ~ hull [dp q; dp s] (dp p).
Proof.
  intros Ne To Le NF EE Sh Hc. pose proof (triangs h o To Le NF) as Tr. pose proof (good3 h o To Le NF) as G3.
  assert (Gv : goods 6 (concat o)).
  { apply Forall_forall. intros v Hv. apply in_concat in Hv as (t & Ht & Hv). unfold tris in To. rewrite Forall_forall in To. destruct (To t Ht) as (_ & G). unfold goods in G. rewrite Forall_forall in G. apply G, Hv. }
  assert (Eseg : forall e, In e (edges_of 3 o) -> seg (concat o) e).
  { intros e He. apply In_nth_error in He as (n & En). destruct (edge_pos_inv o (L3 o To) n e En) as (i & t & k & Ei & _ & _ & Ek). pose proof (nth_error_In _ _ Ei) as Ht.
    destruct (edge_ends _ _ _ Ek) as (u & v & -> & Iu & Iv). exists u, v. split; [reflexivity|]. split; [apply in_concat; eauto|]. split; [apply in_concat; eauto|].
    exact (edge_ne t k _ u v (nodups h o To Le NF t Ht) Ek eq_refl). }
  (* the border *)
  destruct (dborder_complete o G3) as (b & Eb & Cb).
  pose proof (dborder_any Rnum o b G3 Eb) as Sb.
  assert (Db : forall x, drawn b x <-> exists p q, lone (map (map dp) o) p q /\ hull [p; q] x).
  { intros x. split.
    - intros (e & He & Hx). destruct (Sb e He) as (Ie & On). apply In_nth_error in Ie as (n & En). destruct (edge_pos_inv o (L3 o To) n e En) as (i & t & k & Ei & _ & _ & Ek).
      destruct (edge_ends _ _ _ Ek) as (u & v & -> & _). exists (dp u), (dp v). split; [|exact Hx]. apply (donce_lone h o To Le NF i t k u v Ei Ek), On.
    - intros (p & q & L & Hx). pose proof L as (i & t' & Ei & Ip & Iq & N & _). rewrite nth_error_map in Ei. destruct (nth_error o i) as [t|] eqn:Eo; [|discriminate]. injection Ei as <-.
      pose proof (nth_error_In _ _ Eo) as Ht. pose proof (L3 o To) as L3'. rewrite Forall_forall in L3'.
      destruct (tri_edge_of t p q (L3' t Ht) Ip Iq N) as (k & e & Hk & Ek & Se).
      assert (Ie : In e (edges_of 3 o)) by (change (edges_of 3 o) with (concat (map tri_edges o)); eapply nth_error_In; rewrite (edge_pos o (L3 o To) i t k Eo Hk); exact Ek).
      exists e. split; [|apply (hull_same [p; q]); [intros z; symmetry; apply Se|exact Hx]].
      apply Cb; [exact Ie| |].
      + destruct (edge_ends _ _ _ Ek) as (u & v & -> & _). apply (donce_lone h o To Le NF i t k u v Eo Ek).
        pose proof (edge_ne t k _ u v (nodups h o To Le NF t Ht) Ek eq_refl) as Nuv. cbn [map] in Se.
        assert (Eu : (dp u = p /\ dp v = q) \/ (dp u = q /\ dp v = p)).
        { pose proof (proj1 (Se (dp u)) (or_introl eq_refl)) as [Hu|[Hu|[]]]; pose proof (proj1 (Se (dp v)) (or_intror (or_introl eq_refl))) as [Hv|[Hv|[]]]; try (exfalso; congruence); auto. }
        destruct Eu as [[-> ->]|[-> ->]]; [exact L|]. destruct L as (i' & w & E1 & E2 & E3 & E4 & E5). exists i', w. repeat (split; [assumption|]). split; [congruence|]. intros j w' F1 F2 F3. exact (E5 j w' F1 F3 F2).
      + intros g Hg Cg. exact (mid_same h o To Le NF EE e g Ie Hg Cg). }
  assert (Nb : b <> []).
  { destruct (lone_exists h (map (map dp) o) Tr EE) as (p & q & L); [destruct o; [contradiction|discriminate]|].
    intros ->. destruct (proj2 (Db p)) as (e & [] & _). exists p, q. split; [exact L|]. apply hull_mem. left. reflexivity. }
  (* the group *)
  assert (Eg : get_sets_of_coplanar_triangles (fun i j => dcoplanar_check_two_triangles Rnum (draws i j)) o = Ok [o]).
  { destruct o as [|t0 o']; [contradiction|]. apply one_group. intros i t Ei. apply Hc; [exact Ei|reflexivity|discriminate]. }
  (* the edges *)
  assert (Fb : Forall (fun e => length e = 2%nat /\ goods 6 e) b).
  { apply Forall_forall. intros e He. apply (seg_goods (concat o)); [exact Gv|]. apply Eseg, Sb, He. }
  destruct (dunique_edges_R 2 b (or_introl eq_refl) Fb) as (es & Ees & I & _ & U & _). change (edges_of 2 b) with b in *.
  assert (Ese : dsurface_edges Rnum draws o = Ok es).
  { unfold dsurface_edges. rewrite Eg. cbn [bind]. unfold dall_borders. cbn [mapM]. rewrite Eb. cbn [bind]. destruct b as [|b0 b']; [contradiction|]. cbn [bind concat]. rewrite app_nil_r. exact Ees. }
  assert (De : forall x, drawn es x <-> drawn b x).
  { intros x. split; [intros (e & He & Hx); exists e; split; [apply I, He|exact Hx]|].
    intros (e & He & Hx). destruct (U e He) as (u & (Iu & Cu) & _). exists u. split; [exact Iu|].
    apply (hull_same (map dp e)); [|exact Hx]. apply dp_same, (mid_same h o To Le NF EE); [apply Sb, He|apply Sb, I, Iu|exact Cu]. }
  assert (Fe : Forall (seg (concat o)) es) by (apply Forall_forall; intros e He; apply Eseg, Sb, I, He).
  (* merging *)
  destruct (merge_segments_spec (dtwo_segment_into_one Rnum) es) as (out & _ & St & Sp).
  destruct (merge_loop_total (dtwo_segment_into_one Rnum) (S (length es)) es (seq 0 (length es)) (seg (concat o)) (ok_seq es)) as (r & Er); [rewrite seq_length; lia| |exact Fe|].
  { intros e f Qe Qf. destruct (seg_goods _ e Gv Qe) as (L1 & G1). destruct (seg_goods _ f Gv Qf) as (L2 & G2). destruct (dtwo_segment_spec Rnum e f L1 L2 G1 G2) as (m & Em & _).
    exists m. split; [exact Em|]. intros a ->. exact (proj1 (merge_seg _ e f a Gv Sh Qe Qf Em)). }
  assert (Eout : out = Ok (Some r)) by (rewrite <- (St (S (length es))) by lia; exact Er).
  destruct (Sp r Eout) as (M & Fin).
  destruct (merged_drawn _ (seg (concat o)) es r (fun e f a Qe Qf Em => merge_seg _ e f a Gv Sh Qe Qf Em) M Fe) as (Fr & Dr).
  exists r. split; [unfold doutline, dsurface_cleaner; rewrite Ese; cbn [bind]; rewrite (St (S (length es))) by lia; rewrite Eout; reflexivity|].
  assert (Dx : forall x, drawn r x <-> boundary h (dregion o) x).
  { intros x. rewrite Dr, De, Db, (boundary_ext h _ _ x (fun y => dreg o y)), (frontier h _ Tr EE). tauto. }
  split; [exact Dx|]. split; [exact Fr|]. split.
  { intros ->. destruct b as [|b0 b']; [contradiction|]. destruct (Eseg b0 (proj1 (Sb b0 (or_introl eq_refl)))) as (u & v & -> & _).
    destruct (proj2 (Dr (dp u))) as (e & [] & _). apply De. exists [u; v]. split; [left; reflexivity|]. apply hull_mem. left. reflexivity. }
  assert (K : forall i j e f p q p' s, (i < j)%nat -> nth_error r i = Some e -> nth_error r j = Some f -> ends e p q -> ends f p' s -> dp p = dp p' -> dp q <> dp s -> ~ hull [dp q; dp s] (dp p)).
  { intros i j e f p q p' s Hij Ei Ej E1 E2 Ep Nqs Hp.
    assert (Sm : dtwo_segment_into_one Rnum e f = Ok None).
    { apply nth_error_split in Ej as (la & lb & -> & Lj). rewrite nth_error_app1 in Ei by lia. apply nth_error_split in Ei as (l1 & l2 & -> & _). apply (Fin l1 e l2 f lb). rewrite <- app_assoc. reflexivity. }
    rewrite Forall_forall in Fr. assert (Qe : seg (concat o) e) by (eapply Fr, nth_error_In; exact Ei). assert (Qf : seg (concat o) f) by (eapply Fr, nth_error_In; exact Ej).
    destruct (seg_goods _ e Gv Qe) as (L1 & G1). destruct (seg_goods _ f Gv Qf) as (L2 & G2). destruct (dtwo_segment_spec Rnum e f L1 L2 G1 G2) as (m & Em & Hm). rewrite Sm in Em. injection Em as <-.
    specialize (Hm p q p' s E1 E2 (proj2 (dp_iff p p') Ep)). destruct (seg_ends _ e p q Qe E1) as (Ip & Iq & _). destruct (seg_ends _ f p' s Qf E2) as (_ & Is & _).
    rewrite on_segment_dode in Hm by first [exact (good_len p _ Gv Ip)|exact (good_len q _ Gv Iq)|exact (good_len s _ Gv Is)]. rewrite on_segment_complete in Hm by assumption. discriminate. }
  intros i j e f p q p' s Nij Ei Ej E1 E2 Ep Nqs Hp. destruct (lt_dec i j) as [L|L]; [exact (K i j e f p q p' s L Ei Ej E1 E2 Ep Nqs Hp)|].
  apply (K j i f e p' s p q ltac:(lia) Ej Ei E2 E1); [congruence|congruence|]. rewrite <- Ep. apply hull_swap, Hp.
Qed.
(** * Patches *)
Lemma patch_flat h o : patch h o -> Forall (fun t => forall a b c, t = [a; b; c] -> ~ flat3 (dp a) (dp b) (dp c)) o.
Proof. intros (_ & _ & _ & A & _). apply Forall_forall. intros t Ht a b c ->. apply parea_flat, A, Ht. Qed.
Lemma patch_outline h draws o : patch h o ->
  (forall i j t u, nth_error o i = Some t -> nth_error o j = Some u -> i <> j -> dcoplanar_check_two_triangles Rnum (draws i j) t u = Ok true) ->
  exists r, doutline Rnum draws o = Ok r /\ (forall x, drawn r x <-> boundary h (dregion o) x) /\
    Forall (seg (concat o)) r /\ r <> [] /\
    forall i j e f p q p' s, i <> j -> nth_error r i = Some e -> nth_error r j = Some f -> ends e p q -> ends f p' s -> dp p = dp p' -> dp q <> dp s ->
      ~ hull [dp q; dp s] (dp p).
Proof. intros Pa. pose proof (patch_flat h o Pa) as NF. destruct Pa as (Ne & To & Le & _ & EE & Sh). apply outline_R; assumption. Qed.

(** The hull of the outline is the hull of the object. *)
Lemma outline_hull h o r : patch h o -> (forall x, drawn r x <-> boundary h (dregion o) x) -> Forall (seg (concat o)) r ->
  forall x, hull (map dp (concat r)) x <-> hull (map dp (concat o)) x.
Proof.
  intros Pa Dr Fr x. pose proof (patch_flat h o Pa) as NF. destruct Pa as (Ne & To & Le & _ & EE & Sh). pose proof (triangs h o To Le NF) as Tr. rewrite Forall_forall in Fr.
  split; intros H; apply (hull_trans _ _ _ H); intros y Hy.
  - apply hull_mem. apply in_map_iff in Hy as (v & <- & Hv). apply in_map. apply in_concat in Hv as (e & He & Hv). destruct (Fr e He) as (u & w & -> & Iu & Iw & _). destruct Hv as [<-|[<-|[]]]; assumption.
  - apply in_map_iff in Hy as (v & <- & Hv).
    assert (Rv : reg (map (map dp) o) (dp v)). { apply dreg. apply in_concat in Hv as (t & Ht & Hv). exists t. split; [exact Ht|]. apply hull_mem, in_map, Hv. }
    assert (K : forall b, (exists p q, lone (map (map dp) o) p q /\ hull [p; q] b) -> hull (map dp (concat r)) b).
    { intros b Hb. apply (frontier h _ Tr EE) in Hb. rewrite <- (boundary_ext h _ _ b (fun y => dreg o y)) in Hb. apply Dr in Hb as (e & He & Hb).
      apply (hull_trans _ _ _ Hb). intros z Hz. apply hull_mem. apply in_map_iff in Hz as (w & <- & Hw). apply in_map, in_concat. eauto. }
    destruct (reg_between h _ Tr EE _ Rv) as (b1 & b2 & H1 & H2 & Hb). apply (hull_trans _ _ _ Hb). intros z [<-|[<-|[]]]; apply K; assumption.
Qed.

(** * The coplanarity check on one plane *)
Lemma dinternals_map vs : goods 6 vs -> dinternals Rnum vs = Ok (map dp vs).
Proof.
  unfold dinternals. induction 1 as [|v vs G _ IH]; [reflexivity|]. cbn [mapM map]. rewrite dinternal_R by apply G. cbn [bind]. rewrite IH. reflexivity.
Qed.
Lemma small_flat h (a b c : R3) : height a = h -> height b = h -> height c = h ->
  (small Rnum (cross3 (sub3 b a) (sub3 c a)) = true <-> Rabs (D a b c) < 1/1000000).
Proof.
  destruct a as [[a0 a1] a2], b as [[b0 b1] b2], c as [[c0 c1] c2]. unfold height, D. cbn [snd]. intros -> -> ->.
  assert (E : cross3 (sub3 (b0, b1, h) (a0, a1, h)) (sub3 (c0, c1, h) (a0, a1, h)) = (0, 0, det2 (sub3 (b0, b1, h) (a0, a1, h)) (sub3 (c0, c1, h) (a0, a1, h)))) by (cbn; eq3; ring).
  rewrite E, small_R, Rabs_R0. intuition lra.
Qed.
Lemma copl_level h draws t u : goods 6 (t ++ u) -> level h (t ++ u) ->
  exists vs, dremove_doubling_in_perp_space (A3 (t ++ u)) = Ok vs /\ incl vs (t ++ u) /\ NoDup (map dppoint vs) /\ same_set (map dppoint vs) (map dppoint (t ++ u)) /\
    (Forall (valid_draw (length vs)) draws -> exists b, dcoplanar_check_two_triangles Rnum draws t u = Ok b /\
      (b = true <-> (length vs <= 3)%nat \/ exists i j k v0 v1 v2, In (i, j, k) draws /\ nth_error vs i = Some v0 /\ nth_error vs j = Some v1 /\ nth_error vs k = Some v2 /\
         1/1000000 <= Rabs (D (dp v0) (dp v1) (dp v2)))).
Proof.
  intros G Lv. destruct (dperp_space_spec (t ++ u) G) as (vs & Ev & I & ND & S). exists vs. repeat (split; [assumption|]). intros Vd.
  assert (Gv : goods 6 vs) by (apply Forall_forall; intros v Hv; unfold goods in G; rewrite Forall_forall in G; apply G, I, Hv).
  assert (Hv : forall v, In v vs -> height (dp v) = h) by (intros v Hv; unfold level in Lv; rewrite Forall_forall in Lv; apply Lv, I, Hv).
  unfold dcoplanar_check_two_triangles. rewrite Ev. cbn [bind]. unfold dcoplanar_check_numeric_tau. rewrite dinternals_map by exact Gv. cbn [bind].
  destruct (le_lt_dec (length vs) 3) as [L|L].
  - exists true. split; [|tauto]. unfold coplanar_check_numeric. rewrite map_length. rewrite (proj2 (Nat.ltb_ge _ _) L). reflexivity.
  - assert (Nth : forall i p, nth_error (map dp vs) i = Some p -> exists v, nth_error vs i = Some v /\ p = dp v).
    { intros i p E. rewrite nth_error_map in E. destruct (nth_error vs i) as [v|]; [|discriminate]. injection E as <-. eauto. }
    destruct (coplanar_numeric_R draws (map dp vs)) as [[E Fl]|(i & j & k & pi & pj & pk & b & Hin & Ni & Nj & Nk & Sm & E & Hb)]; [rewrite map_length; exact Vd|rewrite map_length; exact L| |]; change (Num.pt Rnum) with R3 in *; rewrite E; cbn [bind].
    + exists false. split; [reflexivity|]. split; [discriminate|]. intros [K|(i & j & k & v0 & v1 & v2 & Hin & E0 & E1 & E2 & K)]; [lia|]. exfalso.
      rewrite Forall_forall in Fl. destruct (Fl _ Hin) as (n & En & Sn). assert (V : valid_draw (length (map dp vs)) (i, j, k)) by (rewrite map_length; rewrite Forall_forall in Vd; apply Vd, Hin).
      destruct (triple_normal_R (map dp vs) (i, j, k) V) as (pi & pj & pk & Ni & Nj & Nk & _ & Tn). rewrite Tn in En. injection En as <-.
      rewrite nth_error_map, E0 in Ni. rewrite nth_error_map, E1 in Nj. rewrite nth_error_map, E2 in Nk. cbn [option_map] in Ni, Nj, Nk.
      assert (pi = dp v0) by congruence. assert (pj = dp v1) by congruence. assert (pk = dp v2) by congruence. subst pi pj pk.
      apply (small_flat h) in Sn; [lra| | |]; apply Hv; eapply nth_error_In; eassumption.
    + destruct (Nth _ _ Ni) as (v0 & E0 & ->). destruct (Nth _ _ Nj) as (v1 & E1 & ->). destruct (Nth _ _ Nk) as (v2 & E2 & ->).
      assert (H0 : height (dp v0) = h) by (apply Hv; eapply nth_error_In; eassumption). assert (H1 : height (dp v1) = h) by (apply Hv; eapply nth_error_In; eassumption). assert (H2 : height (dp v2) = h) by (apply Hv; eapply nth_error_In; eassumption).
      exists b. split; [reflexivity|]. split.
      * intros _. right. exists i, j, k, v0, v1, v2. repeat (split; [assumption|]). apply Rnot_lt_le. intros Lt. apply (small_flat h) in Lt; try assumption. congruence.
      * intros _. apply Hb. apply Forall_map, Forall_forall. intros v Iv. specialize (Hv v Iv).
        replace (dot3 (cross3 (sub3 (dp v1) (dp v0)) (sub3 (dp v2) (dp v0))) (sub3 (dp v) (dp v0))) with 0; [rewrite Rabs_R0; lra|].
        revert Hv H0 H1 H2. destruct (dp v) as [[a0 a1] a2], (dp v0) as [[b0 b1] b2], (dp v1) as [[c0 c1] c2], (dp v2) as [[d0 d1] d2]. unfold height. cbn. intros -> -> -> ->. ring.
Qed.
