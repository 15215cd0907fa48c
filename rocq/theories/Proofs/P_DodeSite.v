(** Site symmetry and coset decomposition of dode2/symmetry.py: C51, C52. *)
From Coq Require Import Reals List ZArith Lia Lra Bool Sorting.Sorted.
From Verif Require Import Base.Res Model.Tau Model.Arr Model.Num Model.IcoMath1 Model.DodeSymmetry Spec.Value Spec.RVec Spec.Shape
  Spec.Sets Spec.Cosets.
Import ListNotations.
Local Open Scope R_scope.

From Verif Require Import Model.Unique Proofs.ResLemmas Proofs.ValueLemmas Proofs.MatDec Proofs.GroupLemmas
  Proofs.DodeGroup Proofs.CosetLemmas Proofs.SiteLemmas.

(** C51: for every subgroup the representatives hit every left coset exactly once;
    the first is the identity, and their number is the index. *)
Lemma L_C51_transversal : forall H, subgroup dodesymop H -> exists reps, coset_of H = Ok reps /\
  transversal dodesymop H reps /\ (length reps * length H = length dodesymop)%nat /\ (exists r, reps = 0%nat :: r).
Proof. intros H SH. rewrite dodesymop_length. exact (coset_transversal H SH). Qed.

(** Hence the cosets r*H of the representatives r are pairwise disjoint and their
    union is the group. *)
Lemma L_C51_disjoint_cover : forall H reps, subgroup dodesymop H -> coset_of H = Ok reps ->
  (forall r r' g, In r reps -> In r' reps -> in_coset dodesymop H r g -> in_coset dodesymop H r' g -> r = r') /\
  (forall op, In op dodesymop <-> exists r a h b, In r reps /\ nth_error dodesymop r = Some a /\
     In h H /\ nth_error dodesymop h = Some b /\ op = matmul a b).
Proof.
  intros H reps SH E. destruct (coset_transversal H SH) as (reps' & E' & (N & L & U) & _). rewrite E in E'. injection E' as <-.
  assert (G : forall r g, in_coset dodesymop H r g -> (g < length dodesymop)%nat).
  { intros r g (a & h & b & _ & _ & _ & Eg). apply nth_error_Some. congruence. }
  split.
  - intros r r' g Hr Hr' Hg Hg'. destruct (U g (G _ _ Hg)) as (r0 & _ & Un). rewrite <- (Un r), <- (Un r'); auto.
  - intros op. split.
    + intros Hop. apply In_nth_error in Hop as (g & Eg). assert (Lg : (g < length dodesymop)%nat) by (apply nth_error_Some; congruence).
      destruct (U g Lg) as (r & (Hr & (a & h & b & Ea & Hh & Eb & Em)) & _). exists r, a, h, b. repeat split; auto. congruence.
    + intros (r & a & h & b & Hr & Ea & Hh & Eb & ->). apply (ig_mul _ _ dodesymop_group); eapply nth_error_In; eassumption.
Qed.

(** remove_overlaps: the distinct elements in increasing order. *)
Lemma L_C51_remove_overlaps : forall l, same_set (remove_overlaps l) l /\ StronglySorted lt (remove_overlaps l).
Proof. intros l. split; [intros x; apply overlaps_In|apply overlaps_sorted]. Qed.

(** find_overlaps on lists without repetitions: is there a common element? *)
Lemma L_C51_find_overlaps : forall l1 l2, NoDup l1 -> NoDup l2 ->
  (find_overlaps l1 l2 = true <-> exists x, In x l1 /\ In x l2).
Proof. exact find_overlaps_true. Qed.

(** On arbitrary lists it also answers True when one list repeats an element. *)
Lemma L_C51_find_overlaps_general : forall l1 l2, find_overlaps l1 l2 = false <-> NoDup (l1 ++ l2).
Proof. exact find_overlaps_false. Qed.

(** site_symmetry_and_coset returns what site_symmetry and coset return, in any
    arithmetic. *)
Lemma L_C51_combined : forall (N : num) site n l c,
  site_symmetry_and_coset N site n = Ok (l, c) <-> site_symmetry N site n = Ok l /\ coset N site n = Ok c.
Proof.
  intros N site n l c. rewrite site_split_eq. unfold coset.
  destruct (site_symmetry N site n) as [l'|]; cbn [bind]; [|split; [discriminate|intros [H _]; discriminate]].
  destruct (coset_of l') as [c'|]; cbn [bind]; [|split; [discriminate|intros [_ H]; discriminate]].
  split; [intros H; injection H as -> ->; auto|intros [H1 H2]; injection H1 as ->; injection H2 as ->; reflexivity].
Qed.

Definition refl_group : list nat := [0;6;12;18]%nat.
Lemma refl_group_ok : subgroup dodesymop refl_group.
Proof.
  split; [repeat constructor; cbn; intuition discriminate|].
  split; [exists 0%nat; split; [left; reflexivity|vm_compute; reflexivity]|]. split.
  - assert (C : forallb (fun i => forallb (fun j => existsb (Nat.eqb (mu i j)) refl_group) refl_group) refl_group = true) by (vm_compute; reflexivity).
    intros i j Hi Hj. rewrite forallb_forall in C. specialize (C i Hi). rewrite forallb_forall in C. specialize (C j Hj).
    apply existsb_exists in C as (k & Hk & Ek). apply Nat.eqb_eq in Ek. subst k.
    assert (Lt : forall i, In i refl_group -> (i < 24)%nat) by (intros x; unfold refl_group; cbn [In]; lia).
    exists (opn i), (opn j), (mu i j). rewrite <- mu_op, !nth_opn by auto. auto.
  - assert (C : forallb (fun i => existsb (Nat.eqb (inv24 i)) refl_group) refl_group = true) by (vm_compute; reflexivity).
    intros i Hi. rewrite forallb_forall in C. specialize (C i Hi).
    apply existsb_exists in C as (k & Hk & Ek). apply Nat.eqb_eq in Ek. subst k.
    assert (Lt : forall i, In i refl_group -> (i < 24)%nat) by (intros x; unfold refl_group; cbn [In]; lia).
    destruct (inv24_spec i (Lt i Hi)) as (Lv & Ev & _).
    exists (opn i), (opn (inv24 i)), (inv24 i). rewrite <- mu_op, Ev, opn_0, !nth_opn by auto. auto.
Qed.
Example E_C51_ex : subgroup dodesymop [0;6;12;18]%nat /\ coset_of [0;6;12;18]%nat = Ok [0;1;2;3;4;5]%nat.
Proof. split; [exact refl_group_ok|vm_compute; reflexivity]. Qed.

(** C52: the operations returned are exactly those that bring the site back, within
    the tolerance 1e-6, after a translation with components in -1,0,1. *)
Lemma L_C52_exact : forall site n, good 6 site ->
  exists l, site_symmetry Rnum site n = Ok l /\ StronglySorted lt l /\
    forall i, In i l <-> exists op t, nth_error dodesymop i = Some op /\ small_shift (tdim n) t /\
      vnorm (vsub (vals SIN site) (vadd (matvec (IZRm op) (vals SIN site)) (map IZR t))) < 1 / 1000000.
Proof.
  intros site n G. destruct (site_symmetry_R site n G) as (l & E & S & H). exists l. split; [exact E|]. split; [exact S|].
  intros i. rewrite H. unfold kept, defect. split; [intros (op & Eo & t & Ht)|intros (op & t & Eo & Ht)]; exists op; [exists t|split; [|exists t]]; auto.
Qed.

(** The identity is always found. *)
Lemma L_C52_identity : forall site n l, good 6 site -> site_symmetry Rnum site n = Ok l -> In 0%nat l.
Proof.
  intros site n l G E. destruct (site_symmetry_R site n G) as (l' & E' & _ & H). rewrite E in E'. injection E' as <-.
  apply H. exists (identity 6). split; [exact dodesymop_hd|]. exists [0;0;0;0;0;0]%Z. split.
  - apply smallb_spec. unfold tdim. destruct (n =? 4)%Z; vm_compute; reflexivity.
  - assert (L : length (vals SIN site) = 6%nat) by (unfold vals; rewrite map_length; apply G).
    rewrite vnorm_zero; [lra|]. unfold defect. rewrite MatLemmas.matvec_identity by exact L.
    destruct (list6 _ L) as (?&?&?&?&?&?&->). unfold vsub, vadd; cbn [map zipWith]. repeat (apply Forall_cons; [ring|]). apply Forall_nil.
Qed.

(** For sites of the unit cell (or of the cell centred at the origin) with
    denominators up to a million it is exactly the site-symmetry group; ndim does
    not matter. *)
Lemma L_C52_unit_cell : forall site n q, good 6 site -> rational q (vals SIN site) -> (0 < q <= 1000000)%Z ->
  cell (vals SIN site) \/ ccell (vals SIN site) ->
  exists l, site_symmetry Rnum site n = Ok l /\ site_group dodesymop (vals SIN site) l.
Proof. exact site_group_cell. Qed.

(** That is a subgroup, and coset then returns one representative of every coset of
    the site-symmetry group: one operation for every equivalent position. *)
Lemma L_C52_coset : forall site n q, good 6 site -> rational q (vals SIN site) -> (0 < q <= 1000000)%Z ->
  cell (vals SIN site) \/ ccell (vals SIN site) ->
  exists l reps, site_symmetry_and_coset Rnum site n = Ok (l, reps) /\ coset Rnum site n = Ok reps /\
    site_group dodesymop (vals SIN site) l /\ subgroup dodesymop l /\ transversal dodesymop l reps.
Proof.
  intros site n q G Rq Hq Hc. destruct (site_group_cell site n q G Rq Hq Hc) as (l & E & Sg).
  assert (L : length (vals SIN site) = 6%nat) by (unfold vals; rewrite map_length; apply G).
  pose proof (site_group_subgroup _ l L Sg) as SH. destruct (coset_transversal l SH) as (reps & Er & T & _).
  assert (Ec : coset Rnum site n = Ok reps) by (unfold coset; rewrite E; exact Er).
  exists l, reps. split; [apply L_C51_combined; auto|]. auto.
Qed.

(** The equivalent positions: representatives in different cosets give points that
    differ by more than a lattice vector, and every operation's image is the image
    under some representative up to a lattice vector. *)
Lemma L_C52_equivalent_positions : forall x l reps, length x = 6%nat -> site_group dodesymop x l -> coset_of l = Ok reps ->
  (forall r r' a a', In r reps -> In r' reps -> nth_error dodesymop r = Some a -> nth_error dodesymop r' = Some a' ->
     integral (vsub (matvec (IZRm a) x) (matvec (IZRm a') x)) -> r = r') /\
  (forall op, In op dodesymop -> exists r a, In r reps /\ nth_error dodesymop r = Some a /\
     integral (vsub (matvec (IZRm a) x) (matvec (IZRm op) x))).
Proof.
  intros x l reps Lx Sg E. pose proof (site_group_subgroup x l Lx Sg) as SH.
  destruct (coset_transversal l SH) as (reps' & E' & (N & Lt & U) & _). rewrite E in E'. injection E' as <-.
  rewrite dodesymop_length in *. pose proof (subgroup_sub24 l SH) as S24. split.
  - intros r r' a a' Hr Hr' Ea Ea' I. destruct (opn_nth _ _ Ea) as [Lr Ea2], (opn_nth _ _ Ea') as [Lr' Ea2'].
    (* r' = r h with h = r^-1 r' *)
    destruct (inv24_spec r Lr) as (Lv & Ev & Ev'). set (h := mu (inv24 r) r').
    assert (Lh : (h < 24)%nat) by (apply mu_lt; assumption).
    assert (Eh : mu r h = r') by (unfold h; rewrite mu_assoc, Ev, mu_0_l by assumption; reflexivity).
    assert (Sq : forall i, (i < 24)%nat -> square 6 (opn i)) by (intros i Hi; apply op_sq; eapply nth_error_In; apply nth_opn; exact Hi).
    assert (Hh : In h l).
    { apply (proj2 Sg). exists (opn h). split; [apply nth_opn; exact Lh|]. unfold fixes_site.
      apply (integral_mat (opn (inv24 r))) in I. rewrite matvec_sub6 in I; [|apply Sq; exact Lv|apply sq_len; rewrite Ea2; apply Sq; exact Lr|apply sq_len; rewrite Ea2'; apply Sq; exact Lr'].
      rewrite <- !(matvec_mul 6) in I; try lia; try (rewrite ?Ea2, ?Ea2'; apply Sq; assumption); try exact Lx.
      rewrite Ea2, Ea2', <- !mu_op, Ev', opn_0 in I by assumption. rewrite MatLemmas.matvec_identity in I by exact Lx. exact I. }
    destruct (U r' Lr') as (r0 & _ & Un).
    assert (C1 : in_coset dodesymop l r r') by (apply (in_coset_row l S24); [exact Lr|]; apply (row_In l); eauto).
    assert (C2 : in_coset dodesymop l r' r') by (apply (in_coset_row l S24); [exact Lr'|]; apply (row_self l S24); exact Lr').
    rewrite <- (Un r), <- (Un r'); auto.
  - intros op Hop. apply In_nth_error in Hop as (g & Eg). destruct (opn_nth _ _ Eg) as [Lg Eg'].
    destruct (U g Lg) as (r & (Hr & (a & h & b & Ea & Hh & Eb & Em)) & _). exists r, a. split; [exact Hr|]. split; [exact Ea|].
    assert (Eop : op = matmul a b) by congruence. rewrite Eop.
    assert (Sa : square 6 a) by (apply op_sq; eapply nth_error_In; exact Ea).
    assert (Sb : square 6 b) by (apply op_sq; eapply nth_error_In; exact Eb).
    rewrite (matvec_mul 6) by (assumption || lia). rewrite <- matvec_sub6; [|exact Sa|exact Lx|apply sq_len; exact Sb].
    apply integral_mat. apply (proj2 Sg) in Hh as (b' & Eb' & F). rewrite Eb in Eb'. injection Eb' as <-. exact F.
Qed.

(** Outside the cell the result is wrong: the lattice point (1,0,0,0,0,0) has all 24
    operations in its site-symmetry group, but only some are found, they do not form
    a subgroup, and the coset representatives describe two equivalent positions
    instead of one. *)
Lemma L_C52_lattice_point_refuted : exists site l, good 6 site /\ site_group dodesymop (vals SIN site) (seq 0 24) /\
  site_symmetry Rnum site 5 = Ok l /\ (length l < 24)%nat /\ ~ subgroup dodesymop l /\ coset Rnum site 5 = Ok [0; 13]%nat.
Proof.
  exists (map tint [1;0;0;0;0;0]%Z), (zsite_symmetry [1;0;0;0;0;0]%Z 5).
  split; [apply tint_good; reflexivity|]. split; [rewrite tint_vals; apply site_group_int; reflexivity|].
  split; [apply site_symmetry_int; reflexivity|]. split; [vm_compute; lia|]. split.
  - intros SH. apply subgroup_sub24 in SH.
    assert (C : forallb (fun i => forallb (fun j => existsb (Nat.eqb (mu i j)) (zsite_symmetry [1;0;0;0;0;0]%Z 5)) (zsite_symmetry [1;0;0;0;0;0]%Z 5)) (zsite_symmetry [1;0;0;0;0;0]%Z 5) = true).
    { apply forallb_forall. intros i Hi. apply forallb_forall. intros j Hj. apply existsb_exists. exists (mu i j).
      split; [apply (s_mul _ SH); assumption|apply Nat.eqb_refl]. }
    vm_compute in C. discriminate.
  - unfold coset. rewrite site_symmetry_int by reflexivity. vm_compute. reflexivity.
Qed.

(** Shifting the site by a lattice vector changes the answer. *)
Lemma L_C52_not_translation_invariant_refuted : exists site site', good 6 site /\ good 6 site' /\
  integral (vsub (vals SIN site') (vals SIN site)) /\
  site_symmetry Rnum site 5 = Ok (seq 0 24) /\ site_symmetry Rnum site' 5 = Ok [0; 19]%nat /\
  coset Rnum site 5 = Ok [0]%nat /\ coset Rnum site' 5 = Ok (seq 0 12).
Proof.
  exists (map tint [0;0;0;0;0;0]%Z), (map tint [2;0;0;0;0;0]%Z).
  split; [apply tint_good; reflexivity|]. split; [apply tint_good; reflexivity|]. split.
  { rewrite !tint_vals. exists [2;0;0;0;0;0]%Z. unfold vsub; cbn [map zipWith]. repeat (apply f_equal2; [ring|]). reflexivity. }
  unfold coset. rewrite !site_symmetry_int by reflexivity. repeat split; vm_compute; reflexivity.
Qed.

(** The tolerance: a site 1e-7 away from the origin is given the symmetry of the
    origin, although it has a smaller one. *)
Lemma L_C52_tolerance_refuted : exists site i op, good 6 site /\ site_symmetry Rnum site 5 = Ok (seq 0 24) /\
  nth_error dodesymop i = Some op /\ (i < 24)%nat /\ ~ fixes_site op (vals SIN site).
Proof.
  exists [T 1 0 10000000; t0; t0; t0; t0; t0], 1%nat, dm1.
  assert (G : good 6 [T 1 0 10000000; t0; t0; t0; t0; t0]) by (split; [repeat (apply Forall_cons; [unfold wf; cbn; lia|]); apply Forall_nil|reflexivity]).
  assert (V : vals SIN [T 1 0 10000000; t0; t0; t0; t0; t0] = [1/10000000;0;0;0;0;0]).
  { unfold vals, val; cbn [map ta tb tc t0]. repeat (apply f_equal2; [field|]). reflexivity. }
  split; [exact G|]. split; [|split; [vm_compute; reflexivity|split; [lia|]]].
  - destruct (site_symmetry_R _ 5 G) as (l & E & S & H). rewrite E. f_equal. rewrite V in H.
    assert (Q : forall m, StronglySorted lt m -> StronglySorted (fun a b => Nat.compare a b = Lt) m).
    { intros m Hm. induction Hm as [|x m Hm IH Hx]; constructor; [exact IH|].
      rewrite Forall_forall in *. intros y Hy. apply Nat.compare_lt_iff. apply Hx. exact Hy. }
    apply (UniqueLemmas.sorted_unique Nat.compare lawful_nat); [apply Q; exact S|apply Q, seq_sorted|].
    intros i. rewrite H, in_seq. split.
    + intros (op & Eo & _). destruct (opn_nth _ _ Eo). lia.
    + intros Hi. exists (opn i). pose proof (nth_opn i ltac:(lia)) as Eo. split; [exact Eo|].
      exists [0;0;0;0;0;0]%Z. split; [apply smallb_spec; vm_compute; reflexivity|].
      apply nth_error_In in Eo. rewrite ops24_eq in Eo. unfold ops24 in Eo. cbn [In] in Eo. revert Eo. generalize (opn i). intros op Eo.
      replace (1 / 1000000) with (sqrt (Rsqr (1 / 1000000))) by (apply sqrt_Rsqr; lra).
      repeat match goal with H : (_ = op) \/ _ |- _ => destruct H as [<-|H] | H : False |- _ => destruct H end;
      (apply sqrt_lt_1_alt; unfold defect, matvec, IZRm, dot, vsub, vadd, Rsqr; cbn [map zipWith Rsum]; lra).
  - rewrite V. intros (z & Ez). unfold matvec, IZRm, dm1, dot, vsub in Ez. cbn [map zipWith Rsum] in Ez.
    destruct z as [|z0 z]; [discriminate|]. cbn [map] in Ez. injection Ez as E0 _.
    assert (B : IZR 0 < IZR z0 < IZR 1) by lra. destruct B as [B1 B2]. apply lt_IZR in B1, B2. lia.
Qed.

Example E_C52_ex : let site := [T 1 0 2; t0; T 1 0 2; t0; t0; t0] in
  good 6 site /\ rational 2 (vals SIN site) /\ cell (vals SIN site).
Proof.
  cbv zeta. split; [split; [repeat (apply Forall_cons; [unfold wf; cbn; lia|]); apply Forall_nil|reflexivity]|].
  assert (V : vals SIN [T 1 0 2; t0; T 1 0 2; t0; t0; t0] = [1/2;0;1/2;0;0;0]).
  { unfold vals, val; cbn [map ta tb tc t0]. repeat (apply f_equal2; [field|]). reflexivity. }
  rewrite V. split.
  - exists [1;0;1;0;0;0]%Z. cbn [map]. repeat (apply f_equal2; [field|]). reflexivity.
  - intros i Hi. do 4 (destruct i as [|i]; [cbn [nth]; lra|]). lia.
Qed.
