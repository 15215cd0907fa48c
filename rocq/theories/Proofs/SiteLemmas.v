(** site_symmetry of dode2 over exact reals. *)
From Coq Require Import Reals List ZArith Lia Lra Bool Arith Permutation Sorting.Sorted.
From Verif Require Import Base.Res Model.Tau Model.Arr Model.Unique Model.Num Model.DodeScalar Model.Vectors Model.IcoMath1 Model.DodeMath1
  Model.DodeNumeric Model.DodeSymmetry
  Spec.Value Spec.RVec Spec.Shape Spec.Sets Spec.Cosets Proofs.ResLemmas Proofs.ValueLemmas Proofs.Irrational Proofs.ScalarLemmas
  Proofs.RVecLemmas Proofs.VectorLemmas Proofs.MatLemmas Proofs.SymopLemmas Proofs.UniqueLemmas
  Proofs.MatDec Proofs.GroupLemmas Proofs.NumLemmas Proofs.DodeProj Proofs.DodeGroup Proofs.CosetLemmas.
Import ListNotations.
Local Open Scope R_scope.

Definition ops24 : list (list (list Z)) := Eval vm_compute in dodesymop.
Lemma ops24_eq : dodesymop = ops24. Proof. vm_compute. reflexivity. Qed.
Local Opaque dodesymop.

Lemma list6 {A} (l : list A) : length l = 6%nat -> exists a b c d e f, l = [a;b;c;d;e;f].
Proof. intros L. do 6 (destruct l as [|? l]; [discriminate|]). destruct l; [|discriminate]. repeat eexists. Qed.

(** ** the translations *)
Lemma lst3_In z : In z lst3 <-> (-1 <= z <= 1)%Z.
Proof. unfold lst3. cbn [In]. lia. Qed.
Lemma translation_In n t : In t (translation n) <-> exists z, small_shift (tdim n) z /\ t = map tint z.
Proof.
  unfold translation, tdim. split.
  - intros [<-|H].
    + exists [0;0;0;0;0;0]%Z. split; [|reflexivity]. split; [reflexivity|]. intros i Hi. do 6 (destruct i as [|i]; [cbn; lia|]). lia.
    + destruct (n =? 4)%Z.
      * apply in_flat_map in H as (a & Ha & H). apply in_flat_map in H as (b & Hb & H). apply in_flat_map in H as (c & Hc & H).
        apply in_map_iff in H as (d & <- & Hd). apply lst3_In in Ha, Hb, Hc, Hd. exists [a;b;c;d;0;0]%Z. split; [|reflexivity].
        split; [reflexivity|]. intros i Hi. do 6 (destruct i as [|i]; [cbn; lia|]). lia.
      * apply in_flat_map in H as (a & Ha & H). apply in_flat_map in H as (b & Hb & H). apply in_flat_map in H as (c & Hc & H).
        apply in_flat_map in H as (d & Hd & H). apply in_map_iff in H as (e & <- & He). apply lst3_In in Ha, Hb, Hc, Hd, He.
        exists [a;b;c;d;e;0]%Z. split; [|reflexivity].
        split; [reflexivity|]. intros i Hi. do 6 (destruct i as [|i]; [cbn; lia|]). lia.
  - intros (z & (L & Hz) & ->). destruct (list6 z L) as (a & b & c & d & e & f & ->).
    pose proof (Hz 0%nat ltac:(lia)) as [Ha _]. pose proof (Hz 1%nat ltac:(lia)) as [Hb _]. pose proof (Hz 2%nat ltac:(lia)) as [Hc _].
    pose proof (Hz 3%nat ltac:(lia)) as [Hd _]. pose proof (Hz 4%nat ltac:(lia)) as [He He']. pose proof (Hz 5%nat ltac:(lia)) as [_ Hf].
    cbn [nth] in *. destruct (n =? 4)%Z; rewrite Hf by lia.
    + rewrite He' by lia. right. apply in_flat_map. exists a. split; [apply lst3_In; exact Ha|]. apply in_flat_map. exists b. split; [apply lst3_In; exact Hb|].
      apply in_flat_map. exists c. split; [apply lst3_In; exact Hc|]. apply in_map_iff. exists d. split; [reflexivity|apply lst3_In; exact Hd].
    + right. apply in_flat_map. exists a. split; [apply lst3_In; exact Ha|]. apply in_flat_map. exists b. split; [apply lst3_In; exact Hb|].
      apply in_flat_map. exists c. split; [apply lst3_In; exact Hc|]. apply in_flat_map. exists d. split; [apply lst3_In; exact Hd|].
      apply in_map_iff. exists e. split; [reflexivity|apply lst3_In; exact He].
Qed.
Lemma tint_vals z : vals SIN (map tint z) = map IZR z.
Proof. induction z as [|a z IH]; cbn [map vals]; [reflexivity|]. unfold vals in IH. rewrite IH. f_equal. unfold val, tint; cbn. field. Qed.
Lemma tint_good z : length z = 6%nat -> good 6 (map tint z).
Proof.
  intros L. split; [|rewrite map_length; exact L]. apply Forall_forall. intros t Ht. apply in_map_iff in Ht as (a & <- & _). unfold wf; cbn; lia.
Qed.
Lemma translation_good n : Forall (good 6) (translation n).
Proof.
  apply Forall_forall. intros t Ht. apply translation_In in Ht as (z & (L & _) & ->). apply tint_good. exact L.
Qed.

(** ** lengths *)
Lemma dnumeric_value_R t : dnumeric_value Rnum t = val SIN t. Proof. reflexivity. Qed.
Lemma dlength_R v : length v = 6%nat -> dlength_numerical Rnum v = vnorm (vals SIN v).
Proof.
  intros L. destruct (list6 v L) as (a & b & c & d & e & f & ->). unfold dlength_numerical, dnumerical_vector, vnorm, vals.
  cbn [map]. rewrite !dnumeric_value_R. unfold dot. cbn [zipWith Rsum]. cbn [fsqrt fdot dot_left dot_from Rnum F].
  f_equal. ring.
Qed.
Lemma vnorm_comp x e : length x = 6%nat -> vnorm x < e -> forall y, In y x -> Rabs y < e.
Proof.
  intros L H y Hy. apply Rle_lt_trans with (vnorm x); [|exact H]. unfold vnorm. rewrite <- (sqrt_Rsqr_abs y).
  apply sqrt_le_1_alt. destruct (list6 x L) as (a & b & c & d & g & h & ->). unfold dot. cbn [zipWith Rsum]. unfold Rsqr.
  cbn [In] in Hy. pose proof (Rle_0_sqr a). pose proof (Rle_0_sqr b). pose proof (Rle_0_sqr c). pose proof (Rle_0_sqr d). pose proof (Rle_0_sqr g). pose proof (Rle_0_sqr h).
  unfold Rsqr in *. destruct Hy as [<-|[<-|[<-|[<-|[<-|[<-|[]]]]]]]; lra.
Qed.
Lemma vnorm_zero x : Forall (fun y => y = 0) x -> vnorm x = 0.
Proof.
  intros H. unfold vnorm. replace (dot x x) with 0; [apply sqrt_0|]. unfold dot.
  induction H as [|y x -> _ IH]; cbn [zipWith Rsum]; [reflexivity|]. rewrite <- IH. ring.
Qed.

Lemma op_sq op : In op dodesymop -> square 6 op.
Proof. apply (ig_sq _ _ dodesymop_group). Qed.
Lemma V0_good : good 6 V0.
Proof. split; [repeat (apply Forall_cons; [unfold wf; cbn; lia|]); apply Forall_nil|reflexivity]. Qed.
Lemma V0_vals : vals SIN V0 = [0;0;0;0;0;0].
Proof. unfold vals, V0, val; cbn. repeat (apply f_equal2; [field|]). reflexivity. Qed.

(** x - (op x + t) *)
Definition defect (op : list (list Z)) (x : list R) (t : list Z) : list R :=
  vsub x (vadd (matvec (IZRm op) x) (map IZR t)).

Lemma site_image op site : In op dodesymop -> good 6 site ->
  exists s, dsymop_vec op site V0 = Ok s /\ good 6 s /\ vals SIN s = matvec (IZRm op) (vals SIN site).
Proof.
  intros Hop [Ws Ls]. destruct V0_good as [WV LV].
  pose proof (symop_vec_spec dode_arith op site V0 6 ltac:(lia) (op_sq op Hop) Ws WV Ls LV) as E.
  apply wp_elim in E as (s & Es & Cs & Vs). exists s. split; [exact Es|].
  assert (V : vals SIN s = matvec (IZRm op) (vals SIN site)).
  { rewrite Vs. unfold act. rewrite V0_vals.
    assert (L6 : length (vals SIN site) = 6%nat) by (unfold vals; rewrite map_length; exact Ls).
    destruct (list6 _ L6) as (a & b & c & d & e & f & E). rewrite E.
    assert (E1 : vsub [a;b;c;d;e;f] [0;0;0;0;0;0] = [a;b;c;d;e;f]).
    { unfold vsub; cbn [zipWith]. repeat (apply f_equal2; [ring|]). reflexivity. }
    rewrite E1. pose proof (sq_len op [a;b;c;d;e;f] (op_sq op Hop)) as LM. destruct (list6 _ LM) as (a' & b' & c' & d' & e' & f' & E'). rewrite E'.
    unfold vadd; cbn [zipWith]. repeat (apply f_equal2; [ring|]). reflexivity. }
  split; [|exact V]. split; [apply canonv_wfv; exact Cs|].
  apply (f_equal (@length R)) in V. rewrite sq_len in V by (apply op_sq; exact Hop). unfold vals in V. rewrite map_length in V. exact V.
Qed.

Lemma some_translation_R site s n : good 6 site -> good 6 s ->
  exists b, some_translation Rnum site s (translation n) = Ok b /\
  (b = true <-> exists t, small_shift (tdim n) t /\ vnorm (vsub (vals SIN site) (vadd (vals SIN s) (map IZR t))) < 1 / 1000000).
Proof.
  intros [Ws Ls] [W1 L1].
  assert (K : forall l, Forall (good 6) l -> exists b, some_translation Rnum site s l = Ok b /\
     (b = true <-> exists t, In t l /\ vnorm (vsub (vals SIN site) (vadd (vals SIN s) (vals SIN t))) < 1 / 1000000)).
  { intros l Hl. induction Hl as [|t l [Wt Lt] _ IH]; cbn [some_translation].
    - exists false. split; [reflexivity|]. split; [discriminate|]. intros (t & [] & _).
    - pose proof (add_vectors_spec dode_arith s t W1 Wt ltac:(lia)) as E. apply wp_elim in E as (s2 & E2 & C2 & V2).
      unfold dadd_vectors. rewrite E2. cbn [bind].
      assert (L2 : length s2 = 6%nat).
      { apply (f_equal (@length R)) in V2. unfold vals, vadd in V2. rewrite map_length, zipWith_length, !map_length in V2. lia. }
      pose proof (sub_vectors_spec dode_arith site s2 Ws (canonv_wfv _ C2) ltac:(lia)) as E. apply wp_elim in E as (d & Ed & Cd & Vd).
      unfold dsub_vectors. rewrite Ed. cbn [bind].
      assert (L3 : length d = 6%nat).
      { apply (f_equal (@length R)) in Vd. unfold vals, vsub in Vd. rewrite map_length, zipWith_length, !map_length in Vd. lia. }
      rewrite (dlength_R d L3), Vd, V2. cbn [flt Rnum]. change (EPS Rnum) with (1 / 1000000).
      destruct (Rltb (vnorm (vsub (vals SIN site) (vadd (vals SIN s) (vals SIN t)))) (1 / 1000000)) eqn:B.
      + exists true. split; [reflexivity|]. split; [intros _|reflexivity]. exists t. split; [left; reflexivity|]. apply Rltb_true. exact B.
      + destruct IH as (b & Eb & Hb). exists b. split; [exact Eb|]. rewrite Hb. split.
        * intros (t' & Ht' & H'). exists t'. split; [right; exact Ht'|exact H'].
        * intros (t' & [<-|Ht'] & H'); [|exists t'; auto]. apply Rltb_true in H'. congruence. }
  destruct (K _ (translation_good n)) as (b & Eb & Hb). exists b. split; [exact Eb|]. rewrite Hb. split.
  - intros (t & Ht & H). apply translation_In in Ht as (z & Hz & ->). exists z. rewrite tint_vals in H. auto.
  - intros (z & Hz & H). exists (map tint z). rewrite tint_vals. split; [apply translation_In; eauto|exact H].
Qed.

Definition kept (op : list (list Z)) (x : list R) (n : Z) : Prop :=
  exists t, small_shift (tdim n) t /\ vnorm (defect op x t) < 1 / 1000000.

Lemma site_loop_R site n : good 6 site -> forall ops k, incl ops dodesymop ->
  exists l, site_loop Rnum site (translation n) k ops = Ok l /\ StronglySorted lt l /\
    forall i, In i l <-> exists op, (k <= i)%nat /\ nth_error ops (i - k) = Some op /\ kept op (vals SIN site) n.
Proof.
  intros G ops. induction ops as [|op ops IH]; intros k I; cbn [site_loop].
  - exists []. split; [reflexivity|]. split; [constructor|]. intros i. split; [intros []|]. intros (op & _ & H & _). destruct (i - k)%nat; discriminate.
  - assert (Hop : In op dodesymop) by (apply I; left; reflexivity).
    destruct (site_image op site Hop G) as (s & Es & Gs & Vs). rewrite Es. cbn [bind].
    destruct (some_translation_R site s n G Gs) as (b & Eb & Hb). rewrite Eb. cbn [bind].
    destruct (IH (S k)) as (l & El & Sl & Hl); [intros x Hx; apply I; right; exact Hx|]. rewrite El. cbn [bind].
    assert (Hk : b = true <-> kept op (vals SIN site) n) by (rewrite Hb, Vs; reflexivity).
    assert (Hgt : forall i, In i l -> (k < i)%nat) by (intros i Hi; apply Hl in Hi as (o & Ho & _); lia).
    eexists. split; [reflexivity|]. split.
    + destruct b; [|exact Sl]. constructor; [exact Sl|]. apply Forall_forall. exact Hgt.
    + intros i. assert (T : (exists o, (k <= i)%nat /\ nth_error (op :: ops) (i - k) = Some o /\ kept o (vals SIN site) n) <->
          (i = k /\ b = true) \/ In i l).
      { rewrite Hl. split.
        - intros (o & Ho & En & Ko). destruct (Nat.eq_dec i k) as [->|Nk].
          + rewrite Nat.sub_diag in En. injection En as <-. left. split; [reflexivity|apply Hk; exact Ko].
          + right. exists o. split; [lia|]. replace (i - k)%nat with (S (i - S k)) in En by lia. auto.
        - intros [[-> B]|(o & Ho & En & Ko)].
          + exists op. split; [lia|]. rewrite Nat.sub_diag. split; [reflexivity|apply Hk; exact B].
          + exists o. split; [lia|]. replace (i - k)%nat with (S (i - S k)) by lia. auto. }
      rewrite T. destruct b; cbn [In]; intuition congruence.
Qed.

Theorem site_symmetry_R site n : good 6 site ->
  exists l, site_symmetry Rnum site n = Ok l /\ StronglySorted lt l /\
    forall i, In i l <-> exists op, nth_error dodesymop i = Some op /\ kept op (vals SIN site) n.
Proof.
  intros G. destruct (site_loop_R site n G dodesymop 0 (incl_refl _)) as (l & El & Sl & Hl).
  unfold site_symmetry. rewrite El. cbn [bind]. exists l. rewrite overlaps_id by exact Sl. split; [reflexivity|]. split; [exact Sl|].
  intros i. rewrite Hl. rewrite Nat.sub_0_r. split; intros (op & H); exists op; [tauto|split; [lia|tauto]].
Qed.

(** ** the true site-symmetry group *)
Lemma integral_add x y : integral x -> integral y -> integral (vadd x y).
Proof.
  intros (z & ->) (z' & ->). exists (zipWith Z.add z z'). unfold vadd. revert z'. induction z as [|a z IH]; intros [|b z']; cbn [map zipWith]; auto.
  rewrite plus_IZR, IH. reflexivity.
Qed.
Lemma dot_IZR r z : dot (map IZR r) (map IZR z) = IZR (fold_right Z.add 0%Z (zipWith Z.mul r z)).
Proof.
  unfold dot. revert z. induction r as [|a r IH]; intros [|b z]; cbn [map zipWith Rsum fold_right]; auto.
  rewrite plus_IZR, mult_IZR, IH. reflexivity.
Qed.
Lemma integral_mat m x : integral x -> integral (matvec (IZRm m) x).
Proof.
  intros (z & ->). exists (map (fun r => fold_right Z.add 0%Z (zipWith Z.mul r z)) m). unfold matvec, IZRm. rewrite !map_map.
  apply map_ext. intros r. apply dot_IZR.
Qed.
Lemma integral_neg x : integral x -> integral (vscale (-1) x).
Proof.
  intros (z & ->). exists (map Z.opp z). unfold vscale. rewrite !map_map. apply map_ext. intros a. rewrite opp_IZR. ring.
Qed.

Lemma matvec_sub6 m x y : square 6 m -> length x = 6%nat -> length y = 6%nat ->
  matvec (IZRm m) (vsub x y) = vsub (matvec (IZRm m) x) (matvec (IZRm m) y).
Proof.
  intros [Lm Rm] Lx Ly.
  assert (K : forall r, length r = 6%nat -> dot (map IZR r) (vsub x y) = dot (map IZR r) x - dot (map IZR r) y).
  { intros r Lr. destruct (list6 x Lx) as (?&?&?&?&?&?&->), (list6 y Ly) as (?&?&?&?&?&?&->), (list6 r Lr) as (?&?&?&?&?&?&->).
    unfold dot, vsub; cbn [map zipWith Rsum]. ring. }
  clear Lm. unfold matvec, IZRm. rewrite !map_map. unfold vsub at 2. induction Rm as [|r m Lr _ IH]; [reflexivity|].
  cbn [map zipWith]. rewrite K by exact Lr. f_equal. exact IH.
Qed.

Lemma site_group_subgroup x H : length x = 6%nat -> site_group dodesymop x H -> subgroup dodesymop H.
Proof.
  intros Lx (N & HH). split; [exact N|].
  assert (M6 : forall op, square 6 op -> length (matvec (IZRm op) x) = 6%nat) by (intros op Ho; apply sq_len; exact Ho).
  split; [|split].
  - exists 0%nat. split; [|exact dodesymop_hd]. apply HH. exists (identity 6). split; [exact dodesymop_hd|].
    unfold fixes_site. rewrite matvec_identity by exact Lx. exists [0;0;0;0;0;0]%Z.
    destruct (list6 x Lx) as (?&?&?&?&?&?&->). unfold vsub; cbn [map zipWith]. repeat (apply f_equal2; [ring|]). reflexivity.
  - intros i j Hi Hj. apply HH in Hi as (a & Ea & Fa), Hj as (b & Eb & Fb).
    destruct (opn_nth _ _ Ea) as [Li Ea'], (opn_nth _ _ Eb) as [Lj Eb'].
    exists a, b, (mu i j). split; [exact Ea|]. split; [exact Eb|].
    assert (Em : nth_error dodesymop (mu i j) = Some (matmul a b)).
    { rewrite nth_opn by (apply mu_lt; assumption). rewrite mu_op, <- Ea', <- Eb' by assumption. reflexivity. }
    split; [|exact Em]. apply HH. exists (matmul a b). split; [exact Em|].
    assert (Sa : square 6 a) by (apply op_sq; eapply nth_error_In; exact Ea).
    assert (Sb : square 6 b) by (apply op_sq; eapply nth_error_In; exact Eb).
    unfold fixes_site in *. rewrite (matvec_mul 6) by (assumption || lia).
    replace (vsub x (matvec (IZRm a) (matvec (IZRm b) x))) with (vadd (vsub x (matvec (IZRm a) x)) (matvec (IZRm a) (vsub x (matvec (IZRm b) x)))).
    + apply integral_add; [exact Fa|apply integral_mat; exact Fb].
    + rewrite matvec_sub6 by auto.
      pose proof (sq_len a (matvec (IZRm b) x) Sa) as L3. pose proof (M6 a Sa) as L2.
      destruct (list6 _ L3) as (?&?&?&?&?&?&->), (list6 _ L2) as (?&?&?&?&?&?&->), (list6 x Lx) as (?&?&?&?&?&?&->).
      unfold vsub, vadd; cbn [map zipWith]. repeat (apply f_equal2; [ring|]). reflexivity.
  - intros i Hi. apply HH in Hi as (a & Ea & Fa). destruct (opn_nth _ _ Ea) as [Li Ea'].
    destruct (inv24_spec i Li) as (Lv & Ev & Ev'). exists a, (opn (inv24 i)), (inv24 i).
    pose proof (nth_opn _ Lv) as Eb. split; [exact Ea|]. 
    assert (Sa : square 6 a) by (apply op_sq; eapply nth_error_In; exact Ea).
    assert (Sb : square 6 (opn (inv24 i))) by (apply op_sq; eapply nth_error_In; exact Eb).
    assert (I1 : matmul a (opn (inv24 i)) = identity 6) by (rewrite Ea', <- mu_op, Ev by assumption; apply opn_0).
    assert (I2 : matmul (opn (inv24 i)) a = identity 6) by (rewrite Ea', <- mu_op, Ev' by assumption; apply opn_0).
    split; [|split; [exact Eb|exact I1]]. apply HH. exists (opn (inv24 i)). split; [exact Eb|]. unfold fixes_site in *.
    set (b := opn (inv24 i)) in *.
    replace (vsub x (matvec (IZRm b) x)) with (vscale (-1) (matvec (IZRm b) (vsub x (matvec (IZRm a) x)))).
    + apply integral_neg, integral_mat. exact Fa.
    + rewrite matvec_sub6 by auto. rewrite <- (matvec_mul 6) by (assumption || lia). rewrite I2, matvec_identity by exact Lx.
      pose proof (M6 b Sb) as L2. destruct (list6 _ L2) as (?&?&?&?&?&?&->), (list6 x Lx) as (?&?&?&?&?&?&->).
      unfold vsub, vscale; cbn [map zipWith]. repeat (apply f_equal2; [ring|]). reflexivity.
Qed.

(** ** sites with a common denominator *)

Lemma dot_frac r n k : dot (map IZR r) (map (fun z => IZR z / IZR n) k) = IZR (fold_right Z.add 0%Z (zipWith Z.mul r k)) / IZR n.
Proof.
  unfold dot. revert k. induction r as [|a r IH]; intros [|b k]; cbn [map zipWith Rsum fold_right]; [unfold Rdiv; ring..|].
  rewrite plus_IZR, mult_IZR, IH. unfold Rdiv. ring.
Qed.
Lemma rational_defect op x t n : rational n x -> length x = 6%nat -> square 6 op -> length t = 6%nat -> (0 < n)%Z ->
  rational n (defect op x t).
Proof.
  intros (k & ->) Lx So Lt Hn. rewrite map_length in Lx. assert (Hn' : IZR n <> 0) by (apply not_0_IZR; lia).
  exists (zipWith Z.sub k (zipWith Z.add (map (fun r => fold_right Z.add 0%Z (zipWith Z.mul r k)) op) (map (Z.mul n) t))).
  unfold defect, matvec, IZRm. rewrite map_map. rewrite (map_ext _ _ (fun r => dot_frac r n k)).
  rewrite <- (map_map (fun r => fold_right Z.add 0%Z (zipWith Z.mul r k)) (fun z => IZR z / IZR n)).
  assert (L2 : length (map (fun r => fold_right Z.add 0%Z (zipWith Z.mul r k)) op) = 6%nat) by (rewrite map_length; apply So).
  destruct (list6 _ L2) as (?&?&?&?&?&?&->), (list6 k Lx) as (?&?&?&?&?&?&->), (list6 t Lt) as (?&?&?&?&?&?&->).
  unfold vsub, vadd; cbn [map zipWith].
  repeat (apply f_equal2; [rewrite minus_IZR, plus_IZR, mult_IZR; field; exact Hn'|]). reflexivity.
Qed.
Lemma rational_small n x : rational n x -> length x = 6%nat -> (0 < n <= 1000000)%Z -> vnorm x < 1 / 1000000 -> Forall (fun y => y = 0) x.
Proof.
  intros (k & E) L [Hn Hb] V. pose proof (vnorm_comp x _ L V) as C. apply Forall_forall. intros y Hy. specialize (C y Hy).
  rewrite E in Hy. apply in_map_iff in Hy as (z & <- & _). apply IZR_lt in Hn. apply IZR_le in Hb.
  assert (Z0 : z = 0%Z); [|subst z; unfold Rdiv; ring].
  assert (A : Rabs (IZR z) < 1).
  { unfold Rdiv in C. rewrite Rabs_mult, (Rabs_right (/ IZR n)) in C by (apply Rle_ge, Rlt_le, Rinv_0_lt_compat; exact Hn).
    apply Rmult_lt_compat_r with (r := IZR n) in C; [|exact Hn]. rewrite Rmult_assoc, Rinv_l, Rmult_1_r in C by lra.
    lra. }
  apply Rabs_def2 in A as [A1 A2]. apply lt_IZR in A1. assert (A3 : IZR (-1) < IZR z) by lra. apply lt_IZR in A3. lia.
Qed.

(** defect zero means the displacement is the translation *)
Lemma defect_zero op x t : length x = 6%nat -> square 6 op -> length t = 6%nat ->
  (Forall (fun y => y = 0) (defect op x t) <-> vsub x (matvec (IZRm op) x) = map IZR t).
Proof.
  intros Lx So Lt. unfold defect. pose proof (sq_len op x So) as LM.
  destruct (list6 _ LM) as (m0&m1&m2&m3&m4&m5&->), (list6 x Lx) as (?&?&?&?&?&?&->), (list6 t Lt) as (?&?&?&?&?&?&->).
  unfold vsub, vadd; cbn [map zipWith]. split.
  - intros H. repeat match goal with H : Forall _ (_ :: _) |- _ => apply Forall_cons_iff in H as [? ?] end.
    repeat (apply f_equal2; [lra|]). reflexivity.
  - intros H. injection H. intros. repeat (apply Forall_cons; [lra|]). apply Forall_nil.
Qed.

Lemma kept_rational op x n q : In op dodesymop -> length x = 6%nat -> rational q x -> (0 < q <= 1000000)%Z ->
  (kept op x n <-> exists t, small_shift (tdim n) t /\ vsub x (matvec (IZRm op) x) = map IZR t).
Proof.
  intros Hop Lx Rx Hq. pose proof (op_sq op Hop) as So. unfold kept. split; intros (t & Ht & H); exists t; (split; [exact Ht|]); destruct Ht as [Lt _].
  - apply defect_zero; auto. apply (rational_small q); auto; [apply rational_defect; auto; lia|].
    unfold defect. pose proof (sq_len op x So) as LM.
    destruct (list6 _ LM) as (m0&m1&m2&m3&m4&m5&->), (list6 x Lx) as (?&?&?&?&?&?&->), (list6 t Lt) as (?&?&?&?&?&?&->). reflexivity.
  - rewrite vnorm_zero; [lra|]. apply defect_zero; auto.
Qed.


Lemma displacement op x : In op dodesymop -> length x = 6%nat -> cell x \/ ccell x ->
  exists d0 d1 d2 d3, vsub x (matvec (IZRm op) x) = [d0;d1;d2;d3;0;0] /\
    -2 < d0 < 2 /\ -2 < d1 < 2 /\ -2 < d2 < 2 /\ -2 < d3 < 2.
Proof.
  intros Hop Lx Hx. destruct (list6 x Lx) as (x0&x1&x2&x3&x4&x5&->).
  assert (B : (0 <= x0 < 1 /\ 0 <= x1 < 1 /\ 0 <= x2 < 1 /\ 0 <= x3 < 1) \/
    (- (1/2) <= x0 <= 1/2 /\ - (1/2) <= x1 <= 1/2 /\ - (1/2) <= x2 <= 1/2 /\ - (1/2) <= x3 <= 1/2)).
  { destruct Hx as [Hx|Hx]; [left|right]; (split; [apply (Hx 0%nat); lia|split; [apply (Hx 1%nat); lia|split; [apply (Hx 2%nat); lia|apply (Hx 3%nat); lia]]]). }
  clear Hx. rewrite ops24_eq in Hop. unfold ops24 in Hop. cbn [In] in Hop.
  assert (K : forall op', op' = op -> exists d0 d1 d2 d3 d4 d5, vsub [x0;x1;x2;x3;x4;x5] (matvec (IZRm op') [x0;x1;x2;x3;x4;x5]) = [d0;d1;d2;d3;d4;d5] /\
    d4 = 0 /\ d5 = 0 /\ -2 < d0 < 2 /\ -2 < d1 < 2 /\ -2 < d2 < 2 /\ -2 < d3 < 2).
  { intros op' Eo. rewrite <- Eo in Hop. clear Eo.
    repeat match goal with H : _ \/ _ = _ |- _ => idtac | H : (_ = op') \/ _ |- _ => destruct H as [<-|H] | H : False |- _ => destruct H end;
    (unfold matvec, IZRm, dot, vsub; cbn [map zipWith Rsum]; repeat eexists; destruct B; lra). }
  destruct (K op eq_refl) as (d0&d1&d2&d3&d4&d5&E&->&->&H). exists d0, d1, d2, d3. auto.
Qed.

Lemma site_group_cell site n q : good 6 site -> rational q (vals SIN site) -> (0 < q <= 1000000)%Z ->
  cell (vals SIN site) \/ ccell (vals SIN site) ->
  exists l, site_symmetry Rnum site n = Ok l /\ site_group dodesymop (vals SIN site) l.
Proof.
  intros G Rx Hq Hx. destruct (site_symmetry_R site n G) as (l & El & Sl & Hl). exists l. split; [exact El|].
  assert (Lx : length (vals SIN site) = 6%nat) by (unfold vals; rewrite map_length; apply G).
  split.
  - apply (sorted_NoDup Nat.compare lawful_nat). clear - Sl. induction Sl as [|x m Hm IH Hx]; constructor; [exact IH|].
    rewrite Forall_forall in *. intros y Hy. apply Nat.compare_lt_iff. apply Hx. exact Hy.
  - intros i. rewrite Hl. split; intros (op & Eo & H); exists op; (split; [exact Eo|]); apply nth_error_In in Eo.
    + apply (kept_rational op _ n q) in H as (t & _ & E); auto. exists t. exact E.
    + apply (kept_rational op _ n q); auto. destruct H as (z & E).
      destruct (displacement op _ Eo Lx Hx) as (d0&d1&d2&d3&Ed&B0&B1&B2&B3). rewrite Ed in E.
      assert (Lz : length z = 6%nat) by (apply (f_equal (@length R)) in E; rewrite map_length in E; cbn in E; lia).
      exists z. rewrite Ed. split; [|exact E]. destruct (list6 z Lz) as (z0&z1&z2&z3&z4&z5&->). cbn [map] in E. injection E as -> -> -> -> E4 E5.
      assert (z4 = 0%Z) by (apply eq_IZR; symmetry; exact E4). assert (z5 = 0%Z) by (apply eq_IZR; symmetry; exact E5). subst z4 z5.
      assert (K : forall z, -2 < IZR z < 2 -> (-1 <= z <= 1)%Z).
      { intros z [H1 H2]. apply lt_IZR in H2. assert (H3 : IZR (-2) < IZR z) by lra. apply lt_IZR in H3. lia. }
      apply K in B0, B1, B2, B3. split; [reflexivity|]. intros i' Hi'.
      unfold tdim. do 6 (destruct i' as [|i']; [cbn [nth]; destruct (n =? 4)%Z; lia|]). lia.
Qed.

(** ** integer sites *)
Definition zdisp (op : list (list Z)) (k : list Z) : list Z :=
  zipWith Z.sub k (map (fun r => fold_right Z.add 0%Z (zipWith Z.mul r k)) op).
Definition smallb (m : nat) (d : list Z) : bool :=
  (length d =? 6)%nat && forallb (fun i => ((-1 <=? nth i d 0) && (nth i d 0 <=? 1))%Z && ((i <? m)%nat || (nth i d 0 =? 0)%Z)) (seq 0 6).
Lemma smallb_spec m d : smallb m d = true <-> small_shift m d.
Proof.
  unfold smallb, small_shift. rewrite andb_true_iff, Nat.eqb_eq, forallb_forall. split; intros [L H]; (split; [exact L|]).
  - intros i Hi. specialize (H i ltac:(apply in_seq; lia)).
    rewrite !andb_true_iff, orb_true_iff, Nat.ltb_lt, !Z.leb_le, Z.eqb_eq in H. split; [lia|]. intros. destruct H as [_ [H|H]]; [lia|exact H].
  - intros i Hi. apply in_seq in Hi. specialize (H i ltac:(lia)). destruct H as [H1 H2].
    rewrite !andb_true_iff, orb_true_iff, Nat.ltb_lt, !Z.leb_le, Z.eqb_eq. split; [lia|].
    destruct (Nat.lt_ge_cases i m); [left; assumption|right; apply H2; assumption].
Qed.
Lemma zdisp_IZR op k : vsub (map IZR k) (matvec (IZRm op) (map IZR k)) = map IZR (zdisp op k).
Proof.
  unfold zdisp, matvec, IZRm. rewrite map_map. rewrite (map_ext _ _ (fun r => dot_IZR r k)).
  rewrite <- (map_map (fun r => fold_right Z.add 0%Z (zipWith Z.mul r k)) IZR). unfold vsub.
  generalize (map (fun r => fold_right Z.add 0%Z (zipWith Z.mul r k)) op). induction k as [|a k IH]; intros [|b l]; cbn [map zipWith]; auto.
  rewrite minus_IZR, IH. reflexivity.
Qed.
Lemma map_IZR_inj a b : map IZR a = map IZR b -> a = b.
Proof.
  revert b. induction a as [|x a IH]; intros [|y b]; cbn [map]; intros H; try discriminate; [reflexivity|].
  injection H as H1 H2. f_equal; [apply eq_IZR; exact H1|apply IH; exact H2].
Qed.
Definition zsite_symmetry (k : list Z) (n : Z) : list nat :=
  filter (fun i => smallb (tdim n) (zdisp (nth i ops24 []) k)) (seq 0 24).
Lemma site_symmetry_int k n : length k = 6%nat -> site_symmetry Rnum (map tint k) n = Ok (zsite_symmetry k n).
Proof.
  intros L. pose proof (tint_good k L) as G. destruct (site_symmetry_R (map tint k) n G) as (l & El & Sl & Hl).
  rewrite El. f_equal. rewrite tint_vals in Hl.
  assert (Rk : rational 1 (map IZR k)).
  { exists k. apply map_ext. intros z. field. }
  assert (Q : forall m, StronglySorted lt m -> StronglySorted (fun a b => Nat.compare a b = Lt) m).
  { intros m H. induction H as [|x m Hm IH Hx]; constructor; [exact IH|].
    rewrite Forall_forall in *. intros y Hy. apply Nat.compare_lt_iff. apply Hx. exact Hy. }
  apply (sorted_unique Nat.compare lawful_nat).
  - apply Q. exact Sl.
  - apply Q. unfold zsite_symmetry. apply filter_sorted, seq_sorted.
  - intros i. rewrite Hl. unfold zsite_symmetry. rewrite filter_In, in_seq.
    split.
    + intros (op & Eo & K). destruct (opn_nth _ _ Eo) as [Li Ei]. split; [lia|].
      apply (kept_rational op _ n 1) in K as (t & Ht & E); [|eapply nth_error_In; exact Eo|rewrite map_length; exact L|exact Rk|lia].
      rewrite zdisp_IZR in E. apply map_IZR_inj in E. rewrite <- ops24_eq. fold (opn i). rewrite <- Ei, E. apply smallb_spec. exact Ht.
    + intros [Li B]. exists (opn i). assert (Eo : nth_error dodesymop i = Some (opn i)) by (apply nth_opn; lia). split; [exact Eo|].
      apply (kept_rational (opn i) _ n 1); [eapply nth_error_In; exact Eo|rewrite map_length; exact L|exact Rk|lia|].
      rewrite <- ops24_eq in B. fold (opn i) in B. exists (zdisp (opn i) k). split; [apply smallb_spec; exact B|apply zdisp_IZR].
Qed.
Lemma site_group_int k : length k = 6%nat -> site_group dodesymop (map IZR k) (seq 0 24).
Proof.
  intros L. split; [apply seq_NoDup|]. intros i. rewrite in_seq. split.
  - intros Hi. exists (opn i). split; [apply nth_opn; lia|]. exists (zdisp (opn i) k). apply zdisp_IZR.
  - intros (op & Eo & _). destruct (opn_nth _ _ Eo). lia.
Qed.

(** ** site_symmetry_and_coset does the same as the two functions *)
Lemma site_split_loop (N : num) site traop : forall ops k,
  site_split N site traop k ops =
  (l <- site_loop N site traop k ops ;; Ok (l, filter (fun i => negb (existsb (Nat.eqb i) l)) (seq k (length ops))))%res.
Proof.
  induction ops as [|op ops IH]; intros k; cbn [site_split site_loop length seq filter]; [reflexivity|].
  destruct (dsymop_vec op site V0) as [s|]; cbn [bind]; [|reflexivity].
  destruct (some_translation N site s traop) as [b|]; cbn [bind]; [|reflexivity].
  rewrite IH. destruct (site_loop N site traop (S k) ops) as [l|] eqn:E; cbn [bind fst snd]; [|reflexivity].
  assert (Gt : forall ops k l, site_loop N site traop k ops = Ok l -> forall i, In i l -> (k <= i)%nat).
  { clear. induction ops as [|op ops IH]; intros k l H i Hi; cbn [site_loop] in H; [injection H as <-; destruct Hi|].
    destruct (dsymop_vec op site V0) as [s|]; cbn [bind] in H; [|discriminate].
    destruct (some_translation N site s traop) as [b|]; cbn [bind] in H; [|discriminate].
    destruct (site_loop N site traop (S k) ops) as [l'|] eqn:E; cbn [bind] in H; [|discriminate]. injection H as <-.
    assert (In i l' -> (k <= i)%nat) by (intros Hi'; apply (IH _ _ E) in Hi'; lia).
    destruct b; [destruct Hi as [<-|Hi]; [lia|auto]|auto]. }
  assert (Nk : forall l', (forall i, In i l' -> (S k <= i)%nat) -> existsb (Nat.eqb k) l' = false).
  { intros l' H. apply not_true_iff_false. rewrite existsb_exists. intros (x & Hx & Ex). apply Nat.eqb_eq in Ex. subst. apply H in Hx. lia. }
  destruct b; cbn [existsb].
  - rewrite Nat.eqb_refl. cbn [orb negb]. do 2 f_equal. apply filter_ext_in. intros i Hi. apply in_seq in Hi.
    destruct (Nat.eqb_spec i k); [lia|]. reflexivity.
  - rewrite (Nk l (Gt _ _ _ E)). reflexivity.
Qed.
Lemma site_split_eq (N : num) site n :
  site_symmetry_and_coset N site n = (l <- site_symmetry N site n ;; c <- coset_of l ;; Ok (l, c))%res.
Proof.
  unfold site_symmetry_and_coset, site_symmetry, coset_of. rewrite site_split_loop.
  destruct (site_loop N site (translation n) 0 dodesymop) as [l|]; cbn [bind fst snd]; [|reflexivity].
  assert (E : filter (fun i => negb (existsb (Nat.eqb i) (remove_overlaps l))) (seq 0 (length dodesymop)) = filter (fun i => negb (existsb (Nat.eqb i) l)) (seq 0 (length dodesymop))).
  { apply filter_ext. intros i. f_equal. apply eq_true_iff_eq. rewrite !existsb_exists.
    split; intros (x & Hx & Ex); exists x; (split; [apply (overlaps_In l x); exact Hx|exact Ex]). }
  rewrite E. destruct (_ =? _)%nat; cbn [bind]; [reflexivity|].
  destruct (coset_rows _ _) as [l4|]; cbn [bind]; [|reflexivity]. destruct (coset_loop _ _ _); reflexivity.
Qed.
