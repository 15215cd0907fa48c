(** De-duplication, equivalence tests, edges and connectivity of dode2/utils.py:
    C64, C65, C66, C53. *)
From Coq Require Import Reals List ZArith Lia Lra Bool Sorting.Sorted Permutation.
From Verif Require Import Base.Res Model.Tau Model.Arr Model.DodeMath1 Model.IcoDedup Model.DodeDedup Spec.Value Spec.RVec Spec.Shape
  Spec.DodeSpec Spec.Sets.
Import ListNotations.

From Verif Require Import Model.DodeScalar Model.Vectors Model.Unique Proofs.ResLemmas Proofs.ValueLemmas Proofs.Irrational
  Proofs.ScalarLemmas Proofs.RVecLemmas Proofs.VectorLemmas Proofs.DodeProj Proofs.UniqueLemmas Proofs.DedupLemmas Proofs.DodeDedupLemmas.

Local Lemma NoDup_map_inj {A B} (f : A -> B) l u v : NoDup (map f l) -> In u l -> In v l -> f u = f v -> u = v.
Proof.
  intros N Hu Hv E. induction l as [|x l IH]; [destruct Hu|]. cbn [map] in N. apply NoDup_cons_iff in N as [Nx N].
  destruct Hu as [<-|Hu], Hv as [<-|Hv]; auto; exfalso; apply Nx; [rewrite E|rewrite <- E]; apply in_map; assumption.
Qed.

(** On a 4-d array the vertices of all members are taken together. *)
Lemma L_C64_remove_doubling_4d : forall o, remove_doubling (A4 o) = remove_doubling (A3 (concat o)) /\
  dremove_doubling_in_perp_space (A4 o) = dremove_doubling_in_perp_space (A3 (concat o)).
Proof. intros o. split; reflexivity. Qed.

(** dremove_doubling_in_perp_space keeps, for every input vector, exactly one vector
    with the same perpendicular projection, and invents none. *)
Lemma L_C64_perp_representatives : forall vs, goods 6 vs -> exists r,
  dremove_doubling_in_perp_space (A3 vs) = Ok r /\ incl r vs /\ NoDup r /\
  forall v, In v vs -> exists! u, In u r /\ dppoint u = dppoint v.
Proof.
  intros vs Hg. destruct (dperp_space_spec vs Hg) as (r & E & I & N & S). exists r.
  split; [exact E|]. split; [exact I|]. split; [apply (NoDup_map_inv dppoint); exact N|].
  intros v Hv. assert (Hp : In (dppoint v) (map dppoint r)) by (apply S, in_map; exact Hv).
  apply in_map_iff in Hp as (u & Eu & Hu). exists u. split; [auto|].
  intros u' [Hu' Eu']. rewrite <- Eu' in Eu.
  apply (NoDup_map_inj dppoint r); assumption.
Qed.

(** The result depends only on the set of input vectors: permuting or repeating
    them does not change it. *)
Lemma L_C64_order_irrelevant : forall vs vs', same_set vs vs' ->
  remove_doubling (A3 vs) = remove_doubling (A3 vs') /\
  dremove_doubling_in_perp_space (A3 vs) = dremove_doubling_in_perp_space (A3 vs').
Proof.
  intros vs vs' E. unfold dremove_doubling_in_perp_space, remove_doubling.
  rewrite (unique_ext cmp_vec lawful_vec vs vs' E). split; reflexivity.
Qed.

(** Both are idempotent. *)
Lemma L_C64_idempotent : forall vs r, goods 6 vs ->
  (remove_doubling (A3 vs) = Some r -> remove_doubling (A3 r) = Some r) /\
  (dremove_doubling_in_perp_space (A3 vs) = Ok r -> dremove_doubling_in_perp_space (A3 r) = Ok r).
Proof.
  intros vs r Hg. split.
  - unfold remove_doubling. intros H. injection H as <-. f_equal. apply (unique_id cmp_vec lawful_vec).
    apply (unique_sorted cmp_vec lawful_vec).
  - intros H. unfold dremove_doubling_in_perp_space in *. cbn [remove_doubling notNone bind] in *.
    assert (Hu : goods 6 (unique cmp_vec vs)).
    { eapply goods_incl; [exact Hg|]. intros v Hv. exact (proj1 (unique_In cmp_vec lawful_vec vs v) Hv). }
    destruct (dperp_core _ Hu) as (p & r0 & Ep & Er & Fp & Fr & I). rewrite Ep in H. cbn [bind] in H.
    rewrite Er in H. injection H as ->.
    assert (Gr : goods 6 r) by (eapply goods_incl; [exact Hu|exact I]).
    assert (Hu' : goods 6 (unique cmp_vec r)).
    { eapply goods_incl; [exact Gr|]. intros v Hv. exact (proj1 (unique_In cmp_vec lawful_vec r v) Hv). }
    destruct (dperp_core _ Hu') as (p' & r' & Ep' & Er' & Fp' & Fr' & I'). rewrite Ep'. cbn [bind]. rewrite Er'. f_equal.
    assert (K : unique cmp_vec p' = unique cmp_vec p).
    { apply (sorted_unique cmp_vec lawful_vec); [apply (unique_sorted cmp_vec lawful_vec)..|].
      intros k. rewrite (unique_In cmp_vec lawful_vec p' k).
      assert (A : forall l m k, Forall2 (fun v q => dprojection3 v = Ok q /\ canonv q /\ vals SIN q = dppoint v) l m ->
                  (In k m <-> exists v, In v l /\ dprojection3 v = Ok k)).
      { clear. intros l m k F. induction F as [|v q l m (Hq & _) _ IH]; cbn [In].
        - split; [tauto|]. intros (v & [] & _).
        - rewrite IH. split.
          + intros [<-|(v' & Hv & E)]; [exists v; auto|exists v'; auto].
          + intros (v' & [<-|Hv] & E); [left; congruence|right; exists v'; auto]. }
      rewrite (A _ _ k Fp'), (A _ _ k Fr). 
      split; intros (v & Hv & E); exists v; (split; [|exact E]).
      - exact (proj1 (unique_In cmp_vec lawful_vec r v) Hv).
      - exact (proj2 (unique_In cmp_vec lawful_vec r v) Hv). }
    rewrite K in Fr'.
    assert (I2 : incl r' r) by (intros v Hv; exact (proj1 (unique_In cmp_vec lawful_vec r v) (I' v Hv))).
    pose proof (unique_NoDup cmp_vec lawful_vec p) as Nk.
    assert (Inj : forall u v, In u r -> In v r -> dprojection3 u = dprojection3 v -> u = v).
    { revert Nk. clear - Fr. induction Fr as [|a k r ks (Ha & _) F IH]; intros Nk u v Hu Hv E; [destruct Hu|].
      apply NoDup_cons_iff in Nk as [Nk1 Nk2].
      assert (B : forall x, In x r -> dprojection3 x <> Ok k).
      { intros x Hx Ex. apply Nk1. clear - F Hx Ex. induction F as [|a' k' r ks (Ha & _) _ IHF]; [destruct Hx|].
        destruct Hx as [->|Hx]; [left; congruence|right; auto]. }
      destruct Hu as [<-|Hu], Hv as [<-|Hv]; auto.
      - exfalso. apply (B v Hv). congruence.
      - exfalso. apply (B u Hu). congruence. }
    clear - Fr Fr' I2 Inj. revert Fr Fr' I2. generalize (unique cmp_vec p). intros ks Fr.
    assert (J : forall m, incl r m -> (forall u v, In u m -> In v m -> dprojection3 u = dprojection3 v -> u = v) ->
        Forall2 (fun a k => dprojection3 a = Ok k /\ canonv k /\ vals SIN k = dppoint a) r' ks -> incl r' m -> r' = r).
    { clear Inj. revert r'. induction Fr as [|a k r ks (Ha & _) F IH]; intros r' m Im Inj Fr' I2; inversion Fr' as [|a' ? r'' ? (Ha' & _) F' ]; subst; [reflexivity|].
      f_equal.
      - apply Inj; [apply I2; left; reflexivity|apply Im; left; reflexivity|congruence].
      - apply (IH r'' m); auto; intros x Hx; [apply Im|apply I2]; right; exact Hx. }
    intros Fr' I2. apply (J r); auto. intros x Hx; exact Hx.
Qed.

(** Only 3-d and 4-d arrays are accepted. *)
Lemma L_C64_other_shapes : forall a, (forall vs, a <> A3 vs) -> (forall o, a <> A4 o) ->
  remove_doubling a = None /\ dremove_doubling_in_perp_space a = Raise TypeError.
Proof. intros [t|v|vs|o|o|] H3 H4; try (split; reflexivity); exfalso; [eapply H3|eapply H4]; reflexivity. Qed.

Definition ev (a b c d e f : Z) : vec := map (fun x => T x 0 1) [a;b;c;d;e;f].
Local Ltac goodev := unfold goods, good, wfv, wf, ev; cbn [map];
  repeat (apply Forall_cons; [split; [repeat (apply Forall_cons; [cbn; lia|]); apply Forall_nil|reflexivity]|]); apply Forall_nil.

Example E_C64_ex : goods 6 [ev 1 0 0 0 0 0; ev 0 1 0 0 0 0; ev 1 0 0 0 0 0] /\
  dremove_doubling_in_perp_space (A3 [ev 1 0 0 0 0 0; ev 0 1 0 0 0 0; ev 1 0 0 0 0 0])
    = Ok [ev 1 0 0 0 0 0; ev 0 1 0 0 0 0] /\
  (* two different vectors with the same perpendicular projection: 0 and a vector of parallel space *)
  dremove_doubling_in_perp_space (A3 [ev 1 0 0 0 0 0; [T 1 0 1; T 0 1 1; T 1 0 2; T 0 0 1; T (-1) 0 1; T 0 0 1]; ev 0 0 0 0 0 0]) = Ok [ev 1 0 0 0 0 0; ev 0 0 0 0 0 0].
Proof. split; [goodev|split; vm_compute; reflexivity]. Qed.

(** C65: on triangles and edges with pairwise different projected vertices the tests
    decide equality of the sets of projected vertices. *)
Lemma L_C65_equivalent_triangles : forall a b, goods 6 a -> goods 6 b -> length a = 3%nat -> length b = 3%nat ->
  NoDup (map dppoint a) -> NoDup (map dppoint b) ->
  exists r, dequivalent_triangles a b = Ok r /\ (r = true <-> same_set (map dppoint a) (map dppoint b)).
Proof.
  intros a b Ha Hb La Lb Na Nb. destruct (dequivalent_n_set 3 a b Ha Hb La Lb Na Nb) as (m & E & H).
  unfold dequivalent_triangles. rewrite E. cbn [bind]. eauto.
Qed.

Lemma L_C65_equivalent_edges : forall a b, goods 6 a -> goods 6 b -> length a = 2%nat -> length b = 2%nat ->
  NoDup (map dppoint a) -> NoDup (map dppoint b) ->
  exists r, dequivalent_edges a b = Ok r /\ (r = true <-> same_set (map dppoint a) (map dppoint b)).
Proof.
  intros a b Ha Hb La Lb Na Nb. destruct (dequivalent_n_set 2 a b Ha Hb La Lb Na Nb) as (m & E & H).
  unfold dequivalent_edges. rewrite E. cbn [bind]. eauto.
Qed.

Lemma L_C65_equivalent_vertices : forall u v, good 6 u -> good 6 v ->
  exists r, dequivalent_vertices u v = Ok r /\ (r = true <-> dppoint u = dppoint v).
Proof.
  intros u v Hu Hv. unfold dequivalent_vertices.
  pose proof (dprojection3_spec u Hu) as Su. apply wp_elim in Su as (a & Ea & Ca & Va).
  pose proof (dprojection3_spec v Hv) as Sv. apply wp_elim in Sv as (b & Eb & Cb & Vb).
  rewrite Ea, Eb. cbn [bind]. exists (vec_eqb a b). split; [reflexivity|]. rewrite vec_eqb_eq.
  unfold dppoint. rewrite <- Va, <- Vb. split; [congruence|apply dvals_inj; assumption].
Qed.

(** Whatever the arguments, the answer is True iff the two sets together have
    exactly 3 (2) different projected vertices. *)
Lemma L_C65_general : forall a b, goods 6 a -> goods 6 b ->
  (dequivalent_triangles a b = Ok true <-> card (map dppoint a ++ map dppoint b) 3) /\
  (dequivalent_edges a b = Ok true <-> card (map dppoint a ++ map dppoint b) 2).
Proof.
  intros a b Ha Hb. destruct (dstacked_spec a b Ha Hb) as (m & E & C).
  unfold dequivalent_triangles, dequivalent_edges. rewrite E. cbn [bind].
  assert (H : forall n, Ok (Nat.eqb m n) = Ok true <-> card (map dppoint a ++ map dppoint b) n).
  { intros n. split; [intros H; injection H as H; apply Nat.eqb_eq in H; subst; exact C|].
    intros C'. f_equal. apply Nat.eqb_eq. eapply card_fun; eassumption. }
  repeat split; apply H.
Qed.

(** A triangle (edge) with a repeated vertex is not even equivalent to
    itself. *)
Lemma L_C65_degenerate_not_reflexive : forall a, goods 6 a ->
  (length a = 3%nat -> ~ NoDup (map dppoint a) -> dequivalent_triangles a a = Ok false) /\
  (length a = 2%nat -> ~ NoDup (map dppoint a) -> dequivalent_edges a a = Ok false).
Proof.
  intros a Ha. destruct (dstacked_spec a a Ha Ha) as (m & E & C).
  unfold dequivalent_triangles, dequivalent_edges. rewrite E. cbn [bind].
  assert (H : forall n, length a = n -> ~ NoDup (map dppoint a) -> Ok (Nat.eqb m n) = Ok false).
  { intros n Hn ND. f_equal. apply Nat.eqb_neq. intros ->. apply ND.
    destruct C as (d & Nd & Ed & Ld). apply (fun H => NoDup_incl_NoDup (l:=d) (l':=map dppoint a) Nd H); [rewrite map_length; lia|].
    intros p Hp. apply Ed in Hp. rewrite in_app_iff in Hp. tauto. }
  repeat split; apply H.
Qed.

Example E_C65_ex : goods 6 [ev 1 0 0 0 0 0; ev 0 1 0 0 0 0; ev 0 0 1 0 0 0] /\
  dequivalent_triangles [ev 1 0 0 0 0 0; ev 0 1 0 0 0 0; ev 0 0 1 0 0 0] [ev 0 0 1 0 0 0; ev 1 0 0 0 0 0; ev 0 1 0 0 0 0] = Ok true /\
  dequivalent_triangles [ev 1 0 0 0 0 0; ev 0 1 0 0 0 0; ev 0 0 1 0 0 0] [ev 0 0 1 0 0 0; ev 1 0 0 0 0 0; ev 0 0 0 1 0 0] = Ok false /\
  dequivalent_edges [ev 1 0 0 0 0 0; ev 1 0 0 0 0 0] [ev 1 0 0 0 0 0; ev 1 0 0 0 0 0] = Ok false.
Proof. split; [goodev|repeat split; vm_compute; reflexivity]. Qed.

(** equivalent on two vertex sets answers True iff together they have as many
    different points as the FIRST has vertices. *)
Lemma L_C65_equivalent_sets : forall a b, goods 6 a -> goods 6 b ->
  exists r, dequivalent (A3 a) (A3 b) = Ok (Some r) /\ dequivalent (A4 [a]) (A4 [b]) = Ok (Some r) /\
    (r = true <-> card (map dppoint a ++ map dppoint b) (length a)).
Proof.
  intros a b Ha Hb. destruct (dequivalent_n (length a) a b Ha Hb) as (m & E & H).
  exists (Nat.eqb m (length a)). unfold dequivalent, dcheck1. rewrite Nat.eqb_refl. cbn [length Nat.eqb andb get nth_error bind].
  rewrite Nat.eqb_refl, E. cbn [bind]. auto.
Qed.

(** For a first argument without repetitions this is inclusion of the second set in
    the first, not equality. *)
Lemma L_C65_equivalent_is_inclusion : forall a b, goods 6 a -> goods 6 b -> NoDup (map dppoint a) ->
  (dequivalent (A3 a) (A3 b) = Ok (Some true) <-> incl (map dppoint b) (map dppoint a)).
Proof.
  intros a b Ha Hb Na. destruct (L_C65_equivalent_sets a b Ha Hb) as (r & E & _ & H). rewrite E.
  assert (K : card (map dppoint a ++ map dppoint b) (length a) <-> incl (map dppoint b) (map dppoint a)).
  { split.
    - intros (d & Nd & Ed & Ld). intros p Hp.
      assert (I : incl d (map dppoint a)).
      { apply NoDup_length_incl; [exact Na|rewrite map_length; lia|]. intros q Hq. apply Ed. apply in_or_app. left. exact Hq. }
      apply I, Ed, in_or_app. right. exact Hp.
    - intros I. apply (card_ext (map dppoint a)); [|rewrite <- (map_length dppoint); apply card_NoDup; exact Na].
      intros p. rewrite in_app_iff. split; [tauto|]. intros [Hp|Hp]; [exact Hp|apply I; exact Hp]. }
  rewrite <- K, <- H. destruct r; split; congruence.
Qed.

(** A triangle and one of its edges are "equivalent". *)
Lemma L_C65_sets_refuted : exists a b, goods 6 a /\ goods 6 b /\ dequivalent (A3 a) (A3 b) = Ok (Some true) /\
  dequivalent (A3 b) (A3 a) = Ok (Some false) /\ ~ same_set (map dppoint a) (map dppoint b).
Proof.
  exists [ev 0 0 0 0 0 0; ev 1 0 0 0 0 0; ev 0 1 0 0 0 0], [ev 0 0 0 0 0 0; ev 1 0 0 0 0 0].
  assert (G : goods 6 [ev 0 0 0 0 0 0; ev 1 0 0 0 0 0; ev 0 1 0 0 0 0]).
  { unfold goods, good, wfv, wf, ev; cbn [map].
    repeat (apply Forall_cons; [split; [repeat (apply Forall_cons; [cbn; lia|]); apply Forall_nil|reflexivity]|]); apply Forall_nil. }
  assert (G' : goods 6 [ev 0 0 0 0 0 0; ev 1 0 0 0 0 0]) by (eapply goods_incl; [exact G|intros x [<-|[<-|[]]]; cbn; auto]).
  split; [exact G|]. split; [exact G'|]. split; [vm_compute; reflexivity|]. split; [vm_compute; reflexivity|].
  intros S. destruct (L_C65_equivalent_sets _ _ G' G) as (r & E & _ & H).
  assert (Er : r = false) by (vm_compute in E; congruence). subst r.
  destruct (L_C65_equivalent_sets _ _ G' G') as (r & E' & _ & H'). assert (r = true) by (vm_compute in E'; congruence). subst r.
  assert (C : card (map dppoint [ev 0 0 0 0 0 0; ev 1 0 0 0 0 0] ++ map dppoint [ev 0 0 0 0 0 0; ev 1 0 0 0 0 0]) 2) by (apply H'; reflexivity).
  assert (false = true); [|discriminate]. apply H. cbn [length].
  revert C. apply card_ext. intros p. rewrite !in_app_iff. rewrite (S p). tauto.
Qed.

Lemma L_C65_other_shapes : forall o1 o2,
  dequivalent o1 o2 = Ok None <->
  match o1, o2 with A3 _, A3 _ | A4 _, A4 _ | A2 _, A2 _ => False | _, _ => True end.
Proof.
  assert (B : forall (m : res bool) , (x <- m ;; Ok (Some x))%res <> Ok None) by (intros [b|e]; cbn; discriminate).
  intros o1 o2. destruct o1 as [t|v|vs|o|o|], o2 as [t'|v'|vs'|o'|o'|]; cbn [dequivalent]; try (split; [tauto|reflexivity]).
  - split; [apply B|tauto].
  - split; [apply B|tauto].
  - split; [|tauto]. destruct (_ && _); [|discriminate].
    destruct (get o 0) as [a0|]; cbn [bind]; [|discriminate]. destruct (get o' 0) as [b0|]; cbn [bind]; [|discriminate].
    apply B.
Qed.

(** C66: the edges of a triangle are exactly its pairs of vertices. *)
Lemma L_C66_triangle_edges : forall t, length t = 3%nat -> exists f, get_triangle_edge t = Ok f /\ length f = 3%nat /\
  (forall s, In s f <-> subseq s t /\ length s = 2%nat) /\ (NoDup t -> NoDup f).
Proof.
  intros t L. destruct t as [|a [|b [|c [|]]]]; try discriminate L. eexists. split; [reflexivity|]. split; [reflexivity|]. split.
  - intros s. split.
    + intros [<-|[<-|[<-|[]]]]; (split; [repeat constructor|reflexivity]).
    + intros [H L']. cbn [In].
      destruct s as [|x [|y [|]]]; try discriminate L'. clear L'.
      repeat match goal with
      | H : subseq (_ :: _) [] |- _ => inversion H
      | H : subseq (_ :: _) (_ :: _) |- _ => inversion H; subst; clear H
      end; auto 10.
  - intros N. repeat match goal with H : NoDup (_ :: _) |- _ => apply NoDup_cons_iff in H as [? ?] end. cbn [In] in *.
    repeat constructor; cbn [In]; intros E; repeat (destruct E as [E|E]); try (injection E; intros; subst; tauto); try tauto.
Qed.

(** Over an object of any size: k edges per simplex, and the edges are exactly the
    pairs of vertices of its simplices. *)
Lemma all_edges_gen (get_edge : vecs -> res obj4) n k o :
  (forall t, length t = n -> exists f, get_edge t = Ok f /\ length f = k /\ (forall s, In s f <-> subseq s t /\ length s = 2%nat) /\ (NoDup t -> NoDup f)) ->
  Forall (fun t => length t = n) o ->
  exists e, mapM get_edge o = Ok e /\ length (concat e) = (k * length o)%nat /\
    forall s, In s (concat e) <-> exists t, In t o /\ subseq s t /\ length s = 2%nat.
Proof.
  intros HE Ho. induction Ho as [|t o Ht _ IH]; cbn [mapM].
  - exists []. split; [reflexivity|]. split; [cbn; lia|]. intros s. cbn. split; [tauto|]. intros (t & [] & _).
  - destruct (HE t Ht) as (f & Ef & Lf & Hf & _). destruct IH as (e & Ee & Le & He). rewrite Ef, Ee. cbn [bind].
    exists (f :: e). split; [reflexivity|]. split.
    + cbn [concat length]. rewrite app_length, Lf, Le. lia.
    + intros s. cbn [concat]. rewrite in_app_iff, Hf, He. split.
      * intros [H|(t' & Ht' & H)]; [exists t; cbn; tauto|exists t'; cbn; tauto].
      * intros (t' & [<-|Ht'] & H); [left; exact H|right; exists t'; tauto].
Qed.

Lemma L_C66_all_edges : forall o, Forall (fun t => length t = 3%nat) o ->
  exists e, dgenerator_all_edges 3 o = Ok (Some e) /\ length e = (3 * length o)%nat /\
    forall s, In s e <-> exists t, In t o /\ subseq s t /\ length s = 2%nat.
Proof.
  intros o Ho. destruct (all_edges_gen get_triangle_edge 3 3 o L_C66_triangle_edges Ho) as (e & E & H).
  exists (concat e). unfold dgenerator_all_edges. cbn [Nat.eqb]. rewrite E. cbn [bind]. auto.
Qed.

Lemma L_C66_all_edges_other : forall n2 o, n2 <> 3%nat -> dgenerator_all_edges n2 o = Ok None.
Proof. intros n2 o H3. unfold dgenerator_all_edges. apply Nat.eqb_neq in H3. rewrite H3. reflexivity. Qed.

Example E_C66_ex : Forall (fun t : vecs => length t = 3%nat) [[ev 1 0 0 0 0 0; ev 0 1 0 0 0 0; ev 0 0 1 0 0 0]] /\
  dgenerator_all_edges 3 [[ev 1 0 0 0 0 0; ev 0 1 0 0 0 0; ev 0 0 1 0 0 0]] =
   Ok (Some [[ev 1 0 0 0 0 0; ev 0 1 0 0 0 0]; [ev 1 0 0 0 0 0; ev 0 0 1 0 0 0]; [ev 0 1 0 0 0 0; ev 0 0 1 0 0 0]]).
Proof. split; [repeat constructor|reflexivity]. Qed.

(** C53: whatever the two triangles, the connectivity test answers False, hence no
    two triangles are ever merged. *)
Lemma L_C53_never_connected : forall a b, goods 6 a -> length a = 3%nat ->
  check_connectivity_triangles a b = Ok false /\ merge_two_triangles a b = Ok None.
Proof.
  intros a b Ha La. destruct (dstacked_spec a a Ha Ha) as (m & E & (d & Nd & Ed & Ld)).
  assert (L : (length d <= 3)%nat).
  { rewrite <- La, <- (map_length dppoint a). apply NoDup_incl_length; [exact Nd|].
    intros p Hp. apply Ed in Hp. rewrite in_app_iff in Hp. tauto. }
  unfold merge_two_triangles, check_connectivity_triangles. rewrite E. cbn [bind].
  replace (Nat.eqb m 4) with false; [split; reflexivity|]. symmetry. apply Nat.eqb_neq. lia.
Qed.

(** In particular for two triangles that share exactly an edge. *)
Lemma L_C53_shared_edge_refuted : exists a b, goods 6 a /\ goods 6 b /\ length a = 3%nat /\ length b = 3%nat /\
  NoDup (map dppoint a) /\ NoDup (map dppoint b) /\
  (exists c, NoDup c /\ length c = 2%nat /\ forall p, In p c <-> In p (map dppoint a) /\ In p (map dppoint b)) /\
  check_connectivity_triangles a b = Ok false.
Proof.
  exists [ev 0 0 0 0 0 0; ev 1 0 0 0 0 0; ev 0 1 0 0 0 0], [ev 0 0 0 0 0 0; ev 1 0 0 0 0 0; ev 0 0 1 0 0 0].
  assert (G : goods 6 [ev 0 0 0 0 0 0; ev 1 0 0 0 0 0; ev 0 1 0 0 0 0]) by goodev.
  assert (G' : goods 6 [ev 0 0 0 0 0 0; ev 1 0 0 0 0 0; ev 0 0 1 0 0 0]) by goodev.
  assert (K : forall l, goods 6 l -> length l = 3%nat -> dequivalent_triangles l l = Ok true -> NoDup (map dppoint l)).
  { intros l Hl L H. destruct (ListDec.NoDup_dec pt_dec (map dppoint l)) as [N|N]; [exact N|].
    rewrite (proj1 (L_C65_degenerate_not_reflexive l Hl) L N) in H. discriminate. }
  assert (N : NoDup (map dppoint [ev 0 0 0 0 0 0; ev 1 0 0 0 0 0; ev 0 1 0 0 0 0])) by (apply K; [exact G|reflexivity|vm_compute; reflexivity]).
  assert (N' : NoDup (map dppoint [ev 0 0 0 0 0 0; ev 1 0 0 0 0 0; ev 0 0 1 0 0 0])) by (apply K; [exact G'|reflexivity|vm_compute; reflexivity]).
  split; [exact G|]. split; [exact G'|]. split; [reflexivity|]. split; [reflexivity|]. split; [exact N|]. split; [exact N'|].
  split; [|vm_compute; reflexivity].
  destruct (union_card _ _ N N') as (c & Nc & Ec & Cc & B1 & B2). exists c. split; [exact Nc|]. split; [|exact Ec].
  destruct (dstacked_spec _ _ G G') as (m & E & C). assert (m = 4%nat) by (vm_compute in E; congruence). subst m.
  pose proof (card_fun _ _ _ C Cc) as Q. cbn [length map] in Q, B1. lia.
Qed.

Example E_C53_ex : goods 6 [ev 0 0 0 0 0 0; ev 1 0 0 0 0 0; ev 0 1 0 0 0 0] /\
  dequivalent_edges [ev 0 0 0 0 0 0; ev 1 0 0 0 0 0] [ev 1 0 0 0 0 0; ev 0 0 0 0 0 0] = Ok true /\
  check_connectivity_triangles [ev 0 0 0 0 0 0; ev 1 0 0 0 0 0; ev 0 1 0 0 0 0] [ev 0 0 0 0 0 0; ev 1 0 0 0 0 0; ev 0 0 1 0 0 0] = Ok false.
Proof. split; [goodev|split; vm_compute; reflexivity]. Qed.
