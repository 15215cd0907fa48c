(** De-duplication, equivalence tests, faces and edges of ico2/utils.py: C19, C20, C21, C22, C23, C55. *)
From Coq Require Import Reals List ZArith Lia Lra Bool Sorting.Sorted Permutation.
From Verif Require Import Base.Res Model.Tau Model.Arr Model.IcoMath1 Model.IcoDedup Spec.Value Spec.RVec Spec.Shape
  Spec.IcoSpec Spec.Sets.
Import ListNotations.

From Verif Require Import Model.IcoScalar Model.Vectors Model.Unique Proofs.ResLemmas Proofs.ValueLemmas Proofs.Irrational
  Proofs.ScalarLemmas Proofs.RVecLemmas Proofs.VectorLemmas Proofs.IcoProj Proofs.UniqueLemmas Proofs.DedupLemmas.

Lemma NoDup_map_inj {A B} (f : A -> B) l u v : NoDup (map f l) -> In u l -> In v l -> f u = f v -> u = v.
Proof.
  intros N Hu Hv E. induction l as [|x l IH]; [destruct Hu|]. cbn [map] in N. apply NoDup_cons_iff in N as [Nx N].
  destruct Hu as [<-|Hu], Hv as [<-|Hv]; auto; exfalso; apply Nx; [rewrite E|rewrite <- E]; apply in_map; assumption.
Qed.

(** C19: remove_doubling returns the distinct input vectors in strictly increasing
    lexicographic order, whatever the integers are. *)
Lemma L_C19_remove_doubling : forall vs, exists r,
  remove_doubling (A3 vs) = Some r /\ same_set r vs /\
  StronglySorted (fun u v => lexlt (components u) (components v)) r.
Proof.
  intros vs. exists (unique cmp_vec vs). split; [reflexivity|]. split.
  - intros v. apply (unique_In cmp_vec lawful_vec).
  - pose proof (unique_sorted cmp_vec lawful_vec vs) as H. induction H as [|x l Hl IH Hx]; constructor; [exact IH|].
    rewrite Forall_forall in *. intros y Hy. apply cmp_lex_lexlt. rewrite <- !flat_components. apply Hx. exact Hy.
Qed.

(** On a 4-d array the vertices of all members are taken together. *)
Lemma L_C19_remove_doubling_4d : forall o, remove_doubling (A4 o) = remove_doubling (A3 (concat o)) /\
  remove_doubling_in_perp_space (A4 o) = remove_doubling_in_perp_space (A3 (concat o)).
Proof. intros o. split; reflexivity. Qed.

(** remove_doubling_in_perp_space keeps, for every input vector, exactly one vector
    with the same perpendicular projection, and invents none. *)
Lemma L_C19_perp_representatives : forall vs, goods 6 vs -> exists r,
  remove_doubling_in_perp_space (A3 vs) = Ok r /\ incl r vs /\ NoDup r /\
  forall v, In v vs -> exists! u, In u r /\ ppoint u = ppoint v.
Proof.
  intros vs Hg. destruct (perp_space_spec vs Hg) as (r & E & I & N & S). exists r.
  split; [exact E|]. split; [exact I|]. split; [apply (NoDup_map_inv ppoint); exact N|].
  intros v Hv. assert (Hp : In (ppoint v) (map ppoint r)) by (apply S, in_map; exact Hv).
  apply in_map_iff in Hp as (u & Eu & Hu). exists u. split; [auto|].
  intros u' [Hu' Eu']. rewrite <- Eu' in Eu.
  apply (NoDup_map_inj ppoint r); assumption.
Qed.

(** The result depends only on the set of input vectors: permuting or repeating
    them does not change it. *)
Lemma L_C19_order_irrelevant : forall vs vs', same_set vs vs' ->
  remove_doubling (A3 vs) = remove_doubling (A3 vs') /\
  remove_doubling_in_perp_space (A3 vs) = remove_doubling_in_perp_space (A3 vs').
Proof.
  intros vs vs' E. unfold remove_doubling_in_perp_space, remove_doubling.
  rewrite (unique_ext cmp_vec lawful_vec vs vs' E). split; reflexivity.
Qed.

(** Both are idempotent. *)
Lemma L_C19_idempotent : forall vs r, goods 6 vs ->
  (remove_doubling (A3 vs) = Some r -> remove_doubling (A3 r) = Some r) /\
  (remove_doubling_in_perp_space (A3 vs) = Ok r -> remove_doubling_in_perp_space (A3 r) = Ok r).
Proof.
  intros vs r Hg. split.
  - unfold remove_doubling. intros H. injection H as <-. f_equal. apply (unique_id cmp_vec lawful_vec).
    apply (unique_sorted cmp_vec lawful_vec).
  - intros H. unfold remove_doubling_in_perp_space in *. cbn [remove_doubling notNone bind] in *.
    assert (Hu : goods 6 (unique cmp_vec vs)).
    { eapply goods_incl; [exact Hg|]. intros v Hv. exact (proj1 (unique_In cmp_vec lawful_vec vs v) Hv). }
    destruct (perp_core _ Hu) as (p & r0 & Ep & Er & Fp & Fr & I). rewrite Ep in H. cbn [bind] in H.
    rewrite Er in H. injection H as ->.
    assert (Gr : goods 6 r) by (eapply goods_incl; [exact Hu|exact I]).
    assert (Hu' : goods 6 (unique cmp_vec r)).
    { eapply goods_incl; [exact Gr|]. intros v Hv. exact (proj1 (unique_In cmp_vec lawful_vec r v) Hv). }
    destruct (perp_core _ Hu') as (p' & r' & Ep' & Er' & Fp' & Fr' & I'). rewrite Ep'. cbn [bind]. rewrite Er'. f_equal.
    assert (K : unique cmp_vec p' = unique cmp_vec p).
    { apply (sorted_unique cmp_vec lawful_vec); [apply (unique_sorted cmp_vec lawful_vec)..|].
      intros k. rewrite (unique_In cmp_vec lawful_vec p' k).
      assert (A : forall l m k, Forall2 (fun v q => projection3 v = Ok q /\ canonv q /\ vals TAU q = ppoint v) l m ->
                  (In k m <-> exists v, In v l /\ projection3 v = Ok k)).
      { clear. intros l m k F. induction F as [|v q l m (Hq & _) _ IH]; cbn [In].
        - split; [tauto|]. intros (v & [] & _).
        - rewrite IH. split.
          + intros [<-|(v' & Hv & E)]; [exists v; auto|exists v'; auto].
          + intros (v' & [<-|Hv] & E); [left; congruence|right; exists v'; auto]. }
      rewrite (A _ _ k Fp'), (A _ _ k Fr). 
      split; intros (v & Hv & E); exists v; (split; [|exact E]).
      - exact (proj1 (unique_In cmp_vec lawful_vec r v) Hv).
      - exact (proj2 (unique_In cmp_vec lawful_vec r v) Hv). }
    rewrite K in Fr'.
    assert (I2 : incl r' r) by (intros v Hv; exact (proj1 (unique_In cmp_vec lawful_vec r v) (I' v Hv))).
    pose proof (unique_NoDup cmp_vec lawful_vec p) as Nk.
    assert (Inj : forall u v, In u r -> In v r -> projection3 u = projection3 v -> u = v).
    { revert Nk. clear - Fr. induction Fr as [|a k r ks (Ha & _) F IH]; intros Nk u v Hu Hv E; [destruct Hu|].
      apply NoDup_cons_iff in Nk as [Nk1 Nk2].
      assert (B : forall x, In x r -> projection3 x <> Ok k).
      { intros x Hx Ex. apply Nk1. clear - F Hx Ex. induction F as [|a' k' r ks (Ha & _) _ IHF]; [destruct Hx|].
        destruct Hx as [->|Hx]; [left; congruence|right; auto]. }
      destruct Hu as [<-|Hu], Hv as [<-|Hv]; auto.
      - exfalso. apply (B v Hv). congruence.
      - exfalso. apply (B u Hu). congruence. }
    clear - Fr Fr' I2 Inj. revert Fr Fr' I2. generalize (unique cmp_vec p). intros ks Fr.
    assert (J : forall m, incl r m -> (forall u v, In u m -> In v m -> projection3 u = projection3 v -> u = v) ->
        Forall2 (fun a k => projection3 a = Ok k /\ canonv k /\ vals TAU k = ppoint a) r' ks -> incl r' m -> r' = r).
    { clear Inj. revert r'. induction Fr as [|a k r ks (Ha & _) F IH]; intros r' m Im Inj Fr' I2; inversion Fr' as [|a' ? r'' ? (Ha' & _) F' ]; subst; [reflexivity|].
      f_equal.
      - apply Inj; [apply I2; left; reflexivity|apply Im; left; reflexivity|congruence].
      - apply (IH r'' m); auto; intros x Hx; [apply Im|apply I2]; right; exact Hx. }
    intros Fr' I2. apply (J r); auto. intros x Hx; exact Hx.
Qed.

(** Only 3-d and 4-d arrays are accepted. *)
Lemma L_C19_other_shapes : forall a, (forall vs, a <> A3 vs) -> (forall o, a <> A4 o) ->
  remove_doubling a = None /\ remove_doubling_in_perp_space a = Raise TypeError.
Proof. intros [t|v|vs|o|o|] H3 H4; try (split; reflexivity); exfalso; [eapply H3|eapply H4]; reflexivity. Qed.

Definition ev (a b c d e f : Z) : vec := map (fun x => T x 0 1) [a;b;c;d;e;f].

Example E_C19_ex : goods 6 [ev 1 0 0 0 0 0; ev 0 1 0 0 0 0; ev 1 0 0 0 0 0] /\
  remove_doubling_in_perp_space (A3 [ev 1 0 0 0 0 0; ev 0 1 0 0 0 0; ev 1 0 0 0 0 0])
    = Ok [ev 0 1 0 0 0 0; ev 1 0 0 0 0 0] /\
  (* two different vectors with the same perpendicular projection: 0 and a vector of parallel space *)
  remove_doubling_in_perp_space (A3 [ev 1 0 0 0 0 0; [T 1 0 1; T 0 1 1; T 0 1 1; T 0 0 1; T (-1) 0 1; T 0 0 1]; ev 0 0 0 0 0 0]) = Ok [ev 0 0 0 0 0 0; ev 1 0 0 0 0 0].
Proof.
  split; [|split; vm_compute; reflexivity]. unfold goods, good, wfv, wf, ev; cbn [map].
  repeat (apply Forall_cons; [split; [repeat (apply Forall_cons; [cbn; lia|]); apply Forall_nil|reflexivity]|]); apply Forall_nil.
Qed.

(** C20: when something remains, exactly the vectors that are not in the second
    argument are returned, in their order and with their multiplicity. *)
Lemma L_C20_remove_vectors : forall vs1 vs2, (exists v, In v vs1 /\ ~ In v vs2) ->
  exists keep, remove_vectors vs1 vs2 = filter keep vs1 /\ (forall v, keep v = true <-> ~ In v vs2).
Proof.
  intros vs1 vs2 (v & Hv & Nv). exists (fun v => negb (existsb (vec_eqb v) vs2)).
  assert (K : forall v, negb (existsb (vec_eqb v) vs2) = true <-> ~ In v vs2).
  { intros u. rewrite negb_true_iff. rewrite <- not_true_iff_false, existsb_exists. split.
    - intros H Hu. apply H. exists u. split; [exact Hu|apply vec_eqb_eq; reflexivity].
    - intros H (x & Hx & E). apply vec_eqb_eq in E. subst x. contradiction. }
  split; [|exact K]. unfold remove_vectors.
  destruct (length (filter _ vs1)) eqn:E; [|reflexivity].
  apply length_zero_iff_nil in E. assert (F : In v (filter (fun v => negb (existsb (vec_eqb v) vs2)) vs1)).
  { apply filter_In. split; [exact Hv|apply K; exact Nv]. }
  rewrite E in F. destruct F.
Qed.

Lemma L_C20_remove_vector : forall vs v, (exists u, In u vs /\ u <> v) ->
  exists keep, remove_vector vs v = filter keep vs /\ (forall u, keep u = true <-> u <> v).
Proof.
  intros vs v (u & Hu & Nu). exists (fun u => negb (vec_eqb u v)).
  assert (K : forall u, negb (vec_eqb u v) = true <-> u <> v).
  { intros x. rewrite negb_true_iff. rewrite <- not_true_iff_false, vec_eqb_eq. reflexivity. }
  split; [|exact K]. unfold remove_vector.
  destruct (length (filter _ vs)) eqn:E; [|reflexivity].
  apply length_zero_iff_nil in E. assert (F : In u (filter (fun u => negb (vec_eqb u v)) vs)).
  { apply filter_In. split; [exact Hu|apply K; exact Nu]. }
  rewrite E in F. destruct F.
Qed.

(** When nothing would remain the original list comes back. *)
Lemma L_C20_all_removed : forall vs1 vs2 v,
  (incl vs1 vs2 -> remove_vectors vs1 vs2 = vs1) /\ ((forall u, In u vs1 -> u = v) -> remove_vector vs1 v = vs1).
Proof.
  intros vs1 vs2 v. split; intros H.
  - unfold remove_vectors. replace (filter _ vs1) with (@nil vec); [reflexivity|]. symmetry.
    induction vs1 as [|x vs1 IH]; [reflexivity|]. cbn. 
    replace (existsb (vec_eqb x) vs2) with true; [apply IH; intros y Hy; apply H; right; exact Hy|].
    symmetry. apply existsb_exists. exists x. split; [apply H; left; reflexivity|apply vec_eqb_eq; reflexivity].
  - unfold remove_vector. replace (filter _ vs1) with (@nil vec); [reflexivity|]. symmetry.
    induction vs1 as [|x vs1 IH]; [reflexivity|]. cbn. replace (vec_eqb x v) with true; [apply IH; intros y Hy; apply H; right; exact Hy|].
    symmetry. apply vec_eqb_eq. apply H. left. reflexivity.
Qed.

(** So the contract "no vector of the second argument is in the result" fails. *)
Lemma L_C20_contract_refuted : exists vs1 vs2 v, In v (remove_vectors vs1 vs2) /\ In v vs2 /\ In v (remove_vector vs1 v).
Proof.
  exists [[T 1 0 1]], [[T 1 0 1]], [T 1 0 1]. repeat split; left; reflexivity.
Qed.

Example E_C20_ex : remove_vectors [ev 1 0 0 0 0 0; ev 2 0 0 0 0 0; ev 3 0 0 0 0 0; ev 2 0 0 0 0 0] [ev 2 0 0 0 0 0; ev 7 0 0 0 0 0]
  = [ev 1 0 0 0 0 0; ev 3 0 0 0 0 0] /\
  (exists v, In v [ev 1 0 0 0 0 0; ev 2 0 0 0 0 0] /\ ~ In v [ev 2 0 0 0 0 0]) /\
  remove_vector [ev 1 0 0 0 0 0; ev 2 0 0 0 0 0] (ev 2 0 0 0 0 0) = [ev 1 0 0 0 0 0].
Proof.
  split; [vm_compute; reflexivity|]. split; [|vm_compute; reflexivity].
  exists (ev 1 0 0 0 0 0). split; [left; reflexivity|]. intros [H|[]]. discriminate.
Qed.

(** C21: on simplices with pairwise different projected vertices the three tests
    decide equality of the sets of projected vertices. *)
Lemma L_C21_equivalent_tetrahedra : forall a b, goods 6 a -> goods 6 b -> length a = 4%nat -> length b = 4%nat ->
  NoDup (map ppoint a) -> NoDup (map ppoint b) ->
  exists r, equivalent_tetrahedra a b = Ok r /\ (r = true <-> same_set (map ppoint a) (map ppoint b)).
Proof.
  intros a b Ha Hb La Lb Na Nb. destruct (equivalent_n_set 4 a b Ha Hb La Lb Na Nb) as (m & E & H).
  unfold equivalent_tetrahedra. rewrite E. cbn [bind]. eauto.
Qed.
Lemma L_C21_equivalent_triangles : forall a b, goods 6 a -> goods 6 b -> length a = 3%nat -> length b = 3%nat ->
  NoDup (map ppoint a) -> NoDup (map ppoint b) ->
  exists r, equivalent_triangles a b = Ok r /\ (r = true <-> same_set (map ppoint a) (map ppoint b)).
Proof.
  intros a b Ha Hb La Lb Na Nb. destruct (equivalent_n_set 3 a b Ha Hb La Lb Na Nb) as (m & E & H).
  unfold equivalent_triangles. rewrite E. cbn [bind]. eauto.
Qed.
Lemma L_C21_equivalent_edges : forall a b, goods 6 a -> goods 6 b -> length a = 2%nat -> length b = 2%nat ->
  NoDup (map ppoint a) -> NoDup (map ppoint b) ->
  exists r, equivalent_edges a b = Ok r /\ (r = true <-> same_set (map ppoint a) (map ppoint b)).
Proof.
  intros a b Ha Hb La Lb Na Nb. destruct (equivalent_n_set 2 a b Ha Hb La Lb Na Nb) as (m & E & H).
  unfold equivalent_edges. rewrite E. cbn [bind]. eauto.
Qed.
Lemma L_C21_equivalent_vertices : forall u v, good 6 u -> good 6 v ->
  exists r, equivalent_vertices u v = Ok r /\ (r = true <-> ppoint u = ppoint v).
Proof.
  intros u v Hu Hv. unfold equivalent_vertices.
  pose proof (projection3_spec u Hu) as Su. apply wp_elim in Su as (a & Ea & Ca & Va).
  pose proof (projection3_spec v Hv) as Sv. apply wp_elim in Sv as (b & Eb & Cb & Vb).
  rewrite Ea, Eb. cbn [bind]. exists (vec_eqb a b). split; [reflexivity|]. rewrite vec_eqb_eq.
  unfold ppoint. rewrite <- Va, <- Vb. split; [congruence|apply vals_inj; assumption].
Qed.

(** Whatever the arguments, the answer is True iff the two sets together have
    exactly 4 (3, 2) different projected vertices. *)
Lemma L_C21_general : forall a b, goods 6 a -> goods 6 b ->
  (equivalent_tetrahedra a b = Ok true <-> card (map ppoint a ++ map ppoint b) 4) /\
  (equivalent_triangles a b = Ok true <-> card (map ppoint a ++ map ppoint b) 3) /\
  (equivalent_edges a b = Ok true <-> card (map ppoint a ++ map ppoint b) 2).
Proof.
  intros a b Ha Hb. destruct (stacked_spec a b Ha Hb) as (m & E & C).
  unfold equivalent_tetrahedra, equivalent_triangles, equivalent_edges. rewrite E. cbn [bind].
  assert (H : forall n, Ok (Nat.eqb m n) = Ok true <-> card (map ppoint a ++ map ppoint b) n).
  { intros n. split; [intros H; injection H as H; apply Nat.eqb_eq in H; subst; exact C|].
    intros C'. f_equal. apply Nat.eqb_eq. eapply card_fun; eassumption. }
  repeat split; apply H.
Qed.

(** A tetrahedron (triangle, edge) with a repeated vertex is not even equivalent to
    itself. *)
Lemma L_C21_degenerate_not_reflexive : forall a, goods 6 a ->
  (length a = 4%nat -> ~ NoDup (map ppoint a) -> equivalent_tetrahedra a a = Ok false) /\
  (length a = 3%nat -> ~ NoDup (map ppoint a) -> equivalent_triangles a a = Ok false) /\
  (length a = 2%nat -> ~ NoDup (map ppoint a) -> equivalent_edges a a = Ok false).
Proof.
  intros a Ha. destruct (stacked_spec a a Ha Ha) as (m & E & C).
  unfold equivalent_tetrahedra, equivalent_triangles, equivalent_edges. rewrite E. cbn [bind].
  assert (H : forall n, length a = n -> ~ NoDup (map ppoint a) -> Ok (Nat.eqb m n) = Ok false).
  { intros n Hn ND. f_equal. apply Nat.eqb_neq. intros ->. apply ND.
    destruct C as (d & Nd & Ed & Ld). apply (fun H => NoDup_incl_NoDup (l:=d) (l':=map ppoint a) Nd H); [rewrite map_length; lia|].
    intros p Hp. apply Ed in Hp. rewrite in_app_iff in Hp. tauto. }
  repeat split; apply H.
Qed.

Example E_C21_ex : goods 6 [ev 1 0 0 0 0 0; ev 0 1 0 0 0 0; ev 0 0 1 0 0 0; ev 0 0 0 1 0 0] /\
  equivalent_tetrahedra [ev 1 0 0 0 0 0; ev 0 1 0 0 0 0; ev 0 0 1 0 0 0; ev 0 0 0 1 0 0]
                        [ev 0 0 1 0 0 0; ev 0 0 0 1 0 0; ev 1 0 0 0 0 0; ev 0 1 0 0 0 0] = Ok true /\
  equivalent_tetrahedra [ev 1 0 0 0 0 0; ev 0 1 0 0 0 0; ev 0 0 1 0 0 0; ev 0 0 0 1 0 0]
                        [ev 0 0 1 0 0 0; ev 0 0 0 1 0 0; ev 1 0 0 0 0 0; ev 0 0 0 0 1 0] = Ok false /\
  equivalent_triangles [ev 1 0 0 0 0 0; ev 1 0 0 0 0 0; ev 0 0 1 0 0 0] [ev 1 0 0 0 0 0; ev 1 0 0 0 0 0; ev 0 0 1 0 0 0] = Ok false.
Proof.
  split; [|repeat split; vm_compute; reflexivity]. unfold goods, good, wfv, wf, ev; cbn [map].
  repeat (apply Forall_cons; [split; [repeat (apply Forall_cons; [cbn; lia|]); apply Forall_nil|reflexivity]|]); apply Forall_nil.
Qed.

(** C22: equivalent on two vertex sets answers True iff together they have as many
    different points as the FIRST has vertices. *)
Lemma L_C22_equivalent_sets : forall a b, goods 6 a -> goods 6 b ->
  exists r, equivalent (A3 a) (A3 b) = Ok (Some r) /\ equivalent (A4 [a]) (A4 [b]) = Ok (Some r) /\
    (r = true <-> card (map ppoint a ++ map ppoint b) (length a)).
Proof.
  intros a b Ha Hb. destruct (equivalent_n (length a) a b Ha Hb) as (m & E & H).
  exists (Nat.eqb m (length a)). unfold equivalent, check1. rewrite Nat.eqb_refl. cbn [length Nat.eqb andb get nth_error bind].
  rewrite Nat.eqb_refl, E. cbn [bind]. auto.
Qed.

(** For a first argument without repetitions this is inclusion of the second set in
    the first, not equality. *)
Lemma L_C22_equivalent_is_inclusion : forall a b, goods 6 a -> goods 6 b -> NoDup (map ppoint a) ->
  (equivalent (A3 a) (A3 b) = Ok (Some true) <-> incl (map ppoint b) (map ppoint a)).
Proof.
  intros a b Ha Hb Na. destruct (L_C22_equivalent_sets a b Ha Hb) as (r & E & _ & H). rewrite E.
  assert (K : card (map ppoint a ++ map ppoint b) (length a) <-> incl (map ppoint b) (map ppoint a)).
  { split.
    - intros (d & Nd & Ed & Ld). intros p Hp.
      assert (I : incl d (map ppoint a)).
      { apply NoDup_length_incl; [exact Na|rewrite map_length; lia|]. intros q Hq. apply Ed. apply in_or_app. left. exact Hq. }
      apply I, Ed, in_or_app. right. exact Hp.
    - intros I. apply (card_ext (map ppoint a)); [|rewrite <- (map_length ppoint); apply card_NoDup; exact Na].
      intros p. rewrite in_app_iff. split; [tauto|]. intros [Hp|Hp]; [exact Hp|apply I; exact Hp]. }
  rewrite <- K, <- H. destruct r; split; congruence.
Qed.

(** A triangle and one of its edges are "equivalent". *)
Lemma L_C22_sets_refuted : exists a b, goods 6 a /\ goods 6 b /\ equivalent (A3 a) (A3 b) = Ok (Some true) /\
  equivalent (A3 b) (A3 a) = Ok (Some false) /\ ~ same_set (map ppoint a) (map ppoint b).
Proof.
  exists [ev 0 0 0 0 0 0; ev 1 0 0 0 0 0; ev 0 1 0 0 0 0], [ev 0 0 0 0 0 0; ev 1 0 0 0 0 0].
  assert (G : goods 6 [ev 0 0 0 0 0 0; ev 1 0 0 0 0 0; ev 0 1 0 0 0 0]).
  { unfold goods, good, wfv, wf, ev; cbn [map].
    repeat (apply Forall_cons; [split; [repeat (apply Forall_cons; [cbn; lia|]); apply Forall_nil|reflexivity]|]); apply Forall_nil. }
  assert (G' : goods 6 [ev 0 0 0 0 0 0; ev 1 0 0 0 0 0]) by (eapply goods_incl; [exact G|intros x [<-|[<-|[]]]; cbn; auto]).
  split; [exact G|]. split; [exact G'|]. split; [vm_compute; reflexivity|]. split; [vm_compute; reflexivity|].
  intros S. destruct (L_C22_equivalent_sets _ _ G' G) as (r & E & _ & H).
  assert (Er : r = false) by (vm_compute in E; congruence). subst r.
  destruct (L_C22_equivalent_sets _ _ G' G') as (r & E' & _ & H'). assert (r = true) by (vm_compute in E'; congruence). subst r.
  assert (C : card (map ppoint [ev 0 0 0 0 0 0; ev 1 0 0 0 0 0] ++ map ppoint [ev 0 0 0 0 0 0; ev 1 0 0 0 0 0]) 2) by (apply H'; reflexivity).
  assert (false = true); [|discriminate]. apply H. cbn [length].
  revert C. apply card_ext. intros p. rewrite !in_app_iff. rewrite (S p). tauto.
Qed.

Lemma L_C22_other_shapes : forall o1 o2,
  equivalent o1 o2 = Ok None <->
  match o1, o2 with A3 _, A3 _ | A4 _, A4 _ | A2 _, A2 _ => False | _, _ => True end.
Proof.
  assert (B : forall (m : res bool) , (x <- m ;; Ok (Some x))%res <> Ok None) by (intros [b|e]; cbn; discriminate).
  intros o1 o2. destruct o1 as [t|v|vs|o|o|], o2 as [t'|v'|vs'|o'|o'|]; cbn [equivalent]; try (split; [tauto|reflexivity]).
  - split; [apply B|tauto].
  - split; [apply B|tauto].
  - split; [|tauto]. destruct (_ && _); [|discriminate].
    destruct (get o 0) as [a0|]; cbn [bind]; [|discriminate]. destruct (get o' 0) as [b0|]; cbn [bind]; [|discriminate].
    apply B.
Qed.

(** C23: faces and edges are exactly the sub-sequences of 3 resp. 2 vertices. *)
Lemma L_C23_faces : forall t, length t = 4%nat -> exists f, get_tetrahedron_surface t = Ok f /\ length f = 4%nat /\
  (forall s, In s f <-> subseq s t /\ length s = 3%nat) /\ (NoDup t -> NoDup f).
Proof.
  intros t L. apply length4 in L as (a & b & c & d & ->). eexists. split; [apply surface_4|]. split; [reflexivity|]. split.
  - intros s. split.
    + intros [<-|[<-|[<-|[<-|[]]]]]; (split; [repeat constructor|reflexivity]).
    + intros [H L]. cbn [In].
      destruct s as [|x [|y [|z [|]]]]; try discriminate L. clear L.
      repeat match goal with
      | H : subseq (_ :: _) [] |- _ => inversion H
      | H : subseq (_ :: _) (_ :: _) |- _ => inversion H; subst; clear H
      end; auto.
  - intros N. repeat match goal with H : NoDup (_ :: _) |- _ => apply NoDup_cons_iff in H as [? ?] end. cbn [In] in *.
    repeat constructor; cbn [In]; intros E; repeat (destruct E as [E|E]); try (injection E; intros; subst; tauto); try tauto.
Qed.

Lemma L_C23_tetrahedron_edges : forall t, length t = 4%nat -> exists f, get_tetrahedron_edge t = Ok f /\ length f = 6%nat /\
  (forall s, In s f <-> subseq s t /\ length s = 2%nat) /\ (NoDup t -> NoDup f).
Proof.
  intros t L. apply length4 in L as (a & b & c & d & ->). eexists. split; [reflexivity|]. split; [reflexivity|]. split.
  - intros s. split.
    + intros [<-|[<-|[<-|[<-|[<-|[<-|[]]]]]]]; (split; [repeat constructor|reflexivity]).
    + intros [H L]. cbn [In].
      destruct s as [|x [|y [|]]]; try discriminate L. clear L.
      repeat match goal with
      | H : subseq (_ :: _) [] |- _ => inversion H
      | H : subseq (_ :: _) (_ :: _) |- _ => inversion H; subst; clear H
      end; auto 10.
  - intros N. repeat match goal with H : NoDup (_ :: _) |- _ => apply NoDup_cons_iff in H as [? ?] end. cbn [In] in *.
    repeat constructor; cbn [In]; intros E; repeat (destruct E as [E|E]); try (injection E; intros; subst; tauto); try tauto.
Qed.

Lemma L_C23_triangle_edges : forall t, length t = 3%nat -> exists f, get_triangle_edge t = Ok f /\ length f = 3%nat /\
  (forall s, In s f <-> subseq s t /\ length s = 2%nat) /\ (NoDup t -> NoDup f).
Proof.
  intros t L. destruct t as [|a [|b [|c [|]]]]; try discriminate L. eexists. split; [reflexivity|]. split; [reflexivity|]. split.
  - intros s. split.
    + intros [<-|[<-|[<-|[]]]]; (split; [repeat constructor|reflexivity]).
    + intros [H L']. cbn [In].
      destruct s as [|x [|y [|]]]; try discriminate L'. clear L'.
      repeat match goal with
      | H : subseq (_ :: _) [] |- _ => inversion H
      | H : subseq (_ :: _) (_ :: _) |- _ => inversion H; subst; clear H
      end; auto 10.
  - intros N. repeat match goal with H : NoDup (_ :: _) |- _ => apply NoDup_cons_iff in H as [? ?] end. cbn [In] in *.
    repeat constructor; cbn [In]; intros E; repeat (destruct E as [E|E]); try (injection E; intros; subst; tauto); try tauto.
Qed.

(** Over an object of any size: k edges per simplex, and the edges are exactly the
    pairs of vertices of its simplices. *)
Lemma all_edges_gen (get_edge : vecs -> res obj4) n k o :
  (forall t, length t = n -> exists f, get_edge t = Ok f /\ length f = k /\ (forall s, In s f <-> subseq s t /\ length s = 2%nat) /\ (NoDup t -> NoDup f)) ->
  Forall (fun t => length t = n) o ->
  exists e, mapM get_edge o = Ok e /\ length (concat e) = (k * length o)%nat /\
    forall s, In s (concat e) <-> exists t, In t o /\ subseq s t /\ length s = 2%nat.
Proof.
  intros HE Ho. induction Ho as [|t o Ht _ IH]; cbn [mapM].
  - exists []. split; [reflexivity|]. split; [cbn; lia|]. intros s. cbn. split; [tauto|]. intros (t & [] & _).
  - destruct (HE t Ht) as (f & Ef & Lf & Hf & _). destruct IH as (e & Ee & Le & He). rewrite Ef, Ee. cbn [bind].
    exists (f :: e). split; [reflexivity|]. split.
    + cbn [concat length]. rewrite app_length, Lf, Le. lia.
    + intros s. cbn [concat]. rewrite in_app_iff, Hf, He. split.
      * intros [H|(t' & Ht' & H)]; [exists t; cbn; tauto|exists t'; cbn; tauto].
      * intros (t' & [<-|Ht'] & H); [left; exact H|right; exists t'; tauto].
Qed.

Lemma L_C23_all_edges : forall o,
  (Forall (fun t => length t = 4%nat) o -> exists e, generator_all_edges 4 o = Ok (Some e) /\ length e = (6 * length o)%nat /\
     forall s, In s e <-> exists t, In t o /\ subseq s t /\ length s = 2%nat) /\
  (Forall (fun t => length t = 3%nat) o -> exists e, generator_all_edges 3 o = Ok (Some e) /\ length e = (3 * length o)%nat /\
     forall s, In s e <-> exists t, In t o /\ subseq s t /\ length s = 2%nat).
Proof.
  intros o. split; intros Ho.
  - destruct (all_edges_gen get_tetrahedron_edge 4 6 o L_C23_tetrahedron_edges Ho) as (e & E & H).
    exists (concat e). unfold generator_all_edges. cbn [Nat.eqb]. rewrite E. cbn [bind]. auto.
  - destruct (all_edges_gen get_triangle_edge 3 3 o L_C23_triangle_edges Ho) as (e & E & H).
    exists (concat e). unfold generator_all_edges. cbn [Nat.eqb]. rewrite E. cbn [bind]. auto.
Qed.

Lemma L_C23_all_edges_other : forall n2 o, n2 <> 3%nat -> n2 <> 4%nat -> generator_all_edges n2 o = Ok None.
Proof.
  intros n2 o H3 H4. unfold generator_all_edges. apply Nat.eqb_neq in H3, H4. rewrite H3, H4. reflexivity.
Qed.

Example E_C23_ex : Forall (fun t : vecs => length t = 4%nat) [[ev 1 0 0 0 0 0; ev 0 1 0 0 0 0; ev 0 0 1 0 0 0; ev 0 0 0 1 0 0]] /\
  get_tetrahedron_edge [ev 1 0 0 0 0 0; ev 0 1 0 0 0 0; ev 0 0 1 0 0 0; ev 0 0 0 1 0 0] =
   Ok [[ev 1 0 0 0 0 0; ev 0 1 0 0 0 0]; [ev 1 0 0 0 0 0; ev 0 0 1 0 0 0]; [ev 1 0 0 0 0 0; ev 0 0 0 1 0 0];
       [ev 0 1 0 0 0 0; ev 0 0 1 0 0 0]; [ev 0 1 0 0 0 0; ev 0 0 0 1 0 0]; [ev 0 0 1 0 0 0; ev 0 0 0 1 0 0]].
Proof. split; [repeat constructor|reflexivity]. Qed.

(** C55: connectivity. *)
Lemma L_C55_connectivity : forall a b, goods 6 a -> goods 6 b ->
  (check_connectivity_tetrahedra a b = Ok true <-> card (map ppoint a ++ map ppoint b) 5) /\
  (check_connectivity_tetrahedra a b = Ok false <-> ~ card (map ppoint a ++ map ppoint b) 5).
Proof.
  intros a b Ha Hb. destruct (equivalent_n 5 a b Ha Hb) as (m & E & H).
  unfold check_connectivity_tetrahedra. rewrite E. cbn [bind]. rewrite <- H. destruct (Nat.eqb m 5); split; split; congruence.
Qed.

(** For tetrahedra with four different projected vertices: exactly three common ones. *)
Lemma L_C55_three_common : forall a b, goods 6 a -> goods 6 b -> length a = 4%nat -> length b = 4%nat ->
  NoDup (map ppoint a) -> NoDup (map ppoint b) ->
  (check_connectivity_tetrahedra a b = Ok true <->
   exists c, NoDup c /\ length c = 3%nat /\ forall p, In p c <-> In p (map ppoint a) /\ In p (map ppoint b)).
Proof.
  intros a b Ha Hb La Lb Na Nb. rewrite (proj1 (L_C55_connectivity a b Ha Hb)).
  destruct (union_card _ _ Na Nb) as (c & Nc & Ec & Cc & B1 & B2). rewrite !map_length in *. rewrite La, Lb in *.
  split.
  - intros C. exists c. split; [exact Nc|]. split; [|exact Ec]. pose proof (card_fun _ _ _ C Cc). lia.
  - intros (e & Ne & Le & Ee). assert (length c = length e).
    { apply same_set_length; auto. intros p. rewrite Ec, Ee. tauto. }
    replace 5%nat with (4 + 4 - length c)%nat by lia. exact Cc.
Qed.

(** The common triangle: a face of the first tetrahedron consisting of exactly the
    common points. *)
Lemma L_C55_common_triangle : forall a b, goods 6 a -> goods 6 b -> length a = 4%nat -> length b = 4%nat ->
  NoDup (map ppoint a) -> NoDup (map ppoint b) -> check_connectivity_tetrahedra a b = Ok true ->
  exists t, get_common_triangle_in_two_tetrahedra a b = Ok (Some t) /\ subseq t a /\ length t = 3%nat /\
    forall p, In p (map ppoint t) <-> In p (map ppoint a) /\ In p (map ppoint b).
Proof.
  intros a b Ha Hb La Lb Na Nb H. apply L_C55_three_common in H as (c & Nc & Lc & Ec); auto.
  destruct (common_spec a b Ha Hb La Lb Na Nb) as (o & E & Ho). destruct o as [t|].
  - destruct Ho as (S & Lt & I). exists t. split; [exact E|]. split; [exact S|]. split; [exact Lt|].
    assert (Ia : incl (map ppoint t) (map ppoint a)).
    { intros p. rewrite !in_map_iff. intros (x & Ex & Hx). exists x. split; [exact Ex|].
      clear - S Hx. induction S as [|y s l _ IH|y s l _ IH]; [destruct Hx| |right; auto]. destruct Hx as [<-|Hx]; [left; reflexivity|right; auto]. }
    assert (Nt : NoDup (map ppoint t)).
    { clear - S Na. induction S as [|y s l S IH|y s l S IH]; cbn in *; [constructor| |].
      - apply NoDup_cons_iff in Na as [N1 N2]. constructor; [|auto]. intros H. apply N1.
        apply in_map_iff in H as (x & Ex & Hx). rewrite <- Ex. apply in_map.
        clear - S Hx. induction S as [|y' s l _ IH|y' s l _ IH]; [destruct Hx| |right; auto]. destruct Hx as [<-|Hx]; [left; reflexivity|right; auto].
      - apply NoDup_cons_iff in Na as [N1 N2]. auto. }
    assert (Ic : incl c (map ppoint t)).
    { apply NoDup_length_incl; [exact Nt|rewrite map_length; lia|]. intros p Hp. apply Ec. split; [apply Ia|apply I]; exact Hp. }
    intros p. split; [intros Hp; split; [apply Ia|apply I]; exact Hp|]. intros Hp. apply Ic, Ec. exact Hp.
  - exfalso. apply (Ho c Nc); [lia|intros p Hp; apply Ec in Hp; tauto..].
Qed.

(** None exactly when fewer than three vertices are common. *)
Lemma L_C55_no_common_triangle : forall a b, goods 6 a -> goods 6 b -> length a = 4%nat -> length b = 4%nat ->
  NoDup (map ppoint a) -> NoDup (map ppoint b) ->
  (get_common_triangle_in_two_tetrahedra a b = Ok None <->
   forall c, NoDup c -> incl c (map ppoint a) -> incl c (map ppoint b) -> (length c < 3)%nat).
Proof.
  intros a b Ha Hb La Lb Na Nb. destruct (common_spec a b Ha Hb La Lb Na Nb) as (o & E & Ho). rewrite E. destruct o as [t|].
  - split; [discriminate|]. intros H. exfalso. destruct Ho as (S & Lt & I).
    assert (Ia : incl (map ppoint t) (map ppoint a)).
    { intros p. rewrite !in_map_iff. intros (x & Ex & Hx). exists x. split; [exact Ex|].
      clear - S Hx. induction S as [|y s l _ IH|y s l _ IH]; [destruct Hx| |right; auto]. destruct Hx as [<-|Hx]; [left; reflexivity|right; auto]. }
    assert (Nt : NoDup (map ppoint t)).
    { clear - S Na. induction S as [|y s l S IH|y s l S IH]; cbn in *; [constructor| |].
      - apply NoDup_cons_iff in Na as [N1 N2]. constructor; [|auto]. intros H. apply N1.
        apply in_map_iff in H as (x & Ex & Hx). rewrite <- Ex. apply in_map.
        clear - S Hx. induction S as [|y' s l _ IH|y' s l _ IH]; [destruct Hx| |right; auto]. destruct Hx as [<-|Hx]; [left; reflexivity|right; auto].
      - apply NoDup_cons_iff in Na as [N1 N2]. auto. }
    specialize (H _ Nt Ia I). rewrite map_length in H. lia.
  - split; [|reflexivity]. intros _ c Nc I1 I2. destruct (Nat.lt_ge_cases (length c) 3); [assumption|].
    exfalso. exact (Ho c Nc H I1 I2).
Qed.

Example E_C55_ex :
  check_connectivity_tetrahedra [ev 1 0 0 0 0 0; ev 0 1 0 0 0 0; ev 0 0 1 0 0 0; ev 0 0 0 1 0 0]
                                [ev 0 0 0 0 1 0; ev 0 0 0 1 0 0; ev 1 0 0 0 0 0; ev 0 1 0 0 0 0] = Ok true /\
  get_common_triangle_in_two_tetrahedra [ev 1 0 0 0 0 0; ev 0 1 0 0 0 0; ev 0 0 1 0 0 0; ev 0 0 0 1 0 0]
                                [ev 0 0 0 0 1 0; ev 0 0 0 1 0 0; ev 1 0 0 0 0 0; ev 0 1 0 0 0 0]
   = Ok (Some [ev 1 0 0 0 0 0; ev 0 1 0 0 0 0; ev 0 0 0 1 0 0]) /\
  check_connectivity_tetrahedra [ev 1 0 0 0 0 0; ev 0 1 0 0 0 0; ev 0 0 1 0 0 0; ev 0 0 0 1 0 0]
                                [ev 1 0 0 0 0 0; ev 0 1 0 0 0 0; ev 0 0 1 0 0 0; ev 0 0 0 1 0 0] = Ok false.
Proof. repeat split; vm_compute; reflexivity. Qed.
