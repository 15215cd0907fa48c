(** np.unique on a totally ordered key type. *)
From Coq Require Import List ZArith Lia Sorting.Sorted Permutation Bool.
From Verif Require Import Base.Res Model.Tau Model.Arr Model.Unique Spec.Sets Proofs.ResLemmas.
Import ListNotations.

Record lawful {K} (cmp : K -> K -> comparison) : Prop := {
  cmp_eq : forall x y, cmp x y = Eq <-> x = y;
  cmp_opp : forall x y, cmp y x = CompOpp (cmp x y);
  cmp_trans : forall x y z, cmp x y = Lt -> cmp y z = Lt -> cmp x z = Lt }.

Section L.
  Context {K} (cmp : K -> K -> comparison) (LAW : lawful cmp).

  Definition klt (x y : K) := cmp x y = Lt.
  Definition kle (x y : K) := cmp x y <> Gt.

  Lemma kle_refl x : kle x x.
  Proof. unfold kle. rewrite (proj2 (cmp_eq _ LAW x x) eq_refl). discriminate. Qed.
  Lemma klt_irrefl x : ~ klt x x.
  Proof. unfold klt. rewrite (proj2 (cmp_eq _ LAW x x) eq_refl). discriminate. Qed.
  Lemma kle_cases x y : kle x y <-> klt x y \/ x = y.
  Proof.
    unfold kle, klt. rewrite <- (cmp_eq _ LAW x y). destruct (cmp x y); split; intros; try tauto; try congruence;
      destruct H; congruence.
  Qed.
  Lemma gt_lt x y : cmp x y = Gt -> klt y x.
  Proof. intros H. unfold klt. rewrite (cmp_opp _ LAW), H. reflexivity. Qed.
  Lemma kle_trans x y z : kle x y -> kle y z -> kle x z.
  Proof.
    rewrite !kle_cases. intros [H1| ->] [H2| ->]; auto. left. eapply (cmp_trans _ LAW); eassumption.
  Qed.
  Lemma klt_trans x y z : klt x y -> klt y z -> klt x z.
  Proof. apply (cmp_trans _ LAW). Qed.
  Lemma klt_kle_trans x y z : klt x y -> kle y z -> klt x z.
  Proof. rewrite kle_cases. intros H [H'| <-]; [eapply klt_trans; eassumption|exact H]. Qed.
  Lemma klt_ne x y : klt x y -> x <> y.
  Proof. intros H ->. exact (klt_irrefl _ H). Qed.

  Lemma insert_perm x l : Permutation (insert cmp x l) (x :: l).
  Proof.
    induction l as [|y r IH]; cbn [insert]; [reflexivity|].
    destruct (cmp (fst x) (fst y)); [reflexivity..|].
    rewrite IH. apply perm_swap.
  Qed.
  Lemma sort_perm l : Permutation (sort cmp l) l.
  Proof.
    induction l as [|x l IH]; cbn [sort fold_right]; [reflexivity|].
    rewrite insert_perm. constructor. exact IH.
  Qed.

  (** Sorted by key, and by index among equal keys. *)
  Definition ple (a b : K * nat) : Prop := klt (fst a) (fst b) \/ (fst a = fst b /\ (snd a < snd b)%nat).

  Lemma ple_trans a b c : ple a b -> ple b c -> ple a c.
  Proof.
    unfold ple. intros [H1|[H1 H1']] [H2|[H2 H2']].
    - left. eapply klt_trans; eassumption.
    - left. rewrite <- H2. exact H1.
    - left. rewrite H1. exact H2.
    - right. split; [congruence|lia].
  Qed.

  Lemma insert_sorted x l : Forall (fun y => (snd x < snd y)%nat) l ->
    StronglySorted ple l -> StronglySorted ple (insert cmp x l).
  Proof.
    intros Hx Hs. induction l as [|y r IH]; cbn [insert].
    - constructor; [constructor|constructor].
    - inversion Hs as [|? ? Hr Hy]; subst. inversion Hx as [|? ? Hxy Hxr]; subst.
      assert (D : ple x y -> StronglySorted ple (x :: y :: r)).
      { intros P. constructor; [exact Hs|]. constructor; [exact P|].
        rewrite Forall_forall in *. intros z Hz. eapply ple_trans; [exact P|apply Hy; exact Hz]. }
      destruct (cmp (fst x) (fst y)) eqn:E.
      + apply D. right. split; [apply (cmp_eq _ LAW); exact E|exact Hxy].
      + apply D. left. exact E.
      + constructor; [apply IH; assumption|].
        rewrite Forall_forall. intros z Hz. apply (Permutation_in z (insert_perm x r)) in Hz as [<-|Hz].
        * left. apply gt_lt. exact E.
        * rewrite Forall_forall in Hy. apply Hy. exact Hz.
  Qed.

  Lemma sort_sorted l : StronglySorted (fun a b => (snd a < snd b)%nat) l -> StronglySorted ple (sort cmp l).
  Proof.
    induction l as [|x l IH]; cbn [sort fold_right]; intros H; [constructor|].
    inversion H as [|? ? Hl Hx]; subst. apply insert_sorted; [|apply IH; exact Hl].
    rewrite Forall_forall in *. intros y Hy. apply Hx. apply (Permutation_in y (sort_perm l)). exact Hy.
  Qed.

  Lemma indexed_sorted_gen (ks : list K) n :
    StronglySorted (fun a b => (snd a < snd b)%nat) (combine ks (seq n (length ks))).
  Proof.
    revert n. induction ks as [|k ks IH]; intros n; cbn; constructor; [apply IH|].
    rewrite Forall_forall. intros [k' i] Hi. apply in_combine_r in Hi. apply in_seq in Hi. cbn. lia.
  Qed.

  Lemma in_indexed_gen (ks : list K) n k i :
    In (k, i) (combine ks (seq n (length ks))) <-> (n <= i)%nat /\ nth_error ks (i - n) = Some k.
  Proof.
    revert n. induction ks as [|k0 ks IH]; intros n; cbn [length seq combine In].
    - split; [tauto|]. intros [_ H]. destruct (i - n)%nat; discriminate.
    - rewrite IH. split.
      + intros [H|[H1 H2]].
        * injection H as -> ->. rewrite Nat.sub_diag. split; [lia|reflexivity].
        * split; [lia|]. replace (i - n)%nat with (S (i - S n)) by lia. exact H2.
      + intros [H1 H2]. destruct (i - n)%nat as [|j] eqn:E.
        * left. assert (i = n) by lia. cbn in H2. congruence.
        * right. split; [lia|]. replace (i - S n)%nat with j by lia. exact H2.
  Qed.
  Lemma in_indexed (ks : list K) k i : In (k, i) (indexed ks) <-> nth_error ks i = Some k.
  Proof. unfold indexed. rewrite in_indexed_gen, Nat.sub_0_r. split; [tauto|]. intros; split; [lia|assumption]. Qed.

  (** What [runs] keeps. *)
  Definition pklt (a b : K * nat) := klt (fst a) (fst b).

  Lemma runs_spec p l : StronglySorted ple l -> Forall (fun y => kle p (fst y)) l ->
    StronglySorted pklt (runs cmp p l) /\
    Forall (fun y => klt p (fst y)) (runs cmp p l) /\
    (forall y, In y (runs cmp p l) -> In y l) /\
    (forall y, In y (runs cmp p l) -> forall z, In z l -> fst z = fst y -> (snd y <= snd z)%nat) /\
    (forall y, In y l -> fst y <> p -> exists z, In z (runs cmp p l) /\ fst z = fst y).
  Proof.
    revert p. induction l as [|x r IH]; intros p Hs Hp; cbn [runs].
    - repeat split; try constructor; try contradiction; intros y [].
    - inversion Hs as [|? ? Hr Hx]; subst. inversion Hp as [|? ? Hpx Hpr]; subst.
      assert (Hxr : Forall (fun y => kle (fst x) (fst y)) r).
      { rewrite Forall_forall in *. intros y Hy. specialize (Hx y Hy). apply kle_cases.
        destruct Hx as [Hx|[Hx _]]; auto. }
      destruct (IH (fst x) Hr Hxr) as (I1 & I2 & I3 & I4 & I5).
      destruct (cmp p (fst x)) eqn:E.
      + apply (cmp_eq _ LAW) in E. subst p. split; [exact I1|]. split; [exact I2|].
        split; [intros y Hy; right; apply I3; exact Hy|]. split.
        * intros y Hy z [<-|Hz] Ez; [|apply I4; assumption].
          rewrite Forall_forall in I2. specialize (I2 y Hy). rewrite Ez in I2. exfalso. exact (klt_irrefl _ I2).
        * intros y [<-|Hy] N; [congruence|]. apply I5; assumption.
      + split.
        { constructor; [exact I1|]. exact I2. }
        split.
        { constructor; [exact E|]. rewrite Forall_forall in *. intros y Hy.
          eapply klt_trans; [exact E|apply I2; exact Hy]. }
        split; [intros y [<-|Hy]; [left; reflexivity|right; apply I3; exact Hy]|].
        split.
        * intros y [<-|Hy] z [<-|Hz] Ez; [lia| | |apply I4; assumption].
          -- rewrite Forall_forall in Hx. destruct (Hx z Hz) as [C|[_ C]]; [|lia].
             rewrite Ez in C. exfalso. exact (klt_irrefl _ C).
          -- rewrite Forall_forall in I2. specialize (I2 y Hy). rewrite Ez in I2. exfalso. exact (klt_irrefl _ I2).
        * intros y [<-|Hy] N; [exists x; split; [left|]; reflexivity|].
          assert (Hd : fst y = fst x \/ fst y <> fst x).
          { destruct (cmp (fst y) (fst x)) eqn:E'; [left; apply (cmp_eq _ LAW); exact E'| |];
            right; intros E''; apply (cmp_eq _ LAW) in E''; congruence. }
          destruct Hd as [Hd|Hd].
          -- exists x. split; [left; reflexivity|congruence].
          -- destruct (I5 y Hy Hd) as (z & Hz & Ez). exists z. split; [right; exact Hz|exact Ez].
      + exfalso. apply Hpx. exact E.
  Qed.

  Lemma heads_spec l : StronglySorted ple l ->
    StronglySorted pklt (heads cmp l) /\
    (forall y, In y (heads cmp l) -> In y l) /\
    (forall y, In y (heads cmp l) -> forall z, In z l -> fst z = fst y -> (snd y <= snd z)%nat) /\
    (forall y, In y l -> exists z, In z (heads cmp l) /\ fst z = fst y).
  Proof.
    intros Hs. destruct l as [|x r]; cbn [heads].
    - repeat split; try constructor; intros y [].
    - inversion Hs as [|? ? Hr Hx]; subst.
      assert (Hxr : Forall (fun y => kle (fst x) (fst y)) r).
      { rewrite Forall_forall in *. intros y Hy. specialize (Hx y Hy). apply kle_cases.
        destruct Hx as [Hx|[Hx _]]; auto. }
      destruct (runs_spec (fst x) r Hr Hxr) as (I1 & I2 & I3 & I4 & I5).
      split; [constructor; [exact I1|exact I2]|].
      split; [intros y [<-|Hy]; [left; reflexivity|right; apply I3; exact Hy]|].
      split.
      + intros y [<-|Hy] z [<-|Hz] Ez; [lia| | |apply I4; assumption].
        * rewrite Forall_forall in Hx. destruct (Hx z Hz) as [C|[_ C]]; [|lia].
          rewrite Ez in C. exfalso. exact (klt_irrefl _ C).
        * rewrite Forall_forall in I2. specialize (I2 y Hy). rewrite Ez in I2. exfalso. exact (klt_irrefl _ I2).
      + intros y [<-|Hy]; [exists x; split; [left|]; reflexivity|].
        assert (Hd : fst y = fst x \/ fst y <> fst x).
        { destruct (cmp (fst y) (fst x)) eqn:E'; [left; apply (cmp_eq _ LAW); exact E'| |];
          right; intros E''; apply (cmp_eq _ LAW) in E''; congruence. }
        destruct Hd as [Hd|Hd].
        * exists x. split; [left; reflexivity|congruence].
        * destruct (I5 y Hy Hd) as (z & Hz & Ez). exists z. split; [right; exact Hz|exact Ez].
  Qed.

  (** The pairs (key, index of its first occurrence), sorted by key. *)
  Lemma unique_pairs_spec ks :
    let h := heads cmp (sort cmp (indexed ks)) in
    StronglySorted pklt h /\
    (forall k i, In (k, i) h <-> nth_error ks i = Some k /\ forall j, nth_error ks j = Some k -> (i <= j)%nat) /\
    (forall k, In k ks <-> In k (map fst h)).
  Proof.
    cbn zeta. pose proof (sort_sorted _ (indexed_sorted_gen ks 0)) as Hs. fold (indexed ks) in Hs.
    destruct (heads_spec _ Hs) as (H1 & H2 & H3 & H4).
    assert (P : forall y, In y (sort cmp (indexed ks)) <-> In y (indexed ks)).
    { intros y. split; apply Permutation_in; [apply sort_perm|apply Permutation_sym, sort_perm]. }
    split; [exact H1|]. split.
    - intros k i. split.
      + intros H. split; [apply in_indexed, P, H2; exact H|].
        intros j Hj. apply in_indexed, P in Hj. exact (H3 _ H _ Hj eq_refl).
      + intros [Hk Hm]. apply in_indexed, P in Hk. destruct (H4 _ Hk) as ([k' i'] & Hz & Ez). cbn in Ez. subst k'.
        assert (i = i'); [|subst; exact Hz].
        pose proof (H3 _ Hz _ Hk eq_refl) as L. cbn in L.
        apply H2, P, in_indexed in Hz. specialize (Hm _ Hz). lia.
    - intros k. split.
      + intros H. apply In_nth_error in H as [i Hi]. apply in_indexed, P in Hi.
        destruct (H4 _ Hi) as (z & Hz & Ez). cbn in Ez. rewrite <- Ez. apply in_map. exact Hz.
      + rewrite in_map_iff. intros ([k' i] & <- & H). apply H2, P, in_indexed, nth_error_In in H. exact H.
  Qed.

  Lemma unique_sorted ks : StronglySorted klt (unique cmp ks).
  Proof.
    destruct (unique_pairs_spec ks) as (H & _). unfold unique.
    induction H as [|x l Hl IH Hx]; cbn; constructor; [exact IH|].
    rewrite Forall_forall in *. intros k. rewrite in_map_iff. intros (y & <- & Hy). apply Hx. exact Hy.
  Qed.
  Lemma unique_In ks k : In k (unique cmp ks) <-> In k ks.
  Proof. destruct (unique_pairs_spec ks) as (_ & _ & H). symmetry. apply H. Qed.

  Lemma sorted_NoDup l : StronglySorted klt l -> NoDup l.
  Proof.
    induction 1 as [|x l Hl IH Hx]; constructor; [|exact IH].
    intros H. rewrite Forall_forall in Hx. exact (klt_irrefl _ (Hx _ H)).
  Qed.
  Lemma unique_NoDup ks : NoDup (unique cmp ks).
  Proof. apply sorted_NoDup, unique_sorted. Qed.

  (** Two strictly sorted lists with the same elements are equal. *)
  Lemma sorted_unique l l' : StronglySorted klt l -> StronglySorted klt l' -> same_set l l' -> l = l'.
  Proof.
    intros H. revert l'. induction H as [|x l Hl IH Hx]; intros l' H' E.
    - destruct l' as [|y]; [reflexivity|]. exfalso. apply (E y). left. reflexivity.
    - destruct H' as [|y l' Hl' Hy]; [exfalso; apply (E x); left; reflexivity|].
      rewrite Forall_forall in *.
      assert (x = y) as <-.
      { destruct (proj1 (E x) (or_introl eq_refl)) as [?|Hxl]; [congruence|].
        destruct (proj2 (E y) (or_introl eq_refl)) as [?|Hyl]; [congruence|].
        exfalso. apply (klt_irrefl x). eapply klt_trans; [apply Hx; exact Hyl|apply Hy; exact Hxl]. }
      f_equal. apply IH; [exact Hl'|]. intros z. split; intros Hz.
      + destruct (proj1 (E z) (or_intror Hz)) as [<-|?]; [|assumption].
        exfalso. exact (klt_irrefl _ (Hx _ Hz)).
      + destruct (proj2 (E z) (or_intror Hz)) as [<-|?]; [|assumption].
        exfalso. exact (klt_irrefl _ (Hy _ Hz)).
  Qed.

  Lemma unique_ext ks ks' : same_set ks ks' -> unique cmp ks = unique cmp ks'.
  Proof.
    intros E. apply sorted_unique; [apply unique_sorted..|]. intros k. rewrite !unique_In. apply E.
  Qed.
  Lemma unique_id ks : StronglySorted klt ks -> unique cmp ks = ks.
  Proof. intros H. apply sorted_unique; [apply unique_sorted|exact H|]. intros k. apply unique_In. Qed.

  Lemma unique_index_spec ks i : In i (unique_index cmp ks) <->
    exists k, nth_error ks i = Some k /\ forall j, nth_error ks j = Some k -> (i <= j)%nat.
  Proof.
    destruct (unique_pairs_spec ks) as (_ & H & _). unfold unique_index. rewrite in_map_iff. split.
    - intros ([k i'] & <- & Hi). exists k. apply H. exact Hi.
    - intros (k & Hk). exists (k, i). split; [reflexivity|apply H; exact Hk].
  Qed.

  (** The keys at the returned indices are the unique keys, in order. *)
  Lemma unique_index_keys ks : map (nth_error ks) (unique_index cmp ks) = map Some (unique cmp ks).
  Proof.
    destruct (unique_pairs_spec ks) as (_ & H & _). unfold unique_index, unique.
    rewrite !map_map. apply map_ext_in. intros [k i] Hi. cbn. apply H in Hi. apply Hi.
  Qed.

  (** Selecting from a parallel list. *)
  Lemma unique_index_get {A} (l : list A) ks : length l = length ks ->
    exists r, mapM (get l) (unique_index cmp ks) = Ok r /\
      Forall2 (fun i a => nth_error l i = Some a) (unique_index cmp ks) r.
  Proof.
    intros E. assert (B : Forall (fun i => (i < length l)%nat) (unique_index cmp ks)).
    { rewrite Forall_forall. intros i Hi. apply unique_index_spec in Hi as (k & Hk & _).
      rewrite E. apply nth_error_Some. congruence. }
    induction (unique_index cmp ks) as [|i is IH]; cbn [mapM].
    - exists []. split; [reflexivity|constructor].
    - inversion B as [|? ? Hi Hr]; subst. destruct (IH Hr) as (r & Er & Fr).
      unfold get at 1. destruct (nth_error l i) as [a|] eqn:Ea.
      + cbn [bind]. rewrite Er. cbn [bind]. exists (a :: r). split; [reflexivity|constructor; assumption].
      + apply nth_error_None in Ea. lia.
  Qed.
End L.

Lemma lawful_Z : lawful Z.compare.
Proof.
  split.
  - apply Z.compare_eq_iff.
  - intros x y. apply Z.compare_antisym.
  - intros x y z. rewrite !Z.compare_lt_iff. lia.
Qed.

Lemma lawful_lex {A} (cmp : A -> A -> comparison) : lawful cmp -> lawful (cmp_lex cmp).
Proof.
  intros L. split.
  - intros x. induction x as [|a x IH]; destruct y as [|b y]; cbn [cmp_lex]; try (split; congruence).
    destruct (cmp a b) eqn:E.
    + apply (cmp_eq _ L) in E. subst b. rewrite IH. split; congruence.
    + split; [discriminate|]. intros H. injection H as -> ->.
      rewrite (proj2 (cmp_eq _ L b b) eq_refl) in E. discriminate.
    + split; [discriminate|]. intros H. injection H as -> ->.
      rewrite (proj2 (cmp_eq _ L b b) eq_refl) in E. discriminate.
  - intros x. induction x as [|a x IH]; destruct y as [|b y]; cbn [cmp_lex]; try reflexivity.
    rewrite (cmp_opp _ L a b). destruct (cmp a b); cbn; [apply IH|reflexivity..].
  - intros x. induction x as [|a x IH]; destruct y as [|b y], z as [|c z]; cbn [cmp_lex]; try congruence.
    destruct (cmp a b) eqn:E1; try discriminate.
    + apply (cmp_eq _ L) in E1. subst b. destruct (cmp a c); intros; try congruence. eapply IH; eassumption.
    + intros _. destruct (cmp b c) eqn:E2; try discriminate; intros _.
      * apply (cmp_eq _ L) in E2. subst c. rewrite E1. reflexivity.
      * rewrite (cmp_trans _ L _ _ _ E1 E2). reflexivity.
Qed.

Lemma flat_inj u v : flat u = flat v -> u = v.
Proof.
  revert v. induction u as [|[a b c] u IH]; destruct v as [|[a' b' c'] v]; cbn; try congruence.
  intros H. injection H as -> -> -> H. f_equal. apply IH. exact H.
Qed.

Lemma lawful_vec : lawful cmp_vec.
Proof.
  pose proof (lawful_lex _ lawful_Z) as L. unfold cmp_vec. split.
  - intros x y. rewrite (cmp_eq _ L). split; [apply flat_inj|congruence].
  - intros x y. apply (cmp_opp _ L).
  - intros x y z. apply (cmp_trans _ L).
Qed.

Lemma flat_components v : flat v = components v.
Proof. unfold flat, components. apply flat_map_concat_map. Qed.

Lemma cmp_lex_lexlt l l' : cmp_lex Z.compare l l' = Lt <-> lexlt l l'.
Proof.
  revert l'. induction l as [|x l IH]; intros [|y l']; cbn [cmp_lex].
  - split; [discriminate|]. intros [(a & s & E)|(p & a & b & s & s' & E & _)]; [discriminate|destruct p; discriminate].
  - split; [|reflexivity]. intros _. left. exists y, l'. reflexivity.
  - split; [discriminate|]. intros [(a & s & E)|(p & a & b & s & s' & _ & E & _)]; [discriminate|destruct p; discriminate].
  - destruct (Z.compare_spec x y) as [E|E|E].
    + subst y. rewrite IH. split.
      * intros [(a & s & ->)|(p & a & b & s & s' & -> & -> & H)].
        -- left. exists a, s. reflexivity.
        -- right. exists (x :: p), a, b, s, s'. auto.
      * intros [(a & s & E)|(p & a & b & s & s' & E1 & E2 & H)].
        -- left. cbn in E. injection E as ->. exists a, s. reflexivity.
        -- destruct p as [|c p]; cbn in E1, E2; [injection E1 as -> ->; injection E2 as -> ->; lia|].
           injection E1 as -> ->. injection E2 as ->. right. exists p, a, b, s, s'. auto.
    + split; [|reflexivity]. intros _. right. exists [], x, y, l, l'. auto.
    + split; [discriminate|]. intros [(a & s & E')|(p & a & b & s & s' & E1 & E2 & H)].
      * cbn in E'. injection E' as -> ->. lia.
      * destruct p as [|c p]; cbn in E1, E2; [injection E1 as -> ->; injection E2 as -> ->; lia|].
        injection E1 as -> ->. injection E2 as -> ->. lia.
Qed.
