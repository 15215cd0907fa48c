(** Sorting by projected centres; surfaces, unique edges, coplanar groups, merging. *)
From Coq Require Import Reals List ZArith Lia Lra Bool Permutation Sorting.Sorted Arith.
From Verif Require Import Base.Res Model.Tau Model.Arr Model.Vectors Model.IcoMath1 Model.Unique Model.IcoDedup Model.Num Model.IcoNumeric
  Model.IcoIntersect Model.IcoSurface
  Spec.Value Spec.RVec Spec.Shape Spec.Mean Spec.IcoSpec Spec.Sets Spec.Space Spec.Tetra Spec.Surface
  Proofs.ResLemmas Proofs.ValueLemmas Proofs.ScalarLemmas Proofs.RVecLemmas Proofs.VectorLemmas Proofs.MeanLemmas Proofs.IcoProj Proofs.UniqueLemmas Proofs.DedupLemmas
  Proofs.NumLemmas Proofs.IntersectLemmas.
Import ListNotations.

(** * Sorting through a map of keys *)
Section Keys.
  Context {K K'} (cmp : K -> K -> comparison) (cmp' : K' -> K' -> comparison) (f : K -> K').
  Let g (x : K * nat) : K' * nat := (f (fst x), snd x).

  Lemma insert_map x l : (forall y, In y l -> cmp (fst x) (fst y) = cmp' (f (fst x)) (f (fst y))) ->
    insert cmp' (g x) (map g l) = map g (insert cmp x l).
  Proof.
    induction l as [|y l IH]; intros H; [reflexivity|]. cbn [map insert]. change (fst (g x)) with (f (fst x)). change (fst (g y)) with (f (fst y)).
    rewrite <- (H y (or_introl eq_refl)). destruct (cmp (fst x) (fst y)); try reflexivity. cbn [map]. f_equal. apply IH. intros z Hz. apply H. right. exact Hz.
  Qed.
  Lemma sort_map l : (forall x y, In x l -> In y l -> cmp (fst x) (fst y) = cmp' (f (fst x)) (f (fst y))) ->
    sort cmp' (map g l) = map g (sort cmp l).
  Proof.
    induction l as [|x l IH]; intros H; [reflexivity|]. cbn [map sort fold_right]. fold (sort cmp' (map g l)). fold (sort cmp l).
    rewrite IH by (intros; apply H; right; assumption). apply insert_map. intros y Hy. apply H; [left; reflexivity|right].
    apply (Permutation_in y (sort_perm cmp l)), Hy.
  Qed.
  Lemma runs_map p l : (forall x, In x l -> cmp p (fst x) = cmp' (f p) (f (fst x))) ->
    (forall x y, In x l -> In y l -> cmp (fst x) (fst y) = cmp' (f (fst x)) (f (fst y))) ->
    runs cmp' (f p) (map g l) = map g (runs cmp p l).
  Proof.
    revert p. induction l as [|x l IH]; intros p Hp H; [reflexivity|]. cbn [map runs]. change (fst (g x)) with (f (fst x)).
    rewrite <- (Hp x (or_introl eq_refl)). assert (E : runs cmp' (f (fst x)) (map g l) = map g (runs cmp (fst x) l)).
    { apply IH; intros; apply H; (left; reflexivity) || (right; assumption). }
    rewrite E. destruct (cmp p (fst x)); reflexivity.
  Qed.
  Lemma heads_map l : (forall x y, In x l -> In y l -> cmp (fst x) (fst y) = cmp' (f (fst x)) (f (fst y))) ->
    heads cmp' (map g l) = map g (heads cmp l).
  Proof.
    destruct l as [|x l]; intros H; [reflexivity|]. cbn [map heads]. f_equal. change (fst (g x)) with (f (fst x)).
    apply runs_map; intros; apply H; (left; reflexivity) || (right; assumption).
  Qed.
  Lemma indexed_map ks : indexed (map f ks) = map g (indexed ks).
  Proof.
    unfold indexed. rewrite map_length. generalize 0%nat. induction ks as [|k ks IH]; intros n; [reflexivity|]. cbn. f_equal. apply IH.
  Qed.
  Lemma indexed_fst (ks : list K) x : In x (indexed ks) -> In (fst x) ks.
  Proof. destruct x as [k i]. intros H. apply in_combine_l in H. exact H. Qed.
  Hypothesis ks : list K.
  Hypothesis compat : forall x y, In x ks -> In y ks -> cmp x y = cmp' (f x) (f y).
  Lemma sorted_map : sort cmp' (indexed (map f ks)) = map g (sort cmp (indexed ks)).
  Proof. rewrite indexed_map. apply sort_map. intros x y Hx Hy. apply compat; apply indexed_fst; assumption. Qed.
  Lemma unique_index_map : unique_index cmp ks = unique_index cmp' (map f ks).
  Proof.
    unfold unique_index. rewrite sorted_map, heads_map, map_map; [reflexivity|].
    intros x y Hx Hy. apply compat; apply indexed_fst; [apply (Permutation_in x (sort_perm cmp (indexed ks))), Hx|apply (Permutation_in y (sort_perm cmp (indexed ks))), Hy].
  Qed.
End Keys.

Definition cmpR (x y : R) : comparison := if Rlt_dec x y then Lt else if Rlt_dec y x then Gt else Eq.
Lemma lawful_R : lawful cmpR.
Proof.
  unfold cmpR. split.
  - intros x y. destruct (Rlt_dec x y); [split; [discriminate|lra]|]. destruct (Rlt_dec y x); [split; [discriminate|lra]|]. split; [intros _; lra|reflexivity].
  - intros x y. destruct (Rlt_dec x y), (Rlt_dec y x); try lra; reflexivity.
  - intros x y z. destruct (Rlt_dec x y); [|destruct (Rlt_dec y x); discriminate]. destruct (Rlt_dec y z); [|destruct (Rlt_dec z y); discriminate].
    intros _ _. destruct (Rlt_dec x z); [reflexivity|lra].
Qed.
Definition lexR := cmp_lex cmpR.
Lemma lawful_lexR : lawful lexR. Proof. apply lawful_lex, lawful_R. Qed.

Definition keyof {N} (v : F N -> R) (p : pt N) : list R := map v (coords p).
Lemma cmp_pt_key N (v : F N -> R) ps : 
  (forall p q x y, In p ps -> In q ps -> In x (coords p) -> In y (coords q) -> (flt N x y = true <-> (v x < v y)%R)) ->
  forall p q, In p ps -> In q ps -> cmp_pt N p q = lexR (keyof v p) (keyof v q).
Proof.
  intros H p q Hp Hq. assert (E : forall x y, In x (coords p) -> In y (coords q) -> cmpF N x y = cmpR (v x) (v y)).
  { intros x y Hx Hy. unfold cmpF, cmpR. pose proof (H p q x y Hp Hq Hx Hy) as A. pose proof (H q p y x Hq Hp Hy Hx) as B.
    destruct (flt N x y), (Rlt_dec (v x) (v y)); try reflexivity; try (exfalso; tauto); try (exfalso; apply n; apply A; reflexivity);
    try (exfalso; assert (false = true) by (apply A; assumption); discriminate).
    destruct (flt N y x), (Rlt_dec (v y) (v x)); try reflexivity; try (exfalso; apply n0; apply B; reflexivity);
    try (exfalso; assert (false = true) by (apply B; assumption); discriminate). }
  destruct p as [[a b] c], q as [[a' b'] c']. unfold cmp_pt, lexR, keyof. cbn [coords map cmp_lex] in *.
  rewrite !E by (cbn; auto). reflexivity.
Qed.

(** * The neighbour test *)
Section Lonely.
  Variable N : num.
  Context {K'} (cmp' : K' -> K' -> comparison) (LAW : lawful cmp') (f : pt N -> K').
  Let key (x : pt N * nat) := f (fst x).
  Let le (x y : pt N * nat) := kle cmp' (key x) (key y).

  Lemma keq x y : kle cmp' x y -> kle cmp' y x -> x = y.
  Proof.
    intros A B. apply (kle_cases cmp' LAW) in A as [A|A]; [|exact A]. apply (kle_cases cmp' LAW) in B as [B|B]; [|congruence].
    exfalso. apply (klt_irrefl cmp' LAW x). eapply klt_trans; eassumption.
  Qed.

  Lemma lonely_tail_spec p l : StronglySorted le l -> Forall (le p) l ->
    (forall x y, In x (p :: l) -> In y (p :: l) -> (allclose N (fst x) (fst y) = true <-> key x = key y)) ->
    NoDup (map snd l) ->
    NoDup (lonely_tail N (fst p) l) /\
    forall i, In i (lonely_tail N (fst p) l) <->
      exists x, In x l /\ snd x = i /\ key x <> key p /\ forall y, In y l -> key y = key x -> snd y = i.
  Proof.
    revert p. induction l as [|x l IH]; intros p Hs Hp Hc Hn; cbn [lonely_tail].
    - split; [constructor|]. intros i. split; [intros []|intros (x & [] & _)].
    - inversion Hs as [|? ? Hs' Hx]; subst. inversion Hp as [|? ? Hpx Hp']; subst. inversion Hn as [|? ? Hni Hn']; subst.
      destruct (IH x Hs' Hx) as (ND & I); [intros y z Hy Hz; apply Hc; [destruct Hy as [<-|Hy]|destruct Hz as [<-|Hz]]; cbn; auto|exact Hn'|].
      assert (Nx : next_close N (fst x) l = true <-> exists y, In y l /\ key y = key x).
      { destruct l as [|y l]; cbn [next_close]; [split; [discriminate|intros (y & [] & _)]|]. rewrite (Hc x y) by (cbn; auto). split.
        - intros E. exists y. split; [left; reflexivity|auto].
        - intros (z & [<-|Hz] & E); [auto|]. rewrite Forall_forall in Hx. inversion Hs' as [|? ? _ Hy]; subst. rewrite Forall_forall in Hy.
          apply keq; [apply Hx; left; reflexivity|]. rewrite <- E. apply (Hy z Hz). }
      assert (Px : allclose N (fst x) (fst p) = true <-> key x = key p) by (apply Hc; cbn; auto).
      (* elements of l with key of p *)
      assert (Mid : forall y, In y l -> key y = key p -> key y = key x).
      { intros y Hy E. apply keq; [rewrite E; exact Hpx|]. rewrite Forall_forall in Hx. apply Hx, Hy. }
      assert (Sub : forall i, In i (lonely_tail N (fst x) l) -> In i (map snd l)).
      { intros i Hi. apply I in Hi as (y & Hy & <- & _). apply in_map, Hy. }
      split.
      + destruct (_ || _); [exact ND|]. constructor; [|exact ND]. intros H. apply Hni, Sub, H.
      + intros i. split.
        * intros Hi. assert (D : In i (lonely_tail N (fst x) l) \/ (i = snd x /\ key x <> key p /\ ~ exists y, In y l /\ key y = key x)).
          { destruct (allclose N (fst x) (fst p)) eqn:E1; cbn [orb] in Hi; [left; exact Hi|].
            destruct (next_close N (fst x) l) eqn:E2; [left; exact Hi|]. destruct Hi as [<-|Hi]; [right|left; exact Hi].
            split; [reflexivity|]. split; [intros E; apply Px in E; congruence|]. intros E. apply Nx in E. congruence. }
          destruct D as [D|(-> & D1 & D2)].
          -- apply I in D as (y & Hy & <- & Hk & Hu). exists y. split; [right; exact Hy|]. split; [reflexivity|]. split.
             ++ intros E. apply Hk. apply Mid; assumption.
             ++ intros z [<-|Hz] E; [congruence|apply Hu; assumption].
          -- exists x. split; [left; reflexivity|]. split; [reflexivity|]. split; [exact D1|]. intros y [<-|Hy] E; [reflexivity|].
             exfalso. apply D2. eauto.
        * intros (y & Hy & <- & Hk & Hu). destruct Hy as [<-|Hy].
          -- assert (E1 : allclose N (fst x) (fst p) = false) by (destruct (allclose N (fst x) (fst p)); [exfalso; apply Hk, Px; reflexivity|reflexivity]).
             rewrite E1. cbn [orb]. assert (E2 : next_close N (fst x) l = false).
             { destruct (next_close N (fst x) l); [|reflexivity]. exfalso. destruct (proj1 Nx eq_refl) as (y & Hy & E).
               apply Hni. rewrite <- (Hu y (or_intror Hy) E). apply in_map, Hy. }
             rewrite E2. left. reflexivity.
          -- assert (In (snd y) (lonely_tail N (fst x) l)).
             { apply I. exists y. split; [exact Hy|]. split; [reflexivity|]. split; [|intros z Hz E; apply Hu; [right; exact Hz|exact E]].
               intros E. apply Hni. rewrite (Hu x (or_introl eq_refl) (eq_sym E)). apply in_map, Hy. }
             destruct (_ || _); [assumption|right; assumption].
  Qed.

  Lemma lonely_spec l : StronglySorted le l -> (2 <= length l)%nat ->
    (forall x y, In x l -> In y l -> (allclose N (fst x) (fst y) = true <-> key x = key y)) ->
    NoDup (map snd l) ->
    exists r, lonely N l = Ok r /\ NoDup r /\
    forall i, In i r <-> exists x, In x l /\ snd x = i /\ forall y, In y l -> key y = key x -> snd y = i.
  Proof.
    intros Hs Hl Hc Hn. destruct l as [|p [|x l]]; try (cbn in Hl; lia). set (t := x :: l) in *. cbn [lonely]. unfold t at 1.
    fold t. inversion Hs as [|? ? Hs' Hp]; subst. inversion Hn as [|? ? Hni Hn']; subst. change (~ In (snd p) (map snd t)) in Hni. change (NoDup (map snd t)) in Hn'.
    destruct (lonely_tail_spec p t Hs' Hp Hc Hn') as (ND & I).
    assert (Nx : next_close N (fst p) t = true <-> exists y, In y t /\ key y = key p).
    { unfold t. cbn [next_close]. rewrite (Hc p x) by (cbn; auto). split.
      - intros E. exists x. split; [left; reflexivity|auto].
      - intros (z & [<-|Hz] & E); [auto|]. rewrite Forall_forall in Hp. inversion Hs' as [|? ? _ Hy]; subst. rewrite Forall_forall in Hy.
        apply keq; [apply Hp; left; reflexivity|]. rewrite <- E. apply (Hy z Hz). }
    eexists. split; [reflexivity|].
    assert (Sub : forall i, In i (lonely_tail N (fst p) t) -> In i (map snd t)).
    { intros i Hi. apply I in Hi as (y & Hy & <- & _). apply in_map, Hy. }
    assert (Fwd : forall i, In i (lonely_tail N (fst p) t) -> exists x0, In x0 (p :: t) /\ snd x0 = i /\ (forall y, In y (p :: t) -> key y = key x0 -> snd y = i)).
    { intros i Hi. apply I in Hi as (y & Hy & <- & Hk & Hu). exists y. split; [right; exact Hy|]. split; [reflexivity|].
      intros z [<-|Hz] E; [congruence|auto]. }
    assert (Bwd : forall y, In y t -> (forall z, In z (p :: t) -> key z = key y -> snd z = snd y) -> In (snd y) (lonely_tail N (fst p) t)).
    { intros y Hy Hu. apply I. exists y. split; [exact Hy|]. split; [reflexivity|]. split; [|intros z Hz E; apply Hu; [right; exact Hz|exact E]].
      intros E. apply Hni. rewrite (Hu p (or_introl eq_refl) (eq_sym E)). apply in_map, Hy. }
    destruct (next_close N (fst p) t) eqn:E2.
    - split; [exact ND|]. intros i. split; [apply Fwd|]. intros (y & [<-|Hy] & <- & Hu); [|apply Bwd; assumption].
      exfalso. destruct (proj1 Nx eq_refl) as (y & Hy & E). apply Hni. rewrite <- (Hu y (or_intror Hy) E). apply in_map, Hy.
    - split; [constructor; [intros H; apply Hni, Sub, H|exact ND]|]. intros i. split.
      + intros [<-|Hi]; [|apply Fwd, Hi]. exists p. split; [left; reflexivity|]. split; [reflexivity|]. intros y [<-|Hy] E; [reflexivity|].
        exfalso. assert (false = true) by (apply Nx; eauto). discriminate.
      + intros (y & [<-|Hy] & <- & Hu); [left; reflexivity|right; apply Bwd; assumption].
  Qed.
End Lonely.

(** * generator_surface_1 *)
Lemma get_surface t : length t = 4%nat -> get_tetrahedron_surface t = Ok (tet_faces t).
Proof. intros L. destruct t as [|a [|b [|c [|d [|]]]]]; try discriminate L. reflexivity. Qed.
Lemma mapM_surface o : Forall (fun t => length t = 4%nat) o -> mapM get_tetrahedron_surface o = Ok (map tet_faces o).
Proof. induction 1 as [|t o L _ IH]; [reflexivity|]. cbn [mapM map]. rewrite get_surface by exact L. cbn [bind]. rewrite IH. reflexivity. Qed.
Lemma all_faces_length o : Forall (fun t => length t = 4%nat) o -> length (all_faces o) = (4 * length o)%nat.
Proof.
  induction 1 as [|t o L _ IH]; [reflexivity|]. unfold all_faces in *. cbn [map concat]. rewrite app_length, IH.
  destruct t as [|a [|b [|c [|d [|]]]]]; try discriminate L. cbn. lia.
Qed.
Lemma tets_len o : tets o -> Forall (fun t => length t = 4%nat) o.
Proof. apply Forall_impl. intros t [L _]. exact L. Qed.
Lemma all_faces_good o : tets o -> forall f, In f (all_faces o) -> length f = 3%nat /\ goods 6 f.
Proof.
  intros T f Hf. unfold all_faces in Hf. apply in_concat in Hf as (fs & Hfs & Hf). apply in_map_iff in Hfs as (t & <- & Ht).
  unfold tets in T. rewrite Forall_forall in T. destruct (T t Ht) as [L G]. destruct t as [|a [|b [|c [|d [|]]]]]; try discriminate L.
  destruct Hf as [<-|[<-|[<-|[<-|[]]]]]; (split; [reflexivity|]); eapply goods_incl; try exact G; intros x Hx; cbn in *; tauto.
Qed.

(** The numerical centre. *)
Lemma centre_ok N t : t <> [] -> goods 6 t -> exists p, centre N t = Ok p.
Proof.
  intros Ht G. unfold centre. destruct (wp_elim _ _ (centroid_spec ico_arith t Ht G)) as (m & Em & Cm & Vm). fold centroid in Em. rewrite Em. cbn [bind].
  apply internal_ok. rewrite <- (vals_length TAU), Vm. apply mean_length. rewrite Forall_map. eapply Forall_impl; [|exact G].
  intros v [_ L]. rewrite vals_length. exact L.
Qed.
Lemma perp_mean l : Forall (fun v => length v = 6%nat) l -> perp (mean 6 l) = mean 3 (map perp l).
Proof.
  intros H. unfold mean. rewrite map_length. unfold perp. rewrite matvec_vscale. rewrite (matvec_vsum perp_rows 6 l H). reflexivity.
Qed.
Lemma centre_R t : t <> [] -> goods 6 t -> exists p, centre Rnum t = Ok p /\ [fst (fst p); snd (fst p); snd p] = pcentre t.
Proof.
  intros Ht G. unfold centre. destruct (wp_elim _ _ (centroid_spec ico_arith t Ht G)) as (m & Em & Cm & Vm). fold centroid in Em. rewrite Em. cbn [bind].
  assert (L : length m = 6%nat). { rewrite <- (vals_length TAU), Vm. apply mean_length. rewrite Forall_map. eapply Forall_impl; [|exact G].
  intros v [_ L]. rewrite vals_length. exact L. }
  rewrite internal_R by exact L. exists (pp m). split; [reflexivity|]. unfold pcentre, ppoint.
  rewrite <- (map_map (vals TAU) perp), <- perp_mean, <- Vm. reflexivity.
  rewrite Forall_map. eapply Forall_impl; [|exact G]. intros v [_ L']. rewrite vals_length. exact L'.
Qed.

Lemma mapM_centre N fs : Forall (fun f => f <> [] /\ goods 6 f) fs -> exists ps, mapM (centre N) fs = Ok ps /\ Forall2 (fun f p => centre N f = Ok p) fs ps.
Proof.
  induction 1 as [|f fs [Hf G] _ (ps & E & F)]; [exists []; split; [reflexivity|constructor]|]. destruct (centre_ok N f Hf G) as (p & Ep).
  cbn [mapM]. rewrite Ep. cbn [bind]. rewrite E. cbn [bind]. exists (p :: ps). split; [reflexivity|constructor; assumption].
Qed.
Lemma F2_nth {A B} (Q : A -> B -> Prop) l l' i a : Forall2 Q l l' -> nth_error l i = Some a -> exists b, nth_error l' i = Some b /\ Q a b.
Proof.
  intros F. revert i. induction F as [|x y l l' H _ IH]; intros [|i] E; try discriminate; cbn in *; [injection E as <-; eauto|eauto].
Qed.
Lemma F2_nth' {A B} (Q : A -> B -> Prop) l l' i b : Forall2 Q l l' -> nth_error l' i = Some b -> exists a, nth_error l i = Some a /\ Q a b.
Proof.
  intros F. revert i. induction F as [|x y l l' H _ IH]; intros [|i] E; try discriminate; cbn in *; [injection E as <-; eauto|eauto].
Qed.
Lemma mapM_get {A} (l : list A) is : Forall (fun i => (i < length l)%nat) is -> exists r, mapM (get l) is = Ok r /\ Forall2 (fun i a => nth_error l i = Some a) is r.
Proof.
  induction 1 as [|i is Hi _ (r & E & F)]; [exists []; split; [reflexivity|constructor]|]. cbn [mapM]. unfold get at 1.
  destruct (nth_error l i) as [a|] eqn:Ea; [|apply nth_error_None in Ea; lia]. cbn [bind]. rewrite E. cbn [bind]. exists (a :: r). split; [reflexivity|constructor; assumption].
Qed.

Lemma surface_spec N o : tets o -> length o <> 0%nat -> length o <> 1%nat ->
  (forall f g, In f (all_faces o) -> In g (all_faces o) -> pcentre f = pcentre g -> centre N f = centre N g) ->
  (forall f g p q, In f (all_faces o) -> In g (all_faces o) -> centre N f = Ok p -> centre N g = Ok q -> (allclose N p q = true <-> pcentre f = pcentre g)) ->
  (forall ps, mapM (centre N) (all_faces o) = Ok ps -> ordered N (allclose N) ps) ->
  exists is r, generator_surface_1 N o = Ok r /\ NoDup is /\ Forall2 (fun i f => nth_error (all_faces o) i = Some f) is r /\
    forall i, In i is <-> exists f, nth_error (all_faces o) i = Some f /\ forall j g, nth_error (all_faces o) j = Some g -> pcentre g = pcentre f -> j = i.
Proof.
  intros T L0 L1 Hsame Hsep Hord. unfold generator_surface_1. rewrite mapM_surface by (apply tets_len, T). cbn [bind]. fold (all_faces o).
  destruct (Nat.eqb_spec (length o) 1) as [E|_]; [contradiction|].
  destruct (mapM_centre N (all_faces o)) as (ps & Eps & F).
  { apply Forall_forall. intros f Hf. destruct (all_faces_good o T f Hf) as [L G]. split; [intros ->; discriminate|exact G]. }
  rewrite Eps. cbn [bind]. destruct (Hord ps Eps) as (v & Hv & Ht).
  assert (Lp : length ps = length (all_faces o)) by (symmetry; eapply Forall2_len; exact F).
  set (fs := all_faces o) in *. set (l := sort (cmp_pt N) (indexed ps)).
  pose proof (sorted_map (cmp_pt N) lexR (keyof v) ps (cmp_pt_key N v ps Hv)) as SM. fold l in SM.
  pose proof (sort_sorted lexR lawful_lexR _ (indexed_sorted_gen (map (keyof v) ps) 0)) as SS. fold (indexed (map (keyof v) ps)) in SS. rewrite SM in SS.
  assert (Hin : forall x, In x l <-> nth_error ps (snd x) = Some (fst x)).
  { intros [p i]. rewrite <- in_indexed. split; apply Permutation_in; [apply sort_perm|apply Permutation_sym, sort_perm]. }
  assert (Ssorted : StronglySorted (fun x y => kle lexR (keyof v (fst x)) (keyof v (fst y))) l).
  { clear - SS. induction l as [|x l IH]; [constructor|]. cbn [map] in SS. inversion SS as [|? ? S1 S2]; subst. constructor; [apply IH, S1|].
    rewrite Forall_map in S2. eapply Forall_impl; [|exact S2]. intros y [H|[H _]]; cbn in H; apply (kle_cases lexR lawful_lexR); auto. }
  assert (ND : NoDup (map snd l)).
  { eapply Permutation_NoDup; [apply Permutation_map, Permutation_sym, sort_perm|]. unfold indexed.
    assert (E : forall n, map snd (combine ps (seq n (length ps))) = seq n (length ps)).
    { clear. induction ps as [|p ps IH]; intros n; [reflexivity|]. cbn. f_equal. apply IH. }
    rewrite E. apply seq_NoDup. }
  assert (Ll : length l = length fs).
  { unfold l. rewrite (Permutation_length (sort_perm _ _)). unfold indexed. rewrite combine_length, seq_length. lia. }
  assert (Key : forall x y, In x l -> In y l -> exists f g, nth_error fs (snd x) = Some f /\ nth_error fs (snd y) = Some g /\
     centre N f = Ok (fst x) /\ centre N g = Ok (fst y)).
  { intros x y Hx Hy. apply Hin in Hx, Hy. destruct (F2_nth' _ _ _ _ _ F Hx) as (f & Ef & Cf). destruct (F2_nth' _ _ _ _ _ F Hy) as (g & Eg & Cg). eauto 10. }
  assert (KE : forall x y, In x l -> In y l -> forall f g, centre N f = Ok (fst x) -> centre N g = Ok (fst y) -> In f fs -> In g fs ->
     (keyof v (fst x) = keyof v (fst y) <-> pcentre f = pcentre g)).
  { intros x y Hx Hy f g Cf Cg If Ig. split.
    - intros E. apply (Hsep f g _ _ If Ig Cf Cg). apply Ht; [apply Hin, nth_error_In in Hx; exact Hx|apply Hin, nth_error_In in Hy; exact Hy|exact E].
    - intros E. rewrite (Hsame f g If Ig E) in Cf. rewrite Cf in Cg. injection Cg as ->. reflexivity. }
  destruct (lonely_spec N lexR lawful_lexR (keyof v) l Ssorted) as (is & Eis & NDi & I); [| |exact ND|].
  - rewrite Ll. unfold fs. rewrite all_faces_length by (apply tets_len, T). lia.
  - intros x y Hx Hy. destruct (Key x y Hx Hy) as (f & g & Ef & Eg & Cf & Cg). apply nth_error_In in Ef, Eg.
    rewrite (KE x y Hx Hy f g Cf Cg Ef Eg). apply (Hsep f g _ _ Ef Eg Cf Cg).
  - assert (J : forall i, In i is <-> exists f, nth_error fs i = Some f /\ forall j g, nth_error fs j = Some g -> pcentre g = pcentre f -> j = i).
    { intros i. rewrite I. split.
      + intros (x & Hx & <- & Hu). destruct (Key x x Hx Hx) as (f & _ & Ef & _ & Cf & _). exists f. split; [exact Ef|].
        intros j g Eg E. destruct (F2_nth _ _ _ _ _ F Eg) as (q & Eq & Cq). assert (Hq : In (q, j) l) by (apply Hin; exact Eq).
        specialize (Hu (q, j) Hq). cbn in Hu. apply Hu. apply (KE (q, j) x Hq Hx g f Cq Cf); [eapply nth_error_In; exact Eg|eapply nth_error_In; exact Ef|exact E].
      + intros (f & Ef & Hu). destruct (F2_nth _ _ _ _ _ F Ef) as (p & Ep & Cp). assert (Hp : In (p, i) l) by (apply Hin; exact Ep).
        exists (p, i). split; [exact Hp|]. split; [reflexivity|]. intros y Hy E. destruct (Key y y Hy Hy) as (g & _ & Eg & _ & Cg & _).
        apply (Hu _ g Eg). apply (KE y (p, i) Hy Hp g f Cg Cp); [eapply nth_error_In; exact Eg|eapply nth_error_In; exact Ef|exact E]. }
    destruct (mapM_get fs is) as (r & Er & Fr).
    { apply Forall_forall. intros i Hi. apply J in Hi as (f & Ef & _). apply nth_error_Some. congruence. }
    exists is, r. rewrite Eis. cbn [bind]. auto.
Qed.

(** * Exact reals *)
Lemma close1_R x y : close1 Rnum x y = true <-> (Rabs (x - y) <= 1/100000000 + 1/100000 * Rabs y)%R.
Proof. unfold close1. cbn. apply Rleb_true. Qed.
Lemma allclose_R p q : allclose Rnum p q = true <-> 
  let '(a,b,c) := p in let '(a',b',c') := q in
  (Rabs (a - a') <= 1/100000000 + 1/100000 * Rabs a' /\ Rabs (b - b') <= 1/100000000 + 1/100000 * Rabs b' /\ Rabs (c - c') <= 1/100000000 + 1/100000 * Rabs c')%R.
Proof. destruct p as [[a b] c], q as [[a' b'] c']. unfold allclose. rewrite !andb_true_iff, !close1_R. tauto. Qed.
Lemma allclose_refl_R p : allclose Rnum p p = true.
Proof.
  apply allclose_R. p3 p. assert (A : forall x, (Rabs (x - x) <= 1/100000000 + 1/100000 * Rabs x)%R).
  { intros x. rewrite Rminus_diag_eq, Rabs_R0 by reflexivity. pose proof (Rabs_pos x). lra. }
  auto.
Qed.
Lemma ordered_R ps : ordered Rnum (allclose Rnum) ps.
Proof.
  exists (fun x => x). split.
  - intros p q x y _ _ _ _. apply Rltb_true.
  - intros p q _ _ E. rewrite !map_id in E. destruct p as [[a b] c], q as [[a' b'] c']. injection E as -> -> ->. apply allclose_refl_R.
Qed.
Lemma apart_not_close (p q : R3) : apart [fst (fst p); snd (fst p); snd p] [fst (fst q); snd (fst q); snd q] -> allclose Rnum p q = false.
Proof.
  intros (i & x & y & Ex & Ey & H1 & H2). destruct (allclose Rnum p q) eqn:E; [|reflexivity]. exfalso. apply allclose_R in E.
  destruct p as [[a b] c], q as [[a' b'] c']. cbn in Ex, Ey. destruct i as [|[|[|i]]]; cbn in Ex, Ey; try (destruct i; discriminate);
  injection Ex as <-; injection Ey as <-; lra.
Qed.

Lemma surface_R o : tets o -> length o <> 0%nat -> length o <> 1%nat ->
  (forall f g, In f (all_faces o) -> In g (all_faces o) -> pcentre f = pcentre g \/ apart (pcentre f) (pcentre g)) ->
  exists is r, generator_surface_1 Rnum o = Ok r /\ NoDup is /\ Forall2 (fun i f => nth_error (all_faces o) i = Some f) is r /\
    forall i, In i is <-> exists f, nth_error (all_faces o) i = Some f /\ forall j g, nth_error (all_faces o) j = Some g -> pcentre g = pcentre f -> j = i.
Proof.
  intros T L0 L1 Hs. 
  assert (C : forall f, In f (all_faces o) -> exists p : R3, centre Rnum f = Ok p /\ [fst (fst p); snd (fst p); snd p] = pcentre f).
  { intros f Hf. destruct (all_faces_good o T f Hf) as [L G]. apply centre_R; [intros ->; discriminate|exact G]. }
  assert (Same : forall f g, In f (all_faces o) -> In g (all_faces o) -> pcentre f = pcentre g -> centre Rnum f = centre Rnum g).
  { intros f g Hf Hg E. destruct (C f Hf) as (p & -> & Ep). destruct (C g Hg) as (q & -> & Eq). f_equal. rewrite E, <- Eq in Ep.
    destruct p as [[a b] c], q as [[a' b'] c']. cbn in Ep. congruence. }
  apply surface_spec; try assumption.
  - intros f g p q Hf Hg Ef Eg. split.
    + intros A. destruct (Hs f g Hf Hg) as [E|E]; [exact E|]. destruct (C f Hf) as (p' & Ep' & Kp). destruct (C g Hg) as (q' & Eq' & Kq).
      rewrite Ef in Ep'. rewrite Eg in Eq'. injection Ep' as <-. injection Eq' as <-. rewrite <- Kp, <- Kq in E. rewrite (apart_not_close p q E) in A. discriminate.
    + intros E. rewrite (Same f g Hf Hg E) in Ef. rewrite Ef in Eg. injection Eg as ->. apply allclose_refl_R.
  - intros ps _. apply ordered_R.
Qed.

(** * Unique edges *)
Lemma unique_by_centre N es ps v : mapM (centre N) es = Ok ps ->
  (forall p q x y, In p ps -> In q ps -> In x (coords p) -> In y (coords q) -> (flt N x y = true <-> (v x < v y)%R)) ->
  unique_index (cmp_pt N) ps = unique_index lexR (map (keyof v) ps).
Proof. intros _ H. apply (unique_index_map (cmp_pt N) lexR (keyof v) ps (cmp_pt_key N v ps H)). Qed.

Lemma pick_unique_R es : Forall (fun f => f <> [] /\ goods 6 f) es ->
  exists r, (a <- mapM (centre Rnum) es ;; mapM (get es) (unique_index (cmp_pt Rnum) a))%res = Ok r /\
    NoDup (map pcentre r) /\ (forall e, In e es -> In (pcentre e) (map pcentre r)) /\
    (forall e, In e r -> exists i, nth_error es i = Some e /\ forall j g, (j < i)%nat -> nth_error es j = Some g -> pcentre g <> pcentre e).
Proof.
  intros H. destruct (mapM_centre Rnum es H) as (ps & Eps & FF). rewrite Eps. cbn [bind].
  destruct (ordered_R ps) as (v & Hv & _). clear v Hv.
  assert (Hv : forall (p q : pt Rnum) (x y : F Rnum), In p ps -> In q ps -> In x (coords p) -> In y (coords q) -> (flt Rnum x y = true <-> (x < y)%R)).
  { intros p q x y _ _ _ _. apply Rltb_true. }
  rewrite (unique_by_centre Rnum es ps (fun x => x) Eps Hv). set (ks := map (keyof (fun x : F Rnum => x)) ps).
  assert (Ek : ks = map pcentre es).
  { unfold ks. clear - H FF. induction FF as [|e p es ps E FF IH]; [reflexivity|]. inversion H as [|? ? [He Ge] H']; subst. cbn [map]. f_equal; [|apply IH; assumption].
    destruct (centre_R e He Ge) as (p' & Ep' & Kp). rewrite E in Ep'. injection Ep' as <-. rewrite <- Kp. unfold keyof. rewrite map_id. destruct p as [[a b] c]. reflexivity. }
  assert (Lk : length es = length ks) by (rewrite Ek, map_length; reflexivity).
  destruct (unique_index_get lexR lawful_lexR es ks Lk) as (r & Er & Fr). exists r. split; [exact Er|].
  assert (Mr : map pcentre r = unique lexR ks).
  { pose proof (unique_index_keys lexR lawful_lexR ks) as K. rewrite Ek in K at 1.
    clear - Fr K. revert K. generalize (unique lexR ks). induction Fr as [|i e is r Ei Fr IH]; intros u K; destruct u as [|k u]; try discriminate K; [reflexivity|].
    cbn [map] in *. injection K as K1 K2. rewrite nth_error_map, Ei in K1. cbn in K1. injection K1 as ->. f_equal. apply IH, K2. }
  split; [rewrite Mr; apply (unique_NoDup lexR lawful_lexR)|]. split.
  - intros e He. rewrite Mr. apply (unique_In lexR lawful_lexR). rewrite Ek. apply in_map, He.
  - intros e He. apply In_nth_error in He as (n & Hn). destruct (F2_nth' _ _ _ _ _ Fr Hn) as (i & Hi & Ei). exists i. split; [exact Ei|].
    apply nth_error_In, (unique_index_spec lexR lawful_lexR) in Hi as (k & Hk & Hm). rewrite Ek, nth_error_map, Ei in Hk. cbn in Hk. injection Hk as <-.
    intros j g Hj Eg E. specialize (Hm j). rewrite Ek, nth_error_map, Eg in Hm. cbn in Hm. rewrite E in Hm. specialize (Hm eq_refl). lia.
Qed.

Lemma all_edges_3 o : Forall (fun t => length t = 3%nat) o -> generator_all_edges 3 o = Ok (Some (concat (map tri_edges o))).
Proof.
  intros H. unfold generator_all_edges. cbn [Nat.eqb]. assert (E : mapM get_triangle_edge o = Ok (map tri_edges o)).
  { induction H as [|t o L _ IH]; [reflexivity|]. cbn [mapM map]. destruct t as [|a [|b [|c [|]]]]; try discriminate L. cbn -[mapM]. rewrite IH. reflexivity. }
  rewrite E. reflexivity.
Qed.
Lemma all_edges_4 o : Forall (fun t => length t = 4%nat) o -> generator_all_edges 4 o = Ok (Some (concat (map tet_edges o))).
Proof.
  intros H. unfold generator_all_edges. cbn [Nat.eqb]. assert (E : mapM get_tetrahedron_edge o = Ok (map tet_edges o)).
  { induction H as [|t o L _ IH]; [reflexivity|]. cbn [mapM map]. destruct t as [|a [|b [|c [|d [|]]]]]; try discriminate L. cbn -[mapM]. rewrite IH. reflexivity. }
  rewrite E. reflexivity.
Qed.
Lemma unique_edges_unfold N n2 o : (n2 = 2 \/ n2 = 3 \/ n2 = 4)%nat -> Forall (fun t => length t = n2) o ->
  generator_unique_edges N n2 o = (a <- mapM (centre N) (edges_of n2 o) ;; mapM (get (edges_of n2 o)) (unique_index (cmp_pt N) a))%res.
Proof.
  intros H L. unfold generator_unique_edges, edges_of. destruct H as [-> | [-> | -> ]]; cbn [Nat.eqb bind]; [reflexivity| |].
  - rewrite all_edges_3 by exact L. reflexivity.
  - rewrite all_edges_4 by exact L. reflexivity.
Qed.
Lemma edges_of_good n2 o : (n2 = 2 \/ n2 = 3 \/ n2 = 4)%nat -> Forall (fun t => length t = n2 /\ goods 6 t) o ->
  Forall (fun e => length e = 2%nat /\ goods 6 e) (edges_of n2 o) /\ (forall e, In e (edges_of n2 o) -> exists t, In t o /\ incl e t).
Proof.
  intros Hn H. rewrite Forall_forall in H. split.
  - apply Forall_forall. intros e He. unfold edges_of in He. destruct Hn as [-> | [-> | -> ]]; cbn [Nat.eqb] in He; [apply H, He| |];
    apply in_concat in He as (es & Hes & He); apply in_map_iff in Hes as (t & <- & Ht); destruct (H t Ht) as [L G].
    + destruct t as [|a [|b [|c [|]]]]; try discriminate L. destruct He as [<-|[<-|[<-|[]]]]; (split; [reflexivity|]); eapply goods_incl; try exact G; intros x Hx; cbn in *; tauto.
    + destruct t as [|a [|b [|c [|d [|]]]]]; try discriminate L. destruct He as [<-|[<-|[<-|[<-|[<-|[<-|[]]]]]]]; (split; [reflexivity|]); eapply goods_incl; try exact G; intros x Hx; cbn in *; tauto.
  - intros e He. unfold edges_of in He. destruct Hn as [-> | [-> | -> ]]; cbn [Nat.eqb] in He; [exists e; split; [exact He|apply incl_refl]| |];
    apply in_concat in He as (es & Hes & He); apply in_map_iff in Hes as (t & <- & Ht); destruct (H t Ht) as [L G]; exists t; (split; [exact Ht|]).
    + destruct t as [|a [|b [|c [|]]]]; try discriminate L. destruct He as [<-|[<-|[<-|[]]]]; intros x Hx; cbn in *; tauto.
    + destruct t as [|a [|b [|c [|d [|]]]]]; try discriminate L. destruct He as [<-|[<-|[<-|[<-|[<-|[<-|[]]]]]]]; intros x Hx; cbn in *; tauto.
Qed.
Lemma mapM_get_incl {A} (l : list A) is r : mapM (get l) is = Ok r -> incl r l.
Proof.
  revert r. induction is as [|i is IH]; intros r E; cbn [mapM] in E; [injection E as <-; intros x []|].
  apply bind_Ok_inv in E as (a & Ea & E). apply bind_Ok_inv in E as (r' & Er & E). injection E as <-. unfold get in Ea. destruct (nth_error l i) eqn:En; [|discriminate].
  injection Ea as <-. intros x [<-|Hx]; [eapply nth_error_In; exact En|apply (IH r' Er x Hx)].
Qed.
Lemma unique_edges_incl N n2 o r : (n2 = 2 \/ n2 = 3 \/ n2 = 4)%nat -> Forall (fun t => length t = n2) o ->
  generator_unique_edges N n2 o = Ok r -> incl r (edges_of n2 o).
Proof.
  intros H L E. rewrite unique_edges_unfold in E by assumption. apply bind_Ok_inv in E as (a & _ & E). eapply mapM_get_incl; exact E.
Qed.

Lemma filter_seq_sorted (p : nat -> bool) n s : StronglySorted lt (filter p (seq s n)).
Proof.
  revert s. induction n as [|n IH]; intros s; cbn [seq filter]; [constructor|]. destruct (p s); [|apply IH]. constructor; [apply IH|].
  apply Forall_forall. intros y Hy. apply filter_In in Hy as [Hy _]. apply in_seq in Hy. lia.
Qed.

Lemma F2_map_r {A B C} (Q : A -> B -> Prop) (h : C -> B) l l' : Forall2 (fun a c => Q a (h c)) l l' -> Forall2 Q l (map h l').
Proof. induction 1; cbn; constructor; assumption. Qed.

(** * Coplanar groups *)
Section GroupsL.
  Variable copl : nat -> nat -> vecs -> vecs -> res bool.
  Variable surface : obj4.
  Let test (i j : nat) (b : bool) : Prop := exists t u, nth_error surface i = Some t /\ nth_error surface j = Some u /\ copl i j t u = Ok b.
  Lemma find_group_spec i gs o : find_group copl surface i gs = Ok o ->
    match o with
    | None => forall g, In g gs -> test i g false
    | Some g => exists a b, gs = a ++ g :: b /\ test i g true /\ forall g', In g' a -> test i g' false
    end.
  Proof.
    induction gs as [|g gs IH]; intros E; cbn [find_group] in E; [injection E as <-; intros g []|].
    apply bind_Ok_inv in E as (t & Et & E). apply bind_Ok_inv in E as (u & Eu & E). apply bind_Ok_inv in E as (b & Eb & E).
    unfold get in Et, Eu. destruct (nth_error surface i) eqn:Ei; [|discriminate]. destruct (nth_error surface g) eqn:Eg; [|discriminate].
    injection Et as ->. injection Eu as ->. destruct b.
    - injection E as <-. exists [], gs. split; [reflexivity|]. split; [exists t, u; auto|intros ? []].
    - specialize (IH E). assert (Tg : test i g false) by (exists t, u; auto). destruct o as [g'|].
      + destruct IH as (a & b & -> & H1 & H2). exists (g :: a), b. split; [reflexivity|]. split; [exact H1|]. intros x [<-|Hx]; auto.
      + intros x [<-|Hx]; auto.
  Qed.

  Definition Inv (k : nat) (groups labels : list nat) : Prop :=
    length labels = k /\ groups = filter (fun i => Nat.eqb (nth i labels 0%nat) i) (seq 0 k) /\
    forall i, (i < k)%nat -> let l := nth i labels 0%nat in
      In l groups /\ (l <= i)%nat /\ ((l < i)%nat -> test i l true) /\ forall g, In g groups -> (g < l)%nat -> test i g false.

  Lemma groups_In k groups labels g : Inv k groups labels -> In g groups <-> (g < k)%nat /\ nth g labels 0%nat = g.
  Proof. intros (_ & -> & _). rewrite filter_In, in_seq, Nat.eqb_eq. split; intros; [split; tauto || lia|split; [lia|tauto]]. Qed.

  Lemma filter_seq_lt (p : nat -> bool) n x a b : filter p (seq 0 n) = a ++ x :: b -> forall y, In y (filter p (seq 0 n)) -> (y < x)%nat -> In y a.
  Proof.
    intros E y Hy Hlt. rewrite E in Hy. apply in_app_or in Hy as [Hy|[Hy|Hy]]; [exact Hy|lia|]. exfalso.
    assert (S : StronglySorted lt (filter p (seq 0 n))).
    { apply filter_seq_sorted. }
    rewrite E in S. clear - S Hy Hlt. induction a as [|z a IH]; cbn in S; inversion S as [|? ? S1 S2]; subst; [|apply IH, S1].
    rewrite Forall_forall in S2. specialize (S2 y Hy). lia.
  Qed.

  Lemma group_step_inv k groups labels st : Inv k groups labels -> (1 <= k)%nat ->
    group_step copl surface (groups, labels) k = Ok st -> Inv (S k) (fst st) (snd st).
  Proof.
    intros HI Hk E. unfold group_step in E. apply bind_Ok_inv in E as (g & Eg & E). apply find_group_spec in Eg.
    pose proof HI as (L & G & P). 
    assert (Old : forall l i, (i < k)%nat -> nth i (labels ++ [l]) 0%nat = nth i labels 0%nat) by (intros l i Hi; apply app_nth1; lia).
    assert (New : forall l, nth k (labels ++ [l]) 0%nat = l) by (intros l; rewrite app_nth2, L, Nat.sub_diag by lia; reflexivity).
    assert (Fl : forall l, filter (fun i => Nat.eqb (nth i (labels ++ [l]) 0%nat) i) (seq 0 k) = groups).
    { intros l. rewrite G. apply filter_ext_in. intros i Hi. apply in_seq in Hi. rewrite Old by lia. reflexivity. }
    destruct g as [g|]; injection E as <-; cbn [fst snd].
    - destruct Eg as (a & b & Eab & Tg & Ta).
      assert (Ig : In g groups) by (rewrite Eab; apply in_or_app; right; left; reflexivity). pose proof (proj1 (groups_In _ _ _ g HI) Ig) as [Lg _].
      split; [rewrite app_length, L; cbn; lia|]. split.
      + rewrite seq_S, filter_app. cbn [filter]. rewrite Fl, New. cbn [plus]. destruct (Nat.eqb_spec g k); [lia|]. rewrite app_nil_r. reflexivity.
      + intros i Hi. cbv zeta. destruct (Nat.eq_dec i k) as [->|Ni].
        * rewrite New. split; [exact Ig|]. split; [lia|]. split; [intros _; exact Tg|]. intros g' Ig' Hlt. apply Ta.
          rewrite G in Eab, Ig'. eapply filter_seq_lt; eassumption.
        * rewrite Old by lia. apply P. lia.
    - split; [rewrite app_length, L; cbn; lia|]. split.
      + rewrite seq_S, filter_app. cbn [filter plus]. rewrite Fl, New, Nat.eqb_refl. reflexivity.
      + intros i Hi. cbv zeta. destruct (Nat.eq_dec i k) as [->|Ni].
        * rewrite New. split; [apply in_or_app; right; left; reflexivity|]. split; [lia|]. split; [lia|]. intros g Ig Hlt.
          apply in_app_or in Ig as [Ig|[Ig|[]]]; [apply Eg, Ig|lia].
        * rewrite Old by lia. destruct (P i ltac:(lia)) as (P1 & P2 & P3 & P4). split; [apply in_or_app; left; exact P1|]. split; [exact P2|]. split; [exact P3|].
          intros g Ig Hlt. apply in_app_or in Ig as [Ig|[Ig|[]]]; [apply P4; assumption|]. lia.
  Qed.

  Lemma groups_fold n k groups labels st : Inv k groups labels -> (1 <= k)%nat ->
    foldM (group_step copl surface) (groups, labels) (seq k n) = Ok st -> Inv (k + n) (fst st) (snd st).
  Proof.
    revert k groups labels. induction n as [|n IH]; intros k groups labels HI Hk E; cbn [seq foldM] in E.
    - injection E as <-. rewrite Nat.add_0_r. exact HI.
    - apply bind_Ok_inv in E as ([g l] & E1 & E). replace (k + S n)%nat with (S k + n)%nat by lia.
      eapply IH; [|lia|exact E]. apply (group_step_inv _ _ _ _ HI Hk E1).
  Qed.

  Lemma combine_seq (labels : list nat) (s : obj4) : length labels = length s ->
    forall k, Forall2 (fun i p => (k <= i)%nat /\ nth (i - k) labels 0%nat = fst p /\ nth_error s (i - k) = Some (snd p)) (seq k (length s)) (combine labels s).
  Proof.
    revert s. induction labels as [|l labels IH]; intros [|t s] E k; try discriminate; [constructor|]. cbn [length seq combine].
    constructor; [rewrite Nat.sub_diag; cbn; auto|]. injection E as E. eapply Forall2_impl; [|apply (IH s E (S k))].
    intros i p (H1 & H2 & H3). split; [lia|]. replace (i - k)%nat with (S (i - S k)) by lia. cbn. auto.
  Qed.
  Lemma filter_F2 {A B} (Q : A -> B -> Prop) (p : A -> bool) (q : B -> bool) l l' : Forall2 Q l l' -> (forall a b, Q a b -> p a = q b) -> Forall2 Q (filter p l) (filter q l').
  Proof. intros F H. induction F as [|a b l l' E F IH]; cbn; [constructor|]. rewrite <- (H a b E). destruct (p a); [constructor; assumption|assumption]. Qed.
  Lemma partition_perm (f : nat -> nat) l gs : NoDup gs -> (forall i, In i l -> In (f i) gs) ->
    Permutation (concat (map (fun g => filter (fun i => Nat.eqb g (f i)) l) gs)) l.
  Proof.
    revert l. induction gs as [|g gs IH]; intros l ND H; cbn [map concat].
    - destruct l as [|i l]; [constructor|]. exfalso. apply (H i). left. reflexivity.
    - inversion ND as [|? ? Ng ND']; subst.
      assert (E : forall l, Permutation (filter (fun i => Nat.eqb g (f i)) l ++ filter (fun i => negb (Nat.eqb g (f i))) l) l).
      { intros l0. induction l0 as [|i l0 IHl]; [constructor|]. cbn. destruct (Nat.eqb g (f i)); cbn; [constructor; exact IHl|].
        rewrite <- Permutation_middle. constructor. exact IHl. }
      etransitivity; [|apply (E l)]. apply Permutation_app_head. rewrite <- (IH (filter (fun i => negb (Nat.eqb g (f i))) l) ND').
      + clear IH E H ND ND'. induction gs as [|g' gs IH]; [constructor|]. cbn [map concat]. assert (g' <> g) by (intros ->; apply Ng; left; reflexivity).
        apply Permutation_app; [|apply IH; intros Hg; apply Ng; right; exact Hg].
        assert (E : filter (fun i => Nat.eqb g' (f i)) l = filter (fun i => Nat.eqb g' (f i)) (filter (fun i => negb (Nat.eqb g (f i))) l)); [|rewrite E; apply Permutation_refl].
        clear IH. induction l as [|i l IHl]; [reflexivity|]. cbn [filter]. destruct (Nat.eqb_spec g (f i)) as [->|N]; cbn [negb filter].
        * destruct (Nat.eqb_spec g' (f i)); [congruence|]. exact IHl.
        * destruct (Nat.eqb g' (f i)); [f_equal|]; exact IHl.
      + intros i Hi. apply filter_In in Hi as [Hi Hn]. destruct (H i Hi) as [E'|?]; [|assumption]. rewrite <- E', Nat.eqb_refl in Hn. discriminate.
  Qed.

  Lemma groups_spec r : surface <> [] -> get_sets_of_coplanar_triangles copl surface = Ok r ->
    exists gs : list (list nat), Forall2 (Forall2 (fun i t => nth_error surface i = Some t)) gs r /\
      Permutation (concat gs) (seq 0 (length surface)) /\
      (forall g, In g gs -> exists h l, g = h :: l /\ forall i, In i l -> (h < i)%nat /\ test i h true) /\
      (forall a b i h g' l, nth_error gs a = Some (h :: l) -> nth_error gs b = Some g' -> (a < b)%nat -> In i g' -> (h < i)%nat /\ test i h false).
  Proof.
    intros Ne E. unfold get_sets_of_coplanar_triangles in E. apply bind_Ok_inv in E as ([groups labels] & E1 & E). injection E as <-.
    assert (I0 : Inv 1 [0%nat] [0%nat]).
    { split; [reflexivity|]. split; [reflexivity|]. intros i Hi. assert (i = 0%nat) by lia. subst i. cbn. split; [auto|]. split; [lia|]. split; [lia|]. intros g [<-|[]] H; lia. }
    apply (groups_fold _ _ _ _ _ I0 (Nat.le_refl 1)) in E1. cbn [fst snd] in E1.
    assert (Ln : (1 + (length surface - 1) = length surface)%nat) by (assert (length surface <> 0%nat) by (intros H; apply length_zero_iff_nil in H; contradiction); lia). rewrite Ln in E1.
    pose proof E1 as (L & G & P). set (n := length surface) in *. set (f := fun i => nth i labels 0%nat).
    assert (ND : NoDup groups) by (rewrite G; apply NoDup_filter, seq_NoDup).
    assert (SS : StronglySorted lt groups).
    { rewrite G. apply filter_seq_sorted. }
    exists (map (fun g => filter (fun i => Nat.eqb g (f i)) (seq 0 n)) groups). split; [|split; [|split]].
    - clear - L. assert (K : forall g, Forall2 (fun i t => nth_error surface i = Some t) (filter (fun i => Nat.eqb g (f i)) (seq 0 n)) (map snd (filter (fun p => Nat.eqb g (fst p)) (combine labels surface)))).
      { intros g. pose proof (filter_F2 _ (fun i => Nat.eqb g (f i)) (fun p => Nat.eqb g (fst p)) _ _ (combine_seq labels surface L 0)) as K.
        lapply K; [|intros a b (_ & H & _); rewrite Nat.sub_0_r in H; unfold f; rewrite H; reflexivity]. intros K'.
        apply F2_map_r. eapply Forall2_impl; [|exact K']. intros i p (_ & _ & H). rewrite Nat.sub_0_r in H. exact H. }
      clearbody n. clear - K. induction groups as [|g groups IH]; cbn [map]; constructor; [apply K|apply IH].
    - apply partition_perm; [exact ND|]. intros i Hi. apply in_seq in Hi. apply P. lia.
    - intros g Hg. apply in_map_iff in Hg as (h & <- & Hh). apply (groups_In _ _ _ _ E1) in Hh as [Hlt Hfix].
      assert (K : forall k m, (k <= h)%nat -> (h < k + m)%nat -> (k + m <= n)%nat -> exists l, filter (fun i => Nat.eqb h (f i)) (seq k m) = h :: l /\ forall i, In i l -> (h < i)%nat /\ test i h true).
      { intros k m. revert k. induction m as [|m IH]; intros k H1 H2 H3; [lia|]. cbn [seq filter].
        destruct (Nat.eq_dec k h) as [->|Nk].
        - unfold f at 1. rewrite Hfix, Nat.eqb_refl. eexists. split; [reflexivity|]. intros i Hi. apply filter_In in Hi as [Hi1 Hi2].
          apply in_seq in Hi1. apply Nat.eqb_eq in Hi2. split; [lia|]. destruct (P i ltac:(lia)) as (_ & _ & P3 & _). fold (f i) in P3. rewrite <- Hi2 in P3. apply P3. lia.
        - destruct (Nat.eqb_spec h (f k)) as [E|_]; [exfalso; destruct (P k ltac:(lia)) as (_ & P2 & _); fold (f k) in P2; lia|]. apply IH; lia. }
      destruct (K 0%nat n) as (l & El & Hl); try lia. exists h, l. auto.
    - intros a b i h g' l Ea Eb Hab Hi. rewrite nth_error_map in Ea, Eb.
      destruct (nth_error groups a) as [ha|] eqn:Ga; [|discriminate]. destruct (nth_error groups b) as [hb|] eqn:Gb; [|discriminate]. cbn in Ea, Eb.
      injection Ea as Ea. injection Eb as <-. apply filter_In in Hi as [Hi1 Hi2]. apply in_seq in Hi1. apply Nat.eqb_eq in Hi2.
      assert (Hh : In h (filter (fun i => Nat.eqb ha (f i)) (seq 0 n))) by (rewrite Ea; left; reflexivity). apply filter_In in Hh as [Hh1 Hh2]. apply in_seq in Hh1. apply Nat.eqb_eq in Hh2.
      assert (Ia : In ha groups) by (eapply nth_error_In; exact Ga).
      assert (Hah : h = ha).
      { apply (groups_In _ _ _ _ E1) in Ia as [Hlt Hfix].
        (* ha itself is in the filtered list and the head is the smallest *)
        assert (In ha (h :: l)) by (rewrite <- Ea; apply filter_In; split; [apply in_seq; lia|unfold f; rewrite Hfix; apply Nat.eqb_refl]).
        assert (S1 : StronglySorted lt (h :: l)).
        { rewrite <- Ea. apply filter_seq_sorted. }
        destruct H as [->|H]; [reflexivity|]. exfalso. inversion S1 as [|? ? _ S2]; subst. rewrite Forall_forall in S2. specialize (S2 _ H).
        destruct (P h ltac:(lia)) as (_ & P2 & _). fold (f h) in P2. lia. }
      subst h.
      assert (Hlt : (ha < hb)%nat).
      { clear - SS Ga Gb Hab. revert a b Ga Gb Hab. induction SS as [|x groups SS IH Hx]; intros a b Ga Gb Hab; [destruct a; discriminate|].
        destruct b; [lia|]. cbn in Gb. destruct a; cbn in Ga; [injection Ga as ->; rewrite Forall_forall in Hx; apply Hx; eapply nth_error_In; exact Gb|]. apply (IH a b); auto. lia. }
      destruct (P i ltac:(lia)) as (_ & P2 & _ & P4). fold (f i) in P2, P4. rewrite <- Hi2 in P2, P4. split; [lia|]. apply P4; assumption.
  Qed.

  Lemma groups_total : (forall i j t u, nth_error surface i = Some t -> nth_error surface j = Some u -> exists b, copl i j t u = Ok b) ->
    exists r, get_sets_of_coplanar_triangles copl surface = Ok r.
  Proof.
    intros H. unfold get_sets_of_coplanar_triangles.
    assert (K : forall n k groups labels, (k + n <= length surface)%nat -> (forall g, In g groups -> (g < k)%nat) ->
      exists st, foldM (group_step copl surface) (groups, labels) (seq k n) = Ok st).
    { induction n as [|n IH]; intros k groups labels Hk Hg; [eexists; reflexivity|]. cbn [seq foldM].
      assert (Fg : forall gs, incl gs groups -> exists o, find_group copl surface k gs = Ok o /\ match o with Some g => In g gs | None => True end).
      { induction gs as [|g gs IHg]; intros Hi; [exists None; split; [reflexivity|exact I]|]. cbn [find_group].
        assert (Hgk : (g < k)%nat) by (apply Hg, Hi; left; reflexivity).
        unfold get. destruct (nth_error surface k) as [t|] eqn:Ek; [|exfalso; apply (proj2 (nth_error_Some surface k)); [lia|exact Ek]]. cbn [bind].
        destruct (nth_error surface g) as [u|] eqn:Eg; [|exfalso; apply (proj2 (nth_error_Some surface g)); [lia|exact Eg]]. cbn [bind].
        destruct (H k g t u Ek Eg) as (b & ->). cbn [bind]. destruct b; [exists (Some g); split; [reflexivity|left; reflexivity]|].
        destruct IHg as (o & E & Ho); [intros x Hx; apply Hi; right; exact Hx|]. exists o. split; [exact E|]. destruct o; [right; exact Ho|exact I]. }
      destruct (Fg groups (incl_refl _)) as (o & Eo & Ho). unfold group_step. rewrite Eo. cbn [bind].
      destruct o as [g|]; cbn [bind]; (apply IH; [lia|]); intros x Hx.
      - specialize (Hg x Hx). lia.
      - apply in_app_or in Hx as [Hx|[<-|[]]]; [specialize (Hg x Hx)|]; lia. }
    destruct (Nat.eq_dec (length surface) 0) as [Z|Z]; [apply length_zero_iff_nil in Z; rewrite Z; eexists; reflexivity|].
    destruct (K (length surface - 1)%nat 1%nat [0%nat] [0%nat]) as ([g l] & ->); [lia|intros x [<-|[]]; lia|]. cbn [bind]. eauto.
  Qed.
End GroupsL.
