(** Merging of segments, points on segments, border edges, convex hull. *)
From Coq Require Import Reals List ZArith Lia Lra Bool Permutation Sorting.Sorted Arith.
From Verif Require Import Base.Res Model.Tau Model.Arr Model.Vectors Model.IcoMath1 Model.Unique Model.IcoDedup Model.Num Model.IcoNumeric
  Model.IcoIntersect Model.IcoSurface
  Spec.Value Spec.RVec Spec.Shape Spec.Mean Spec.IcoSpec Spec.Sets Spec.Space Spec.Tetra Spec.Surface
  Proofs.ResLemmas Proofs.ValueLemmas Proofs.ScalarLemmas Proofs.RVecLemmas Proofs.VectorLemmas Proofs.MeanLemmas Proofs.IcoProj Proofs.UniqueLemmas Proofs.DedupLemmas
  Proofs.NumLemmas Proofs.IntersectLemmas Proofs.SurfaceLemmas.
Import ListNotations.

Lemma pairs_In {A} (l : list A) x y : In (x, y) (pairs l) <-> exists l1 l2 l3, l = l1 ++ x :: l2 ++ y :: l3.
Proof.
  induction l as [|z l IH]; cbn [pairs].
  - split; [intros []|]. intros (l1 & l2 & l3 & E). destruct l1; discriminate.
  - rewrite in_app_iff, in_map_iff, IH. split.
    + intros [(y' & E & H)|(l1 & l2 & l3 & ->)].
      * injection E as -> ->. apply in_split in H as (l2 & l3 & ->). exists [], l2, l3. reflexivity.
      * exists (z :: l1), l2, l3. reflexivity.
    + intros (l1 & l2 & l3 & E). destruct l1 as [|w l1]; injection E as -> ->.
      * left. exists y. split; [reflexivity|]. apply in_or_app. right. left. reflexivity.
      * right. eauto.
Qed.
Lemma F2_app_split {A B} (Q : A -> B -> Prop) l1 l2 r : Forall2 Q (l1 ++ l2) r -> exists r1 r2, r = r1 ++ r2 /\ Forall2 Q l1 r1 /\ Forall2 Q l2 r2.
Proof.
  revert r. induction l1 as [|a l1 IH]; intros r F; [exists [], r; repeat split; [constructor|exact F]|]. inversion F as [|? b ? r' Hab F']; subst.
  destruct (IH r' F') as (r1 & r2 & -> & F1 & F2). exists (b :: r1), r2. repeat split; [constructor; assumption|assumption].
Qed.
Lemma F2_split3 {A B} (Q : A -> B -> Prop) l1 x l2 y l3 r : Forall2 Q (l1 ++ x :: l2 ++ y :: l3) r ->
  exists r1 e r2 f r3, r = r1 ++ e :: r2 ++ f :: r3 /\ Forall2 Q l1 r1 /\ Q x e /\ Forall2 Q l2 r2 /\ Q y f /\ Forall2 Q l3 r3.
Proof.
  intros F. apply F2_app_split in F as (r1 & r' & -> & F1 & F). inversion F as [|? e ? r'' He F']; subst. apply F2_app_split in F' as (r2 & r3' & -> & F2 & F3).
  inversion F3 as [|? f ? r3 Hf F3']; subst. exists r1, e, r2, f, r3. auto 10.
Qed.
Lemma F2_fun {A B} (g : A -> option B) l r r' : Forall2 (fun a b => g a = Some b) l r -> Forall2 (fun a b => g a = Some b) l r' -> r = r'.
Proof. intros F. revert r'. induction F as [|a b l r H _ IH]; intros r' F'; inversion F'; subst; [reflexivity|]. f_equal; [congruence|auto]. Qed.

Lemma F2_flip {A B} (Q : A -> B -> Prop) l r : Forall2 Q l r -> Forall2 (fun b a => Q a b) r l.
Proof. induction 1; constructor; auto. Qed.

Section MergeL.
  Variable merge : vecs -> vecs -> res (option vecs).

  Lemma find_merge_spec edges l o : find_merge merge edges l = Ok o ->
    match o with
    | None => forall i j, In (i, j) l -> exists e f, nth_error edges i = Some e /\ nth_error edges j = Some f /\ merge e f = Ok None
    | Some (i, j, a) => In (i, j) l /\ exists e f, nth_error edges i = Some e /\ nth_error edges j = Some f /\ merge e f = Ok (Some a)
    end.
  Proof.
    induction l as [|[i j] l IH]; intros E; cbn [find_merge] in E; [injection E as <-; intros i j []|].
    apply bind_Ok_inv in E as (e & Ee & E). apply bind_Ok_inv in E as (f & Ef & E). apply bind_Ok_inv in E as (m & Em & E).
    unfold get in Ee, Ef. destruct (nth_error edges i) eqn:Ei; [|discriminate]. destruct (nth_error edges j) eqn:Ej; [|discriminate].
    injection Ee as ->. injection Ef as ->. destruct m as [a|].
    - injection E as <-. split; [left; reflexivity|]. eauto.
    - specialize (IH E). destruct o as [[[i' j'] a]|].
      + destruct IH as (H & H'). split; [right; exact H|exact H'].
      + intros i' j' [H|H]; [injection H as <- <-; eauto|apply IH, H].
  Qed.

  Definition drop2 (i j : nat) (l : list nat) := filter (fun x => negb (existsb (Nat.eqb x) [i; j])) l.
  Lemma drop2_none i j l : ~ In i l -> ~ In j l -> drop2 i j l = l.
  Proof.
    induction l as [|x l IH]; intros Hi Hj; [reflexivity|]. cbn. rewrite orb_false_r. destruct (Nat.eqb_spec x i) as [->|_]; [exfalso; apply Hi; left; reflexivity|].
    destruct (Nat.eqb_spec x j) as [->|_]; [exfalso; apply Hj; left; reflexivity|]. cbn. f_equal. apply IH; intros H; [apply Hi|apply Hj]; right; exact H.
  Qed.
  Lemma drop2_split i j l1 l2 l3 : NoDup (l1 ++ i :: l2 ++ j :: l3) -> drop2 i j (l1 ++ i :: l2 ++ j :: l3) = l1 ++ l2 ++ l3.
  Proof.
    intros ND. assert (Hi : ~ In i (l1 ++ l2 ++ j :: l3)) by (apply NoDup_remove_2, ND). rewrite app_comm_cons, app_assoc in ND.
    assert (Hj : ~ In j ((l1 ++ i :: l2) ++ l3)) by (apply NoDup_remove_2, ND).
    repeat rewrite in_app_iff in *. cbn [In] in *. unfold drop2. rewrite filter_app. cbn [filter]. rewrite filter_app. cbn [filter].
    fold (drop2 i j l1) (drop2 i j l2) (drop2 i j l3). rewrite !drop2_none by tauto. cbn. rewrite !Nat.eqb_refl, orb_true_r. cbn. reflexivity.
  Qed.

  Definition ok (edges : obj4) (lst : list nat) : Prop := NoDup lst /\ Forall (fun i => (i < length edges)%nat) lst.
  Lemma ok_step edges i j l1 l2 l3 a : ok edges (l1 ++ i :: l2 ++ j :: l3) -> ok (edges ++ [a]) (l1 ++ l2 ++ l3 ++ [length edges]).
  Proof.
    intros [ND B]. assert (ND' : NoDup (l1 ++ l2 ++ l3)).
    { apply NoDup_remove_1 in ND. rewrite app_assoc in ND. apply NoDup_remove_1 in ND. rewrite <- app_assoc in ND. exact ND. }
    assert (B' : Forall (fun i => (i < length edges)%nat) (l1 ++ l2 ++ l3)).
    { rewrite Forall_forall in *. intros x Hx. apply B. repeat rewrite in_app_iff in *. cbn [In]. repeat rewrite in_app_iff in *. cbn [In]. tauto. }
    replace (l1 ++ l2 ++ l3 ++ [length edges]) with ((l1 ++ l2 ++ l3) ++ [length edges]) by (rewrite <- !app_assoc; reflexivity). split.
    - apply (Permutation_NoDup (Permutation_cons_append (l1 ++ l2 ++ l3) (length edges))). constructor; [|exact ND'].
      intros H. rewrite Forall_forall in B'. specialize (B' _ H). lia.
    - apply Forall_app. split; [|constructor; [rewrite app_length; cbn; lia|constructor]]. eapply Forall_impl; [|exact B']. intros x Hx. cbn in Hx. rewrite app_length. lia.
  Qed.

  (** The loop with enough fuel. *)
  Lemma merge_loop_stable fuel edges lst : ok edges lst -> (length lst < fuel)%nat ->
    merge_loop merge fuel edges lst <> Ok None /\ merge_loop merge (S fuel) edges lst = merge_loop merge fuel edges lst.
  Proof.
    revert edges lst. induction fuel as [|fuel IH]; intros edges lst HO Hf; [lia|]. cbn [merge_loop].
    change (merge_loop merge (S (S fuel)) edges lst) with
      (bind (find_merge merge edges (pairs lst)) (fun m => match m with
        | Some (i, j, a) => merge_loop merge (S fuel) (edges ++ [a]) (drop2 i j lst ++ [length edges])
        | None => bind (mapM (get edges) lst) (fun out => Ok (Some out)) end)).
    destruct (find_merge merge edges (pairs lst)) as [o|e] eqn:Eo; cbn [bind]; [|split; [discriminate|reflexivity]].
    apply find_merge_spec in Eo. destruct o as [[[i j] a]|].
    - destruct Eo as (Hp & _). apply pairs_In in Hp as (l1 & l2 & l3 & ->). fold (drop2 i j (l1 ++ i :: l2 ++ j :: l3)).
      rewrite drop2_split by apply HO. rewrite <- !app_assoc. apply (IH (edges ++ [a]) (l1 ++ l2 ++ l3 ++ [length edges])); [eapply ok_step; exact HO|].
      repeat rewrite app_length in *. cbn [length] in *. repeat rewrite app_length in *. cbn [length] in *. lia.
    - split; [|reflexivity]. destruct (mapM (get edges) lst); cbn; discriminate.
  Qed.

  Lemma merge_loop_spec fuel edges lst cur r : ok edges lst -> Forall2 (fun i e => nth_error edges i = Some e) lst cur ->
    merge_loop merge fuel edges lst = Ok (Some r) ->
    merged merge cur r /\ forall l1 e l2 f l3, r = l1 ++ e :: l2 ++ f :: l3 -> merge e f = Ok None.
  Proof.
    revert edges lst cur. induction fuel as [|fuel IH]; intros edges lst cur HO F E; [discriminate|]. cbn [merge_loop] in E.
    apply bind_Ok_inv in E as (o & Eo & E). apply find_merge_spec in Eo. destruct o as [[[i j] a]|].
    - destruct Eo as (Hp & e & f & Ei & Ej & Em). apply pairs_In in Hp as (l1 & l2 & l3 & ->).
      fold (drop2 i j (l1 ++ i :: l2 ++ j :: l3)) in E. rewrite drop2_split in E by apply HO. rewrite <- !app_assoc in E.
      apply F2_split3 in F as (r1 & e' & r2 & f' & r3 & -> & F1 & He & F2 & Hf & F3). rewrite Ei in He. rewrite Ej in Hf. injection He as <-. injection Hf as <-.
      destruct (IH (edges ++ [a]) (l1 ++ l2 ++ l3 ++ [length edges]) (r1 ++ r2 ++ r3 ++ [a])) as (M & Fin); [eapply ok_step; exact HO| |exact E|].
      + assert (W : forall l r, Forall2 (fun i e => nth_error edges i = Some e) l r -> Forall2 (fun i e => nth_error (edges ++ [a]) i = Some e) l r).
        { intros l r0 H. eapply Forall2_impl; [|exact H]. intros x y Hxy. rewrite nth_error_app1; [exact Hxy|]. apply nth_error_Some. congruence. }
        repeat apply Forall2_app; auto. constructor; [|constructor]. rewrite nth_error_app2, Nat.sub_diag by lia. reflexivity.
      + split; [|exact Fin]. eapply merged_step; eassumption.
    - apply bind_Ok_inv in E as (out & Eout & E). injection E as <-.
      destruct (mapM_get edges lst (proj2 HO)) as (out' & Eo' & F'). rewrite Eout in Eo'. injection Eo' as <-.
      rewrite (F2_fun _ _ _ _ F F') in *. split; [constructor|]. intros l1 e l2 f l3 Er.
      assert (P : exists k1 i k2 j k3, lst = k1 ++ i :: k2 ++ j :: k3 /\ nth_error edges i = Some e /\ nth_error edges j = Some f).
      { rewrite Er in F'. apply F2_flip in F'. apply F2_split3 in F' as (k1 & i & k2 & j & k3 & -> & _ & Hi & _ & Hj & _). exists k1, i, k2, j, k3. auto. }
      destruct P as (k1 & i & k2 & j & k3 & -> & Hi & Hj). destruct (Eo i j) as (e' & f' & Hi' & Hj' & Em); [apply pairs_In; eauto|]. congruence.
  Qed.

  Lemma merge_loop_total fuel edges lst (Q : vecs -> Prop) : ok edges lst -> (length lst < fuel)%nat ->
    (forall e f, Q e -> Q f -> exists o, merge e f = Ok o /\ forall a, o = Some a -> Q a) -> Forall Q edges -> 
    exists r, merge_loop merge fuel edges lst = Ok (Some r).
  Proof.
    intros HO Hf HQ. revert edges lst HO Hf. induction fuel as [|fuel IH]; intros edges lst HO Hf FQ; [lia|]. cbn [merge_loop].
    assert (FM : exists o, find_merge merge edges (pairs lst) = Ok o).
    { assert (K : forall l, (forall i j, In (i, j) l -> In i lst /\ In j lst) -> exists o, find_merge merge edges l = Ok o).
      { induction l as [|[i j] l IHl]; intros Hl; [eexists; reflexivity|]. cbn [find_merge]. destruct (Hl i j (or_introl eq_refl)) as [Hi Hj].
        destruct HO as [_ B]. rewrite Forall_forall in B. unfold get.
        destruct (nth_error edges i) as [e|] eqn:Ei; [|exfalso; apply (proj2 (nth_error_Some edges i)); [apply B, Hi|exact Ei]]. cbn [bind].
        destruct (nth_error edges j) as [f|] eqn:Ej; [|exfalso; apply (proj2 (nth_error_Some edges j)); [apply B, Hj|exact Ej]]. cbn [bind].
        rewrite Forall_forall in FQ. destruct (HQ e f) as (o & -> & _); [eapply FQ, nth_error_In; exact Ei|eapply FQ, nth_error_In; exact Ej|]. cbn [bind].
        destruct o; [eexists; reflexivity|]. apply IHl. intros i' j' H. apply Hl. right. exact H. }
      apply K. intros i j H. apply pairs_In in H as (l1 & l2 & l3 & ->). do 3 (rewrite ?in_app_iff; cbn [In]). tauto. }
    destruct FM as (o & Eo). rewrite Eo. cbn [bind]. apply find_merge_spec in Eo. destruct o as [[[i j] a]|].
    - destruct Eo as (Hp & e & f & Ei & Ej & Em). apply pairs_In in Hp as (l1 & l2 & l3 & ->). fold (drop2 i j (l1 ++ i :: l2 ++ j :: l3)).
      rewrite drop2_split by apply HO. rewrite <- !app_assoc. apply (IH (edges ++ [a]) (l1 ++ l2 ++ l3 ++ [length edges])); [eapply ok_step; exact HO| |].
      + repeat rewrite app_length in *. cbn [length] in *. repeat rewrite app_length in *. cbn [length] in *. lia.
      + apply Forall_app. split; [exact FQ|]. constructor; [|constructor]. rewrite Forall_forall in FQ.
        destruct (HQ e f) as (o & Eo & Ho); [eapply FQ, nth_error_In; exact Ei|eapply FQ, nth_error_In; exact Ej|]. rewrite Em in Eo. injection Eo as <-. apply Ho. reflexivity.
    - destruct (mapM_get edges lst (proj2 HO)) as (out & -> & _). cbn [bind]. eauto.
  Qed.
  Lemma ok_seq edges : ok edges (seq 0 (length edges)).
  Proof. split; [apply seq_NoDup|]. apply Forall_forall. intros i Hi. apply in_seq in Hi. lia. Qed.
  Lemma F2_seq (edges : obj4) : Forall2 (fun i e => nth_error edges i = Some e) (seq 0 (length edges)) edges.
  Proof.
    assert (K : forall (l : obj4) k, Forall2 (fun i e => (k <= i)%nat /\ nth_error l (i - k) = Some e) (seq k (length l)) l).
    { induction l as [|x l IH]; intros k; cbn [length seq]; constructor; [rewrite Nat.sub_diag; auto|]. eapply Forall2_impl; [|apply (IH (S k))].
      intros i e [H1 H2]. split; [lia|]. replace (i - k)%nat with (S (i - S k)) by lia. exact H2. }
    eapply Forall2_impl; [|apply (K edges 0%nat)]. intros i e [_ H]. rewrite Nat.sub_0_r in H. exact H.
  Qed.
  Lemma merged_length l r : merged merge l r -> (length r <= length l)%nat.
  Proof.
    induction 1 as [|l1 e l2 f l3 a r _ _ IH]; [lia|]. repeat rewrite app_length in *. cbn [length] in *. repeat rewrite app_length in *. cbn [length] in *. lia.
  Qed.
  Lemma merged_vertices l r : (forall e f a, merge e f = Ok (Some a) -> incl a (e ++ f)) -> merged merge l r -> incl (concat r) (concat l).
  Proof.
    intros H M. induction M as [l|l1 e l2 f l3 a r Em _ IH]; [apply incl_refl|]. intros x Hx. apply IH in Hx. rewrite !concat_app in *. cbn [concat] in *. rewrite !concat_app in *. cbn [concat] in *.
    rewrite app_nil_r in Hx. repeat rewrite in_app_iff in *. destruct Hx as [Hx|[Hx|[Hx|Hx]]]; auto 10. apply (H e f a Em) in Hx. apply in_app_or in Hx. tauto.
  Qed.
End MergeL.

(** * Points on segments *)
Lemma dot_norm (p : R3) : (norm3 p * norm3 p = dot3 p p)%R.
Proof. unfold norm3. apply sqrt_sqrt. destruct p as [[x y] z]. cbn. nra. Qed.
Lemma norm_pos (p : R3) : (0 <= norm3 p)%R. Proof. apply sqrt_pos. Qed.
Lemma norm_zero (p : R3) : norm3 p = 0%R -> p = o3.
Proof.
  intros H. pose proof (dot_norm p) as D. rewrite H in D. destruct p as [[x y] z]. cbn in D. unfold o3.
  pose proof (Rle_0_sqr x). pose proof (Rle_0_sqr y). pose proof (Rle_0_sqr z). unfold Rsqr in *.
  assert (x * x = 0)%R by lra. assert (y * y = 0)%R by lra. assert (z * z = 0)%R by lra.
  assert (x = 0)%R by nra. assert (y = 0)%R by nra. assert (z = 0)%R by nra. subst. reflexivity.
Qed.
Lemma norm_scale s (p : R3) : (0 <= s)%R -> norm3 (scale3 s p) = (s * norm3 p)%R.
Proof.
  intros Hs. unfold norm3. rewrite <- (sqrt_square s Hs) at 3. rewrite <- sqrt_mult.
  - f_equal. destruct p as [[x y] z]. cbn. ring.
  - nra.
  - destruct p as [[x y] z]. cbn. nra.
Qed.
Lemma on_segment_unfold (p a b : R3) : on_segment Rnum p a b =
  if Rltb 0 (norm3 (sub3 b a)) && Rltb (Rabs (dot3 (sub3 p a) (sub3 b a) - norm3 (sub3 p a) * norm3 (sub3 b a))) (1/1000000)
  then Rleb 0 (norm3 (sub3 p a) / norm3 (sub3 b a)) && Rleb (norm3 (sub3 p a) / norm3 (sub3 b a)) 1 else false.
Proof.
  destruct p as [[p0 p1] p2], a as [[a0 a1] a2], b as [[b0 b1] b2]. reflexivity.
Qed.

Lemma on_segment_complete (p a b : R3) : a <> b -> hull [a; b] p -> on_segment Rnum p a b = true.
Proof.
  intros Hab (ws & (L & S & E) & P). destruct ws as [|u [|s [|]]]; try discriminate L. cbn in S.
  inversion P as [|? ? Hu P']; subst. inversion P' as [|? ? Hs _]; subst.
  assert (Ep : sub3 (comb [u; s] [a; b]) a = scale3 s (sub3 b a)).
  { replace u with (1 - s)%R by lra. destruct a as [[a0 a1] a2], b as [[b0 b1] b2]. cbn. apply f_equal2; [apply f_equal2|]; ring. }
  rewrite on_segment_unfold, Ep, norm_scale by exact Hs.
  assert (Nb : (0 < norm3 (sub3 b a))%R).
  { destruct (norm_pos (sub3 b a)) as [H|H]; [exact H|]. exfalso. apply Hab. symmetry in H. apply norm_zero in H.
    destruct a as [[a0 a1] a2], b as [[b0 b1] b2]. cbn in H. unfold o3 in H. injection H. intros. apply f_equal2; [apply f_equal2|]; lra. }
  rewrite (proj2 (Rltb_true _ _) Nb). cbn [andb].
  assert (D : dot3 (scale3 s (sub3 b a)) (sub3 b a) = (s * norm3 (sub3 b a) * norm3 (sub3 b a))%R).
  { rewrite Rmult_assoc, dot_norm. destruct (sub3 b a) as [[x y] z]. cbn. ring. }
  rewrite D. unfold Rminus at 1. rewrite Rplus_opp_r, Rabs_R0, (proj2 (Rltb_true 0 (1/1000000))) by lra.
  replace (s * norm3 (sub3 b a) / norm3 (sub3 b a))%R with s by (field; lra).
  rewrite (proj2 (Rleb_true 0 s)), (proj2 (Rleb_true s 1)) by lra. reflexivity.
Qed.

Lemma on_segment_sound (p a b : R3) : on_segment Rnum p a b = true ->
  a <> b /\ exists h, hull [a; b] h /\ (dist3 p h < 3/2000)%R.
Proof.
  rewrite on_segment_unfold. intros H.
  destruct (Rltb 0 (norm3 (sub3 b a))) eqn:E1; [|discriminate]. cbn [andb] in H.
  match type of H with (if ?c then _ else _) = _ => destruct c eqn:E2; [|discriminate] end.
  apply andb_true_iff in H as [H1 H2]. apply Rltb_true in E1, E2. apply Rleb_true in H1, H2. split.
  - intros ->. assert (Z : sub3 b b = o3) by (destruct b as [[x y] z]; unfold o3; cbn; apply f_equal2; [apply f_equal2|]; ring).
    rewrite Z in E1. unfold norm3 in E1. cbn in E1. replace (0 * 0 + 0 * 0 + 0 * 0)%R with 0%R in E1 by ring. rewrite sqrt_0 in E1. lra.
  - set (l := norm3 (sub3 p a)) in *. set (L := norm3 (sub3 b a)) in *. set (s := (l / L)%R) in *.
    assert (El : l = (s * L)%R) by (unfold s; field; lra).
    exists (comb [(1 - s)%R; s] [a; b]). split.
    + exists [(1 - s)%R; s]. split; [split; [reflexivity|split; [cbn; ring|reflexivity]]|]. constructor; [lra|constructor; [lra|constructor]].
    + unfold dist3. assert (E : dot3 (sub3 p (comb [(1 - s)%R; s] [a; b])) (sub3 p (comb [(1 - s)%R; s] [a; b])) =
        (dot3 (sub3 p a) (sub3 p a) - 2 * s * dot3 (sub3 p a) (sub3 b a) + s * s * dot3 (sub3 b a) (sub3 b a))%R).
      { destruct a as [[a0 a1] a2], b as [[b0 b1] b2], p as [[p0 p1] p2]. cbn. ring. }
      rewrite <- !dot_norm in E. fold l L in E. assert (E' : (norm3 (sub3 p (comb [(1 - s)%R; s] [a; b])) * norm3 (sub3 p (comb [(1 - s)%R; s] [a; b])) = 2 * s * (l * L - dot3 (sub3 p a) (sub3 b a)))%R).
      { rewrite E. rewrite El at 1 2. rewrite El. ring. }
      apply Rabs_def2 in E2. pose proof (norm_pos (sub3 p (comb [(1 - s)%R; s] [a; b]))) as Np.
      set (n := norm3 (sub3 p (comb [(1 - s)%R; s] [a; b]))) in *.
      assert (n * n <= 2 / 1000000)%R by (rewrite E'; nra). nra.
Qed.

(** * two_segment_into_one *)
Lemma equivalent_vertices_ok u v : good 6 u -> good 6 v -> exists r, equivalent_vertices u v = Ok r /\ (r = true <-> ppoint u = ppoint v).
Proof.
  intros Hu Hv. unfold equivalent_vertices.
  pose proof (projection3_spec u Hu) as Su. apply wp_elim in Su as (a & Ea & Ca & Va).
  pose proof (projection3_spec v Hv) as Sv. apply wp_elim in Sv as (b & Eb & Cb & Vb).
  rewrite Ea, Eb. cbn [bind]. exists (vec_eqb a b). split; [reflexivity|]. rewrite vec_eqb_eq. unfold ppoint. rewrite <- Va, <- Vb.
  split; [congruence|]. apply vals_inj; assumption.
Qed.
Lemma internal_ok N v : length v = 6%nat -> exists p, internal N v = Ok p.
Proof. intros L. destruct v as [|? [|? [|? [|? [|? [|? [|]]]]]]]; try discriminate L. unfold internal, projection3_numerical. cbn [numerical_vector map get nth_error bind]. eauto. Qed.
Lemma point_on_segment_ok N p a b : length p = 6%nat -> length a = 6%nat -> length b = 6%nat -> exists r, point_on_segment N p [a; b] = Ok r.
Proof.
  intros Hp Ha Hb. unfold point_on_segment. destruct (internal_ok N p Hp) as (x & ->). destruct (internal_ok N a Ha) as (y & Ey). destruct (internal_ok N b Hb) as (z & Ez).
  cbn [bind]. unfold internals. cbn [mapM]. rewrite Ey, Ez. cbn. eauto.
Qed.

Definition hit (N : num) (q : vec * vec * vec * vec) : Prop :=
  let '(e1a, e1b, e2a, e2b) := q in ppoint e1a = ppoint e2a /\ point_on_segment N e1a [e1b; e2b] = Ok true.
Lemma first_merge_spec N l : (forall q, In q l -> let '(a, b, c, d) := q in goods 6 [a; b; c; d]) ->
  exists o, first_merge N l = Ok o /\
    match o with
    | Some s => exists e1a e1b e2a e2b, In (e1a, e1b, e2a, e2b) l /\ hit N (e1a, e1b, e2a, e2b) /\ s = [e1b; e2b]
    | None => forall q, In q l -> ~ hit N q
    end.
Proof.
  induction l as [|[[[a b] c] d] l IH]; intros G; [exists None; split; [reflexivity|intros q []]|].
  pose proof (G _ (or_introl eq_refl)) as G0. cbn in G0. unfold goods in G0. rewrite Forall_forall in G0.
  assert (Ga : good 6 a) by (apply G0; cbn; auto). assert (Gb : good 6 b) by (apply G0; cbn; auto).
  assert (Gc : good 6 c) by (apply G0; cbn; auto). assert (Gd : good 6 d) by (apply G0; cbn; auto). clear G0.
  destruct IH as (o & E & Ho); [intros q Hq; apply G; right; exact Hq|].
  cbn [first_merge]. destruct (equivalent_vertices_ok a c Ga Gc) as (r & -> & Hr). cbn [bind].
  destruct (point_on_segment_ok N a b d) as (on & Eon); [apply Ga|apply Gb|apply Gd|].
  assert (Rest : ~ hit N (a, b, c, d) -> exists o', first_merge N l = Ok o' /\ match o' with
     | Some s => exists e1a e1b e2a e2b, In (e1a, e1b, e2a, e2b) ((a, b, c, d) :: l) /\ hit N (e1a, e1b, e2a, e2b) /\ s = [e1b; e2b]
     | None => forall q, In q ((a, b, c, d) :: l) -> ~ hit N q end).
  { intros Nh. exists o. split; [exact E|]. destruct o as [s|].
    - destruct Ho as (w & x & y & z & I & H). exists w, x, y, z. split; [right; exact I|exact H].
    - intros q [<-|Hq]; auto. }
  destruct r.
  - rewrite Eon. cbn [bind]. destruct on.
    + exists (Some [b; d]). split; [reflexivity|]. exists a, b, c, d. split; [left; reflexivity|]. split; [split; [apply Hr; reflexivity|exact Eon]|reflexivity].
    + apply Rest. intros [_ H]. congruence.
  - apply Rest. intros [H _]. apply Hr in H. discriminate.
Qed.

Lemma two_segment_spec N s1 s2 : length s1 = 2%nat -> length s2 = 2%nat -> goods 6 s1 -> goods 6 s2 ->
  exists o, two_segment_into_one N s1 s2 = Ok o /\
    match o with
    | Some s => exists p q p' r, ends s1 p q /\ ends s2 p' r /\ ppoint p = ppoint p' /\ point_on_segment N p [q; r] = Ok true /\ s = [q; r]
    | None => forall p q p' r, ends s1 p q -> ends s2 p' r -> ppoint p = ppoint p' -> point_on_segment N p [q; r] = Ok false
    end.
Proof.
  intros L1 L2 G1 G2. destruct s1 as [|a [|b [|]]]; try discriminate L1. destruct s2 as [|c [|d [|]]]; try discriminate L2.
  inversion G1 as [|? ? Ga G1']; subst. inversion G1' as [|? ? Gb _]; subst. inversion G2 as [|? ? Gc G2']; subst. inversion G2' as [|? ? Gd _]; subst.
  unfold two_segment_into_one. cbn [get nth_error bind].
  destruct (first_merge_spec N [(a,b,c,d);(a,b,d,c);(b,a,c,d);(b,a,d,c)]) as (o & E & Ho).
  { intros q Hq. cbn in Hq. destruct Hq as [<-|[<-|[<-|[<-|[]]]]]; (repeat (apply Forall_cons; [assumption|]); apply Forall_nil). }
  exists o. split; [exact E|]. destruct o as [s|].
  - destruct Ho as (w & x & y & z & I & [H1 H2] & ->). exists w, x, y, z. cbn in I. unfold ends.
    destruct I as [I|[I|[I|[I|[]]]]]; injection I as <- <- <- <-; auto 10.
  - intros p q p' r [E1|E1] [E2|E2] Ep; injection E1 as -> ->; injection E2 as -> ->.
    + destruct (point_on_segment_ok N p q r) as ([] & H); [apply Ga|apply Gb|apply Gd| |exact H]. exfalso. apply (Ho (p, q, p', r)); [cbn; auto 10|split; [exact Ep|exact H]].
    + destruct (point_on_segment_ok N p q r) as ([] & H); [apply Ga|apply Gb|apply Gc| |exact H]. exfalso. apply (Ho (p, q, p', r)); [cbn; auto 10|split; [exact Ep|exact H]].
    + destruct (point_on_segment_ok N p q r) as ([] & H); [apply Gb|apply Ga|apply Gd| |exact H]. exfalso. apply (Ho (p, q, p', r)); [cbn; auto 10|split; [exact Ep|exact H]].
    + destruct (point_on_segment_ok N p q r) as ([] & H); [apply Gb|apply Ga|apply Gc| |exact H]. exfalso. apply (Ho (p, q, p', r)); [cbn; auto 10|split; [exact Ep|exact H]].
Qed.
Lemma two_segment_incl N s1 s2 s : two_segment_into_one N s1 s2 = Ok (Some s) -> incl s (s1 ++ s2) /\ length s = 2%nat.
Proof.
  intros E. unfold two_segment_into_one in E. apply bind_Ok_inv in E as (a & Ea & E). apply bind_Ok_inv in E as (b & Eb & E). apply bind_Ok_inv in E as (c & Ec & E). apply bind_Ok_inv in E as (d & Ed & E).
  assert (I : forall l, (forall q, In q l -> let '(w, x, y, z) := q in In x [a;b] /\ In z [c;d]) -> first_merge N l = Ok (Some s) -> incl s ([a;b] ++ [c;d]) /\ length s = 2%nat).
  { induction l as [|[[[w x] y] z] l IH]; intros Hl El; cbn [first_merge] in El; [discriminate|]. apply bind_Ok_inv in El as (r & _ & El).
    assert (K : first_merge N l = Ok (Some s) -> incl s ([a;b] ++ [c;d]) /\ length s = 2%nat) by (apply IH; intros q Hq; apply Hl; right; exact Hq).
    destruct r; [|auto]. apply bind_Ok_inv in El as (on & _ & El). destruct on; [|auto]. injection El as <-. destruct (Hl _ (or_introl eq_refl)) as [Hx Hz].
    split; [|reflexivity]. intros v [<-|[<-|[]]]; apply in_or_app; auto. }
  assert (A : forall (l : vecs) i v, get l i = Ok v -> In v l) by (intros l i v H; unfold get in H; destruct (nth_error l i) eqn:En; [injection H as <-; eapply nth_error_In; exact En|discriminate]).
  apply I in E.
  - destruct E as [E L]. split; [|exact L]. intros v Hv. apply E in Hv. apply in_or_app. apply A in Ea, Eb, Ec, Ed. cbn in Hv. destruct Hv as [<-|[<-|[<-|[<-|[]]]]]; auto.
  - intros q Hq. cbn in Hq. destruct Hq as [<-|[<-|[<-|[<-|[]]]]]; cbn; auto.
Qed.

(** * Border edges *)
Definition sameb (e g : vecs) : bool := match stacked_points e g with Ok n => Nat.eqb n 2 | Raise _ => false end.
Lemma sameb_spec e g : length e = 2%nat -> length g = 2%nat -> goods 6 e -> goods 6 g -> NoDup (map ppoint e) -> NoDup (map ppoint g) ->
  (sameb e g = true <-> same_set (map ppoint e) (map ppoint g)).
Proof. intros Le Lg Ge Gg Ne Ng. destruct (equivalent_n_set 2 e g Ge Gg Le Lg Ne Ng) as (m & E & H). unfold sameb. rewrite E. exact H. Qed.
Lemma count_same_spec e edges : goods 6 e -> Forall (goods 6) edges -> forall c, (c < 2)%nat ->
  count_same e edges c = Ok (Nat.min 2 (c + length (filter (sameb e) edges))).
Proof.
  intros Ge. induction 1 as [|g edges Gg _ IH]; intros c Hc; cbn [count_same filter length]; [f_equal; lia|].
  unfold sameb at 1. unfold stacked_points. destruct (perp_space_spec (e ++ g) (goods_app 6 e g Ge Gg)) as (r & -> & _). cbn [bind].
  destruct (Nat.eqb_spec (length r) 2).
  - destruct (Nat.eqb_spec (S c) 2) as [Ec|Nc]; cbn [length]; [f_equal; lia|]. rewrite IH by lia. f_equal. lia.
  - apply IH, Hc.
Qed.
Lemma border_spec us edges : Forall (goods 6) us -> Forall (goods 6) edges ->
  border us edges = Ok (filter (fun e => Nat.eqb (length (filter (sameb e) edges)) 1) us).
Proof.
  intros Hu He. induction Hu as [|e us Ge _ IH]; [reflexivity|]. cbn [border filter]. rewrite count_same_spec by (assumption || lia). cbn [bind]. rewrite IH. cbn [bind].
  set (n := length (filter (sameb e) edges)). destruct (Nat.eqb_spec n 1) as [->|Nn]; [reflexivity|]. destruct (Nat.eqb_spec (Nat.min 2 (0 + n)) 1); [lia|reflexivity].
Qed.
Lemma filter_one {A} (f : A -> bool) l : length (filter f l) = 1%nat <-> exists! j, exists a, nth_error l j = Some a /\ f a = true.
Proof.
  induction l as [|x l IH]; cbn [filter].
  - split; [discriminate|]. intros (j & (a & H & _) & _). destruct j; discriminate.
  - destruct (f x) eqn:Ef; cbn [length].
    + split.
      * intros H. exists 0%nat. split; [exists x; auto|]. intros j (a & Ha & Hf). destruct j as [|j]; [reflexivity|]. cbn in Ha. exfalso.
        assert (In a (filter f l)) by (apply filter_In; split; [eapply nth_error_In; exact Ha|exact Hf]). destruct (filter f l); [destruct H0|discriminate].
      * intros (j & _ & U). assert (J : j = 0%nat) by (apply U; exists x; auto). subst j. destruct (filter f l) as [|a r] eqn:E; [reflexivity|]. exfalso.
        assert (Ha : In a (filter f l)) by (rewrite E; left; reflexivity). apply filter_In in Ha as [Ha Hf]. apply In_nth_error in Ha as (k & Hk).
        specialize (U (S k)). discriminate U. exists a. auto.
    + rewrite IH. split; intros (j & (a & Ha & Hf) & U).
      * exists (S j). split; [exists a; auto|]. intros [|k] (b & Hb & Hg); [cbn in Hb; congruence|]. f_equal. apply U. exists b. auto.
      * destruct j as [|j]; [cbn in Ha; congruence|]. exists j. split; [exists a; auto|]. intros k (b & Hb & Hg). assert (E : S j = S k) by (apply U; exists b; auto). congruence.
Qed.

(** * Everything the surface cleaner returns is made of input vertices *)
Lemma mapM_in {A B} (f : A -> res B) l r b : mapM f l = Ok r -> In b r -> exists a, In a l /\ f a = Ok b.
Proof.
  revert r. induction l as [|a l IH]; intros r E Hb; cbn [mapM] in E; [injection E as <-; destruct Hb|].
  apply bind_Ok_inv in E as (x & Ex & E). apply bind_Ok_inv in E as (r' & Er & E). injection E as <-. destruct Hb as [<-|Hb]; [exists a; split; [left; reflexivity|exact Ex]|].
  destruct (IH r' Er Hb) as (a' & Ia & Ea). exists a'. split; [right; exact Ia|exact Ea].
Qed.
Lemma surface_incl N o r : tets o -> generator_surface_1 N o = Ok r -> incl r (all_faces o).
Proof.
  intros T E. unfold generator_surface_1 in E. rewrite mapM_surface in E by (apply tets_len, T). cbn [bind] in E. fold (all_faces o) in E.
  destruct (Nat.eqb (length o) 1); [injection E as <-; apply incl_refl|]. apply bind_Ok_inv in E as (xyz & _ & E). apply bind_Ok_inv in E as (l & _ & E). eapply mapM_get_incl; exact E.
Qed.
Lemma sets_incl copl surface r : surface <> [] -> get_sets_of_coplanar_triangles copl surface = Ok r -> forall s, In s r -> incl s surface.
Proof.
  intros Hs E s Hsr t Ht. destruct (groups_spec copl surface r Hs E) as (gs & F & _). apply In_nth_error in Hsr as (n & Hn).
  destruct (F2_nth' _ _ _ _ _ F Hn) as (g & _ & Fg). apply In_nth_error in Ht as (m & Hm). destruct (F2_nth' _ _ _ _ _ Fg Hm) as (i & _ & Hi). eapply nth_error_In; exact Hi.
Qed.
Lemma border_incl N ts r : Forall (fun t => length t = 3%nat /\ goods 6 t) ts -> gen_border_edges_of_coplanar_triangles N ts = Ok r -> incl r (edges_of 3 ts).
Proof.
  intros T E. assert (T3 : Forall (fun t => length t = 3%nat) ts) by (eapply Forall_impl; [|exact T]; intros ? [? _]; assumption).
  destruct (edges_of_good 3 ts (or_intror (or_introl eq_refl)) T) as (Ge & _). assert (Ge' : Forall (goods 6) (edges_of 3 ts)) by (eapply Forall_impl; [|exact Ge]; intros ? [_ ?]; assumption).
  unfold gen_border_edges_of_coplanar_triangles in E. apply bind_Ok_inv in E as (us & Eu & E). pose proof (unique_edges_incl N 3 ts us (or_intror (or_introl eq_refl)) T3 Eu) as I.
  rewrite all_edges_3 in E by exact T3. cbn [bind notNone] in E. change (concat (map tri_edges ts)) with (edges_of 3 ts) in E.
  assert (Gu : Forall (goods 6) us) by (rewrite Forall_forall in *; intros u Hu; apply Ge', I, Hu).
  rewrite (border_spec us _ Gu Ge') in E. injection E as <-. intros e He. apply filter_In in He as [He _]. apply I, He.
Qed.
Lemma surface_edges_incl N draws surface r : surface <> [] -> Forall (fun t => length t = 3%nat /\ goods 6 t) surface ->
  surface_edges N draws surface = Ok r -> incl r (edges_of 3 surface).
Proof.
  intros Hs T E. unfold surface_edges in E. apply bind_Ok_inv in E as (sets & Es & E). apply bind_Ok_inv in E as (es & Eb & E).
  assert (I : incl es (edges_of 3 surface)).
  { unfold all_borders in Eb. apply bind_Ok_inv in Eb as (bs & Eb & Ec). injection Ec as <-. intros e He. apply in_concat in He as (b & Hb & He).
    destruct (mapM_in _ _ _ _ Eb Hb) as (s & Hss & Ebs). apply bind_Ok_inv in Ebs as (b' & Eb' & Ebs). assert (b' = b) by (destruct b'; [discriminate|injection Ebs; auto]). subst b'.
    pose proof (sets_incl _ _ _ Hs Es s Hss) as Is. assert (Ts : Forall (fun t => length t = 3%nat /\ goods 6 t) s) by (rewrite Forall_forall in *; intros t Ht; apply T, Is, Ht).
    apply (border_incl N s b Ts Eb') in He. unfold edges_of in *. cbn [Nat.eqb] in *. apply in_concat in He as (l & Hl & He). apply in_map_iff in Hl as (t & <- & Ht).
    apply in_concat. exists (tri_edges t). split; [apply in_map, Is, Ht|exact He]. }
  intros e He. apply I. assert (L2 : Forall (fun t => length t = 2%nat) es).
  { destruct (edges_of_good 3 surface (or_intror (or_introl eq_refl)) T) as (Ge & _). rewrite Forall_forall in *. intros x Hx. apply Ge, I, Hx. }
  apply (unique_edges_incl N 2 es r (or_introl eq_refl) L2 E). exact He.
Qed.
Lemma merge_segments_spec merge edges : exists out, out <> Ok None /\ (forall fuel, (length edges < fuel)%nat -> merge_segments merge fuel edges = out) /\
  forall r, out = Ok (Some r) -> merged merge edges r /\ forall l1 e l2 f l3, r = l1 ++ e :: l2 ++ f :: l3 -> merge e f = Ok None.
Proof.
  exists (merge_segments merge (S (length edges)) edges). unfold merge_segments.
  assert (Ls : length (seq 0 (length edges)) = length edges) by apply seq_length.
  split; [apply (merge_loop_stable merge _ edges _ (ok_seq edges)); lia|]. split.
  - intros fuel Hf. remember (fuel - S (length edges))%nat as d eqn:Ed. replace fuel with (d + S (length edges))%nat by lia. clear Hf Ed fuel.
    induction d as [|d IH]; [reflexivity|]. rewrite <- IH. cbn [Nat.add]. apply (merge_loop_stable merge _ edges _ (ok_seq edges)). lia.
  - intros r E. eapply merge_loop_spec; [apply ok_seq|apply F2_seq|exact E].
Qed.
Lemma cleaner_incl N draws surface r : surface <> [] -> Forall (fun t => length t = 3%nat /\ goods 6 t) surface ->
  surface_cleaner N draws surface = Ok r -> incl (concat r) (concat surface).
Proof.
  intros Hs T E. unfold surface_cleaner in E. apply bind_Ok_inv in E as (es & Ee & E). apply bind_Ok_inv in E as (m & Em & E).
  destruct m as [m|]; [|discriminate]. cbn in E. injection E as <-.
  destruct (merge_segments_spec (two_segment_into_one N) es) as (out & _ & St & Sp). rewrite St in Em by lia. destruct (Sp m Em) as (M & _).
  pose proof (merged_vertices _ _ _ (fun e f a H => proj1 (two_segment_incl N e f a H)) M) as I1.
  pose proof (surface_edges_incl N draws surface es Hs T Ee) as I2. intros x Hx. apply I1 in Hx. apply in_concat in Hx as (e & He & Hx).
  destruct (edges_of_good 3 surface (or_intror (or_introl eq_refl)) T) as (_ & K). destruct (K e (I2 e He)) as (t & Ht & It). apply in_concat. exists t. auto.
Qed.

Lemma border_unfold N ts us : Forall (fun t => length t = 3%nat /\ goods 6 t /\ NoDup (map ppoint t)) ts -> generator_unique_edges N 3 ts = Ok us ->
  exists r, gen_border_edges_of_coplanar_triangles N ts = Ok r /\ forall e, In e r <-> In e us /\ once e (edges_of 3 ts).
Proof.
  intros T Eu. assert (T' : Forall (fun t => length t = 3%nat /\ goods 6 t) ts) by (eapply Forall_impl; [|exact T]; intros t (H1 & H2 & _); auto).
  assert (T3 : Forall (fun t => length t = 3%nat) ts) by (eapply Forall_impl; [|exact T]; intros ? [? _]; assumption).
  destruct (edges_of_good 3 ts (or_intror (or_introl eq_refl)) T') as (Ge & _). assert (Ge' : Forall (goods 6) (edges_of 3 ts)) by (eapply Forall_impl; [|exact Ge]; intros ? [_ ?]; assumption).
  assert (ND : forall e, In e (edges_of 3 ts) -> NoDup (map ppoint e)).
  { intros e He. unfold edges_of in He. cbn [Nat.eqb] in He. apply in_concat in He as (l & Hl & He). apply in_map_iff in Hl as (t & <- & Ht). rewrite Forall_forall in T.
    destruct (T t Ht) as (L & _ & N0). destruct t as [|a [|b [|c [|]]]]; try discriminate L. cbn [map] in N0. repeat match goal with H : NoDup (_ :: _) |- _ => apply NoDup_cons_iff in H as [? ?] end. cbn [In] in *.
    cbn in He. destruct He as [<-|[<-|[<-|[]]]]; cbn [map]; repeat constructor; cbn [In]; tauto. }
  pose proof (unique_edges_incl N 3 ts us (or_intror (or_introl eq_refl)) T3 Eu) as I.
  assert (Gu : Forall (goods 6) us) by (rewrite Forall_forall in *; intros u Hu; apply Ge', I, Hu).
  unfold gen_border_edges_of_coplanar_triangles. rewrite Eu. cbn [bind]. rewrite all_edges_3 by exact T3. cbn [bind notNone]. change (concat (map tri_edges ts)) with (edges_of 3 ts).
  rewrite (border_spec us _ Gu Ge'). eexists. split; [reflexivity|]. intros e. rewrite filter_In, Nat.eqb_eq, filter_one.
  assert (K : In e us -> forall g, In g (edges_of 3 ts) -> (sameb e g = true <-> same_set (map ppoint e) (map ppoint g))).
  { intros He g Hg. rewrite Forall_forall in Ge. destruct (Ge e (I e He)), (Ge g Hg). apply sameb_spec; auto. }
  unfold once. split; intros (He & j & (g & Eg & Sg) & U); (split; [exact He|]); exists j.
  - split; [exists g; split; [exact Eg|apply K; auto; eapply nth_error_In; exact Eg]|]. intros k (h & Eh & Sh). apply U. exists h. split; [exact Eh|]. apply K; auto. eapply nth_error_In; exact Eh.
  - split; [exists g; split; [exact Eg|apply K; auto; eapply nth_error_In; exact Eg]|]. intros k (h & Eh & Sh). apply U. exists h. split; [exact Eh|]. apply K; auto. eapply nth_error_In; exact Eh.
Qed.
Lemma border_once N ts r e : Forall (fun t => length t = 3%nat /\ goods 6 t /\ NoDup (map ppoint t)) ts ->
  gen_border_edges_of_coplanar_triangles N ts = Ok r -> In e r -> once e (edges_of 3 ts).
Proof.
  intros T E He. pose proof E as E0. unfold gen_border_edges_of_coplanar_triangles in E0. apply bind_Ok_inv in E0 as (us & Eu & _).
  destruct (border_unfold N ts us T Eu) as (r' & Er & Hr). rewrite E in Er. injection Er as <-. apply Hr, He.
Qed.
Lemma NoDup_map_inj {A B} (f : A -> B) l u v : NoDup (map f l) -> In u l -> In v l -> f u = f v -> u = v.
Proof.
  intros N Hu Hv E. induction l as [|x l IH]; [destruct Hu|]. cbn [map] in N. apply NoDup_cons_iff in N as [Nx N].
  destruct Hu as [<-|Hu], Hv as [<-|Hv]; auto; exfalso; apply Nx; [rewrite E|rewrite <- E]; apply in_map; assumption.
Qed.
