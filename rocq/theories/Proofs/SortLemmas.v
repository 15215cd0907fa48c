(** Sorting by positions. *)
From Coq Require Import Reals List Arith Lia Permutation Bool Sorted.
From Verif Require Import Base.Res Model.Tau Model.Arr Model.Num Model.Sorting Spec.SortSpec Proofs.ResLemmas.
Import ListNotations.

Lemma mapM_seq {A B} (f : nat -> res B) (g : nat -> A -> Prop) (ys : list B) s :
  (forall i y, nth_error ys i = Some y -> f (s + i) = Ok y) -> mapM f (seq s (length ys)) = Ok ys.
Proof.
  revert s. induction ys as [|y ys IH]; intros s H; [reflexivity|]. cbn [length seq mapM].
  pose proof (H 0 y eq_refl) as H0. rewrite Nat.add_0_r in H0. rewrite H0. cbn [bind].
  rewrite (IH (S s)); [reflexivity|]. intros i z E. specialize (H (S i) z E). rewrite <- H. f_equal. lia.
Qed.
Definition pick {A} (d : A) (vs : list A) (ks : list nat) : list A := map (fun k => nth k vs d) ks.
Lemma pick_all {A} (d : A) vs : pick d vs (seq 0 (length vs)) = vs.
Proof.
  induction vs as [|v vs IH]; [reflexivity|]. unfold pick in *. cbn [length seq map nth]. f_equal.
  rewrite <- seq_shift, map_map. exact IH.
Qed.
Lemma pick_perm {A} (d : A) vs ks : Permutation ks (seq 0 (length vs)) -> Permutation (pick d vs ks) vs.
Proof. intros P. rewrite <- (pick_all d vs) at 2. unfold pick. apply Permutation_map. exact P. Qed.
Lemma nth_error_in {A} (d : A) l k : k < length l -> nth_error l k = Some (nth k l d).
Proof. intros H. apply nth_error_nth'. exact H. Qed.

Lemma sort_ok (N : num) (internal : vec -> res (pt N)) argsort vs ps : mapM internal vs = Ok ps -> arranges argsort ->
  exists r, sort_vctors_ N internal argsort (A3 vs) = Ok r /\ Permutation r vs /\
    forall i v, nth_error r i = Some v -> exists a p, nth_error (argsort (map (fun '(x, _, _) => x) ps)) i = Some a /\
      nth_error vs a = Some v /\ nth_error ps a = Some p /\ internal v = Ok p.
Proof.
  intros M P. pose proof (mapM_length _ _ _ M) as L. set (xs := map (fun '(x, _, _) => x) ps).
  assert (P' : Permutation (argsort xs) (seq 0 (length vs))).
  { replace (length vs) with (length xs) by (unfold xs; rewrite map_length; exact L). apply P. }
  pose proof (Permutation_length P') as L'. rewrite seq_length in L'.
  assert (B : forall a, In a (argsort xs) -> a < length vs).
  { intros a I. apply (Permutation_in _ P') in I. apply in_seq in I. lia. }
  exists (pick [] vs (argsort xs)). split; [|split; [apply pick_perm; exact P'|]].
  - unfold sort_vctors_. rewrite M. cbn [bind]. fold xs. rewrite <- L'.
    replace (length (argsort xs)) with (length (pick [] vs (argsort xs))) by (unfold pick; apply map_length).
    apply (mapM_seq _ (fun _ (_ : nat) => True)). intros i y E. rewrite Nat.add_0_l. unfold get.
    unfold pick in E. rewrite nth_error_map in E. destruct (nth_error (argsort xs) i) as [k|] eqn:Ek; [|discriminate E].
    cbn in E. injection E as <-. cbn [bind]. rewrite (nth_error_in []); [reflexivity|]. apply B. eapply nth_error_In; eassumption.
  - intros i v E. unfold pick in E. rewrite nth_error_map in E. destruct (nth_error (argsort xs) i) as [k|] eqn:Ek; [|discriminate E].
    cbn in E. injection E as <-. pose proof (B k (nth_error_In _ _ Ek)) as Hk.
    exists k. destruct (nth_error ps k) as [p|] eqn:Ep; [|apply nth_error_None in Ep; lia].
    exists p. split; [reflexivity|]. split; [apply nth_error_in; exact Hk|]. split; [reflexivity|].
    apply mapM_Forall2 in M. clear -M Ep Hk. revert k Ep Hk. induction M as [|v p' vs ps E M IH]; intros [|k] Ep Hk; cbn in *; try lia.
    + congruence.
    + apply IH; [exact Ep|lia].
Qed.

Section Insertion.
Context {A : Type} (le : A -> A -> bool).
Lemma place_perm x i l : Permutation (place le x i l) ((x, i) :: l).
Proof.
  induction l as [|[y j] l IH]; [reflexivity|]. cbn [place]. destruct (le x y); [reflexivity|]. rewrite IH. apply perm_swap.
Qed.
Lemma placed_perm xs i : Permutation (placed le i xs) (combine xs (seq i (length xs))).
Proof.
  revert i. induction xs as [|x xs IH]; intros i; [reflexivity|]. cbn [placed length seq combine]. rewrite place_perm. constructor. apply IH.
Qed.
Lemma combine_snd {B} (xs : list A) (ks : list B) : length xs = length ks -> map snd (combine xs ks) = ks.
Proof. revert ks. induction xs; intros [|k ks] H; cbn in *; try discriminate; [reflexivity|]. f_equal. apply IHxs. lia. Qed.
Lemma argsort_arranges : arranges (argsort_of le).
Proof.
  intros xs. unfold argsort_of. rewrite placed_perm. rewrite combine_snd; [reflexivity|]. rewrite seq_length. reflexivity.
Qed.
Hypothesis tr : forall x y z, le x y = true -> le y z = true -> le x z = true.
Lemma place_sorted x i l : (forall p, In p l -> le x (fst p) = true \/ le (fst p) x = true) ->
  StronglySorted (fun p q => le (fst p) (fst q) = true) l -> StronglySorted (fun p q => le (fst p) (fst q) = true) (place le x i l).
Proof.
  intros C H. induction H as [|[y j] l H IH F]; cbn [place]; [repeat constructor|].
  destruct (le x y) eqn:E.
  - constructor; [constructor; assumption|]. constructor; [exact E|]. rewrite Forall_forall in *. intros p I. cbn [fst] in *. exact (tr _ _ _ E (F p I)).
  - constructor; [apply IH; intros p I; apply C; right; exact I|].
    rewrite Forall_forall in *. intros p I. apply (Permutation_in _ (place_perm _ _ _)) in I. destruct I as [<-|I]; [|apply F; exact I].
    cbn [fst]. destruct (C (y, j) (or_introl eq_refl)) as [Q|Q]; cbn [fst] in Q; [congruence|exact Q].
Qed.
Lemma placed_sorted xs i : (forall x y, In x xs -> In y xs -> le x y = true \/ le y x = true) ->
  StronglySorted (fun p q => le (fst p) (fst q) = true) (placed le i xs).
Proof.
  revert i. induction xs as [|x xs IH]; intros i C; cbn [placed]; [constructor|]. apply place_sorted.
  - intros [y j] I. apply (Permutation_in _ (placed_perm _ _)) in I. apply in_combine_l in I. apply C; [left; reflexivity|right; exact I].
  - apply IH. intros; apply C; right; assumption.
Qed.
Lemma sorted_nth {B} (R : B -> B -> Prop) l : StronglySorted R l -> forall i j p q, i < j -> nth_error l i = Some p -> nth_error l j = Some q -> R p q.
Proof.
  induction 1 as [|y l H IH F]; intros [|i] [|j] p q L Ei Ej; cbn in *; try lia; try discriminate.
  - injection Ei as ->. rewrite Forall_forall in F. apply F. eapply nth_error_In; eassumption.
  - apply (IH i j); [lia|assumption|assumption].
Qed.
Lemma combine_seq_nth (xs : list A) s : forall x k, In (x, k) (combine xs (seq s (length xs))) -> s <= k /\ nth_error xs (k - s) = Some x.
Proof.
  revert s. induction xs as [|y xs IH]; intros s x k I; cbn in I; [contradiction|]. destruct I as [E|I].
  - injection E as -> ->. rewrite Nat.sub_diag. split; [lia|reflexivity].
  - destruct (IH (S s) x k I) as [L E]. split; [lia|]. replace (k - s) with (S (k - S s)) by lia. exact E.
Qed.
Lemma argsort_orders : orders le (argsort_of le).
Proof.
  intros xs C i j a b x y L Ei Ej Ex Ey. unfold argsort_of in Ei, Ej. rewrite nth_error_map in Ei, Ej.
  destruct (nth_error (placed le 0 xs) i) as [[x' a']|] eqn:Pi; [|discriminate Ei]. cbn in Ei. injection Ei as ->.
  destruct (nth_error (placed le 0 xs) j) as [[y' b']|] eqn:Pj; [|discriminate Ej]. cbn in Ej. injection Ej as ->.
  pose proof (sorted_nth _ _ (placed_sorted xs 0 C) i j _ _ L Pi Pj) as H. cbn [fst] in H.
  pose proof (combine_seq_nth xs 0 x' a (Permutation_in _ (placed_perm _ _) (nth_error_In _ _ Pi))) as [_ E1].
  pose proof (combine_seq_nth xs 0 y' b (Permutation_in _ (placed_perm _ _) (nth_error_In _ _ Pj))) as [_ E2].
  rewrite Nat.sub_0_r in E1, E2. congruence.
Qed.
End Insertion.
