(** The loops over pairs of tetrahedra. *)
From Coq Require Import Reals List ZArith Lia Lra Bool Arith.
From Verif Require Import Base.Res Model.Tau Model.Arr Model.IcoScalar Model.Vectors Model.IcoMath1 Model.IcoVolume Model.IcoDedup Model.IcoIntersect
  Spec.Value Spec.RVec Spec.Shape Spec.IcoSpec Spec.Tetra
  Proofs.ResLemmas Proofs.Irrational Proofs.ValueLemmas Proofs.ScalarLemmas Proofs.DedupLemmas Proofs.IcoVolumeLemmas.
Import ListNotations.

Section Loops.
Variable rough : vecs -> res bool.
Variable classify : vecs -> vecs -> res Z.
Variable inter : nat -> nat -> vecs -> vecs -> res (option obj4).
Local Notation yields := (yields classify inter).

Definition olist2 (o : option obj4) : obj4 := match o with Some q => q | None => [] end.
Lemma oapp_list acc q : olist2 (oapp acc q) = olist2 acc ++ q.
Proof. destruct acc; reflexivity. Qed.
Lemma oapp_some acc q : exists x, oapp acc q = Some x. Proof. destruct acc; eexists; reflexivity. Qed.

(** One result of the inner loop from position j on. *)
Lemma inner_spec i j t1 o2 acc b tmp : inner_loop classify inter i j t1 o2 acc = Ok (b, tmp) ->
  (b = true <-> exists k t2, nth_error o2 k = Some t2 /\ classify t1 t2 = Ok 1%Z) /\
  (exists new, olist2 tmp = olist2 acc ++ new /\
    (forall t, In t new -> exists k t2 q, nth_error o2 k = Some t2 /\ yields i (j + k) t1 t2 q /\ In t q) /\
    (forall k t2 q, nth_error o2 k = Some t2 -> (forall k' t', (k' < k)%nat -> nth_error o2 k' = Some t' -> classify t1 t' <> Ok 1%Z) ->
       yields i (j + k) t1 t2 q -> incl q new /\ tmp <> None)) /\
  (tmp = None -> acc = None) /\ (acc <> None -> tmp <> None) /\
  (tmp <> None -> acc <> None \/ exists k t2 q, nth_error o2 k = Some t2 /\ yields i (j + k) t1 t2 q).
Proof.
  revert j acc b tmp. induction o2 as [|t2 o2 IH]; intros j acc b tmp H; cbn [inner_loop] in H.
  - injection H as <- <-. split; [|split; [|split; [|split]]].
    + split; [discriminate|]. intros (k & t & Hk & _). destruct k; discriminate.
    + exists []. split; [rewrite app_nil_r; reflexivity|]. split; [intros t []|]. intros k t q Hk. destruct k; discriminate.
    + auto. + auto. + auto.
  - apply bind_Ok_inv in H as (f & Ef & H).
    destruct (Z.eqb_spec f 1) as [->|N1].
    { injection H as <- <-. split; [|split; [|split; [|split]]]; auto.
      - split; [|reflexivity]. intros _. exists 0%nat, t2. split; [reflexivity|exact Ef].
      - exists []. split; [rewrite app_nil_r; reflexivity|]. split; [intros t []|]. intros k t q Hk Hn Y.
        destruct k; [|exfalso; apply (Hn 0%nat t2); [lia|reflexivity|exact Ef]].
        cbn in Hk. injection Hk as <-. exfalso. destruct Y as [[Y _]|[Y _]]; congruence. }
    (* common continuation *)
    assert (Main : forall acc' new0, inner_loop classify inter i (S j) t1 o2 acc' = Ok (b, tmp) ->
      olist2 acc' = olist2 acc ++ new0 ->
      (acc <> None -> acc' <> None) -> (acc' <> None -> acc <> None \/ exists q, yields i j t1 t2 q) ->
      (forall t, In t new0 -> exists q, yields i j t1 t2 q /\ In t q) ->
      (forall q, yields i j t1 t2 q -> incl q new0 /\ acc' <> None) ->
      (b = true <-> exists k t2', nth_error (t2 :: o2) k = Some t2' /\ classify t1 t2' = Ok 1%Z) /\
      (exists new, olist2 tmp = olist2 acc ++ new /\
        (forall t, In t new -> exists k t2' q, nth_error (t2 :: o2) k = Some t2' /\ yields i (j + k) t1 t2' q /\ In t q) /\
        (forall k t2' q, nth_error (t2 :: o2) k = Some t2' -> (forall k' t', (k' < k)%nat -> nth_error (t2 :: o2) k' = Some t' -> classify t1 t' <> Ok 1%Z) ->
           yields i (j + k) t1 t2' q -> incl q new /\ tmp <> None)) /\
      (tmp = None -> acc = None) /\ (acc <> None -> tmp <> None) /\
      (tmp <> None -> acc <> None \/ exists k t2' q, nth_error (t2 :: o2) k = Some t2' /\ yields i (j + k) t1 t2' q)).
    { intros acc' new0 HI EA HA HA' Hin Hall.
      destruct (IH _ _ _ _ HI) as (B & (new & En & Nin & Nall) & C1 & C2 & C3).
      split; [|split; [|split; [|split]]].
      - rewrite B. split.
        + intros (k & t & Hk & Hc). exists (S k), t. auto.
        + intros (k & t & Hk & Hc). destruct k; [cbn in Hk; injection Hk as <-; congruence|eauto].
      - exists (new0 ++ new). split; [rewrite En, EA, app_assoc; reflexivity|]. split.
        + intros t Ht. apply in_app_iff in Ht as [Ht|Ht].
          * destruct (Hin t Ht) as (q & Y & Hq). exists 0%nat, t2, q. rewrite Nat.add_0_r. auto.
          * destruct (Nin t Ht) as (k & t2' & q & Hk & Y & Hq). exists (S k), t2', q. rewrite Nat.add_succ_r. auto.
        + intros k t2' q Hk Hn Y. destruct k.
          * cbn in Hk. injection Hk as <-. rewrite Nat.add_0_r in Y. destruct (Hall q Y) as [I A]. split; [intros x Hx; apply in_app_iff; left; apply I, Hx|].
            apply C2, A.
          * rewrite Nat.add_succ_r in Y. destruct (Nall k t2' q Hk) as [I T]; [|exact Y|].
            -- intros k' t' Hk' Ht'. apply (Hn (S k') t'); [lia|exact Ht'].
            -- split; [intros x Hx; apply in_app_iff; right; apply I, Hx|exact T].
      - intros E. destruct acc; [|reflexivity]. exfalso. apply HA; [discriminate|]. apply C1, E.
      - intros N. apply C2, HA, N.
      - intros N. destruct (C3 N) as [N'|(k & t & q & Hk & Y)].
        + destruct (HA' N') as [A|(q & Y)]; [auto|]. right. exists 0%nat, t2, q. rewrite Nat.add_0_r. auto.
        + right. exists (S k), t, q. rewrite Nat.add_succ_r. auto. }
    destruct (Z.eqb_spec f 2) as [->|N2].
    { apply (Main (oapp acc [t2]) [t2] H).
      - apply oapp_list.
      - intros _. destruct (oapp_some acc [t2]) as (x & ->). discriminate.
      - intros _. right. exists [t2]. left. auto.
      - intros t Ht. exists [t2]. split; [left; auto|exact Ht].
      - intros q [[_ ->]|[Y _]]; [|congruence]. split; [apply incl_refl|]. destruct (oapp_some acc [t2]) as (x & ->). discriminate. }
    destruct (Z.eqb_spec f 3) as [->|N3].
    { apply bind_Ok_inv in H as (p & Ep & H). destruct p as [q|].
      - apply (Main (oapp acc q) q H).
        + apply oapp_list.
        + intros _. destruct (oapp_some acc q) as (x & ->). discriminate.
        + intros _. right. exists q. right. auto.
        + intros t Ht. exists q. split; [right; auto|exact Ht].
        + intros q' [[Y _]|[_ Y]]; [congruence|]. rewrite Ep in Y. injection Y as <-. split; [apply incl_refl|]. destruct (oapp_some acc q) as (x & ->). discriminate.
      - apply (Main acc [] H); auto.
        + rewrite app_nil_r; reflexivity.
        + intros t [].
        + intros q' [[Y _]|[_ Y]]; congruence. }
    apply (Main acc [] H); auto.
    + rewrite app_nil_r; reflexivity.
    + intros t [].
    + intros q' [[Y _]|[Y _]]; congruence.
Qed.

(** One contribution. *)
Lemma contribution_spec simple i t1 o2 c : contribution rough classify inter simple i t1 o2 = Ok c ->
  (rough t1 = Ok false /\ c = []) \/
  (rough t1 = Ok true /\
   (forall t, In t c -> (exists k t2, nth_error o2 k = Some t2 /\ classify t1 t2 = Ok 1%Z /\ t = t1) \/
      (exists k t2 q, nth_error o2 k = Some t2 /\ yields i k t1 t2 q /\ (In t q \/ (simple = true /\ t = t1)))) /\
   (forall k t2, nth_error o2 k = Some t2 -> classify t1 t2 = Ok 1%Z -> In t1 c) /\
   (simple = false -> forall k t2 q, nth_error o2 k = Some t2 -> (forall k' t', (k' < k)%nat -> nth_error o2 k' = Some t' -> classify t1 t' <> Ok 1%Z) ->
       yields i k t1 t2 q -> incl q c) /\
   ((forall k t2 q, nth_error o2 k = Some t2 -> yields i k t1 t2 q -> q <> []) ->
     (c = [] <-> forall k t2, nth_error o2 k = Some t2 -> classify t1 t2 <> Ok 1%Z /\ forall q, ~ yields i k t1 t2 q))).
Proof.
  unfold contribution. intros H. apply bind_Ok_inv in H as (r & Er & H). destruct r; [|left; injection H as <-; auto]. right. split; [exact Er|].
  apply bind_Ok_inv in H as ([b tmp] & Ei & H). cbn beta iota zeta in H.
  destruct (inner_spec i 0 t1 o2 None b tmp Ei) as (B & (new & En & Nin & Nall) & _ & _ & C3). cbn [olist2 app Nat.add] in *.
  set (first := if b then [t1] else []) in *.
  assert (Hf : forall t, In t first <-> t = t1 /\ b = true).
  { intros t. unfold first. destruct b; cbn; split; [intros [->|[]]; auto|intros [-> _]; auto|intros []|intros [_ D]; discriminate]. }
  assert (Hfirst : forall t, In t first -> exists k t2, nth_error o2 k = Some t2 /\ classify t1 t2 = Ok 1%Z /\ t = t1).
  { intros t Ht. apply Hf in Ht as [-> Eb]. apply B in Eb as (k & t2 & Hk & Hc). eauto. }
  assert (Hcont : forall c', (forall t, In t first -> In t (first ++ c')) /\ forall k t2, nth_error o2 k = Some t2 -> classify t1 t2 = Ok 1%Z -> In t1 (first ++ c')).
  { intros c'. split; [intros t Ht; apply in_app_iff; auto|]. intros k t2 Hk Hc. apply in_app_iff. left. apply Hf. split; [reflexivity|]. apply B; eauto. }
  destruct tmp as [tmp|].
  - cbn [olist2] in En. subst new. 
    assert (Piece : exists k t2 q, nth_error o2 k = Some t2 /\ yields i k t1 t2 q).
    { destruct C3 as [C3|C3]; [discriminate|congruence|exact C3]. }
    assert (Noempty : (forall k t2 q, nth_error o2 k = Some t2 -> yields i k t1 t2 q -> q <> []) ->
       (b = true \/ tmp <> []) ).
    { intros NE. destruct b; [auto|]. right. destruct Piece as (k & t2 & q & Hk & Y). pose proof (NE _ _ _ Hk Y) as Nq.
      destruct q as [|x q]; [congruence|]. destruct (Nall k t2 (x :: q) Hk) as [I _]; [|exact Y|].
      - intros k' t' _ Ht' Hc. assert (false = true) by (apply B; eauto). discriminate.
      - intros ->. apply (I x). left. reflexivity. }
    assert (NotAll : ~ (forall k t2, nth_error o2 k = Some t2 -> classify t1 t2 <> Ok 1%Z /\ forall q, ~ yields i k t1 t2 q)).
    { intros A. destruct Piece as (k & t2 & q & Hk & Y). destruct (A k t2 Hk) as [_ A']. apply (A' q Y). }
    destruct simple.
    + apply bind_Ok_inv in H as (v1 & Ev1 & H). apply bind_Ok_inv in H as (v2 & Ev2 & H). apply bind_Ok_inv in H as (v3 & Ev3 & H). injection H as <-.
      split; [|split; [|split]].
      * intros t Ht. apply in_app_iff in Ht as [Ht|Ht]; [left; auto|]. right. destruct (tau_eqb v1 v3).
        -- destruct Ht as [<-|[]]. destruct Piece as (k & t2 & q & Hk & Y). exists k, t2, q. auto.
        -- destruct (Nin t Ht) as (k & t2 & q & Hk & Y & Hq). exists k, t2, q. auto.
      * apply Hcont.
      * discriminate.
      * intros NE. split; [|intros A; contradiction]. intros E. exfalso. apply app_eq_nil in E as [E1 E2].
        destruct (Noempty NE) as [->|N]; [discriminate|]. destruct (tau_eqb v1 v3); [discriminate|contradiction].
    + injection H as <-. split; [|split; [|split]].
      * intros t Ht. apply in_app_iff in Ht as [Ht|Ht]; [left; auto|]. right.
        destruct (Nin t Ht) as (k & t2 & q & Hk & Y & Hq). exists k, t2, q. auto.
      * apply Hcont.
      * intros _ k t2 q Hk Hn Y x Hx. apply in_app_iff. right. destruct (Nall k t2 q Hk Hn Y) as [I _]. apply I, Hx.
      * intros NE. split; [|intros A; contradiction]. intros E. exfalso. apply app_eq_nil in E as [E1 E2].
        destruct (Noempty NE) as [->|N]; [discriminate|contradiction].
  - injection H as <-. cbn [olist2] in En. subst new. split; [|split; [|split]].
    + intros t Ht. left. auto.
    + intros k t2 Hk Hc. apply Hf. split; [reflexivity|]. apply B; eauto.
    + intros _ k t2 q Hk Hn Y. destruct (Nall k t2 q Hk Hn Y) as [_ N]. congruence.
    + intros NE. split.
      * intros E k t2 Hk. assert (Nb : b = false) by (destruct b; [discriminate|reflexivity]).
        assert (NoC : forall k t2, nth_error o2 k = Some t2 -> classify t1 t2 <> Ok 1%Z).
        { intros k' t' Hk' Hc. rewrite Nb in B. assert (false = true) by (apply B; eauto). discriminate. }
        split; [eapply NoC; exact Hk|]. intros q Y. destruct (Nall k t2 q Hk) as [_ N]; [|exact Y|congruence].
        intros k' t' _ Ht'. eapply NoC; exact Ht'.
      * intros A. unfold first. destruct b; [|reflexivity]. exfalso. destruct (proj1 B eq_refl) as (k & t2 & Hk & Hc). apply (A k t2 Hk), Hc.
Qed.

Lemma outer_spec simple i o1 o2 c : outer_loop rough classify inter simple i o1 o2 = Ok c ->
  exists cs, c = concat cs /\ length cs = length o1 /\
    forall k t1 x, nth_error o1 k = Some t1 -> nth_error cs k = Some x -> contribution rough classify inter simple (i + k) t1 o2 = Ok x.
Proof.
  revert i c. induction o1 as [|t1 o1 IH]; intros i c H; cbn [outer_loop] in H.
  - injection H as <-. exists []. split; [reflexivity|]. split; [reflexivity|]. intros k t x Hk. destruct k; discriminate.
  - apply bind_Ok_inv in H as (x & Ex & H). apply bind_Ok_inv in H as (r & Er & H). injection H as <-.
    destruct (IH _ _ Er) as (cs & -> & L & F). exists (x :: cs). split; [reflexivity|]. split; [cbn; lia|].
    intros k t y Hk Hy. destruct k; cbn in Hk, Hy.
    + injection Hk as <-. injection Hy as <-. rewrite Nat.add_0_r. exact Ex.
    + rewrite Nat.add_succ_r. apply (F k); assumption.
Qed.

Lemma concat_In {A} (cs : list (list A)) t : In t (concat cs) <-> exists k x, nth_error cs k = Some x /\ In t x.
Proof.
  rewrite in_concat. split.
  - intros (x & Hx & Ht). apply In_nth_error in Hx as (k & Hk). eauto.
  - intros (k & x & Hk & Ht). apply nth_error_In in Hk. eauto.
Qed.
Lemma concat_nil {A} (cs : list (list A)) : concat cs = [] <-> forall k x, nth_error cs k = Some x -> x = [].
Proof.
  split.
  - intros E k x Hk. destruct x as [|y x]; [reflexivity|]. assert (In y (concat cs)) by (apply concat_In; exists k, (y :: x); cbn; auto). rewrite E in H. destruct H.
  - intros H. destruct (concat cs) as [|y l] eqn:E; [reflexivity|]. assert (Hy : In y (concat cs)) by (rewrite E; left; reflexivity).
    apply concat_In in Hy as (k & x & Hk & Hx). rewrite (H k x Hk) in Hx. destruct Hx.
Qed.
Lemma nth_same_length {A B} (l : list A) (l' : list B) k x : length l = length l' -> nth_error l k = Some x -> exists y, nth_error l' k = Some y.
Proof.
  intros L H. destruct (nth_error l' k) eqn:E; [eauto|]. apply nth_error_None in E. assert (nth_error l k = None) by (apply nth_error_None; lia). congruence.
Qed.

(** Volumes of the two kinds. *)
Hypothesis inter_tets : forall i j t1 t2 q, tets [t1] -> tets [t2] -> inter i j t1 t2 = Ok (Some q) -> tets q.
Lemma inner_tets i j t1 o2 acc b tmp : tets [t1] -> tets o2 -> tets (olist2 acc) ->
  inner_loop classify inter i j t1 o2 acc = Ok (b, tmp) -> tets (olist2 tmp).
Proof.
  intros T1. revert j acc. induction o2 as [|t2 o2 IH]; intros j acc T2 TA H; cbn [inner_loop] in H.
  - injection H as <- <-. exact TA.
  - assert (Tt : tets [t2]) by (constructor; [exact (Forall_inv T2)|constructor]). apply Forall_inv_tail in T2.
    apply bind_Ok_inv in H as (f & Ef & H). destruct (Z.eqb f 1); [injection H as <- <-; exact TA|].
    destruct (Z.eqb f 2); [apply (IH _ _ T2) in H; [exact H|rewrite oapp_list; apply Forall_app; auto]|].
    destruct (Z.eqb f 3).
    + apply bind_Ok_inv in H as (p & Ep & H). destruct p as [q|]; apply (IH _ _ T2) in H; auto.
      rewrite oapp_list. apply Forall_app. split; [exact TA|]. exact (inter_tets _ _ _ _ _ T1 Tt Ep).
    + apply (IH _ _ T2) in H; auto.
Qed.

Lemma contribution_simple i t1 o2 c : tets [t1] -> tets o2 -> contribution rough classify inter false i t1 o2 = Ok c ->
  exists c', contribution rough classify inter true i t1 o2 = Ok c' /\ tets c /\ tets c' /\ 
    Rsum (map pvol c') = Rsum (map pvol c).
Proof.
  intros T1 T2 H. unfold contribution in *. apply bind_Ok_inv in H as (r & -> & H). cbn [bind]. destruct r; [|injection H as <-; exists []; repeat split; try constructor].
  apply bind_Ok_inv in H as ([b tmp] & Ei & H). rewrite Ei. cbn [bind] in *. cbn beta iota zeta in *.
  assert (TT : tets (olist2 tmp)) by (apply (inner_tets i 0 t1 o2 None b tmp T1 T2); [constructor|exact Ei]).
  set (first := if b then [t1] else []) in *. assert (TF : tets first) by (unfold first; destruct b; [exact T1|constructor]).
  destruct tmp as [tmp|]; [|injection H as <-; eauto]. cbn [olist2] in TT. injection H as <-.
  pose proof (Forall_inv T1) as [L1 G1].
  destruct (wp_elim _ _ (tetvol6_spec t1 L1 G1)) as (v1 & -> & C1 & V1). cbn [bind].
  destruct (wp_elim _ _ (obj_volume_spec tmp TT)) as (o & -> & v2 & -> & Hv2). cbn [bind notNone].
  eexists. split; [reflexivity|]. split; [apply Forall_app; auto|].
  destruct (tau_eqb v1 v2) eqn:E; [|split; [apply Forall_app; auto|reflexivity]].
  apply tau_eqb_eq in E. subst v2. split; [apply Forall_app; auto|].
  rewrite !map_app, !Rsum_app. f_equal. cbn [map Rsum]. destruct Hv2 as [_ Hv2]. rewrite <- Hv2, V1. apply Rplus_0_r.
Qed.
Lemma outer_simple i o1 o2 c : tets o1 -> tets o2 -> outer_loop rough classify inter false i o1 o2 = Ok c ->
  exists c', outer_loop rough classify inter true i o1 o2 = Ok c' /\ tets c /\ tets c' /\ Rsum (map pvol c') = Rsum (map pvol c).
Proof.
  intros T1 T2. revert i c. induction T1 as [|t1 o1 Ht T1 IH]; intros i c H; cbn [outer_loop] in *.
  - injection H as <-. exists []. repeat split; constructor.
  - apply bind_Ok_inv in H as (x & Ex & H). apply bind_Ok_inv in H as (r & Er & H). injection H as <-.
    destruct (contribution_simple i t1 o2 x) as (x' & -> & Tx & Tx' & Vx); [constructor; [exact Ht|constructor]|exact T2|exact Ex|].
    destruct (IH _ _ Er) as (r' & -> & Tr & Tr' & Vr). cbn [bind]. exists (x' ++ r'). split; [reflexivity|].
    split; [apply Forall_app; auto|]. split; [apply Forall_app; auto|]. rewrite !map_app, !Rsum_app. congruence.
Qed.
End Loops.
