(** Reasoning about the result monad. *)
From Coq Require Import List.
From Verif Require Import Base.Res.
Import ListNotations.

Lemma wp_Ok {A} (a : A) (Q : A -> Prop) : Q a -> wp (Ok a) Q.
Proof. exact (fun H => H). Qed.

Lemma wp_bind {A B} (m : res A) (k : A -> res B) Q :
  wp m (fun a => wp (k a) Q) -> wp (bind m k) Q.
Proof. destruct m; simpl; auto. Qed.

Lemma wp_mono {A} (m : res A) (P Q : A -> Prop) :
  wp m P -> (forall a, P a -> Q a) -> wp m Q.
Proof. destruct m; simpl; auto. Qed.

Lemma wp_conj {A} (m : res A) (P Q : A -> Prop) :
  wp m P -> wp m Q -> wp m (fun a => P a /\ Q a).
Proof. destruct m; simpl; auto. Qed.

Lemma wp_elim {A} (m : res A) Q : wp m Q -> exists a, m = Ok a /\ Q a.
Proof. destruct m as [a|e]; simpl; [eauto|tauto]. Qed.

Lemma wp_intro {A} (m : res A) (Q : A -> Prop) a : m = Ok a -> Q a -> wp m Q.
Proof. intros ->; exact (fun H => H). Qed.

Lemma bind_assoc {A B C} (m : res A) (f : A -> res B) (g : B -> res C) :
  bind (bind m f) g = bind m (fun a => bind (f a) g).
Proof. destruct m; reflexivity. Qed.

Lemma bind_Ok_inv {A B} (m : res A) (k : A -> res B) b :
  bind m k = Ok b -> exists a, m = Ok a /\ k a = Ok b.
Proof. destruct m; simpl; [eauto|discriminate]. Qed.

Lemma bind_ext {A B} (m : res A) (f g : A -> res B) :
  (forall a, f a = g a) -> bind m f = bind m g.
Proof. intros H; destruct m; simpl; auto. Qed.

Lemma wp_get {A} (l : list A) i (Q : A -> Prop) :
  (exists a, nth_error l i = Some a /\ Q a) -> wp (get l i) Q.
Proof. unfold get; intros (a & -> & H); exact H. Qed.

Lemma wp_mapM {A B} (f : A -> res B) (P : A -> Prop) (R : A -> B -> Prop) l :
  Forall P l -> (forall a, P a -> wp (f a) (R a)) ->
  wp (mapM f l) (fun l' => Forall2 R l l').
Proof.
  intros HP Hf; induction HP as [|x xs Hx _ IH]; cbn [mapM].
  - constructor.
  - apply wp_bind. eapply wp_mono; [apply Hf; exact Hx|]. intros y Hy.
    apply wp_bind. eapply wp_mono; [exact IH|]. intros ys Hys.
    constructor; assumption.
Qed.

Lemma mapM_length {A B} (f : A -> res B) l l' :
  mapM f l = Ok l' -> length l' = length l.
Proof.
  revert l'; induction l as [|x xs IH]; cbn [mapM]; intros l' H.
  - injection H as <-; reflexivity.
  - apply bind_Ok_inv in H as (y & _ & H). apply bind_Ok_inv in H as (ys & Hys & H).
    injection H as <-. cbn; f_equal; auto.
Qed.

Lemma mapM_ext {A B} (f g : A -> res B) l :
  (forall a, In a l -> f a = g a) -> mapM f l = mapM g l.
Proof.
  induction l as [|x xs IH]; cbn [mapM]; intros H; [reflexivity|].
  rewrite (H x) by (left; reflexivity).
  rewrite IH by (intros; apply H; right; assumption). reflexivity.
Qed.

Lemma mapM_app {A B} (f : A -> res B) l1 l2 :
  mapM f (l1 ++ l2) = bind (mapM f l1) (fun a => bind (mapM f l2) (fun b => Ok (a ++ b))).
Proof.
  induction l1 as [|x xs IH]; cbn [mapM app bind].
  - destruct (mapM f l2); reflexivity.
  - rewrite IH. destruct (f x); cbn [bind]; [|reflexivity].
    destruct (mapM f xs); cbn [bind]; [|reflexivity].
    destruct (mapM f l2); reflexivity.
Qed.

Lemma mapM_Forall2 {A B} (f : A -> res B) l l' :
  mapM f l = Ok l' <-> Forall2 (fun a b => f a = Ok b) l l'.
Proof.
  split.
  - revert l'; induction l as [|x xs IH]; cbn [mapM]; intros l' H.
    + injection H as <-; constructor.
    + apply bind_Ok_inv in H as (y & Hy & H). apply bind_Ok_inv in H as (ys & Hys & H).
      injection H as <-. constructor; auto.
  - induction 1 as [|x y xs ys Hxy _ IH]; cbn [mapM]; [reflexivity|].
    rewrite Hxy; cbn [bind]; rewrite IH; reflexivity.
Qed.

Lemma foldM_app {A S} (f : S -> A -> res S) s l1 l2 :
  foldM f s (l1 ++ l2) = bind (foldM f s l1) (fun s' => foldM f s' l2).
Proof.
  revert s; induction l1 as [|x xs IH]; intros s; cbn [foldM app bind]; [reflexivity|].
  destruct (f s x); cbn [bind]; auto.
Qed.

Lemma Forall2_len {A B} (R : A -> B -> Prop) l l' : Forall2 R l l' -> length l = length l'.
Proof. induction 1; cbn; congruence. Qed.

Lemma Forall2_impl {A B} (R S : A -> B -> Prop) l l' :
  (forall a b, R a b -> S a b) -> Forall2 R l l' -> Forall2 S l l'.
Proof. intros H; induction 1; constructor; auto. Qed.
