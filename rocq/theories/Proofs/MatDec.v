(** Decidable facts about lists of integer matrices, by computation. *)
From Coq Require Import List ZArith Lia Bool Permutation.
From Verif Require Import Base.Res Model.Tau Model.Vectors Model.IcoMath1 Spec.RVec Spec.Shape.
Import ListNotations.

Fixpoint leqb {A} (eqb : A -> A -> bool) (a b : list A) : bool :=
  match a, b with
  | [], [] => true
  | x :: xs, y :: ys => eqb x y && leqb eqb xs ys
  | _, _ => false
  end.

Lemma leqb_eq {A} (eqb : A -> A -> bool) (H : forall a b, eqb a b = true <-> a = b) a b :
  leqb eqb a b = true <-> a = b.
Proof.
  revert b; induction a as [|x xs IH]; intros [|y ys]; cbn; split; try discriminate; auto.
  - intros E. apply andb_prop in E as [E1 E2]. f_equal; [apply H, E1|apply IH, E2].
  - intros [= <- <-]. apply andb_true_intro. split; [apply H|apply IH]; reflexivity.
Qed.

Definition mat_eqb : list (list Z) -> list (list Z) -> bool := leqb (leqb Z.eqb).

Lemma mat_eqb_eq a b : mat_eqb a b = true <-> a = b.
Proof. apply leqb_eq. intros; apply leqb_eq. intros; apply Z.eqb_eq. Qed.

Definition mem (m : list (list Z)) (l : list (list (list Z))) : bool := existsb (mat_eqb m) l.

Lemma mem_In m l : mem m l = true <-> In m l.
Proof.
  unfold mem. rewrite existsb_exists. split.
  - intros (x & Hx & E). apply mat_eqb_eq in E; subst; assumption.
  - intros H. exists m. split; [assumption|apply mat_eqb_eq; reflexivity].
Qed.

Fixpoint nodupb (l : list (list (list Z))) : bool :=
  match l with
  | [] => true
  | x :: xs => negb (mem x xs) && nodupb xs
  end.

Lemma nodupb_NoDup l : nodupb l = true -> NoDup l.
Proof.
  induction l as [|x xs IH]; cbn; intros H; constructor; apply andb_prop in H as [H1 H2].
  - intros Hin. apply mem_In in Hin. rewrite Hin in H1; discriminate.
  - apply IH, H2.
Qed.

Definition squareb (n : nat) (m : list (list Z)) : bool :=
  Nat.eqb (length m) n && forallb (fun r => Nat.eqb (length r) n) m.

Lemma squareb_square n m : squareb n m = true -> square n m.
Proof.
  unfold squareb. intros H; apply andb_prop in H as [H1 H2].
  split; [apply Nat.eqb_eq, H1|].
  apply Forall_forall. intros r Hr. rewrite forallb_forall in H2. apply Nat.eqb_eq, H2, Hr.
Qed.

(** Injective maps of a duplicate-free list into itself are permutations. *)
Lemma closed_perm {A} (f : A -> A) l :
  NoDup l -> (forall x, In x l -> In (f x) l) ->
  (forall x y, In x l -> In y l -> f x = f y -> x = y) ->
  Permutation l (map f l).
Proof.
  intros Hd Hc Hi. symmetry. apply NoDup_Permutation_bis.
  - revert Hd Hi. clear Hc. induction l as [|x xs IH]; cbn; intros Hd Hi; constructor; inversion Hd; subst.
    + intros Hin. apply in_map_iff in Hin as (y & E & Hy).
      assert (y = x) as -> by (apply Hi; auto). contradiction.
    + apply IH; auto.
  - rewrite map_length; lia.
  - intros y Hy. apply in_map_iff in Hy as (x & <- & Hx). auto.
Qed.
