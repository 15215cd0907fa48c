(** Integer matrices acting on real vectors. *)
From Coq Require Import Reals List ZArith Lia Lra Bool.
From Verif Require Import Base.Res Model.Tau Model.Vectors Model.IcoMath1 Spec.Value Spec.RVec Spec.Shape
  Proofs.RVecLemmas Proofs.VectorLemmas.
Import ListNotations.
Local Open Scope R_scope.

Lemma map_nth_seq {A} (d : A) (l : list A) : map (fun j => nth j l d) (seq 0 (length l)) = l.
Proof.
  induction l as [|x xs IH]; [reflexivity|].
  cbn [length seq map nth]. f_equal. rewrite <- seq_shift, map_map. exact IH.
Qed.

Lemma dot_map_plus (f g : nat -> R) l v : 
  dot (map (fun j => f j + g j) l) v = dot (map f l) v + dot (map g l) v.
Proof.
  revert v; induction l as [|x xs IH]; intros [|y ys]; cbn [map]; rewrite ?dot_nil_l, ?dot_nil_r; try lra.
  rewrite !dot_cons, IH; ring.
Qed.

Lemma dot_map_scale (k : R) (f : nat -> R) l v : 
  dot (map (fun j => k * f j) l) v = k * dot (map f l) v.
Proof.
  revert v; induction l as [|x xs IH]; intros [|y ys]; cbn [map]; rewrite ?dot_nil_l, ?dot_nil_r; try lra.
  rewrite !dot_cons, IH; ring.
Qed.

Lemma dot_map_zero l v : dot (map (fun _ : nat => 0) l) v = 0.
Proof.
  revert v; induction l as [|x xs IH]; intros [|y ys]; cbn [map]; rewrite ?dot_nil_l, ?dot_nil_r; try lra.
  rewrite !dot_cons, IH; ring.
Qed.

Lemma dotrow_matvec (r : list Z) (b : list (list Z)) n v :
  rect b n -> length r = length b ->
  dot (map IZR (map (dotrow r b) (seq 0 n))) v = dot (map IZR r) (matvec (IZRm b) v).
Proof.
  intros Hb; revert r; induction Hb as [|row b' Hrow Hb' IH]; intros r Hr.
  - destruct r; [|discriminate]. rewrite map_map. unfold dotrow; cbn [combine map fold_right].
    rewrite dot_map_zero. reflexivity.
  - destruct r as [|x r']; [discriminate|]. cbn [length] in Hr.
    rewrite map_map.
    rewrite (map_ext _ (fun j => IZR x * IZR (nth j row 0%Z) + IZR (dotrow r' b' j))).
    2:{ intros j. unfold dotrow; cbn [combine map fold_right]. rewrite plus_IZR, mult_IZR. reflexivity. }
    rewrite dot_map_plus, dot_map_scale.
    cbn [map IZRm matvec]. rewrite dot_cons.
    rewrite <- (map_map (dotrow r' b') IZR), IH by lia.
    f_equal. f_equal. rewrite <- (map_map (fun j => nth j row 0%Z) IZR).
    rewrite <- Hrow, map_nth_seq. reflexivity.
Qed.

Lemma matvec_matmul (a b : list (list Z)) n v :
  rect a (length b) -> rect b n -> b <> [] ->
  matvec (IZRm (matmul a b)) v = matvec (IZRm a) (matvec (IZRm b) v).
Proof.
  intros Ha Hb Hne. unfold matmul. rewrite (rect_ncols b n Hb Hne).
  induction Ha as [|r a' Hr _ IH]; [reflexivity|].
  cbn [map IZRm matvec]. f_equal; [|exact IH].
  apply dotrow_matvec; assumption.
Qed.

Lemma dot_unit v i n : length v = n -> (i < n)%nat ->
  dot (map (fun j => if Nat.eqb i j then 1 else 0) (seq 0 n)) v = nth i v 0.
Proof.
  intros <-. 
  enough (forall k, dot (map (fun j => if Nat.eqb (k+i) j then 1 else 0) (seq k (length v))) v = nth i v 0)
    by (intros _; apply (H 0%nat)).
  revert i; induction v as [|x xs IH]; intros i k; cbn [length seq map].
  - destruct i; reflexivity.
  - rewrite dot_cons. destruct i as [|i].
    + replace (k+0)%nat with k by lia. rewrite Nat.eqb_refl. cbn [nth].
      enough (dot (map (fun j => if Nat.eqb k j then 1 else 0) (seq (S k) (length xs))) xs = 0) as -> by ring.
      rewrite (map_ext_in _ (fun _ => 0)); [apply dot_map_zero|].
      intros j Hj. apply in_seq in Hj. destruct (Nat.eqb_spec k j); [lia|reflexivity].
    + destruct (Nat.eqb_spec (k + S i) k); [lia|].
      cbn [nth]. rewrite <- (IH i (S k)).
      rewrite (map_ext _ (fun j => if Nat.eqb (S k + i) j then 1 else 0)); [ring|].
      intros j. replace (k + S i)%nat with (S k + i)%nat by lia. reflexivity.
Qed.

Lemma matvec_identity n v : length v = n -> matvec (IZRm (identity n)) v = v.
Proof.
  intros Hn. unfold identity, IZRm, matvec. rewrite !map_map.
  rewrite (map_ext_in _ (fun i => nth i v 0)).
  - rewrite <- Hn; apply map_nth_seq.
  - intros i Hi. apply in_seq in Hi. rewrite map_map.
    rewrite (map_ext _ (fun j => if Nat.eqb i j then 1 else 0)).
    + apply dot_unit; [exact Hn|lia].
    + intros j. destruct (Nat.eqb i j); reflexivity.
Qed.
