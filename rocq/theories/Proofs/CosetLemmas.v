(** remove_overlaps, find_overlaps and the coset decomposition. *)
From Coq Require Import Reals List ZArith Lia Bool Arith Permutation Sorting.Sorted.
From Verif Require Import Base.Res Model.Tau Model.Arr Model.Unique Model.IcoMath1 Model.DodeSymmetry
  Spec.Value Spec.RVec Spec.Sets Spec.Cosets Proofs.ResLemmas Proofs.UniqueLemmas Proofs.MatDec Proofs.GroupLemmas Proofs.DodeGroup.
Import ListNotations.

Lemma lawful_nat : lawful Nat.compare.
Proof.
  constructor.
  - intros x y. apply Nat.compare_eq_iff.
  - intros x y. apply Nat.compare_antisym.
  - intros x y z. rewrite !Nat.compare_lt_iff. lia.
Qed.

Lemma overlaps_sorted l : StronglySorted lt (remove_overlaps l).
Proof.
  pose proof (unique_sorted Nat.compare lawful_nat l) as H. unfold remove_overlaps.
  induction H as [|x m Hm IH Hx]; constructor; [exact IH|]. rewrite Forall_forall in *.
  intros y Hy. apply Nat.compare_lt_iff. apply Hx. exact Hy.
Qed.
Lemma overlaps_In l x : In x (remove_overlaps l) <-> In x l.
Proof. apply (unique_In Nat.compare lawful_nat). Qed.
Lemma overlaps_NoDup l : NoDup (remove_overlaps l).
Proof. apply (unique_NoDup Nat.compare lawful_nat). Qed.
Lemma overlaps_id l : StronglySorted lt l -> remove_overlaps l = l.
Proof.
  intros H. apply (unique_id Nat.compare lawful_nat). induction H as [|x m Hm IH Hx]; constructor; [exact IH|].
  rewrite Forall_forall in *. intros y Hy. apply Nat.compare_lt_iff. apply Hx. exact Hy.
Qed.

Lemma find_overlaps_false l1 l2 : find_overlaps l1 l2 = false <-> NoDup (l1 ++ l2).
Proof.
  unfold find_overlaps. rewrite <- app_length. destruct (Nat.eqb_spec (length (l1 ++ l2)) (length (remove_overlaps (l1 ++ l2)))) as [E|E].
  - split; [intros _|reflexivity].
    apply (NoDup_incl_NoDup (l:=remove_overlaps (l1 ++ l2))); [apply overlaps_NoDup|lia|].
    intros x Hx. apply (overlaps_In _ x). exact Hx.
  - split; [discriminate|]. intros N. exfalso. apply E. apply Nat.le_antisymm.
    + apply NoDup_incl_length; [exact N|]. intros x Hx. apply overlaps_In. exact Hx.
    + apply NoDup_incl_length; [apply overlaps_NoDup|]. intros x Hx. apply (overlaps_In _ x). exact Hx.
Qed.

Lemma NoDup_app_iff {A} (l1 l2 : list A) : NoDup (l1 ++ l2) <-> NoDup l1 /\ NoDup l2 /\ forall x, In x l1 -> ~ In x l2.
Proof.
  induction l1 as [|a l1 IH]; cbn [app].
  - split; [intros H; repeat split; [constructor|exact H|intros x []]|tauto].
  - rewrite !NoDup_cons_iff, IH, in_app_iff. cbn [In]. split.
    + intros (Ha & N1 & N2 & D). repeat split; try tauto. intros x [<-|Hx]; [tauto|apply D; exact Hx].
    + intros ((Ha & N1) & N2 & D). repeat split; try tauto.
      * intros [H|H]; [tauto|]. apply (D a); auto.
      * intros x Hx. apply D. auto.
Qed.

Lemma find_overlaps_true l1 l2 : NoDup l1 -> NoDup l2 ->
  (find_overlaps l1 l2 = true <-> exists x, In x l1 /\ In x l2).
Proof.
  intros N1 N2. rewrite <- not_false_iff_true, find_overlaps_false, NoDup_app_iff. split.
  - intros H. destruct (Exists_dec (fun x => In x l2) l1 (fun x => in_dec Nat.eq_dec x l2)) as [E|E].
    + apply Exists_exists in E. exact E.
    + exfalso. apply H. split; [exact N1|]. split; [exact N2|]. intros x Hx Hx2. apply E. apply Exists_exists. eauto.
  - intros (x & H1 & H2) (_ & _ & D). exact (D x H1 H2).
Qed.

(** ** The multiplication table of the 24 operations *)
Definition opn (i : nat) : list (list Z) := nth i dodesymop [].
Definition table : list (list nat) :=
  Eval vm_compute in
  map (fun a => map (fun b => match find_op (matmul a b) 0 dodesymop with Some k => k | None => 24%nat end) dodesymop) dodesymop.
Definition mu (i j : nat) : nat := nth j (nth i table []) 24%nat.
Definition all24 (P : nat -> bool) : bool := forallb P (seq 0 24).
Lemma all24_spec P : all24 P = true -> forall i, (i < 24)%nat -> P i = true.
Proof. unfold all24. rewrite forallb_forall. intros H i Hi. apply H. apply in_seq. lia. Qed.

Lemma mu_find i j : (i < 24)%nat -> (j < 24)%nat -> find_op (matmul (opn i) (opn j)) 0 dodesymop = Some (mu i j).
Proof.
  assert (H : all24 (fun i => all24 (fun j => match find_op (matmul (opn i) (opn j)) 0 dodesymop with Some k => k =? mu i j | None => false end)) = true) by (vm_compute; reflexivity).
  intros Hi Hj. pose proof (all24_spec _ (all24_spec _ H i Hi) j Hj) as E. cbn beta in E.
  destruct (find_op _ 0 dodesymop) as [k|]; [|discriminate]. apply Nat.eqb_eq in E. congruence.
Qed.
Lemma mu_lt i j : (i < 24)%nat -> (j < 24)%nat -> (mu i j < 24)%nat.
Proof.
  assert (H : all24 (fun i => all24 (fun j => mu i j <? 24)) = true) by (vm_compute; reflexivity).
  intros Hi Hj. apply Nat.ltb_lt. exact (all24_spec _ (all24_spec _ H i Hi) j Hj).
Qed.
Lemma mu_assoc i j k : (i < 24)%nat -> (j < 24)%nat -> (k < 24)%nat -> mu i (mu j k) = mu (mu i j) k.
Proof.
  assert (H : all24 (fun i => all24 (fun j => all24 (fun k => mu i (mu j k) =? mu (mu i j) k))) = true) by (vm_compute; reflexivity).
  intros Hi Hj Hk. apply Nat.eqb_eq. exact (all24_spec _ (all24_spec _ (all24_spec _ H i Hi) j Hj) k Hk).
Qed.
Lemma mu_0_l i : (i < 24)%nat -> mu 0 i = i.
Proof.
  assert (H : all24 (fun i => mu 0 i =? i) = true) by (vm_compute; reflexivity).
  intros Hi. apply Nat.eqb_eq. exact (all24_spec _ H i Hi).
Qed.
Lemma mu_0_r i : (i < 24)%nat -> mu i 0 = i.
Proof.
  assert (H : all24 (fun i => mu i 0 =? i) = true) by (vm_compute; reflexivity).
  intros Hi. apply Nat.eqb_eq. exact (all24_spec _ H i Hi).
Qed.
Definition inv24 (i : nat) : nat := match find (fun j => mu i j =? 0) (seq 0 24) with Some j => j | None => 24%nat end.
Lemma inv24_spec i : (i < 24)%nat -> (inv24 i < 24)%nat /\ mu i (inv24 i) = 0%nat /\ mu (inv24 i) i = 0%nat.
Proof.
  assert (H : all24 (fun i => (inv24 i <? 24) && ((mu i (inv24 i) =? 0) && (mu (inv24 i) i =? 0))) = true) by (vm_compute; reflexivity).
  intros Hi. pose proof (all24_spec _ H i Hi) as E. cbn beta in E. rewrite !andb_true_iff, Nat.ltb_lt, !Nat.eqb_eq in E. tauto.
Qed.
Lemma mu_cancel i j k : (i < 24)%nat -> (j < 24)%nat -> (k < 24)%nat -> mu i j = mu i k -> j = k.
Proof.
  intros Hi Hj Hk E. destruct (inv24_spec i Hi) as (Li & _ & Ei).
  rewrite <- (mu_0_l j Hj), <- (mu_0_l k Hk), <- Ei, <- !mu_assoc by assumption. rewrite E. reflexivity.
Qed.
Local Opaque dodesymop.

Lemma opn_nth i a : nth_error dodesymop i = Some a -> (i < 24)%nat /\ a = opn i.
Proof.
  intros H. assert (L : (i < length dodesymop)%nat) by (apply nth_error_Some; congruence).
  rewrite dodesymop_length in L. split; [exact L|]. unfold opn. symmetry. apply nth_error_nth. exact H.
Qed.
Lemma nth_opn i : (i < 24)%nat -> nth_error dodesymop i = Some (opn i).
Proof. intros H. apply nth_error_nth'. rewrite dodesymop_length. exact H. Qed.

Lemma zrow_eqb_eq a b : zrow_eqb a b = true <-> a = b.
Proof.
  unfold zrow_eqb. revert b. induction a as [|x a IH]; intros [|y b]; cbn [length combine forallb Nat.eqb andb]; try (split; [discriminate|congruence]); [tauto|].
  specialize (IH b). destruct (Nat.eqb_spec (length a) (length b)) as [E|E]; cbn [andb] in *.
  - rewrite andb_true_iff, Z.eqb_eq, IH. split; [intros [-> ->]; reflexivity|intros H; injection H; auto].
  - split; [discriminate|]. intros H. injection H. intros. subst. exfalso. apply E. reflexivity.
Qed.
Lemma zmat_eqb_eq a b : zmat_eqb a b = true <-> a = b.
Proof.
  unfold zmat_eqb. revert b. induction a as [|x a IH]; intros [|y b]; cbn [length combine forallb Nat.eqb andb]; try (split; [discriminate|congruence]); [tauto|].
  specialize (IH b). destruct (Nat.eqb_spec (length a) (length b)) as [E|E]; cbn [andb] in *.
  - rewrite andb_true_iff, zrow_eqb_eq, IH. split; [intros [-> ->]; reflexivity|intros H; injection H; auto].
  - split; [discriminate|]. intros H. injection H. intros. subst. exfalso. apply E. reflexivity.
Qed.
Lemma find_op_some m ops : forall k i, find_op m k ops = Some i -> (k <= i)%nat /\ nth_error ops (i - k) = Some m.
Proof.
  induction ops as [|op ops IH]; intros k i H; [discriminate|]. cbn [find_op] in H.
  destruct (zmat_eqb m op) eqn:E.
  - injection H as ->. apply zmat_eqb_eq in E. subst. rewrite Nat.sub_diag. auto.
  - destruct (IH _ _ H) as [L N]. split; [lia|]. replace (i - k)%nat with (S (i - S k)) by lia. exact N.
Qed.
Lemma mu_op i j : (i < 24)%nat -> (j < 24)%nat -> opn (mu i j) = matmul (opn i) (opn j).
Proof.
  intros Hi Hj. pose proof (find_op_some _ _ _ _ (mu_find i j Hi Hj)) as [_ H]. rewrite Nat.sub_0_r in H.
  destruct (opn_nth _ _ H) as [_ E]. symmetry. exact E.
Qed.
Lemma opn_inj i j : (i < 24)%nat -> (j < 24)%nat -> opn i = opn j -> i = j.
Proof.
  intros Hi Hj E. pose proof (ig_nodup _ _ dodesymop_group) as N. rewrite NoDup_nth_error in N. apply N.
  - rewrite dodesymop_length. exact Hi.
  - rewrite !nth_opn by assumption. congruence.
Qed.

(** ** Subgroups as sets of positions *)
Record sub24 (H : list nat) : Prop := {
  s_nd : NoDup H;
  s_lt : forall i, In i H -> (i < 24)%nat;
  s_0 : In 0%nat H;
  s_mul : forall i j, In i H -> In j H -> In (mu i j) H;
  s_inv : forall i, In i H -> In (inv24 i) H }.

Lemma opn_0 : opn 0 = identity 6.
Proof. destruct (opn_nth _ _ dodesymop_hd) as [_ E]. symmetry. exact E. Qed.

Lemma subgroup_sub24 H : subgroup dodesymop H -> sub24 H.
Proof.
  intros (N & (e & He & Ee) & M & I).
  assert (L : forall i, In i H -> (i < 24)%nat).
  { intros i Hi. destruct (I i Hi) as (a & b & j & Ha & _). apply (opn_nth _ _ Ha). }
  assert (E0 : e = 0%nat).
  { destruct (opn_nth _ _ Ee) as [Le Ee']. apply opn_inj; [exact Le|lia|]. rewrite opn_0. congruence. }
  subst e. constructor; auto.
  - intros i j Hi Hj. destruct (M i j Hi Hj) as (a & b & k & Ha & Hb & Hk & Ek).
    destruct (opn_nth _ _ Ha) as [Li ->], (opn_nth _ _ Hb) as [Lj ->], (opn_nth _ _ Ek) as [Lk Ek'].
    replace (mu i j) with k; [exact Hk|]. apply opn_inj; [exact Lk|apply mu_lt; assumption|]. rewrite mu_op by assumption. congruence.
  - intros i Hi. destruct (I i Hi) as (a & b & j & Ha & Hj & Hb & E).
    destruct (opn_nth _ _ Ha) as [Li ->], (opn_nth _ _ Hb) as [Lj ->]. replace (inv24 i) with j; [exact Hj|].
    destruct (inv24_spec i Li) as (Lv & Ev & _). apply (mu_cancel i); try assumption. rewrite Ev.
    apply opn_inj; [apply mu_lt; assumption|lia|]. rewrite mu_op, E, opn_0 by assumption. reflexivity.
Qed.

Section Coset.
Variable H : list nat.
Hypothesis SG : sub24 H.

Definition row (i : nat) : list nat := map (mu i) H.
Lemma row_In i x : In x (row i) <-> exists h, In h H /\ x = mu i h.
Proof. unfold row. rewrite in_map_iff. split; intros (h & A & B); exists h; auto. Qed.
Lemma row_self i : (i < 24)%nat -> In i (row i).
Proof. intros Hi. apply row_In. exists 0%nat. split; [apply (s_0 _ SG)|symmetry; apply mu_0_r; exact Hi]. Qed.
Lemma row_lt i x : (i < 24)%nat -> In x (row i) -> (x < 24)%nat.
Proof. intros Hi Hx. apply row_In in Hx as (h & Hh & ->). apply mu_lt; [exact Hi|apply (s_lt _ SG); exact Hh]. Qed.
Lemma row_NoDup i : (i < 24)%nat -> NoDup (row i).
Proof.
  intros Hi. unfold row.
  assert (K : forall l, NoDup l -> (forall j, In j l -> (j < 24)%nat) -> NoDup (map (mu i) l)); [|apply K; [apply (s_nd _ SG)|apply (s_lt _ SG)]].
  intros l N. induction N as [|h l Hh N IH]; intros L; cbn [map]; constructor.
  - intros Hin. apply in_map_iff in Hin as (h' & E & Hh'). apply Hh.
    apply (mu_cancel i) in E; [subst; exact Hh'|exact Hi|apply L; right; exact Hh'|apply L; left; reflexivity].
  - apply IH. intros j Hj. apply L. right. exact Hj.
Qed.
(** Cosets are equal or disjoint. *)
Lemma row_trans i j x : (i < 24)%nat -> (j < 24)%nat -> In x (row i) -> In x (row j) -> forall y, In y (row j) -> In y (row i).
Proof.
  intros Hi Hj Hx Hx' y Hy. apply row_In in Hx as (h & Hh & ->), Hx' as (h' & Hh' & E), Hy as (k & Hk & ->).
  pose proof (s_lt _ SG) as L.
  destruct (inv24_spec h' (L _ Hh')) as (Lv & Ev & _).
  apply row_In. exists (mu h (mu (inv24 h') k)). split.
  - apply (s_mul _ SG); [exact Hh|]. apply (s_mul _ SG); [apply (s_inv _ SG); exact Hh'|exact Hk].
  - rewrite mu_assoc; auto using mu_lt. rewrite E. rewrite <- mu_assoc; auto using mu_lt.
    rewrite (mu_assoc h'), Ev, mu_0_l; auto.
Qed.
Lemma row_H : forall x, In x (row 0) <-> In x H.
Proof.
  intros x. rewrite row_In. split.
  - intros (h & Hh & ->). rewrite mu_0_l; [exact Hh|apply (s_lt _ SG); exact Hh].
  - intros Hx. exists x. rewrite mu_0_l; [auto|apply (s_lt _ SG); exact Hx].
Qed.

Lemma coset_row_spec i l : (i < 24)%nat -> (forall h, In h l -> (h < 24)%nat) -> coset_row (opn i) l = Ok (map (mu i) l).
Proof.
  intros Hi Hl. induction l as [|h l IH]; [reflexivity|]. cbn [coset_row map].
  unfold get. rewrite nth_opn by (apply Hl; left; reflexivity). cbn [bind].
  rewrite IH by (intros h' Hh'; apply Hl; right; exact Hh'). cbn [bind].
  rewrite mu_find; [reflexivity|exact Hi|apply Hl; left; reflexivity].
Qed.
Lemma coset_rows_spec l : (forall i, In i l -> (i < 24)%nat) -> coset_rows H l = Ok (map row l).
Proof.
  intros Hl. unfold coset_rows. induction l as [|i l IH]; [reflexivity|]. cbn [mapM map].
  unfold get at 1. rewrite nth_opn by (apply Hl; left; reflexivity). cbn [bind].
  rewrite coset_row_spec; [|apply Hl; left; reflexivity|apply (s_lt _ SG)]. cbn [bind].
  rewrite IH by (intros j Hj; apply Hl; right; exact Hj). reflexivity.
Qed.

(** greedy, with the accumulated set D = a or d. *)
Fixpoint greedy2 (D l5 : list nat) (rest : list (nat * list nat)) : list nat :=
  match rest with
  | [] => l5
  | (i, b) :: r => if find_overlaps D b then greedy2 D l5 r else greedy2 (D ++ b) (l5 ++ [i]) r
  end.
Lemma greedy_2 a rest : a <> [] -> forall d l5, (d = [] -> greedy a d l5 rest = greedy2 a l5 rest) /\ (d <> [] -> greedy a d l5 rest = greedy2 d l5 rest).
Proof.
  intros Na. induction rest as [|[i b] r IH]; intros d l5; [split; reflexivity|]. split; intros Hd; cbn [greedy greedy2].
  - subst d. cbn [length Nat.eqb]. destruct (find_overlaps a b); [apply (IH [] l5); reflexivity|].
    apply (IH (a ++ b)). destruct a; [contradiction|discriminate].
  - destruct d as [|x d]; [contradiction|]. cbn [length Nat.eqb]. destruct (find_overlaps (x :: d) b); [apply (IH (x :: d)); discriminate|].
    apply (IH ((x :: d) ++ b)). discriminate.
Qed.

(** sel is a set of representatives of the elements of D. *)
Definition inv (sel D : list nat) : Prop :=
  NoDup sel /\ (forall r, In r sel -> (r < 24)%nat) /\ NoDup D /\ length D = (length H * length sel)%nat /\
  (forall x, In x D <-> exists r, In r sel /\ In x (row r)) /\
  (forall r r' x, In r sel -> In r' sel -> In x (row r) -> In x (row r') -> r = r').

Lemma greedy2_spec rest : forall l5 sel D, inv sel D -> (forall i, In i rest -> (i < 24)%nat) ->
  exists ext D', greedy2 D l5 (combine rest (map row rest)) = l5 ++ ext /\ inv (sel ++ ext) D' /\
    incl D D' /\ incl rest D' /\ incl ext rest.
Proof.
  induction rest as [|i rest IH]; intros l5 sel D Hinv Hl; cbn [map combine greedy2].
  - exists [], D. rewrite !app_nil_r. split; [reflexivity|]. split; [exact Hinv|]. split; [intros x Hx; exact Hx|]. split; intros x [].
  - destruct Hinv as (Ns & Ls & ND & LD & ID & UD). assert (Hi : (i < 24)%nat) by (apply Hl; left; reflexivity).
    assert (Hl' : forall j, In j rest -> (j < 24)%nat) by (intros j Hj; apply Hl; right; exact Hj).
    destruct (find_overlaps D (row i)) eqn:E.
    + apply find_overlaps_true in E as (x & HxD & Hxi); [|exact ND|apply row_NoDup; exact Hi].
      destruct (IH l5 sel D) as (ext & D' & Eg & I' & J1 & J2 & J3); [repeat split; assumption || apply ID|exact Hl'|].
      exists ext, D'. split; [exact Eg|]. split; [exact I'|]. split; [exact J1|]. split.
      * intros y [<-|Hy]; [|apply J2; exact Hy]. apply J1. apply ID. apply ID in HxD as (r & Hr & Hxr).
        exists r. split; [exact Hr|]. apply (row_trans r i x); auto. apply row_self. exact Hi.
      * intros y Hy. right. apply J3. exact Hy.
    + apply find_overlaps_false in E. apply NoDup_app_iff in E as Ed. destruct Ed as (_ & Nr & Dj).
      assert (Fi : forall r x, In r sel -> In x (row r) -> ~ In x (row i)).
      { intros r x Hr Hx. apply Dj. apply ID. eauto. }
      assert (I2 : inv (sel ++ [i]) (D ++ row i)).
      { split; [|split; [|split; [|split; [|split]]]].
        - apply NoDup_app_iff. split; [exact Ns|]. split; [repeat constructor; intros []|].
          intros r Hr [->|[]]. apply (Fi r r Hr); apply row_self; exact Hi.
        - intros r. rewrite in_app_iff. intros [Hr|[<-|[]]]; [apply Ls; exact Hr|exact Hi].
        - exact E.
        - rewrite !app_length. cbn [length]. unfold row. rewrite map_length. lia.
        - intros x. rewrite in_app_iff, ID. split.
          + intros [(r & Hr & Hx)|Hx]; [exists r|exists i]; rewrite in_app_iff; cbn [In]; auto.
          + intros (r & Hr & Hx). rewrite in_app_iff in Hr. destruct Hr as [Hr|[<-|[]]]; [left; eauto|right; exact Hx].
        - intros r r' x Hr Hr' Hx Hx'. rewrite in_app_iff in Hr, Hr'. 
          destruct Hr as [Hr|[<-|[]]], Hr' as [Hr'|[<-|[]]]; [apply (UD r r' x); assumption| | |reflexivity];
            exfalso; [apply (Fi r x)|apply (Fi r' x)]; assumption. }
      destruct (IH (l5 ++ [i]) (sel ++ [i]) (D ++ row i) I2 Hl') as (ext & D' & Eg & I' & J1 & J2 & J3).
      exists (i :: ext), D'. rewrite Eg, <- !app_assoc. cbn [app]. split; [reflexivity|]. split; [rewrite <- app_assoc in I'; exact I'|].
      split; [intros x Hx; apply J1; apply in_or_app; left; exact Hx|]. split.
      * intros y [<-|Hy]; [apply J1; apply in_or_app; right; apply row_self; exact Hi|apply J2; exact Hy].
      * intros y [<-|Hy]; [left; reflexivity|right; apply J3; exact Hy].
Qed.

(** The complement of H, in increasing order. *)
Definition compl : list nat := filter (fun i => negb (existsb (Nat.eqb i) H)) (seq 0 24).
Lemma compl_In i : In i compl <-> (i < 24)%nat /\ ~ In i H.
Proof.
  unfold compl. rewrite filter_In, in_seq, negb_true_iff, <- not_true_iff_false, existsb_exists. split.
  - intros (L & N). split; [lia|]. intros Hi. apply N. exists i. split; [exact Hi|apply Nat.eqb_refl].
  - intros (L & N). split; [lia|]. intros (x & Hx & E). apply Nat.eqb_eq in E. subst. contradiction.
Qed.
Lemma seq_sorted n : forall k, StronglySorted lt (seq k n).
Proof.
  induction n as [|n IH]; intros k; cbn; constructor; [apply IH|]. apply Forall_forall. intros x Hx. apply in_seq in Hx. lia.
Qed.
Lemma filter_sorted f l : StronglySorted lt l -> StronglySorted lt (filter f l).
Proof.
  induction 1 as [|x l Hl IH Hx]; cbn; [constructor|]. destruct (f x); [|exact IH]. constructor; [exact IH|].
  rewrite Forall_forall in *. intros y Hy. apply filter_In in Hy. apply Hx. tauto.
Qed.
Lemma compl_overlaps : remove_overlaps compl = compl.
Proof. apply overlaps_id. apply filter_sorted, seq_sorted. Qed.
Lemma compl_NoDup : NoDup compl.
Proof. apply NoDup_filter, seq_NoDup. Qed.
Lemma compl_length : (length compl + length H = 24)%nat.
Proof.
  rewrite Nat.add_comm, <- app_length. rewrite <- (seq_length 24 0). apply Permutation_length. apply NoDup_Permutation.
  - apply NoDup_app_iff. split; [apply (s_nd _ SG)|]. split; [apply compl_NoDup|]. intros x Hx Hx'. apply compl_In in Hx'. tauto.
  - apply seq_NoDup.
  - intros x. rewrite in_app_iff, compl_In, in_seq. split.
    + intros [Hx|Hx]; [apply (s_lt _ SG) in Hx; lia|lia].
    + intros Hx. destruct (in_dec Nat.eq_dec x H); [left; assumption|right; split; [lia|assumption]].
Qed.


Lemma coset_of_eq : coset_of H =
  if (24 =? length H)%nat then Ok [0%nat]
  else (list4 <- coset_rows H (remove_overlaps compl) ;;
    match coset_loop (length H) None (combine (remove_overlaps compl) list4) with
    | Some l => Ok l
    | None => Raise UnboundLocalError
    end)%res.
Proof. unfold coset_of, compl. rewrite dodesymop_length. cbv zeta. reflexivity. Qed.

Local Opaque compl.
Theorem coset_of_spec : exists reps, coset_of H = Ok reps /\ (exists r, reps = 0%nat :: r) /\
  (length reps * length H = 24)%nat /\ NoDup reps /\ (forall r, In r reps -> (r < 24)%nat) /\
  forall g, (g < 24)%nat -> exists! r, In r reps /\ In g (row r).
Proof.
  rewrite coset_of_eq, compl_overlaps.
  pose proof compl_length as LC.
  destruct (Nat.eqb_spec 24 (length H)) as [E24|N24].
  - exists [0%nat]. split; [reflexivity|]. split; [eauto|]. split; [cbn; lia|]. split; [repeat constructor; intros []|].
    split; [intros r [<-|[]]; lia|]. intros g Hg. exists 0%nat. split.
    + split; [left; reflexivity|]. apply row_H. destruct (in_dec Nat.eq_dec g H) as [Hi|Hi]; [exact Hi|].
      assert (Hc : In g compl) by (apply compl_In; auto). destruct compl; [destruct Hc|cbn [length] in LC; lia].
    + intros r [[<-|[]] _]. reflexivity.
  - rewrite coset_rows_spec by (intros i Hi; apply compl_In in Hi; tauto). cbn [bind].
    destruct compl as [|i rest] eqn:Ec; [cbn [length] in LC; lia|].
    assert (Hi : (i < 24)%nat /\ ~ In i H) by (apply compl_In; rewrite Ec; left; reflexivity).
    assert (Hr : forall j, In j rest -> (j < 24)%nat) by (intros j Hj; apply (proj1 (compl_In j)); rewrite Ec; right; exact Hj).
    assert (Hrn : forall j, In j rest -> ~ In j H) by (intros j Hj; apply (proj1 (compl_In j)); rewrite Ec; right; exact Hj).
    assert (I0 : inv [i] (row i)).
    { split; [repeat constructor; intros []|]. split; [intros r [<-|[]]; apply Hi|]. split; [apply row_NoDup; apply Hi|].
      split; [unfold row; rewrite map_length; cbn; lia|]. split.
      - intros x. split; [exists i; cbn; auto|]. intros (r & [<-|[]] & Hx). exact Hx.
      - intros r r' x [<-|[]] [<-|[]] _ _. reflexivity. }
    destruct (greedy2_spec rest [0%nat; i] [i] (row i) I0 Hr) as (ext & D' & Eg & I' & J1 & J2 & J3).
    assert (Lr : rest <> []).
    { intros ->. cbn [length] in LC. assert (HL : length H = 23%nat) by lia.
      (* the row of i would have 23 elements outside H *)
      assert (Dj : NoDup (H ++ row i)).
      { apply NoDup_app_iff. split; [apply (s_nd _ SG)|]. split; [apply row_NoDup; apply Hi|].
        intros x Hx Hx'. apply (proj2 Hi). apply (row_H i). apply (row_trans 0 i x); [lia|apply Hi|apply row_H; exact Hx|exact Hx'|apply row_self; apply Hi]. }
      assert (B : (length (H ++ row i) <= length (seq 0 24))%nat).
      { apply NoDup_incl_length; [exact Dj|]. intros x Hx. apply in_seq. apply in_app_iff in Hx as [Hx|Hx]; [apply (s_lt _ SG) in Hx; lia|].
        apply row_lt in Hx; [lia|apply Hi]. }
      rewrite app_length, seq_length in B. unfold row in B. rewrite map_length in B. lia. }
    destruct I' as (Ns & Ls & ND & LD & ID & UD). cbn [app] in *.
    (* D' is the complement of H *)
    assert (HD : forall x, In x D' <-> (x < 24)%nat /\ ~ In x H).
    { intros x. split.
      - intros Hx. apply ID in Hx as (r & Hr' & Hx). assert (Lr' : (r < 24)%nat) by (apply Ls; exact Hr'). split; [apply (row_lt r); assumption|].
        intros Hh. assert (In r H).
        { apply (row_H r). apply (row_trans 0 r x); [lia|exact Lr'|apply row_H; exact Hh|exact Hx|apply row_self; exact Lr']. }
        destruct Hr' as [<-|Hr']; [tauto|]. apply (Hrn r); [apply J3; exact Hr'|assumption].
      - intros Hx. apply compl_In in Hx. rewrite Ec in Hx. destruct Hx as [<-|Hx]; [apply J1; apply row_self; apply Hi|apply J2; exact Hx]. }
    assert (LD' : length D' = (24 - length H)%nat).
    { replace (24 - length H)%nat with (length compl) by (rewrite Ec; lia). apply Permutation_length. apply NoDup_Permutation; [exact ND|apply compl_NoDup|].
      intros x. rewrite HD, compl_In. tauto. }
    cbn [map combine coset_loop]. destruct rest as [|i2 rest2]; [contradiction|]. cbn [map combine].
    set (R := combine (i2 :: rest2) (map row (i2 :: rest2))) in *.
    replace ((i2, row i2) :: combine rest2 (map row rest2)) with R by reflexivity.
    rewrite (proj1 (greedy_2 (row i) R ltac:(pose proof (row_self i (proj1 Hi)); destruct (row i); [contradiction|discriminate]) [] [0%nat; i]) eq_refl).
    fold R in Eg. rewrite Eg, dodesymop_length. cbv zeta.
    assert (LH : (length ([0%nat; i] ++ ext) * length H = 24)%nat).
    { cbn [app length]. cbn [length] in LD. pose proof (s_0 _ SG) as Z0. destruct H as [|h0 H0]; [destruct Z0|]. cbn [length] in *. nia. }
    cbn [app] in LH. rewrite LH, Nat.eqb_refl. exists ([0%nat; i] ++ ext). split; [reflexivity|]. split; [eexists; reflexivity|]. split; [exact LH|].
    cbn [app]. split; [|split].
    + constructor; [|exact Ns]. intros [->|H0]; [apply (proj2 Hi); apply (s_0 _ SG)|]. apply (Hrn 0%nat); [apply J3; exact H0|apply (s_0 _ SG)].
    + intros r [<-|Hr']; [lia|apply Ls; exact Hr'].
    + intros g Hg. destruct (in_dec Nat.eq_dec g H) as [Hh|Hh].
      * exists 0%nat. split; [split; [left; reflexivity|apply row_H; exact Hh]|].
        intros r [[<-|Hr'] Hx]; [reflexivity|]. exfalso. apply (proj2 (proj1 (HD g) (proj2 (ID g) (ex_intro _ r (conj Hr' Hx))))). exact Hh.
      * assert (HgD : In g D') by (apply HD; auto). apply ID in HgD as (r & Hr' & Hx). exists r.
        split; [split; [right; exact Hr'|exact Hx]|]. intros r' [[<-|Hr''] Hx']; [apply row_H in Hx'; contradiction|].
        apply (UD r r' g); assumption.
Qed.

Lemma in_coset_row r g : (r < 24)%nat -> (in_coset dodesymop H r g <-> In g (row r)).
Proof.
  intros Hr. rewrite row_In. split.
  - intros (a & h & b & Ea & Hh & Eb & Eg). exists h. split; [exact Hh|].
    destruct (opn_nth _ _ Ea) as [_ ->], (opn_nth _ _ Eb) as [Lh ->], (opn_nth _ _ Eg) as [Lg E].
    apply opn_inj; [exact Lg|apply mu_lt; assumption|]. rewrite mu_op by assumption. symmetry. exact E.
  - intros (h & Hh & ->). pose proof (s_lt _ SG h Hh) as Lh. exists (opn r), h, (opn h).
    rewrite !nth_opn by (assumption || (apply mu_lt; assumption)). rewrite mu_op by assumption. auto.
Qed.
End Coset.

Theorem coset_transversal H : subgroup dodesymop H -> exists reps, coset_of H = Ok reps /\
  transversal dodesymop H reps /\ (length reps * length H = 24)%nat /\ (exists r, reps = 0%nat :: r).
Proof.
  intros SH. apply subgroup_sub24 in SH. destruct (coset_of_spec H SH) as (reps & E & Hd & L & N & Lt & U).
  exists reps. split; [exact E|]. split; [|split; assumption].
  split; [exact N|]. rewrite dodesymop_length. split; [exact Lt|].
  intros g Hg. destruct (U g Hg) as (r & (Hr & Hx) & Un). exists r. split.
  - split; [exact Hr|]. apply in_coset_row; auto.
  - intros r' [Hr' Hx']. apply Un. split; [exact Hr'|]. apply in_coset_row in Hx'; auto.
Qed.
