(** Lemmas on the .pod data. *)
From Coq Require Import Reals List ZArith Bool Lia Lra.
From Verif Require Import Base.Res Model.Tau Model.Arr Model.Num Model.IcoMath1 Model.IcoNumeric Model.Unique Model.IcoDedup
  Model.DodeMath1 Model.DodeNumeric Model.DodeDedup Model.Pod
  Spec.Value Spec.RVec Spec.Shape Spec.IcoSpec Spec.DodeSpec Spec.Sets Spec.PodSpec
  Proofs.ResLemmas Proofs.ValueLemmas Proofs.ScalarLemmas Proofs.Irrational Proofs.IcoProj Proofs.DodeProj Proofs.NumLemmas Proofs.DedupLemmas Proofs.DodeDedupLemmas.
Import ListNotations.
Local Open Scope nat_scope.
Local Open Scope res_scope.

(** ** The common vertex *)
Section Obj.
Variable N : num.
Variable k : nat.
Variable proj : vec -> res vec.
Variable dedup : arr -> res vecs.
Variable value : vec -> list (F N).
Variable point : vec -> list R.
Hypothesis proj_ok : forall u v, good 6 u -> good 6 v ->
  exists p q, proj u = Ok p /\ proj v = Ok q /\ (vec_eqb p q = true <-> point u = point v).
Hypothesis dedup_ok : forall o, goodo 6 o -> exists r, dedup (A4 o) = Ok r /\ incl r (concat o) /\ NoDup (map point r) /\
  same_set (map point r) (map point (concat o)).

Definition items (o : obj4) := Forall (fun t => length t = k /\ goods 6 t) o.

Lemma occurs_ok u p item : good 6 u -> proj u = Ok p -> goods 6 item -> forall n, n <= length item -> forall s, s + n = length item ->
  exists b, occurs proj p item (seq s n) = Ok b /\ (b = true <-> In (point u) (map point (skipn s item))).
Proof.
  intros Gu Ep G n. induction n as [|n IH]; intros Ln s Hs; cbn [seq occurs].
  - exists false. split; [reflexivity|]. rewrite skipn_all2 by lia. split; [discriminate|intros []].
  - destruct (nth_error item s) as [v|] eqn:En; [|apply nth_error_None in En; lia].
    unfold get. rewrite En. cbn [bind]. assert (Gv : good 6 v) by (eapply goods_in; [exact G|eapply nth_error_In; exact En]).
    destruct (proj_ok u v Gu Gv) as (p' & q & E1 & E2 & H). rewrite Ep in E1. injection E1 as <-. rewrite E2. cbn [bind].
    assert (Sk : skipn s item = v :: skipn (S s) item).
    { clear - En. revert s En. induction item as [|x l IH]; intros [|s] En; try discriminate; cbn in *; [injection En as <-; reflexivity|apply IH; exact En]. }
    destruct (vec_eqb p q) eqn:Eq.
    + exists true. split; [reflexivity|]. split; [intros _|reflexivity]. rewrite Sk. left. symmetry. apply H. reflexivity.
    + destruct (IH ltac:(lia) (S s) ltac:(lia)) as (b & Eb & Hb). exists b. split; [exact Eb|]. rewrite Hb, Sk. cbn [map In].
      split; [auto|]. intros [E|I]; [exfalso; symmetry in E; apply H in E; congruence|exact I].
Qed.

Lemma in_all_ok u p rest : good 6 u -> proj u = Ok p -> items rest ->
  exists b, in_all k proj p rest = Ok b /\ (b = true <-> forall t, In t rest -> In (point u) (map point t)).
Proof.
  intros Gu Ep H. induction H as [|t rest [Lt Gt] _ IH]; cbn [in_all].
  - exists true. split; [reflexivity|]. split; [intros _ t []|reflexivity].
  - destruct (occurs_ok u p t Gu Ep Gt k ltac:(lia) 0 ltac:(lia)) as (b & Eb & Hb). rewrite Eb. cbn [bind]. cbn [skipn] in Hb.
    destruct b.
    + destruct IH as (b & Eb' & Hb'). exists b. split; [exact Eb'|]. rewrite Hb'. split.
      * intros A t' [<-|I]; [apply Hb; reflexivity|apply A; exact I].
      * intros A t' I. apply A. right. exact I.
    + exists false. split; [reflexivity|]. split; [discriminate|]. intros A. apply Hb. apply A. left. reflexivity.
Qed.

Lemma find_from_ok t rest : items (t :: rest) -> forall n s, s + n = k ->
  exists r, find_from k proj (t :: rest) (seq s n) = Ok r /\
  match r with
  | Some v => exists i, s <= i < k /\ nth_error t i = Some v /\ common point (t :: rest) v /\
      (forall j u, s <= j < i -> nth_error t j = Some u -> ~ common point (t :: rest) u)
  | None => forall j u, s <= j < k -> nth_error t j = Some u -> ~ common point (t :: rest) u
  end.
Proof.
  intros H. inversion H as [|? ? [Lt Gt] Hr]; subst.
  induction n as [|n IH]; intros s Hs; cbn [seq find_from].
  - exists None. split; [reflexivity|]. intros j u Hj. lia.
  - cbn [get nth_error bind tl]. destruct (nth_error t s) as [v|] eqn:En; [|apply nth_error_None in En; lia].
    unfold get. rewrite En. cbn [bind]. assert (Gv : good 6 v) by (eapply goods_in; [exact Gt|eapply nth_error_In; exact En]).
    destruct (proj_ok v v Gv Gv) as (p & _ & Ep & _). rewrite Ep. cbn [bind].
    destruct (in_all_ok v p rest Gv Ep Hr) as (b & Eb & Hb). rewrite Eb. cbn [bind].
    assert (Cv : common point (t :: rest) v <-> b = true).
    { rewrite Hb. split.
      - intros C t' I. apply C. right. exact I.
      - intros A t' [<-|I]; [apply in_map; eapply nth_error_In; exact En|apply A; exact I]. }
    destruct b.
    + exists (Some v). split; [reflexivity|]. exists s. split; [lia|]. split; [exact En|]. split; [apply Cv; reflexivity|]. intros j u Hj. lia.
    + destruct (IH (S s) ltac:(lia)) as (r & Er & Hr'). exists r. split; [exact Er|].
      assert (Q : forall u, nth_error t s = Some u -> ~ common point (t :: rest) u).
      { intros u Eu. rewrite En in Eu. injection Eu as <-. intros C. apply Cv in C. discriminate. }
      destruct r as [v'|].
      * destruct Hr' as (i & Hi & Ei & Ci & Bi). exists i. split; [lia|]. split; [exact Ei|]. split; [exact Ci|].
        intros j u Hj Eu. destruct (Nat.eq_dec j s) as [->|Nj]; [apply Q; exact Eu|apply (Bi j u); [lia|exact Eu]].
      * intros j u Hj Eu. destruct (Nat.eq_dec j s) as [->|Nj]; [apply Q; exact Eu|apply (Hr' j u); [lia|exact Eu]].
Qed.

Lemma items_good o : items o -> goodo 6 o.
Proof. apply Forall_impl. intros t Ht. apply Ht. Qed.

(** Outcome for every object. *)
Lemma obj2podatm_outcome t rest : items (t :: rest) -> let o := t :: rest in
  (exists i v pd, nth_error t i = Some v /\ common point o v /\ (forall j u, j < i -> nth_error t j = Some u -> ~ common point o u) /\
     obj2podatm_ N k proj dedup value o = Ok (0%Z, Some (value v, pd))) \/
  ((forall u, In u t -> ~ common point o u) /\ obj2podatm_ N k proj dedup value o = Ok (1%Z, None)).
Proof.
  intros H o. destruct (find_from_ok t rest H k 0 eq_refl) as (r & Er & Hr). unfold obj2podatm_, find_common_vertex.
  fold o in Er. rewrite Er. cbn [bind]. destruct r as [v|].
  - left. destruct Hr as (i & Hi & Ei & Ci & Bi).
    destruct (dedup_ok o (items_good _ H)) as (d & Ed & _). rewrite Ed. cbn [bind].
    exists i, v. eexists. split; [exact Ei|]. split; [exact Ci|]. split; [intros j u Hj; apply Bi; lia|reflexivity].
  - right. split; [|reflexivity]. intros u Iu. apply In_nth_error in Iu as (j & Ej). apply (Hr j u); [|exact Ej].
    inversion H as [|? ? [Lt _] _]; subst. split; [lia|]. rewrite <- Lt. apply nth_error_Some. congruence.
Qed.

(** ** The table of vertices *)
Lemma index_of_ok v vtxs : In v vtxs -> forall s, exists i, index_of v s vtxs = [S (s + i)] /\ nth_error vtxs i = Some v.
Proof.
  induction vtxs as [|u vtxs IH]; intros I s; [destruct I|]. cbn [index_of]. destruct (vec_eqb v u) eqn:E.
  - apply vec_eqb_eq in E. subst. exists 0. split; [rewrite Nat.add_0_r; reflexivity|reflexivity].
  - destruct I as [->|I]; [rewrite (proj2 (vec_eqb_eq v v) eq_refl) in E; discriminate|].
    destruct (IH I (S s)) as (i & Ei & Hi). exists (S i). split; [rewrite Ei; do 2 f_equal; lia|exact Hi].
Qed.
Lemma index_of_none v vtxs : ~ In v vtxs -> forall s, index_of v s vtxs = [].
Proof.
  induction vtxs as [|u vtxs IH]; intros I s; [reflexivity|]. cbn [index_of].
  destruct (vec_eqb v u) eqn:E; [apply vec_eqb_eq in E; subst; exfalso; apply I; left; reflexivity|].
  apply IH. intros H. apply I. right. exact H.
Qed.
Lemma idx_ok vtxs l : spells vtxs (concat (map (fun v => index_of v 0 vtxs) l)) (filter (fun v => existsb (vec_eqb v) vtxs) l).
Proof.
  induction l as [|v l IH]; [constructor|]. cbn [map concat filter]. destruct (existsb (vec_eqb v) vtxs) eqn:E.
  - apply existsb_exists in E as (u & Iu & Eu). apply vec_eqb_eq in Eu. subst u.
    destruct (index_of_ok v vtxs Iu 0) as (i & -> & Hi). cbn [app plus]. constructor; [|exact IH].
    split; [lia|]. replace (S i - 1) with i by lia. exact Hi.
  - rewrite index_of_none; [exact IH|]. intros I. assert (existsb (vec_eqb v) vtxs = true); [|congruence].
    apply existsb_exists. exists v. split; [exact I|]. apply vec_eqb_eq. reflexivity.
Qed.

Lemma remove_vector_ok (l : vecs) v : (exists u, In u l /\ u <> v) ->
  remove_vector l v = filter (fun u => negb (vec_eqb u v)) l.
Proof.
  intros (u & Iu & Nu). unfold remove_vector. cbv zeta. destruct (filter _ l) as [|x f] eqn:E; [|reflexivity].
  exfalso. assert (I : In u (filter (fun u => negb (vec_eqb u v)) l)).
  { apply filter_In. split; [exact Iu|]. apply negb_true_iff. destruct (vec_eqb u v) eqn:Eq; [apply vec_eqb_eq in Eq; congruence|reflexivity]. }
  rewrite E in I. destruct I.
Qed.

Definition others (v : vec) (o : obj4) : vecs := filter (fun u => negb (vec_eqb u v)) (concat o).
Lemma In_others v o u : In u (others v o) <-> In u (concat o) /\ u <> v.
Proof.
  unfold others. rewrite filter_In, negb_true_iff. split; intros [I H]; split; try exact I.
  - intros ->. rewrite (proj2 (vec_eqb_eq v v) eq_refl) in H. discriminate.
  - destruct (vec_eqb u v) eqn:E; [apply vec_eqb_eq in E; congruence|reflexivity].
Qed.

Lemma obj2podatm_table t rest x pd : let o := t :: rest in items o -> projection_faithful point o ->
  obj2podatm_ N k proj dedup value o = Ok (0%Z, Some (x, pd)) ->
  exists v vtxs, In v t /\ common point o v /\ x = value v /\
    (others v o <> [] -> compacts vtxs (pod_idx N pd) (others v o) /\ pod_num N pd = length vtxs /\ pod_ej N pd = map value vtxs /\
       pod_nth N pd = Z.of_nat (length vtxs)).
Proof.
  intros o H Fo E. destruct (find_from_ok t rest H k 0 eq_refl) as (r & Er & Hr). unfold obj2podatm_, find_common_vertex in E.
  fold o in Er. rewrite Er in E. cbn [bind] in E. destruct r as [v|]; [|discriminate].
  destruct Hr as (i & Hi & Ei & Ci & _). destruct (dedup_ok o (items_good _ H)) as (d & Ed & Id & Nd & Sd). rewrite Ed in E. cbn [bind] in E.
  injection E as <- <-. exists v, (remove_vector d v). split; [eapply nth_error_In; exact Ei|]. split; [exact Ci|]. split; [reflexivity|].
  intros No. cbn [pod_idx pod_num pod_ej pod_nth].
  assert (Sd' : same_set d (concat o)).
  { intros u. split; [apply Id|]. intros Iu. assert (I : In (point u) (map point d)) by (apply Sd, in_map; exact Iu).
    apply in_map_iff in I as (u' & Eu & Iu'). rewrite <- (Fo u' u); auto. }
  assert (Ex : exists u, In u d /\ u <> v).
  { destruct (others v o) as [|u l] eqn:Eo; [congruence|]. exists u.
    assert (I : In u (others v o)) by (rewrite Eo; left; reflexivity). apply In_others in I as [I Nu]. split; [apply Sd'; exact I|exact Nu]. }
  assert (SS : same_set (remove_vector d v) (others v o)).
  { rewrite remove_vector_ok by exact Ex. intros u. rewrite In_others, filter_In, negb_true_iff, (Sd' u). split; intros [I Q]; split; try exact I.
    - intros ->. rewrite (proj2 (vec_eqb_eq v v) eq_refl) in Q. discriminate.
    - destruct (vec_eqb u v) eqn:E; [apply vec_eqb_eq in E; congruence|reflexivity]. }
  split; [|auto]. split.
  - rewrite remove_vector_ok by exact Ex. apply NoDup_filter. eapply NoDup_map_inv. exact Nd.
  - split; [exact SS|]. pose proof (idx_ok (remove_vector d v) (concat o)) as Q.
    assert (Ef : filter (fun u => existsb (vec_eqb u) (remove_vector d v)) (concat o) = others v o); [|rewrite Ef in Q; exact Q].
    unfold others. apply filter_ext_in. intros u Iu.
    assert (A : existsb (vec_eqb u) (remove_vector d v) = true <-> In u (others v o)).
    { rewrite existsb_exists. split.
      - intros (u' & I' & E'). apply vec_eqb_eq in E'. subst u'. apply SS. exact I'.
      - intros I. exists u. split; [apply SS; exact I|apply vec_eqb_eq; reflexivity]. }
    assert (B : negb (vec_eqb u v) = true <-> In u (others v o)).
    { rewrite In_others, negb_true_iff. split.
      - intros E. split; [exact Iu|]. intros ->. rewrite (proj2 (vec_eqb_eq v v) eq_refl) in E. discriminate.
      - intros [_ Nu]. destruct (vec_eqb u v) eqn:E; [apply vec_eqb_eq in E; congruence|reflexivity]. }
    destruct (existsb _ _), (negb _); try reflexivity; [destruct B as [_ B]; symmetry; apply B, A; reflexivity|apply A, B; reflexivity].
Qed.
End Obj.

Lemma others_count point k o v : common point o v -> projection_faithful point o -> In v (concat o) ->
  Forall (fun t => length t = k /\ NoDup (map point t)) o -> length (others v o) = length o * (k - 1).
Proof.
  intros C Fo Iv H.
  assert (A : forall o', incl (concat o') (concat o) -> (forall t, In t o' -> In (point v) (map point t)) ->
     Forall (fun t => length t = k /\ NoDup (map point t)) o' -> length (filter (fun u => negb (vec_eqb u v)) (concat o')) = length o' * (k - 1)).
  { intros o' Io Co H'. induction H' as [|t o' [Lt Nt] _ IH]; [reflexivity|]. cbn [concat]. rewrite filter_app, app_length, IH.
    - cbn [length]. assert (L : length (filter (fun u => negb (vec_eqb u v)) t) = k - 1); [|lia].
      assert (It : incl t (concat o)) by (intros u Iu; apply Io; cbn [concat]; apply in_or_app; left; exact Iu).
      assert (Ct : In v t).
      { pose proof (Co t (or_introl eq_refl)) as I. apply in_map_iff in I as (u & Eu & Iu). rewrite <- (Fo u v); auto. }
      pose proof (filter_split (fun u => vec_eqb u v) t) as Sp. rewrite Lt in Sp.
      assert (L1 : length (filter (fun u => vec_eqb u v) t) = 1); [|lia].
      apply NoDup_map_inv in Nt.
      assert (Eq : same_set (filter (fun u => vec_eqb u v) t) [v]).
      { intros u. rewrite filter_In, vec_eqb_eq. cbn [In]. split; [intros [_ ->]; auto|intros [<-|[]]; auto]. }
      apply (same_set_length _ [v]); [apply NoDup_filter; exact Nt|repeat constructor; intros []|exact Eq].
    - intros u Iu. apply Io. cbn [concat]. apply in_or_app. right. exact Iu.
    - intros t' I'. apply Co. right. exact I'. }
  apply A; [apply incl_refl|exact C|exact H].
Qed.

(** ** Instances *)
Lemma ico_proj_ok u v : good 6 u -> good 6 v ->
  exists p q, projection3 u = Ok p /\ projection3 v = Ok q /\ (vec_eqb p q = true <-> ppoint u = ppoint v).
Proof.
  intros Gu Gv. pose proof (projection3_spec u Gu) as H. apply wp_elim in H as (p & Ep & Cp & Vp).
  pose proof (projection3_spec v Gv) as H. apply wp_elim in H as (q & Eq & Cq & Vq). exists p, q. split; [exact Ep|]. split; [exact Eq|].
  rewrite vec_eqb_eq. unfold ppoint. rewrite <- Vp, <- Vq. split; [intros ->; reflexivity|apply vals_inj; assumption].
Qed.
Lemma dode_proj_ok u v : good 6 u -> good 6 v ->
  exists p q, dprojection3 u = Ok p /\ dprojection3 v = Ok q /\ (vec_eqb p q = true <-> dppoint u = dppoint v).
Proof.
  intros Gu Gv. pose proof (dprojection3_spec u Gu) as H. apply wp_elim in H as (p & Ep & Cp & Vp).
  pose proof (dprojection3_spec v Gv) as H. apply wp_elim in H as (q & Eq & Cq & Vq). exists p, q. split; [exact Ep|]. split; [exact Eq|].
  rewrite vec_eqb_eq. unfold dppoint. rewrite <- Vp, <- Vq. split; [intros ->; reflexivity|apply dvals_inj; assumption].
Qed.
Lemma ico_dedup_ok o : goodo 6 o -> exists r, remove_doubling_in_perp_space (A4 o) = Ok r /\ incl r (concat o) /\ NoDup (map ppoint r) /\
  same_set (map ppoint r) (map ppoint (concat o)).
Proof. intros G. apply perp_space_spec_flat; [right; exists o; auto|]. apply Forall_concat. exact G. Qed.
Lemma dode_dedup_ok o : goodo 6 o -> exists r, dremove_doubling_in_perp_space (A4 o) = Ok r /\ incl r (concat o) /\ NoDup (map dppoint r) /\
  same_set (map dppoint r) (map dppoint (concat o)).
Proof. intros G. apply dperp_space_spec_flat; [right; exists o; auto|]. apply Forall_concat. exact G. Qed.

(** ** write_podatm *)
Lemma add_new_ok l : forall acc, NoDup acc -> NoDup (add_new acc l) /\
  (forall x, In x (add_new acc l) <-> In x acc \/ In (x + 1)%Z l).
Proof.
  induction l as [|y l IH]; intros acc Na; cbn [add_new]; [split; [exact Na|cbn; tauto]|].
  destruct (existsb (Z.eqb (y - 1)) acc) eqn:E.
  - destruct (IH acc Na) as [N1 I1]. split; [exact N1|]. intros x. rewrite I1. cbn [In]. split; [tauto|].
    intros [H|[H|H]]; auto. left. apply existsb_exists in E as (z & Iz & Ez). apply Z.eqb_eq in Ez. replace x with z by lia. exact Iz.
  - assert (Nn : ~ In (y - 1)%Z acc).
    { intros I. assert (existsb (Z.eqb (y - 1)) acc = true); [|congruence]. apply existsb_exists. exists (y - 1)%Z. split; [exact I|apply Z.eqb_refl]. }
    destruct (IH (acc ++ [(y - 1)%Z])) as [N1 I1].
    { apply NoDup_rev in Na. rewrite <- (rev_involutive (acc ++ _)). apply NoDup_rev. rewrite rev_app_distr. cbn [rev app]. constructor; [rewrite <- in_rev; exact Nn|exact Na]. }
    split; [exact N1|]. intros x. rewrite I1, in_app_iff. cbn [In]. intuition lia.
Qed.
Lemma place_ok x tmp2 : In (x - 1)%Z tmp2 -> forall s, exists i, place x s tmp2 = [s + i] /\ nth_error tmp2 i = Some (x - 1)%Z.
Proof.
  induction tmp2 as [|y l IH]; intros I s; [destruct I|]. cbn [place]. destruct (Z.eqb_spec (x - 1) y) as [E|E].
  - exists 0. split; [rewrite Nat.add_0_r; reflexivity|rewrite <- E; reflexivity].
  - destruct I as [I|I]; [congruence|]. destruct (IH I (S s)) as (i & Ei & Hi). exists (S i). split; [rewrite Ei; f_equal; lia|exact Hi].
Qed.

Lemma pyget_ok {A} (l : list A) x : (1 <= x <= Z.of_nat (length l))%Z ->
  exists a, pyget l (x - 1) = Ok a /\ nth_error l (Z.to_nat x - 1) = Some a.
Proof.
  intros H. unfold pyget. rewrite (proj2 (Z.leb_le 0 (x - 1))) by lia. unfold get.
  replace (Z.to_nat (x - 1)) with (Z.to_nat x - 1) by lia.
  destruct (nth_error l (Z.to_nat x - 1)) eqn:E; [eauto|]. apply nth_error_None in E. lia.
Qed.

(** Entry by entry, in any arithmetic. *)
Definition minus (N : num) (b a : vec) : list (F N) := map (fun p => fsub N (numeric_value N (fst p)) (numeric_value N (snd p))) (combine b a).
Definition plus_shift (N : num) (a : vec) (s : list (F N)) : list (F N) := map (fun p => fadd N (numeric_value N (fst p)) (snd p)) (combine a s).
Lemma difference_ok N b a : length b = 6 -> length a = 6 -> difference N b a = Ok (minus N b a).
Proof. intros Lb La. do 7 (destruct b as [|? b]; try discriminate). do 7 (destruct a as [|? a]; try discriminate). reflexivity. Qed.
Lemma minus_R b a : length b = 6 -> length a = 6 -> minus Rnum b a = vsub (vals TAU b) (vals TAU a).
Proof.
  intros Lb La. do 7 (destruct b as [|? b]; try discriminate). do 7 (destruct a as [|? a]; try discriminate).
  unfold minus. cbn [combine map fst snd]. rewrite !numeric_value_R. reflexivity.
Qed.
Definition row_ok (n : nat) (row : list Z) : Prop := 2 <= length row /\ Forall (fun x => (1 <= x <= Z.of_nat n)%Z) row.

Lemma pod_block_gen N v row : goods 6 v -> row_ok (length v) row ->
  exists pd used a, pod_block N v row = Ok pd /\ compacts used (pod_idx N pd) (tl row) /\
    pod_num N pd = length used /\ nth_error v (Z.to_nat (hd 0%Z row) - 1) = Some a /\
    Forall2 (fun u e => exists b, nth_error v (Z.to_nat u - 1) = Some b /\ e = minus N b a) used (pod_ej N pd) /\
    pod_nth N pd = ((Z.of_nat (length row) - 1) / 3)%Z.
Proof.
  intros G [L H]. destruct row as [|r0 [|r1 row]]; cbn [length] in L; try lia.
  inversion H as [|? ? H0 H']; subst. inversion H' as [|? ? H1 H2]; subst.
  destruct (pyget_ok v r0 H0) as (a & Ea & Na). unfold pod_block. cbn [get nth_error bind]. rewrite Ea. cbn [bind skipn].
  set (tmp2 := add_new [(r1 - 1)%Z] row).
  destruct (add_new_ok row [(r1 - 1)%Z]) as [ND I2]; [repeat constructor; intros []|]. fold tmp2 in ND, I2.
  assert (R2 : forall x, In x tmp2 -> In (x + 1)%Z (r1 :: row)).
  { intros x Ix. apply I2 in Ix. cbn [In] in *. intuition lia. }
  assert (R2' : forall x, In x (r1 :: row) -> In (x - 1)%Z tmp2).
  { intros x Ix. apply I2. cbn [In] in *. destruct Ix as [->|Ix]; [auto|]. right. replace (x - 1 + 1)%Z with x by lia. exact Ix. }
  assert (Ra : Forall (fun x => (1 <= x <= Z.of_nat (length v))%Z) (r1 :: row)) by (constructor; assumption).
  assert (E : exists ej, mapM (fun i => b <- pyget v i ;; difference N b a) tmp2 = Ok ej /\
     Forall2 (fun u e => exists b, nth_error v (Z.to_nat u - 1) = Some b /\ e = minus N b a) (map Z.succ tmp2) ej).
  { assert (Q : Forall (fun x => (1 <= x + 1 <= Z.of_nat (length v))%Z) tmp2).
    { apply Forall_forall. intros x Ix. rewrite Forall_forall in Ra. apply Ra, R2, Ix. }
    clear - Q G Na. induction Q as [|x l Hx _ IH]; [exists []; split; [reflexivity|constructor]|].
    destruct IH as (ej & Ej & Fj). cbn [mapM map]. destruct (pyget_ok v (x + 1) Hx) as (b & Eb & Nb).
    replace (x + 1 - 1)%Z with x in Eb by lia. rewrite Eb. cbn [bind].
    rewrite difference_ok; [|apply (goods_in _ _ _ G (nth_error_In _ _ Nb))|apply (goods_in _ _ _ G (nth_error_In _ _ Na))].
    cbn [bind]. rewrite Ej. cbn [bind]. eexists. split; [reflexivity|]. constructor; [|exact Fj]. exists b. split; [|reflexivity].
    rewrite <- Nb. f_equal. }
  destruct E as (ej & Ej & Fj). rewrite Ej. cbn [bind]. eexists. exists (map Z.succ tmp2), a. split; [reflexivity|].
  cbn [pod_idx pod_num pod_ej pod_nth tl hd]. split; [|split; [|split; [exact Na|split; [exact Fj|reflexivity]]]]; [|rewrite map_length; reflexivity].
  split; [|split].
  - apply FinFun.Injective_map_NoDup; [intros x y Q; lia|exact ND].
  - intros x. rewrite in_map_iff. split.
    + intros (y & <- & Iy). apply R2 in Iy. rewrite <- Z.add_1_r. exact Iy.
    + intros Ix. exists (x - 1)%Z. split; [lia|apply R2'; exact Ix].
  - assert (A : forall l, (forall x, In x l -> In (x - 1)%Z tmp2) -> spells (map Z.succ tmp2) (map S (concat (map (fun x => place x 0 tmp2) l))) l).
    { induction l as [|x l IH]; intros Hl; [constructor|]. cbn [map concat].
      destruct (place_ok x tmp2 (Hl x (or_introl eq_refl)) 0) as (i & -> & Hi). cbn [app plus map]. constructor.
      - split; [lia|]. replace (S i - 1) with i by lia. rewrite nth_error_map, Hi. cbn [option_map]. f_equal. lia.
      - apply IH. intros y Iy. apply Hl. right. exact Iy. }
    apply A. exact R2'.
Qed.

Lemma pod_block_ok v row : goods 6 v -> row_ok (length v) row ->
  exists pd used a, pod_block Rnum v row = Ok pd /\ compacts used (pod_idx Rnum pd) (tl row) /\
    pod_num Rnum pd = length used /\ nth_error v (Z.to_nat (hd 0%Z row) - 1) = Some a /\
    Forall2 (fun u e => exists b, nth_error v (Z.to_nat u - 1) = Some b /\ e = vsub (vals TAU b) (vals TAU a)) used (pod_ej Rnum pd) /\
    pod_nth Rnum pd = ((Z.of_nat (length row) - 1) / 3)%Z.
Proof.
  intros G H. destruct (pod_block_gen Rnum v row G H) as (pd & used & a & E & C & Nu & Na & Fj & Hn). exists pd, used, a. repeat (split; [assumption|]).
  split; [|exact Hn]. clear - G Na Fj. induction Fj as [|u e us es (b & Nb & ->) _ IH]; constructor; [|exact IH]. exists b. split; [exact Nb|].
  apply minus_R; [apply (goods_in _ _ _ G (nth_error_In _ _ Nb))|apply (goods_in _ _ _ G (nth_error_In _ _ Na))].
Qed.
Lemma atm_block_gen N v position shft row : goods 6 v -> length position = 6 -> length shft = 6 -> row_ok (length v) row ->
  exists a, nth_error v (Z.to_nat (hd 0%Z row) - 1) = Some a /\
    atm_block N v position shft row = Ok (map (numeric_value N) position, plus_shift N a shft).
Proof.
  intros G Lp Ls [L H]. destruct row as [|r0 row]; cbn [length] in L; try lia.
  inversion H as [|? ? H0 H']; subst. destruct (pyget_ok v r0 H0) as (a & Ea & Na). exists a. split; [exact Na|].
  unfold atm_block. cbn [get nth_error bind]. rewrite Ea. cbn [bind].
  pose proof (proj2 (goods_in _ _ _ G (nth_error_In _ _ Na))) as La.
  do 7 (destruct a as [|? a]; try discriminate). do 7 (destruct position as [|? position]; try discriminate). do 7 (destruct shft as [|? shft]; try discriminate).
  reflexivity.
Qed.
Lemma atm_block_ok v position shft row : goods 6 v -> length position = 6 -> length shft = 6 -> row_ok (length v) row ->
  exists a, nth_error v (Z.to_nat (hd 0%Z row) - 1) = Some a /\
    atm_block Rnum v position shft row = Ok (vals TAU position, vadd (vals TAU a) shft).
Proof.
  intros G Lp Ls [L H]. destruct row as [|r0 row]; cbn [length] in L; try lia.
  inversion H as [|? ? H0 H']; subst. destruct (pyget_ok v r0 H0) as (a & Ea & Na). exists a. split; [exact Na|].
  unfold atm_block. cbn [get nth_error bind]. rewrite Ea. cbn [bind].
  pose proof (proj2 (goods_in _ _ _ G (nth_error_In _ _ Na))) as La.
  do 7 (destruct a as [|? a]; try discriminate). do 7 (destruct position as [|? position]; try discriminate). do 7 (destruct shft as [|? shft]; try discriminate).
  unfold six. cbn [seq mapM get nth_error bind]. rewrite !numeric_value_R. reflexivity.
Qed.
