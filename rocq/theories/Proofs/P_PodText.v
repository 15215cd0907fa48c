(** The text of the .pod and .atm files: C109. *)
From Coq Require Import Ascii String List ZArith Bool Reals.
From Flocq Require Import IEEE754.Binary.
From Verif Require Import Base.Res Model.Tau Model.Arr Model.Num Model.Text Model.Pod Model.PodText
  Spec.Value Spec.RVec Spec.Shape Spec.IcoSpec Spec.DodeSpec Spec.Sets Spec.Samples Spec.PodSpec Spec.TextSpec Spec.PodText.
Import ListNotations.
Local Open Scope nat_scope.
Local Existing Instance textbook.

From Coq Require Import Lia Lra.
From Verif Require Import Model.IcoMath1 Model.IcoDedup Model.Unique Model.IcoNumeric Model.DodeNumeric Proofs.ResLemmas Proofs.ValueLemmas Proofs.NumLemmas
  Proofs.DedupLemmas Proofs.Irrational Proofs.PodLemmas Proofs.TextLemmas Proofs.RoundLemmas Proofs.PodTextLemmas Proofs.PodNumLemmas.

(** C109: whatever numbers are printed, as long as each is printed as blanks and a word, the
    two files write_podatm writes can be read back: every entry and every atom with its number,
    in order, with the printed coordinates and with the counts and indices of the data. *)
Lemma L_C109_read : forall N f3 f6 v position vlist shft atm pods, (forall x, field (f3 x)) -> (forall x, field (f6 x)) ->
  write_podatm N (PList v) position vlist shft = Ok (0%Z, Some (atm, pods)) ->
  exists ta tp es ats, write_podatm_text N f3 f6 (PList v) position vlist shft = Ok (0%Z, Some (ta, tp)) /\
    read_pod tp = Ok es /\ read_atm ta = Ok ats /\
    map e_number es = map Z.of_nat (seq 1 (length pods)) /\
    map a_number ats = map Z.of_nat (seq 1 (length atm)) /\ map a_pod ats = map Z.of_nat (seq 1 (length atm)) /\
    Forall2 (fun p e => e_count e = Z.of_nat (pod_num N p) /\ Forall2 (Forall2 (prints f6)) (pod_ej N p) (e_ej e) /\
      e_nth e = pod_nth N p /\ e_idx e = map Z.of_nat (pod_idx N p)) pods es /\
    Forall2 (fun d a => Forall2 (prints f3) (fst d) (a_x a) /\ Forall2 (prints f6) (snd d) (a_xi a)) atm ats.
Proof.
  intros N f3 f6 v position vlist shft atm pods F3 F6 H.
  destruct (write_podatm_read N f3 f6 F3 F6 _ _ _ _ _ _ H) as (ta & tp & es & ats & E & Rp & Ra & Fe & Fa).
  exists ta, tp, es, ats. split; [exact E|]. split; [exact Rp|]. split; [exact Ra|].
  assert (A : forall s, Forall2 (fun p e => is_entry N f6 (Z.of_nat (S (fst p))) (snd p) e) (combine (seq s (length pods)) pods) es ->
    map e_number es = map Z.of_nat (seq (S s) (length pods)) /\ Forall2 (fun p e => e_count e = Z.of_nat (pod_num N p) /\ Forall2 (Forall2 (prints f6)) (pod_ej N p) (e_ej e) /\
      e_nth e = pod_nth N p /\ e_idx e = map Z.of_nat (pod_idx N p)) pods es).
  { clear. revert es. induction pods as [|p pods IH]; intros es s Q; cbn [length seq combine] in Q; inversion Q as [|? e ? es' (E1 & E2) Q']; subst; [split; [reflexivity|constructor]|].
    destruct (IH _ _ Q') as [I1 I2]. cbn [map length seq]. cbn [fst snd] in *. split; [rewrite E1, I1; reflexivity|]. constructor; [exact E2|exact I2]. }
  assert (B : forall s, Forall2 (fun p a => is_atom N f3 f6 (Z.of_nat (S (fst p))) (snd p) a) (combine (seq s (length atm)) atm) ats ->
    map a_number ats = map Z.of_nat (seq (S s) (length atm)) /\ map a_pod ats = map Z.of_nat (seq (S s) (length atm)) /\
    Forall2 (fun d a => Forall2 (prints f3) (fst d) (a_x a) /\ Forall2 (prints f6) (snd d) (a_xi a)) atm ats).
  { clear. revert ats. induction atm as [|p atm IH]; intros es s Q; cbn [length seq combine] in Q; inversion Q as [|? e ? es' (E1 & E2 & E3) Q']; subst; [split; [reflexivity|split; [reflexivity|constructor]]|].
    destruct (IH _ _ Q') as (I1 & I2 & I3). cbn [map length seq]. cbn [fst snd] in *. split; [rewrite E1, I1; reflexivity|]. split; [rewrite E2, I2; reflexivity|]. constructor; [exact E3|exact I3]. }
  destruct (A 0 Fe) as [A1 A2]. destruct (B 0 Fa) as (B1 & B2 & B3). auto 10.
Qed.

Lemma spells_Z {A} (used : list A) idx wanted : spells used idx wanted -> spells used (map Z.to_nat (map Z.of_nat idx)) wanted.
Proof. intros H. rewrite map_map. rewrite (map_ext _ (fun n => n)) by (intros n; apply Nat2Z.id). rewrite map_id. exact H. Qed.
Lemma prints_writes f d (P : Binary.binary_float 53 1024 -> R -> Prop) err : (forall x r w, P x r -> prints f x w -> writes d err r w) ->
  forall xs rs ws, Forall2 P xs rs -> Forall2 (prints f) xs ws -> Forall2 (writes d err) rs ws.
Proof.
  intros H xs rs ws H1. revert ws. induction H1 as [|x r xs rs Hx _ IH]; intros ws H2; inversion H2; subst; constructor; eauto.
Qed.
Lemma w6 x r w : apx x r (1/100000000) -> prints show_f8_6 x w -> writes 6 (51/100000000) r w.
Proof. intros A W. pose proof (writes6 x r _ w A W) as (neg & i & f & ni & nf & E & Hi & Hf & L & V). exists neg, i, f, ni, nf. repeat (split; [assumption|]). lra. Qed.
Lemma w3 x r w : apx x r (1/500000000) -> prints show_f4_3 x w -> writes 3 (51/100000) r w.
Proof. intros A W. pose proof (writes3 x r _ w A W) as (neg & i & f & ni & nf & E & Hi & Hf & L & V). exists neg, i, f, ni, nf. repeat (split; [assumption|]). lra. Qed.
Lemma minus_apx b a : good 6 b -> good 6 a -> Forall modest b -> Forall modest a ->
  Forall2 (fun x r => apx x r (1/100000000)) (minus Bnum b a) (vsub (vals TAU b) (vals TAU a)).
Proof.
  intros [Wb Lb] [Wa La] Mb Ma. do 7 (destruct b as [|? b]; try discriminate). do 7 (destruct a as [|? a]; try discriminate).
  unfold minus, vsub, vals. cbn [combine map fst snd]. unfold wfv in *.
  do 6 (inversion Wb as [|? ? ? Wb']; clear Wb; rename Wb' into Wb; subst). do 6 (inversion Wa as [|? ? ? Wa']; clear Wa; rename Wa' into Wa; subst).
  do 6 (inversion Mb as [|? ? ? Mb']; clear Mb; rename Mb' into Mb; subst). do 6 (inversion Ma as [|? ? ? Ma']; clear Ma; rename Ma' into Ma; subst).
  do 6 (apply Forall2_cons; [apply diff_apx; assumption|]). apply Forall2_nil.
Qed.
Lemma plus_apx a s : good 6 a -> Forall modest a -> length s = 6 -> Forall (fun s => is_finite 53 1024 s = true /\ (Rabs (B2R 53 1024 s) <= 2 ^ 20)%R) s ->
  Forall2 (fun x r => apx x r (1/100000000)) (plus_shift Bnum a s) (vadd (vals TAU a) (map (B2R 53 1024) s)).
Proof.
  intros [Wa La] Ma Ls H. do 7 (destruct a as [|? a]; try discriminate). do 7 (destruct s as [|? s]; try discriminate).
  unfold plus_shift, vadd, vals. cbn [combine map fst snd]. unfold wfv in *.
  do 6 (inversion Wa as [|? ? ? Wa']; clear Wa; rename Wa' into Wa; subst). do 6 (inversion Ma as [|? ? ? Ma']; clear Ma; rename Ma' into Ma; subst).
  do 6 (inversion H as [|? ? [? ?] H']; clear H; rename H' into H; subst).
  do 6 (apply Forall2_cons; [apply shift_apx; try assumption; lra|]). apply Forall2_nil.
Qed.
Lemma values_apx v : wfv v -> Forall modest v -> Forall2 (fun x r => apx x r (1/500000000)) (map (numeric_value Bnum) v) (vals TAU v).
Proof.
  intros W M. unfold wfv in W. induction v as [|t v IH]; [constructor|]. inversion W; subst. inversion M; subst. constructor; [apply modest_apx; assumption|apply IH; assumption].
Qed.

(** C109: on the machine, what the files of write_podatm say when they are read is what was
    meant: each entry lists each vertex its row refers to once, as the difference from the first
    vertex of the row, each coordinate within 0.51 millionths; its indices spell out the row; and
    each atom has the position, within 0.51 thousandths, and its shifted first vertex. *)
Lemma L_C109_write_podatm : forall v position shft vlist, goods 6 v -> Forall (Forall modest) v ->
  good 6 position -> Forall modest position -> length shft = 6 ->
  Forall (fun s => is_finite 53 1024 s = true /\ (Rabs (B2R 53 1024 s) <= 2 ^ 20)%R) shft ->
  Forall (fun row => 2 <= length row /\ Forall (fun x => (1 <= x <= Z.of_nat (length v))%Z) row) vlist ->
  exists ta tp es ats, write_podatm_text Bnum show_f4_3 show_f8_6 (PList v) position vlist shft = Ok (0%Z, Some (ta, tp)) /\
    read_pod tp = Ok es /\ read_atm ta = Ok ats /\
    map e_number es = map Z.of_nat (seq 1 (length vlist)) /\
    map a_number ats = map Z.of_nat (seq 1 (length vlist)) /\ map a_pod ats = map Z.of_nat (seq 1 (length vlist)) /\
    Forall2 (fun row e => exists used a,
      compacts used (map Z.to_nat (e_idx e)) (tl row) /\ e_count e = Z.of_nat (length used) /\
      nth_error v (Z.to_nat (hd 0%Z row) - 1) = Some a /\
      Forall2 (fun u ws => exists b, nth_error v (Z.to_nat u - 1) = Some b /\
        Forall2 (writes 6 (51/100000000)) (vsub (vals TAU b) (vals TAU a)) ws) used (e_ej e) /\
      e_nth e = ((Z.of_nat (length row) - 1) / 3)%Z) vlist es /\
    Forall2 (fun row t => exists a, nth_error v (Z.to_nat (hd 0%Z row) - 1) = Some a /\
      Forall2 (writes 3 (51/100000)) (vals TAU position) (a_x t) /\
      Forall2 (writes 6 (51/100000000)) (vadd (vals TAU a) (map (B2R 53 1024) shft)) (a_xi t)) vlist ats.
Proof.
  intros v position shft vlist G M [Wp Lp] Mp Ls Hs Hr.
  assert (A : exists atm, mapM (atm_block Bnum v position shft) vlist = Ok atm /\ Forall2 (fun row xs => exists a, nth_error v (Z.to_nat (hd 0%Z row) - 1) = Some a /\
      xs = (map (numeric_value Bnum) position, plus_shift Bnum a shft)) vlist atm).
  { clear - Hr G Lp Ls. induction Hr as [|row vlist Hr _ IH]; [exists []; split; [reflexivity|constructor]|].
    destruct IH as (atm & E & F2). destruct (atm_block_gen Bnum v position shft row G Lp Ls Hr) as (a & Na & Ea).
    cbn [mapM]. rewrite Ea. cbn [bind]. rewrite E. cbn [bind]. eexists. split; [reflexivity|]. constructor; [eauto|exact F2]. }
  assert (B : exists pods, mapM (pod_block Bnum v) vlist = Ok pods /\ Forall2 (fun row pd => exists used a,
      compacts used (pod_idx Bnum pd) (tl row) /\ pod_num Bnum pd = length used /\
      nth_error v (Z.to_nat (hd 0%Z row) - 1) = Some a /\
      Forall2 (fun u e => exists b, nth_error v (Z.to_nat u - 1) = Some b /\ e = minus Bnum b a) used (pod_ej Bnum pd) /\
      pod_nth Bnum pd = ((Z.of_nat (length row) - 1) / 3)%Z) vlist pods).
  { clear - Hr G. induction Hr as [|row vlist Hr _ IH]; [exists []; split; [reflexivity|constructor]|].
    destruct IH as (pods & E & F2). destruct (pod_block_gen Bnum v row G Hr) as (pd & used & a & Ep & Q).
    cbn [mapM]. rewrite Ep. cbn [bind]. rewrite E. cbn [bind]. eexists. split; [reflexivity|]. constructor; [exists used, a; exact Q|exact F2]. }
  destruct A as (atm & Ea & Fa). destruct B as (pods & Eb & Fb).
  destruct (L_C109_read Bnum show_f4_3 show_f8_6 v position vlist shft atm pods show_f4_3_field show_f8_6_field) as (ta & tp & es & ats & E & Rp & Ra & N1 & N2 & N3 & Fe & Ft).
  { unfold write_podatm. rewrite Ea. cbn [bind]. rewrite Eb. reflexivity. }
  exists ta, tp, es, ats. split; [exact E|]. split; [exact Rp|]. split; [exact Ra|].
  rewrite (mapM_length _ _ _ Ea) in N2, N3. rewrite (mapM_length _ _ _ Eb) in N1. repeat (split; [assumption|]).
  assert (Mv : forall k b, nth_error v k = Some b -> good 6 b /\ Forall modest b).
  { intros k b Nb. apply nth_error_In in Nb. split; [exact (goods_in _ _ _ G Nb)|]. rewrite Forall_forall in M. apply M, Nb. }
  split.
  - clear - Fb Fe Mv. revert es Fe. induction Fb as [|row pd vlist pods (used & a & C & Nu & Na & Fj & Hn) _ IH]; intros es Fe; inversion Fe as [|? e ? es' (E1 & E2 & E3 & E4) Fe']; subst; [constructor|].
    constructor; [|apply IH; exact Fe']. exists used, a. split.
    { destruct C as (C1 & C2 & C3). rewrite E4. split; [exact C1|]. split; [exact C2|]. apply spells_Z, C3. }
    split; [rewrite E1, Nu; reflexivity|]. split; [exact Na|]. split; [|rewrite E3; exact Hn].
    revert E2. generalize (e_ej e). clear - Fj Mv Na. induction Fj as [|u d us ds (b & Nb & ->) _ IH]; intros wss E2; inversion E2; subst; constructor; [|apply IH; assumption].
    exists b. split; [exact Nb|]. destruct (Mv _ _ Nb) as [Gb Mb]. destruct (Mv _ _ Na) as [Ga Ma].
    eapply (prints_writes show_f8_6 6 (fun x r => apx x r (1/100000000)) _ w6); [apply minus_apx; eassumption|assumption].
  - clear - Fa Ft Mv Mp Wp Ls Hs. revert ats Ft. induction Fa as [|row d vlist atm (a & Na & ->) _ IH]; intros ats Ft; inversion Ft as [|? t ? ats' (E1 & E2) Ft']; subst; [constructor|].
    constructor; [|apply IH; exact Ft']. exists a. split; [exact Na|]. cbn [fst snd] in *. destruct (Mv _ _ Na) as [Ga Ma]. split.
    + eapply (prints_writes show_f4_3 3 (fun x r => apx x r (1/500000000)) _ w3); [apply values_apx; assumption|exact E1].
    + eapply (prints_writes show_f8_6 6 (fun x r => apx x r (1/100000000)) _ w6); [apply plus_apx; assumption|exact E2].
Qed.

Section Obj.
Variables (w : R) (nv : tau -> Binary.binary_float 53 1024) (k : nat) (proj : vec -> res vec) (dedup : arr -> res vecs) (point : vec -> list R).
Hypothesis nv_ok : forall t, modest t -> wf t -> apx (nv t) (val w t) (1/500000000).
Hypothesis proj_ok : forall u v, good 6 u -> good 6 v ->
  exists p q, proj u = Ok p /\ proj v = Ok q /\ (vec_eqb p q = true <-> point u = point v).
Hypothesis dedup_ok : forall o, goodo 6 o -> exists r, dedup (A4 o) = Ok r /\ incl r (concat o) /\ NoDup (map point r) /\
  same_set (map point r) (map point (concat o)).
Hypothesis k2 : 2 <= k.
Lemma nv_values v : wfv v -> Forall modest v -> Forall2 (fun x r => apx x r (1/500000000)) (map nv v) (vals w v).
Proof.
  intros W M. unfold wfv in W. induction v as [|t v IH]; [constructor|]. inversion W; subst. inversion M; subst. constructor; [apply nv_ok; assumption|apply IH; assumption].
Qed.
Lemma obj_text t rest serial : let o := t :: rest in Forall (fun t => length t = k /\ goods 6 t) o -> Forall (Forall (Forall modest)) o ->
  projection_faithful point o -> Forall (fun t => NoDup (map point t)) o -> (exists u, In u t /\ common point o u) ->
  exists ta tp e xs v vtxs, obj2podatm_text_ Bnum show_f4_3 show_f8_6 k proj dedup (fun v => map nv v) o serial = Ok (0%Z, Some (ta, tp)) /\
    read_pod1 tp = Ok e /\ read_atm1 ta = Ok (serial, serial, xs) /\
    In v t /\ common point o v /\ Forall2 (writes 3 (51/100000)) (vals w v) xs /\
    (forall u, In u vtxs <-> In u (concat o) /\ u <> v) /\ NoDup vtxs /\
    e_number e = serial /\ e_count e = Z.of_nat (length vtxs) /\ e_nth e = Z.of_nat (length vtxs) /\
    Forall2 (fun u ws => Forall2 (writes 6 (51/100000000)) (vals w u) ws) vtxs (e_ej e) /\
    (exists wanted, subseq wanted (concat o) /\ (forall u, In u wanted <-> In u (concat o) /\ u <> v) /\
       length wanted = (k - 1) * length o /\ spells vtxs (map Z.to_nat (e_idx e)) wanted).
Proof.
  intros o H M Fo Nd (u0 & I0 & C0).
  destruct (obj2podatm_outcome Bnum k proj dedup (fun v => map nv v) point proj_ok dedup_ok t rest H) as [(i & v0 & pd & _ & _ & _ & E)|[Q _]]; [|exfalso; exact (Q u0 I0 C0)].
  destruct (obj2podatm_table Bnum k proj dedup (fun v => map nv v) point proj_ok dedup_ok t rest _ pd H Fo E) as (v & vtxs & Iv & C & Ex & Q).
  fold o in C, Q, E. assert (Iv' : In v (concat o)) by (cbn [o concat]; apply in_or_app; left; exact Iv).
  assert (Lo : length (others v o) = length o * (k - 1)).
  { apply (others_count point k o v C Fo Iv'). clear - H Nd. revert Nd. fold o in H. induction H as [|a l [La _] _ IH]; intros Nd; [constructor|].
    inversion Nd; subst. constructor; [auto|apply IH; assumption]. }
  destruct Q as ((N1 & S1 & Sp) & E1 & E2 & E3). { intros Z0. rewrite Z0 in Lo. cbn [o length] in Lo. nia. }
  rewrite Ex in E.
  assert (Gm : forall u, In u (concat o) -> good 6 u /\ Forall modest u).
  { intros u Iu. apply in_concat in Iu as (a & Ia & Iu). split.
    - assert (H' := H). rewrite Forall_forall in H'. exact (goods_in _ _ _ (proj2 (H' a Ia)) Iu).
    - assert (M' := M). rewrite Forall_forall in M'. specialize (M' a Ia). rewrite Forall_forall in M'. exact (M' u Iu). }
  assert (Gx : forall u, In u vtxs -> good 6 u /\ Forall modest u).
  { intros u Iu. apply Gm. apply S1 in Iu. apply In_others in Iu. apply Iu. }
  destruct (obj2podatm_read Bnum show_f4_3 show_f8_6 show_f4_3_field show_f8_6_field k proj dedup (fun v => map nv v) o serial _ pd E) as (ta & tp & e & xs & Et & Rp & (J1 & J2 & J3 & J4 & J5) & Ra & Px).
  { rewrite map_length. apply (Gm v Iv'). }
  { split; [|rewrite E1, E2, map_length; reflexivity]. rewrite E2. apply Forall_forall. intros x Ix. apply in_map_iff in Ix as (u & <- & Iu). rewrite map_length. apply (Gx u Iu). }
  exists ta, tp, e, xs, v, vtxs. split; [exact Et|]. split; [exact Rp|]. split; [exact Ra|]. split; [exact Iv|]. split; [exact C|].
  split. { eapply (prints_writes show_f4_3 3 (fun x r => apx x r (1/500000000)) _ w3); [apply nv_values; apply (Gm v Iv')|exact Px]. }
  split. { intros u. rewrite (S1 u). apply In_others. }
  split; [exact N1|]. split; [exact J1|]. split; [rewrite J2, E1; reflexivity|]. split; [rewrite J4, E3; reflexivity|]. split.
  - rewrite E2 in J3. revert J3. generalize (e_ej e). clear - Gx nv_ok. induction vtxs as [|u us IH]; intros wss J; cbn [map] in J; inversion J as [|? ws ? wss' Jw J']; subst; constructor; [|apply IH; [intros y Iy; apply Gx; right; exact Iy|exact J']].
    destruct (Gx u (or_introl eq_refl)) as [[Wu _] Mu].
    eapply (prints_writes show_f8_6 6 (fun x r => apx x r (1/100000000)) _ w6); [|exact Jw].
    pose proof (nv_values u Wu Mu) as V. clear - V. induction V as [|x r xs rs Hx _ IH]; constructor; [|exact IH]. eapply apx_weaken; [exact Hx|]. lra.
  - exists (others v o). split; [|split; [apply In_others|split; [lia|rewrite J5; apply spells_Z, Sp]]].
    unfold others. clear. induction (concat o) as [|a l IH]; [constructor|]. cbn [filter]. destruct (negb _); [apply sub_take|apply sub_skip]; exact IH.
Qed.
End Obj.

(** C109: what the files of obj2podatm say: the common vertex within 0.51 thousandths, each
    other vertex once, within 0.51 millionths, and indices that spell out the vertices other
    than the common one of all tetrahedra. *)
Lemma L_C109_obj2podatm : forall t rest serial, let o := t :: rest in tets o -> Forall (Forall (Forall modest)) o ->
  projection_faithful ppoint o -> Forall (fun t => NoDup (map ppoint t)) o -> (exists u, In u t /\ common ppoint o u) ->
  exists ta tp e xs v vtxs, obj2podatm_text Bnum show_f4_3 show_f8_6 o serial = Ok (0%Z, Some (ta, tp)) /\
    read_pod1 tp = Ok e /\ read_atm1 ta = Ok (serial, serial, xs) /\
    In v t /\ common ppoint o v /\ Forall2 (writes 3 (51/100000)) (vals TAU v) xs /\
    (forall u, In u vtxs <-> In u (concat o) /\ u <> v) /\ NoDup vtxs /\
    e_number e = serial /\ e_count e = Z.of_nat (length vtxs) /\ e_nth e = Z.of_nat (length vtxs) /\
    Forall2 (fun u ws => Forall2 (writes 6 (51/100000000)) (vals TAU u) ws) vtxs (e_ej e) /\
    (exists wanted, subseq wanted (concat o) /\ (forall u, In u wanted <-> In u (concat o) /\ u <> v) /\
       length wanted = 3 * length o /\ spells vtxs (map Z.to_nat (e_idx e)) wanted).
Proof.
  intros t rest serial. apply (obj_text TAU (numeric_value Bnum) 4 _ _ ppoint (fun t M W => proj1 (modest_apx t M W)) ico_proj_ok ico_dedup_ok). lia.
Qed.
Lemma L_C109_dode_obj2podatm : forall t rest serial, let o := t :: rest in tris o -> Forall (Forall (Forall modest)) o ->
  projection_faithful dppoint o -> Forall (fun t => NoDup (map dppoint t)) o -> (exists u, In u t /\ common dppoint o u) ->
  exists ta tp e xs v vtxs, dobj2podatm_text Bnum show_f4_3 show_f8_6 o serial = Ok (0%Z, Some (ta, tp)) /\
    read_pod1 tp = Ok e /\ read_atm1 ta = Ok (serial, serial, xs) /\
    In v t /\ common dppoint o v /\ Forall2 (writes 3 (51/100000)) (vals SIN v) xs /\
    (forall u, In u vtxs <-> In u (concat o) /\ u <> v) /\ NoDup vtxs /\
    e_number e = serial /\ e_count e = Z.of_nat (length vtxs) /\ e_nth e = Z.of_nat (length vtxs) /\
    Forall2 (fun u ws => Forall2 (writes 6 (51/100000000)) (vals SIN u) ws) vtxs (e_ej e) /\
    (exists wanted, subseq wanted (concat o) /\ (forall u, In u wanted <-> In u (concat o) /\ u <> v) /\
       length wanted = 2 * length o /\ spells vtxs (map Z.to_nat (e_idx e)) wanted).
Proof.
  intros t rest serial. apply (obj_text SIN (dnumeric_value Bnum) 3 _ _ dppoint dmodest_apx dode_proj_ok dode_dedup_ok). lia.
Qed.

(** The position is not kept: three decimals make two different positions the same file. *)
Lemma L_C109_position_refuted : exists v position position' shft vlist d, good 6 position /\ good 6 position' /\
  Forall modest position /\ Forall modest position' /\ vals TAU position <> vals TAU position' /\
  write_podatm_text Bnum show_f4_3 show_f8_6 (PList v) position vlist shft = Ok (0%Z, Some d) /\
  write_podatm_text Bnum show_f4_3 show_f8_6 (PList v) position' vlist shft = Ok (0%Z, Some d).
Proof.
  exists tetA, o6, [T 1 0 10000; T 0 0 1; T 0 0 1; T 0 0 1; T 0 0 1; T 0 0 1], (repeat (fZ Bnum 0) 6), [[1;2;3;4]%Z].
  assert (W : exists d, write_podatm_text Bnum show_f4_3 show_f8_6 (PList tetA) o6 [[1;2;3;4]%Z] (repeat (fZ Bnum 0) 6) = Ok (0%Z, Some d) /\
    write_podatm_text Bnum show_f4_3 show_f8_6 (PList tetA) [T 1 0 10000; T 0 0 1; T 0 0 1; T 0 0 1; T 0 0 1; T 0 0 1] [[1;2;3;4]%Z] (repeat (fZ Bnum 0) 6) = Ok (0%Z, Some d)).
  { eexists. split; vm_compute; reflexivity. }
  destruct W as (d & W1 & W2). exists d.
  split; [split; [repeat (apply Forall_cons || apply Forall_nil); unfold wf; cbn; lia|reflexivity]|].
  split; [split; [repeat (apply Forall_cons || apply Forall_nil); unfold wf; cbn; lia|reflexivity]|].
  split; [repeat (apply Forall_cons; [vm_compute; repeat split; discriminate|]); apply Forall_nil|].
  split; [repeat (apply Forall_cons; [vm_compute; repeat split; discriminate|]); apply Forall_nil|].
  split; [|split; [exact W1|exact W2]].
  intros E. apply (f_equal (hd 0%R)) in E. unfold vals, o6, iv in E. cbn [map hd] in E. unfold val in E. cbn [ta tb tc] in E. lra.
Qed.

(** A tetrahedron at the origin, the row 1 2 3 4 4 3 2: the entry reads 3 vectors and the
    indices 1 2 3 3 2 1. *)
Example E_C109_ex : goods 6 tetA /\ Forall (Forall modest) tetA /\ good 6 o6 /\ Forall modest o6 /\
  exists ta tp e, write_podatm_text Bnum show_f4_3 show_f8_6 (PList tetA) o6 [[1;2;3;4;4;3;2]%Z] (repeat (fZ Bnum 0) 6) = Ok (0%Z, Some (ta, tp)) /\
    read_pod tp = Ok [e] /\ e_idx e = [1;2;3;3;2;1]%Z /\ e_nth e = 2%Z /\ e_count e = 3%Z /\
    nth 1 (e_ej e) [] = map lit ["0.000000"; "1.000000"; "0.000000"; "0.000000"; "0.000000"; "0.000000"]%string.
Proof.
  split; [repeat (apply Forall_cons || apply Forall_nil || split); try reflexivity; unfold wf; cbn; lia|].
  split; [repeat (apply Forall_cons; [repeat (apply Forall_cons; [vm_compute; repeat split; discriminate|]); apply Forall_nil|]); apply Forall_nil|].
  split; [split; [repeat (apply Forall_cons || apply Forall_nil); unfold wf; cbn; lia|reflexivity]|].
  split; [repeat (apply Forall_cons; [vm_compute; repeat split; discriminate|]); apply Forall_nil|].
  do 3 eexists. split; [vm_compute; reflexivity|]. split; [vm_compute; reflexivity|]. split; [reflexivity|]. split; [reflexivity|]. split; reflexivity.
Qed.
