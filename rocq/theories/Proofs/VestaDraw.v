(** What VESTA draws for a file written in binary64. *)
From Coq Require Import Ascii String List ZArith Lia Reals Lra Bool.
From Flocq Require Import Core IEEE754.BinarySingleNaN IEEE754.Binary IEEE754.Bits.
From Verif Require Import Base.Res Model.Tau Model.Arr Model.Num Model.IcoMath1 Model.IcoNumeric Model.DodeMath1 Model.DodeNumeric Model.IcoIntersect Model.Text Model.PodText Model.Writers Model.VestaText
  Spec.Value Spec.RVec Spec.Shape Spec.IcoSpec Spec.DodeSpec Spec.Sets Spec.Space Spec.Cosets Spec.TextSpec Spec.DecimalSpec Spec.PodText Spec.VestaText
  Proofs.ResLemmas Proofs.TextLemmas Proofs.RoundLemmas Proofs.PodTextLemmas Proofs.PodNumLemmas Proofs.VestaLemmas Proofs.VestaTextLemmas Proofs.IntersectLemmas Proofs.CoplanarLemmas.
Import ListNotations.
Local Open Scope R_scope.
Local Notation Bnum := Bmath.
Local Notation B64 := (binary_float 53 1024).

Section Lib.
Context {la : linalg}.

(** ** Decimal numbers *)
Lemma digit_char c : (0 <= digit_of c <= 9)%Z -> c <> "."%char /\ c <> "-"%char.
Proof. intros H. split; intros ->; destruct H as [H _]; vm_compute in H; apply H; reflexivity. Qed.
Lemma numeral_b s n : s <> [] -> forallb (fun c => (0 <=? digit_of c) && (digit_of c <=? 9))%Z s = true -> n = fold_left (fun a c => 10 * a + digit_of c)%Z s 0%Z -> numeral s n.
Proof.
  intros N H E. split; [exact N|]. split; [|exact E]. apply Forall_forall. intros c Hc. pose proof (proj1 (forallb_forall _ _) H c Hc) as Q. cbn beta in Q.
  apply andb_true_iff in Q as [Q1 Q2]. lia.
Qed.
Lemma dot_split i i' f f' n n' : numeral i n -> numeral i' n' -> i ++ "."%char :: f = i' ++ "."%char :: f' -> i = i' /\ f = f'.
Proof.
  intros (_ & H & _) (_ & H' & _). revert i' H'. induction H as [|c i Hc _ IH]; intros i' H' E.
  - destruct i' as [|c' i']; [injection E as ->; auto|]. injection E as <- _. inversion H' as [|? ? Hc' _]; subst. destruct (digit_char _ Hc'). congruence.
  - destruct H' as [|c' i' Hc' Hi']; cbn [app] in E; injection E as -> E; [destruct (digit_char _ Hc); congruence|]. destruct (IH i' Hi' E) as [-> ->]. auto.
Qed.
Lemma number_det w r s : number w r -> number w s -> r = s.
Proof.
  intros (d & n1 & i & f & ni & nf & E & Hi & Hf & L & V) (d' & n2 & i' & f' & ni' & nf' & E' & Hi' & Hf' & L' & V').
  assert (S : n1 = n2 /\ i = i' /\ f = f').
  { rewrite E in E'. destruct n1, n2; cbn [app] in E'.
    - injection E' as E'. destruct (dot_split _ _ _ _ _ _ Hi Hi' E'). auto.
    - destruct i' as [|c i']; [destruct Hi' as [K _]; congruence|]. injection E' as <- _. destruct Hi' as (_ & K & _). inversion K as [|? ? Kc _]; subst. destruct (digit_char _ Kc). congruence.
    - destruct i as [|c i]; [destruct Hi as [K _]; congruence|]. injection E' as -> _. destruct Hi as (_ & K & _). inversion K as [|? ? Kc _]; subst. destruct (digit_char _ Kc). congruence.
    - destruct (dot_split _ _ _ _ _ _ Hi Hi' E'). auto. }
  destruct S as (<- & <- & <-). assert (ni = ni') by (destruct Hi as (_ & _ & ->), Hi' as (_ & _ & ->); reflexivity).
  assert (nf = nf') by (destruct Hf as (_ & _ & ->), Hf' as (_ & _ & ->); reflexivity). assert (d = d') by congruence. subst.
  assert (Z : forall x y, Rabs (x - y) <= 0 -> x = y) by (intros x y K; pose proof (Rabs_pos (x - y)); assert (K' : Rabs (x - y) = 0) by lra; destruct (Req_dec (x - y) 0) as [Q|Q]; [lra|apply Rabs_no_R0 in Q; contradiction]).
  apply Z in V, V'. congruence.
Qed.
Lemma writes_number d e r w : writes d e r w -> exists x, number w x /\ Rabs (x - r) <= e.
Proof.
  intros (n & i & f & ni & nf & E & Hi & Hf & L & V). eexists. split; [|exact V]. exists d, n, i, f, ni, nf. repeat (split; [assumption|]). rewrite Rminus_diag_eq by reflexivity. rewrite Rabs_R0. lra.
Qed.
Lemma numbers_of e rs ws : Forall2 (writes 6 e) rs ws -> exists xs, Forall2 number ws xs /\ Forall2 (fun x r => Rabs (x - r) <= e) xs rs.
Proof.
  induction 1 as [|r w rs ws W _ (xs & I1 & I2)]; [exists []; split; constructor|]. destruct (writes_number _ _ _ _ W) as (x & N & V). exists (x :: xs). split; constructor; assumption.
Qed.
Lemma numbers_det ws xs ys : Forall2 number ws xs -> Forall2 number ws ys -> xs = ys.
Proof.
  intros H. revert ys. induction H as [|w x ws xs N _ IH]; intros ys K; inversion K; subst; [reflexivity|]. f_equal; [eapply number_det; eassumption|]. apply IH. assumption.
Qed.

(** ** Distances *)
Definition t3 (l : list R) : R3 := match l with [x; y; z] => (x, y, z) | _ => o3 end.
Lemma dist_t3 p q : length p = 3%nat -> length q = 3%nat -> dist_list p q = dist3 (t3 p) (t3 q).
Proof.
  intros Lp Lq. destruct p as [|a [|b [|c [|]]]]; try discriminate. destruct q as [|x [|y [|z [|]]]]; try discriminate.
  unfold dist_list, vnorm, vsub, dist3, norm3, dot. cbn [zipWith Rsum t3 sub3 dot3]. f_equal. ring.
Qed.
Lemma near_dist e p q : length q = 3%nat -> Forall2 (fun x r => Rabs (x - r) <= e) p q -> dist_list p q <= 2 * e.
Proof.
  intros Lq H. destruct q as [|x [|y [|z [|]]]]; try discriminate. inversion H as [|a ? p1 ? Ha H1]; subst. inversion H1 as [|b ? p2 ? Hb H2]; subst. inversion H2 as [|c ? p3 ? Hc H3]; subst. inversion H3; subst.
  unfold dist_list, vnorm, vsub, dot. cbn [zipWith Rsum]. pose proof (Rabs_pos (a - x)). assert (0 <= e) by lra.
  rewrite <- (sqrt_square (2 * e)) by lra. apply sqrt_le_1_alt.
  assert (Q : forall t, Rabs t <= e -> t * t <= e * e). { intros t K. rewrite <- (Rabs_right (t * t)) by (apply Rle_ge, Rle_0_sqr). rewrite Rabs_mult. pose proof (Rabs_pos t). apply Rmult_le_compat; assumption. }
  pose proof (Q _ Ha). pose proof (Q _ Hb). pose proof (Q _ Hc). pose proof (Rmult_le_pos e e ltac:(lra) ltac:(lra)). lra.
Qed.
Lemma dist_near e p q p' q' : length p' = 3%nat -> length q' = 3%nat -> Forall2 (fun x r => Rabs (x - r) <= e) p p' -> Forall2 (fun x r => Rabs (x - r) <= e) q q' ->
  Rabs (dist_list p q - dist_list p' q') <= 4 * e.
Proof.
  intros Lp Lq Hp Hq. pose proof (F2_length _ _ _ Hp) as Ep. pose proof (F2_length _ _ _ Hq) as Eq. rewrite Lp in Ep. rewrite Lq in Eq.
  pose proof (near_dist e p p' Lp Hp) as D1. pose proof (near_dist e q q' Lq Hq) as D2. rewrite dist_t3 in D1, D2 by assumption. rewrite !dist_t3 by assumption.
  set (a := t3 p) in *. set (b := t3 q) in *. set (c := t3 p') in *. set (d := t3 q') in *.
  pose proof (dist3_triangle a c b) as T1. pose proof (dist3_triangle c d b) as T2. pose proof (dist3_triangle c a d) as T3. pose proof (dist3_triangle a b d) as T4.
  rewrite (dist3_sym d b) in T2. rewrite (dist3_sym c a) in T3. apply Rabs_le. lra.
Qed.

(** ** What is printed *)
Definition near8 (x : B64) (r : R) : Prop := apx x r (1/100000000).
Lemma printed x r w : near8 x r -> prints show_f8_6 x w -> writes 6 (51/100000000) r w.
Proof. intros A W. pose proof (writes6 x r _ w A W) as (neg & i & f & ni & nf & E & Hi & Hf & L & V). exists neg, i, f, ni, nf. repeat (split; [assumption|]). lra. Qed.
Lemma printeds xs rs ws : Forall2 near8 xs rs -> Forall2 (prints show_f8_6) xs ws -> Forall2 (writes 6 (51/100000000)) rs ws.
Proof. intros H1. revert ws. induction H1 as [|x r xs rs Hx _ IH]; intros ws H2; inversion H2; subst; constructor; [eapply printed; eassumption|auto]. Qed.
Lemma centi_B : apx (flit Bnum 1 100) (1/100) (1/100000000000).
Proof.
  unfold flit. destruct (apx_Z 1 ltac:(cbn; lia)) as [[F1 _] V1]. destruct (apx_Z 100 ltac:(cbn; lia)) as [[F2 _] V2].
  set (a := fZ Bnum 1) in *. set (b := fZ Bnum 100) in *. clearbody a b.
  destruct (bdiv_err a b F1 F2) as [[Fd Ed] _]; rewrite ?V1, ?V2 in *; [lra|apply big500; rewrite Rabs_right; lra|].
  split; [exact Fd|]. rewrite (Rabs_right (1 / 100)) in Ed by lra. pose proof eta_lt. unfold ulp1 in Ed. lra.
Qed.
Lemma range_B d r : apx d r (1/200000000) -> 0 <= r <= 2000000 ->
  near8 (fsub Bnum d (flit Bnum 1 100)) (r - 1/100) /\ near8 (fadd Bnum d (flit Bnum 1 100)) (r + 1/100).
Proof.
  intros [Fd Hd] Hr. destruct centi_B as [Fc Hc]. set (c := flit Bnum 1 100) in *. clearbody c.
  assert (B1 : -1 <= B2R 53 1024 d <= 2000001) by (unfold Rabs in Hd; destruct (Rcase_abs _) in Hd; lra).
  assert (B2 : 0 <= B2R 53 1024 c <= 1) by (unfold Rabs in Hc; destruct (Rcase_abs _) in Hc; lra).
  pose proof eta_lt as Et. split.
  - destruct (bminus_err d c Fd Fc) as [[Fx Ex] _]; [apply big500; apply Rabs_le; lra|]. split; [exact Fx|].
    assert (K : Rabs (B2R 53 1024 d - B2R 53 1024 c) <= 2000002) by (apply Rabs_le; lra). unfold ulp1 in Ex.
    set (x := B2R 53 1024 (fsub Bnum d c)) in *. set (dd := B2R 53 1024 d) in *. set (cc := B2R 53 1024 c) in *. clearbody x dd cc.
    assert (Ex' : Rabs (x - (dd - cc)) <= 1/1000000000) by lra. clear - Ex' Hd Hc.
    unfold Rabs in *. repeat destruct (Rcase_abs _); lra.
  - destruct (bplus_err d c Fd Fc) as [[Fx Ex] _]; [apply big500; apply Rabs_le; lra|]. split; [exact Fx|].
    assert (K : Rabs (B2R 53 1024 d + B2R 53 1024 c) <= 2000002) by (apply Rabs_le; lra). unfold ulp1 in Ex.
    set (x := B2R 53 1024 (fadd Bnum d c)) in *. set (dd := B2R 53 1024 d) in *. set (cc := B2R 53 1024 c) in *. clearbody x dd cc.
    assert (Ex' : Rabs (x - (dd + cc)) <= 1/1000000000) by lra. clear - Ex' Hd Hc.
    unfold Rabs in *. repeat destruct (Rcase_abs _); lra.
Qed.

(** ** Edges *)
Section Edges.
Variable point : vec -> list R.
Variable same : vec -> vec -> res bool.
Variable dist : vec -> vec -> res B64.
Hypothesis same_ok : forall u v, good 6 u -> good 6 v -> exists b, same u v = Ok b /\ (b = true <-> point u = point v).
Hypothesis point_len : forall v, length (point v) = 3%nat.

Definition jointB (pts : list (list R)) (e : vecs) (b : B64 * nat * nat) : Prop :=
  let '(d, i, j) := b in exists u v rest, e = u :: v :: rest /\ nth_error pts i = Some (point u) /\ nth_error pts j = Some (point v) /\
    apx d (dist_list (point u) (point v)) (1/200000000) /\ 0 <= dist_list (point u) (point v) <= 2000000.
Lemma bondsB (o : obj4) vs : goodo 6 o -> goods 6 vs -> Forall (fun e => (2 <= length e)%nat) o -> incl (map point (concat o)) (map point vs) ->
  (forall e u v rest, In e o -> e = u :: v :: rest -> exists d, dist u v = Ok d /\ apx d (dist_list (point u) (point v)) (1/200000000) /\ 0 <= dist_list (point u) (point v) <= 2000000) ->
  exists bs, mapM (bond_of Bnum dist same vs) o = Ok bs /\ Forall2 (jointB (map point vs)) o bs.
Proof.
  intros G Gv L I D. revert L I D. induction G as [|e o Ge _ IH]; intros L I D; [exists []; split; [reflexivity|constructor]|].
  inversion L as [|? ? Le L']; subst. destruct e as [|u [|v e]]; cbn [length] in Le; try lia.
  inversion Ge as [|? ? Gu Ge']; subst. inversion Ge' as [|? ? Gv' _]; subst.
  destruct IH as (bs & Eb & Fb); [exact L'|intros x Hx; apply I; cbn [concat]; rewrite map_app; apply in_or_app; right; exact Hx|intros e' u' v' r' H'; apply D; right; exact H'|].
  destruct (D _ u v e (or_introl eq_refl) eq_refl) as (d & Ed & Ad & Bd).
  cbn [mapM]. unfold bond_of at 1. cbn [get nth_error bind]. rewrite Ed. cbn [bind].
  destruct (find_vertex_ok point same same_ok u vs Gu Gv) with (k := 0%nat) as (i & Ei & Hi); [apply I; cbn [concat map app]; left; reflexivity|].
  destruct (find_vertex_ok point same same_ok v vs Gv' Gv) with (k := 0%nat) as (j & Ej & Hj); [apply I; cbn [concat map app]; right; left; reflexivity|].
  cbn [plus] in Ei, Ej. rewrite Ei. cbn [bind]. rewrite Ej. cbn [bind]. rewrite Eb. cbn [bind].
  eexists. split; [reflexivity|]. constructor; [|exact Fb]. cbn [jointB]. exists u, v, e. auto.
Qed.

Lemma F2_nth {A B} (P : A -> B -> Prop) l m i x y : Forall2 P l m -> nth_error l i = Some x -> nth_error m i = Some y -> P x y.
Proof. intros H. revert i. induction H; intros [|i] E1 E2; try discriminate; cbn in *; [congruence|eauto]. Qed.
Lemma F2_in_r {A B} (P : A -> B -> Prop) l m y : Forall2 P l m -> In y m -> exists x, In x l /\ P x y.
Proof. induction 1 as [|x y' l m H _ IH]; intros []; [subst; exists x; split; [left; reflexivity|exact H]|]. destruct IH as (x' & I & P'); [assumption|]. exists x'. split; [right; exact I|exact P']. Qed.
Lemma F2_in_l {A B} (P : A -> B -> Prop) l m x : Forall2 P l m -> In x l -> exists y, In y m /\ P x y.
Proof. induction 1 as [|x' y l m H _ IH]; intros []; [subst; exists y; split; [left; reflexivity|exact H]|]. destruct IH as (y' & I & P'); [assumption|]. exists y'. split; [right; exact I|exact P']. Qed.
Lemma nth_label sym (ats : list vatom) i a : map va_label ats = map (label sym) (seq 0 (length ats)) -> nth_error ats i = Some a -> va_label a = label sym i.
Proof.
  intros E H. pose proof (map_nth_error va_label i ats H) as Q. rewrite E in Q.
  assert (L : (i < length ats)%nat) by (apply nth_error_Some; congruence).
  assert (S : nth_error (seq 0 (length ats)) i = Some i).
  { rewrite (nth_error_nth' _ 0%nat) by (rewrite seq_length; exact L). rewrite seq_nth by exact L. reflexivity. }
  rewrite (map_nth_error (label sym) i _ S) in Q. congruence.
Qed.
Lemma nodup_nth {A} (l : list A) i j x : NoDup l -> nth_error l i = Some x -> nth_error l j = Some x -> i = j.
Proof. intros N H1 H2. apply (proj1 (NoDup_nth_error l) N); [apply nth_error_Some; congruence|congruence]. Qed.

Lemma draws_edges (o : obj4) vs rgb bonds m : NoDup (map point vs) -> Forall2 (jointB (map point vs)) o bonds ->
  sited (lit "A") m -> Forall2 (fun v a => Forall2 (writes 6 (51/100000000)) (point v) (va_pos a)) vs (m_atoms m) ->
  Forall2 (is_vbond Bnum show_f8_6 rgb) bonds (m_bonds m) ->
  forall i j u v a b, nth_error vs i = Some u -> nth_error vs j = Some v -> nth_error (m_atoms m) i = Some a -> nth_error (m_atoms m) j = Some b ->
    (draws m a b <-> exists e p q rest, In e o /\ e = p :: q :: rest /\ ((point p = point u /\ point q = point v) \/ (point p = point v /\ point q = point u))).
Proof.
  intros ND J (Sl & Se & _) Fa Fb i j u v a b Eu Ev Ea Eb.
  pose proof (nth_label _ _ _ _ Sl Ea) as La. pose proof (nth_label _ _ _ _ Sl Eb) as Lb.
  assert (Ee : forall x, In x (m_atoms m) -> va_elem x = lit "A") by (apply Forall_forall; exact Se).
  pose proof (Ee a (nth_error_In _ _ Ea)) as Na. pose proof (Ee b (nth_error_In _ _ Eb)) as Nb.
  pose proof (map_nth_error point i vs Eu) as Pu. pose proof (map_nth_error point j vs Ev) as Pv.
  assert (Nm : forall k x n, va_label x = label (lit "A") n -> va_elem x = lit "A" -> named (label (lit "A") k) x -> k = n).
  { intros k x n Hx Hy [K|K]; [rewrite Hx in K; exact (label_inj _ _ _ K)|rewrite Hy in K; exfalso; exact (label_sym _ _ K)]. }
  split.
  - intros (k & p & q & lo & hi & Ik & Hn & _).
    destruct (F2_in_r _ _ _ _ Fb Ik) as ([[d i'] j'] & Ib & Kb). destruct (F2_in_r _ _ _ _ J Ib) as (e & Ie & Je).
    destruct rgb as [[r g] bl]. destruct Kb as (K1 & K2 & _). destruct Je as (x & y & rest & -> & Hx & Hy & _). rewrite K1, K2 in Hn.
    exists (x :: y :: rest), x, y, rest. split; [exact Ie|]. split; [reflexivity|].
    destruct Hn as [[N1 N2]|[N1 N2]].
    + left. apply (Nm _ _ i La Na) in N1. apply (Nm _ _ j Lb Nb) in N2. subst. split; congruence.
    + right. apply (Nm _ _ j Lb Nb) in N1. apply (Nm _ _ i La Na) in N2. subst. split; congruence.
  - intros (e & x & y & rest & Ie & Ee' & Hxy). destruct (F2_in_l _ _ _ _ J Ie) as ([[d i'] j'] & Ib & Je).
    destruct (F2_in_l _ _ _ _ Fb Ib) as (k & Ik & Kb). destruct rgb as [[r g] bl]. destruct Kb as (K1 & K2 & K3 & K4 & _).
    destruct Je as (x' & y' & rest' & E2 & Hx & Hy & Ad & Bd). rewrite Ee' in E2. injection E2 as <- <- <-.
    destruct (range_B d _ Ad Bd) as [R1 R2]. pose proof (printed _ _ _ R1 K3) as W1. pose proof (printed _ _ _ R2 K4) as W2.
    destruct (writes_number _ _ _ _ W1) as (lo & Nlo & Vlo). destruct (writes_number _ _ _ _ W2) as (hi & Nhi & Vhi).
    pose proof (F2_nth _ _ _ _ _ _ Fa Eu Ea) as Wa. pose proof (F2_nth _ _ _ _ _ _ Fa Ev Eb) as Wb. cbn beta in Wa, Wb.
    destruct (numbers_of _ _ _ Wa) as (p & Np & Vp). destruct (numbers_of _ _ _ Wb) as (q & Nq & Vq).
    assert (D : Rabs (dist_list p q - dist_list (point u) (point v)) <= 4 * (51/100000000)) by (apply dist_near; auto).
    assert (Duv : dist_list (point u) (point v) = dist_list (point x) (point y)).
    { destruct Hxy as [[-> ->]|[-> ->]]; [reflexivity|]. rewrite !dist_t3 by auto. apply dist3_sym. }
    exists k, p, q, lo, hi. split; [exact Ik|]. split; [|repeat (split; [assumption|]); rewrite Duv in D; unfold Rabs in *; repeat destruct (Rcase_abs _); lra].
    rewrite K1, K2. unfold named. rewrite La, Lb. destruct Hxy as [[Q1 Q2]|[Q1 Q2]].
    + left. rewrite Q1 in Hx. rewrite Q2 in Hy. rewrite (nodup_nth _ _ _ _ ND Hx Pu), (nodup_nth _ _ _ _ ND Hy Pv). auto.
    + right. rewrite Q1 in Hx. rewrite Q2 in Hy. rewrite (nodup_nth _ _ _ _ ND Hx Pv), (nodup_nth _ _ _ _ ND Hy Pu). auto.
Qed.

(** one bond line for all atoms *)
Lemma draws_items (item : vecs) rgb m : sited (lit "Xx") m -> Forall2 (fun v a => Forall2 (writes 6 (51/100000000)) (point v) (va_pos a)) item (m_atoms m) -> m_bonds m = [xx_bond rgb] ->
  forall i j u v a b, nth_error item i = Some u -> nth_error item j = Some v -> nth_error (m_atoms m) i = Some a -> nth_error (m_atoms m) j = Some b ->
    (dist_list (point u) (point v) <= 10 - 1/100000 -> draws m a b) /\ (draws m a b -> dist_list (point u) (point v) <= 10 + 1/100000).
Proof.
  intros (Sl & Se & _) Fa Hb i j u v a b Eu Ev Ea Eb.
  assert (Ee : forall x, In x (m_atoms m) -> va_elem x = lit "Xx") by (apply Forall_forall; exact Se).
  pose proof (Ee a (nth_error_In _ _ Ea)) as Na. pose proof (Ee b (nth_error_In _ _ Eb)) as Nb.
  pose proof (F2_nth _ _ _ _ _ _ Fa Eu Ea) as Wa. pose proof (F2_nth _ _ _ _ _ _ Fa Ev Eb) as Wb. cbn beta in Wa, Wb.
  destruct (numbers_of _ _ _ Wa) as (p & Np & Vp). destruct (numbers_of _ _ _ Wb) as (q & Nq & Vq).
  assert (D : Rabs (dist_list p q - dist_list (point u) (point v)) <= 4 * (51/100000000)) by (apply dist_near; auto).
  assert (N0 : number (lit "0.00000") 0).
  { exists 5%nat, false, (lit "0"), (lit "00000"), 0%Z, 0%Z. split; [reflexivity|]. split; [apply numeral_b; [discriminate|reflexivity|reflexivity]|].
    split; [apply numeral_b; [discriminate|reflexivity|reflexivity]|]. split; [reflexivity|]. rewrite Rabs_right; lra. }
  assert (N10 : number (lit "10.00") 10).
  { exists 2%nat, false, (lit "10"), (lit "00"), 10%Z, 0%Z. split; [reflexivity|]. split; [apply numeral_b; [discriminate|reflexivity|reflexivity]|].
    split; [apply numeral_b; [discriminate|reflexivity|reflexivity]|]. split; [reflexivity|]. rewrite Rabs_right; lra. }
  destruct rgb as [[r g] bl]. split.
  - intros H. exists (xx_bond (r, g, bl)), p, q, 0, 10. rewrite Hb. split; [left; reflexivity|]. split; [left; unfold named; rewrite Na, Nb; cbn; auto|].
    repeat (split; [assumption|]). split; [apply sqrt_pos|]. unfold Rabs in D; destruct (Rcase_abs _) in D; lra.
  - intros (k & p' & q' & lo & hi & Ik & _ & Np' & Nq' & _ & Nhi & Hr). rewrite Hb in Ik. destruct Ik as [<-|[]]. cbn [xx_bond vb_max] in Nhi.
    rewrite (numbers_det _ _ _ Np' Np), (numbers_det _ _ _ Nq' Nq), (number_det _ _ _ Nhi N10) in Hr. unfold Rabs in D; destruct (Rcase_abs _) in D; lra.
Qed.
End Edges.
End Lib.
