(** De-duplication, equivalence and connectivity. *)
From Coq Require Import Reals List ZArith Lia Bool Arith Permutation Sorting.Sorted.
From Verif Require Import Base.Res Model.Tau Model.Arr Model.IcoScalar Model.Vectors Model.IcoMath1 Model.Unique Model.IcoDedup
  Spec.Value Spec.RVec Spec.Shape Spec.IcoSpec Spec.Sets
  Proofs.ResLemmas Proofs.ValueLemmas Proofs.Irrational Proofs.ScalarLemmas Proofs.RVecLemmas
  Proofs.VectorLemmas Proofs.IcoProj Proofs.UniqueLemmas.
Import ListNotations.

Lemma tau_eqb_eq x y : tau_eqb x y = true <-> x = y.
Proof.
  destruct x as [a b c], y as [a' b' c']. unfold tau_eqb; cbn [ta tb tc].
  rewrite !andb_true_iff, !Z.eqb_eq. split; [intros [[-> ->] ->]; reflexivity|intros H; injection H; auto].
Qed.
Lemma vec_eqb_eq u v : vec_eqb u v = true <-> u = v.
Proof.
  revert v. induction u as [|x u IH]; destruct v as [|y v]; cbn [vec_eqb]; try (split; congruence).
  rewrite andb_true_iff, tau_eqb_eq, IH. split; [intros [-> ->]; reflexivity|intros H; injection H; auto].
Qed.

(** Membership in lists of points is decidable (classically). *)
Definition pt_dec : forall p q : list R, {p = q} + {p <> q} := list_eq_dec Req_EM_T.

Lemma same_set_sym {A} (l l' : list A) : same_set l l' -> same_set l' l.
Proof. intros H x. symmetry. apply H. Qed.
Lemma same_set_trans {A} (l l' l'' : list A) : same_set l l' -> same_set l' l'' -> same_set l l''.
Proof. intros H H' x. rewrite (H x). apply H'. Qed.
Lemma same_set_map {A B} (f : A -> B) l l' : same_set l l' -> same_set (map f l) (map f l').
Proof.
  intros H x. rewrite !in_map_iff. split; intros (y & E & Hy); exists y; (split; [exact E|apply H; exact Hy]).
Qed.
Lemma same_set_length {A} (l l' : list A) : NoDup l -> NoDup l' -> same_set l l' -> length l = length l'.
Proof.
  intros H H' E. apply Nat.le_antisymm; apply NoDup_incl_length; auto; intros x Hx; apply E; exact Hx.
Qed.
Lemma card_fun {A} (l : list A) n m : card l n -> card l m -> n = m.
Proof.
  intros (d & Nd & Ed & <-) (e & Ne & Ee & <-). apply same_set_length; auto.
  eapply same_set_trans; [exact Ed|apply same_set_sym; exact Ee].
Qed.
Lemma card_ext {A} (l l' : list A) n : same_set l l' -> card l n -> card l' n.
Proof. intros E (d & Nd & Ed & L). exists d. split; [exact Nd|]. split; [eapply same_set_trans; eassumption|exact L]. Qed.
Lemma card_NoDup {A} (l : list A) : NoDup l -> card l (length l).
Proof. intros H. exists l. split; [exact H|]. split; [intros x; reflexivity|reflexivity]. Qed.

Lemma mapM_F2 {A B} (f : A -> res B) (R : A -> B -> Prop) l l' :
  Forall2 (fun a b => f a = Ok b) l l' -> mapM f l = Ok l'.
Proof. induction 1 as [|a b l l' H _ IH]; cbn [mapM]; [reflexivity|]. rewrite H, IH. reflexivity. Qed.

(** The projections of a list of well-formed vectors. *)
Lemma proj_list vs : goods 6 vs ->
  exists p, mapM projection3 vs = Ok p /\
    Forall2 (fun v q => projection3 v = Ok q /\ canonv q /\ vals TAU q = ppoint v) vs p.
Proof.
  intros H. induction H as [|v vs Hv _ IH]; cbn [mapM].
  - exists []. split; [reflexivity|constructor].
  - destruct IH as (p & Ep & Fp). pose proof (projection3_spec v Hv) as S. apply wp_elim in S as (q & Eq & C & V).
    rewrite Eq, Ep. cbn [bind]. exists (q :: p). split; [reflexivity|]. constructor; [auto|exact Fp].
Qed.

Lemma goods_in n vs v : goods n vs -> In v vs -> good n v.
Proof. unfold goods. rewrite Forall_forall. auto. Qed.
Lemma goods_incl n vs vs' : goods n vs -> incl vs' vs -> goods n vs'.
Proof. unfold goods. rewrite !Forall_forall. auto. Qed.
Lemma goods_app n a b : goods n a -> goods n b -> goods n (a ++ b).
Proof. intros. apply Forall_app. auto. Qed.

Lemma vals_inj u v : canonv u -> canonv v -> vals TAU u = vals TAU v -> u = v.
Proof. apply canonv_vals_eq. exact TAU_irrational. Qed.

(** The core of remove_doubling_in_perp_space after the first de-duplication. *)
Lemma perp_core vts : goods 6 vts ->
  exists p r, mapM projection3 vts = Ok p /\ mapM (get vts) (unique_index cmp_vec p) = Ok r /\
    Forall2 (fun v q => projection3 v = Ok q /\ canonv q /\ vals TAU q = ppoint v) vts p /\
    Forall2 (fun a k => projection3 a = Ok k /\ canonv k /\ vals TAU k = ppoint a) r (unique cmp_vec p) /\
    incl r vts.
Proof.
  intros Hg. destruct (proj_list vts Hg) as (p & Ep & Fp).
  destruct (unique_index_get cmp_vec lawful_vec vts p (Forall2_len _ _ _ Fp)) as (r & Er & Fr).
  exists p, r. split; [exact Ep|]. split; [exact Er|]. split; [exact Fp|]. 
  pose proof (unique_index_keys cmp_vec lawful_vec p) as K. split.
  - revert K Fr. generalize (unique cmp_vec p). clear Er. generalize (unique_index cmp_vec p). intros is ks. revert r ks.
    induction is as [|i is IH]; intros r ks K Fr; inversion Fr as [|? a ? r' Ha Fr']; subst.
    + destruct ks; [constructor|discriminate].
    + destruct ks as [|k ks]; [discriminate|]. cbn in K. injection K as Hk K. constructor; [|apply IH; assumption].
      clear - Fp Ha Hk. revert i Ha Hk. induction Fp as [|v q vts p Hvq _ IHF]; intros i Ha Hk; destruct i; try discriminate.
      * cbn in Ha, Hk. injection Ha as <-. injection Hk as <-. exact Hvq.
      * apply (IHF i); assumption.
  - intros a Ha. clear - Fr Ha. induction Fr as [|i b is r Hb _ IH]; [destruct Ha|].
    destruct Ha as [<-|Ha]; [eapply nth_error_In; exact Hb|apply IH; exact Ha].
Qed.

Lemma F2_ppoint r ks : Forall2 (fun a k => projection3 a = Ok k /\ canonv k /\ vals TAU k = ppoint a) r ks ->
  map ppoint r = map (vals TAU) ks.
Proof. induction 1 as [|a k r ks (_ & _ & E) _ IH]; cbn; [reflexivity|]. rewrite E, IH. reflexivity. Qed.

Lemma NoDup_vals ks : Forall canonv ks -> NoDup ks -> NoDup (map (vals TAU) ks).
Proof.
  intros C N. induction N as [|k ks Hk N IH]; cbn; constructor; [|apply IH; apply Forall_inv_tail in C; exact C].
  rewrite in_map_iff. intros (k' & E & Hk'). apply Hk. 
  rewrite (vals_inj k k'); [exact Hk'| | |symmetry; exact E].
  - apply Forall_inv in C. exact C.
  - apply Forall_inv_tail in C. rewrite Forall_forall in C. apply C. exact Hk'.
Qed.

Lemma F2_canon (P : vec -> vec -> Prop) r ks : Forall2 (fun a k => P a k /\ canonv k /\ vals TAU k = ppoint a) r ks -> Forall canonv ks.
Proof. induction 1 as [|a k r ks (_ & C & _) _ IH]; constructor; assumption. Qed.

Lemma perp_space_spec_flat vs a : (a = A3 vs \/ exists o, a = A4 o /\ vs = concat o) -> goods 6 vs ->
  exists r, remove_doubling_in_perp_space a = Ok r /\ incl r vs /\
    NoDup (map ppoint r) /\ same_set (map ppoint r) (map ppoint vs).
Proof.
  intros Ha Hg. assert (Ed : remove_doubling a = Some (unique cmp_vec vs)).
  { destruct Ha as [->|(o & -> & ->)]; reflexivity. }
  unfold remove_doubling_in_perp_space. rewrite Ed. cbn [notNone bind].
  assert (Hu : goods 6 (unique cmp_vec vs)).
  { eapply goods_incl; [exact Hg|]. intros v Hv. exact (proj1 (unique_In cmp_vec lawful_vec vs v) Hv). }
  destruct (perp_core _ Hu) as (p & r & Ep & Er & Fp & Fr & I).
  rewrite Ep. cbn [bind]. exists r. split; [exact Er|]. split.
  { intros v Hv. apply (proj1 (unique_In cmp_vec lawful_vec vs v)). apply I. exact Hv. }
  pose proof (F2_ppoint _ _ Fr) as Er'. split.
  - rewrite Er'. apply NoDup_vals; [exact (F2_canon _ _ _ Fr)|]. apply (unique_NoDup cmp_vec lawful_vec).
  - rewrite Er'. intros x. 
    rewrite (same_set_map (vals TAU) _ _ (unique_In cmp_vec lawful_vec p) x).
    rewrite <- (F2_ppoint _ _ Fp).
    apply (same_set_map ppoint _ _ (unique_In cmp_vec lawful_vec vs) x).
Qed.

Lemma perp_space_spec vs : goods 6 vs ->
  exists r, remove_doubling_in_perp_space (A3 vs) = Ok r /\ incl r vs /\
    NoDup (map ppoint r) /\ same_set (map ppoint r) (map ppoint vs).
Proof. intros. apply perp_space_spec_flat; auto. Qed.

Lemma perp_space_card vs r : goods 6 vs -> remove_doubling_in_perp_space (A3 vs) = Ok r ->
  card (map ppoint vs) (length r).
Proof.
  intros Hg H. destruct (perp_space_spec vs Hg) as (r' & E & _ & N & S). rewrite H in E. injection E as <-.
  exists (map ppoint r). split; [exact N|]. split; [exact S|]. apply map_length.
Qed.

Lemma stacked_spec a b : goods 6 a -> goods 6 b ->
  exists n, stacked_points a b = Ok n /\ card (map ppoint a ++ map ppoint b) n.
Proof.
  intros Ha Hb. pose proof (goods_app 6 a b Ha Hb) as Hg. destruct (perp_space_spec _ Hg) as (r & E & _).
  unfold stacked_points. rewrite E. cbn [bind]. exists (length r). split; [reflexivity|].
  rewrite <- map_app. apply perp_space_card; assumption.
Qed.

(** Union of two duplicate-free lists. *)
Definition inb (l : list (list R)) (p : list R) : bool := if in_dec pt_dec p l then true else false.
Lemma inb_In l p : inb l p = true <-> In p l.
Proof. unfold inb. destruct (in_dec pt_dec p l); split; auto; discriminate. Qed.

Lemma filter_split {A} (f : A -> bool) l : (length (filter f l) + length (filter (fun x => negb (f x)) l) = length l)%nat.
Proof. induction l as [|x l IH]; cbn; [reflexivity|]. destruct (f x); cbn; lia. Qed.

Lemma union_card (l1 l2 : list (list R)) : NoDup l1 -> NoDup l2 ->
  exists c, NoDup c /\ (forall p, In p c <-> In p l1 /\ In p l2) /\
    card (l1 ++ l2) (length l1 + length l2 - length c) /\ (length c <= length l1)%nat /\ (length c <= length l2)%nat.
Proof.
  intros N1 N2. exists (filter (inb l2) l1).
  assert (Nc : NoDup (filter (inb l2) l1)) by (apply NoDup_filter; exact N1).
  assert (Ec : forall p, In p (filter (inb l2) l1) <-> In p l1 /\ In p l2).
  { intros p. rewrite filter_In, inb_In. reflexivity. }
  split; [exact Nc|]. split; [exact Ec|].
  assert (L : length (filter (inb l2) l1) = length (filter (inb l1) l2)).
  { apply same_set_length; [exact Nc|apply NoDup_filter; exact N2|]. intros p. rewrite !filter_In, !inb_In. tauto. }
  pose proof (filter_split (inb l1) l2) as S2. pose proof (filter_split (inb l2) l1) as S1. split; [|lia].
  exists (l1 ++ filter (fun p => negb (inb l1 p)) l2). split.
  - assert (D : forall p, In p (filter (fun p => negb (inb l1 p)) l2) -> ~ In p l1).
    { intros p. rewrite filter_In, negb_true_iff. intros [_ H] H'. apply inb_In in H'. congruence. }
    revert D. generalize (NoDup_filter (fun p => negb (inb l1 p)) N2).
    generalize (filter (fun p => negb (inb l1 p)) l2). clear - N1. intros m Nm D.
    induction N1 as [|x l Hx N IH]; cbn; [exact Nm|]. constructor.
    + rewrite in_app_iff. intros [H|H]; [contradiction|]. apply (D x H). left. reflexivity.
    + apply IH. intros p Hp H. apply (D p Hp). right. exact H.
  - split.
    + intros p. rewrite !in_app_iff, filter_In, negb_true_iff. split; [tauto|].
      intros [H|H]; [tauto|]. destruct (inb l1 p) eqn:E; [left; apply inb_In; exact E|right; auto].
    + rewrite app_length. lia.
Qed.

Lemma eq_by_card (l1 l2 : list (list R)) n : NoDup l1 -> NoDup l2 -> length l1 = n -> length l2 = n ->
  (card (l1 ++ l2) n <-> same_set l1 l2).
Proof.
  intros N1 N2 L1 L2. split.
  - intros C. destruct (union_card l1 l2 N1 N2) as (c & Nc & Ec & Cc & B1 & B2).
    assert (Lc : length c = n) by (pose proof (card_fun _ _ _ C Cc); lia).
    assert (I1 : incl l1 c).
    { apply NoDup_length_incl; [exact Nc|lia|]. intros p Hp. apply Ec in Hp. tauto. }
    assert (I2 : incl l2 c).
    { apply NoDup_length_incl; [exact Nc|lia|]. intros p Hp. apply Ec in Hp. tauto. }
    intros p. split; intros Hp; [apply I1, Ec in Hp|apply I2, Ec in Hp]; tauto.
  - intros E. apply (card_ext l1); [|rewrite <- L1; apply card_NoDup; exact N1].
    intros p. rewrite in_app_iff. rewrite <- (E p). tauto.
Qed.

(** The equivalence tests. *)
Lemma equivalent_n (n : nat) a b : goods 6 a -> goods 6 b ->
  exists m, stacked_points a b = Ok m /\ (Nat.eqb m n = true <-> card (map ppoint a ++ map ppoint b) n).
Proof.
  intros Ha Hb. destruct (stacked_spec a b Ha Hb) as (m & E & C). exists m. split; [exact E|].
  rewrite Nat.eqb_eq. split; [intros <-; exact C|intros C'; eapply card_fun; eassumption].
Qed.

Lemma equivalent_n_set (n : nat) a b : goods 6 a -> goods 6 b -> length a = n -> length b = n ->
  NoDup (map ppoint a) -> NoDup (map ppoint b) ->
  exists m, stacked_points a b = Ok m /\ (Nat.eqb m n = true <-> same_set (map ppoint a) (map ppoint b)).
Proof.
  intros Ha Hb La Lb Na Nb. destruct (equivalent_n n a b Ha Hb) as (m & E & C). exists m. split; [exact E|].
  rewrite C. apply eq_by_card; rewrite ?map_length; assumption.
Qed.

(** Faces. *)
Lemma surface_4 a b c d : get_tetrahedron_surface [a;b;c;d] = Ok [[a;b;c];[a;b;d];[a;c;d];[b;c;d]].
Proof. reflexivity. Qed.

Lemma filter_face {A} (f : A -> bool) (a b c d : A) : length (filter f [a;b;c;d]) = 3%nat ->
  In (filter f [a;b;c;d]) [[a;b;c];[a;b;d];[a;c;d];[b;c;d]].
Proof. cbn. destruct (f a), (f b), (f c), (f d); cbn; intros H; try discriminate; auto. Qed.

Lemma length4 {A} (l : list A) : length l = 4%nat -> exists a b c d, l = [a;b;c;d].
Proof. destruct l as [|a [|b [|c [|d [|]]]]]; try discriminate. eauto 6. Qed.

Lemma some_equivalent_spec t l : goods 6 t -> length t = 3%nat -> NoDup (map ppoint t) ->
  Forall (fun u => goods 6 u /\ length u = 3%nat /\ NoDup (map ppoint u)) l ->
  exists b, some_equivalent t l = Ok b /\ (b = true <-> exists u, In u l /\ same_set (map ppoint t) (map ppoint u)).
Proof.
  intros Ht Lt Nt Hl. induction Hl as [|u l (Hu & Lu & Nu) _ IH]; cbn [some_equivalent].
  - exists false. split; [reflexivity|]. split; [discriminate|]. intros (u & [] & _).
  - destruct (equivalent_n_set 3 t u Ht Hu Lt Lu Nt Nu) as (m & Em & Hm). unfold equivalent_triangles.
    rewrite Em. cbn [bind]. destruct (Nat.eqb m 3) eqn:Eb.
    + exists true. split; [reflexivity|]. split; [|reflexivity]. intros _. exists u. split; [left; reflexivity|apply Hm; reflexivity].
    + destruct IH as (b & E & H). exists b. split; [exact E|]. rewrite H. split.
      * intros (v & Hv & S). exists v. split; [right; exact Hv|exact S].
      * intros (v & [<-|Hv] & S); [apply Hm in S; discriminate|exists v; auto].
Qed.

Definition ndtri (u : vecs) : Prop := goods 6 u /\ length u = 3%nat /\ NoDup (map ppoint u).

Lemma first_common_spec l1 l2 : Forall ndtri l1 -> Forall ndtri l2 ->
  exists o, first_common l1 l2 = Ok o /\
    match o with
    | Some t => In t l1 /\ exists u, In u l2 /\ same_set (map ppoint t) (map ppoint u)
    | None => forall t u, In t l1 -> In u l2 -> ~ same_set (map ppoint t) (map ppoint u)
    end.
Proof.
  intros H1 H2. induction H1 as [|t l1 (Ht & Lt & Nt) _ IH]; cbn [first_common].
  - exists None. split; [reflexivity|]. intros t u [].
  - destruct (some_equivalent_spec t l2 Ht Lt Nt H2) as (b & E & Hb). rewrite E. cbn [bind]. destruct b.
    + exists (Some t). split; [reflexivity|]. split; [left; reflexivity|apply Hb; reflexivity].
    + destruct IH as (o & Eo & Ho). exists o. split; [exact Eo|]. destruct o as [t'|].
      * destruct Ho as (H & H'). split; [right; exact H|exact H'].
      * intros t' u [<-|Ht'] Hu S; [|exact (Ho t' u Ht' Hu S)].
        assert (false = true) by (apply Hb; exists u; auto). discriminate.
Qed.

Lemma faces_nd a b c d : goods 6 [a;b;c;d] -> NoDup (map ppoint [a;b;c;d]) ->
  Forall ndtri [[a;b;c];[a;b;d];[a;c;d];[b;c;d]].
Proof.
  intros G N. unfold goods in G.
  repeat match goal with H : Forall _ (_ :: _) |- _ => 
     let H1 := fresh in let H2 := fresh in pose proof (Forall_inv H) as H1; pose proof (Forall_inv_tail H) as H2; clear H end.
  cbn [map] in N. 
  repeat match goal with H : NoDup (_ :: _) |- _ => apply NoDup_cons_iff in H as [? ?] end. cbn [In] in *.
  repeat (apply Forall_cons; [split; [unfold goods; repeat (apply Forall_cons; [assumption|]); apply Forall_nil|split; [reflexivity|]]|]);
    try apply Forall_nil; cbn [map]; repeat constructor; cbn [In]; tauto.
Qed.

Lemma filter_map_comm {A B} (f : A -> B) (p : B -> bool) l : filter p (map f l) = map f (filter (fun x => p (f x)) l).
Proof. induction l as [|x l IH]; cbn; [reflexivity|]. destruct (p (f x)); cbn; rewrite IH; reflexivity. Qed.

Lemma common_spec t1 t2 : goods 6 t1 -> goods 6 t2 -> length t1 = 4%nat -> length t2 = 4%nat ->
  NoDup (map ppoint t1) -> NoDup (map ppoint t2) ->
  exists o, get_common_triangle_in_two_tetrahedra t1 t2 = Ok o /\
    match o with
    | Some t => subseq t t1 /\ length t = 3%nat /\ incl (map ppoint t) (map ppoint t2)
    | None => forall c, NoDup c -> (length c >= 3)%nat -> incl c (map ppoint t1) -> incl c (map ppoint t2) -> False
    end.
Proof.
  intros G1 G2 L1 L2 N1 N2. apply length4 in L1 as (a & b & c & d & ->). apply length4 in L2 as (a' & b' & c' & d' & ->).
  unfold get_common_triangle_in_two_tetrahedra. rewrite !surface_4. cbn [bind].
  destruct (first_common_spec _ _ (faces_nd a b c d G1 N1) (faces_nd a' b' c' d' G2 N2)) as (o & E & H).
  exists o. split; [exact E|]. destruct o as [t|].
  - destruct H as (Ht & u & Hu & S). split; [|split].
    + cbn [In] in Ht. destruct Ht as [<-|[<-|[<-|[<-|[]]]]]; repeat constructor.
    + cbn [In] in Ht. destruct Ht as [<-|[<-|[<-|[<-|[]]]]]; reflexivity.
    + intros p Hp. apply S in Hp. cbn [In] in Hu. destruct Hu as [<-|[<-|[<-|[<-|[]]]]]; cbn [map In] in *; tauto.
  - intros cc Nc Lc I1 I2.
    (* three of the common points *)
    assert (exists e, NoDup e /\ length e = 3%nat /\ incl e cc) as (e & Ne & Le & Ie).
    { exists (firstn 3 cc). split; [|split].
      - rewrite <- (firstn_skipn 3 cc) in Nc. clear - Nc. revert Nc. generalize (skipn 3 cc). induction (firstn 3 cc) as [|x l IH]; intros s N; [constructor|].
        cbn in N. apply NoDup_cons_iff in N as [Hx N]. constructor; [|eapply IH; exact N].
        intros Hx'. apply Hx. apply in_or_app. left. exact Hx'.
      - apply firstn_length_le. lia.
      - intros p Hp. rewrite <- (firstn_skipn 3 cc). apply in_or_app. left. exact Hp. }
    assert (F : forall v, goods 6 v -> NoDup (map ppoint v) -> incl cc (map ppoint v) ->
      length (filter (fun x => inb e (ppoint x)) v) = 3%nat /\ 
      same_set (map ppoint (filter (fun x => inb e (ppoint x)) v)) e).
    { intros v _ Nv Iv. rewrite <- filter_map_comm.
      assert (S : same_set (filter (inb e) (map ppoint v)) e).
      { intros p. rewrite filter_In, inb_In. split; [tauto|]. intros Hp. split; [|exact Hp]. apply Iv, Ie. exact Hp. }
      split; [|exact S]. rewrite <- (map_length ppoint), <- filter_map_comm. rewrite <- Le.
      apply same_set_length; [apply NoDup_filter; exact Nv|exact Ne|exact S]. }
    destruct (F _ G1 N1 I1) as [L1 S1]. destruct (F _ G2 N2 I2) as [L2 S2].
    refine (H _ _ (filter_face _ a b c d L1) (filter_face _ a' b' c' d' L2) _).
    eapply same_set_trans; [exact S1|apply same_set_sym; exact S2].
Qed.
