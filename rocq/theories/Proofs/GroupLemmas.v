(** Groups of integer matrices acting on objects: the orbit of an object under
    a finite group is permuted by every operation.  Used for ico2 (120
    operations) and dode2 (24). *)
From Coq Require Import Reals List ZArith Lia Lra Bool Permutation.
From Verif Require Import Base.Res Model.Tau Model.Arr Model.Vectors Model.IcoMath1 Spec.Value Spec.RVec Spec.Shape
  Proofs.ResLemmas Proofs.ValueLemmas Proofs.ScalarLemmas Proofs.RVecLemmas Proofs.VectorLemmas
  Proofs.MatLemmas Proofs.SymopLemmas Proofs.MatDec.
Import ListNotations.
Local Open Scope R_scope.

(** What a list of operations must satisfy (checked by computation). *)
Record is_group (n : nat) (ops : list (list (list Z))) : Prop := {
  ig_pos : (0 < n)%nat;
  ig_sq : forall m, In m ops -> square n m;
  ig_nodup : NoDup ops;
  ig_id : In (identity n) ops;
  ig_mul : forall a b, In a ops -> In b ops -> In (matmul a b) ops;
  ig_inv : forall a, In a ops -> exists b, In b ops /\ matmul a b = identity n /\ matmul b a = identity n;
  ig_assoc : forall a b c, In a ops -> In b ops -> In c ops -> matmul a (matmul b c) = matmul (matmul a b) c
}.

Lemma is_group_cancel n ops a b c : is_group n ops -> In a ops -> In b ops -> In c ops ->
  matmul (identity n) b = b -> matmul (identity n) c = c ->
  matmul a b = matmul a c -> b = c.
Proof.
  intros G Ha Hb Hc Ib Ic E.
  destruct (ig_inv _ _ G a Ha) as (a' & Ha' & _ & E').
  rewrite <- Ib, <- Ic, <- E', <- !(ig_assoc _ _ G); try assumption.
  rewrite E. reflexivity.
Qed.

(** ** Integer matrices: associativity and identity *)
Lemma fold_map_ext {A} (f g : A -> Z) l : (forall x, In x l -> f x = g x) ->
  fold_right Z.add 0%Z (map f l) = fold_right Z.add 0%Z (map g l).
Proof. intros H. rewrite (map_ext_in f g l H). reflexivity. Qed.

Lemma matrix_ext n (a b : list (list Z)) : square n a -> square n b ->
  (forall x, length x = n -> matvec (IZRm a) x = matvec (IZRm b) x) -> a = b.
Proof.
  intros [La Ra] [Lb Rb] H.
  assert (E : forall i j, (i < n)%nat -> (j < n)%nat -> nth j (nth i a []) 0%Z = nth j (nth i b []) 0%Z).
  { intros i j Hi Hj.
    specialize (H (map (fun k => if Nat.eqb j k then 1 else 0) (seq 0 n))).
    rewrite map_length, seq_length in H. specialize (H eq_refl).
    apply (f_equal (fun l => nth i l 0)) in H. unfold matvec, IZRm in H.
    rewrite !map_map in H.
    assert (D : forall m : list (list Z), length m = n -> rect m n ->
       nth i (map (fun r => dot (map IZR r) (map (fun k => if Nat.eqb j k then 1 else 0) (seq 0 n))) m) 0
       = IZR (nth j (nth i m []) 0%Z)).
    { intros m Lm Rm.
      rewrite (nth_indep _ 0 (dot (map IZR []) (map (fun k => if Nat.eqb j k then 1 else 0) (seq 0 n))))
        by (rewrite map_length; lia).
      rewrite (map_nth (fun r => dot (map IZR r) _) m [] i).
      rewrite dot_comm, dot_unit; [|rewrite map_length|lia].
      - change 0 with (IZR 0). rewrite map_nth. reflexivity.
      - eapply Forall_forall in Rm; [exact Rm|]. apply nth_In; lia. }
    rewrite !D in H by assumption. apply eq_IZR, H. }
  apply (nth_ext _ _ [] []); [lia|]. intros i Hi.
  assert (Lai : length (nth i a []) = n) by (eapply Forall_forall in Ra; [exact Ra|apply nth_In; lia]).
  assert (Lbi : length (nth i b []) = n) by (eapply Forall_forall in Rb; [exact Rb|apply nth_In; lia]).
  apply (nth_ext _ _ 0%Z 0%Z); [lia|]. intros j Hj. apply E; lia.
Qed.

Lemma identity_square n : square n (identity n).
Proof.
  unfold identity, square. rewrite map_length, seq_length. split; [reflexivity|].
  apply Forall_forall. intros r Hr. apply in_map_iff in Hr as (x & <- & _).
  rewrite map_length, seq_length; reflexivity.
Qed.

Lemma matmul_square n a b : (0 < n)%nat -> square n a -> square n b -> square n (matmul a b).
Proof.
  intros Hn [La Ra] [Lb Rb]. unfold matmul, square. rewrite map_length. split; [exact La|].
  apply Forall_forall. intros r Hr. apply in_map_iff in Hr as (x & <- & _).
  rewrite map_length, seq_length. apply rect_ncols; [exact Rb|]. intros ->; cbn in Lb; lia.
Qed.

Lemma matvec_mul n a b x : (0 < n)%nat -> square n a -> square n b ->
  matvec (IZRm (matmul a b)) x = matvec (IZRm a) (matvec (IZRm b) x).
Proof.
  intros Hn [La Ra] [Lb Rb]. apply (matvec_matmul a b n); [rewrite Lb; exact Ra|exact Rb|].
  intros ->; cbn in Lb; lia.
Qed.

Lemma matmul_assoc n a b c : (0 < n)%nat -> square n a -> square n b -> square n c ->
  matmul a (matmul b c) = matmul (matmul a b) c.
Proof.
  intros Hn Ha Hb Hc. apply (matrix_ext n); try (repeat apply matmul_square; assumption).
  intros x Lx. rewrite !(matvec_mul n); try (repeat apply matmul_square; assumption). reflexivity.
Qed.

Lemma matmul_id_l n a : (0 < n)%nat -> square n a -> matmul (identity n) a = a.
Proof.
  intros Hn Ha. apply (matrix_ext n); try apply matmul_square; try apply identity_square; try assumption.
  intros x Lx. rewrite (matvec_mul n); try apply identity_square; try assumption.
  apply matvec_identity. rewrite matvec_length. unfold IZRm; rewrite map_length. apply Ha.
Qed.

Lemma matmul_id_r n a : (0 < n)%nat -> square n a -> matmul a (identity n) = a.
Proof.
  intros Hn Ha. apply (matrix_ext n); try apply matmul_square; try apply identity_square; try assumption.
  intros x Lx. rewrite (matvec_mul n); try apply identity_square; try assumption.
  rewrite matvec_identity by assumption. reflexivity.
Qed.

Lemma group_left_perm n ops a : is_group n ops -> In a ops -> Permutation ops (map (matmul a) ops).
Proof.
  intros G Ha. apply closed_perm.
  - apply (ig_nodup _ _ G).
  - intros x Hx. apply (ig_mul _ _ G); assumption.
  - intros x y Hx Hy E. apply (is_group_cancel n ops a x y); try assumption.
    + apply matmul_id_l; [apply (ig_pos _ _ G)|apply (ig_sq _ _ G); assumption].
    + apply matmul_id_l; [apply (ig_pos _ _ G)|apply (ig_sq _ _ G); assumption].
Qed.

(** ** Boolean check *)
Definition groupb (n : nat) (ops : list (list (list Z))) : bool :=
  forallb (squareb n) ops && nodupb ops && mem (identity n) ops &&
  forallb (fun a => forallb (fun b => mem (matmul a b) ops) ops) ops &&
  forallb (fun a => existsb (fun b => mat_eqb (matmul a b) (identity n) && mat_eqb (matmul b a) (identity n)) ops) ops.

Lemma groupb_sound n ops : (0 < n)%nat -> groupb n ops = true -> is_group n ops.
Proof.
  intros Hn H. unfold groupb in H. repeat apply andb_prop in H as [H ?].
  rewrite forallb_forall in *.
  assert (S : forall m, In m ops -> square n m) by (intros; apply squareb_square; auto).
  constructor; auto.
  - apply nodupb_NoDup; assumption.
  - apply mem_In; assumption.
  - intros a b Ha Hb. apply mem_In. match goal with K : forall x, In x ops -> forallb _ ops = true |- _ =>
      specialize (K a Ha); rewrite forallb_forall in K; apply K, Hb end.
  - intros a Ha. match goal with K : forall x, In x ops -> existsb _ ops = true |- _ =>
      specialize (K a Ha); rewrite existsb_exists in K; destruct K as (b & Hb & KK) end.
    apply andb_prop in KK as [K1 K2]. exists b. split; [assumption|].
    split; apply mat_eqb_eq; assumption.
  - intros a b c Ha Hb Hc. apply (matmul_assoc n); auto.
Qed.

Section Orbit.
  Context {w : R} {add mul : tau -> tau -> res tau} (A : arith_ok w add mul).
  Variable n : nat.
  Variable ops : list (list (list Z)).
  Hypothesis G : is_group n ops.
  Local Notation irr := (ao_irr _ _ _ A).

  Lemma blocks_spec l o c : (forall m, In m l -> square n m) -> goodo n o -> good n c ->
    wp (mapM (fun op => mapM (fun vts => symop_vecs_ add mul op vts c) o) l)
       (fun bs => Forall2 (fun op b => mapM (fun vts => symop_vecs_ add mul op vts c) o = Ok b
            /\ cgoodo n b
            /\ map (map (vals w)) b = map (map (fun v => act op (vals w c) (vals w v))) o) l bs).
  Proof.
    intros Hl Ho Hc. induction l as [|op l IH]; cbn [mapM].
    - constructor.
    - apply wp_bind.
      pose proof (symop_obj4_spec A op o c n (ig_pos _ _ G) (Hl op (or_introl eq_refl)) Ho Hc) as H.
      destruct (mapM (fun vts => symop_vecs_ add mul op vts c) o) as [b|] eqn:Eb; [|exact H].
      cbn [wp] in *. apply wp_bind. eapply wp_mono; [apply IH; intros; apply Hl; right; assumption|].
      intros bs Hbs. cbn. constructor; [|exact Hbs]. split; [exact Eb|exact H].
  Qed.

  Definition orbit_vals (o : obj4) (c : vec) (l : list (list (list Z))) : list (list (list R)) :=
    flat_map (fun op => map (map (fun v => act op (vals w c) (vals w v))) o) l.

  Lemma blocks_concat l o c bs :
    Forall2 (fun op b => mapM (fun vts => symop_vecs_ add mul op vts c) o = Ok b
            /\ cgoodo n b
            /\ map (map (vals w)) b = map (map (fun v => act op (vals w c) (vals w v))) o) l bs ->
    cgoodo n (concat bs) /\ map (map (vals w)) (concat bs) = orbit_vals o c l.
  Proof.
    induction 1 as [|op b l bs (_ & Cb & Vb) _ [IHC IHV]]; cbn.
    - split; [constructor|reflexivity].
    - split; [apply Forall_app; split; assumption|]. rewrite map_app, IHV, Vb. reflexivity.
  Qed.

  Lemma Forall2_length_concat l o c bs :
    Forall2 (fun op b => mapM (fun vts => symop_vecs_ add mul op vts c) o = Ok b
            /\ cgoodo n b
            /\ map (map (vals w)) b = map (map (fun v => act op (vals w c) (vals w v))) o) l bs ->
    length (concat bs) = (length l * length o)%nat.
  Proof.
    induction 1 as [|op b l bs (E & _) _ IH]; cbn; [reflexivity|].
    rewrite app_length, IH. apply mapM_length in E. lia.
  Qed.

  Lemma perm_map_vals a b : cgoodo n a -> cgoodo n b ->
    Permutation (map (map (vals w)) a) (map (map (vals w)) b) -> Permutation a b.
  Proof.
    intros Ca Cb P. apply Permutation_map_inv in P as (b' & E & P).
    assert (a = b') as ->; [|symmetry; exact P].
    apply (cgoodo_det A n); [exact Ca|apply (Permutation_Forall P); exact Cb|exact E].
  Qed.

  Lemma orbit_closed o c r op : goodo n o -> good n c -> In op ops ->
    generator_obj_symmetric_obj_ add mul ops (A4 o) c = Ok (Some (A4 r)) ->
    exists r', symop_obj_ add mul op (A4 r) c = Ok (Some (A4 r')) /\ Permutation r r'.
  Proof.
    intros Ho Hc Hop E. cbn [generator_obj_symmetric_obj_] in E.
    pose proof (blocks_spec ops o c (ig_sq _ _ G) Ho Hc) as HB.
    destruct (mapM (fun op0 => mapM (fun vts => symop_vecs_ add mul op0 vts c) o) ops) as [bs|]; [|discriminate].
    cbn in E, HB. injection E as <-.
    destruct (blocks_concat _ _ _ _ HB) as [CB VB].
    pose proof (symop_obj4_spec A op (concat bs) c n (ig_pos _ _ G) (ig_sq _ _ G op Hop) (cgoodo_goodo _ _ CB) Hc) as HS.
    cbn [symop_obj_].
    destruct (mapM (fun vts => symop_vecs_ add mul op vts c) (concat bs)) as [r'|]; [|contradiction].
    cbn in HS |- *. destruct HS as [CR VR]. exists r'. split; [reflexivity|].
    symmetry. apply perm_map_vals; [exact CR|exact CB|].
    rewrite VR, VB.
    assert (E' : map (map (fun v => act op (vals w c) (vals w v))) (concat bs)
            = map (map (act op (vals w c))) (map (map (vals w)) (concat bs))).
    { rewrite map_map. apply map_ext. intros l. rewrite map_map. reflexivity. }
    rewrite E', VB. unfold orbit_vals.
    transitivity (flat_map (fun op0 => map (map (fun v => act op0 (vals w c) (vals w v))) o) (map (matmul op) ops)).
    - match goal with |- Permutation ?a ?b => enough (a = b) as -> by reflexivity end.
      rewrite !flat_map_concat_map, concat_map, !map_map.
      f_equal. apply map_ext_in. intros R0 HR. rewrite map_map. apply map_ext_in. intros t Ht. rewrite map_map.
      apply map_ext_in. intros v Hv.
      assert (Gv : good n v).
      { eapply Forall_forall in Ho; [|exact Ht]. eapply Forall_forall in Ho; [|exact Hv]. exact Ho. }
      apply (act_compose R0 op _ _ n); try (rewrite vals_length; first [apply Gv|apply Hc]);
        [apply (ig_pos _ _ G)|apply (ig_sq _ _ G)..]; assumption.
    - apply Permutation_flat_map. symmetry. apply (group_left_perm n); assumption.
  Qed.
End Orbit.
