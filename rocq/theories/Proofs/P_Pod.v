(** Data for the refinement program: C41, C42. *)
From Coq Require Import Reals List ZArith Bool Lia Lra.
From Verif Require Import Base.Res Model.Tau Model.Arr Model.Num Model.Pod
  Spec.Value Spec.RVec Spec.Shape Spec.IcoSpec Spec.DodeSpec Spec.Sets Spec.Samples Spec.PodSpec.
Import ListNotations.
Local Open Scope nat_scope.

From Verif Require Import Model.IcoMath1 Model.IcoDedup Model.Unique Proofs.ResLemmas Proofs.ValueLemmas Proofs.NumLemmas Proofs.DedupLemmas Proofs.IcoProj Proofs.PodLemmas.

(** C41: for vertices given as a list and rows of valid vertex numbers, each block of
    the .pod file lists each vertex the row refers to once, as its difference from the
    first vertex of the row, and the indices written spell out the rest of the row,
    entry by entry.  The .atm file has the position and the first vertex, shifted. *)
Lemma L_C41_blocks : forall v position shft vlist, goods 6 v -> length position = 6 -> length shft = 6 ->
  Forall (fun row => 2 <= length row /\ Forall (fun x => (1 <= x <= Z.of_nat (length v))%Z) row) vlist ->
  exists atm pods, write_podatm Rnum (PList v) position vlist shft = Ok (0%Z, Some (atm, pods)) /\
    Forall2 (fun row pd => exists used a,
      compacts used (pod_idx Rnum pd) (tl row) /\ pod_num Rnum pd = length used /\
      nth_error v (Z.to_nat (hd 0%Z row) - 1) = Some a /\
      Forall2 (fun u e => exists b, nth_error v (Z.to_nat u - 1) = Some b /\ e = vsub (vals TAU b) (vals TAU a)) used (pod_ej Rnum pd) /\
      pod_nth Rnum pd = ((Z.of_nat (length row) - 1) / 3)%Z) vlist pods /\
    Forall2 (fun row xs => exists a, nth_error v (Z.to_nat (hd 0%Z row) - 1) = Some a /\
      xs = (vals TAU position, vadd (vals TAU a) shft)) vlist atm.
Proof.
  intros v position shft vlist G Lp Ls H. unfold write_podatm.
  assert (A : exists atm, mapM (atm_block Rnum v position shft) vlist = Ok atm /\ Forall2 (fun row xs => exists a, nth_error v (Z.to_nat (hd 0%Z row) - 1) = Some a /\
      xs = (vals TAU position, vadd (vals TAU a) shft)) vlist atm).
  { induction H as [|row vlist Hr _ IH]; [exists []; split; [reflexivity|constructor]|].
    destruct IH as (atm & E & F2). destruct (atm_block_ok v position shft row G Lp Ls Hr) as (a & Na & Ea).
    cbn [mapM]. rewrite Ea. cbn [bind]. rewrite E. cbn [bind]. eexists. split; [reflexivity|]. constructor; [eauto|exact F2]. }
  destruct A as (atm & Ea & Fa). rewrite Ea. cbn [bind].
  assert (B : exists pods, mapM (pod_block Rnum v) vlist = Ok pods /\ Forall2 (fun row pd => exists used a,
      compacts used (pod_idx Rnum pd) (tl row) /\ pod_num Rnum pd = length used /\
      nth_error v (Z.to_nat (hd 0%Z row) - 1) = Some a /\
      Forall2 (fun u e => exists b, nth_error v (Z.to_nat u - 1) = Some b /\ e = vsub (vals TAU b) (vals TAU a)) used (pod_ej Rnum pd) /\
      pod_nth Rnum pd = ((Z.of_nat (length row) - 1) / 3)%Z) vlist pods).
  { clear - H G. induction H as [|row vlist Hr _ IH]; [exists []; split; [reflexivity|constructor]|].
    destruct IH as (pods & E & F2). destruct (pod_block_ok v row G Hr) as (pd & used & a & Ep & Q).
    cbn [mapM]. rewrite Ep. cbn [bind]. rewrite E. cbn [bind]. eexists. split; [reflexivity|]. constructor; [exists used, a; exact Q|exact F2]. }
  destruct B as (pods & Eb & Fb). rewrite Eb. cbn [bind]. exists atm, pods. auto.
Qed.

(** With three further vertices per tetrahedron the count after nth= is the number of
    tetrahedra, and there are three indices for each. *)
Lemma L_C41_count : forall v position shft row n, goods 6 v -> length position = 6 -> length shft = 6 -> 0 < n ->
  length row = 1 + 3 * n -> Forall (fun x => (1 <= x <= Z.of_nat (length v))%Z) row ->
  exists atm pd, write_podatm Rnum (PList v) position [row] shft = Ok (0%Z, Some (atm, [pd])) /\
    pod_nth Rnum pd = Z.of_nat n /\ length (pod_idx Rnum pd) = 3 * n.
Proof.
  intros v position shft row n G Lp Ls Hn L H.
  destruct (L_C41_blocks v position shft [row] G Lp Ls) as (atm & pods & E & F2 & _); [repeat constructor; [lia|exact H]|].
  inversion F2 as [|? pd ? pods' (used & a & (_ & _ & Sp) & _ & _ & _ & En) F3]; subst. inversion F3; subst.
  exists atm, pd. split; [exact E|]. split.
  - rewrite En, L. replace (Z.of_nat (1 + 3 * n) - 1)%Z with (Z.of_nat n * 3)%Z by lia. apply Z.div_mul. lia.
  - assert (Q : length (pod_idx Rnum pd) = length (tl row)) by (unfold spells in Sp; clear - Sp; induction Sp; cbn [length]; congruence).
    rewrite Q. destruct row; cbn [tl length] in *; lia.
Qed.

(** A numpy array as first argument, as documented, always raises. *)
Lemma L_C41_array_refuted : forall N vs position vlist shft, write_podatm N (PArray vs) position vlist shft = Raise ValueError.
Proof. reflexivity. Qed.

(** A row without a second entry raises, and the vertex number 0 is taken to be the
    last vertex. *)
Lemma L_C41_bad_rows : forall N v position shft x, goods 6 v -> length position = 6 -> length shft = 6 -> (1 <= x <= Z.of_nat (length v))%Z ->
  write_podatm N (PList v) position [[x]] shft = Raise IndexError /\
  (forall row, pod_block N v (0%Z :: row) = pod_block N v (Z.of_nat (length v) :: row)).
Proof.
  intros N v position shft x G Lp Ls Hx. destruct (pyget_ok v x Hx) as (a & Ea & Na). split.
  - unfold write_podatm. cbn [mapM]. unfold atm_block at 1. cbn [get nth_error bind]. rewrite Ea. cbn [bind].
    pose proof (proj2 (goods_in _ _ _ G (nth_error_In _ _ Na))) as La.
    do 7 (destruct a as [|? a]; try discriminate). do 7 (destruct position as [|? position]; try discriminate). do 7 (destruct shft as [|? shft]; try discriminate).
    unfold six. cbn [seq mapM get nth_error bind]. unfold pod_block. cbn [get nth_error bind]. rewrite Ea. reflexivity.
  - intros row. unfold pod_block. cbn [get nth_error bind].
    replace (pyget v (0 - 1)) with (pyget v (Z.of_nat (length v) - 1)); [reflexivity|].
    unfold pyget. rewrite (proj2 (Z.leb_le _ _)) by lia. change (0 <=? 0 - 1)%Z with false. cbv iota.
    rewrite (proj2 (Z.leb_le _ _)) by lia. reflexivity.
Qed.

Example E_C41_ex : goods 6 tetA /\ length o6 = 6 /\
  Forall (fun row => 2 <= length row /\ Forall (fun x => (1 <= x <= Z.of_nat (length tetA))%Z) row) [[1;2;3;4;4;3;2]%Z] /\
  add_new [(2 - 1)%Z] [3;4;4;3;2]%Z = [1;2;3]%Z.
Proof.
  split; [repeat (apply Forall_cons || apply Forall_nil || split); try reflexivity; unfold wf; cbn; lia|]. split; [reflexivity|].
  split; [|reflexivity]. constructor; [|constructor]. split; [cbn; lia|]. repeat (apply Forall_cons; [cbn; lia|]). apply Forall_nil.
Qed.

(** C42: obj2podatm reports success exactly when some vertex of the first tetrahedron
    occurs, in projection, in every tetrahedron, and then the .atm file has the first
    such vertex. *)
Lemma L_C42_outcome : forall N t rest, let o := t :: rest in tets o ->
  (exists i v pd, nth_error t i = Some v /\ common ppoint o v /\ (forall j u, j < i -> nth_error t j = Some u -> ~ common ppoint o u) /\
     obj2podatm N o = Ok (0%Z, Some (map (IcoNumeric.numeric_value N) v, pd))) \/
  ((forall u, In u t -> ~ common ppoint o u) /\ obj2podatm N o = Ok (1%Z, None)).
Proof.
  intros N t rest o H. apply (obj2podatm_outcome N 4 _ _ _ ppoint ico_proj_ok ico_dedup_ok t rest H).
Qed.

(** If the vertices differ in projection, the .pod data list each vertex other than
    the common one once, and the indices spell out the vertices other than it of all
    tetrahedra, in order.  The number after nth= is the number of vertices. *)
Lemma L_C42_table : forall t rest x pd, let o := t :: rest in tets o -> projection_faithful ppoint o ->
  Forall (fun t => NoDup (map ppoint t)) o ->
  obj2podatm Rnum o = Ok (0%Z, Some (x, pd)) ->
  exists v vtxs, In v t /\ common ppoint o v /\ x = vals TAU v /\
    (forall u, In u vtxs <-> In u (concat o) /\ u <> v) /\ NoDup vtxs /\
    (exists wanted, subseq wanted (concat o) /\ (forall u, In u wanted <-> In u (concat o) /\ u <> v) /\
       length wanted = 3 * length o /\ spells vtxs (pod_idx Rnum pd) wanted) /\
    pod_num Rnum pd = length vtxs /\ pod_ej Rnum pd = map (vals TAU) vtxs /\ pod_nth Rnum pd = Z.of_nat (length vtxs).
Proof.
  intros t rest x pd o H Fo Nd E.
  destruct (obj2podatm_table Rnum 4 _ _ _ ppoint ico_proj_ok ico_dedup_ok t rest x pd H Fo E) as (v & vtxs & Iv & C & Ex & Q).
  fold o in C, Q. assert (Iv' : In v (concat o)) by (cbn [o concat]; apply in_or_app; left; exact Iv).
  assert (Lo : length (others v o) = length o * (4 - 1)).
  { apply (others_count ppoint 4 o v C Fo Iv'). clear - H Nd. revert Nd. fold o in H. induction H as [|a l [La _] _ IH]; intros Nd; [constructor|].
    inversion Nd; subst. constructor; [auto|apply IH; assumption]. }
  destruct Q as ((N1 & S1 & Sp) & E1 & E2 & E3). { intros Z0. rewrite Z0 in Lo. cbn in Lo. discriminate. }
  exists v, vtxs. split; [exact Iv|]. split; [exact C|]. split; [rewrite Ex; apply numerical_vector_R|].
  split. { intros u. rewrite (S1 u). apply In_others. }
  split; [exact N1|]. split.
  - exists (others v o). split; [|split; [apply In_others|split; [lia|exact Sp]]].
    unfold others. clear. induction (concat o) as [|a l IH]; [constructor|]. cbn [filter]. destruct (negb _); [apply sub_take|apply sub_skip]; exact IH.
  - split; [exact E1|]. split; [|exact E3]. rewrite E2. apply map_ext. apply numerical_vector_R.
Qed.

(** The number after nth= should be the number of tetrahedra (write_podatm writes
    that); it is not. *)
Lemma L_C42_nth_refuted : exists o, tets o /\ projection_faithful ppoint o /\
  forall N, exists x pd, obj2podatm N o = Ok (0%Z, Some (x, pd)) /\ pod_nth N pd <> Z.of_nat (length o).
Proof.
  exists [tetA]. split; [repeat (apply Forall_cons || apply Forall_nil || split); try reflexivity; unfold wf; cbn; lia|]. split.
  - assert (ND : exists r, remove_doubling_in_perp_space (A3 tetA) = Ok r /\ length r = 4) by (eexists; split; vm_compute; reflexivity).
    destruct ND as (r & Er & Lr).
    assert (Gt : goods 6 tetA) by (repeat (apply Forall_cons || apply Forall_nil || split); try reflexivity; unfold wf; cbn; lia).
    pose proof (perp_space_card tetA r Gt Er) as (d & Nd & Sd & Ld). rewrite Lr in Ld.
    assert (Nt : NoDup (map ppoint tetA)).
    { eapply NoDup_incl_NoDup; [exact Nd|rewrite map_length, Ld; cbn; lia|intros p; apply Sd]. }
    intros u v Iu Iv E. cbn [concat] in Iu, Iv. rewrite app_nil_r in Iu, Iv.
    clear - Nt Iu Iv E. induction tetA as [|a l IH]; [destruct Iu|]. cbn [map] in Nt. inversion Nt as [|? ? Na Nl]; subst.
    destruct Iu as [->|Iu], Iv as [->|Iv]; try reflexivity.
    + exfalso. apply Na. rewrite E. apply in_map. exact Iv.
    + exfalso. apply Na. rewrite <- E. apply in_map. exact Iu.
    + apply IH; assumption.
  - intros N. unfold obj2podatm, obj2podatm_.
    assert (E1 : find_common_vertex 4 projection3 [tetA] = Ok (Some o6)) by (vm_compute; reflexivity). rewrite E1. cbn [bind].
    assert (E2 : exists r, remove_doubling_in_perp_space (A4 [tetA]) = Ok r /\ length (remove_vector r o6) = 3) by (eexists; split; vm_compute; reflexivity).
    destruct E2 as (r & Er & Lr). rewrite Er. cbn [bind]. eexists _, _. split; [reflexivity|]. cbn [pod_nth]. rewrite Lr. cbn. lia.
Qed.

(** If two vertices have the same projection, the indices no longer resolve: this
    object of two tetrahedra gets seven indices instead of six. *)
Definition k6 : vec := [T (-1) 1 1; T 1 0 1; T 0 0 1; T 1 (-1) 1; T 0 0 1; T 1 0 1].
Lemma L_C42_lifts_refuted : exists o, tets o /\
  forall N, exists x pd, obj2podatm N o = Ok (0%Z, Some (x, pd)) /\ length (pod_idx N pd) <> 3 * length o.
Proof.
  exists [[o6; x1; x2; x4]; [k6; x1; x2; x6]].
  split; [repeat (apply Forall_cons || apply Forall_nil || split); try reflexivity; unfold wf; cbn; lia|].
  intros N. unfold obj2podatm, obj2podatm_.
  assert (E1 : find_common_vertex 4 projection3 [[o6; x1; x2; x4]; [k6; x1; x2; x6]] = Ok (Some o6)) by (vm_compute; reflexivity). rewrite E1. cbn [bind].
  assert (E2 : exists r, remove_doubling_in_perp_space (A4 [[o6; x1; x2; x4]; [k6; x1; x2; x6]]) = Ok r /\
    length (concat (map (fun v => index_of v 0 (remove_vector r o6)) (concat [[o6; x1; x2; x4]; [k6; x1; x2; x6]]))) = 7) by (eexists; split; vm_compute; reflexivity).
  destruct E2 as (r & Er & Lr). rewrite Er. cbn [bind]. eexists _, _. split; [reflexivity|]. cbn [pod_idx]. rewrite Lr. cbn. lia.
Qed.

(** The same for dode2, with triangles. *)
Lemma L_C42_dode_outcome : forall N t rest, let o := t :: rest in tris o ->
  (exists i v pd, nth_error t i = Some v /\ common dppoint o v /\ (forall j u, j < i -> nth_error t j = Some u -> ~ common dppoint o u) /\
     dobj2podatm N o = Ok (0%Z, Some (map (DodeNumeric.dnumeric_value N) v, pd))) \/
  ((forall u, In u t -> ~ common dppoint o u) /\ dobj2podatm N o = Ok (1%Z, None)).
Proof.
  intros N t rest o H. apply (obj2podatm_outcome N 3 _ _ _ dppoint dode_proj_ok dode_dedup_ok t rest H).
Qed.
Lemma L_C42_dode_table : forall t rest x pd, let o := t :: rest in tris o -> projection_faithful dppoint o ->
  Forall (fun t => NoDup (map dppoint t)) o ->
  dobj2podatm Rnum o = Ok (0%Z, Some (x, pd)) ->
  exists v vtxs, In v t /\ common dppoint o v /\ x = vals SIN v /\
    (forall u, In u vtxs <-> In u (concat o) /\ u <> v) /\ NoDup vtxs /\
    (exists wanted, subseq wanted (concat o) /\ (forall u, In u wanted <-> In u (concat o) /\ u <> v) /\
       length wanted = 2 * length o /\ spells vtxs (pod_idx Rnum pd) wanted) /\
    pod_num Rnum pd = length vtxs /\ pod_ej Rnum pd = map (vals SIN) vtxs /\ pod_nth Rnum pd = Z.of_nat (length vtxs).
Proof.
  intros t rest x pd o H Fo Nd E.
  destruct (obj2podatm_table Rnum 3 _ _ _ dppoint dode_proj_ok dode_dedup_ok t rest x pd H Fo E) as (v & vtxs & Iv & C & Ex & Q).
  fold o in C, Q. assert (Iv' : In v (concat o)) by (cbn [o concat]; apply in_or_app; left; exact Iv).
  assert (Lo : length (others v o) = length o * (3 - 1)).
  { apply (others_count dppoint 3 o v C Fo Iv'). clear - H Nd. revert Nd. fold o in H. induction H as [|a l [La _] _ IH]; intros Nd; [constructor|].
    inversion Nd; subst. constructor; [auto|apply IH; assumption]. }
  destruct Q as ((N1 & S1 & Sp) & E1 & E2 & E3). { intros Z0. rewrite Z0 in Lo. cbn in Lo. discriminate. }
  exists v, vtxs. split; [exact Iv|]. split; [exact C|]. split; [exact Ex|].
  split. { intros u. rewrite (S1 u). apply In_others. }
  split; [exact N1|]. split.
  - exists (others v o). split; [|split; [apply In_others|split; [lia|exact Sp]]].
    unfold others. clear. induction (concat o) as [|a l IH]; [constructor|]. cbn [filter]. destruct (negb _); [apply sub_take|apply sub_skip]; exact IH.
  - split; [exact E1|]. split; [exact E2|exact E3].
Qed.

(** An empty object raises. *)
Lemma L_C42_empty : forall N, obj2podatm N [] = Raise IndexError /\ dobj2podatm N [] = Raise IndexError.
Proof. intros N. split; reflexivity. Qed.

Example E_C42_ex : tets [tetA; tetB] /\ (forall N, exists x pd, obj2podatm N [tetA; tetB] = Ok (0%Z, Some (x, pd)) /\
   pod_idx N pd = [4;1;3;4;1;2] /\ pod_num N pd = 4) /\
  (forall N, obj2podatm N [tetA; [iv [5;0;0;0;0;0]%Z; iv [0;5;0;0;0;0]%Z; iv [0;0;5;0;0;0]%Z; iv [0;0;0;5;0;0]%Z]] = Ok (1%Z, None)).
Proof.
  split; [repeat (apply Forall_cons || apply Forall_nil || split); try reflexivity; unfold wf; cbn; lia|]. split.
  - intros N. unfold obj2podatm, obj2podatm_.
    assert (E1 : find_common_vertex 4 projection3 [tetA; tetB] = Ok (Some o6)) by (vm_compute; reflexivity). rewrite E1. cbn [bind].
    assert (E2 : exists r, remove_doubling_in_perp_space (A4 [tetA; tetB]) = Ok r /\
      concat (map (fun v => index_of v 0 (remove_vector r o6)) (concat [tetA; tetB])) = [4;1;3;4;1;2] /\ length (remove_vector r o6) = 4) by (eexists; split; [|split]; vm_compute; reflexivity).
    destruct E2 as (r & Er & Ei & Lr). rewrite Er. cbn [bind]. eexists _, _. split; [reflexivity|]. cbn [pod_idx pod_num]. auto.
  - intros N. unfold obj2podatm, obj2podatm_.
    assert (E1 : find_common_vertex 4 projection3 [tetA; [iv [5;0;0;0;0;0]%Z; iv [0;5;0;0;0;0]%Z; iv [0;0;5;0;0;0]%Z; iv [0;0;0;5;0;0]%Z]] = Ok None) by (vm_compute; reflexivity). rewrite E1. reflexivity.
Qed.
