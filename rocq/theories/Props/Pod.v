(** Data for the refinement program: C41, C42. *)
From Coq Require Import Reals List ZArith Bool Lia Lra.
From Verif Require Import Base.Res Model.Tau Model.Arr Model.Num Model.Pod
  Spec.Value Spec.RVec Spec.Shape Spec.IcoSpec Spec.DodeSpec Spec.Sets Spec.Samples Spec.PodSpec.
Import ListNotations.
Local Open Scope nat_scope.
From Verif Require Import Proofs.P_Pod.
Import ListNotations.

(** C41: for vertices given as a list and rows of valid vertex numbers, each block of
    the .pod file lists each vertex the row refers to once, as its difference from the
    first vertex of the row, and the indices written spell out the rest of the row,
    entry by entry.  The .atm file has the position and the first vertex, shifted. *)
Theorem C41_blocks : forall v position shft vlist, goods 6 v -> length position = 6 -> length shft = 6 ->
  Forall (fun row => 2 <= length row /\ Forall (fun x => (1 <= x <= Z.of_nat (length v))%Z) row) vlist ->
  exists atm pods, write_podatm Rnum (PList v) position vlist shft = Ok (0%Z, Some (atm, pods)) /\
    Forall2 (fun row pd => exists used a,
      compacts used (pod_idx Rnum pd) (tl row) /\ pod_num Rnum pd = length used /\
      nth_error v (Z.to_nat (hd 0%Z row) - 1) = Some a /\
      Forall2 (fun u e => exists b, nth_error v (Z.to_nat u - 1) = Some b /\ e = vsub (vals TAU b) (vals TAU a)) used (pod_ej Rnum pd) /\
      pod_nth Rnum pd = ((Z.of_nat (length row) - 1) / 3)%Z) vlist pods /\
    Forall2 (fun row xs => exists a, nth_error v (Z.to_nat (hd 0%Z row) - 1) = Some a /\
      xs = (vals TAU position, vadd (vals TAU a) shft)) vlist atm.
Proof. exact L_C41_blocks. Qed.
Print Assumptions C41_blocks.

(** With three further vertices per tetrahedron the count after nth= is the number of
    tetrahedra, and there are three indices for each. *)
Theorem C41_count : forall v position shft row n, goods 6 v -> length position = 6 -> length shft = 6 -> 0 < n ->
  length row = 1 + 3 * n -> Forall (fun x => (1 <= x <= Z.of_nat (length v))%Z) row ->
  exists atm pd, write_podatm Rnum (PList v) position [row] shft = Ok (0%Z, Some (atm, [pd])) /\
    pod_nth Rnum pd = Z.of_nat n /\ length (pod_idx Rnum pd) = 3 * n.
Proof. exact L_C41_count. Qed.
Print Assumptions C41_count.

(** A numpy array as first argument, as documented, always raises. *)
Theorem C41_array_refuted : forall N vs position vlist shft, write_podatm N (PArray vs) position vlist shft = Raise ValueError.
Proof. exact L_C41_array_refuted. Qed.
Print Assumptions C41_array_refuted.

(** A row without a second entry raises, and the vertex number 0 is taken to be the
    last vertex. *)
Theorem C41_bad_rows : forall N v position shft x, goods 6 v -> length position = 6 -> length shft = 6 -> (1 <= x <= Z.of_nat (length v))%Z ->
  write_podatm N (PList v) position [[x]] shft = Raise IndexError /\
  (forall row, pod_block N v (0%Z :: row) = pod_block N v (Z.of_nat (length v) :: row)).
Proof. exact L_C41_bad_rows. Qed.
Print Assumptions C41_bad_rows.

Example C41_ex : goods 6 tetA /\ length o6 = 6 /\
  Forall (fun row => 2 <= length row /\ Forall (fun x => (1 <= x <= Z.of_nat (length tetA))%Z) row) [[1;2;3;4;4;3;2]%Z] /\
  add_new [(2 - 1)%Z] [3;4;4;3;2]%Z = [1;2;3]%Z.
Proof. exact E_C41_ex. Qed.

(** C42: obj2podatm reports success exactly when some vertex of the first tetrahedron
    occurs, in projection, in every tetrahedron, and then the .atm file has the first
    such vertex. *)
Theorem C42_outcome : forall N t rest, let o := t :: rest in tets o ->
  (exists i v pd, nth_error t i = Some v /\ common ppoint o v /\ (forall j u, j < i -> nth_error t j = Some u -> ~ common ppoint o u) /\
     obj2podatm N o = Ok (0%Z, Some (map (IcoNumeric.numeric_value N) v, pd))) \/
  ((forall u, In u t -> ~ common ppoint o u) /\ obj2podatm N o = Ok (1%Z, None)).
Proof. exact L_C42_outcome. Qed.
Print Assumptions C42_outcome.

(** If the vertices differ in projection, the .pod data list each vertex other than
    the common one once, and the indices spell out the vertices other than it of all
    tetrahedra, in order.  The number after nth= is the number of vertices. *)
Theorem C42_table : forall t rest x pd, let o := t :: rest in tets o -> projection_faithful ppoint o ->
  Forall (fun t => NoDup (map ppoint t)) o ->
  obj2podatm Rnum o = Ok (0%Z, Some (x, pd)) ->
  exists v vtxs, In v t /\ common ppoint o v /\ x = vals TAU v /\
    (forall u, In u vtxs <-> In u (concat o) /\ u <> v) /\ NoDup vtxs /\
    (exists wanted, subseq wanted (concat o) /\ (forall u, In u wanted <-> In u (concat o) /\ u <> v) /\
       length wanted = 3 * length o /\ spells vtxs (pod_idx Rnum pd) wanted) /\
    pod_num Rnum pd = length vtxs /\ pod_ej Rnum pd = map (vals TAU) vtxs /\ pod_nth Rnum pd = Z.of_nat (length vtxs).
Proof. exact L_C42_table. Qed.
Print Assumptions C42_table.

(** The number after nth= should be the number of tetrahedra (write_podatm writes
    that); it is not. *)
Theorem C42_nth_refuted : exists o, tets o /\ projection_faithful ppoint o /\
  forall N, exists x pd, obj2podatm N o = Ok (0%Z, Some (x, pd)) /\ pod_nth N pd <> Z.of_nat (length o).
Proof. exact L_C42_nth_refuted. Qed.
Print Assumptions C42_nth_refuted.

Theorem C42_lifts_refuted : exists o, tets o /\
  forall N, exists x pd, obj2podatm N o = Ok (0%Z, Some (x, pd)) /\ length (pod_idx N pd) <> 3 * length o.
Proof. exact L_C42_lifts_refuted. Qed.
Print Assumptions C42_lifts_refuted.

(** The same for dode2, with triangles. *)
Theorem C42_dode_outcome : forall N t rest, let o := t :: rest in tris o ->
  (exists i v pd, nth_error t i = Some v /\ common dppoint o v /\ (forall j u, j < i -> nth_error t j = Some u -> ~ common dppoint o u) /\
     dobj2podatm N o = Ok (0%Z, Some (map (DodeNumeric.dnumeric_value N) v, pd))) \/
  ((forall u, In u t -> ~ common dppoint o u) /\ dobj2podatm N o = Ok (1%Z, None)).
Proof. exact L_C42_dode_outcome. Qed.
Print Assumptions C42_dode_outcome.

Theorem C42_dode_table : forall t rest x pd, let o := t :: rest in tris o -> projection_faithful dppoint o ->
  Forall (fun t => NoDup (map dppoint t)) o ->
  dobj2podatm Rnum o = Ok (0%Z, Some (x, pd)) ->
  exists v vtxs, In v t /\ common dppoint o v /\ x = vals SIN v /\
    (forall u, In u vtxs <-> In u (concat o) /\ u <> v) /\ NoDup vtxs /\
    (exists wanted, subseq wanted (concat o) /\ (forall u, In u wanted <-> In u (concat o) /\ u <> v) /\
       length wanted = 2 * length o /\ spells vtxs (pod_idx Rnum pd) wanted) /\
    pod_num Rnum pd = length vtxs /\ pod_ej Rnum pd = map (vals SIN) vtxs /\ pod_nth Rnum pd = Z.of_nat (length vtxs).
Proof. exact L_C42_dode_table. Qed.
Print Assumptions C42_dode_table.

(** An empty object raises. *)
Theorem C42_empty : forall N, obj2podatm N [] = Raise IndexError /\ dobj2podatm N [] = Raise IndexError.
Proof. exact L_C42_empty. Qed.
Print Assumptions C42_empty.

Example C42_ex : tets [tetA; tetB] /\ (forall N, exists x pd, obj2podatm N [tetA; tetB] = Ok (0%Z, Some (x, pd)) /\
   pod_idx N pd = [4;1;3;4;1;2] /\ pod_num N pd = 4) /\
  (forall N, obj2podatm N [tetA; [iv [5;0;0;0;0;0]%Z; iv [0;5;0;0;0;0]%Z; iv [0;0;5;0;0;0]%Z; iv [0;0;0;5;0;0]%Z]] = Ok (1%Z, None)).
Proof. exact E_C42_ex. Qed.
