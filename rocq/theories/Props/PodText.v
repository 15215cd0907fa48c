(** The text of the .pod and .atm files: C109. *)
From Coq Require Import Ascii String List ZArith Bool Reals.
From Flocq Require Import IEEE754.Binary.
From Verif Require Import Base.Res Model.Tau Model.Arr Model.Num Model.Text Model.Pod Model.PodText
  Spec.Value Spec.RVec Spec.Shape Spec.IcoSpec Spec.DodeSpec Spec.Sets Spec.Samples Spec.PodSpec Spec.TextSpec Spec.PodText.
Import ListNotations.
Local Open Scope nat_scope.
Local Existing Instance textbook.
From Verif Require Import Proofs.P_PodText.
Import ListNotations.

(** C109: whatever numbers are printed, as long as each is printed as blanks and a word, the
    two files write_podatm writes can be read back: every entry and every atom with its number,
    in order, with the printed coordinates and with the counts and indices of the data. *)
Theorem C109_read : forall N f3 f6 v position vlist shft atm pods, (forall x, field (f3 x)) -> (forall x, field (f6 x)) ->
  write_podatm N (PList v) position vlist shft = Ok (0%Z, Some (atm, pods)) ->
  exists ta tp es ats, write_podatm_text N f3 f6 (PList v) position vlist shft = Ok (0%Z, Some (ta, tp)) /\
    read_pod tp = Ok es /\ read_atm ta = Ok ats /\
    map e_number es = map Z.of_nat (seq 1 (length pods)) /\
    map a_number ats = map Z.of_nat (seq 1 (length atm)) /\ map a_pod ats = map Z.of_nat (seq 1 (length atm)) /\
    Forall2 (fun p e => e_count e = Z.of_nat (pod_num N p) /\ Forall2 (Forall2 (prints f6)) (pod_ej N p) (e_ej e) /\
      e_nth e = pod_nth N p /\ e_idx e = map Z.of_nat (pod_idx N p)) pods es /\
    Forall2 (fun d a => Forall2 (prints f3) (fst d) (a_x a) /\ Forall2 (prints f6) (snd d) (a_xi a)) atm ats.
Proof. exact L_C109_read. Qed.
Print Assumptions C109_read.

(** C109: on the machine, what the files of write_podatm say when they are read is what was
    meant: each entry lists each vertex its row refers to once, as the difference from the first
    vertex of the row, each coordinate within 0.51 millionths; its indices spell out the row; and
    each atom has the position, within 0.51 thousandths, and its shifted first vertex. *)
Theorem C109_write_podatm : forall v position shft vlist, goods 6 v -> Forall (Forall modest) v ->
  good 6 position -> Forall modest position -> length shft = 6 ->
  Forall (fun s => is_finite 53 1024 s = true /\ (Rabs (B2R 53 1024 s) <= 2 ^ 20)%R) shft ->
  Forall (fun row => 2 <= length row /\ Forall (fun x => (1 <= x <= Z.of_nat (length v))%Z) row) vlist ->
  exists ta tp es ats, write_podatm_text Bnum show_f4_3 show_f8_6 (PList v) position vlist shft = Ok (0%Z, Some (ta, tp)) /\
    read_pod tp = Ok es /\ read_atm ta = Ok ats /\
    map e_number es = map Z.of_nat (seq 1 (length vlist)) /\
    map a_number ats = map Z.of_nat (seq 1 (length vlist)) /\ map a_pod ats = map Z.of_nat (seq 1 (length vlist)) /\
    Forall2 (fun row e => exists used a,
      compacts used (map Z.to_nat (e_idx e)) (tl row) /\ e_count e = Z.of_nat (length used) /\
      nth_error v (Z.to_nat (hd 0%Z row) - 1) = Some a /\
      Forall2 (fun u ws => exists b, nth_error v (Z.to_nat u - 1) = Some b /\
        Forall2 (writes 6 (51/100000000)) (vsub (vals TAU b) (vals TAU a)) ws) used (e_ej e) /\
      e_nth e = ((Z.of_nat (length row) - 1) / 3)%Z) vlist es /\
    Forall2 (fun row t => exists a, nth_error v (Z.to_nat (hd 0%Z row) - 1) = Some a /\
      Forall2 (writes 3 (51/100000)) (vals TAU position) (a_x t) /\
      Forall2 (writes 6 (51/100000000)) (vadd (vals TAU a) (map (B2R 53 1024) shft)) (a_xi t)) vlist ats.
Proof. exact L_C109_write_podatm. Qed.
Print Assumptions C109_write_podatm.

(** C109: what the files of obj2podatm say: the common vertex within 0.51 thousandths, each
    other vertex once, within 0.51 millionths, and indices that spell out the vertices other
    than the common one of all tetrahedra. *)
Theorem C109_obj2podatm : forall t rest serial, let o := t :: rest in tets o -> Forall (Forall (Forall modest)) o ->
  projection_faithful ppoint o -> Forall (fun t => NoDup (map ppoint t)) o -> (exists u, In u t /\ common ppoint o u) ->
  exists ta tp e xs v vtxs, obj2podatm_text Bnum show_f4_3 show_f8_6 o serial = Ok (0%Z, Some (ta, tp)) /\
    read_pod1 tp = Ok e /\ read_atm1 ta = Ok (serial, serial, xs) /\
    In v t /\ common ppoint o v /\ Forall2 (writes 3 (51/100000)) (vals TAU v) xs /\
    (forall u, In u vtxs <-> In u (concat o) /\ u <> v) /\ NoDup vtxs /\
    e_number e = serial /\ e_count e = Z.of_nat (length vtxs) /\ e_nth e = Z.of_nat (length vtxs) /\
    Forall2 (fun u ws => Forall2 (writes 6 (51/100000000)) (vals TAU u) ws) vtxs (e_ej e) /\
    (exists wanted, subseq wanted (concat o) /\ (forall u, In u wanted <-> In u (concat o) /\ u <> v) /\
       length wanted = 3 * length o /\ spells vtxs (map Z.to_nat (e_idx e)) wanted).
Proof. exact L_C109_obj2podatm. Qed.
Print Assumptions C109_obj2podatm.

Theorem C109_dode_obj2podatm : forall t rest serial, let o := t :: rest in tris o -> Forall (Forall (Forall modest)) o ->
  projection_faithful dppoint o -> Forall (fun t => NoDup (map dppoint t)) o -> (exists u, In u t /\ common dppoint o u) ->
  exists ta tp e xs v vtxs, dobj2podatm_text Bnum show_f4_3 show_f8_6 o serial = Ok (0%Z, Some (ta, tp)) /\
    read_pod1 tp = Ok e /\ read_atm1 ta = Ok (serial, serial, xs) /\
    In v t /\ common dppoint o v /\ Forall2 (writes 3 (51/100000)) (vals SIN v) xs /\
    (forall u, In u vtxs <-> In u (concat o) /\ u <> v) /\ NoDup vtxs /\
    e_number e = serial /\ e_count e = Z.of_nat (length vtxs) /\ e_nth e = Z.of_nat (length vtxs) /\
    Forall2 (fun u ws => Forall2 (writes 6 (51/100000000)) (vals SIN u) ws) vtxs (e_ej e) /\
    (exists wanted, subseq wanted (concat o) /\ (forall u, In u wanted <-> In u (concat o) /\ u <> v) /\
       length wanted = 2 * length o /\ spells vtxs (map Z.to_nat (e_idx e)) wanted).
Proof. exact L_C109_dode_obj2podatm. Qed.
Print Assumptions C109_dode_obj2podatm.

(** The position is not kept: three decimals make two different positions the same file. *)
Theorem C109_position_refuted : exists v position position' shft vlist d, good 6 position /\ good 6 position' /\
  Forall modest position /\ Forall modest position' /\ vals TAU position <> vals TAU position' /\
  write_podatm_text Bnum show_f4_3 show_f8_6 (PList v) position vlist shft = Ok (0%Z, Some d) /\
  write_podatm_text Bnum show_f4_3 show_f8_6 (PList v) position' vlist shft = Ok (0%Z, Some d).
Proof. exact L_C109_position_refuted. Qed.
Print Assumptions C109_position_refuted.

(** A tetrahedron at the origin, the row 1 2 3 4 4 3 2: the entry reads 3 vectors and the
    indices 1 2 3 3 2 1. *)
Example C109_ex : goods 6 tetA /\ Forall (Forall modest) tetA /\ good 6 o6 /\ Forall modest o6 /\
  exists ta tp e, write_podatm_text Bnum show_f4_3 show_f8_6 (PList tetA) o6 [[1;2;3;4;4;3;2]%Z] (repeat (fZ Bnum 0) 6) = Ok (0%Z, Some (ta, tp)) /\
    read_pod tp = Ok [e] /\ e_idx e = [1;2;3;3;2;1]%Z /\ e_nth e = 2%Z /\ e_count e = 3%Z /\
    nth 1 (e_ej e) [] = map lit ["0.000000"; "1.000000"; "0.000000"; "0.000000"; "0.000000"; "0.000000"]%string.
Proof. exact E_C109_ex. Qed.
