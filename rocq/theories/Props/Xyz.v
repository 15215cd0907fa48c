(** Files: C38, C39, C40, C54, C67. *)
From Coq Require Import Ascii String Reals List ZArith Bool Lia Lra.
From Verif Require Import Base.Res Model.Tau Model.Arr Model.Num Model.IcoVolume Model.Text Model.Xyz Model.Writers
  Spec.Value Spec.RVec Spec.Shape Spec.Geometry Spec.IcoSpec Spec.DodeSpec Spec.Sets Spec.TextSpec Spec.VestaSpec.
Import ListNotations.
Local Open Scope nat_scope.
Local Open Scope list_scope.
From Verif Require Import Proofs.P_Xyz.
Import ListNotations.

(** C38: what write_xyz writes, read_xyz reads back, for any number formatter that
    prints one word for each coordinate.  The name must not contain line breaks. *)
Theorem C38_round_trip : forall (ff : tau -> str) path base o, (forall t, field (ff t)) -> one_line path -> one_line base ->
  o <> [] -> tets o ->
  exists c, write_xyz ff (Some (A4 o)) path base "tetrahedron" = Ok (Some 0%Z, [(path ++ lit "/" ++ base ++ lit ".xyz", c)]) /\
    read_xyz c "tetrahedron" = Ok (Some (A4 o)) /\ read_xyz c "vertex" = Ok (Some (A3 (concat o))).
Proof. exact L_C38_round_trip. Qed.
Print Assumptions C38_round_trip.

(** The formatter of the code, '%8.6f' of the double computed by numeric_value,
    prints one word whatever the value (also for inf and nan). *)
Theorem C38_float_field : forall t, field (ico_ff t) /\ field (dode_ff t).
Proof. exact L_C38_float_field. Qed.
Print Assumptions C38_float_field.

(** Hence with IEEE doubles, for every set of tetrahedra. *)
Theorem C38_round_trip_double : forall path base o, one_line path -> one_line base -> o <> [] -> tets o ->
  exists c, write_xyz ico_ff (Some (A4 o)) path base "tetrahedron" = Ok (Some 0%Z, [(path ++ lit "/" ++ base ++ lit ".xyz", c)]) /\
    read_xyz c "tetrahedron" = Ok (Some (A4 o)).
Proof. exact L_C38_round_trip_double. Qed.
Print Assumptions C38_round_trip_double.

(** Sets of triangles and edges come back as the list of their vertices. *)
Theorem C38_triangles_edges : forall (ff : tau -> str) path base o select k, (forall t, field (ff t)) -> one_line path -> one_line base ->
  (select = "triangle"%string /\ k = 3 \/ select = "edge"%string /\ k = 2) -> o <> [] -> goodo 6 o -> Forall (fun t => length t = k) o ->
  exists c, write_xyz ff (Some (A4 o)) path base select = Ok (Some 0%Z, [(path ++ lit "/" ++ base ++ lit ".xyz", c)]) /\
    read_xyz c "vertex" = Ok (Some (A3 (concat o))).
Proof. exact L_C38_triangles_edges. Qed.
Print Assumptions C38_triangles_edges.

(** A header that announces no atoms makes the reader fail. *)
Theorem C38_no_atoms : forall num name, (num <= 0)%Z -> one_line name ->
  read_xyz (unlines [show_Z num; name]) "tetrahedron" = Raise UnboundLocalError /\
  read_xyz (unlines [show_Z num; name]) "vertex" = Raise UnboundLocalError.
Proof. exact L_C38_no_atoms. Qed.
Print Assumptions C38_no_atoms.

(** A line break in the name does break the round trip. *)
Theorem C38_name_refuted : exists base o c, o <> [] /\ tets o /\
  write_xyz ico_ff (Some (A4 o)) (lit ".") base "tetrahedron" = Ok (Some 0%Z, [(lit "./" ++ base ++ lit ".xyz", c)]) /\
  read_xyz c "tetrahedron" = Raise IndexError.
Proof. exact L_C38_name_refuted. Qed.
Print Assumptions C38_name_refuted.

Example C38_ex : tets [tet1; tet2] /\ one_line (lit "out/od") /\
  (exists c, write_xyz ico_ff (Some (A4 [tet1; tet2])) (lit "out") (lit "od") "tetrahedron" = Ok (Some 0%Z, [(lit "out/od.xyz", c)]) /\
     nth_error (read_lines c) 7 = Some (lit "Xx -194.164079 120.000000 0.000000 #   1-the tetrahedron 1-th vertex # -120 0 1 0 0 1 0 0 1 0 0 1 0 0 1 0 0 1")).
Proof. exact E_C38_ex. Qed.

(** C39: the lines of the file.  The total volume is right; the line for tetrahedron
    k shows the volume of the last tetrahedron, whatever k. *)
Theorem C39_lines : forall (ff : tau -> str) path base o, (forall t, field (ff t)) -> one_line path -> one_line base ->
  o <> [] -> tets o ->
  exists c atoms vol vlast, write_xyz ff (Some (A4 o)) path base "tetrahedron" = Ok (Some 0%Z, [(path ++ lit "/" ++ base ++ lit ".xyz", c)]) /\
    volume (A4 o) = Ok (Some vol) /\ volume (A3 (last o [])) = Ok (Some vlast) /\ length atoms = 4 * length o /\
    let show v := show_Z (ta v) ++ lit " " ++ show_Z (tb v) ++ lit " " ++ show_Z (tc v) ++ lit " (" ++ ff v ++ lit ")" in
    read_lines c = [show_nat (4 * length o); path ++ lit "/" ++ base ++ lit ".xyz"] ++ atoms ++ [lit "volume = " ++ show vol] ++
      map (fun k => pad " " 3 (show_nat k) ++ lit "-the tetrahedron, " ++ show vlast) (seq 0 (length o)).
Proof. exact L_C39_lines. Qed.
Print Assumptions C39_lines.

(** So the line of tetrahedron 0 is wrong for this object: its volume is not that of
    the last one. *)
Theorem C39_volumes_refuted : exists o c v0 line, tets o /\
  write_xyz ico_ff (Some (A4 o)) (lit ".") (lit "t") "tetrahedron" = Ok (Some 0%Z, [(lit "./t.xyz", c)]) /\
  volume (A3 (hd [] o)) = Ok (Some v0) /\ nth_error (read_lines c) (2 + 4 * length o + 1) = Some line /\
  line = lit "  0-the tetrahedron, 0 40 1 (64.721360)" /\ v0 = T 0 1 3.
Proof. exact L_C39_volumes_refuted. Qed.
Print Assumptions C39_volumes_refuted.

(** C40: return codes and reachability, for every value of the text arguments. *)
Theorem C40_write_none : forall N ff o path base format select,
  o = None \/ o = Some (A4 []) \/ o = Some (A3 []) -> write N ff o path base format select = Ok (Some 1%Z, []).
Proof. exact L_C40_write_none. Qed.
Print Assumptions C40_write_none.

(** Any format other than the four known ones: success is reported, nothing is
    written. *)
Theorem C40_unknown_format : forall N ff o path base format select, o <> [] -> goodo 6 o -> Forall (fun t => 2 <= length t) o ->
  ~ In format ["vesta"; "v"; "VESTA"; "xyz"]%string ->
  write N ff (Some (A4 o)) path base format select = Ok (Some 0%Z, []).
Proof. exact L_C40_unknown_format. Qed.
Print Assumptions C40_unknown_format.

(** write_xyz reports success only for a 4-d object and one of four selections, and
    then exactly one file was written; otherwise None and no file. *)
Theorem C40_xyz_codes : forall ff o path base select r fs, write_xyz ff o path base select = Ok (r, fs) ->
  (exists a c, o = Some (A4 a) /\ In select ["tetrahedron"; "triangle"; "edge"; "vertex"]%string /\ r = Some 0%Z /\
     fs = [(path ++ lit "/" ++ base ++ lit ".xyz", c)]) \/ (r = None /\ fs = []).
Proof. exact L_C40_xyz_codes. Qed.
Print Assumptions C40_xyz_codes.

(** No call with select='vertex' succeeds on a non-empty object: with a 4-d array it
    raises; with a list of vertices, (n,6,3), nothing is written. *)
Theorem C40_vertex : forall ff path base,
  (forall o, o <> [] -> goodo 6 o -> Forall (fun t => 2 <= length t) o ->
     write_xyz ff (Some (A4 o)) path base "vertex" = Raise TypeError) /\
  (forall vs select, write_xyz ff (Some (A3 vs)) path base select = Ok (None, [])).
Proof. exact L_C40_vertex. Qed.
Print Assumptions C40_vertex.

(** write(format='xyz') reports success although nothing was written. *)
Theorem C40_silent : forall N ff path base vs select, vs <> [] -> goods 6 vs ->
  write N ff (Some (A3 vs)) path base "xyz" select = Ok (Some 0%Z, []).
Proof. exact L_C40_silent. Qed.
Print Assumptions C40_silent.

(** write_vesta: the selection never matters, except that 'simple' raises; the value
    returned is never 1; the documented form of 'normal', one molecule per item, is
    never produced. *)
Theorem C40_vesta_select : forall N o s1 s2, s1 <> "simple"%string -> s2 <> "simple"%string ->
  write_vesta N o s1 = write_vesta N o s2.
Proof. exact L_C40_vesta_select. Qed.
Print Assumptions C40_vesta_select.

Theorem C40_vesta_simple : forall N o, o <> [] -> goodo 6 o -> Forall (fun t => 2 <= length t) o ->
  write_vesta N (Some (A4 o)) "simple" = Raise AttributeError.
Proof. exact L_C40_vesta_simple. Qed.
Print Assumptions C40_vesta_simple.

Theorem C40_vesta_reach : forall N o select r v, write_vesta N o select = Ok (r, v) ->
  r = Some 0%Z /\ (forall items, v <> VItems N items).
Proof. exact L_C40_vesta_reach. Qed.
Print Assumptions C40_vesta_reach.

(** So a tetrahedron exported with write(format='vesta') gets one bond, not its six
    edges. *)
Theorem C40_six_edges_refuted : exists t, tets [t] /\ exists path base atoms bonds,
  write Rnum ico_ff (Some (A4 [t])) path base "vesta" "normal" =
    Ok (Some 0%Z, [(path ++ lit "/" ++ base ++ lit ".vesta", CVesta Rnum (VBonds Rnum atoms bonds))]) /\
  length bonds = 1.
Proof. exact L_C40_six_edges_refuted. Qed.
Print Assumptions C40_six_edges_refuted.

Example C40_ex : goodo 6 [tet1] /\ Forall (fun t => 2 <= length t) [tet1] /\ ~ In "cif"%string ["vesta"; "v"; "VESTA"; "xyz"]%string /\
  write Bnum ico_ff (Some (A4 [tet1])) (lit ".") (lit "t") "cif" "tetrahedron" = Ok (Some 0%Z, []).
Proof. exact E_C40_ex. Qed.

(** C54: in dode2 the selection is ignored. *)
Theorem C54_select_ignored : forall ff o path base s1 s2, dwrite_xyz ff o path base s1 = dwrite_xyz ff o path base s2.
Proof. exact L_C54_select_ignored. Qed.
Print Assumptions C54_select_ignored.

(** The header announces three atoms per item; there is one atom line per vertex. *)
Theorem C54_lines : forall (ff : tau -> str) o path base select, (forall t, field (ff t)) -> one_line path -> one_line base ->
  o <> [] -> goodo 6 o -> Forall (fun t => 2 <= length t) o ->
  exists c atoms, dwrite_xyz ff (Some (A4 o)) path base select = Ok (Some 0%Z, [(path ++ lit "/" ++ base ++ lit ".xyz", c)]) /\
    read_lines c = [show_nat (3 * length o); path ++ lit "/" ++ base ++ lit ".xyz"] ++ atoms /\ length atoms = length (concat o).
Proof. exact L_C54_lines. Qed.
Print Assumptions C54_lines.

(** Reading such a file back: with fewer than three vertices per item on the whole the
    reader fails; otherwise it returns the first 3 n vertices, so that sets of
    triangles do come back unchanged. *)
Theorem C54_read : forall (ff : tau -> str) o path base select, (forall t, field (ff t)) -> one_line path -> one_line base ->
  o <> [] -> goodo 6 o -> Forall (fun t => 2 <= length t) o ->
  exists c, dwrite_xyz ff (Some (A4 o)) path base select = Ok (Some 0%Z, [(path ++ lit "/" ++ base ++ lit ".xyz", c)]) /\
    (length (concat o) < 3 * length o -> dread_xyz c "triangle" = Raise IndexError /\ dread_xyz c "vertex" = Raise IndexError) /\
    (3 * length o <= length (concat o) -> dread_xyz c "vertex" = Ok (Some (A3 (firstn (3 * length o) (concat o))))) /\
    (Forall (fun t => length t = 3) o -> dread_xyz c "triangle" = Ok (Some (A4 o))).
Proof. exact L_C54_read. Qed.
Print Assumptions C54_read.

(** In particular with doubles: triangles round-trip, edges never do. *)
Theorem C54_double : forall o path base select, one_line path -> one_line base -> o <> [] -> goodo 6 o ->
  (Forall (fun t => length t = 3) o -> exists c, dwrite_xyz dode_ff (Some (A4 o)) path base select = Ok (Some 0%Z, [(path ++ lit "/" ++ base ++ lit ".xyz", c)]) /\
    dread_xyz c "triangle" = Ok (Some (A4 o))) /\
  (Forall (fun t => length t = 2) o -> exists c, dwrite_xyz dode_ff (Some (A4 o)) path base select = Ok (Some 0%Z, [(path ++ lit "/" ++ base ++ lit ".xyz", c)]) /\
    dread_xyz c "vertex" = Raise IndexError).
Proof. exact L_C54_double. Qed.
Print Assumptions C54_double.

(** Return codes of write: None gives 0 (1 in ico2), an unknown format gives 1 (0 in
    ico2). *)
Theorem C54_codes : forall N ff o path base format select,
  (o = None -> dwrite N ff o path base format select = Ok (Some 0%Z, [])) /\
  (forall a, o = Some (A4 a) -> a <> [] -> goodo 6 a -> Forall (fun t => 2 <= length t) a -> ~ In format ["vesta"; "xyz"]%string ->
     dwrite N ff o path base format select = Ok (Some 1%Z, [])).
Proof. exact L_C54_codes. Qed.
Print Assumptions C54_codes.

Example C54_ex : goodo 6 [tri1] /\ goodo 6 [edge1; edge2] /\ one_line (lit ".") /\ ~ In "v"%string ["vesta"; "xyz"]%string /\
  (exists c, dwrite_xyz dode_ff (Some (A4 [edge1; edge2])) (lit ".") (lit "e") "edge" = Ok (Some 0%Z, [(lit "./e.xyz", c)]) /\
     nth_error (read_lines c) 0 = Some (lit "6") /\ length (read_lines c) = 6).
Proof. exact E_C54_ex. Qed.

(** C67: drawings of edges.  Each point of perpendicular space that is an end of an
    edge is one atom, and each edge is one bond between the atoms at its ends, with
    its length. *)
Theorem C67_edges : forall o select, o <> [] -> goodo 6 o -> Forall (fun e => 2 <= length e) o -> select <> "simple"%string ->
  exists atoms bonds, write_vesta Rnum (Some (A4 o)) select = Ok (Some 0%Z, VBonds Rnum atoms bonds) /\
    NoDup atoms /\ same_set atoms (map ppoint (concat o)) /\ Forall2 (joins ppoint atoms) o bonds.
Proof. exact L_C67_edges. Qed.
Print Assumptions C67_edges.

Theorem C67_dode_edges : forall o, o <> [] -> goodo 6 o -> Forall (fun e => 2 <= length e) o ->
  exists atoms bonds, dwrite_vesta Rnum (Some (A4 o)) "egdes" = Ok (Some 0%Z, VBonds Rnum atoms bonds) /\
    NoDup atoms /\ same_set atoms (map dppoint (concat o)) /\ Forall2 (joins dppoint atoms) o bonds.
Proof. exact L_C67_dode_edges. Qed.
Print Assumptions C67_dode_edges.

(** dode2 'normal': one molecule per item, with the projections of its vertices. *)
Theorem C67_dode_items : forall o, o <> [] -> goodo 6 o -> Forall (fun e => 2 <= length e) o ->
  dwrite_vesta Rnum (Some (A4 o)) "normal" = Ok (Some 0%Z, VItems Rnum (map (map dppoint) o)).
Proof. exact L_C67_dode_items. Qed.
Print Assumptions C67_dode_items.

(** The correctly spelt selection 'edges' is not known to dode2, and 'simple' and
    'podatm' raise. *)
Theorem C67_dode_selections : forall N o, o <> [] -> goodo 6 o -> Forall (fun e => 2 <= length e) o ->
  dwrite_vesta N (Some (A4 o)) "edges" = Ok (Some 1%Z, VEmpty N) /\
  dwrite_vesta N (Some (A4 o)) "simple" = Raise AttributeError /\
  dwrite_vesta N (Some (A4 o)) "podatm" = Raise AttributeError.
Proof. exact L_C67_dode_selections. Qed.
Print Assumptions C67_dode_selections.

Example C67_ex : goodo 6 [edge1; edge2] /\ Forall (fun e => 2 <= length e) [edge1; edge2] /\ "edges"%string <> "simple"%string.
Proof. exact E_C67_ex. Qed.
