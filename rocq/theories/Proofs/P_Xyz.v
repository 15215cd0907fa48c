(** Files: C38, C39, C40, C54, C67. *)
From Coq Require Import Ascii String Reals List ZArith Bool Lia Lra.
From Verif Require Import Base.Res Model.Tau Model.Arr Model.Num Model.IcoVolume Model.Text Model.Xyz Model.Writers
  Spec.Value Spec.RVec Spec.Shape Spec.Geometry Spec.IcoSpec Spec.DodeSpec Spec.Sets Spec.TextSpec Spec.VestaSpec.
Import ListNotations.
Local Open Scope nat_scope.
Local Open Scope list_scope.

From Verif Require Import Proofs.ResLemmas Proofs.ValueLemmas Proofs.TextLemmas Proofs.XyzLemmas Proofs.VestaLemmas.

Local Lemma tets_goodo' o : tets o -> goodo 6 o.
Proof. apply Forall_impl. intros t H. apply H. Qed.
Local Lemma tets_len o : tets o -> Forall (fun t => length t = 4) o.
Proof. apply Forall_impl. intros t H. apply H. Qed.
Local Lemma one_line_xyz : one_line (lit ".xyz").
Proof. apply one_line_dec. reflexivity. Qed.

(** C38: what write_xyz writes, read_xyz reads back, for any number formatter that
    prints one word for each coordinate.  The name must not contain line breaks. *)
Lemma L_C38_round_trip : forall (ff : tau -> str) path base o, (forall t, field (ff t)) -> one_line path -> one_line base ->
  o <> [] -> tets o ->
  exists c, write_xyz ff (Some (A4 o)) path base "tetrahedron" = Ok (Some 0%Z, [(path ++ lit "/" ++ base ++ lit ".xyz", c)]) /\
    read_xyz c "tetrahedron" = Ok (Some (A4 o)) /\ read_xyz c "vertex" = Ok (Some (A3 (concat o))).
Proof.
  intros ff path base o Hf Hp Hb N H. unfold write_xyz.
  rewrite (all_none_some o 4) by (auto using tets_goodo', tets_len; lia). cbn [String.eqb Ascii.eqb Bool.eqb].
  destruct (xyz_tetrahedron_ok ff Hf o (file_name path base (lit ".xyz")) N H) as (c & s & vol & vl & E & Hs & _ & _ & Ec).
  rewrite E. cbn [bind]. exists c. split; [reflexivity|].
  assert (O : one_line (file_name path base (lit ".xyz"))) by (apply one_line_file_name; auto using one_line_xyz).
  assert (R : read_rows c = Ok (Z.of_nat (length (concat o)), map ints (concat o))).
  { rewrite Ec. apply read_rows_ok; [exact Hs|exact O|]. constructor.
    - apply one_line_app; [apply one_line_dec; reflexivity|apply one_line_volume; exact Hf].
    - apply Forall_forall. intros l Hl. apply in_map_iff in Hl as (i & <- & _). apply one_line_app; [apply one_line_field, field_pad, show_nat_word|].
      apply one_line_app; [apply one_line_dec; reflexivity|apply one_line_volume; exact Hf]. }
  unfold read_xyz. rewrite R. cbn [bind String.eqb Ascii.eqb Bool.eqb]. split.
  - rewrite reshape4_ok by (auto using tets_goodo', tets_len; lia). reflexivity.
  - rewrite reshape3_ok; [reflexivity| |apply goodo_concat, tets_goodo'; exact H].
    destruct o as [|t o]; [congruence|]. inversion H as [|? ? [L _] _]; subst. destruct t; discriminate.
Qed.

(** The formatter of the code, '%8.6f' of the double computed by numeric_value,
    prints one word whatever the value (also for inf and nan). *)
Lemma L_C38_float_field : forall t, field (ico_ff t) /\ field (dode_ff t).
Proof. intros t. split; apply show_f8_6_field. Qed.

(** Hence with IEEE doubles, for every set of tetrahedra. *)
Lemma L_C38_round_trip_double : forall path base o, one_line path -> one_line base -> o <> [] -> tets o ->
  exists c, write_xyz ico_ff (Some (A4 o)) path base "tetrahedron" = Ok (Some 0%Z, [(path ++ lit "/" ++ base ++ lit ".xyz", c)]) /\
    read_xyz c "tetrahedron" = Ok (Some (A4 o)).
Proof.
  intros path base o Hp Hb N H. destruct (L_C38_round_trip ico_ff path base o (fun t => proj1 (L_C38_float_field t)) Hp Hb N H) as (c & E & R & _).
  eauto.
Qed.

(** Sets of triangles and edges come back as the list of their vertices. *)
Lemma L_C38_triangles_edges : forall (ff : tau -> str) path base o select k, (forall t, field (ff t)) -> one_line path -> one_line base ->
  (select = "triangle"%string /\ k = 3 \/ select = "edge"%string /\ k = 2) -> o <> [] -> goodo 6 o -> Forall (fun t => length t = k) o ->
  exists c, write_xyz ff (Some (A4 o)) path base select = Ok (Some 0%Z, [(path ++ lit "/" ++ base ++ lit ".xyz", c)]) /\
    read_xyz c "vertex" = Ok (Some (A3 (concat o))).
Proof.
  intros ff path base o select k Hf Hp Hb Hs N G L. unfold write_xyz.
  assert (Hk : 0 < k) by (destruct Hs as [[_ ->]|[_ ->]]; lia).
  rewrite (all_none_some o k) by auto.
  assert (O : one_line (file_name path base (lit ".xyz"))) by (apply one_line_file_name; auto using one_line_xyz).
  assert (W : word (lit select)) by (destruct Hs as [[-> _]|[-> _]]; apply word_dec; reflexivity).
  destruct (xyz_items_ok ff Hf select k o (file_name path base (lit ".xyz")) W G L) as (s & E & H).
  exists (header (length (concat o)) (file_name path base (lit ".xyz")) ++ s). split.
  - destruct Hs as [[-> ->]|[-> ->]]; cbn [String.eqb Ascii.eqb Bool.eqb]; rewrite E; reflexivity.
  - unfold read_xyz. pose proof (read_rows_ok s (concat o) (file_name path base (lit ".xyz")) [] H O (Forall_nil _)) as R.
    unfold unlines in R. cbn [map concat] in R. rewrite app_nil_r in R. rewrite R. cbn [bind String.eqb Ascii.eqb Bool.eqb].
    rewrite reshape3_ok; [reflexivity| |apply goodo_concat; exact G].
    destruct o as [|t o]; [congruence|]. inversion L as [|? ? Lt _]; subst. destruct t; [cbn in Hk; lia|discriminate].
Qed.

(** A header that announces no atoms makes the reader fail. *)
Lemma L_C38_no_atoms : forall num name, (num <= 0)%Z -> one_line name ->
  read_xyz (unlines [show_Z num; name]) "tetrahedron" = Raise UnboundLocalError /\
  read_xyz (unlines [show_Z num; name]) "vertex" = Raise UnboundLocalError.
Proof.
  intros num name Hn Hname.
  assert (R : read_rows (unlines [show_Z num; name]) = Ok (num, [])).
  { unfold read_rows. rewrite read_unlines by (repeat (constructor; try apply one_line_show; try exact Hname)).
    cbn [get nth_error bind]. rewrite words_word by apply show_Z_word. cbn [get nth_error bind]. rewrite py_int_show. cbn [bind].
    replace (Z.to_nat num) with 0 by lia. reflexivity. }
  unfold read_xyz. rewrite R. split; reflexivity.
Qed.

Definition iv (a b c d e f : Z) : vec := map (fun x => T x 0 1) [a;b;c;d;e;f].
Definition tet1 : vecs := [iv 0 0 0 0 0 0; iv 1 0 0 0 0 0; iv 0 1 0 0 0 0; iv 0 0 1 0 0 0].
Definition tet2 : vecs := [iv 0 0 0 0 0 0; iv (-120) 0 0 0 0 0; iv 0 1 0 0 0 0; iv 0 0 1 0 0 0].
Local Ltac tetgo := repeat (apply Forall_cons || apply Forall_nil || split); try reflexivity; unfold wf, iv; cbn; lia.

(** A line break in the name does break the round trip. *)
Lemma L_C38_name_refuted : exists base o c, o <> [] /\ tets o /\
  write_xyz ico_ff (Some (A4 o)) (lit ".") base "tetrahedron" = Ok (Some 0%Z, [(lit "./" ++ base ++ lit ".xyz", c)]) /\
  read_xyz c "tetrahedron" = Raise IndexError.
Proof.
  exists (lit "a" ++ [nl] ++ lit "b"), [tet1].
  destruct (write_xyz ico_ff (Some (A4 [tet1])) (lit ".") (lit "a" ++ [nl] ++ lit "b") "tetrahedron") as [[r [|[n c] fs]]|] eqn:E;
    try (vm_compute in E; discriminate E).
  exists c. split; [discriminate|]. split; [tetgo|].
  vm_compute in E. injection E as <- <- <- <-. split; vm_compute; reflexivity.
Qed.

Example E_C38_ex : tets [tet1; tet2] /\ one_line (lit "out/od") /\
  (exists c, write_xyz ico_ff (Some (A4 [tet1; tet2])) (lit "out") (lit "od") "tetrahedron" = Ok (Some 0%Z, [(lit "out/od.xyz", c)]) /\
     nth_error (read_lines c) 7 = Some (lit "Xx -194.164079 120.000000 0.000000 #   1-the tetrahedron 1-th vertex # -120 0 1 0 0 1 0 0 1 0 0 1 0 0 1 0 0 1")).
Proof.
  split; [tetgo|]. split; [apply one_line_dec; reflexivity|].
  destruct (write_xyz ico_ff (Some (A4 [tet1; tet2])) (lit "out") (lit "od") "tetrahedron") as [[r [|[n c] fs]]|] eqn:E;
    try (vm_compute in E; discriminate E).
  exists c. vm_compute in E. injection E as <- <- <- <-. split; vm_compute; reflexivity.
Qed.

(** C39: the lines of the file.  The total volume is right; the line for tetrahedron
    k shows the volume of the last tetrahedron, whatever k. *)
Lemma L_C39_lines : forall (ff : tau -> str) path base o, (forall t, field (ff t)) -> one_line path -> one_line base ->
  o <> [] -> tets o ->
  exists c atoms vol vlast, write_xyz ff (Some (A4 o)) path base "tetrahedron" = Ok (Some 0%Z, [(path ++ lit "/" ++ base ++ lit ".xyz", c)]) /\
    volume (A4 o) = Ok (Some vol) /\ volume (A3 (last o [])) = Ok (Some vlast) /\ length atoms = 4 * length o /\
    let show v := show_Z (ta v) ++ lit " " ++ show_Z (tb v) ++ lit " " ++ show_Z (tc v) ++ lit " (" ++ ff v ++ lit ")" in
    read_lines c = [show_nat (4 * length o); path ++ lit "/" ++ base ++ lit ".xyz"] ++ atoms ++ [lit "volume = " ++ show vol] ++
      map (fun k => pad " " 3 (show_nat k) ++ lit "-the tetrahedron, " ++ show vlast) (seq 0 (length o)).
Proof.
  intros ff path base o Hf Hp Hb N H. unfold write_xyz.
  rewrite (all_none_some o 4) by (auto using tets_goodo', tets_len; lia). cbn [String.eqb Ascii.eqb Bool.eqb].
  destruct (xyz_tetrahedron_ok ff Hf o (file_name path base (lit ".xyz")) N H) as (c & s & vol & vl & E & (ls & -> & Ol & Ml) & Ev & El & Ec).
  rewrite E. cbn [bind]. exists c, ls, vol, vl. split; [reflexivity|]. split; [exact Ev|]. split; [exact El|].
  assert (O : one_line (file_name path base (lit ".xyz"))) by (apply one_line_file_name; auto using one_line_xyz).
  assert (L : length (concat o) = 4 * length o) by (rewrite (length_concat 4) by (apply tets_len; exact H); lia).
  split. { apply mapM_length in Ml. rewrite map_length in Ml. lia. }
  cbv zeta.
  assert (V : forall v, show_Z (ta v) ++ lit " " ++ show_Z (tb v) ++ lit " " ++ show_Z (tc v) ++ lit " (" ++ ff v ++ lit ")" = vtext ff v).
  { intros v. unfold vtext, show_tau. repeat (rewrite <- !app_assoc; cbn [app]). reflexivity. }
  rewrite V. rewrite Ec, L.
  replace (header (4 * length o) (file_name path base (lit ".xyz")) ++ unlines ls ++ unlines ((lit "volume = " ++ vtext ff vol) ::
        map (fun i => pad sp 3 (show_nat i) ++ lit "-the tetrahedron, " ++ vtext ff vl) (seq 0 (length o))))
    with (unlines ([show_nat (4 * length o); file_name path base (lit ".xyz")] ++ ls ++ [lit "volume = " ++ vtext ff vol] ++
        map (fun i => pad sp 3 (show_nat i) ++ lit "-the tetrahedron, " ++ vtext ff vl) (seq 0 (length o)))).
  2: { rewrite !unlines_app, !unlines_cons. unfold header. change (unlines []) with (@nil ascii). repeat (rewrite <- !app_assoc; cbn [app]). reflexivity. }
  rewrite read_unlines.
  - f_equal. f_equal. f_equal. apply map_ext. intros k. rewrite V. reflexivity.
  - constructor; [apply one_line_word, show_nat_word|]. constructor; [exact O|]. apply Forall_app. split; [exact Ol|]. constructor.
    + apply one_line_app; [apply one_line_dec; reflexivity|apply one_line_volume; exact Hf].
    + apply Forall_forall. intros l Hl. apply in_map_iff in Hl as (i & <- & _). apply one_line_app; [apply one_line_field, field_pad, show_nat_word|].
      apply one_line_app; [apply one_line_dec; reflexivity|apply one_line_volume; exact Hf].
Qed.

(** So the line of tetrahedron 0 is wrong for this object: its volume is not that of
    the last one. *)
Lemma L_C39_volumes_refuted : exists o c v0 line, tets o /\
  write_xyz ico_ff (Some (A4 o)) (lit ".") (lit "t") "tetrahedron" = Ok (Some 0%Z, [(lit "./t.xyz", c)]) /\
  volume (A3 (hd [] o)) = Ok (Some v0) /\ nth_error (read_lines c) (2 + 4 * length o + 1) = Some line /\
  line = lit "  0-the tetrahedron, 0 40 1 (64.721360)" /\ v0 = T 0 1 3.
Proof.
  exists [tet1; tet2].
  destruct (write_xyz ico_ff (Some (A4 [tet1; tet2])) (lit ".") (lit "t") "tetrahedron") as [[r [|[n c] fs]]|] eqn:E;
    try (vm_compute in E; discriminate E).
  exists c, (T 0 1 3), (lit "  0-the tetrahedron, 0 40 1 (64.721360)").
  split; [tetgo|]. vm_compute in E. injection E as <- <- <- <-. repeat split; vm_compute; reflexivity.
Qed.

(** C40: return codes and reachability, for every value of the text arguments. *)
Lemma L_C40_write_none : forall N ff o path base format select,
  o = None \/ o = Some (A4 []) \/ o = Some (A3 []) -> write N ff o path base format select = Ok (Some 1%Z, []).
Proof. intros N ff o path base format select [->|[->| -> ]]; reflexivity. Qed.

(** Any format other than the four known ones: success is reported, nothing is
    written. *)
Lemma L_C40_unknown_format : forall N ff o path base format select, o <> [] -> goodo 6 o -> Forall (fun t => 2 <= length t) o ->
  ~ In format ["vesta"; "v"; "VESTA"; "xyz"]%string ->
  write N ff (Some (A4 o)) path base format select = Ok (Some 0%Z, []).
Proof.
  intros N ff o path base format select No G L H. unfold write. rewrite all_none_edges by assumption.
  assert (Q : forall s, In s ["vesta"; "v"; "VESTA"; "xyz"]%string -> String.eqb format s = false).
  { intros s Hs. apply String.eqb_neq. intros ->. apply H, Hs. }
  rewrite !Q by (cbn; auto). reflexivity.
Qed.

(** write_xyz reports success only for a 4-d object and one of four selections, and
    then exactly one file was written; otherwise None and no file. *)
Lemma L_C40_xyz_codes : forall ff o path base select r fs, write_xyz ff o path base select = Ok (r, fs) ->
  (exists a c, o = Some (A4 a) /\ In select ["tetrahedron"; "triangle"; "edge"; "vertex"]%string /\ r = Some 0%Z /\
     fs = [(path ++ lit "/" ++ base ++ lit ".xyz", c)]) \/ (r = None /\ fs = []).
Proof.
  intros ff o path base select r fs. unfold write_xyz. destruct (all_none o); [intros E; injection E as <- <-; auto|].
  destruct o as [[a|a|a|a|a|]|]; try (intros E; injection E as <- <-; auto; fail).
  assert (Q : forall s (m : res str), (bind m (fun c => Ok (Some 0%Z, [(file_name path base (lit ".xyz"), c)]))) = Ok (r, fs) -> select = s ->
     In s ["tetrahedron"; "triangle"; "edge"; "vertex"]%string ->
     (exists a0 c, Some (A4 a) = Some (A4 a0) /\ In select ["tetrahedron"; "triangle"; "edge"; "vertex"]%string /\ r = Some 0%Z /\
     fs = [(path ++ lit "/" ++ base ++ lit ".xyz", c)]) \/ (r = None /\ fs = [])).
  { intros s m E -> I. left. destruct m as [c|]; [|discriminate]. cbn [bind] in E. injection E as <- <-. exists a, c. auto. }
  destruct (String.eqb_spec select "tetrahedron") as [E|_]; [intros H; eapply Q; [exact H|exact E|cbn; auto]|].
  destruct (String.eqb_spec select "triangle") as [E|_]; [intros H; eapply Q; [exact H|exact E|cbn; auto]|].
  destruct (String.eqb_spec select "edge") as [E|_]; [intros H; eapply Q; [exact H|exact E|cbn; auto]|].
  destruct (String.eqb_spec select "vertex") as [E|_]; [intros H; eapply Q; [exact H|exact E|cbn; auto 6]|].
  intros H. injection H as <- <-. auto.
Qed.

(** No call with select='vertex' succeeds on a non-empty object: with a 4-d array it
    raises; with a list of vertices, (n,6,3), nothing is written. *)
Lemma L_C40_vertex : forall ff path base,
  (forall o, o <> [] -> goodo 6 o -> Forall (fun t => 2 <= length t) o ->
     write_xyz ff (Some (A4 o)) path base "vertex" = Raise TypeError) /\
  (forall vs select, write_xyz ff (Some (A3 vs)) path base select = Ok (None, [])).
Proof.
  intros ff path base. split.
  - intros o N G L. unfold write_xyz. rewrite all_none_edges by assumption. cbn [String.eqb Ascii.eqb Bool.eqb].
    destruct o; [congruence|reflexivity].
  - intros vs select. unfold write_xyz. destruct (all_none _); reflexivity.
Qed.

(** write(format='xyz') reports success although nothing was written. *)
Lemma L_C40_silent : forall N ff path base vs select, vs <> [] -> goods 6 vs ->
  write N ff (Some (A3 vs)) path base "xyz" select = Ok (Some 0%Z, []).
Proof.
  intros N ff path base vs select Nv G. unfold write.
  assert (E : all_none (Some (A3 vs)) = false).
  { destruct vs as [|v vs]; [congruence|]. inversion G as [|? ? [_ L] _]; subst. destruct v; [discriminate|reflexivity]. }
  rewrite E. cbn [String.eqb Ascii.eqb Bool.eqb orb]. rewrite (proj2 (L_C40_vertex ff path base)). reflexivity.
Qed.

(** write_vesta: the selection never matters, except that 'simple' raises; the value
    returned is never 1; the documented form of 'normal', one molecule per item, is
    never produced. *)
Lemma L_C40_vesta_select : forall N o s1 s2, s1 <> "simple"%string -> s2 <> "simple"%string ->
  write_vesta N o s1 = write_vesta N o s2.
Proof.
  intros N o s1 s2 H1 H2. unfold write_vesta. rewrite !orb_true_r.
  rewrite (proj2 (String.eqb_neq _ _) H1), (proj2 (String.eqb_neq _ _) H2). reflexivity.
Qed.
Lemma L_C40_vesta_simple : forall N o, o <> [] -> goodo 6 o -> Forall (fun t => 2 <= length t) o ->
  write_vesta N (Some (A4 o)) "simple" = Raise AttributeError.
Proof. intros N o No G L. unfold write_vesta. rewrite all_none_edges by assumption. reflexivity. Qed.
Lemma L_C40_vesta_reach : forall N o select r v, write_vesta N o select = Ok (r, v) ->
  r = Some 0%Z /\ (forall items, v <> VItems N items).
Proof.
  intros N o select r v. unfold write_vesta. rewrite orb_true_r.
  destruct (all_none o); [intros E; injection E as <- <-; split; [reflexivity|discriminate]|].
  destruct (String.eqb select "simple"); [discriminate|]. destruct o as [[a|a|a|a|a|]|]; try discriminate.
  destruct (IcoDedup.remove_doubling_in_perp_space (A4 a)); [|discriminate]. cbn [bind].
  destruct (mapM _ a); [|discriminate]. cbn [bind]. destruct (mapM _ _); [|discriminate]. cbn [bind].
  intros E. injection E as <- <-. split; [reflexivity|discriminate].
Qed.

(** So a tetrahedron exported with write(format='vesta') gets one bond, not its six
    edges. *)
Lemma L_C40_six_edges_refuted : exists t, tets [t] /\ exists path base atoms bonds,
  write Rnum ico_ff (Some (A4 [t])) path base "vesta" "normal" =
    Ok (Some 0%Z, [(path ++ lit "/" ++ base ++ lit ".vesta", CVesta Rnum (VBonds Rnum atoms bonds))]) /\
  length bonds = 1.
Proof.
  exists tet1. split; [tetgo|]. exists (lit "."), (lit "t").
  destruct (vesta_bonds [tet1] "normal") as (atoms & bonds & E & _ & _ & F2); [discriminate|tetgo|repeat constructor|discriminate|].
  exists atoms, bonds. unfold write. rewrite (all_none_edges [tet1]); [|discriminate|tetgo|repeat constructor].
  cbn [String.eqb Ascii.eqb Bool.eqb orb]. rewrite E. cbn [bind]. split; [reflexivity|].
  inversion F2 as [|? b ? bs _ F3]; subst. inversion F3; subst. reflexivity.
Qed.

Example E_C40_ex : goodo 6 [tet1] /\ Forall (fun t => 2 <= length t) [tet1] /\ ~ In "cif"%string ["vesta"; "v"; "VESTA"; "xyz"]%string /\
  write Bnum ico_ff (Some (A4 [tet1])) (lit ".") (lit "t") "cif" "tetrahedron" = Ok (Some 0%Z, []).
Proof. split; [tetgo|]. split; [repeat constructor|]. assert (H : ~ In "cif"%string ["vesta"; "v"; "VESTA"; "xyz"]%string) by (cbn; intuition discriminate).
  split; [exact H|]. apply L_C40_unknown_format; [discriminate|tetgo|repeat constructor|exact H]. Qed.

(** C54: in dode2 the selection is ignored. *)
Lemma L_C54_select_ignored : forall ff o path base s1 s2, dwrite_xyz ff o path base s1 = dwrite_xyz ff o path base s2.
Proof. intros. unfold dwrite_xyz. rewrite !orb_true_r. reflexivity. Qed.

(** The header announces three atoms per item; there is one atom line per vertex. *)
Lemma L_C54_lines : forall (ff : tau -> str) o path base select, (forall t, field (ff t)) -> one_line path -> one_line base ->
  o <> [] -> goodo 6 o -> Forall (fun t => 2 <= length t) o ->
  exists c atoms, dwrite_xyz ff (Some (A4 o)) path base select = Ok (Some 0%Z, [(path ++ lit "/" ++ base ++ lit ".xyz", c)]) /\
    read_lines c = [show_nat (3 * length o); path ++ lit "/" ++ base ++ lit ".xyz"] ++ atoms /\ length atoms = length (concat o).
Proof.
  intros ff o path base select Hf Hp Hb N G L. unfold dwrite_xyz. rewrite orb_true_r, all_none_edges by assumption.
  destruct (dxyz_triangle_ok ff Hf o (file_name path base (lit ".xyz")) G) as (s & E & (ls & -> & Ol & Ml)).
  rewrite E. cbn [bind]. eexists _, ls. split; [reflexivity|].
  assert (O : one_line (file_name path base (lit ".xyz"))) by (apply one_line_file_name; auto using one_line_xyz).
  split; [|apply mapM_length in Ml; rewrite map_length in Ml; lia].
  replace (header (length o * 3) (file_name path base (lit ".xyz")) ++ unlines ls)
    with (unlines ([show_nat (length o * 3); file_name path base (lit ".xyz")] ++ ls)).
  2: { rewrite unlines_app, !unlines_cons. unfold header. change (unlines []) with (@nil ascii). repeat (rewrite <- !app_assoc; cbn [app]). reflexivity. }
  rewrite read_unlines by (apply Forall_app; split; [|exact Ol]; constructor; [apply one_line_word, show_nat_word|constructor; [exact O|constructor]]).
  rewrite (Nat.mul_comm 3). reflexivity.
Qed.

(** Reading such a file back: with fewer than three vertices per item on the whole the
    reader fails; otherwise it returns the first 3 n vertices, so that sets of
    triangles do come back unchanged. *)
Lemma L_C54_read : forall (ff : tau -> str) o path base select, (forall t, field (ff t)) -> one_line path -> one_line base ->
  o <> [] -> goodo 6 o -> Forall (fun t => 2 <= length t) o ->
  exists c, dwrite_xyz ff (Some (A4 o)) path base select = Ok (Some 0%Z, [(path ++ lit "/" ++ base ++ lit ".xyz", c)]) /\
    (length (concat o) < 3 * length o -> dread_xyz c "triangle" = Raise IndexError /\ dread_xyz c "vertex" = Raise IndexError) /\
    (3 * length o <= length (concat o) -> dread_xyz c "vertex" = Ok (Some (A3 (firstn (3 * length o) (concat o))))) /\
    (Forall (fun t => length t = 3) o -> dread_xyz c "triangle" = Ok (Some (A4 o))).
Proof.
  intros ff o path base select Hf Hp Hb N G L. unfold dwrite_xyz. rewrite orb_true_r, all_none_edges by assumption.
  destruct (dxyz_triangle_ok ff Hf o (file_name path base (lit ".xyz")) G) as (s & E & H).
  rewrite E. cbn [bind]. eexists. split; [reflexivity|].
  assert (O : one_line (file_name path base (lit ".xyz"))) by (apply one_line_file_name; auto using one_line_xyz).
  pose proof (read_rows_any s (concat o) (file_name path base (lit ".xyz")) (length o * 3) H O) as R.
  unfold dread_xyz. rewrite R. rewrite (Nat.mul_comm 3).
  split; [|split].
  - intros Lt. rewrite (proj2 (Nat.leb_gt _ _)) by lia. split; reflexivity.
  - intros Le. rewrite (proj2 (Nat.leb_le _ _)) by lia. cbn [bind String.eqb Ascii.eqb Bool.eqb]. rewrite reshape3_ok; [reflexivity| |].
    + destruct o as [|t o]; [congruence|]. cbn [length]. intros Q. apply (f_equal (@length _)) in Q. cbn [length] in Le. rewrite firstn_length in Q. cbn [length] in Q. lia.
    + apply goodo_concat in G. unfold goods in *. rewrite Forall_forall in *. intros v Hv. apply G.
      rewrite <- (firstn_skipn (length o * 3)). apply in_or_app. left. exact Hv.
  - intros L3. assert (LL : length (concat o) = length o * 3) by (apply length_concat; exact L3).
    rewrite LL, Nat.leb_refl. cbn [bind String.eqb Ascii.eqb Bool.eqb].
    rewrite <- LL, firstn_all. rewrite reshape4_ok by (auto; lia). reflexivity.
Qed.

(** In particular with doubles: triangles round-trip, edges never do. *)
Lemma L_C54_double : forall o path base select, one_line path -> one_line base -> o <> [] -> goodo 6 o ->
  (Forall (fun t => length t = 3) o -> exists c, dwrite_xyz dode_ff (Some (A4 o)) path base select = Ok (Some 0%Z, [(path ++ lit "/" ++ base ++ lit ".xyz", c)]) /\
    dread_xyz c "triangle" = Ok (Some (A4 o))) /\
  (Forall (fun t => length t = 2) o -> exists c, dwrite_xyz dode_ff (Some (A4 o)) path base select = Ok (Some 0%Z, [(path ++ lit "/" ++ base ++ lit ".xyz", c)]) /\
    dread_xyz c "vertex" = Raise IndexError).
Proof.
  intros o path base select Hp Hb N G. split; intros L.
  - destruct (L_C54_read dode_ff o path base select (fun t => proj2 (L_C38_float_field t)) Hp Hb N G) as (c & E & _ & _ & R);
      [eapply Forall_impl; [|exact L]; cbv beta; intros; lia|]. eauto.
  - destruct (L_C54_read dode_ff o path base select (fun t => proj2 (L_C38_float_field t)) Hp Hb N G) as (c & E & R & _);
      [eapply Forall_impl; [|exact L]; cbv beta; intros; lia|]. exists c. split; [exact E|]. apply R.
    rewrite (length_concat 2) by exact L. destruct o; [congruence|cbn [length]; lia].
Qed.

(** Return codes of write: None gives 0 (1 in ico2), an unknown format gives 1 (0 in
    ico2). *)
Lemma L_C54_codes : forall N ff o path base format select,
  (o = None -> dwrite N ff o path base format select = Ok (Some 0%Z, [])) /\
  (forall a, o = Some (A4 a) -> a <> [] -> goodo 6 a -> Forall (fun t => 2 <= length t) a -> ~ In format ["vesta"; "xyz"]%string ->
     dwrite N ff o path base format select = Ok (Some 1%Z, [])).
Proof.
  intros N ff o path base format select. split; [intros ->; reflexivity|].
  intros a -> Na G L H. unfold dwrite. rewrite all_none_edges by assumption.
  assert (Q : forall s, In s ["vesta"; "xyz"]%string -> String.eqb format s = false).
  { intros s Hs. apply String.eqb_neq. intros ->. apply H, Hs. }
  rewrite !Q by (cbn; auto). reflexivity.
Qed.

Definition tri1 : vecs := [iv 0 0 0 0 0 0; iv 1 0 0 0 0 0; iv 0 1 0 0 0 0].
Definition edge1 : vecs := [iv 0 0 0 0 0 0; iv 1 0 0 0 0 0].
Definition edge2 : vecs := [iv 1 0 0 0 0 0; iv 0 1 0 0 0 0].
Example E_C54_ex : goodo 6 [tri1] /\ goodo 6 [edge1; edge2] /\ one_line (lit ".") /\ ~ In "v"%string ["vesta"; "xyz"]%string /\
  (exists c, dwrite_xyz dode_ff (Some (A4 [edge1; edge2])) (lit ".") (lit "e") "edge" = Ok (Some 0%Z, [(lit "./e.xyz", c)]) /\
     nth_error (read_lines c) 0 = Some (lit "6") /\ length (read_lines c) = 6).
Proof.
  split; [tetgo|]. split; [tetgo|]. split; [apply one_line_dec; reflexivity|]. split; [cbn; intuition discriminate|].
  destruct (dwrite_xyz dode_ff (Some (A4 [edge1; edge2])) (lit ".") (lit "e") "edge") as [[r [|[n c] fs]]|] eqn:E;
    try (vm_compute in E; discriminate E).
  exists c. vm_compute in E. injection E as <- <- <- <-. repeat split; vm_compute; reflexivity.
Qed.

(** C67: drawings of edges.  Each point of perpendicular space that is an end of an
    edge is one atom, and each edge is one bond between the atoms at its ends, with
    its length. *)
Lemma L_C67_edges : forall o select, o <> [] -> goodo 6 o -> Forall (fun e => 2 <= length e) o -> select <> "simple"%string ->
  exists atoms bonds, write_vesta Rnum (Some (A4 o)) select = Ok (Some 0%Z, VBonds Rnum atoms bonds) /\
    NoDup atoms /\ same_set atoms (map ppoint (concat o)) /\ Forall2 (joins ppoint atoms) o bonds.
Proof. exact vesta_bonds. Qed.
Lemma L_C67_dode_edges : forall o, o <> [] -> goodo 6 o -> Forall (fun e => 2 <= length e) o ->
  exists atoms bonds, dwrite_vesta Rnum (Some (A4 o)) "egdes" = Ok (Some 0%Z, VBonds Rnum atoms bonds) /\
    NoDup atoms /\ same_set atoms (map dppoint (concat o)) /\ Forall2 (joins dppoint atoms) o bonds.
Proof. exact dvesta_bonds. Qed.
(** dode2 'normal': one molecule per item, with the projections of its vertices. *)
Lemma L_C67_dode_items : forall o, o <> [] -> goodo 6 o -> Forall (fun e => 2 <= length e) o ->
  dwrite_vesta Rnum (Some (A4 o)) "normal" = Ok (Some 0%Z, VItems Rnum (map (map dppoint) o)).
Proof. exact dvesta_items. Qed.
(** The correctly spelt selection 'edges' is not known to dode2, and 'simple' and
    'podatm' raise. *)
Lemma L_C67_dode_selections : forall N o, o <> [] -> goodo 6 o -> Forall (fun e => 2 <= length e) o ->
  dwrite_vesta N (Some (A4 o)) "edges" = Ok (Some 1%Z, VEmpty N) /\
  dwrite_vesta N (Some (A4 o)) "simple" = Raise AttributeError /\
  dwrite_vesta N (Some (A4 o)) "podatm" = Raise AttributeError.
Proof.
  intros N o No G L. unfold dwrite_vesta. rewrite all_none_edges by assumption. repeat split.
Qed.
Example E_C67_ex : goodo 6 [edge1; edge2] /\ Forall (fun e => 2 <= length e) [edge1; edge2] /\ "edges"%string <> "simple"%string.
Proof. split; [tetgo|]. split; [repeat constructor|discriminate]. Qed.
