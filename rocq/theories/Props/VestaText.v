(** The text of .vesta files: C110. *)
From Coq Require Import Ascii String List ZArith Bool Reals.
From Flocq Require Import IEEE754.Binary.
From Verif Require Import Base.Res Model.Tau Model.Arr Model.Num Model.Text Model.Writers Model.VestaText
  Spec.LinAlg Spec.Value Spec.RVec Spec.Shape Spec.IcoSpec Spec.DodeSpec Spec.Sets Spec.Samples Spec.DodeSamples Spec.SpaceFloat Spec.PlaneFloat Spec.TextSpec Spec.PodText Spec.VestaText.
Import ListNotations.
Local Open Scope nat_scope.
Local Existing Instance textbook.
From Verif Require Import Proofs.P_VestaText.
Import ListNotations.

(** C110, ico2: the file write_vesta writes for a set of edges is one molecule with one atom
    for each distinct projected vertex, at its position to within 0.51e-6, each with its own
    label, which is also used in the tables of thermal parameters and of sites; two atoms are
    joined by a bond exactly if an edge joins their vertices; and all bonds have the colour
    asked for.  The coordinates are to be at most a million. *)
Theorem C110_edges : forall la A o select path base c r g b, (1 <= A <= 1000000)%R -> o <> [] -> goodo 6 o -> Forall (fun e => 2 <= length e) o -> select <> "simple"%string ->
  one_line path -> one_line base -> shade c (r, g, b) -> linalg_ok la ->
  (forall v, In v (concat o) -> spot_ok A v) -> (forall u v rest, In (u :: v :: rest) o -> gap_ok A u v) ->
  exists t m vs, write_vesta_text (@Bmath la) show_f8_6 (Some (A4 o)) path base c select = Ok (Some 0%Z, t) /\ read_vesta t = Ok [m] /\
    NoDup (map ppoint vs) /\ same_set (map ppoint vs) (map ppoint (concat o)) /\
    Forall2 (fun v a => Forall2 (writes 6 (51/100000000)) (ppoint v) (va_pos a)) vs (m_atoms m) /\
    NoDup (map va_label (m_atoms m)) /\ m_thermal m = map va_label (m_atoms m) /\ m_sites m = map va_label (m_atoms m) /\
    Forall (fun k => mapM py_int (vb_color k) = Ok [r; g; b]) (m_bonds m) /\
    forall i j u v a b, nth_error vs i = Some u -> nth_error vs j = Some v -> nth_error (m_atoms m) i = Some a -> nth_error (m_atoms m) j = Some b ->
      (draws m a b <-> exists p q rest, In (p :: q :: rest) o /\ ((ppoint p = ppoint u /\ ppoint q = ppoint v) \/ (ppoint p = ppoint v /\ ppoint q = ppoint u))).
Proof. exact L_C110_edges. Qed.
Print Assumptions C110_edges.

(** C110, dode2 with select='egdes': the file write_vesta writes for a set of edges is one molecule with one atom
    for each distinct projected vertex, at its position to within 0.51e-6, each with its own
    label, which is also used in the tables of thermal parameters and of sites; two atoms are
    joined by a bond exactly if an edge joins their vertices; and all bonds have the colour
    asked for.  The coordinates are to be at most a million. *)
Theorem C110_dode_edges : forall la A o path base c r g b, (1 <= A <= 1000000)%R -> o <> [] -> goodo 6 o -> Forall (fun e => 2 <= length e) o ->
  one_line path -> one_line base -> shade c (r, g, b) -> linalg_ok la ->
  (forall v, In v (concat o) -> dspot_ok A v) -> (forall u v rest, In (u :: v :: rest) o -> dgap_ok A u v) ->
  exists t m vs, dwrite_vesta_text (@Bmath la) show_f8_6 (Some (A4 o)) path base c "egdes" = Ok (Some 0%Z, t) /\ read_vesta t = Ok [m] /\
    NoDup (map dppoint vs) /\ same_set (map dppoint vs) (map dppoint (concat o)) /\
    Forall2 (fun v a => Forall2 (writes 6 (51/100000000)) (dppoint v) (va_pos a)) vs (m_atoms m) /\
    NoDup (map va_label (m_atoms m)) /\ m_thermal m = map va_label (m_atoms m) /\ m_sites m = map va_label (m_atoms m) /\
    Forall (fun k => mapM py_int (vb_color k) = Ok [r; g; b]) (m_bonds m) /\
    forall i j u v a b, nth_error vs i = Some u -> nth_error vs j = Some v -> nth_error (m_atoms m) i = Some a -> nth_error (m_atoms m) j = Some b ->
      (draws m a b <-> exists p q rest, In (p :: q :: rest) o /\ ((dppoint p = dppoint u /\ dppoint q = dppoint v) \/ (dppoint p = dppoint v /\ dppoint q = dppoint u))).
Proof. exact L_C110_dode_edges. Qed.
Print Assumptions C110_dode_edges.

(** C110, dode2 with select='normal': one molecule for each item, with its vertices in order,
    each at its position to within 0.51e-6; two atoms are joined exactly if they are no farther
    apart than 10, up to 1e-5, whether or not they belong to one edge. *)
Theorem C110_dode_items : forall la A o path base c r g b, (1 <= A <= 1000000)%R -> o <> [] -> goodo 6 o -> Forall (fun e => 2 <= length e) o ->
  one_line path -> one_line base -> shade c (r, g, b) -> (forall v, In v (concat o) -> dspot_ok A v) ->
  exists t ms, dwrite_vesta_text (@Bmath la) show_f8_6 (Some (A4 o)) path base c "normal" = Ok (Some 0%Z, t) /\ read_vesta t = Ok ms /\
    Forall2 (fun item m =>
      Forall2 (fun v a => Forall2 (writes 6 (51/100000000)) (dppoint v) (va_pos a)) item (m_atoms m) /\
      NoDup (map va_label (m_atoms m)) /\ m_thermal m = map va_label (m_atoms m) /\ m_sites m = map va_label (m_atoms m) /\
      Forall (fun k => mapM py_int (vb_color k) = Ok [r; g; b]) (m_bonds m) /\
      forall i j u v a b, nth_error item i = Some u -> nth_error item j = Some v -> nth_error (m_atoms m) i = Some a -> nth_error (m_atoms m) j = Some b ->
        ((dist_list (dppoint u) (dppoint v) <= 10 - 1/100000)%R -> draws m a b) /\ (draws m a b -> (dist_list (dppoint u) (dppoint v) <= 10 + 1/100000)%R)) o ms.
Proof. exact L_C110_dode_items. Qed.
Print Assumptions C110_dode_items.

(** C110, both packages: a name of three letters other than red makes the writers raise a
    TypeError, in the middle of the file, as soon as there is a bond to colour. *)
Theorem C110_colour_error : forall N f6 o path base s select r v, String.length s = 3 -> s <> "red"%string ->
  (exists atoms b bonds, v = VBonds N atoms (b :: bonds)) \/ (exists item items, v = VItems N (item :: items)) ->
  (write_vesta N o select = Ok (r, v) -> write_vesta_text N f6 o path base (Name s) select = Raise TypeError) /\
  (dwrite_vesta N o select = Ok (r, v) -> dwrite_vesta_text N f6 o path base (Name s) select = Raise TypeError).
Proof. exact L_C110_colour_error. Qed.
Print Assumptions C110_colour_error.

(** All other names stand for a colour. *)
Theorem C110_colour_names : forall s, (exists rgb, shade (Name s) rgb) <-> ~ (String.length s = 3 /\ s <> "red"%string).
Proof. exact L_C110_colour_names. Qed.
Print Assumptions C110_colour_names.

(** Both packages: edges in the colour "tan" cannot be written. *)
Theorem C110_colour_refuted : exists o, goodo 6 o /\ o = [[o6; x1]; [x1; x2]] /\
  write_vesta_text Bnum show_f8_6 (Some (A4 o)) (lit ".") (lit "tmp") (Name "tan") "egdes" = Raise TypeError /\
  dwrite_vesta_text Bnum show_f8_6 (Some (A4 o)) (lit ".") (lit "tmp") (Name "tan") "egdes" = Raise TypeError.
Proof. exact L_C110_colour_refuted. Qed.
Print Assumptions C110_colour_refuted.

(** dode2: a triangle with a side of length 12; the side is not drawn. *)
Theorem C110_dode_sides_refuted : exists o path base t m a b, goodo 6 o /\ o = [[o6; pl (T 12 0 1) (T 0 0 1); x3]] /\
  dwrite_vesta_text Bnum show_f8_6 (Some (A4 o)) path base (Name "k") "normal" = Ok (Some 0%Z, t) /\ read_vesta t = Ok [m] /\
  nth_error (m_atoms m) 0 = Some a /\ nth_error (m_atoms m) 1 = Some b /\ ~ draws m a b.
Proof. exact L_C110_dode_sides_refuted. Qed.
Print Assumptions C110_dode_sides_refuted.

(** Two edges with a common end meet all that is asked. *)
Example C110_ex : let o := [[o6; x1]; [x1; x2]] in linalg_ok textbook /\ goodo 6 o /\ Forall (fun e => 2 <= length e) o /\ shade (Name "b") (0, 0, 255)%Z /\
  (forall v, In v (concat o) -> spot_ok 10 v) /\ (forall u v rest, In (u :: v :: rest) o -> gap_ok 10 u v).
Proof. exact E_C110_ex. Qed.

(** A triangle meets what is asked of dode2. *)
Example C110_dode_ex : goodo 6 [triA] /\ Forall (fun e => 2 <= length e) [triA] /\ (forall v, In v (concat [triA]) -> dspot_ok 10 v) /\ (forall u v rest, In (u :: v :: rest) [triA] -> dgap_ok 10 u v).
Proof. exact E_C110_dode_ex. Qed.
