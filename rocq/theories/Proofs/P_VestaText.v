(** The text of .vesta files: C110. *)
From Coq Require Import Ascii String List ZArith Bool Reals.
From Flocq Require Import IEEE754.Binary.
From Verif Require Import Base.Res Model.Tau Model.Arr Model.Num Model.Text Model.Writers Model.VestaText
  Spec.LinAlg Spec.Value Spec.RVec Spec.Shape Spec.IcoSpec Spec.DodeSpec Spec.Sets Spec.Samples Spec.DodeSamples Spec.SpaceFloat Spec.PlaneFloat Spec.TextSpec Spec.PodText Spec.VestaText.
Import ListNotations.
Local Open Scope nat_scope.
Local Existing Instance textbook.

From Coq Require Import Lia Lra.
From Verif Require Import Model.PodText Model.IcoMath1 Model.IcoNumeric Model.IcoIntersect Model.DodeMath1 Model.DodeNumeric Spec.Space Spec.Plane Spec.Float Proofs.ResLemmas Proofs.ValueLemmas Proofs.NumLemmas Proofs.IcoProj Proofs.DodeProj
  Proofs.DedupLemmas Proofs.DodeDedupLemmas Proofs.Irrational Proofs.TextLemmas Proofs.RoundLemmas Proofs.FloatCalc Proofs.FloatGeom Proofs.FloatBall Proofs.DodeFloat Proofs.DodeFloatBall Proofs.PodTextLemmas Proofs.PodNumLemmas
  Proofs.LinAlgLemmas Proofs.VestaLemmas Proofs.VestaTextLemmas Proofs.VestaDraw Proofs.P_DodeOverlap.

Lemma shade_colors c rgb : shade c rgb -> colors c = Some rgb.
Proof.
  destruct c as [s|l].
  - cbn [shade]. intros [H|(N & L & ->)].
    + unfold palette in H. cbn [In] in H. repeat destruct H as [H|H]; try (injection H as <- <-; reflexivity). destruct H.
    + unfold colors. assert (Q : forall x, In x (map fst palette) -> String.eqb s x = false).
      { intros x Hx. apply String.eqb_neq. intros ->. contradiction. }
      rewrite !Q by (cbn; tauto). cbn [orb]. rewrite (proj2 (Nat.eqb_neq _ _) L). reflexivity.
  - cbn [shade colors]. destruct l as [|a [|b [|c [|]]]]; intros ->; reflexivity.
Qed.
Lemma colour_words la rgb bonds ks : Forall2 (is_vbond (@Bmath la) show_f8_6 rgb) bonds ks -> Forall (fun k => mapM py_int (vb_color k) = Ok (let '(r, g, b) := rgb in [r; g; b])) ks.
Proof.
  induction 1 as [|[[d i] j] k bonds ks H _ IH]; constructor; [|exact IH]. destruct rgb as [[r g] b]. destruct H as (_ & _ & _ & _ & ->). apply mapM_py_int.
Qed.
Lemma sited_nodup sym m : sited sym m -> NoDup (map va_label (m_atoms m)).
Proof.
  intros (E & _). rewrite E. apply FinFun.Injective_map_NoDup; [|apply seq_NoDup]. intros i j. apply label_inj.
Qed.
Lemma near_printed point xs vs ats : Forall2 (fun x v => Forall2 near8 x (point v)) xs vs -> Forall2 (fun x a => Forall2 (prints show_f8_6) x (va_pos a)) xs ats ->
  Forall2 (fun (v : vec) a => Forall2 (writes 6 (51/100000000)) (point v) (va_pos a)) vs ats.
Proof.
  intros H. revert ats. induction H as [|x v xs vs Hx _ IH]; intros ats K; inversion K; subst; constructor; [eapply printeds; eassumption|auto].
Qed.
Lemma near_len point xs vs : (forall v, length (point v) = 3) -> Forall2 (fun x (v : vec) => Forall2 near8 x (point v)) xs vs -> Forall (fun x => length x = 3) xs.
Proof. intros L H. induction H as [|x v xs vs Hx _ IH]; constructor; [rewrite (F2_length _ _ _ Hx); apply L|exact IH]. Qed.
Lemma ppoint_len v : length (ppoint v) = 3. Proof. reflexivity. Qed.
Lemma dppoint_len v : length (dppoint v) = 3. Proof. reflexivity. Qed.
Lemma spot_apx la A v : (1 <= A <= 1000000)%R -> good 6 v -> spot_ok A v -> exists x, atom_of (@Bmath la) v = Ok x /\ Forall2 near8 x (ppoint v).
Proof.
  intros HA G S. unfold atom_of. pose proof (projection3_spec v G) as P. apply wp_elim in P as (p & Ep & _ & Vp). rewrite Ep. cbn [bind]. eexists. split; [reflexivity|].
  specialize (S p Ep). change (ppoint v) with (perp (vals TAU v)). rewrite <- Vp. clear - S HA. unfold numerical_vector, vals. induction S as [|t p Ht _ IH]; cbn [map]; constructor; [|exact IH].
  destruct (coef_apx A t Ht) as [[Fx Hx] _]. split; [exact Fx|]. eapply Rle_trans; [exact Hx|]. unfold k0. lra.
Qed.
Lemma dspot_apx la A v : (1 <= A <= 1000000)%R -> good 6 v -> dspot_ok A v -> exists x, datom_of (@Bmath la) v = Ok x /\ Forall2 near8 x (dppoint v).
Proof.
  intros HA G S. unfold datom_of. pose proof (dprojection3_spec v G) as P. apply wp_elim in P as (p & Ep & _ & Vp). rewrite Ep. cbn [bind]. eexists. split; [reflexivity|].
  specialize (S p Ep). change (dppoint v) with (dperp (vals SIN v)). rewrite <- Vp. clear - S HA. unfold dnumerical_vector, vals. induction S as [|t p Ht _ IH]; cbn [map]; constructor; [|exact IH].
  destruct (dcoef_apx A t Ht) as [[Fx Hx] _]. split; [exact Fx|]. eapply Rle_trans; [exact Hx|]. unfold k0. lra.
Qed.
Lemma atoms_all (atom : vec -> res (list (binary_float 53 1024))) (point : vec -> list R) vs : (forall v, In v vs -> exists x, atom v = Ok x /\ Forall2 near8 x (point v)) ->
  exists xs, mapM atom vs = Ok xs /\ Forall2 (fun x v => Forall2 near8 x (point v)) xs vs.
Proof.
  induction vs as [|v vs IH]; intros H; [exists []; split; [reflexivity|constructor]|].
  destruct (H v (or_introl eq_refl)) as (x & Ex & Nx). destruct IH as (xs & E & F2); [intros u Hu; apply H; right; exact Hu|].
  exists (x :: xs). cbn [mapM]. rewrite Ex. cbn [bind]. rewrite E. split; [reflexivity|]. constructor; assumption.
Qed.

(** C110, ico2: the file write_vesta writes for a set of edges is one molecule with one atom
    for each distinct projected vertex, at its position to within 0.51e-6, each with its own
    label, which is also used in the tables of thermal parameters and of sites; two atoms are
    joined by a bond exactly if an edge joins their vertices; and all bonds have the colour
    asked for.  The coordinates are to be at most a million. *)
Lemma L_C110_edges : forall la A o select path base c r g b, (1 <= A <= 1000000)%R -> o <> [] -> goodo 6 o -> Forall (fun e => 2 <= length e) o -> select <> "simple"%string ->
  one_line path -> one_line base -> shade c (r, g, b) -> linalg_ok la ->
  (forall v, In v (concat o) -> spot_ok A v) -> (forall u v rest, In (u :: v :: rest) o -> gap_ok A u v) ->
  exists t m vs, write_vesta_text (@Bmath la) show_f8_6 (Some (A4 o)) path base c select = Ok (Some 0%Z, t) /\ read_vesta t = Ok [m] /\
    NoDup (map ppoint vs) /\ same_set (map ppoint vs) (map ppoint (concat o)) /\
    Forall2 (fun v a => Forall2 (writes 6 (51/100000000)) (ppoint v) (va_pos a)) vs (m_atoms m) /\
    NoDup (map va_label (m_atoms m)) /\ m_thermal m = map va_label (m_atoms m) /\ m_sites m = map va_label (m_atoms m) /\
    Forall (fun k => mapM py_int (vb_color k) = Ok [r; g; b]) (m_bonds m) /\
    forall i j u v a b, nth_error vs i = Some u -> nth_error vs j = Some v -> nth_error (m_atoms m) i = Some a -> nth_error (m_atoms m) j = Some b ->
      (draws m a b <-> exists p q rest, In (p :: q :: rest) o /\ ((ppoint p = ppoint u /\ ppoint q = ppoint v) \/ (ppoint p = ppoint v /\ ppoint q = ppoint u))).
Proof.
  intros la A o select path base c r g b HA N G L S Op Ob Hc LA Sp Gp. unfold write_vesta_text, write_vesta. rewrite orb_true_r, all_none_edges by assumption.
  rewrite (proj2 (String.eqb_neq _ _) S).
  destruct (perp_space_spec_flat (concat o) (A4 o)) as (vs & E & I & ND & SS); [right; exists o; auto|apply goodo_concat; exact G|].
  rewrite E. cbn [bind]. assert (Gr : goods 6 vs) by (eapply goods_incl; [apply goodo_concat; exact G|exact I]).
  destruct (bondsB ppoint same_point (distance_in_perp_space (@Bmath la)) same_point_ok o vs G Gr L) as (bs & Eb & Fb).
  { intros x Hx. apply SS. exact Hx. }
  { intros e u v rest He ->. pose proof (proj1 (Forall_forall _ _) G _ He) as Ge. inversion Ge as [|? ? Gu Ge']; subst. inversion Ge' as [|? ? Gv _]; subst.
    destruct (@distance_B la LA A u v HA Gu Gv (Gp _ _ _ He)) as (d & Ed & Ad & Bd). exists d. split; [exact Ed|].
    rewrite dist_t3 by reflexivity. change (t3 (ppoint u)) with (pp u). change (t3 (ppoint v)) with (pp v). split.
    - eapply apx_weaken; [exact Ad|]. unfold slack. lra.
    - split; [apply sqrt_pos|lra]. }
  rewrite Eb. cbn [bind].
  destruct (atoms_all (atom_of (@Bmath la)) ppoint vs) as (xs & Ex & Nx).
  { intros v Hv. apply (spot_apx la A); [exact HA|exact (proj1 (Forall_forall _ _) Gr v Hv)|apply Sp, I, Hv]. }
  change (mapM (atom_of (@Bmath la)) vs = @Ok (list (list (F (@Bmath la)))) xs) in Ex. rewrite Ex. cbn [bind vesta_text].
  destruct (bonds_text_read (@Bmath la) show_f8_6 show_f8_6_field path base c (r, g, b) xs bs Op Ob (shade_colors _ _ Hc) (near_len _ _ _ ppoint_len Nx)) as (t & m & Et & Rt & Sm & Pm & Bm).
  pose proof (near_printed _ _ _ _ Nx Pm) as Wm.
  rewrite Et. cbn [bind]. exists t, m, vs. split; [reflexivity|]. split; [exact Rt|]. split; [exact ND|]. split; [exact SS|]. split; [exact Wm|].
  split; [exact (sited_nodup _ _ Sm)|]. pose proof Sm as (_ & _ & S3 & S4). split; [exact S3|]. split; [exact S4|]. split; [exact (colour_words la _ _ _ Bm)|].
  intros i j u v a b' Eu Ev Ea Eb'. rewrite (@draws_edges la ppoint ppoint_len o vs (r, g, b) bs m ND Fb Sm Wm Bm i j u v a b' Eu Ev Ea Eb').
  split; [intros (e & p & q & rest & Ie & -> & H); eauto|intros (p & q & rest & Ie & H); eauto 10].
Qed.

(** C110, dode2 with select='egdes': the file write_vesta writes for a set of edges is one molecule with one atom
    for each distinct projected vertex, at its position to within 0.51e-6, each with its own
    label, which is also used in the tables of thermal parameters and of sites; two atoms are
    joined by a bond exactly if an edge joins their vertices; and all bonds have the colour
    asked for.  The coordinates are to be at most a million. *)
Lemma L_C110_dode_edges : forall la A o path base c r g b, (1 <= A <= 1000000)%R -> o <> [] -> goodo 6 o -> Forall (fun e => 2 <= length e) o ->
  one_line path -> one_line base -> shade c (r, g, b) -> linalg_ok la ->
  (forall v, In v (concat o) -> dspot_ok A v) -> (forall u v rest, In (u :: v :: rest) o -> dgap_ok A u v) ->
  exists t m vs, dwrite_vesta_text (@Bmath la) show_f8_6 (Some (A4 o)) path base c "egdes" = Ok (Some 0%Z, t) /\ read_vesta t = Ok [m] /\
    NoDup (map dppoint vs) /\ same_set (map dppoint vs) (map dppoint (concat o)) /\
    Forall2 (fun v a => Forall2 (writes 6 (51/100000000)) (dppoint v) (va_pos a)) vs (m_atoms m) /\
    NoDup (map va_label (m_atoms m)) /\ m_thermal m = map va_label (m_atoms m) /\ m_sites m = map va_label (m_atoms m) /\
    Forall (fun k => mapM py_int (vb_color k) = Ok [r; g; b]) (m_bonds m) /\
    forall i j u v a b, nth_error vs i = Some u -> nth_error vs j = Some v -> nth_error (m_atoms m) i = Some a -> nth_error (m_atoms m) j = Some b ->
      (draws m a b <-> exists p q rest, In (p :: q :: rest) o /\ ((dppoint p = dppoint u /\ dppoint q = dppoint v) \/ (dppoint p = dppoint v /\ dppoint q = dppoint u))).
Proof.
  intros la A o path base c r g b HA N G L Op Ob Hc LA Sp Gp. unfold dwrite_vesta_text, dwrite_vesta. rewrite all_none_edges by assumption. cbn [String.eqb Ascii.eqb Bool.eqb orb].
  destruct (dperp_space_spec_flat (concat o) (A4 o)) as (vs & E & I & ND & SS); [right; exists o; auto|apply goodo_concat; exact G|].
  rewrite E. cbn [bind]. assert (Gr : goods 6 vs) by (eapply goods_incl; [apply goodo_concat; exact G|exact I]).
  destruct (bondsB dppoint dsame_point (ddistance_in_perp_space (@Bmath la)) dsame_point_ok o vs G Gr L) as (bs & Eb & Fb).
  { intros x Hx. apply SS. exact Hx. }
  { intros e u v rest He ->. pose proof (proj1 (Forall_forall _ _) G _ He) as Ge. inversion Ge as [|? ? Gu Ge']; subst. inversion Ge' as [|? ? Gv _]; subst.
    destruct (@ddistance_B la LA A u v HA Gu Gv (Gp _ _ _ He)) as (d & Ed & Ad & Bd). exists d. split; [exact Ed|].
    rewrite dist_t3 by reflexivity. change (t3 (dppoint u)) with (dp u). change (t3 (dppoint v)) with (dp v). split.
    - eapply apx_weaken; [exact Ad|]. unfold slack. lra.
    - split; [apply sqrt_pos|lra]. }
  rewrite Eb. cbn [bind].
  destruct (atoms_all (datom_of (@Bmath la)) dppoint vs) as (xs & Ex & Nx).
  { intros v Hv. apply (dspot_apx la A); [exact HA|exact (proj1 (Forall_forall _ _) Gr v Hv)|apply Sp, I, Hv]. }
  change (mapM (datom_of (@Bmath la)) vs = @Ok (list (list (F (@Bmath la)))) xs) in Ex. rewrite Ex. cbn [bind vesta_text].
  destruct (bonds_text_read (@Bmath la) show_f8_6 show_f8_6_field path base c (r, g, b) xs bs Op Ob (shade_colors _ _ Hc) (near_len _ _ _ dppoint_len Nx)) as (t & m & Et & Rt & Sm & Pm & Bm).
  pose proof (near_printed _ _ _ _ Nx Pm) as Wm.
  rewrite Et. cbn [bind]. exists t, m, vs. split; [reflexivity|]. split; [exact Rt|]. split; [exact ND|]. split; [exact SS|]. split; [exact Wm|].
  split; [exact (sited_nodup _ _ Sm)|]. pose proof Sm as (_ & _ & S3 & S4). split; [exact S3|]. split; [exact S4|]. split; [exact (colour_words la _ _ _ Bm)|].
  intros i j u v a b' Eu Ev Ea Eb'. rewrite (@draws_edges la dppoint dppoint_len o vs (r, g, b) bs m ND Fb Sm Wm Bm i j u v a b' Eu Ev Ea Eb').
  split; [intros (e & p & q & rest & Ie & -> & H); eauto|intros (p & q & rest & Ie & H); eauto 10].
Qed.

(** C110, dode2 with select='normal': one molecule for each item, with its vertices in order,
    each at its position to within 0.51e-6; two atoms are joined exactly if they are no farther
    apart than 10, up to 1e-5, whether or not they belong to one edge. *)
Lemma L_C110_dode_items : forall la A o path base c r g b, (1 <= A <= 1000000)%R -> o <> [] -> goodo 6 o -> Forall (fun e => 2 <= length e) o ->
  one_line path -> one_line base -> shade c (r, g, b) -> (forall v, In v (concat o) -> dspot_ok A v) ->
  exists t ms, dwrite_vesta_text (@Bmath la) show_f8_6 (Some (A4 o)) path base c "normal" = Ok (Some 0%Z, t) /\ read_vesta t = Ok ms /\
    Forall2 (fun item m =>
      Forall2 (fun v a => Forall2 (writes 6 (51/100000000)) (dppoint v) (va_pos a)) item (m_atoms m) /\
      NoDup (map va_label (m_atoms m)) /\ m_thermal m = map va_label (m_atoms m) /\ m_sites m = map va_label (m_atoms m) /\
      Forall (fun k => mapM py_int (vb_color k) = Ok [r; g; b]) (m_bonds m) /\
      forall i j u v a b, nth_error item i = Some u -> nth_error item j = Some v -> nth_error (m_atoms m) i = Some a -> nth_error (m_atoms m) j = Some b ->
        ((dist_list (dppoint u) (dppoint v) <= 10 - 1/100000)%R -> draws m a b) /\ (draws m a b -> (dist_list (dppoint u) (dppoint v) <= 10 + 1/100000)%R)) o ms.
Proof.
  intros la A o path base c r g b HA N G L Op Ob Hc Sp. unfold dwrite_vesta_text, dwrite_vesta. rewrite all_none_edges by assumption. cbn [String.eqb Ascii.eqb Bool.eqb orb].
  assert (X : exists xss, mapM (mapM (datom_of (@Bmath la))) o = @Ok (list (list (list (F (@Bmath la))))) xss /\ Forall2 (fun xs item => Forall2 (fun x v => Forall2 near8 x (dppoint v)) xs item) xss o).
  { clear N L. revert Sp. induction G as [|item o Gi _ IH]; intros Sp; [exists []; split; [reflexivity|constructor]|].
    destruct (atoms_all (datom_of (@Bmath la)) dppoint item) as (xs & Ex & Nx).
    { intros v Hv. apply (dspot_apx la A); [exact HA|exact (proj1 (Forall_forall _ _) Gi v Hv)|apply Sp; cbn [concat]; apply in_or_app; left; exact Hv]. }
    change (mapM (datom_of (@Bmath la)) item = @Ok (list (list (F (@Bmath la)))) xs) in Ex.
    destruct IH as (xss & E & F2); [intros v Hv; apply Sp; cbn [concat]; apply in_or_app; right; exact Hv|].
    exists (xs :: xss). cbn [mapM]. rewrite Ex. cbn [bind]. rewrite E. split; [reflexivity|]. constructor; assumption. }
  destruct X as (xss & E & Fx). rewrite E. cbn [bind vesta_text].
  destruct (items_text_read (@Bmath la) show_f8_6 show_f8_6_field path base c (r, g, b) xss Op Ob (shade_colors _ _ Hc)) as (t & ms & Et & Rt & Fm).
  { clear - Fx. induction Fx as [|xs item xss o H _ IH]; constructor; [exact (near_len _ _ _ dppoint_len H)|exact IH]. }
  rewrite Et. cbn [bind]. exists t, ms. split; [reflexivity|]. split; [exact Rt|].
  clear - Fx Fm. revert ms Fm. induction Fx as [|xs item xss o H _ IH]; intros ms Fm; inversion Fm as [|? m ? ms' (Sm & Bm & Pm) Fm']; subst; constructor; [|exact (IH _ Fm')].
  pose proof (near_printed _ _ _ _ H Pm) as Wm. split; [exact Wm|]. split; [exact (sited_nodup _ _ Sm)|]. pose proof Sm as (_ & _ & S3 & S4). split; [exact S3|]. split; [exact S4|].
  split; [rewrite Bm; constructor; [cbn [xx_bond vb_color]; apply mapM_py_int|constructor]|].
  exact (draws_items dppoint dppoint_len item (r, g, b) m Sm Wm Bm).
Qed.

Lemma unknown3 s : String.length s = 3 -> s <> "red"%string -> colors (Name s) = None.
Proof.
  intros L N. unfold colors. assert (Q : forall x, String.length x <> 3 \/ x = "red"%string -> String.eqb s x = false).
  { intros x Hx. apply String.eqb_neq. intros ->. destruct Hx as [Hx|Hx]; congruence. }
  rewrite !Q by (first [left; discriminate|right; reflexivity]). cbn [orb]. rewrite L. reflexivity.
Qed.
(** C110, both packages: a name of three letters other than red makes the writers raise a
    TypeError, in the middle of the file, as soon as there is a bond to colour. *)
Lemma L_C110_colour_error : forall N f6 o path base s select r v, String.length s = 3 -> s <> "red"%string ->
  (exists atoms b bonds, v = VBonds N atoms (b :: bonds)) \/ (exists item items, v = VItems N (item :: items)) ->
  (write_vesta N o select = Ok (r, v) -> write_vesta_text N f6 o path base (Name s) select = Raise TypeError) /\
  (dwrite_vesta N o select = Ok (r, v) -> dwrite_vesta_text N f6 o path base (Name s) select = Raise TypeError).
Proof.
  intros N f6 o path base s select r v L Ns Hv. pose proof (unknown3 s L Ns) as U.
  assert (E : vesta_text N f6 path base (Name s) v = Raise TypeError).
  { destruct Hv as [(atoms & [[d i] j] & bonds & ->)|(item & items & ->)]; cbn [vesta_text].
    - unfold bonds_text, numbered. cbn [length seq combine mapM fst snd]. unfold bond_line at 1, show_colour. rewrite U. reflexivity.
    - unfold items_text. cbn [length seq combine mapM fst snd]. unfold show_colour at 1. rewrite U. reflexivity. }
  split; intros H; unfold write_vesta_text, dwrite_vesta_text; rewrite H; cbn [bind]; rewrite E; reflexivity.
Qed.
(** All other names stand for a colour. *)
Lemma L_C110_colour_names : forall s, (exists rgb, shade (Name s) rgb) <-> ~ (String.length s = 3 /\ s <> "red"%string).
Proof.
  intros s. split.
  - intros (rgb & H) [L N]. apply shade_colors in H. rewrite (unknown3 s L N) in H. discriminate.
  - intros H. destruct (in_dec string_dec s (map fst palette)) as [I|I].
    + apply in_map_iff in I as ([x rgb] & <- & I). exists rgb. left. exact I.
    + exists (127, 127, 127)%Z. right. split; [exact I|]. split; [|reflexivity]. intros L. apply H. split; [exact L|]. intros ->. apply I. cbn. auto.
Qed.

Ltac cf := repeat (apply Forall_cons; [cbn; repeat split; try lia; unfold Rabs; repeat destruct (Rcase_abs _); lra|]); apply Forall_nil.
Lemma spot_of A v w : projection3 v = Ok w -> Forall (coef A) w -> spot_ok A v.
Proof. intros E H r E'. assert (r = w) as -> by congruence. exact H. Qed.
Lemma dspot_of A v w : dprojection3 v = Ok w -> Forall (coef A) w -> dspot_ok A v.
Proof. intros E H r E'. assert (r = w) as -> by congruence. exact H. Qed.
Ltac spots := let v := fresh "v" in let I := fresh "I" in intros v I; revert v I; apply Forall_forall; cbn [concat app]; repeat (apply Forall_cons; [lazymatch goal with |- spot_ok _ _ => eapply spot_of | |- dspot_ok _ _ => eapply dspot_of end; [vm_compute; reflexivity|cf]|]); apply Forall_nil.
Ltac wfs := repeat (apply Forall_cons; [split; [repeat constructor; cbn; discriminate|reflexivity]|]); apply Forall_nil.

Lemma F2_one {A B} (Q : A -> B -> Prop) x ys : Forall2 Q [x] ys -> exists y, ys = [y] /\ Q x y.
Proof. intros H. destruct ys as [|y [|y' ys]]; inversion H as [|? ? ? ? K K']; subst; [|inversion K']. exists y. auto. Qed.
Lemma F2_two {A B} {Q : A -> B -> Prop} {x y z ys} : Forall2 Q (x :: y :: z) ys -> exists a b, nth_error ys 0 = Some a /\ nth_error ys 1 = Some b.
Proof. intros H. apply F2_length in H. destruct ys as [|a [|b ys]]; try discriminate. exists a, b. auto. Qed.
Lemma ddist_dp u v : dist_list (dppoint u) (dppoint v) = dist3 (dp u) (dp v).
Proof. exact (dist_t3 (dppoint u) (dppoint v) eq_refl eq_refl). Qed.
(** Both packages: edges in the colour "tan" cannot be written. *)
Lemma L_C110_colour_refuted : exists o, goodo 6 o /\ o = [[o6; x1]; [x1; x2]] /\
  write_vesta_text Bnum show_f8_6 (Some (A4 o)) (lit ".") (lit "tmp") (Name "tan") "egdes" = Raise TypeError /\
  dwrite_vesta_text Bnum show_f8_6 (Some (A4 o)) (lit ".") (lit "tmp") (Name "tan") "egdes" = Raise TypeError.
Proof.
  exists [[o6; x1]; [x1; x2]]. split; [unfold o6, x1, x2, iv; cbn [map]; apply Forall_cons; [wfs|]; apply Forall_cons; [wfs|apply Forall_nil]|]. split; [reflexivity|].
  split; match goal with |- _ = ?r => vm_cast_no_check (eq_refl r) end.
Qed.
(** dode2: a triangle with a side of length 12; the side is not drawn. *)
Lemma L_C110_dode_sides_refuted : exists o path base t m a b, goodo 6 o /\ o = [[o6; pl (T 12 0 1) (T 0 0 1); x3]] /\
  dwrite_vesta_text Bnum show_f8_6 (Some (A4 o)) path base (Name "k") "normal" = Ok (Some 0%Z, t) /\ read_vesta t = Ok [m] /\
  nth_error (m_atoms m) 0 = Some a /\ nth_error (m_atoms m) 1 = Some b /\ ~ draws m a b.
Proof.
  assert (G : goodo 6 [[o6; pl (T 12 0 1) (T 0 0 1); x3]]) by (unfold o6, x3, pl, iv; cbn [map]; apply Forall_cons; [wfs|apply Forall_nil]).
  destruct (L_C110_dode_items textbook 100 [[o6; pl (T 12 0 1) (T 0 0 1); x3]] (lit ".") (lit "tmp") (Name "k") 127 127 127 ltac:(lra) ltac:(discriminate) G) as (t & ms & Et & Rt & F2).
  { apply Forall_cons; [cbn; lia|apply Forall_nil]. } { apply one_line_dec; reflexivity. } { apply one_line_dec; reflexivity. } { left. cbn. tauto. } { spots. }
  apply F2_one in F2. destruct F2 as (m & -> & P & _ & _ & _ & _ & D).
  pose proof (F2_two P) as X. clear P.
  destruct X as (a & b & Ha & Hb).
  exists [[o6; pl (T 12 0 1) (T 0 0 1); x3]], (lit "."), (lit "tmp"), t, m, a, b. split; [exact G|]. split; [reflexivity|]. split; [exact Et|]. split; [exact Rt|]. split; [exact Ha|]. split; [exact Hb|].
  intros K. destruct (D 0 1 o6 (pl (T 12 0 1) (T 0 0 1)) a b eq_refl eq_refl Ha Hb) as [_ Q]. apply Q in K. clear - K.
  rewrite ddist_dp in K.
  rewrite dp_o6, dp_pl in K. unfold dist3, sub3, val in K. cbn [ta tb tc] in K.
  match type of K with (norm3 (?x, ?y, ?z) <= _)%R => pose proof (proj1 (CoplanarLemmas.norm3_comp x y z)) as N; assert (E : x = (-12)%R) by field end.
  rewrite E in N, K. rewrite Rabs_left in N by lra. lra.
Qed.

(** Two edges with a common end meet all that is asked. *)
Example E_C110_ex : let o := [[o6; x1]; [x1; x2]] in linalg_ok textbook /\ goodo 6 o /\ Forall (fun e => 2 <= length e) o /\ shade (Name "b") (0, 0, 255)%Z /\
  (forall v, In v (concat o) -> spot_ok 10 v) /\ (forall u v rest, In (u :: v :: rest) o -> gap_ok 10 u v).
Proof.
  intros o. assert (G : goodo 6 o) by (unfold o, o6, x1, x2, iv; cbn [map]; apply Forall_cons; [wfs|]; apply Forall_cons; [wfs|apply Forall_nil]).
  split; [exact textbook_ok|]. split; [exact G|]. split; [unfold o; repeat (apply Forall_cons; [cbn; lia|]); apply Forall_nil|]. split; [left; cbn; tauto|]. split; [unfold o; spots|].
  intros u v rest [H|[H|[]]]; injection H as <- <- <-; intros d r E1 E2.
  - vm_compute in E1. injection E1 as <-. vm_compute in E2. injection E2 as <-. cf.
  - vm_compute in E1. injection E1 as <-. vm_compute in E2. injection E2 as <-. cf.
Qed.
(** A triangle meets what is asked of dode2. *)
Example E_C110_dode_ex : goodo 6 [triA] /\ Forall (fun e => 2 <= length e) [triA] /\ (forall v, In v (concat [triA]) -> dspot_ok 10 v) /\ (forall u v rest, In (u :: v :: rest) [triA] -> dgap_ok 10 u v).
Proof.
  split; [unfold triA, o6, x2, x3, iv; cbn [map]; apply Forall_cons; [wfs|apply Forall_nil]|]. split; [apply Forall_cons; [cbn; lia|apply Forall_nil]|]. split; [unfold triA; spots|].
  intros u v rest [H|[]]; injection H as <- <- <-; intros d r E1 E2. vm_compute in E1. injection E1 as <-. vm_compute in E2. injection E2 as <-. cf.
Qed.
