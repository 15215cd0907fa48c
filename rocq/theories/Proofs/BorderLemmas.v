(** generate_border_edges on solids. *)
From Coq Require Import Reals List ZArith Lia Lra Psatz Bool Classical Arith Permutation.
From Verif Require Import Base.Res Model.Tau Model.Arr Model.Vectors Model.IcoMath1 Model.Num Model.IcoNumeric Model.IcoDedup Model.IcoIntersect Model.IcoSurface Model.DodeSurface
  Spec.Value Spec.RVec Spec.Shape Spec.Mean Spec.Sets Spec.IcoSpec Spec.Space Spec.Plane Spec.Surface Spec.Outline Spec.Region Spec.Solid Spec.Edges Spec.Overlap Spec.Convex Spec.Tetra
  Proofs.ResLemmas Proofs.DedupLemmas Proofs.NumLemmas Proofs.PlaneLemmas Proofs.Polytope Proofs.SurfaceLemmas Proofs.MergeLemmas Proofs.OverlapLemmas Proofs.P_Surface Proofs.P_Numeric Proofs.CoplanarLemmas Proofs.Frontier Proofs.Frontier3 Proofs.SolidLemmas Proofs.PlaneFrontier Proofs.EdgeLemmas.
From Verif Require Proofs.OutlineLemmas Proofs.IntersectLemmas Proofs.P_Intersect.
Import ListNotations.
Local Open Scope R_scope.

(** * Lists *)
Lemma F2_r {A B} (P : A -> B -> Prop) l m : Forall2 P l m -> forall k y, nth_error m k = Some y -> exists x, nth_error l k = Some x /\ P x y.
Proof. induction 1 as [|a b l m H _ IH]; intros [|k] y E; try discriminate E; [injection E as <-; exists a; auto|exact (IH k y E)]. Qed.
Lemma F2_l {A B} (P : A -> B -> Prop) l m : Forall2 P l m -> forall k x, nth_error l k = Some x -> exists y, nth_error m k = Some y /\ P x y.
Proof. induction 1 as [|a b l m H _ IH]; intros [|k] y E; try discriminate E; [injection E as <-; exists b; auto|exact (IH k y E)]. Qed.
Lemma F2_in_r {A B} (P : A -> B -> Prop) l m y : Forall2 P l m -> In y m -> exists x, In x l /\ P x y.
Proof. intros F I. apply In_nth_error in I as (k & E). destruct (F2_r P l m F k y E) as (x & Ex & H). exists x. split; [exact (nth_error_In _ _ Ex)|exact H]. Qed.
Lemma F2_in_l {A B} (P : A -> B -> Prop) l m x : Forall2 P l m -> In x l -> exists y, In y m /\ P x y.
Proof. intros F I. apply In_nth_error in I as (k & E). destruct (F2_l P l m F k x E) as (y & Ey & H). exists y. split; [exact (nth_error_In _ _ Ey)|exact H]. Qed.
Lemma NoDup_halves {A} (l m : list A) : NoDup (l ++ m) -> NoDup l /\ NoDup m.
Proof.
  induction l as [|x l IH]; cbn [app]; intros N; [split; [constructor|exact N]|]. inversion N as [|? ? Nx N']; subst. destruct (IH N') as (N1 & N2). split; [|exact N2].
  constructor; [|exact N1]. intros I. apply Nx, in_or_app. auto.
Qed.
Lemma NoDup_part {A} (l : list A) ls : NoDup (concat ls) -> In l ls -> NoDup l.
Proof. induction ls as [|m ls IH]; [intros _ []|]. cbn [concat]. intros N [->|I]; [exact (proj1 (NoDup_halves _ _ N))|]. apply IH; [exact (proj2 (NoDup_halves _ _ N))|exact I]. Qed.
Lemma NoDup_picked {A} (s g : list A) is : NoDup s -> NoDup is -> Forall2 (fun i t => nth_error s i = Some t) is g -> NoDup g.
Proof.
  intros Ns Ni F. induction F as [|i t is g E F IH]; [constructor|]. inversion Ni as [|? ? Nx Ni']; subst. constructor; [|exact (IH Ni')].
  intros I. destruct (F2_in_r _ _ _ _ F I) as (j & Ij & Ej). apply Nx. rewrite NoDup_nth_error in Ns. assert (i = j) by (apply Ns; [apply nth_error_Some; congruence|congruence]). congruence.
Qed.
Lemma mapM_exists {A B} (f : A -> res B) (P : A -> B -> Prop) l : (forall a, In a l -> exists b, f a = Ok b /\ P a b) -> exists bs, mapM f l = Ok bs /\ Forall2 P l bs.
Proof.
  induction l as [|a l IH]; intros H; [exists []; split; [reflexivity|constructor]|]. destruct (H a (or_introl eq_refl)) as (b & Eb & Pb). destruct (IH (fun x Hx => H x (or_intror Hx))) as (bs & Ebs & F).
  exists (b :: bs). split; [cbn [mapM]; rewrite Eb; cbn [bind]; rewrite Ebs; reflexivity|constructor; assumption].
Qed.

(** * Groups *)
Lemma groups_ok copl s (C : vecs -> vecs -> Prop) : s <> [] -> NoDup s ->
  (forall i j t u, nth_error s i = Some t -> nth_error s j = Some u -> exists b, copl i j t u = Ok b /\ (b = true <-> C t u)) ->
  (forall t, In t s -> C t t) -> (forall t u, C t u -> C u t) -> (forall t u v, In t s -> In u s -> In v s -> C t u -> C u v -> C t v) ->
  exists r, get_sets_of_coplanar_triangles copl s = Ok r /\
    (forall g, In g r -> g <> [] /\ NoDup g /\ incl g s /\ forall f f', In f g -> (In f' g <-> In f' s /\ C f f')) /\ (forall f, In f s -> exists g, In g r /\ In f g).
Proof.
  intros Ne Ns H Rf Sy Tr. destruct (L_C27_total copl s) as (r & Er).
  { intros i j t u Et Eu. destruct (H i j t u Et Eu) as (b & Eb & _). eauto. }
  exists r. split; [exact Er|]. destruct (L_C27_partition copl s r Ne Er) as (gs & F & P & Hd & Sep).
  assert (Nc : NoDup (concat gs)) by (apply (Permutation_NoDup (Permutation_sym P)), seq_NoDup).
  assert (Head : forall k gi g, nth_error gs k = Some gi -> nth_error r k = Some g -> Forall2 (fun i t => nth_error s i = Some t) gi g).
  { intros k gi g E1 E2. destruct (F2_l _ _ _ F k gi E1) as (g' & E3 & H3). rewrite E2 in E3. injection E3 as <-. exact H3. }
  assert (HeadC : forall gi, In gi gs -> exists h l th, gi = h :: l /\ nth_error s h = Some th /\ forall i f, In i gi -> nth_error s i = Some f -> C f th).
  { intros gi Ig. destruct (Hd gi Ig) as (h & l & -> & Hl).
    assert (Lh : (h < length s)%nat).
    { assert (Ih : In h (seq 0 (length s))) by (apply (Permutation_in _ P), in_concat; exists (h :: l); split; [exact Ig|left; reflexivity]). apply in_seq in Ih. lia. }
    assert (Ex : exists th, nth_error s h = Some th) by (destruct (nth_error s h) as [th|] eqn:E; [eauto|apply nth_error_None in E; lia]). destruct Ex as (th & Eh). exists h, l, th. split; [reflexivity|]. split; [exact Eh|].
    intros i f [<-|Ii] Ei; [rewrite Eh in Ei; injection Ei as <-; apply Rf, (nth_error_In _ _ Eh)|].
    destruct (Hl i Ii) as (_ & t & u & Et & Eu & Cp). destruct (H i h t u Et Eu) as (b & Eb & Hb). rewrite Cp in Eb. injection Eb as <-. assert (t = f) by congruence. assert (u = th) by congruence. subst. apply Hb. reflexivity. }
  assert (Cover : forall f, In f s -> exists k gi g i, nth_error gs k = Some gi /\ nth_error r k = Some g /\ In i gi /\ nth_error s i = Some f /\ In f g).
  { intros f If. apply In_nth_error in If as (i & Ei). assert (Ii : In i (concat gs)).
    { apply (Permutation_in _ (Permutation_sym P)), in_seq. assert (i < length s)%nat by (apply nth_error_Some; congruence). lia. }
    apply in_concat in Ii as (gi & Ig & Ii). apply In_nth_error in Ig as (k & Ek). destruct (F2_l _ _ _ F k gi Ek) as (g & Eg & Fg). exists k, gi, g, i.
    repeat (split; [assumption|]). destruct (F2_in_l _ _ _ _ Fg Ii) as (f' & If' & Ef'). assert (f' = f) by congruence. subst f'. exact If'. }
  split.
  - intros g Ig. apply In_nth_error in Ig as (k & Ek). destruct (F2_r _ _ _ F k g Ek) as (gi & Egi & Fg). pose proof (nth_error_In _ _ Egi) as Igi.
    destruct (HeadC gi Igi) as (h & l & th & Egh & Eh & Ch).
    split; [intros ->; inversion Fg; subst; discriminate|]. split; [exact (NoDup_picked s g gi Ns (NoDup_part gi gs Nc Igi) Fg)|].
    assert (Is : incl g s) by (intros f If; destruct (F2_in_r _ _ _ _ Fg If) as (i & _ & Ei); exact (nth_error_In _ _ Ei)).
    assert (Cg : forall f, In f g -> C f th) by (intros f If; destruct (F2_in_r _ _ _ _ Fg If) as (i & Ii & Ei); exact (Ch i f Ii Ei)).
    assert (Ith : In th s) by exact (nth_error_In _ _ Eh).
    split; [exact Is|]. intros f f' If. split.
    + intros If'. split; [apply Is, If'|]. apply (Tr f th f'); auto.
    + intros (If' & Cf). destruct (Cover f' If') as (k' & gi' & g' & i' & Egi' & Eg' & Ii' & Ei' & Ig'). pose proof (nth_error_In _ _ Egi') as Igi'. destruct (HeadC gi' Igi') as (h' & l' & th' & Egh' & Eh' & Ch').
      assert (Ith' : In th' s) by exact (nth_error_In _ _ Eh').
      destruct (lt_eq_lt_dec k k') as [[Lt|<-]|Lt]; [|rewrite Ek in Eg'; injection Eg' as <-; exact Ig'|].
      * exfalso. rewrite Egh in Egi. destruct (Sep k k' i' h gi' l Egi Egi' Lt Ii') as (_ & t & u & Et & Eu & Cp). destruct (H i' h t u Et Eu) as (b & Eb & Hb). rewrite Cp in Eb. injection Eb as <-.
        assert (t = f') by congruence. assert (u = th) by congruence. subst. enough (false = true) by discriminate. apply Hb. apply (Tr f' f th); auto.
      * exfalso. destruct (F2_in_r _ _ _ _ Fg If) as (i & Ii & Ei). rewrite Egh' in Egi'. destruct (Sep k' k i h' gi l' Egi' Egi Lt Ii) as (_ & t & u & Et & Eu & Cp). destruct (H i h' t u Et Eu) as (b & Eb & Hb). rewrite Cp in Eb. injection Eb as <-.
        assert (t = f) by congruence. assert (u = th') by congruence. subst. enough (false = true) by discriminate. apply Hb. apply (Tr f f' th'); auto. exact (Ch' i' f' Ii' Ei').
  - intros f If. destruct (Cover f If) as (k & gi & g & i & _ & Eg & _ & _ & Ig). exists g. split; [exact (nth_error_In _ _ Eg)|exact Ig].
Qed.

(** * Every point of a solid lies between two points of its surface *)
Lemma region_between o : tets o -> (forall t, In t o -> pvol t <> 0) -> face_to_face (map (map pp) o) -> forall x, region o x ->
  exists b1 b2, boundary3 (region o) b1 /\ boundary3 (region o) b2 /\ hull [b1; b2] x.
Proof.
  intros To NF FF x Rx. pose proof (tetrs o To NF) as T. set (ts := map (map pp) o) in *. rewrite (reg_iff o x) in Rx. fold ts in Rx.
  assert (Bd : forall y, (exists p q r, lone3 ts p q r /\ hull [p; q; r] y) -> boundary3 (region o) y).
  { intros y L. apply (boundary_faces o To NF FF y). pose proof (proj2 (frontier3 ts T FF y) L) as B. apply (boundary_faces o To NF FF y).
    unfold boundary3 in *. intros e Pe. destruct (B e Pe) as ((a & Ra & Da) & b & Rb & Db). split; [exists a|exists b]; (split; [|assumption]); rewrite (reg_iff o); assumption. }
  destruct x as [[a b] c].
  assert (Go : forall k M, k <> 0 -> (forall v, In v (concat ts) -> k * fst (fst v) < k * M) -> k * a < k * M -> exists a1, k * a <= k * a1 /\ boundary3 (region o) (a1, b, c)).
  { intros k M Nk HM La.
    assert (Nz : ~ reg3 ts (M, b, c)).
    { intros (t & Ht & Hx). destruct (support t _ Hx) as (qs & Iq & Hq & Pos). destruct qs as [|v qs]; [destruct Hq as (ws & (L & S & _) & _); destruct ws; [cbn in S; lra|discriminate L]|].
      assert (K : forall v, In v t -> 0 < ev ((- k, 0, 0), k * M) v) by (intros w Hw; specialize (HM w ltac:(apply in_concat; eauto)); destruct w as [[w0 w1] w2]; unfold ev; cbn in *; lra).
      assert (P0 : 0 < ev ((- k, 0, 0), k * M) (M, b, c)) by (apply (Pos _ (fun w Hw => Rlt_le _ _ (K w Hw)) v); [left; reflexivity|apply K, Iq; left; reflexivity]).
      unfold ev in P0. cbn in P0. lra. }
    destruct (walk3 ts T (a, b, c) (M, b, c) Rx Nz) as (s & Hs & Rw & Nw).
    assert (El : line s (a, b, c) (M, b, c) = (a + s * (M - a), b, c)) by (unfold line; cbn; eq3; ring). rewrite El in *.
    exists (a + s * (M - a)). split.
    - assert (0 <= s * (k * M - k * a)) by (apply Rmult_le_pos; lra). lra.
    - apply Bd, NNPP. intros K. apply Nw, (inner_point3 ts T FF); [exact Rw|]. intros p q r L Hh. apply K. eauto 6. }
  destruct (far (concat ts)) as (M & HM). destruct (far' (concat ts)) as (M' & HM').
  destruct (Go 1 (Rmax M (a + 1))) as (a1 & L1 & B1); [lra|intros v Hv; specialize (HM v Hv); pose proof (Rmax_l M (a + 1)); lra|pose proof (Rmax_r M (a + 1)); lra|].
  destruct (Go (-1) (Rmin M' (a - 1))) as (a2 & L2 & B2); [lra|intros v Hv; specialize (HM' v Hv); pose proof (Rmin_l M' (a - 1)); lra|pose proof (Rmin_r M' (a - 1)); lra|].
  exists (a2, b, c), (a1, b, c). split; [exact B2|]. split; [exact B1|].
  apply hull2_line. destruct (Req_dec a1 a2) as [->|N]; [exists 0; split; [lra|]; rewrite line_0; eq3; lra|].
  exists ((a - a2) / (a1 - a2)). split.
  - split; [apply Rmult_le_pos; [lra|left; apply Rinv_0_lt_compat; lra]|]. apply (Rmult_le_reg_r (a1 - a2)); [lra|]. unfold Rdiv. rewrite Rmult_assoc, Rinv_l by lra. lra.
  - unfold line. cbn. eq3; field; lra.
Qed.

(** * The check on one triangle *)
Lemma copl_self draws t : length t = 3%nat -> goods 6 t -> coplanar_check_two_triangles Rnum draws t t = Ok true.
Proof.
  intros L G. unfold coplanar_check_two_triangles. assert (G2 : goods 6 (t ++ t)) by (unfold goods in *; rewrite Forall_app; auto).
  destruct (perp_space_spec (t ++ t) G2) as (vs & Ev & I & N & S). rewrite Ev. cbn [bind].
  assert (Gv : Forall (fun v => length v = 6%nat) vs) by (apply Forall_forall; intros v Hv; apply (OutlineLemmas.good_len v (t ++ t)); [exact G2|apply I, Hv]).
  rewrite L_C26_tau by exact Gv. rewrite L_C26_few; [reflexivity|]. rewrite map_length.
  assert (K : (length (map ppoint vs) <= length (map ppoint t))%nat).
  { apply NoDup_incl_length; [exact N|]. intros p Hp. apply S in Hp. rewrite map_app in Hp. apply in_app_or in Hp as [Hp|Hp]; exact Hp. }
  rewrite !map_length in K. lia.
Qed.

Lemma nonempty_in {A} (l : list A) : l <> [] -> exists x, In x l.
Proof. destruct l as [|x l]; [contradiction|]. exists x. left. reflexivity. Qed.
(** * The border of one group *)
Section Border.
Variable o s : obj4.
Hypothesis To : tets o.
Hypothesis NF : forall t, In t o -> pvol t <> 0.
Hypothesis FF : face_to_face (map (map pp) o).
Hypothesis ND : NoDup s.
Hypothesis Sf : forall f, In f s -> In f (all_faces o) /\ once f (all_faces o).

Lemma skin_edge g e : incl g s -> In e (edges_of 3 g) -> In e (edges_of 3 s) /\ seg3 (concat s) e.
Proof.
  intros Ig He. change (In e (concat (map tri_edges g))) in He. change (In e (concat (map tri_edges s)) /\ seg3 (concat s) e).
  apply in_concat in He as (es & Hes & He). apply in_map_iff in Hes as (t & <- & Ht). pose proof (Ig t Ht) as Hs. split; [apply in_concat; exists (tri_edges t); split; [apply in_map, Hs|exact He]|].
  apply In_nth_error in He as (k & Ek). destruct (OutlineLemmas.edge_ends _ _ _ Ek) as (u & v & -> & Iu & Iv). exists u, v. split; [reflexivity|].
  split; [apply in_concat; eauto|]. split; [apply in_concat; eauto|]. exact (edge_ne3 t k _ u v (skin_nodup o s To NF Sf t Hs) Ek eq_refl).
Qed.
Lemma group_border g : g <> [] -> NoDup g -> incl g s -> (exists n d, n <> o3 /\ forall f, In f g -> in_plane n d f) ->
  exists b, gen_border_edges_of_coplanar_triangles Rnum g = Ok b /\ b <> [] /\ incl b (edges_of 3 g) /\
    forall x, drawn3 b x <-> exists p q, lone (map (map pp) g) p q /\ hull [p; q] x.
Proof.
  intros Ne Ng Ig (n & d & Nn & Pl).
  assert (L3 : Forall (fun t : vecs => length t = 3%nat) g) by (apply Forall_forall; intros t Ht; pose proof (skin_len o s To NF Sf) as L; rewrite Forall_forall in L; apply L, Ig, Ht).
  assert (N3 : forall t, In t g -> NoDup (map pp t)) by (intros t Ht; apply (skin_nodup o s To NF Sf), Ig, Ht).
  assert (G3 : Forall (fun t => length t = 3%nat /\ goods 6 t /\ NoDup (map ppoint t)) g).
  { apply Forall_forall. intros t Ht. split; [rewrite Forall_forall in L3; apply L3, Ht|]. split; [apply (skin_goods o s To NF Sf), Ig, Ht|apply pp_NoDup, N3, Ht]. }
  assert (Tr : Forall (tri_in n d) (map (map pp) g)) by (apply Forall_map, Forall_forall; intros t Ht; apply (skin_tri_in o s To NF Sf); [apply Ig, Ht|apply Pl, Ht]).
  assert (EE : edge_to_edge (map (map pp) g)) by exact (skin_ee o s To NF FF Sf g Ng Ig).
  destruct (L_C57_border_complete g G3) as (b & Eb & Cb). pose proof (L_C57_border Rnum g b G3 Eb) as Sb.
  assert (Db : forall x, drawn3 b x <-> exists p q, lone (map (map pp) g) p q /\ hull [p; q] x).
  { intros x. split.
    - intros (e & He & Hx). destruct (Sb e He) as (Ie & On). apply In_nth_error in Ie as (m & En). destruct (OutlineLemmas.edge_pos_inv g L3 m e En) as (i & t & k & Ei & _ & _ & Ek).
      destruct (OutlineLemmas.edge_ends _ _ _ Ek) as (u & v & -> & _). exists (pp u), (pp v). split; [|exact Hx]. apply (once_lone2 g L3 N3 i t k u v Ei Ek), On.
    - intros (p & q & L & Hx). pose proof L as (i & t' & Ei & Ip & Iq & N & _). rewrite nth_error_map in Ei. destruct (nth_error g i) as [t|] eqn:Eo; [|discriminate]. injection Ei as <-.
      pose proof (nth_error_In _ _ Eo) as Ht. pose proof L3 as L3'. rewrite Forall_forall in L3'.
      destruct (tri_edge3 t p q (L3' t Ht) Ip Iq N) as (k & e & Hk & Ek & Se).
      assert (Ie : In e (edges_of 3 g)) by (change (edges_of 3 g) with (concat (map tri_edges g)); eapply nth_error_In; rewrite (OutlineLemmas.edge_pos g L3 i t k Eo Hk); exact Ek).
      exists e. split; [|apply (hull_same [p; q]); [intros z; symmetry; apply Se|exact Hx]].
      apply Cb; [exact Ie| |].
      + destruct (OutlineLemmas.edge_ends _ _ _ Ek) as (u & v & -> & _). apply (once_lone2 g L3 N3 i t k u v Eo Ek).
        pose proof (edge_ne3 t k _ u v (N3 t Ht) Ek eq_refl) as Nuv. cbn [map] in Se.
        assert (Eu : (pp u = p /\ pp v = q) \/ (pp u = q /\ pp v = p)).
        { pose proof (proj1 (Se (pp u)) (or_introl eq_refl)) as [Hu|[Hu|[]]]; pose proof (proj1 (Se (pp v)) (or_intror (or_introl eq_refl))) as [Hv|[Hv|[]]]; try (exfalso; congruence); auto. }
        destruct Eu as [[-> ->]|[-> ->]]; [exact L|]. destruct L as (i' & w & E1 & E2 & E3 & E4 & E5). exists i', w. repeat (split; [assumption|]). split; [congruence|]. intros j w' F1 F2 F3. exact (E5 j w' F1 F3 F2).
      + intros h Hh Ch. exact (skin_mid o s To NF FF Sf e h (proj1 (skin_edge g e Ig Ie)) (proj1 (skin_edge g h Ig Hh)) Ch). }
  exists b. split; [exact Eb|]. split; [|split; [intros e He; apply Sb, He|exact Db]].
  destruct (plane_lone_exists n d Nn (map (map pp) g) Tr EE) as (p & q & L); [destruct g; [contradiction|discriminate]|].
  intros ->. destruct (proj2 (Db p)) as (e & [] & _). exists p, q. split; [exact L|]. apply hull_mem. left. reflexivity.
Qed.

(** * The surface cleaner *)
Hypothesis Sh : sharp3 (concat s).
Hypothesis Ne : s <> [].
Variable draws : nat -> nat -> list (nat * nat * nat).
Hypothesis Dr : forall i j t u, nth_error s i = Some t -> nth_error s j = Some u -> i <> j ->
  exists b, coplanar_check_two_triangles Rnum (draws i j) t u = Ok b /\ (b = true <-> coplanar3 (map pp (t ++ u))).

Lemma skin_copl t : In t s -> coplanar3 (map pp (t ++ t)).
Proof. intros Ht. apply coplanar_app. destruct (skin_plane o s To NF Sf t Ht) as (n & d & Nn & P). exists n, d. auto. Qed.
Lemma skin_groups : exists r, get_sets_of_coplanar_triangles (fun i j => coplanar_check_two_triangles Rnum (draws i j)) s = Ok r /\
    (forall g, In g r -> g <> [] /\ NoDup g /\ incl g s /\ forall f f', In f g -> (In f' g <-> In f' s /\ coplanar3 (map pp (f ++ f')))) /\ (forall f, In f s -> exists g, In g r /\ In f g).
Proof.
  apply (groups_ok _ s (fun t u => coplanar3 (map pp (t ++ u)))); [exact Ne|exact ND| |exact skin_copl| |].
  - intros i j t u Et Eu. destruct (Nat.eq_dec i j) as [<-|N]; [|exact (Dr i j t u Et Eu N)]. assert (u = t) by congruence. subst u. pose proof (nth_error_In _ _ Et) as Ht.
    exists true. split; [|split; [intros _; exact (skin_copl t Ht)|reflexivity]]. apply copl_self; [|exact (skin_goods o s To NF Sf t Ht)]. pose proof (skin_len o s To NF Sf) as L. rewrite Forall_forall in L. exact (L t Ht).
  - intros t u C. apply coplanar_app in C as (n & d & Nn & P1 & P2). apply coplanar_app. exists n, d. auto.
  - intros t u v Ht Hu Hv C1 C2. apply coplanar_app in C1 as (n & d & Nn & P1 & P2). apply coplanar_app. exists n, d. split; [exact Nn|]. split; [exact P1|]. exact (skin_same_plane o s To NF Sf u v n d Hu Nn P2 C2).
Qed.
(** The triangles of a group are those of one plane. *)
Lemma group_flat r g f n d : (forall g, In g r -> g <> [] /\ NoDup g /\ incl g s /\ forall f f', In f g -> (In f' g <-> In f' s /\ coplanar3 (map pp (f ++ f')))) ->
  In g r -> In f g -> n <> o3 -> in_plane n d f -> (forall h, In h g <-> In h s /\ in_plane n d h).
Proof.
  intros Hr Ig If Nn P h. destruct (Hr g Ig) as (_ & _ & Is & Cl). rewrite (Cl f h If). split; intros (Hh & C); (split; [exact Hh|]).
  - exact (skin_same_plane o s To NF Sf f h n d (Is f If) Nn P C).
  - apply coplanar_app. exists n, d. auto.
Qed.
Lemma cleaner_R : exists r, surface_cleaner Rnum draws s = Ok r /\ (forall x, drawn3 r x <-> on_border s x) /\
    Forall (seg3 (concat s)) r /\ r <> [] /\
    (forall x, skin s x -> exists b1 b2, drawn3 r b1 /\ drawn3 r b2 /\ hull [b1; b2] x) /\
    forall i j e f p q p' s, i <> j -> nth_error r i = Some e -> nth_error r j = Some f -> ends e p q -> ends f p' s -> pp p = pp p' -> pp q <> pp s ->
      ~ hull [pp q; pp s] (pp p).
Proof.
  destruct skin_groups as (gs & Eg & Hg & Cov).
  assert (Gv : goods 6 (concat s)).
  { apply Forall_forall. intros v Hv. apply in_concat in Hv as (t & Ht & Hv). pose proof (skin_goods o s To NF Sf t Ht) as G. unfold goods in G. rewrite Forall_forall in G. apply G, Hv. }
  (* the borders *)
  assert (Pl : forall g, In g gs -> exists n d, n <> o3 /\ forall h, In h g <-> In h s /\ in_plane n d h).
  { intros g Ig. destruct (Hg g Ig) as (Neg & _ & Is & _). destruct g as [|f g']; [contradiction|]. destruct (skin_plane o s To NF Sf f (Is f (or_introl eq_refl))) as (n & d & Nn & P).
    exists n, d. split; [exact Nn|]. exact (group_flat gs _ f n d Hg Ig (or_introl eq_refl) Nn P). }
  destruct (mapM_exists (B := obj4) (fun g => b <- gen_border_edges_of_coplanar_triangles Rnum g ;; match b with [] => Raise ValueError | _ => Ok b end)%res
    (fun g b => b <> [] /\ incl b (edges_of 3 g) /\ forall x, drawn3 b x <-> exists p q, lone (map (map pp) g) p q /\ hull [p; q] x) gs) as (bs & Ebs & Fbs).
  { intros g Ig. destruct (Hg g Ig) as (Neg & Ng & Is & _). destruct (Pl g Ig) as (n & d & Nn & P).
    destruct (group_border g Neg Ng Is) as (b & Eb & Nb & Ib & Db); [exists n, d; split; [exact Nn|]; intros f If; apply P, If|].
    exists b. split; [rewrite Eb; cbn [bind]; clear - Nb; destruct b; [contradiction|reflexivity]|]. auto. }
  set (bb := concat bs) in *.
  assert (Ib : forall e, In e bb -> In e (edges_of 3 s) /\ seg3 (concat s) e).
  { intros e He. apply in_concat in He as (b & Hb & He). destruct (F2_in_r _ _ _ _ Fbs Hb) as (g & Ig & _ & I & _). destruct (Hg g Ig) as (_ & _ & Is & _). exact (skin_edge g e Is (I e He)). }
  assert (Db : forall x, drawn3 bb x <-> exists g, In g gs /\ exists p q, lone (map (map pp) g) p q /\ hull [p; q] x).
  { intros x. split.
    - intros (e & He & Hx). apply in_concat in He as (b & Hb & He). destruct (F2_in_r _ _ _ _ Fbs Hb) as (g & Ig & _ & _ & D). exists g. split; [exact Ig|]. apply D. exists e. auto.
    - intros (g & Ig & L). destruct (F2_in_l _ _ _ _ Fbs Ig) as (b & Hb & _ & _ & D). destruct (proj2 (D x) L) as (e & He & Hx). exists e. split; [apply in_concat; eauto|exact Hx]. }
  assert (Nb : bb <> []).
  { destruct (nonempty_in s Ne) as (f & If). destruct (Cov f If) as (g & Ig & _). destruct (F2_in_l _ _ _ _ Fbs Ig) as (b & Hb & Nb & _). intros E. destruct (nonempty_in b Nb) as (e & Ie).
    assert (In e bb) by (apply in_concat; exists b; split; [exact Hb|exact Ie]). rewrite E in H. destruct H. }
  (* border of the flat parts *)
  assert (Fl : forall g n d y, In g gs -> (forall h, In h g <-> In h s /\ in_plane n d h) -> (flat_part s n d y <-> reg (map (map pp) g) y)).
  { intros g n d y Ig P. unfold flat_part, reg. split.
    - intros (f & If & Pf & Hy). exists (map pp f). split; [apply in_map, P; split; assumption|exact Hy].
    - intros (t & Ht & Hy). apply in_map_iff in Ht as (f & <- & If). apply P in If as (If & Pf). exists f. auto. }
  assert (Bd : forall g n d, In g gs -> n <> o3 -> (forall h, In h g <-> In h s /\ in_plane n d h) -> forall x, boundary_in n d (flat_part s n d) x <-> exists p q, lone (map (map pp) g) p q /\ hull [p; q] x).
  { intros g n d Ig Nn P x. destruct (Hg g Ig) as (_ & Ng & Is & _).
    rewrite <- (plane_frontier n d Nn (map (map pp) g)).
    - unfold boundary_in. split; intros (Hx & K); (split; [exact Hx|]); intros eps Pe; destruct (K eps Pe) as ((y & A1 & A2 & A3) & z & B1 & B2 & B3); (split; [exists y; split; [exact A1|]; split; [apply (Fl g n d y Ig P); exact A2|exact A3]|exists z; split; [exact B1|]; split; [rewrite (Fl g n d z Ig P) in *; exact B2|exact B3]]).
    - apply Forall_map, Forall_forall. intros f If. apply P in If as (If & Pf). exact (skin_tri_in o s To NF Sf f n d If Pf).
    - exact (skin_ee o s To NF FF Sf g Ng Is). }
  assert (OB : forall x, on_border s x <-> exists g, In g gs /\ exists p q, lone (map (map pp) g) p q /\ hull [p; q] x).
  { intros x. split.
    - intros (n & d & Nn & B). pose proof B as (_ & K). destruct (K 1 Rlt_0_1) as ((y & _ & (f & If & Pf & _) & _) & _). destruct (Cov f If) as (g & Ig & Ifg). exists g. split; [exact Ig|].
      apply (Bd g n d Ig Nn (group_flat gs g f n d Hg Ig Ifg Nn Pf)), B.
    - intros (g & Ig & L). destruct (Pl g Ig) as (n & d & Nn & P). exists n, d. split; [exact Nn|]. apply (Bd g n d Ig Nn P), L. }
  (* the edges *)
  assert (Fb : Forall (fun e => length e = 2%nat /\ goods 6 e) bb) by (apply Forall_forall; intros e He; apply (seg3_goods (concat s)); [exact Gv|apply Ib, He]).
  destruct (L_C25_unique_edges 2 bb (or_introl eq_refl) Fb) as (es & Ees & I & _ & U & _). change (edges_of 2 bb) with bb in *.
  assert (Ese : surface_edges Rnum draws s = Ok es).
  { unfold surface_edges. rewrite Eg. cbn [bind]. unfold all_borders. rewrite Ebs. cbn [bind]. exact Ees. }
  assert (De : forall x, drawn3 es x <-> drawn3 bb x).
  { intros x. split; [intros (e & He & Hx); exists e; split; [apply I, He|exact Hx]|].
    intros (e & He & Hx). destruct (U e He) as (u & (Iu & Cu) & _). exists u. split; [exact Iu|].
    apply (hull_same (map pp e)); [|exact Hx]. apply pp_same, (skin_mid o s To NF FF Sf); [apply Ib, He|apply Ib, I, Iu|exact Cu]. }
  assert (Fe : Forall (seg3 (concat s)) es) by (apply Forall_forall; intros e He; apply Ib, I, He).
  (* merging *)
  destruct (merge_segments_spec (two_segment_into_one Rnum) es) as (out & _ & St & Sp).
  destruct (merge_loop_total (two_segment_into_one Rnum) (S (length es)) es (seq 0 (length es)) (seg3 (concat s)) (ok_seq es)) as (r & Er); [rewrite seq_length; lia| |exact Fe|].
  { intros e f Qe Qf. destruct (seg3_goods _ e Gv Qe) as (L1 & G1). destruct (seg3_goods _ f Gv Qf) as (L2 & G2). destruct (two_segment_spec Rnum e f L1 L2 G1 G2) as (m & Em & _).
    exists m. split; [exact Em|]. intros a ->. exact (proj1 (merge_seg3 _ e f a Gv Sh Qe Qf Em)). }
  assert (Eout : out = Ok (Some r)) by (rewrite <- (St (S (length es))) by lia; exact Er).
  destruct (Sp r Eout) as (M & Fin).
  destruct (merged_drawn3 _ (seg3 (concat s)) es r (fun e f a Qe Qf Em => merge_seg3 _ e f a Gv Sh Qe Qf Em) M Fe) as (Fr & Drw).
  exists r. split; [unfold surface_cleaner; rewrite Ese; cbn [bind]; rewrite (St (S (length es))) by lia; rewrite Eout; reflexivity|].
  assert (Dx : forall x, drawn3 r x <-> on_border s x) by (intros x; rewrite Drw, De, Db, OB; tauto).
  split; [exact Dx|]. split; [exact Fr|]. split; [|split].
  { intros ->. destruct bb as [|b0 b']; [contradiction|]. destruct (Ib b0 (or_introl eq_refl)) as (_ & u & v & -> & _).
    destruct (proj2 (Drw (pp u))) as (e & [] & _). apply De. exists [u; v]. split; [left; reflexivity|]. apply hull_mem. left. reflexivity. }
  { intros x (f & If & Hx). destruct (Cov f If) as (g & Ig & Ifg). destruct (Pl g Ig) as (n & d & Nn & P). destruct (Hg g Ig) as (_ & Ng & Is & _).
    destruct (plane_between n d Nn (map (map pp) g)) with (x := x) as (b1 & b2 & H1 & H2 & Hb).
    - apply Forall_map, Forall_forall. intros h Ih. apply P in Ih as (Ih & Ph). exact (skin_tri_in o s To NF Sf h n d Ih Ph).
    - exact (skin_ee o s To NF FF Sf g Ng Is).
    - exists (map pp f). split; [apply in_map, Ifg|exact Hx].
    - exists b1, b2. split; [apply Dx, OB; eauto|]. split; [apply Dx, OB; eauto|exact Hb]. }
  assert (K : forall i j e f p q p' z, (i < j)%nat -> nth_error r i = Some e -> nth_error r j = Some f -> ends e p q -> ends f p' z -> pp p = pp p' -> pp q <> pp z -> ~ hull [pp q; pp z] (pp p)).
  { intros i j e f p q p' z Hij Ei Ej E1 E2 Ep Nqs Hp.
    assert (Sm : two_segment_into_one Rnum e f = Ok None).
    { apply nth_error_split in Ej as (la & lb & -> & Lj). rewrite nth_error_app1 in Ei by lia. apply nth_error_split in Ei as (l1 & l2 & -> & _). apply (Fin l1 e l2 f lb). rewrite <- app_assoc. reflexivity. }
    rewrite Forall_forall in Fr. assert (Qe : seg3 (concat s) e) by (eapply Fr, nth_error_In; exact Ei). assert (Qf : seg3 (concat s) f) by (eapply Fr, nth_error_In; exact Ej).
    destruct (seg3_goods _ e Gv Qe) as (L1 & G1). destruct (seg3_goods _ f Gv Qf) as (L2 & G2). destruct (two_segment_spec Rnum e f L1 L2 G1 G2) as (m & Em & Hm). rewrite Sm in Em. injection Em as <-.
    specialize (Hm p q p' z E1 E2 (proj2 (pp_iff p p') Ep)). destruct (seg3_ends _ e p q Qe E1) as (Ip & Iq & _). destruct (seg3_ends _ f p' z Qf E2) as (_ & Is & _).
    rewrite on_segment_ico in Hm by first [exact (OutlineLemmas.good_len p _ Gv Ip)|exact (OutlineLemmas.good_len q _ Gv Iq)|exact (OutlineLemmas.good_len z _ Gv Is)]. rewrite on_segment_complete in Hm by assumption. discriminate. }
  intros i j e f p q p' z Nij Ei Ej E1 E2 Ep Nqs Hp. destruct (lt_dec i j) as [L|L]; [exact (K i j e f p q p' z L Ei Ej E1 E2 Ep Nqs Hp)|].
  apply (K j i f e p' z p q ltac:(lia) Ej Ei E2 E1); [congruence|congruence|]. rewrite <- Ep. apply hull_swap, Hp.
Qed.
End Border.

(** * Solids *)
Definition lucky (draws : nat -> nat -> list (nat * nat * nat)) (s : obj4) : Prop :=
  forall i j t u, nth_error s i = Some t -> nth_error s j = Some u -> i <> j ->
    exists b, coplanar_check_two_triangles Rnum (draws i j) t u = Ok b /\ (b = true <-> coplanar3 (map pp (t ++ u))).
Lemma solid_point o : o <> [] -> tets o -> exists v, In v (concat o).
Proof. intros Ne To. destruct o as [|t o']; [contradiction|]. pose proof (Forall_inv To) as [L _]. destruct t as [|a t]; [discriminate L|]. exists a. left. reflexivity. Qed.
Lemma vertex_region o v : In v (concat o) -> region o (pp v).
Proof. intros Hv. apply in_concat in Hv as (t & Ht & Hv). exists t. split; [exact Ht|]. apply hull_mem, in_map, Hv. Qed.
Lemma solid_borders draws o s : solid o -> generator_surface_1 Rnum o = Ok s -> sharp3 (concat s) -> lucky draws s ->
  exists r, surface_cleaner Rnum draws s = Ok r /\ (forall x, drawn3 r x <-> on_border s x) /\ Forall (seg3 (concat s)) r /\ r <> [] /\
    (forall x, region o x -> hull (map pp (concat r)) x) /\
    forall i j e f p q p' s, i <> j -> nth_error r i = Some e -> nth_error r j = Some f -> ends e p q -> ends f p' s -> pp p = pp p' -> pp q <> pp s ->
      ~ hull [pp q; pp s] (pp p).
Proof.
  intros So Es Sh Lu. pose proof So as (Ne & To & NF & FF & _). destruct (surface_boundary o So) as (s' & Es' & ND & Sf & Sk). rewrite Es in Es'. injection Es' as <-.
  assert (Sf' : forall f, In f s -> In f (all_faces o) /\ once f (all_faces o)) by (intros f; apply Sf).
  assert (Ns : s <> []).
  { destruct (solid_point o Ne To) as (v & Hv). destruct (region_between o To NF FF (pp v) (vertex_region o v Hv)) as (b & _ & B & _). apply Sk in B as (f & If & _). intros ->. destruct If. }
  destruct (cleaner_R o s To NF FF ND Sf' Sh Ns draws Lu) as (r & Er & D & Fr & Nr & Sp & Irr). exists r. repeat (split; [assumption|]). split; [|exact Irr].
  assert (Dh : forall x, drawn3 r x -> hull (map pp (concat r)) x).
  { intros x (e & He & Hx). apply (hull_trans _ _ _ Hx). intros z Hz. apply hull_mem. apply in_map_iff in Hz as (w & <- & Hw). apply in_map, in_concat. eauto. }
  assert (Bh : forall x, boundary3 (region o) x -> hull (map pp (concat r)) x).
  { intros x B. apply Sk, Sp in B as (b1 & b2 & D1 & D2 & Hb). apply (hull_trans _ _ _ Hb). intros z [<-|[<-|[]]]; apply Dh; assumption. }
  intros x Rx. destruct (region_between o To NF FF x Rx) as (b1 & b2 & B1 & B2 & Hb). apply (hull_trans _ _ _ Hb). intros z [<-|[<-|[]]]; apply Bh; assumption.
Qed.
Lemma skin_vertices o s : tets o -> (forall f, In f s -> In f (all_faces o)) -> incl (concat s) (concat o).
Proof.
  intros T Is v Hv. apply in_concat in Hv as (f & Hf & Hv). apply Is in Hf. unfold all_faces in Hf. apply in_concat in Hf as (l & Hl & Hf). apply in_map_iff in Hl as (t & <- & Ht).
  apply in_concat. exists t. split; [exact Ht|]. unfold tets in T. rewrite Forall_forall in T. destruct (T t Ht) as [L _]. destruct t as [|a [|b [|c [|d [|]]]]]; try discriminate L.
  cbn in Hf. destruct Hf as [<-|[<-|[<-|[<-|[]]]]]; cbn in *; tauto.
Qed.
Lemma segs_incl vs r : Forall (seg3 vs) r -> incl (concat r) vs.
Proof. intros Fr v Hv. rewrite Forall_forall in Fr. apply in_concat in Hv as (e & He & Hv). destruct (Fr e He) as (u & w & -> & Iu & Iw & _). destruct Hv as [<-|[<-|[]]]; assumption. Qed.
Lemma goods_sub vs ws : goods 6 vs -> incl ws vs -> goods 6 ws.
Proof. unfold goods. rewrite !Forall_forall. auto. Qed.
Lemma tets_goods o : tets o -> goods 6 (concat o).
Proof. intros T. apply Forall_forall. intros v Hv. apply in_concat in Hv as (t & Ht & Hv). unfold tets in T. rewrite Forall_forall in T. destruct (T t Ht) as [_ G]. unfold goods in G. rewrite Forall_forall in G. apply G, Hv. Qed.
(** The points handed to the triangulation. *)
Lemma hull_points delaunay draws o s : solid o -> generator_surface_1 Rnum o = Ok s -> sharp3 (concat s) -> lucky draws s ->
  exists vts, goods 6 vts /\ incl vts (concat o) /\ (forall x, hull (map pp vts) x <-> hull (map pp (concat o)) x) /\
    generate_convex_hull Rnum delaunay draws o = tetrahedralization_points Rnum delaunay vts.
Proof.
  intros So Es Sh Lu. pose proof So as (Ne & To & _). destruct (solid_borders draws o s So Es Sh Lu) as (r & Er & _ & Fr & _ & Rh & _).
  destruct (surface_boundary o So) as (s' & Es' & _ & Sf & _). rewrite Es in Es'. injection Es' as <-.
  assert (Io : incl (concat r) (concat o)) by (apply (incl_tran (segs_incl _ r Fr)), skin_vertices; [exact To|intros f Hf; apply Sf, Hf]).
  pose proof (goods_sub _ _ (tets_goods o To) Io) as Gr. destruct (perp_space_spec_flat (concat r) (A4 r)) as (vts & Ev & Iv & _ & SS); [right; eauto|exact Gr|]. apply pp_same in SS.
  exists vts. split; [exact (goods_sub _ _ Gr Iv)|]. split; [exact (incl_tran Iv Io)|]. split.
  - intros x. transitivity (hull (map pp (concat r)) x); [split; apply hull_same; intros y; [|symmetry]; apply SS|].
    split; intros H; apply (hull_trans _ _ _ H); intros y Hy; apply in_map_iff in Hy as (v & <- & Hv); [apply hull_mem, in_map, Io, Hv|apply Rh, vertex_region, Hv].
  - unfold generate_convex_hull. rewrite Es. cbn [bind]. rewrite Er. cbn [bind]. rewrite Ev. reflexivity.
Qed.
Lemma pieces_inside delaunay vts r x : goods 6 vts -> tetrahedralization_points Rnum delaunay vts = Ok (Some r) -> region r x -> hull (map pp vts) x.
Proof.
  intros G E (t & Ht & Hx). destruct (Proofs.P_Intersect.L_C37_pieces Rnum delaunay vts (Some r) G E) as (q & l & ts & _ & _ & _ & _ & _ & Inc). rewrite Forall_forall in Inc.
  apply (hull_trans _ _ _ Hx). intros y Hy. apply in_map_iff in Hy as (v & <- & Hv). apply hull_mem, in_map, (Inc t Ht), Hv.
Qed.
Lemma hull_R delaunay draws o s r : solid o -> generator_surface_1 Rnum o = Ok s -> sharp3 (concat s) -> lucky draws s ->
  (forall q l, delaunay q = Some l -> covers q l) -> generate_convex_hull Rnum delaunay draws o = Ok r ->
  exists h, r = Some h /\ forall x, region h x <-> hull (map pp (concat o)) x.
Proof.
  intros So Es Sh Lu Cov E. destruct (hull_points delaunay draws o s So Es Sh Lu) as (vts & Gv & Iv & Hv & Eh). rewrite Eh in E. pose proof So as (Ne & To & _).
  destruct (solid_point o Ne To) as (v & Iv0). destruct (tetra_covers_opt delaunay vts r (pp v) Gv Cov E) as (h & -> & _); [apply Hv, hull_mem, in_map, Iv0|].
  exists h. split; [reflexivity|]. intros x. rewrite <- Hv. split; [exact (pieces_inside delaunay vts h x Gv E)|exact (tetra_covers delaunay vts h x Gv Cov E)].
Qed.
Lemma hull_total delaunay draws o s : solid o -> generator_surface_1 Rnum o = Ok s -> sharp3 (concat s) -> lucky draws s ->
  (forall q, ~ coplanar3 (map pt3 q) -> exists l, delaunay q = Some l) ->
  (forall q l, delaunay q = Some l -> Forall (fun '(i, j, k, m) => (i < length q)%nat /\ (j < length q)%nat /\ (k < length q)%nat /\ (m < length q)%nat) l) ->
  exists r, generate_convex_hull Rnum delaunay draws o = Ok r.
Proof.
  intros So Es Sh Lu Suc Val. destruct (hull_points delaunay draws o s So Es Sh Lu) as (vts & Gv & Iv & Hv & ->). pose proof So as (Ne & To & NF & _).
  assert (NC : ~ coplanar3 (map pp vts)).
  { intros (n & d & Nn & Fp). destruct (nonempty_in o Ne) as (t & Ht). specialize (NF t Ht). pose proof (len4_in o To t Ht) as L. destruct t as [|a [|b [|c [|e [|]]]]]; try discriminate L. apply pvol_flat in NF. apply NF.
    assert (K : forall v, In v [a; b; c; e] -> dot3 n (pp v) = d).
    { intros v Iv'. assert (Hx : hull (map pp vts) (pp v)) by (apply Hv, hull_mem, in_map, in_concat; eauto). rewrite Forall_forall in Fp.
      assert (Z : ev (n, - d) (pp v) = 0) by (apply (hull_zero _ (map pp vts)); [intros p Hp; unfold ev; cbn [fst snd]; rewrite (Fp p Hp); ring|exact Hx]). unfold ev in Z. cbn [fst snd] in Z. lra. }
    pose proof (K a ltac:(cbn; auto)) as Ka. pose proof (K b ltac:(cbn; auto)) as Kb. pose proof (K c ltac:(cbn; auto)) as Kc. pose proof (K e ltac:(cbn; auto)) as Ke. clear - Nn Ka Kb Kc Ke.
    unfold flat4, triple3. destruct (classic (cross3 (sub3 (pp b) (pp a)) (sub3 (pp c) (pp a)) = o3)) as [Z|C].
    - rewrite Z. destruct (sub3 (pp e) (pp a)) as [[? ?] ?]. cbn. ring.
    - set (m := cross3 (sub3 (pp b) (pp a)) (sub3 (pp c) (pp a))) in *.
      assert (Pb : dot3 m (pp b) = dot3 m (pp a)) by (unfold m; destruct (pp a) as [[? ?] ?], (pp b) as [[? ?] ?], (pp c) as [[? ?] ?]; cbn; ring).
      assert (Pc : dot3 m (pp c) = dot3 m (pp a)) by (unfold m; destruct (pp a) as [[? ?] ?], (pp b) as [[? ?] ?], (pp c) as [[? ?] ?]; cbn; ring).
      pose proof (plane_unique n d m (dot3 m (pp a)) (pp a) (pp b) (pp c) Nn C C Ka Kb Kc eq_refl Pb Pc (pp e) Ke) as Q. clearbody m. destruct m as [[? ?] ?], (pp a) as [[? ?] ?], (pp e) as [[? ?] ?]. cbn in *. lra. }
  assert (Nv : vts <> []) by (intros ->; apply NC; exists (1, 0, 0), 0; split; [intros E; injection E; lra|constructor]).
  unfold tetrahedralization_points. destruct vts as [|v0 vts0]; [contradiction|]. set (vts := v0 :: vts0) in *.
  assert (Q : mapM (fun v => bind (projection3 v) (fun w => Ok (numerical_vector Rnum w))) vts = Ok (map ppoint vts)).
  { clearbody vts. clear - Gv. induction Gv as [|v p Hv _ IH]; cbn [mapM map]; [reflexivity|]. destruct (wp_elim _ _ (Proofs.IcoProj.projection3_spec v Hv)) as (w & -> & _ & V). cbn [bind]. rewrite numerical_vector_R, V, IH. reflexivity. }
  rewrite Q. cbn [bind]. destruct (Suc (map ppoint vts)) as (l & El); [rewrite map_map; exact NC|]. rewrite El. pose proof (Val _ _ El) as Vl. rewrite map_length in Vl.
  assert (T : exists ts, Forall2 (vertices_at vts) l ts).
  { clearbody vts. clear - Vl. assert (G : forall i, (i < length vts)%nat -> exists v, nth_error vts i = Some v) by (intros i Hi; destruct (nth_error vts i) eqn:E; [eauto|apply nth_error_None in E; lia]).
    induction Vl as [|[[[i j] k] m] l (Hi & Hj & Hk & Hm) _ (ts & IH)]; [exists []; constructor|]. destruct (G i Hi) as (a & Ha), (G j Hj) as (b & Hb), (G k Hk) as (c & Hc), (G m Hm) as (d & Hd).
    exists ([a; b; c; d] :: ts). constructor; [exists a, b, c, d; auto|exact IH]. }
  destruct T as (ts & Ft). destruct (Proofs.IntersectLemmas.keep_ok vts l ts Gv Ft) as (ob & ->). cbn [bind]. eauto.
Qed.
(** A convex solid is the hull of its vertices. *)
Lemma convex_hull_region o : convex3 (region o) -> forall x, hull (map pp (concat o)) x <-> region o x.
Proof.
  intros C x. split.
  - intros H. apply (convex_hull (region o) (map pp (concat o)) x); [|apply Forall_map, Forall_forall; intros v; apply vertex_region|exact H].
    intros a b k Ra Rb Hk. exact (C a b k Ra Rb Hk).
  - intros (t & Ht & Hx). apply (hull_sub _ _ _ Hx), incl_map. intros v Hv. apply in_concat. eauto.
Qed.
(** Where the boundary is flat there is no border. *)
Lemma hull_step ps y v k : hull ps y -> In v ps -> 0 <= k <= 1 -> hull ps (add3 y (scale3 k (sub3 v y))).
Proof.
  intros Hy Iv Hk. replace (add3 y (scale3 k (sub3 v y))) with (add3 (scale3 (1 - k) y) (scale3 k v)) by (destruct y as [[? ?] ?], v as [[? ?] ?]; cbn; apply f_equal2; [apply f_equal2|]; ring).
  apply (hull_trans [y; v]); [|intros z [<-|[<-|[]]]; [exact Hy|apply hull_mem, Iv]].
  exists [1 - k; k]. split; [|apply Forall_cons; [lra|apply Forall_cons; [lra|apply Forall_nil]]]. split; [reflexivity|]. split; [cbn [Rsum]; lra|]. destruct y as [[? ?] ?], v as [[? ?] ?]. cbn. apply f_equal2; [apply f_equal2|]; ring.
Qed.
Lemma flat_face (B : R3 -> Prop) n x eps y ps : 0 < eps -> (forall z, dist3 z x < eps -> B z -> dot3 n z = dot3 n x) -> (forall z, hull ps z -> B z) ->
  hull ps y -> dist3 y x < eps -> forall v, In v ps -> dot3 n v = dot3 n x.
Proof.
  intros He Fl Bp Hy Dy v Iv. pose proof (IntersectLemmas.norm3_scale) as NS. set (d := norm3 (sub3 v y)). assert (D0 : 0 <= d) by apply sqrt_pos.
  set (g := eps - dist3 y x). assert (G0 : 0 < g) by (unfold g; lra). set (k := g / (g + 2 * d + 1) ).
  assert (K0 : 0 < k) by (apply Rdiv_lt_0_compat; lra). assert (K1 : k <= 1) by (unfold k; apply (Rmult_le_reg_r (g + 2 * d + 1)); [lra|]; unfold Rdiv; rewrite Rmult_assoc, Rinv_l; lra).
  assert (Kd : k * d < g).
  { assert (E : k * (g + 2 * d + 1) = g) by (unfold k; field; lra). nra. }
  pose proof (hull_step ps y v k Hy Iv ltac:(lra)) as Hz. set (z := add3 y (scale3 k (sub3 v y))) in *.
  assert (Dz : dist3 z x < eps).
  { pose proof (IntersectLemmas.dist3_triangle z y x) as T. assert (dist3 z y = k * d).
    { unfold dist3. replace (sub3 z y) with (scale3 k (sub3 v y)) by (unfold z; destruct y as [[? ?] ?], v as [[? ?] ?]; cbn; apply f_equal2; [apply f_equal2|]; ring). apply NS. lra. }
    unfold g in *. lra. }
  pose proof (Fl z Dz (Bp z Hz)) as E1. pose proof (Fl y Dy (Bp y Hy)) as E2.
  assert (E3 : k * (dot3 n v - dot3 n y) = dot3 n z - dot3 n y) by (unfold z; destruct n as [[? ?] ?], y as [[? ?] ?], v as [[? ?] ?]; cbn; ring).
  replace (dot3 n z - dot3 n y) with 0 in E3 by lra. apply Rmult_integral in E3 as [E3|E3]; lra.
Qed.
Lemma flat_no_border o s x : solid o -> generator_surface_1 Rnum o = Ok s -> flat_at (region o) x -> ~ on_border s x.
Proof.
  intros So Es (m & eps & Nm & He & Fl) (n & d & Nn & Dx & Bd). pose proof So as (Ne & To & NF & FF & _). destruct (surface_boundary o So) as (s' & Es' & ND & Sf & Sk). rewrite Es in Es'. injection Es' as <-.
  assert (Sf' : forall f, In f s -> In f (all_faces o) /\ once f (all_faces o)) by (intros f; apply Sf).
  assert (K : forall f y, In f s -> hull (map pp f) y -> dist3 y x < eps -> in_plane m (dot3 m x) f).
  { intros f y If Hy Dy. apply Forall_forall. intros v Hv. apply (flat_face (boundary3 (region o)) m x eps y (map pp f) He); [intros z Dz; apply (Fl z Dz)| |exact Hy|exact Dy|apply in_map, Hv].
    intros z Hz. apply Sk. exists f. auto. }
  destruct (Bd eps He) as ((y & Py & (f & If & Pf & Hy) & Dy) & (z & Pz & Nz & Dz)).
  assert (Q : (forall p, dot3 n p = d -> dot3 m p = dot3 m x) /\ (forall p, dot3 m p = dot3 m x -> dot3 n p = d)).
  { pose proof (K f y If Hy Dy) as Mf. destruct (skin_face o s To NF Sf' f If) as (i & t & u & v & w & _ & -> & _ & _ & _ & _ & C). inversion Pf as [|? ? P1 Pf1]; subst. inversion Pf1 as [|? ? P2 Pf2]; subst. inversion Pf2 as [|? ? P3 _]; subst.
    inversion Mf as [|? ? M1 Mf1]; subst. inversion Mf1 as [|? ? M2 Mf2]; subst. inversion Mf2 as [|? ? M3 _]; subst.
    split; [exact (plane_unique n _ m _ _ _ _ Nn Nm C P1 P2 P3 M1 M2 M3)|exact (plane_unique m _ n _ _ _ _ Nm Nn C M1 M2 M3 P1 P2 P3)]. }
  apply Nz. assert (Bz : boundary3 (region o) z) by (apply (Fl z Dz), Q, Pz). apply Sk in Bz as (g & Ig & Hz). exists g. split; [exact Ig|]. split; [|exact Hz].
  pose proof (K g z Ig Hz Dz) as Mg. eapply Forall_impl; [|exact Mg]. intros v. apply Q.
Qed.
(** * Samples *)
Lemma few_coplanar ps : (length ps < 4)%nat -> coplanar3 ps.
Proof.
  intros L. destruct ps as [|a [|b [|c [|]]]]; [| | | |cbn in L; lia].
  - exists (1,0,0), 0. split; [unfold o3; intros E; injection E; lra|constructor].
  - exists (1,0,0), (dot3 (1,0,0) a). split; [unfold o3; intros E; injection E; lra|]. repeat constructor.
  - destruct (two_normals (sub3 b a) (sub3 b a)) as (e & Ne & H & _). exists e, (dot3 e a). split; [exact Ne|]. repeat constructor.
    p3 a. p3 b. p3 e. cbn in *. lra.
  - destruct (two_normals (sub3 b a) (sub3 c a)) as (e & Ne & H & H'). exists e, (dot3 e a). split; [exact Ne|]. repeat constructor.
    + p3 a. p3 b. p3 e. cbn in *. lra.
    + p3 a. p3 c. p3 e. cbn in *. lra.
Qed.
Lemma copl_samples draws t u vs : length t = 3%nat -> length u = 3%nat -> goods 6 (t ++ u) -> remove_doubling_in_perp_space (A3 (t ++ u)) = Ok vs ->
  clear_planes (t ++ u) ->
  Forall (valid_draw (length vs)) draws ->
  (length vs <= 3)%nat \/ (exists i j k a b c, In (i, j, k) draws /\ nth_error vs i = Some a /\ nth_error vs j = Some b /\ nth_error vs k = Some c /\
     spread (pp a) (pp b) (pp c)) ->
  exists b, coplanar_check_two_triangles Rnum draws t u = Ok b /\ (b = true <-> coplanar3 (map pp (t ++ u))).
Proof.
  intros Lt Lu G Ev St Vd Sp. destruct (perp_space_spec (t ++ u) G) as (vs' & Ev' & I & _ & SS). rewrite Ev in Ev'. injection Ev' as <-. apply pp_same in SS.
  assert (Gv : Forall (fun v => length v = 6%nat) vs) by (apply Forall_forall; intros v Hv; apply (OutlineLemmas.good_len v (t ++ u)); [exact G|apply I, Hv]).
  assert (CC : coplanar3 (map pp (t ++ u)) <-> coplanar3 (map pp vs)).
  { unfold coplanar3. split; intros (n & d & Nn & Fp); exists n, d; (split; [exact Nn|]); rewrite Forall_forall in *; intros p Hp; apply Fp, SS, Hp. }
  unfold coplanar_check_two_triangles. rewrite Ev. cbn [bind]. rewrite L_C26_tau by exact Gv.
  destruct (le_lt_dec (length vs) 3) as [L|L].
  - rewrite L_C26_few by (rewrite map_length; exact L). cbn [bind]. exists true. split; [reflexivity|]. split; [intros _|reflexivity]. apply CC.
    exact (few_coplanar (map pp vs) ltac:(rewrite map_length; lia)).
  - destruct Sp as [Sp|(i & j & k & a & b & c & Hin & Ea & Eb & Ec & Big)]; [lia|]. unfold spread in Big. destruct (cross3 (sub3 (pp b) (pp a)) (sub3 (pp c) (pp a))) as [[x y] z] eqn:Ex.
    pose proof (L_C26_undecided draws (map pp vs)) as Un. rewrite map_length in Un. specialize (Un L Vd). destruct Un as ((o & Eo) & Un). rewrite Eo. cbn [bind].
    destruct o as [[|]|].
    + exists true. split; [reflexivity|]. split; [intros _|reflexivity]. apply CC.
      destruct (coplanar_numeric_R draws (map pp vs)) as [[E Fl]|(i' & j' & k' & pi & pj & pk & b' & Hin' & Ni & Nj & Nk & Sm & E & Hb)]; [rewrite map_length; exact Vd|rewrite map_length; exact L| |]; change (Num.pt Rnum) with R3 in *; rewrite E in Eo; [discriminate|]. injection Eo as ->.
      pose proof (proj1 Hb eq_refl) as Fd. exists (cross3 (sub3 pj pi) (sub3 pk pi)), (dot3 (cross3 (sub3 pj pi) (sub3 pk pi)) pi). split.
      { intros Z. rewrite Z in Sm. assert (S0 : small Rnum ((0, 0, 0) : Num.pt Rnum) = true) by (apply small_R; cbv beta iota; rewrite Rabs_R0; lra). assert (S1 : small Rnum ((0, 0, 0) : Num.pt Rnum) = false) by exact Sm. congruence. }
      apply Forall_forall. intros p Hp. rewrite Forall_forall in Fd. specialize (Fd p Hp).
      assert (Get : forall n q, nth_error (map pp vs) n = Some q -> exists v, In v (t ++ u) /\ q = pp v) by (intros n q En; rewrite nth_error_map in En; destruct (nth_error vs n) as [v|] eqn:Ev2; [|discriminate]; injection En as <-; exists v; split; [apply I, (nth_error_In _ _ Ev2)|reflexivity]).
      destruct (Get _ _ Ni) as (vi & Ii & ->). destruct (Get _ _ Nj) as (vj & Ij & ->). destruct (Get _ _ Nk) as (vk & Ik & ->). apply in_map_iff in Hp as (v & <- & Hp).
      destruct (St vi vj vk v Ii Ij Ik (I v Hp)) as [Fl|Fl]; unfold flat4, triple3 in Fl; [|lra].
      clear - Fl. destruct (cross3 _ _) as [[? ?] ?], (pp vi) as [[? ?] ?], (pp v) as [[? ?] ?]. cbn in *. lra.
    + exists false. split; [reflexivity|]. split; [discriminate|]. intros C. exfalso. assert (Vd' : Forall (valid_draw (length (map pp vs))) draws) by (rewrite map_length; exact Vd). apply (L_C26_false_right draws (map pp vs) Vd' Eo), CC, C.
    + exfalso. apply Un in Eo. rewrite Forall_forall in Eo. specialize (Eo _ Hin). cbn in Eo. destruct Eo as (pi & pj & pk & x' & y' & z' & Ni & Nj & Nk & Ex' & S1 & S2 & S3). rewrite nth_error_map, Ea in Ni. rewrite nth_error_map, Eb in Nj. rewrite nth_error_map, Ec in Nk. cbn [option_map] in Ni, Nj, Nk.
      assert (pi = pp a) by congruence. assert (pj = pp b) by congruence. assert (pk = pp c) by congruence. subst pi pj pk. rewrite Ex in Ex'. assert (x = x' /\ y = y' /\ z = z') as (<- & <- & <-) by (injection Ex'; auto). lra.
Qed.
