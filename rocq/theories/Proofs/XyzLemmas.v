(** XYZ files. *)
From Coq Require Import Ascii String Reals List ZArith Bool Lia.
From Verif Require Import Base.Res Model.Tau Model.Arr Model.IcoMath1 Model.IcoVolume Model.DodeMath1 Model.Text Model.Xyz
  Spec.Value Spec.RVec Spec.Shape Spec.Geometry Spec.TextSpec Proofs.ResLemmas Proofs.ValueLemmas Proofs.IcoProj Proofs.DodeProj
  Proofs.IcoVolumeLemmas Proofs.TextLemmas.
Import ListNotations.
Local Open Scope nat_scope.
Local Open Scope list_scope.
Local Open Scope res_scope.

Definition ints (v : vec) : list Z := flat_map (fun t => [ta t; tb t; tc t]) v.

Lemma list6' {A} (v : list A) : length v = 6 -> exists a b c d e f, v = [a;b;c;d;e;f].
Proof. do 7 (destruct v as [|? v]; try discriminate). intros _. repeat eexists. Qed.

Lemma as_vec_ints v : length v = 6 -> as_vec (ints v) = v.
Proof. intros H. destruct (list6' v H) as (a & b & c & d & e & f & ->). destruct a, b, c, d, e, f. reflexivity. Qed.

(** ** One line *)
Lemma words_field f s : field f -> (forall c s', s = c :: s' -> white c = true) -> exists w, words (f ++ s) = w :: words s.
Proof.
  intros (k & w & -> & W) H. exists w. rewrite <- app_assoc. change " "%char with sp. rewrite words_spaces.
  destruct s as [|c s]; [rewrite app_nil_r; apply words_word; exact W|].
  rewrite words_word_white; [|exact W|apply (H c s eq_refl)]. rewrite words_white by apply (H c s eq_refl). reflexivity.
Qed.

Lemma words_tau t s : words (show_tau t ++ sp :: s) = show_Z (ta t) :: show_Z (tb t) :: show_Z (tc t) :: words s.
Proof.
  unfold show_tau. rewrite <- app_assoc. cbn [app]. rewrite words_word_white by (apply show_Z_word || reflexivity).
  rewrite <- app_assoc. cbn [app]. rewrite words_word_white by (apply show_Z_word || reflexivity).
  rewrite words_word_white by (apply show_Z_word || reflexivity). reflexivity.
Qed.
Lemma words_tau_end t : words (show_tau t) = [show_Z (ta t); show_Z (tb t); show_Z (tc t)].
Proof.
  unfold show_tau. rewrite words_word_white by (apply show_Z_word || reflexivity).
  rewrite words_word_white by (apply show_Z_word || reflexivity). rewrite words_word by apply show_Z_word. reflexivity.
Qed.
Lemma words_vec6 v s : length v = 6 -> show_vec6 v = Ok s -> words s = map show_Z (ints v).
Proof.
  intros L. destruct (list6' v L) as (a & b & c & d & e & f & ->). unfold show_vec6. cbn [get nth_error bind].
  intros H. injection H as <-. rewrite !words_tau, words_tau_end. reflexivity.
Qed.
Lemma one_line_show z : one_line (show_Z z).
Proof. apply one_line_field, field_word, show_Z_word. Qed.
Lemma one_line_tau t : one_line (show_tau t).
Proof.
  unfold show_tau. apply one_line_app; [apply one_line_show|]. apply one_line_cons; [discriminate..|].
  apply one_line_app; [apply one_line_show|]. apply one_line_cons; [discriminate..|]. apply one_line_show.
Qed.
Lemma show_vec6_ok v : length v = 6 -> exists s, show_vec6 v = Ok s /\ one_line s /\ words s = map show_Z (ints v).
Proof.
  intros L. assert (H : exists s, show_vec6 v = Ok s).
  { destruct (list6' v L) as (a & b & c & d & e & f & ->). eexists. reflexivity. }
  destruct H as [s H]. exists s. split; [exact H|]. split; [|eapply words_vec6; eassumption].
  destruct (list6' v L) as (a & b & c & d & e & f & ->). injection H as <-.
  repeat (apply one_line_app; [apply one_line_tau|apply one_line_cons; [discriminate..|]]). apply one_line_tau.
Qed.
Lemma ints_length v : length (ints v) = 3 * length v.
Proof. unfold ints. induction v as [|t v IH]; [reflexivity|]. cbn [flat_map app length]. rewrite IH. lia. Qed.

Section Lines.
Variable ff : tau -> str.
Variable proj : vec -> res vec.
Hypothesis ff_ok : forall t, field (ff t).
Hypothesis proj_ok : forall v, good 6 v -> exists p, proj v = Ok p /\ length p = 3.

Lemma atom_line_ok kind i1 i2 vt : word kind -> good 6 vt -> exists l,
  atom_line ff proj kind i1 i2 vt = Ok (l ++ [nl]) /\ one_line l /\ line_ints l = Ok (ints vt).
Proof.
  intros Wk G. destruct (proj_ok vt G) as (p & Ep & Lp). destruct (show_vec6_ok vt (proj2 G)) as (s & Es & Os & Ws).
  do 4 (destruct p as [|? p]; try discriminate). rename t into x, t0 into y, t1 into z.
  set (l := lit "Xx " ++ ff x ++ sp :: ff y ++ sp :: ff z ++ lit " # " ++ pad sp 3 (show_nat i1) ++ lit "-the " ++ kind ++
      sp :: show_nat i2 ++ lit "-th vertex # " ++ s).
  exists l. split.
  { unfold atom_line. rewrite Ep. cbn [bind get nth_error]. rewrite Es. cbn [bind]. unfold l. f_equal.
    repeat (rewrite <- !app_assoc; cbn [app]). reflexivity. }
  assert (Fi : field (pad sp 3 (show_nat i1))) by (apply field_pad, show_nat_word).
  split.
  { unfold l. repeat first [match goal with |- one_line (_ ++ _) => apply one_line_app end | match goal with |- one_line (_ :: _) => apply one_line_cons; [discriminate|discriminate|] end];
      try (apply one_line_field; apply ff_ok); try (apply one_line_dec; reflexivity);
      [apply one_line_field; exact Fi|apply one_line_word, Wk|apply one_line_word, show_nat_word|exact Os]. }
  assert (E : exists w1 w2 w3, words l = [lit "Xx"; w1; w2; w3; lit "#"; show_nat i1 ++ lit "-the"; kind; show_nat i2 ++ lit "-th"; lit "vertex"; lit "#"] ++ map show_Z (ints vt)).
  { unfold l.
    assert (W : forall w s, word w -> words (w ++ lit " " ++ s) = w :: words s) by (intros; apply words_word_white; [assumption|reflexivity]).
    destruct (words_field (ff x) (sp :: ff y ++ sp :: ff z ++ lit " # " ++ pad sp 3 (show_nat i1) ++ lit "-the " ++ kind ++
      sp :: show_nat i2 ++ lit "-th vertex # " ++ s) (ff_ok x)) as [w1 E1]; [intros c s' H; injection H as <- _; reflexivity|].
    destruct (words_field (ff y) (sp :: ff z ++ lit " # " ++ pad sp 3 (show_nat i1) ++ lit "-the " ++ kind ++
      sp :: show_nat i2 ++ lit "-th vertex # " ++ s) (ff_ok y)) as [w2 E2]; [intros c s' H; injection H as <- _; reflexivity|].
    destruct (words_field (ff z) (lit " # " ++ pad sp 3 (show_nat i1) ++ lit "-the " ++ kind ++
      sp :: show_nat i2 ++ lit "-th vertex # " ++ s) (ff_ok z)) as [w3 E3]; [intros c s' H; injection H as <- _; reflexivity|].
    exists w1, w2, w3.
    change (lit "Xx ") with (lit "Xx" ++ lit " "). rewrite <- app_assoc, W by (apply word_dec; reflexivity).
    rewrite E1, words_white by reflexivity. rewrite E2, words_white by reflexivity. rewrite E3.
    change (lit " # ") with (sp :: lit "#" ++ lit " "). cbn [app]. rewrite words_white by reflexivity.
    rewrite <- app_assoc, W by (apply word_dec; reflexivity).
    unfold pad. rewrite <- app_assoc, words_spaces.
    change (lit "-the ") with (lit "-the" ++ lit " "). rewrite <- app_assoc, app_assoc, W
      by (apply word_app; [apply show_nat_word|apply word_dec; reflexivity]).
    rewrite words_word_white by (exact Wk || reflexivity).
    change (lit "-th vertex # ") with (lit "-th" ++ lit " " ++ lit "vertex" ++ lit " " ++ lit "#" ++ lit " ").
    rewrite <- !app_assoc, app_assoc, W by (apply word_app; [apply show_nat_word|apply word_dec; reflexivity]).
    rewrite W by (apply word_dec; reflexivity). rewrite W by (apply word_dec; reflexivity). rewrite Ws. reflexivity. }
  destruct E as (w1 & w2 & w3 & E).
  unfold line_ints. rewrite E. pose proof (ints_length vt) as L. rewrite (proj2 G) in L. revert L. generalize (ints vt). clear.
  intros ns L. do 19 (destruct ns as [|? ns]; try discriminate). cbn [seq mapM map app get nth_error bind]. rewrite !py_int_show. reflexivity.
Qed.

(** Lines that hold the vertices vs. *)
Definition hold (s : str) (vs : vecs) : Prop := exists ls, s = unlines ls /\ Forall one_line ls /\ mapM line_ints ls = Ok (map ints vs).

Lemma hold_nil : hold [] [].
Proof. exists []. repeat split. constructor. Qed.
Lemma hold_app s s' vs vs' : hold s vs -> hold s' vs' -> hold (s ++ s') (vs ++ vs').
Proof.
  intros (ls & -> & O & M) (ls' & -> & O' & M'). exists (ls ++ ls'). split; [symmetry; apply unlines_app|].
  split; [apply Forall_app; auto|]. rewrite mapM_app, M, M'. cbn [bind]. rewrite map_app. reflexivity.
Qed.
Lemma hold_line l v : one_line l -> line_ints l = Ok (ints v) -> hold (l ++ [nl]) [v].
Proof.
  intros O H. exists [l]. split; [unfold unlines; cbn; rewrite app_nil_r; reflexivity|]. split; [constructor; [exact O|constructor]|].
  cbn [mapM]. rewrite H. reflexivity.
Qed.

Lemma item_lines_ok kind k i1 item : word kind -> goods 6 item -> k <= length item -> exists s,
  item_lines ff proj kind k i1 item = Ok s /\ hold s (firstn k item).
Proof.
  intros Wk G Lk. unfold item_lines.
  assert (A : forall n, n <= k -> exists ls, mapM (fun i2 => vt <- get item i2 ;; atom_line ff proj kind i1 i2 vt) (seq 0 n) = Ok ls /\ hold (concat ls) (firstn n item)).
  { induction n as [|n IH]; intros Hn; [exists []; split; [reflexivity|apply hold_nil]|].
    destruct IH as (ls & E & H); [lia|]. rewrite seq_S, mapM_app, E. cbn [bind plus mapM].
    destruct (nth_error item n) as [v|] eqn:Ev; [|apply nth_error_None in Ev; lia].
    assert (Gv : good 6 v) by (eapply (proj1 (Forall_forall _ _) G), nth_error_In, Ev).
    destruct (atom_line_ok kind i1 n v Wk Gv) as (l & El & Ol & Il).
    unfold get at 1. rewrite Ev. cbn [bind]. rewrite El. cbn [bind]. eexists. split; [reflexivity|].
    rewrite concat_app. cbn [concat]. rewrite app_nil_r.
    assert (Ef : firstn (S n) item = firstn n item ++ [v]).
    { clear - Ev. revert item Ev. induction n as [|n IH]; intros [|x item] Ev; try discriminate; [injection Ev as ->; reflexivity|].
      cbn [firstn app]. f_equal. apply IH. exact Ev. }
    rewrite Ef. apply hold_app; [exact H|]. apply hold_line; assumption. }
  destruct (A k (le_n k)) as (ls & E & H). rewrite E. cbn [bind]. eauto.
Qed.

Lemma item_lines_all_ok kind i1 item : word kind -> goods 6 item -> exists s,
  item_lines_all ff proj kind i1 item = Ok s /\ hold s item.
Proof.
  intros Wk G. unfold item_lines_all.
  assert (A : forall item k, goods 6 item -> exists ls, mapM (fun p => atom_line ff proj kind i1 (fst p) (snd p)) (combine (seq k (length item)) item) = Ok ls /\ hold (concat ls) item).
  { clear item G. induction item as [|v item IH]; intros k G; [exists []; split; [reflexivity|apply hold_nil]|].
    inversion G as [|? ? Gv G']; subst. destruct (IH (S k) G') as (ls & E & H).
    destruct (atom_line_ok kind i1 k v Wk Gv) as (l & El & Ol & Il).
    cbn [length seq combine mapM fst snd]. rewrite El. cbn [bind]. rewrite E. cbn [bind]. eexists. split; [reflexivity|].
    cbn [concat]. apply (hold_app _ _ [v]); [apply hold_line; assumption|exact H]. }
  destruct (A item 0 G) as (ls & E & H). rewrite E. cbn [bind]. eauto.
Qed.

Lemma obj_lines_ok f (sel : vecs -> vecs) (o : obj4) :
  (forall i item, In item o -> exists s, f i item = Ok s /\ hold s (sel item)) ->
  exists s, obj_lines f o = Ok s /\ hold s (concat (map sel o)).
Proof.
  intros Hf. unfold obj_lines.
  assert (A : forall o' k, incl o' o -> exists ls, mapM (fun p => f (fst p) (snd p)) (combine (seq k (length o')) o') = Ok ls /\ hold (concat ls) (concat (map sel o'))).
  { induction o' as [|t o' IH]; intros k I; [exists []; split; [reflexivity|apply hold_nil]|].
    destruct (IH (S k)) as (ls & E & H); [intros x Hx; apply I; right; exact Hx|].
    destruct (Hf k t) as (s & Es & Hs); [apply I; left; reflexivity|].
    cbn [length seq combine mapM fst snd]. rewrite Es. cbn [bind]. rewrite E. cbn [bind]. eexists. split; [reflexivity|].
    cbn [concat map]. apply hold_app; assumption. }
  destruct (A o 0) as (ls & E & H); [intros x Hx; exact Hx|]. rewrite E. cbn [bind]. eauto.
Qed.
End Lines.

(** ** Reading *)
Lemma mapM_get_seq {A B} (f : A -> res B) (ls : list A) : forall pre post,
  mapM (fun i => l <- get (pre ++ ls ++ post) i ;; f l) (seq (length pre) (length ls)) = mapM f ls.
Proof.
  induction ls as [|l ls IH]; intros pre post; [reflexivity|]. cbn [length seq mapM].
  unfold get at 1. rewrite nth_error_app2, Nat.sub_diag by lia. cbn [app nth_error bind]. destruct (f l) as [b|]; cbn [bind]; [|reflexivity].
  specialize (IH (pre ++ [l]) post). rewrite app_length in IH. cbn [length] in IH. rewrite Nat.add_1_r in IH.
  rewrite <- app_assoc in IH. cbn [app] in IH. rewrite IH. reflexivity.
Qed.

Lemma py_int_nat n : py_int (show_nat n) = Ok (Z.of_nat n).
Proof. apply py_int_show. Qed.

Lemma read_rows_ok s vs fn rest : hold s vs -> one_line fn -> Forall one_line rest ->
  read_rows (header (length vs) fn ++ s ++ unlines rest) = Ok (Z.of_nat (length vs), map ints vs).
Proof.
  intros (ls & -> & O & M) Of Or. unfold read_rows.
  assert (E : header (length vs) fn ++ unlines ls ++ unlines rest = unlines (show_nat (length vs) :: fn :: ls ++ rest)).
  { rewrite !unlines_cons, unlines_app. unfold header. rewrite <- app_assoc. cbn [app]. rewrite <- app_assoc. reflexivity. }
  rewrite E, read_unlines.
  2: { constructor; [apply one_line_word, show_nat_word|]. constructor; [exact Of|]. apply Forall_app; auto. }
  cbn [get nth_error bind]. rewrite words_word by apply show_nat_word. cbn [get nth_error bind]. rewrite py_int_nat.
  cbn [bind]. rewrite Nat2Z.id. pose proof (mapM_length _ _ _ M) as L. rewrite map_length in L. rewrite L.
  pose proof (mapM_get_seq line_ints ls [show_nat (length ls); fn] rest) as Q. cbn [length app] in Q. rewrite Q, M. reflexivity.
Qed.

Lemma map_as_vec vs : Forall (fun v => length v = 6) vs -> map as_vec (map ints vs) = vs.
Proof. intros H. rewrite map_map. induction H as [|v vs Hv _ IH]; [reflexivity|]. cbn [map]. rewrite as_vec_ints, IH by exact Hv. reflexivity. Qed.

Lemma chunks_concat {A} k (o : list (list A)) : 0 < k -> Forall (fun t => length t = k) o ->
  forall fuel, length o <= fuel -> chunks k fuel (concat o) = o.
Proof.
  intros Hk H. induction H as [|t o Ht _ IH]; intros fuel Hf; [destruct fuel; reflexivity|].
  cbn [length] in Hf. destruct fuel as [|fuel]; [lia|]. cbn [concat].
  destruct t as [|x t]; [cbn [length] in Ht; lia|]. cbn [app chunks]. change (x :: t ++ concat o) with ((x :: t) ++ concat o).
  assert (Q : forall r : list A, firstn k ((x :: t) ++ r) = x :: t /\ skipn k ((x :: t) ++ r) = r).
  { rewrite <- Ht. intros r. rewrite firstn_app, skipn_app, Nat.sub_diag, firstn_all, skipn_all, firstn_O, app_nil_r. auto. }
  rewrite (proj1 (Q _)), (proj2 (Q _)). f_equal. apply IH. lia.
Qed.
Lemma length_concat {A} k (o : list (list A)) : Forall (fun t => length t = k) o -> length (concat o) = length o * k.
Proof. induction 1 as [|t o Ht _ IH]; [reflexivity|]. cbn [concat]. rewrite app_length, IH, Ht. cbn [length]. lia. Qed.

Lemma reshape4_ok k (o : obj4) : 0 < k -> o <> [] -> Forall (fun t => length t = k) o -> goodo 6 o ->
  reshape4 k (Z.of_nat (length (concat o))) (map ints (concat o)) = Ok (A4 o).
Proof.
  intros Hk N L G. unfold reshape4. rewrite map_as_vec.
  2: { apply Forall_concat. eapply Forall_impl; [|exact G]. intros t Ht. eapply Forall_impl; [|exact Ht]. intros v Hv. apply Hv. }
  rewrite map_length, (length_concat k) by exact L. rewrite Nat2Z.inj_mul, Z.quot_mul, Nat2Z.id by lia. rewrite Nat.eqb_refl.
  rewrite chunks_concat; [|exact Hk|exact L|nia].
  destruct (map ints (concat o)) eqn:E; [|reflexivity]. apply (f_equal (@length _)) in E. rewrite map_length, (length_concat k) in E by exact L.
  destruct o; [congruence|cbn [length] in E; lia].
Qed.
Lemma reshape3_ok (vs : vecs) : vs <> [] -> goods 6 vs -> reshape3 (map ints vs) = Ok (A3 vs).
Proof.
  intros N G. unfold reshape3. rewrite map_as_vec by (eapply Forall_impl; [|exact G]; intros v Hv; apply Hv).
  destruct vs; [congruence|reflexivity].
Qed.

(** ** Writing *)
Lemma iproj_ok v : good 6 v -> exists p, projection3 v = Ok p /\ length p = 3.
Proof.
  intros G. pose proof (projection3_spec v G) as H. apply wp_elim in H as (p & E & _ & V). exists p. split; [exact E|].
  apply (f_equal (@length _)) in V. unfold vals in V. rewrite map_length in V. rewrite V. reflexivity.
Qed.
Lemma dproj_ok v : good 6 v -> exists p, dprojection3 v = Ok p /\ length p = 3.
Proof.
  intros G. pose proof (dprojection3_spec v G) as H. apply wp_elim in H as (p & E & _ & V). exists p. split; [exact E|].
  apply (f_equal (@length _)) in V. unfold vals in V. rewrite map_length in V. rewrite V. reflexivity.
Qed.

Lemma one_line_file_name path base ext : one_line path -> one_line base -> one_line ext -> one_line (file_name path base ext).
Proof. intros. unfold file_name. apply one_line_app; [assumption|]. apply one_line_cons; [discriminate..|]. apply one_line_app; assumption. Qed.

Lemma all_none_some (o : obj4) k : o <> [] -> 0 < k -> Forall (fun t => length t = k) o -> goodo 6 o -> all_none (Some (A4 o)) = false.
Proof.
  intros N Hk L G. cbn [all_none]. destruct o as [|t o]; [congruence|]. inversion L; subst. inversion G as [|? ? Gt _]; subst.
  destruct t as [|v t]; [cbn in *; lia|]. inversion Gt as [|? ? [_ Lv] _]; subst. destruct v; [discriminate|reflexivity].
Qed.

Section Write.
Variable ff : tau -> str.
Hypothesis ff_ok : forall t, field (ff t).

Lemma one_line_volume v : one_line (show_tau v ++ lit " (" ++ ff v ++ lit ")").
Proof.
  apply one_line_app; [apply one_line_tau|]. apply one_line_app; [apply one_line_dec; reflexivity|].
  apply one_line_app; [apply one_line_field, ff_ok|apply one_line_dec; reflexivity].
Qed.
Definition vtext (v : tau) : str := show_tau v ++ lit " (" ++ ff v ++ lit ")".
Lemma volume_str_eq v : volume_str ff v = vtext v ++ [nl].
Proof. unfold volume_str, vtext. rewrite <- !app_assoc. reflexivity. Qed.

Lemma xyz_tetrahedron_ok (o : obj4) fn : o <> [] -> tets o -> exists c s vol vlast,
  xyz_tetrahedron ff o fn = Ok c /\ hold s (concat o) /\ obj_volume_6d (A4 o) = Ok (Some vol) /\
  tetrahedron_volume_6d (A3 (last o [])) = Ok (Some vlast) /\
  c = header (length (concat o)) fn ++ s ++ unlines ((lit "volume = " ++ vtext vol) ::
        map (fun i => pad sp 3 (show_nat i) ++ lit "-the tetrahedron, " ++ vtext vlast) (seq 0 (length o))).
Proof.
  intros N H. unfold xyz_tetrahedron.
  assert (L4 : Forall (fun t => length t = 4) o) by (eapply Forall_impl; [|exact H]; intros t Ht; apply Ht).
  destruct (obj_lines_ok (item_lines ff projection3 (lit "tetrahedron") 4) (fun t => t) o) as (s & Es & Hs).
  { intros i item Hi. pose proof (proj1 (Forall_forall _ _) H item Hi) as [Li Gi]. cbv beta in Li, Gi.
    destruct (item_lines_ok ff projection3 ff_ok iproj_ok (lit "tetrahedron") 4 i item) as (s & Es & Hs); [apply word_dec; reflexivity|exact Gi|lia|].
    exists s. split; [exact Es|]. rewrite firstn_all2 in Hs by lia. exact Hs. }
  rewrite map_id in Hs. rewrite Es. cbn [bind].
  pose proof (obj_volume_spec o H) as V. apply wp_elim in V as (? & Ev & vol & -> & _). rewrite Ev. cbn [bind notNone].
  assert (Hl : In (last o []) o) by (destruct (exists_last N) as (o' & t & ->); rewrite last_last; apply in_or_app; right; left; reflexivity).
  pose proof (proj1 (Forall_forall _ _) H _ Hl) as [Ll Gl]. cbv beta in Ll, Gl.
  pose proof (tetvol6_spec _ Ll Gl) as W. apply wp_elim in W as (vl & El & _).
  assert (El' : tetrahedron_volume_6d (A3 (last o [])) = Ok (Some vl)) by (cbn [tetrahedron_volume_6d]; rewrite El; reflexivity).
  rewrite El'. cbn [bind notNone].
  assert (M : forall l, mapM (fun i1 : nat => Ok (volume_line ff i1 vl)) l = Ok (map (fun i1 => volume_line ff i1 vl) l)).
  { induction l as [|x l IH]; [reflexivity|]. cbn [mapM map bind]. rewrite IH. reflexivity. }
  rewrite M. cbn [bind]. eexists _, s, vol, vl. split; [reflexivity|]. split; [exact Hs|]. split; [reflexivity|]. split; [reflexivity|].
  rewrite (length_concat 4) by exact L4. f_equal. f_equal. rewrite unlines_cons, volume_str_eq.
  repeat (rewrite <- !app_assoc; cbn [app]). do 10 f_equal.
  unfold unlines. rewrite map_map. f_equal. apply map_ext. intros i. unfold volume_line. rewrite volume_str_eq, <- !app_assoc. reflexivity.
Qed.

Lemma xyz_items_ok kind k (o : obj4) fn : word (lit kind) -> goodo 6 o -> Forall (fun t => length t = k) o -> exists s,
  xyz_items ff kind k o fn = Ok (header (length (concat o)) fn ++ s) /\ hold s (concat o).
Proof.
  intros Wk G L. unfold xyz_items.
  destruct (obj_lines_ok (item_lines ff projection3 (lit kind) k) (fun t => t) o) as (s & Es & Hs).
  { intros i item Hi. pose proof (proj1 (Forall_forall _ _) L item Hi) as Li. pose proof (proj1 (Forall_forall _ _) G item Hi) as Gi. cbv beta in Li.
    destruct (item_lines_ok ff projection3 ff_ok iproj_ok (lit kind) k i item Wk Gi) as (s & Es & Hs); [lia|].
    exists s. split; [exact Es|]. rewrite firstn_all2 in Hs by lia. exact Hs. }
  rewrite map_id in Hs. rewrite Es. cbn [bind]. exists s. rewrite (length_concat k) by exact L. auto.
Qed.

Lemma dxyz_triangle_ok (o : obj4) fn : goodo 6 o -> exists s,
  dxyz_triangle ff o fn = Ok (header (length o * 3) fn ++ s) /\ hold s (concat o).
Proof.
  intros G. unfold dxyz_triangle.
  destruct (obj_lines_ok (item_lines_all ff dprojection3 (lit "triangle")) (fun t => t) o) as (s & Es & Hs).
  { intros i item Hi. apply item_lines_all_ok; [exact ff_ok|exact dproj_ok|apply word_dec; reflexivity|].
    exact (proj1 (Forall_forall _ _) G item Hi). }
  rewrite map_id in Hs. rewrite Es. cbn [bind]. exists s. auto.
Qed.
End Write.

(** A header that announces [m] atoms. *)
Lemma mapM_get_firstn {A B} (f : A -> res B) (g : A -> B) (ls : list A) (Hf : Forall (fun l => f l = Ok (g l)) ls) : forall pre m,
  mapM (fun i => l <- get (pre ++ ls) i ;; f l) (seq (length pre) m) =
  if m <=? length ls then Ok (map g (firstn m ls)) else Raise IndexError.
Proof.
  induction Hf as [|l ls Hl _ IH]; intros pre m.
  - destruct m as [|m]; [reflexivity|]. cbn [seq mapM]. unfold get at 1. rewrite app_nil_r.
    rewrite (proj2 (nth_error_None pre (length pre))) by lia. reflexivity.
  - destruct m as [|m]; [reflexivity|]. cbn [seq mapM length]. unfold get at 1.
    rewrite nth_error_app2, Nat.sub_diag by lia. cbn [nth_error bind]. rewrite Hl. cbn [bind].
    specialize (IH (pre ++ [l]) m). rewrite <- app_assoc in IH. cbn [app] in IH. rewrite app_length in IH. cbn [length] in IH.
    rewrite Nat.add_1_r in IH. rewrite IH. change (S m <=? S (length ls)) with (m <=? length ls).
    destruct (m <=? length ls); reflexivity.
Qed.
Lemma mapM_ok_pointwise {A B C} (f : A -> res B) (h : C -> B) (ls : list A) : forall vs,
  mapM f ls = Ok (map h vs) -> Forall2 (fun l v => f l = Ok (h v)) ls vs.
Proof.
  induction ls as [|l ls IH]; intros [|v vs] H; cbn [mapM map] in H; try discriminate; [constructor| |].
  - destruct (f l); [|discriminate]. cbn [bind] in H. destruct (mapM f ls); discriminate.
  - destruct (f l) eqn:E; [|discriminate]. cbn [bind] in H. destruct (mapM f ls) eqn:M; [|discriminate]. cbn [bind] in H.
    injection H as -> ->. constructor; [exact E|]. apply IH. reflexivity.
Qed.
Lemma read_rows_any s vs fn m : hold s vs -> one_line fn ->
  read_rows (header m fn ++ s) = if m <=? length vs then Ok (Z.of_nat m, map ints (firstn m vs)) else Raise IndexError.
Proof.
  intros (ls & -> & O & M) Of. unfold read_rows.
  assert (E : header m fn ++ unlines ls = unlines (show_nat m :: fn :: ls)).
  { unfold header. rewrite !unlines_cons. repeat (rewrite <- !app_assoc; cbn [app]). reflexivity. }
  rewrite E, read_unlines by (constructor; [apply one_line_word, show_nat_word|constructor; assumption]).
  cbn [get nth_error bind]. rewrite words_word by apply show_nat_word. cbn [get nth_error bind]. rewrite py_int_nat. cbn [bind].
  rewrite Nat2Z.id. apply mapM_ok_pointwise in M.
  assert (L : length ls = length vs) by (clear - M; induction M; cbn [length]; congruence).
  pose (g := fun l => match line_ints l with Ok x => x | _ => [] end).
  assert (Hg : Forall (fun l => line_ints l = Ok (g l)) ls).
  { clear - M. induction M as [|l v ls vs H _ IH]; constructor; [unfold g; rewrite H; reflexivity|exact IH]. }
  pose proof (mapM_get_firstn line_ints g ls Hg [show_nat m; fn] m) as P. cbn [length app] in P.
  rewrite P, L. destruct (m <=? length vs); [|reflexivity]. cbn [bind]. do 2 f_equal.
  clear - M. revert m. induction M as [|l v ls vs H _ IH]; intros [|m]; [reflexivity..|]. cbn [firstn map]. rewrite IH. f_equal. unfold g. rewrite H. reflexivity.
Qed.
