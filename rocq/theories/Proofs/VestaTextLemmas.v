(** Reading back the text of .vesta files. *)
From Coq Require Import Ascii String List ZArith Bool Lia.
From Verif Require Import Base.Res Model.Tau Model.Arr Model.Num Model.Text Model.PodText Model.Writers Model.VestaText
  Spec.TextSpec Spec.PodText Spec.VestaText Proofs.ResLemmas Proofs.TextLemmas Proofs.PodTextLemmas.
Import ListNotations.
Local Open Scope res_scope.
Local Open Scope list_scope.

(** t consists of lines with the words W. *)
Definition reads (t : str) (W : list (list str)) : Prop := exists L, t = unlines L /\ Forall one_line L /\ map words L = W.
Lemma reads_nil : reads [] [].
Proof. exists []. split; [reflexivity|]. split; [constructor|reflexivity]. Qed.
Lemma reads_app s t W V : reads s W -> reads t V -> reads (s ++ t) (W ++ V).
Proof.
  intros (L & -> & O & <-) (M & -> & P & <-). exists (L ++ M). split; [symmetry; apply unlines_app|]. split; [apply Forall_app; auto|]. apply map_app.
Qed.
Lemma reads_one s : one_line s -> reads (s ++ [nl]) [words s].
Proof. intros O. exists [s]. split; [cbn; rewrite app_nil_r; reflexivity|]. split; [constructor; [exact O|constructor]|reflexivity]. Qed.
Lemma reads_read t W : reads t W -> map words (read_lines t) = W.
Proof. intros (L & -> & O & <-). rewrite read_unlines by exact O. reflexivity. Qed.
Lemma words_trail s k : words (s ++ repeat sp k) = words s.
Proof.
  unfold words. generalize (@nil ascii). induction s as [|c s IH]; intros cur; cbn [app split_run].
  - destruct k as [|k]; cbn [repeat]; [reflexivity|]. cbn [split_run].
    assert (E : split_run [] (repeat sp k) = []) by (induction k; cbn [repeat split_run]; [reflexivity|exact IHk]).
    change (white sp) with true. cbv iota. rewrite E. reflexivity.
  - destruct (white c); [|apply IH]. destruct cur; [apply IH|]. rewrite IH. reflexivity.
Qed.
Lemma one_line_spaces k : one_line (repeat sp k).
Proof. split; intros H; apply repeat_spec in H; discriminate. Qed.
Lemma reads_text p ls : ls <> [] -> Forall (fun l => one_line (lit l)) ls -> reads (text p ls) (map words (map lit ls)).
Proof.
  intros Nn O. unfold text. induction O as [|l ls Hl Hls IH]; [congruence|]. destruct ls as [|l' ls].
  - cbn [map join]. apply reads_one, Hl.
  - change (join (repeat sp p ++ [nl]) (map lit (l :: l' :: ls))) with (lit l ++ (repeat sp p ++ [nl]) ++ join (repeat sp p ++ [nl]) (map lit (l' :: ls))).
    change (map words (map lit (l :: l' :: ls))) with ([words (lit l)] ++ map words (map lit (l' :: ls))).
    rewrite <- !app_assoc, (app_assoc (lit l)), (app_assoc (lit l ++ _)).
    apply reads_app; [|apply IH; discriminate]. rewrite <- (words_trail (lit l) p). apply reads_one. apply one_line_app; [exact Hl|apply one_line_spaces].
Qed.
Definition plainb (l : string) : bool := forallb (fun c => negb (Ascii.eqb c nl || Ascii.eqb c cr)) (lit l).
Lemma reads_fixed p ls : ls <> [] -> forallb plainb ls = true -> reads (text p ls) (map words (map lit ls)).
Proof.
  intros Nn H. apply reads_text; [exact Nn|]. apply Forall_forall. intros l Hl. apply one_line_dec. exact (proj1 (forallb_forall _ _) H l Hl).
Qed.

(** words of a printed line *)
Lemma words_sp s t : field s -> words (s ++ sp :: t) = words s ++ words t.
Proof. exact (words_field_sp s t). Qed.
Lemma words_pre k t : words (repeat sp k ++ t) = words t.
Proof. apply words_spaces. Qed.
Lemma field_app s t : field s -> word t -> field (s ++ t).
Proof.
  intros (k & w & -> & H) Ht. exists k, (w ++ t). rewrite app_assoc. split; [reflexivity|]. apply word_app; assumption.
Qed.
Lemma words_fields_lit s l t : field s -> words (s ++ sp :: lit l ++ t) = words s ++ words (lit l ++ t).
Proof. intros H. apply words_sp, H. Qed.

Ltac ol := repeat first [apply one_line_app|apply one_line_cons; [discriminate|discriminate|]];
  try (apply one_line_dec; reflexivity); try (apply one_line_word', show_Z_word); try (apply one_line_word', show_nat_word); try (apply one_line_word'; assumption);
  try (apply one_line_field, field_pad, show_Z_word); try apply one_line_nil; try apply one_line_spaces; try assumption; try apply one_line_field.

Section Text.
Variable N : num.
Variable f6 : F N -> str.
Hypothesis F6 : forall x, field (f6 x).

Definition label (sym : str) (i : nat) : str := sym ++ show_nat (S i).
Lemma label_word sym i : word sym -> word (label sym i).
Proof. intros H. apply word_app; [exact H|apply show_nat_word]. Qed.
Lemma label_inj sym i j : label sym i = label sym j -> i = j.
Proof.
  intros H. apply app_inv_head in H. unfold show_nat in H. pose proof (py_int_show (Z.of_nat (S i))) as P. rewrite H, py_int_show in P. injection P. lia.
Qed.
Lemma label_sym sym i : label sym i <> sym.
Proof.
  intros H. unfold label in H. rewrite <- (app_nil_r sym) in H at 2. apply app_inv_head in H. destruct (show_nat_word (S i)) as [Nn _]. contradiction.
Qed.

Lemma reads_concat (l : list str) W : Forall2 reads l W -> reads (concat l) (concat W).
Proof. induction 1; cbn [concat]; [apply reads_nil|apply reads_app; assumption]. Qed.

Lemma struc_reads sym i x y z : word sym -> exists wx wy wz t W, struc_line N f6 sym (Z.of_nat (S i)) [x; y; z] = Ok t /\
  reads t [[show_nat (S i); sym; label sym i; lit "1.0000"; wx; wy; wz; lit "1"]; W] /\ W = map lit ["0.000000"; "0.000000"; "0.000000"; "0.00"]%string /\
  prints f6 x wx /\ prints f6 y wy /\ prints f6 z wz.
Proof.
  intros Hs. destruct (field_words _ (F6 x)) as (wx & Ex & _). destruct (field_words _ (F6 y)) as (wy & Ey & _). destruct (field_words _ (F6 z)) as (wz & Ez & _).
  exists wx, wy, wz. eexists. eexists. split; [reflexivity|]. split; [|split; [reflexivity|auto]].
  set (t2 := lit "                             0.000000    0.000000    0.000000  0.00").
  set (t1 := pad sp 4 (show_Z (Z.of_nat (S i))) ++ sp :: sym ++ lit "        " ++ sym ++ show_Z (Z.of_nat (S i)) ++ lit "  1.0000    " ++ f6 x ++ sp :: f6 y ++ sp :: f6 z ++ lit "        1").
  match goal with |- reads ?u _ => replace u with ((t1 ++ [nl]) ++ (t2 ++ [nl])) end.
  2:{ unfold t1. repeat (rewrite <- ?app_assoc; cbn [app]). reflexivity. }
  match goal with |- reads _ [?a; ?b] => change [a; b] with ([a] ++ [b]) end.
  assert (Wn : words (pad sp 4 (show_Z (Z.of_nat (S i)))) = [show_nat (S i)]).
  { unfold pad. change (repeat sp (4 - length (show_Z (Z.of_nat (S i))))) with (repeat sp (4 - length (show_Z (Z.of_nat (S i))))). rewrite words_spaces. apply words_word, show_Z_word. }
  assert (W1 : words t1 = [show_nat (S i); sym; label sym i; lit "1.0000"; wx; wy; wz; lit "1"]).
  { unfold t1. rewrite words_sp by (apply field_pad, show_Z_word). rewrite Wn.
    change (lit "        ") with (sp :: repeat sp 7). cbn [app].
    rewrite (words_word_white sym sp) by (auto; reflexivity). cbn [app]. f_equal. f_equal.
    change (sp :: sp :: sp :: sp :: sp :: sp :: sp :: ?t) with (repeat sp 7 ++ t). rewrite words_spaces.
    rewrite (app_assoc sym). change (sym ++ show_Z (Z.of_nat (S i))) with (label sym i).
    change (lit "  1.0000    ") with (sp :: sp :: lit "1.0000" ++ sp :: repeat sp 3). cbn [app].
    rewrite (words_word_white (label sym i) sp) by (try apply label_word; auto; reflexivity). f_equal.
    change (words (repeat sp 1 ++ (lit "1.0000" ++ repeat sp 4) ++ f6 x ++ sp :: f6 y ++ sp :: f6 z ++ lit "        1") = [lit "1.0000"; wx; wy; wz; lit "1"]).
    rewrite words_spaces, <- app_assoc.
    change (repeat sp 4 ++ ?t) with (sp :: repeat sp 3 ++ t).
    rewrite (words_word_white (lit "1.0000") sp) by (try reflexivity; apply word_dec; reflexivity). f_equal.
    rewrite words_spaces. rewrite words_sp, words_sp by apply F6. rewrite Ex, Ey.
    change (lit "        1") with (sp :: repeat sp 7 ++ lit "1"). rewrite words_sp by apply F6. rewrite Ez, words_spaces. reflexivity. }
  rewrite <- W1. change (map lit ["0.000000"; "0.000000"; "0.000000"; "0.00"]%string) with (words t2).
  apply reads_app; apply reads_one; [|apply one_line_dec; reflexivity].
  unfold t1. ol; apply F6.
Qed.
Lemma theri_reads sym i : word sym -> reads (theri_line sym (Z.of_nat (S i))) [[show_nat (S i); label sym i; lit "1.000000"]].
Proof.
  intros Hs. unfold theri_line. set (t := lit "  " ++ show_Z (Z.of_nat (S i)) ++ lit "        " ++ sym ++ show_Z (Z.of_nat (S i)) ++ lit "  1.000000").
  replace (lit "  " ++ _) with (t ++ [nl]) by (unfold t; rewrite <- !app_assoc; reflexivity).
  assert (E : words t = [show_nat (S i); label sym i; lit "1.000000"]).
  { unfold t. change (lit "  ") with (repeat sp 2). rewrite words_spaces. change (lit "        " ++ ?t) with (sp :: repeat sp 7 ++ t).
    rewrite (words_word_white _ sp) by (try apply show_Z_word; reflexivity). rewrite words_spaces, (app_assoc sym). change (sym ++ show_Z (Z.of_nat (S i))) with (label sym i).
    change (lit "  1.000000") with (sp :: lit " 1.000000"). rewrite (words_word_white _ sp) by (try apply label_word; auto; reflexivity). reflexivity. }
  rewrite <- E. apply reads_one. unfold t. ol.
Qed.
Lemma sitet_reads sym radius i : word sym -> word radius -> exists W, reads (sitet_line sym radius (Z.of_nat (S i))) [show_nat (S i) :: label sym i :: W].
Proof.
  intros Hs Hr. unfold sitet_line. set (t := lit "    " ++ show_Z (Z.of_nat (S i)) ++ lit "        " ++ sym ++ show_Z (Z.of_nat (S i)) ++ lit "  " ++ radius ++ lit "  76  76  76  76  76  76 204  0").
  replace (lit "    " ++ _) with (t ++ [nl]) by (unfold t; rewrite <- !app_assoc; reflexivity).
  assert (E : exists W, words t = show_nat (S i) :: label sym i :: W).
  { unfold t. change (lit "    ") with (repeat sp 4). rewrite words_spaces. change (lit "        " ++ ?t) with (sp :: repeat sp 7 ++ t).
    rewrite (words_word_white _ sp) by (try apply show_Z_word; reflexivity). rewrite words_spaces, (app_assoc sym). change (sym ++ show_Z (Z.of_nat (S i))) with (label sym i).
    change (lit "  " ++ ?t) with (sp :: sp :: t). rewrite (words_word_white _ sp) by (try apply label_word; auto; reflexivity). eauto. }
  destruct E as [W E]. exists W. rewrite <- E. apply reads_one. unfold t. ol.
Qed.
Definition show3 (r g b : Z) : str := sp :: pad sp 3 (show_Z r) ++ sp :: pad sp 3 (show_Z g) ++ sp :: pad sp 3 (show_Z b).
Lemma words_pad k z : words (pad sp k (show_Z z)) = [show_Z z].
Proof. unfold pad. rewrite words_spaces. apply words_word, show_Z_word. Qed.
Lemma words_show3 r g b : words (show3 r g b) = map show_Z [r; g; b].
Proof.
  unfold show3. change (sp :: pad sp 3 (show_Z r) ++ ?t) with (repeat sp 1 ++ pad sp 3 (show_Z r) ++ t). rewrite words_spaces.
  rewrite !words_sp by (apply field_pad, show_Z_word). rewrite !words_pad. reflexivity.
Qed.
Lemma one_line_show3 r g b : one_line (show3 r g b).
Proof. unfold show3. ol. Qed.
Definition tail7 : list str := map lit ["0"; "1"; "1"; "1"; "2"; "0.250"; "2.000"]%string.
Lemma bond_reads c r g b i d a1 a2 : colors c = Some (r, g, b) -> exists lo hi t, bond_line N f6 c (Z.of_nat (S i)) (d, a1, a2) = Ok t /\
  reads t [show_nat (S i) :: label (lit "A") a1 :: label (lit "A") a2 :: lo :: hi :: tail7 ++ map show_Z [r; g; b]] /\
  prints f6 (fsub N d (flit N 1 100)) lo /\ prints f6 (fadd N d (flit N 1 100)) hi.
Proof.
  intros Hc. set (x := fsub N d (flit N 1 100)). set (y := fadd N d (flit N 1 100)).
  destruct (field_words _ (F6 x)) as (lo & Ex & _). destruct (field_words _ (F6 y)) as (hi & Ey & _). exists lo, hi.
  unfold bond_line. unfold show_colour. rewrite Hc. cbn [bind]. fold x y. eexists. split; [reflexivity|]. split; [|auto].
  change (sp :: pad sp 3 (show_Z r) ++ sp :: pad sp 3 (show_Z g) ++ sp :: pad sp 3 (show_Z b)) with (show3 r g b).
  set (t := lit "  " ++ show_Z (Z.of_nat (S i)) ++ lit "   A" ++ show_nat (S a1) ++ lit "   A" ++ show_nat (S a2) ++ lit "   " ++ f6 x ++ lit "   " ++ f6 y ++ lit "  0  1  1  1  2  0.250  2.000" ++ show3 r g b).
  match goal with |- reads ?u _ => replace u with (t ++ [nl]) end.
  2:{ unfold t. rewrite <- !app_assoc. reflexivity. }
  assert (E : words t = show_nat (S i) :: label (lit "A") a1 :: label (lit "A") a2 :: lo :: hi :: tail7 ++ map show_Z [r; g; b]).
  { unfold t. change (lit "  " ++ show_Z (Z.of_nat (S i)) ++ ?t) with (repeat sp 2 ++ show_Z (Z.of_nat (S i)) ++ t). rewrite words_spaces.
    change (lit "   A" ++ show_nat (S a1) ++ ?t) with (sp :: repeat sp 2 ++ lit "A" ++ show_nat (S a1) ++ t).
    change (lit "   A" ++ show_nat (S a2) ++ ?t) with (sp :: repeat sp 2 ++ lit "A" ++ show_nat (S a2) ++ t).
    change (lit "   " ++ ?t) with (sp :: repeat sp 2 ++ t). change (lit "  0  1  1  1  2  0.250  2.000" ++ ?t) with (sp :: lit " 0  1  1  1  2  0.250  2.000" ++ t).
    rewrite (words_word_white _ sp) by (try apply show_Z_word; reflexivity). f_equal.
    rewrite words_spaces, (app_assoc (lit "A")). change (lit "A" ++ show_nat (S a1)) with (label (lit "A") a1).
    rewrite (words_word_white _ sp) by (try (apply label_word, word_dec); reflexivity). f_equal.
    rewrite words_spaces, (app_assoc (lit "A")). change (lit "A" ++ show_nat (S a2)) with (label (lit "A") a2).
    rewrite (words_word_white _ sp) by (try (apply label_word, word_dec); reflexivity). f_equal.
    rewrite words_spaces. change (lit "   " ++ ?t) with (sp :: repeat sp 2 ++ t). rewrite words_sp by apply F6. rewrite Ex. cbn [app]. f_equal. rewrite words_spaces. rewrite words_sp by apply F6. rewrite Ey. cbn [app]. f_equal.
    change (show3 r g b) with (sp :: tl (show3 r g b)).
    change (lit " 0  1  1  1  2  0.250  2.000" ++ ?t) with (repeat sp 1 ++ lit "0" ++ sp :: repeat sp 1 ++ lit "1" ++ sp :: repeat sp 1 ++ lit "1" ++ sp :: repeat sp 1 ++ lit "1" ++ sp :: repeat sp 1 ++ lit "2" ++ sp :: repeat sp 1 ++ lit "0.250" ++ sp :: repeat sp 1 ++ lit "2.000" ++ t).
    repeat (rewrite words_spaces; rewrite words_word_white; [cbn [app tail7 map]; f_equal|apply word_dec; reflexivity|reflexivity]).
    pose proof (words_show3 r g b) as Q. unfold show3 in Q. rewrite words_white in Q by reflexivity. exact Q. }
  rewrite <- E. apply reads_one. unfold t. ol; try apply F6; apply one_line_show3.
Qed.

(** the reader *)
Lemma after_skip tag A B : ~ In tag A -> after tag (A ++ tag :: B) = B.
Proof.
  induction A as [|l A IH]; intros H; cbn [app after]; [destruct (line_dec tag tag); congruence|].
  destruct (line_dec l tag) as [->|_]; [exfalso; apply H; left; reflexivity|]. apply IH. intros K. apply H. right. exact K.
Qed.
Definition begun (l : list str) : Prop := exists w ws, l = w :: ws /\ w <> lit "0".
Lemma until0_ok A z B : Forall begun A -> until0 (A ++ (lit "0" :: z) :: B) = Ok A.
Proof.
  induction 1 as [|l A (w & ws & -> & Hw) _ IH]; cbn [app until0]; [destruct (list_eq_dec _ _ _); congruence|].
  destruct (list_eq_dec ascii_dec w (lit "0")); [contradiction|]. rewrite IH. reflexivity.
Qed.
Lemma number_not0 i : show_nat (S i) <> lit "0".
Proof. intros H. pose proof (py_int_show (Z.of_nat (S i))) as P. unfold show_nat in H. rewrite H in P. cbn in P. discriminate P. Qed.
Lemma concat_words s : concat (words s) = filter (fun c => negb (white c)) s.
Proof.
  unfold words. enough (G : forall cur, concat (split_run cur s) = rev cur ++ filter (fun c => negb (white c)) s) by (rewrite G; reflexivity).
  induction s as [|c s IH]; intros cur; cbn [split_run filter].
  - destruct cur; cbn [concat]; [reflexivity|]. reflexivity.
  - destruct (white c); cbn [negb].
    + destruct cur as [|c' cur]; [apply (IH [])|]. cbn [concat]. rewrite IH. reflexivity.
    + rewrite IH. cbn [rev]. rewrite <- app_assoc. reflexivity.
Qed.
Definition slashed (l : list str) : Prop := In "/"%char (concat l).
Lemma slash_words a b : slashed (words (a ++ lit "/" ++ b)).
Proof. unfold slashed. rewrite concat_words, !filter_app. apply in_or_app. right. cbn. left. reflexivity. Qed.
Definition noneb (tag : list str) (l : list (list str)) : bool := forallb (fun x => if line_dec x tag then false else true) l.
Lemma noneb_spec tag l : noneb tag l = true -> ~ In tag l.
Proof. intros H K. pose proof (proj1 (forallb_forall _ _) H _ K) as Q. cbn in Q. destruct (line_dec tag tag); congruence. Qed.
Lemma long_not_in (tag : list str) k l : length tag < k -> Forall (fun x => k <= length x) l -> ~ In tag l.
Proof. intros H K Q. pose proof (proj1 (Forall_forall _ _) K _ Q) as P. cbn in P. lia. Qed.

Definition Wgroup := map words (map lit vesta_group).
Definition Wshape := map words (map lit vesta_shape).
Definition Wvectors := map words (map lit vesta_vectors).
Definition Wzeros := words (lit "  0 0 0 0 0 0 0").
Definition Tmol := [lit "MOLECULE"].
Definition Ttheri := [lit "THERI"; lit "0"].
Definition Tsitet := [lit "SITET"].
Definition Tstruc := [lit "STRUC"].
Definition Tsbond := [lit "SBOND"].

Lemma slash_not tag l : slashed l -> existsb (Ascii.eqb "/"%char) (concat tag) = false -> l <> tag.
Proof.
  intros S E ->. unfold slashed in S. apply Bool.not_true_iff_false in E. apply E. apply existsb_exists. exists "/"%char. split; [exact S|reflexivity].
Qed.
Lemma Wgroup_eq : Wgroup = removelast Wgroup ++ [Tstruc]. Proof. vm_compute. reflexivity. Qed.
Lemma Wshape_eq : Wshape = (lit "0" :: map lit ["0"; "0"]%string) :: removelast (tl Wshape) ++ [Tsbond]. Proof. vm_compute. reflexivity. Qed.
Lemma Wvectors_eq : Wvectors = (lit "0" :: map lit ["0"; "0"; "0"; "0"; "0"]%string) :: tl Wvectors. Proof. vm_compute. reflexivity. Qed.

(** one atom *)
Definition is_vatom (sym : str) (i : nat) (x : list (F N)) (a : vatom) : Prop :=
  va_elem a = sym /\ va_label a = label sym i /\ Forall2 (prints f6) x (va_pos a).
Lemma struc_ok sym atoms : word sym -> Forall (fun x => length x = 3) atoms -> forall s,
  exists ts A ats, mapM (fun p => struc_line N f6 sym (Z.of_nat (S (fst p))) (snd p)) (combine (seq s (length atoms)) atoms) = Ok ts /\ reads (concat ts) A /\
    Forall begun A /\ Forall (fun l => 3 <= length l) A /\ read_struc A = Ok ats /\
    Forall2 (fun p a => is_vatom sym (fst p) (snd p) a) (combine (seq s (length atoms)) atoms) ats.
Proof.
  intros Hs H. induction H as [|x atoms Hx _ IH]; intros s; cbn [length seq combine mapM].
  - exists [], [], []. split; [reflexivity|]. split; [apply reads_nil|]. split; [constructor|]. split; [constructor|]. split; [reflexivity|constructor].
  - destruct (IH (S s)) as (ts & A & ats & E & Rd & Bg & Ln & Rs & F2).
    destruct x as [|x1 [|x2 [|x3 [|]]]]; try discriminate.
    destruct (struc_reads sym s x1 x2 x3 Hs) as (w1 & w2 & w3 & t & W & Et & Rt & EW & P1 & P2 & P3).
    exists (t :: ts), ([[show_nat (S s); sym; label sym s; lit "1.0000"; w1; w2; w3; lit "1"]; W] ++ A), (VAtom sym (label sym s) [w1; w2; w3] :: ats).
    cbn [fst snd]. rewrite Et. cbn [bind]. rewrite E. cbn [bind]. split; [reflexivity|]. split; [cbn [concat]; apply reads_app; assumption|].
    subst W. split; [|split; [|split]].
    + apply Forall_app. split; [|exact Bg]. apply Forall_cons; [exists (show_nat (S s)); eexists; split; [reflexivity|apply number_not0]|].
      apply Forall_cons; [|apply Forall_nil]. eexists. eexists. split; [reflexivity|discriminate].
    + apply Forall_app. split; [|exact Ln]. apply Forall_cons; [cbn; lia|]. apply Forall_cons; [cbn; lia|apply Forall_nil].
    + cbn [app read_struc map]. rewrite Rs. reflexivity.
    + constructor; [|exact F2]. split; [reflexivity|]. split; [reflexivity|]. cbn [va_pos snd]. auto.
Qed.
Lemma each_ok (f : Z -> str) (g : nat -> list str -> Prop) : (forall i, exists W, g i W /\ reads (f (Z.of_nat (S i))) [W]) -> forall n s,
  exists Ws, reads (concat (map (fun i => f (Z.of_nat (S i))) (seq s n))) Ws /\ Forall2 g (seq s n) Ws.
Proof.
  intros H. induction n as [|n IH]; intros s; cbn [seq map concat].
  - exists []. split; [apply reads_nil|constructor].
  - destruct (IH (S s)) as (Ws & Rd & F2). destruct (H s) as (W & G & Rt). exists (W :: Ws). split; [|constructor; assumption].
    change (W :: Ws) with ([W] ++ Ws). apply reads_app; assumption.
Qed.
Definition site (sym : str) (i : nat) (l : list str) : Prop := exists r, l = show_nat (S i) :: label sym i :: r.
Lemma sites_ok sym is_ Ws : Forall2 (site sym) is_ Ws -> Forall begun Ws /\ Forall (fun l => 2 <= length l) Ws /\ mapM read_site Ws = Ok (map (label sym) is_).
Proof.
  induction 1 as [|i W is_ Ws (r & ->) _ (I1 & I2 & I3)]; [repeat split; constructor|]. split; [|split].
  - apply Forall_cons; [|exact I1]. eexists. eexists. split; [reflexivity|apply number_not0].
  - apply Forall_cons; [cbn; lia|exact I2].
  - cbn [mapM read_site bind map]. rewrite I3. reflexivity.
Qed.

Lemma molecule_ok p sym radius a b atoms bonds B bs : word sym -> word radius -> one_line (a ++ lit "/" ++ b) -> Forall (fun x => length x = 3) atoms ->
  reads bonds B -> Forall begun B -> Forall (fun l => 2 <= length l) B -> mapM read_bond B = Ok bs ->
  exists t ats W, molecule N f6 p sym radius (a ++ lit "/" ++ b) atoms bonds = Ok t /\ reads t (Tmol :: W) /\ ~ In Tmol W /\
    Forall2 (fun p x => is_vatom sym (fst p) (snd p) x) (combine (seq 0 (length atoms)) atoms) ats /\
    forall rest, read_mol (W ++ rest) = Ok (Mol ats bs (map (label sym) (seq 0 (length atoms))) (map (label sym) (seq 0 (length atoms)))).
Proof.
  intros Hs Hr Ot La RB BB LB MB. unfold molecule, numbered.
  destruct (struc_ok sym atoms Hs La 0) as (ts & A & ats & E & RA & BA & LA & MA & FA). rewrite E. cbn [bind].
  destruct (each_ok (theri_line sym) (site sym)) with (n := length atoms) (s := 0) as (Th & RT & FT).
  { intros i. eexists. split; [|apply theri_reads, Hs]. eexists. reflexivity. }
  destruct (each_ok (sitet_line sym radius) (site sym)) with (n := length atoms) (s := 0) as (St & RS & FS).
  { intros i. destruct (sitet_reads sym radius i Hs Hr) as (W & Q). eexists. split; [|exact Q]. eexists. reflexivity. }
  destruct (sites_ok _ _ _ FT) as (BT & LT & MT). destruct (sites_ok _ _ _ FS) as (BS & LS & MS).
  set (title := a ++ lit "/" ++ b) in *. set (Wt := words title). assert (Sl : slashed Wt) by apply slash_words.
  eexists. exists ats. exists ([[lit "TITLE"]; Wt; []] ++ Wgroup ++ A ++ [Wzeros; Ttheri] ++ Th ++ Wshape ++ B ++ [lit "0" :: map lit ["0"; "0"; "0"]%string; Tsitet] ++ St ++ Wvectors).
  split; [reflexivity|]. split; [|split; [|split; [exact FA|]]].
  - match goal with |- reads _ (Tmol :: [?x; Wt; []] ++ ?r) => change (Tmol :: [x; Wt; []] ++ r) with ([Tmol; x] ++ ([Wt] ++ [[]]) ++ r) end.
    apply reads_app; [apply (reads_fixed p ["MOLECULE"; "TITLE"]%string); [discriminate|reflexivity]|].
    rewrite (app_assoc title). apply reads_app.
    { change (title ++ [nl; nl]) with (title ++ [nl] ++ ([] ++ [nl])). rewrite app_assoc. apply reads_app; [apply reads_one, Ot|]. apply (reads_one []). apply one_line_nil. }
    apply reads_app; [apply reads_fixed; [discriminate|vm_compute; reflexivity]|].
    apply reads_app; [exact RA|].
    apply reads_app; [apply (reads_fixed p ["  0 0 0 0 0 0 0"; "THERI 0"]%string); [discriminate|reflexivity]|].
    apply reads_app; [exact RT|].
    apply reads_app; [apply reads_fixed; [discriminate|vm_compute; reflexivity]|].
    apply reads_app; [exact RB|].
    apply reads_app; [apply (reads_fixed p ["  0 0 0 0"; "SITET"]%string); [discriminate|reflexivity]|].
    apply reads_app; [exact RS|]. apply reads_fixed; [discriminate|vm_compute; reflexivity].
  - assert (Q : forall (tag : list str) l m, ~ In tag l -> ~ In tag m -> ~ In tag (l ++ m)) by (intros tag l m K1 K2 K; apply in_app_or in K; tauto).
    apply Q. { intros [K|[K|[K|[]]]]; [discriminate|revert K; apply slash_not; [exact Sl|reflexivity]|discriminate]. }
    apply Q; [apply noneb_spec; vm_compute; reflexivity|]. apply Q; [eapply (long_not_in _ 3); [|exact LA]; cbn; lia|].
    apply Q; [apply noneb_spec; vm_compute; reflexivity|]. apply Q; [eapply (long_not_in _ 2); [|exact LT]; cbn; lia|].
    apply Q; [apply noneb_spec; vm_compute; reflexivity|]. apply Q; [eapply (long_not_in _ 2); [|exact LB]; cbn; lia|].
    apply Q; [apply noneb_spec; vm_compute; reflexivity|]. apply Q; [eapply (long_not_in _ 2); [|exact LS]; cbn; lia|].
    apply noneb_spec; vm_compute; reflexivity.
  - intros rest.
    assert (Q : forall (tag : list str) l m, ~ In tag l -> ~ In tag m -> ~ In tag (l ++ m)) by (intros tag l m K1 K2 K; apply in_app_or in K; tauto).
    assert (H0 : forall tag : list str, existsb (Ascii.eqb "/"%char) (concat tag) = false -> noneb tag [[lit "TITLE"]; []] = true -> ~ In tag [[lit "TITLE"]; Wt; []]).
    { intros tag K1 K2. apply noneb_spec in K2. intros [K|[K|[K|[]]]]; [apply K2; left; exact K|revert K; apply slash_not; assumption|apply K2; right; left; exact K]. }
    unfold read_mol.
    assert (E1 : until0 (after [lit "STRUC"] (([[lit "TITLE"]; Wt; []] ++ Wgroup ++ A ++ [Wzeros; Ttheri] ++ Th ++ Wshape ++ B ++ [lit "0" :: map lit ["0"; "0"; "0"]%string; Tsitet] ++ St ++ Wvectors) ++ rest)) = Ok A).
    { rewrite Wgroup_eq. rewrite <- !app_assoc. rewrite (app_assoc _ (removelast Wgroup)). change ([Tstruc] ++ ?t) with (Tstruc :: t). fold Tstruc.
      rewrite after_skip; [apply (until0_ok A _ _ BA)|]. apply Q; [apply H0; reflexivity|apply noneb_spec; vm_compute; reflexivity]. }
    rewrite E1. cbn [bind]. rewrite MA. cbn [bind]. clear E1.
    assert (E2 : until0 (after [lit "THERI"; lit "0"] (([[lit "TITLE"]; Wt; []] ++ Wgroup ++ A ++ [Wzeros; Ttheri] ++ Th ++ Wshape ++ B ++ [lit "0" :: map lit ["0"; "0"; "0"]%string; Tsitet] ++ St ++ Wvectors) ++ rest)) = Ok Th).
    { rewrite Wshape_eq. change [Wzeros; Ttheri] with ([Wzeros] ++ [Ttheri]). rewrite <- !app_assoc.
      rewrite (app_assoc A), (app_assoc Wgroup), (app_assoc [[lit "TITLE"]; Wt; []]). change ([Ttheri] ++ ?t) with (Ttheri :: t). fold Ttheri.
      rewrite after_skip; [apply (until0_ok Th _ _ BT)|]. apply Q; [apply H0; reflexivity|]. apply Q; [apply noneb_spec; vm_compute; reflexivity|].
      apply Q; [eapply (long_not_in _ 3); [|exact LA]; cbn; lia|apply noneb_spec; vm_compute; reflexivity]. }
    rewrite E2. cbn [bind]. rewrite MT. cbn [bind]. clear E2.
    assert (E3 : until0 (after [lit "SBOND"] (([[lit "TITLE"]; Wt; []] ++ Wgroup ++ A ++ [Wzeros; Ttheri] ++ Th ++ Wshape ++ B ++ [lit "0" :: map lit ["0"; "0"; "0"]%string; Tsitet] ++ St ++ Wvectors) ++ rest)) = Ok B).
    { rewrite Wshape_eq. change (?u :: removelast (tl Wshape) ++ [Tsbond]) with ((u :: removelast (tl Wshape)) ++ [Tsbond]). rewrite <- !app_assoc.
      rewrite (app_assoc Th), (app_assoc [Wzeros; Ttheri]), (app_assoc A), (app_assoc Wgroup), (app_assoc [[lit "TITLE"]; Wt; []]). change ([Tsbond] ++ ?t) with (Tsbond :: t). fold Tsbond.
      rewrite after_skip; [apply (until0_ok B _ _ BB)|]. apply Q; [apply H0; reflexivity|]. apply Q; [apply noneb_spec; vm_compute; reflexivity|].
      apply Q; [eapply (long_not_in _ 3); [|exact LA]; cbn; lia|]. apply Q; [apply noneb_spec; vm_compute; reflexivity|]. apply Q; [eapply (long_not_in _ 2); [|exact LT]; cbn; lia|]. apply noneb_spec; vm_compute; reflexivity. }
    rewrite E3. cbn [bind]. rewrite MB. cbn [bind]. clear E3.
    assert (E4 : until0 (after [lit "SITET"] (([[lit "TITLE"]; Wt; []] ++ Wgroup ++ A ++ [Wzeros; Ttheri] ++ Th ++ Wshape ++ B ++ [lit "0" :: map lit ["0"; "0"; "0"]%string; Tsitet] ++ St ++ Wvectors) ++ rest)) = Ok St).
    { rewrite Wvectors_eq. change [lit "0" :: map lit ["0"; "0"; "0"]%string; Tsitet] with ([lit "0" :: map lit ["0"; "0"; "0"]%string] ++ [Tsitet]). rewrite <- !app_assoc.
      rewrite (app_assoc B), (app_assoc Wshape), (app_assoc Th), (app_assoc [Wzeros; Ttheri]), (app_assoc A), (app_assoc Wgroup), (app_assoc [[lit "TITLE"]; Wt; []]). change ([Tsitet] ++ ?t) with (Tsitet :: t). fold Tsitet.
      rewrite after_skip; [apply (until0_ok St _ _ BS)|]. apply Q; [apply H0; reflexivity|]. apply Q; [apply noneb_spec; vm_compute; reflexivity|].
      apply Q; [eapply (long_not_in _ 3); [|exact LA]; cbn; lia|]. apply Q; [apply noneb_spec; vm_compute; reflexivity|]. apply Q; [eapply (long_not_in _ 2); [|exact LT]; cbn; lia|].
      apply Q; [apply noneb_spec; vm_compute; reflexivity|]. apply Q; [eapply (long_not_in _ 2); [|exact LB]; cbn; lia|]. apply noneb_spec; vm_compute; reflexivity. }
    rewrite E4. cbn [bind]. rewrite MS. reflexivity.
Qed.

(** the file *)
Lemma parts_app tag A ls : ~ In tag A -> parts tag (A ++ ls) = (A ++ fst (parts tag ls), snd (parts tag ls)).
Proof.
  induction A as [|l A IH]; intros H; cbn [app parts]; [destruct (parts tag ls); reflexivity|].
  rewrite IH by (intros K; apply H; right; exact K). destruct (line_dec l tag) as [->|_]; [exfalso; apply H; left; reflexivity|reflexivity].
Qed.
Lemma parts_mols Ws ms t : Forall2 (fun W m => ~ In Tmol W /\ forall rest, read_mol (W ++ rest) = Ok m) Ws ms -> ~ In Tmol t ->
  mapM read_mol (snd (parts Tmol (concat (map (cons Tmol) Ws) ++ t))) = Ok ms.
Proof.
  intros H Ht. induction H as [|W m Ws ms (Nt & Rd) _ IH]; cbn [map concat app].
  - rewrite <- (app_nil_r t), parts_app by exact Ht. reflexivity.
  - cbn [parts]. rewrite <- app_assoc, parts_app by exact Nt. destruct (line_dec Tmol Tmol); [|congruence]. cbn [snd mapM]. rewrite Rd. cbn [bind]. rewrite IH. reflexivity.
Qed.
Lemma tail_reads sym : word sym -> exists V, reads (vesta_tail sym) V /\ ~ In Tmol V.
Proof.
  intros Hs. unfold vesta_tail. set (t := lit "  1        " ++ sym ++ lit "  0.0100  76  76  76  76  76  76 204" ++ repeat sp 12).
  exists ([words (lit "ATOMT" ++ repeat sp 12)] ++ [words t] ++ map words (map lit vesta_scene)). split.
  - replace (lit "ATOMT" ++ _) with ((lit "ATOMT" ++ repeat sp 12) ++ [nl] ++ (t ++ [nl]) ++ text 12 vesta_scene) by (unfold t; rewrite <- !app_assoc; reflexivity).
    rewrite (app_assoc _ [nl]). apply reads_app; [apply reads_one, one_line_dec; reflexivity|]. apply reads_app; [|apply reads_fixed; [discriminate|vm_compute; reflexivity]].
    apply reads_one. unfold t. ol.
  - intros K. apply in_app_or in K as [[K|[]]|K]; [revert K; vm_compute; discriminate|]. apply in_app_or in K as [[K|[]]|K].
    + unfold t in K. change (lit "  1        ") with (repeat sp 2 ++ lit "1" ++ sp :: repeat sp 7) in K. rewrite <- app_assoc, words_spaces in K.
      rewrite <- app_assoc in K. cbn [app] in K. rewrite words_word_white in K by (try apply word_dec; reflexivity). discriminate.
    + revert K. apply noneb_spec. vm_compute. reflexivity.
Qed.
Lemma file_ok ms Ws ds sym : word sym -> Forall2 reads ms (map (cons Tmol) Ws) -> Forall2 (fun W m => ~ In Tmol W /\ forall rest, read_mol (W ++ rest) = Ok m) Ws ds ->
  read_vesta (vesta_head ++ concat ms ++ vesta_tail sym) = Ok ds.
Proof.
  intros Hs Hm Hd. destruct (tail_reads sym Hs) as (V & RV & NV). unfold read_vesta.
  rewrite (reads_read _ (map words (map lit ["#VESTA_FORMAT_VERSION 3.5.0"; ""]%string) ++ concat (map (cons Tmol) Ws) ++ V)).
  2:{ apply reads_app; [apply reads_fixed; [discriminate|reflexivity]|]. apply reads_app; [apply reads_concat, Hm|exact RV]. }
  fold Tmol. rewrite parts_app by (apply noneb_spec; reflexivity). cbn [snd]. apply parts_mols; assumption.
Qed.

(** a bond line *)
Definition is_vbond (c : Z * Z * Z) (b : F N * nat * nat) (k : vbond) : Prop :=
  let '(d, i, j) := b in let '(r, g, bl) := c in
  vb_1 k = label (lit "A") i /\ vb_2 k = label (lit "A") j /\ prints f6 (fsub N d (flit N 1 100)) (vb_min k) /\ prints f6 (fadd N d (flit N 1 100)) (vb_max k) /\
  vb_color k = map show_Z [r; g; bl].
Lemma bond_lines c rgb bonds : colors c = Some rgb -> forall s,
  exists ts B ks, mapM (fun p => bond_line N f6 c (Z.of_nat (S (fst p))) (snd p)) (combine (seq s (length bonds)) bonds) = Ok ts /\ reads (concat ts) B /\
    Forall begun B /\ Forall (fun l => 2 <= length l) B /\ mapM read_bond B = Ok ks /\ Forall2 (is_vbond rgb) bonds ks.
Proof.
  intros Hc. induction bonds as [|[[d i] j] bonds IH]; intros s; cbn [length seq combine mapM].
  - exists [], [], []. split; [reflexivity|]. split; [apply reads_nil|]. split; [constructor|]. split; [constructor|]. split; [reflexivity|constructor].
  - destruct (IH (S s)) as (ts & B & ks & E & Rd & Bg & Ln & Rs & F2). destruct rgb as [[r g] bl].
    destruct (bond_reads c r g bl s d i j Hc) as (lo & hi & t & Et & Rt & P1 & P2).
    exists (t :: ts), ([show_nat (S s) :: label (lit "A") i :: label (lit "A") j :: lo :: hi :: tail7 ++ map show_Z [r; g; bl]] ++ B), (VBond (label (lit "A") i) (label (lit "A") j) lo hi (map show_Z [r; g; bl]) :: ks).
    cbn [fst snd]. rewrite Et. cbn [bind]. rewrite E. cbn [bind]. split; [reflexivity|]. split; [cbn [concat]; apply reads_app; assumption|].
    split; [|split; [|split]].
    + apply Forall_app. split; [|exact Bg]. apply Forall_cons; [|apply Forall_nil]. eexists. eexists. split; [reflexivity|apply number_not0].
    + apply Forall_app. split; [|exact Ln]. apply Forall_cons; [cbn; lia|apply Forall_nil].
    + cbn [app mapM read_bond tail7 map bind]. rewrite Rs. reflexivity.
    + constructor; [|exact F2]. split; [reflexivity|]. split; [reflexivity|]. split; [exact P1|]. split; [exact P2|reflexivity].
Qed.
Definition sited (sym : str) (m : mol) : Prop := map va_label (m_atoms m) = map (label sym) (seq 0 (length (m_atoms m))) /\
  Forall (fun a => va_elem a = sym) (m_atoms m) /\ m_thermal m = map va_label (m_atoms m) /\ m_sites m = map va_label (m_atoms m).
Lemma atoms_sited sym atoms ats s : Forall2 (fun p x => is_vatom sym (fst p) (snd p) x) (combine (seq s (length atoms)) atoms) ats ->
  length ats = length atoms /\ map va_label ats = map (label sym) (seq s (length atoms)) /\ Forall (fun a => va_elem a = sym) ats /\ Forall2 (fun x a => Forall2 (prints f6) x (va_pos a)) atoms ats.
Proof.
  revert ats s. induction atoms as [|x atoms IH]; intros ats s H; cbn [length seq combine] in H; inversion H as [|? a ? ats' (E1 & E2 & E3) H']; subst.
  - repeat split; constructor.
  - destruct (IH _ _ H') as (I1 & I2 & I3 & I4). cbn [length map seq fst snd] in *. rewrite E2, I1, I2. repeat split; constructor; first [assumption|reflexivity].
Qed.
Lemma word_A : word (lit "A"). Proof. apply word_dec. reflexivity. Qed.
Lemma word_Xx : word (lit "Xx"). Proof. apply word_dec. reflexivity. Qed.
Lemma bonds_text_read path base c rgb atoms bonds : one_line path -> one_line base -> colors c = Some rgb -> Forall (fun x => length x = 3) atoms ->
  exists t m, bonds_text N f6 path base c atoms bonds = Ok t /\ read_vesta t = Ok [m] /\ sited (lit "A") m /\
    Forall2 (fun x a => Forall2 (prints f6) x (va_pos a)) atoms (m_atoms m) /\ Forall2 (is_vbond rgb) bonds (m_bonds m).
Proof.
  intros Op Ob Hc La. unfold bonds_text, numbered. destruct (bond_lines c rgb bonds Hc 0) as (ts & B & ks & E & Rd & Bg & Ln & Rs & F2). rewrite E. cbn [bind].
  destruct (molecule_ok 12 (lit "A") (lit "0.100") path base atoms (concat ts) B ks word_A ltac:(apply word_dec; reflexivity)) as (t & ats & W & Em & Rm & Nm & Fm & Rf); try assumption.
  { ol. }
  rewrite Em. cbn [bind]. eexists. eexists. split; [reflexivity|]. split.
  - replace t with (concat [t]) by (cbn [concat]; apply app_nil_r). apply (file_ok [t] [W] _ _ word_A).
    + cbn [map]. constructor; [exact Rm|constructor].
    + constructor; [|constructor]. split; [exact Nm|]. exact Rf.
  - destruct (atoms_sited _ _ _ _ Fm) as (I1 & I2 & I3 & I4). unfold sited. cbn [m_atoms m_bonds m_thermal m_sites]. rewrite I1, I2. auto.
Qed.
Definition xx_bond (c : Z * Z * Z) : vbond := let '(r, g, b) := c in VBond (lit "Xx") (lit "Xx") (lit "0.00000") (lit "10.00") (map show_Z [r; g; b]).
Lemma items_text_read path base c rgb items : one_line path -> one_line base -> colors c = Some rgb -> Forall (Forall (fun x => length x = 3)) items ->
  exists t ms, items_text N f6 path base c items = Ok t /\ read_vesta t = Ok ms /\
    Forall2 (fun atoms m => sited (lit "Xx") m /\ m_bonds m = [xx_bond rgb] /\ Forall2 (fun x a => Forall2 (prints f6) x (va_pos a)) atoms (m_atoms m)) items ms.
Proof.
  intros Op Ob Hc La. unfold items_text, show_colour. rewrite Hc. destruct rgb as [[r g] b].
  assert (RB : reads (lit "  1     Xx     Xx     0.00000     10.00  0  1  1  0  2  0.250  2.000" ++ show3 r g b ++ [nl])
    [lit "1" :: lit "Xx" :: lit "Xx" :: lit "0.00000" :: lit "10.00" :: map lit ["0"; "1"; "1"; "0"; "2"; "0.250"; "2.000"]%string ++ map show_Z [r; g; b]]).
  { rewrite app_assoc. set (t := lit "  1     Xx     Xx     0.00000     10.00  0  1  1  0  2  0.250  2.000" ++ show3 r g b).
    replace (_ :: _) with (words t); [apply reads_one; unfold t; apply one_line_app; [apply one_line_dec; reflexivity|apply one_line_show3]|].
    unfold t. pose proof (words_show3 r g b) as Q. change (show3 r g b) with (sp :: tl (show3 r g b)) in *. rewrite words_white in Q by reflexivity.
    revert Q. generalize (tl (show3 r g b)). intros z Q.
    match goal with |- words (lit ?u ++ ?t) = _ => change (lit u ++ t) with (repeat sp 2 ++ lit "1" ++ sp :: repeat sp 4 ++ lit "Xx" ++ sp :: repeat sp 4 ++ lit "Xx" ++ sp :: repeat sp 4 ++ lit "0.00000" ++ sp :: repeat sp 4 ++ lit "10.00" ++ sp ::
      repeat sp 1 ++ lit "0" ++ sp :: repeat sp 1 ++ lit "1" ++ sp :: repeat sp 1 ++ lit "1" ++ sp :: repeat sp 1 ++ lit "0" ++ sp :: repeat sp 1 ++ lit "2" ++ sp :: repeat sp 1 ++ lit "0.250" ++ sp :: repeat sp 1 ++ lit "2.000" ++ t) end.
    repeat (rewrite words_spaces; rewrite words_word_white; [cbn [app map]; f_equal|apply word_dec; reflexivity|reflexivity]). exact Q. }
  assert (G : forall s, exists ts Ws ms, mapM (fun p => clr <- Ok (show3 r g b) ;; molecule N f6 16 (lit "Xx") (lit "0.0100") (path ++ lit "/" ++ base ++ lit "_" ++ show_nat (fst p)) (snd p)
        (lit "  1     Xx     Xx     0.00000     10.00  0  1  1  0  2  0.250  2.000" ++ clr ++ [nl])) (combine (seq s (length items)) items) = Ok ts /\
      Forall2 reads ts (map (cons Tmol) Ws) /\ Forall2 (fun W m => ~ In Tmol W /\ forall rest, read_mol (W ++ rest) = Ok m) Ws ms /\
      Forall2 (fun atoms m => sited (lit "Xx") m /\ m_bonds m = [xx_bond (r, g, b)] /\ Forall2 (fun x a => Forall2 (prints f6) x (va_pos a)) atoms (m_atoms m)) items ms).
  { induction La as [|atoms items Ha _ IH]; intros s; cbn [length seq combine mapM].
    - exists [], [], []. split; [reflexivity|]. cbn [map]. auto.
    - destruct (IH (S s)) as (ts & Ws & ms & E & I1 & I2 & I3). cbn [bind fst snd] in *.
      destruct (molecule_ok 16 (lit "Xx") (lit "0.0100") path (base ++ lit "_" ++ show_nat s) atoms _ _ [xx_bond (r, g, b)] word_Xx ltac:(apply word_dec; reflexivity) ltac:(ol) Ha RB) as (t & ats & W & Em & Rm & Nm & Fm & Rf).
      { constructor; [|constructor]. eexists. eexists. split; [reflexivity|discriminate]. }
      { constructor; [cbn; lia|constructor]. }
      { reflexivity. }
      rewrite Em. cbn [bind]. rewrite E. cbn [bind]. exists (t :: ts), (W :: Ws). eexists. split; [reflexivity|].
      cbn [map]. split; [constructor; assumption|]. split; [constructor; [split; [exact Nm|exact Rf]|exact I2]|]. constructor; [|exact I3].
      destruct (atoms_sited _ _ _ _ Fm) as (J1 & J2 & J3 & J4). unfold sited. cbn [m_atoms m_bonds m_thermal m_sites]. rewrite J1, J2. auto. }
  destruct (G 0) as (ts & Ws & ms & E & I1 & I2 & I3). unfold show3 in E. rewrite E. cbn [bind]. eexists. exists ms. split; [reflexivity|].
  split; [|exact I3]. exact (file_ok ts Ws ms _ word_Xx I1 I2).
Qed.
End Text.
