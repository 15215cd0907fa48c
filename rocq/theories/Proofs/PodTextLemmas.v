(** Reading .pod and .atm files back. *)
From Coq Require Import Ascii String List ZArith Bool Lia.
From Verif Require Import Base.Res Model.Tau Model.Arr Model.Num Model.Text Model.Pod Model.PodText Spec.TextSpec Spec.PodText
  Proofs.ResLemmas Proofs.TextLemmas.
Import ListNotations.
Local Open Scope res_scope.

Lemma field_words s : field s -> exists w, words s = [w] /\ word w.
Proof. intros (k & w & -> & W). exists w. rewrite words_spaces. split; [apply words_word; exact W|exact W]. Qed.
Lemma words_field_sp s t : field s -> words (s ++ sp :: t) = words s ++ words t.
Proof.
  intros (k & w & -> & W). rewrite <- app_assoc, !words_spaces, words_word_white by (assumption || reflexivity).
  rewrite (words_word w W). reflexivity.
Qed.
Lemma words_field_spaces s m t : field s -> words (s ++ repeat sp (S m) ++ t) = words s ++ words t.
Proof. intros H. cbn [repeat app]. rewrite (words_field_sp s _ H). f_equal. apply words_spaces. Qed.
Lemma words_join m l : Forall field l -> words (join (repeat sp (S m)) l) = concat (map words l).
Proof.
  induction 1 as [|s l Hs _ IH]; [reflexivity|]. destruct l as [|y l]; [cbn [join map concat]; rewrite app_nil_r; reflexivity|].
  change (join (repeat sp (S m)) (s :: y :: l)) with (s ++ repeat sp (S m) ++ join (repeat sp (S m)) (y :: l)).
  rewrite words_field_spaces, IH by exact Hs. reflexivity.
Qed.
Lemma words_join_tail m l k t : l <> [] -> Forall field l -> words (join (repeat sp (S m)) l ++ repeat sp (S k) ++ t) = concat (map words l) ++ words t.
Proof.
  intros N H. induction H as [|s l Hs _ IH]; [congruence|]. destruct l as [|y l].
  - cbn [join map concat]. rewrite app_nil_r. apply words_field_spaces, Hs.
  - change (join (repeat sp (S m)) (s :: y :: l)) with (s ++ repeat sp (S m) ++ join (repeat sp (S m)) (y :: l)).
    rewrite <- !app_assoc, words_field_spaces by exact Hs. rewrite IH by discriminate. cbn [map concat]. rewrite <- !app_assoc. reflexivity.
Qed.
Lemma one_line_join m l : Forall field l -> one_line (join (repeat sp (S m)) l).
Proof.
  induction 1 as [|s l Hs _ IH]; [apply one_line_nil|]. destruct l as [|y l]; [apply one_line_field, Hs|].
  change (join (repeat sp (S m)) (s :: y :: l)) with (s ++ repeat sp (S m) ++ join (repeat sp (S m)) (y :: l)).
  apply one_line_app; [apply one_line_field, Hs|]. apply one_line_app; [|exact IH].
  apply one_line_dec. apply forallb_forall. intros c I. apply repeat_spec in I. subst. reflexivity.
Qed.
Lemma fields_words {A} (f : A -> str) l : (forall x, field (f x)) -> exists ws, concat (map words (map f l)) = ws /\ Forall2 (prints f) l ws.
Proof.
  intros H. induction l as [|x l (ws & E & F2)]; [exists []; split; [reflexivity|constructor]|].
  destruct (field_words _ (H x)) as (w & Ew & _). exists (w :: ws). split; [cbn [map concat]; rewrite Ew, E; reflexivity|].
  constructor; [exact Ew|exact F2].
Qed.
Lemma words_tag tag t : word (lit tag) -> words (lit tag ++ sp :: t) = lit tag :: words t.
Proof. intros W. apply words_word_white; [exact W|reflexivity]. Qed.
Lemma tagged_ok tag k t : word (lit tag) -> tagged tag (lit tag ++ repeat sp (S k) ++ t) = Ok (words t).
Proof.
  intros W. unfold tagged. cbn [repeat app]. rewrite words_tag by exact W. rewrite words_spaces.
  destruct (list_eq_dec ascii_dec (lit tag) (lit tag)); [reflexivity|contradiction].
Qed.
Lemma mapM_py_int l : mapM py_int (map show_Z l) = Ok l.
Proof. induction l as [|z l IH]; [reflexivity|]. cbn [map mapM]. rewrite py_int_show. cbn [bind]. rewrite IH. reflexivity. Qed.
Lemma six_get {A} (l : list A) : length l = 6 -> six (get l) = Ok l.
Proof. intros H. do 7 (destruct l as [|? l]; try discriminate). reflexivity. Qed.
Lemma words_idx l : words (concat (map (fun i => sp :: show_nat i) l)) = map show_nat l.
Proof.
  induction l as [|i l IH]; [reflexivity|]. cbn [map concat]. cbn [app].
  change (words (repeat sp 1 ++ show_nat i ++ concat (map (fun i => sp :: show_nat i) l)) = show_nat i :: map show_nat l).
  rewrite words_spaces. destruct l as [|j l]; [cbn [map concat]; rewrite app_nil_r; apply words_word, show_nat_word|].
  change (concat (map (fun i => sp :: show_nat i) (j :: l))) with (sp :: show_nat j ++ concat (map (fun i => sp :: show_nat i) l)).
  rewrite words_word_white by (reflexivity || apply show_nat_word). f_equal.
  rewrite <- IH. symmetry. apply (words_spaces 1).
Qed.
Lemma one_line_word' w : word w -> one_line w.
Proof. intros [_ H]. apply one_line_word, H. Qed.
Lemma one_line_idx l : one_line (concat (map (fun i => sp :: show_nat i) l)).
Proof.
  induction l as [|i l IH]; [apply one_line_nil|]. cbn [map concat]. apply one_line_app; [|exact IH].
  apply one_line_cons; [discriminate|discriminate|]. apply one_line_word', show_nat_word.
Qed.
Lemma str_cons {A} (a : A) l m : (a :: l) ++ m = a :: l ++ m. Proof. reflexivity. Qed.

Section PodText.
Variable N : num.
Variables f3 f6 : F N -> str.
Hypothesis F3 : forall x, field (f3 x).
Hypothesis F6 : forall x, field (f6 x).

Definition shaped (p : pod N) : Prop := Forall (fun e => length e = 6) (pod_ej N p) /\ pod_num N p = length (pod_ej N p).
(** what the entry numbered i should be *)
Definition is_entry (i : Z) (p : pod N) (e : entry) : Prop :=
  e_number e = i /\ e_count e = Z.of_nat (pod_num N p) /\ Forall2 (Forall2 (prints f6)) (pod_ej N p) (e_ej e) /\
  e_nth e = pod_nth N p /\ e_idx e = map Z.of_nat (pod_idx N p).

Lemma ej_line_ok e : length e = 6 -> exists l ws, pod_ej_line N f6 e = Ok (l ++ [nl]) /\ one_line l /\ tagged "ej=" l = Ok ws /\ Forall2 (prints f6) e ws.
Proof.
  intros L. unfold pod_ej_line, six_fields. rewrite six_get by exact L. cbn [bind].
  destruct (fields_words f6 e F6) as (ws & Ew & H2). exists (lit "ej=  " ++ join (lit " ") (map f6 e)), ws.
  assert (Hf : Forall field (map f6 e)) by (apply Forall_forall; intros s I; apply in_map_iff in I as (x & <- & _); apply F6).
  split; [rewrite <- app_assoc; reflexivity|]. split; [|split; [|exact H2]].
  - apply one_line_app; [apply one_line_dec; reflexivity|]. apply (one_line_join 0), Hf.
  - change (lit "ej=  ") with (lit "ej=" ++ repeat sp 2). rewrite <- app_assoc. rewrite (tagged_ok "ej=" 1) by (apply word_dec; reflexivity).
    rewrite (words_join 0) by exact Hf. rewrite Ew. reflexivity.
Qed.
Lemma ej_lines_ok es : Forall (fun e => length e = 6) es ->
  exists ls wss, mapM (pod_ej_line N f6) es = Ok (map (fun l => l ++ [nl]) ls) /\ Forall one_line ls /\ length ls = length es /\
    mapM (tagged "ej=") ls = Ok wss /\ Forall2 (Forall2 (prints f6)) es wss.
Proof.
  induction 1 as [|e es He _ IH]; [exists [], []; repeat split; constructor|].
  destruct IH as (ls & wss & E & O & L & T & H2). destruct (ej_line_ok e He) as (l & ws & E1 & O1 & T1 & P1).
  exists (l :: ls), (ws :: wss). split; [cbn [mapM]; rewrite E1; cbn [bind]; rewrite E; reflexivity|].
  split; [constructor; assumption|]. split; [cbn [length]; congruence|].
  split; [cbn [mapM]; rewrite T1; cbn [bind]; rewrite T; reflexivity|]. constructor; assumption.
Qed.
Lemma pod_text_ok i p : shaped p -> exists t ls e, pod_text N f6 i p = Ok t /\ t ++ [nl] = unlines ls /\ Forall one_line ls /\
  is_entry i p e /\ forall rest, read_entry (ls ++ rest) = Ok (e, rest).
Proof.
  intros [H Hn]. destruct (ej_lines_ok _ H) as (ls & wss & E & O & L & T & H2).
  set (h := show_Z i ++ sp :: show_nat (pod_num N p) ++ sp :: show_Z 2 ++ lit " 'comment'").
  set (m := lit "nth= " ++ show_Z (pod_nth N p) ++ concat (map (fun i => sp :: show_nat i) (pod_idx N p))).
  unfold pod_text. rewrite E. cbn [bind]. eexists. exists (h :: ls ++ [m]), (Entry i (Z.of_nat (pod_num N p)) wss (pod_nth N p) (map Z.of_nat (pod_idx N p))).
  split; [reflexivity|]. split; [|split; [|split]].
  - change (pod_nth_line (pod_nth N p) (pod_idx N p)) with m. unfold unlines. cbn [map concat]. rewrite map_app, concat_app. cbn [map concat]. rewrite app_nil_r.
    unfold pod_head, h. repeat (rewrite <- ?app_assoc; rewrite ?str_cons). reflexivity.
  - constructor.
    + unfold h. apply one_line_app; [apply one_line_word', show_Z_word|]. apply one_line_cons; [discriminate|discriminate|].
      apply one_line_app; [apply one_line_word', show_nat_word|]. apply one_line_dec. reflexivity.
    + apply Forall_app. split; [exact O|]. constructor; [|constructor]. unfold m.
      apply one_line_app; [apply one_line_dec; reflexivity|]. apply one_line_app; [apply one_line_word', show_Z_word|apply one_line_idx].
  - unfold is_entry. cbn. split; [reflexivity|]. split; [reflexivity|]. split; [exact H2|]. split; reflexivity.
  - intros rest. cbn [app]. unfold read_entry.
    assert (Wh : words h = show_Z i :: show_nat (pod_num N p) :: [show_Z 2; lit "'comment'"]).
    { unfold h. rewrite words_word_white by (reflexivity || apply show_Z_word). f_equal.
      rewrite words_word_white by (reflexivity || apply show_nat_word). reflexivity. }
    rewrite Wh. rewrite py_int_show. cbn [bind]. unfold show_nat at 1. rewrite py_int_show. cbn [bind]. rewrite Nat2Z.id, Hn, <- L.
    rewrite <- app_assoc. rewrite firstn_app, Nat.sub_diag, firstn_all. cbn [firstn]. rewrite app_nil_r, T. cbn [bind].
    rewrite skipn_app, Nat.sub_diag, skipn_all. cbn [skipn app].
    assert (Wm : tagged "nth=" m = Ok (show_Z (pod_nth N p) :: map show_nat (pod_idx N p))).
    { unfold m. change (lit "nth= ") with (lit "nth=" ++ repeat sp 1). rewrite <- app_assoc. rewrite (tagged_ok "nth=" 0) by (apply word_dec; reflexivity). f_equal.
      destruct (pod_idx N p) as [|j l] eqn:Ei; [cbn [map concat]; rewrite app_nil_r; apply words_word, show_Z_word|].
      change (concat (map (fun i => sp :: show_nat i) (j :: l))) with (sp :: show_nat j ++ concat (map (fun i => sp :: show_nat i) l)).
      rewrite words_word_white by (reflexivity || apply show_Z_word). f_equal.
      rewrite <- words_idx. symmetry. apply (words_spaces 1). }
    rewrite Wm. cbn [bind]. rewrite py_int_show. cbn [bind].
    replace (map show_nat (pod_idx N p)) with (map show_Z (map Z.of_nat (pod_idx N p))) by (rewrite map_map; reflexivity).
    rewrite mapM_py_int. reflexivity.
Qed.

(** Numbered entries. *)
Lemma numbered_ok {A} (f : Z -> A -> res str) (P : Z -> A -> list str -> Prop) l :
  (forall i x, In x l -> exists t ls, f i x = Ok t /\ t = unlines ls /\ P i x ls) ->
  forall s, exists ts lss, mapM (fun p => f (Z.of_nat (S (fst p))) (snd p)) (combine (seq s (length l)) l) = Ok ts /\ concat ts = unlines (concat lss) /\
    Forall2 (fun p ls => P (Z.of_nat (S (fst p))) (snd p) ls) (combine (seq s (length l)) l) lss.
Proof.
  induction l as [|x l IH]; intros H s; [exists [], []; repeat split; constructor|].
  destruct (IH (fun i y I => H i y (or_intror I)) (S s)) as (ts & lss & E & C & F2).
  destruct (H (Z.of_nat (S s)) x (or_introl eq_refl)) as (t & ls & Et & Eu & Pl).
  exists (t :: ts), (ls :: lss). cbn [length seq combine mapM fst snd]. rewrite Et. cbn [bind]. rewrite E. cbn [bind].
  split; [reflexivity|]. split; [cbn [concat]; rewrite unlines_app, <- C, Eu; reflexivity|]. constructor; assumption.
Qed.

Definition ones := lit "100000000000000000000000000000000000000000000000000000000000".
Definition zeros := lit "000000000000000000000000000000000000000000000000000000000000".
Lemma pod_block_text i p : shaped p -> exists t ls, (t <- pod_text N f6 i p ;; Ok (t ++ pod_trailer)) = Ok t /\ t = unlines ls /\
  (Forall one_line ls /\ exists e, is_entry i p e /\ forall rest, read_entry (ls ++ rest) = Ok (e, ones :: zeros :: rest)).
Proof.
  intros H. destruct (pod_text_ok i p H) as (t & ls & e & E & U & O & I & R). rewrite E. cbn [bind].
  eexists. exists (ls ++ [ones; zeros]). split; [reflexivity|]. split; [|split].
  - rewrite unlines_app, <- U. unfold pod_trailer. rewrite <- app_assoc. reflexivity.
  - apply Forall_app. split; [exact O|]. repeat constructor; apply one_line_dec; reflexivity.
  - exists e. split; [exact I|]. intros rest. rewrite <- app_assoc. apply R.
Qed.
Lemma read_entries_ok ps lss : Forall2 (fun p ls => Forall one_line ls /\ exists e, is_entry (Z.of_nat (S (fst p))) (snd p) e /\ forall rest, read_entry (ls ++ rest) = Ok (e, ones :: zeros :: rest)) ps lss ->
  Forall one_line (concat lss) /\ exists es, read_entries (length ps) (concat lss) = Ok es /\ Forall2 (fun (p : nat * pod N) e => is_entry (Z.of_nat (S (fst p))) (snd p) e) ps es.
Proof.
  induction 1 as [|p ls ps lss (O & e & I & R) _ (OO & es & E & F2)]; [split; [constructor|exists []; split; [reflexivity|constructor]]|].
  cbn [concat]. split; [apply Forall_app; split; assumption|]. exists (e :: es). cbn [length read_entries]. rewrite R. cbn [bind skipn]. rewrite E. split; [reflexivity|constructor; assumption].
Qed.

(** .atm *)
Definition is_atom (i : Z) (d : list (F N) * list (F N)) (a : atom) : Prop :=
  a_number a = i /\ a_pod a = i /\ Forall2 (prints f3) (fst d) (a_x a) /\ Forall2 (prints f6) (snd d) (a_xi a).
Definition ahead (i : Z) : str := show_Z i ++ lit " 'Em' 1 " ++ show_Z i ++ lit " 1 2.0 0. 0. 1.0 0. 0. 0.".
Lemma atm_head_ok i : atm_head i = ahead i ++ [nl] /\ one_line (ahead i) /\ read_head (ahead i) = Ok (i, i).
Proof.
  split; [unfold atm_head, ahead; rewrite <- !app_assoc; reflexivity|]. split.
  - unfold ahead. apply one_line_app; [apply one_line_word', show_Z_word|]. apply one_line_app; [apply one_line_dec; reflexivity|].
    apply one_line_app; [apply one_line_word', show_Z_word|]. apply one_line_dec; reflexivity.
  - unfold read_head. assert (W : exists ws, words (ahead i) = show_Z i :: lit "'Em'" :: lit "1" :: show_Z i :: ws).
    { unfold ahead. change (lit " 'Em' 1 " ++ show_Z i ++ lit " 1 2.0 0. 0. 1.0 0. 0. 0.") with (sp :: lit "'Em'" ++ sp :: lit "1" ++ sp :: show_Z i ++ sp :: lit "1 2.0 0. 0. 1.0 0. 0. 0.").
      rewrite words_word_white by (reflexivity || apply show_Z_word). rewrite words_word_white by (reflexivity || (apply word_dec; reflexivity)).
      rewrite words_word_white by (reflexivity || (apply word_dec; reflexivity)). rewrite words_word_white by (reflexivity || apply show_Z_word). eexists. reflexivity. }
    destruct W as (ws & ->). rewrite !py_int_show. reflexivity.
Qed.
Lemma atm_x_ok x : length x = 6 -> exists l ws, atm_x N f3 x = Ok (l ++ [nl]) /\ one_line l /\ tagged "x=" l = Ok ws /\ Forall2 (prints f3) x ws.
Proof.
  intros L. unfold atm_x, six_fields. rewrite six_get by exact L. cbn [bind].
  destruct (fields_words f3 x F3) as (ws & Ew & H2). exists (lit "x=  " ++ join (lit "  ") (map f3 x)), ws.
  assert (Hf : Forall field (map f3 x)) by (apply Forall_forall; intros s I; apply in_map_iff in I as (y & <- & _); apply F3).
  split; [rewrite <- app_assoc; reflexivity|]. split; [|split; [|exact H2]].
  - apply one_line_app; [apply one_line_dec; reflexivity|]. apply (one_line_join 1), Hf.
  - change (lit "x=  ") with (lit "x=" ++ repeat sp 2). rewrite <- app_assoc. rewrite (tagged_ok "x=" 1) by (apply word_dec; reflexivity).
    rewrite (words_join 1) by exact Hf. rewrite Ew. reflexivity.
Qed.
Lemma xi_ok x : length x = 6 -> exists s ws ex, six_fields N f6 (lit "  ") x = Ok s /\ one_line (lit "xi=  " ++ s ++ lit "  v=1.0") /\
  tagged "xi=" (lit "xi=  " ++ s ++ lit "  v=1.0") = Ok (ws ++ ex) /\ Forall2 (prints f6) x ws.
Proof.
  intros L. unfold six_fields. rewrite six_get by exact L. cbn [bind].
  destruct (fields_words f6 x F6) as (ws & Ew & H2). exists (join (lit "  ") (map f6 x)), ws, [lit "v=1.0"].
  assert (Hf : Forall field (map f6 x)) by (apply Forall_forall; intros s I; apply in_map_iff in I as (y & <- & _); apply F6).
  split; [reflexivity|]. split; [|split; [|exact H2]].
  - apply one_line_app; [apply one_line_dec; reflexivity|]. apply one_line_app; [apply (one_line_join 1), Hf|apply one_line_dec; reflexivity].
  - change (lit "xi=  ") with (lit "xi=" ++ repeat sp 2). rewrite <- app_assoc. rewrite (tagged_ok "xi=" 1) by (apply word_dec; reflexivity).
    change (lit "  v=1.0") with (repeat sp 2 ++ lit "v=1.0"). rewrite (words_join_tail 1) by (exact Hf || (destruct x; discriminate)). rewrite Ew. reflexivity.
Qed.
Lemma F2_length {A B} (P : A -> B -> Prop) l m : Forall2 P l m -> length l = length m.
Proof. induction 1; cbn [length]; congruence. Qed.
Lemma atm_text_ok i d : length (fst d) = 6 /\ length (snd d) = 6 -> exists t ls, atm_text N f3 f6 i d = Ok t /\ t = unlines ls /\
  (Forall one_line ls /\ exists a, is_atom i d a /\ forall rest, read_atoms (ls ++ rest) = (l <- read_atoms rest ;; Ok (a :: l))).
Proof.
  intros [L1 L2]. destruct (atm_head_ok i) as (Eh & Oh & Rh). destruct (atm_x_ok _ L1) as (x & ws & Ex & Ox & Tx & Px).
  destruct (xi_ok _ L2) as (s & ws' & ex & Es & Os & Ts & Ps). unfold atm_text. rewrite Ex. cbn [bind]. rewrite Es. cbn [bind].
  eexists. exists [ahead i; x; lit "xe1= 1. 0.  0. 0.  0. 0. u1=0.0            5f"; lit "xe2= 1. 0. -1. 0. -1. 0. u2=0.0            3f";
    lit "xe3= 1. 0.  0. 0. -1. 0. u3=0.0            2f"; lit "xi=  " ++ s ++ lit "  v=1.0"; lit "isyd=1"].
  split; [reflexivity|]. split; [|split].
  - unfold unlines. cbn [map concat]. rewrite Eh. rewrite <- !app_assoc. cbn [app]. reflexivity.
  - repeat (apply Forall_cons; [first [exact Oh|exact Ox|exact Os|apply one_line_dec; reflexivity]|]). apply Forall_nil.
  - exists (Atom i i ws ws'). split; [unfold is_atom; cbn; auto|]. intros rest. cbn [app read_atoms]. rewrite Rh. cbn [bind]. rewrite Tx. cbn [bind].
    rewrite Ts. cbn [bind]. rewrite firstn_app, <- (F2_length _ _ _ Ps), L2, Nat.sub_diag. rewrite <- L2, (F2_length _ _ _ Ps), firstn_all. cbn [firstn]. rewrite app_nil_r. reflexivity.
Qed.
Lemma read_atoms_ok ps lss : Forall2 (fun (p : nat * (list (F N) * list (F N))) ls => Forall one_line ls /\ exists a, is_atom (Z.of_nat (S (fst p))) (snd p) a /\
    forall rest, read_atoms (ls ++ rest) = (l <- read_atoms rest ;; Ok (a :: l))) ps lss ->
  Forall one_line (concat lss) /\ exists es, read_atoms (concat lss) = Ok es /\ Forall2 (fun p e => is_atom (Z.of_nat (S (fst p))) (snd p) e) ps es.
Proof.
  induction 1 as [|p ls ps lss (O & e & I & R) _ (OO & es & E & F2)]; [split; [constructor|exists []; split; [reflexivity|constructor]]|].
  cbn [concat]. split; [apply Forall_app; split; assumption|]. exists (e :: es). rewrite R, E. split; [reflexivity|constructor; assumption].
Qed.

Lemma six_length {B} (f : nat -> res B) l : six f = Ok l -> length l = 6.
Proof. intros H. apply mapM_length in H. rewrite seq_length in H. congruence. Qed.
Lemma pod_block_shaped v row p : pod_block N v row = Ok p -> shaped p.
Proof.
  unfold pod_block. intros H.
  repeat (apply bind_Ok_inv in H as (? & ? & H)). injection H as <-. unfold shaped. cbn [pod_ej pod_num].
  match goal with K : mapM _ _ = Ok ?ej |- _ => rename K into E; set (es := ej) in * end. clearbody es. split.
  - clear - E. revert E. generalize (add_new [(x1 - 1)%Z] (skipn 2 row)). intros l. revert es. induction l as [|i l IH]; intros es E; [injection E as <-; constructor|].
    cbn [mapM] in E. apply bind_Ok_inv in E as (e & Ee & E). apply bind_Ok_inv in E as (es' & E' & E). injection E as <-.
    constructor; [|apply IH; exact E']. apply bind_Ok_inv in Ee as (b & _ & Ed). apply six_length in Ed. exact Ed.
  - symmetry. apply mapM_length in E. exact E.
Qed.
Lemma atm_block_shaped v position shft row d : atm_block N v position shft row = Ok d -> length (fst d) = 6 /\ length (snd d) = 6.
Proof.
  unfold atm_block. intros H. repeat (apply bind_Ok_inv in H as (? & ? & H)). injection H as <-. cbn [fst snd].
  split; eapply six_length; eassumption.
Qed.
Lemma mapM_all {A B} (f : A -> res B) (P : B -> Prop) l m : (forall x y, f x = Ok y -> P y) -> mapM f l = Ok m -> Forall P m.
Proof.
  intros H. revert m. induction l as [|x l IH]; intros m E; [injection E as <-; constructor|].
  cbn [mapM] in E. apply bind_Ok_inv in E as (y & Ey & E). apply bind_Ok_inv in E as (ys & Es & E). injection E as <-. constructor; [eapply H, Ey|apply IH, Es].
Qed.

(** The whole of both files. *)
Lemma write_podatm_read v position vlist shft atm pods : write_podatm N (PList v) position vlist shft = Ok (0%Z, Some (atm, pods)) ->
  exists ta tp es ats, write_podatm_text N f3 f6 (PList v) position vlist shft = Ok (0%Z, Some (ta, tp)) /\
    read_pod tp = Ok es /\ read_atm ta = Ok ats /\
    Forall2 (fun p e => is_entry (Z.of_nat (S (fst p))) (snd p) e) (combine (seq 0 (length pods)) pods) es /\
    Forall2 (fun p a => is_atom (Z.of_nat (S (fst p))) (snd p) a) (combine (seq 0 (length atm)) atm) ats.
Proof.
  intros H. unfold write_podatm_text. rewrite H. cbn [bind].
  unfold write_podatm in H. apply bind_Ok_inv in H as (atm' & Ea & H). apply bind_Ok_inv in H as (pods' & Ep & H).
  injection H as <- <-.
  pose proof (mapM_all _ _ _ _ (atm_block_shaped v position shft) Ea) as Sa. pose proof (mapM_all _ _ _ _ (pod_block_shaped v) Ep) as Spd.
  assert (Lp : length vlist = length pods') by (symmetry; exact (mapM_length _ _ _ Ep)).
  rewrite Forall_forall in Sa, Spd.
  destruct (numbered_ok (atm_text N f3 f6) _ atm' (fun i d I => atm_text_ok i d (Sa d I)) 0) as (ts & lss & E1 & C1 & R1).
  destruct (numbered_ok (fun i d => t <- pod_text N f6 i d ;; Ok (t ++ pod_trailer)) _ pods' (fun i d I => pod_block_text i d (Spd d I)) 0) as (us & mss & E2 & C2 & R2).
  apply read_atoms_ok in R1 as (O1 & ats & Ra & Fa). apply read_entries_ok in R2 as (O2 & es & Re & Fe).
  unfold numbered. rewrite E1. cbn [bind]. rewrite E2. cbn [bind].
  exists (concat ts), (pod_preamble (length vlist) ++ concat us), es, ats.
  split; [reflexivity|]. split; [|split; [|split; assumption]].
  - set (io := lit "nsymo=4 icent=1 brv='p' io=" ++ show_nat (length vlist)).
    assert (Ep2 : pod_preamble (length vlist) ++ concat us = unlines ([io; lit "symmetry operator"; lit "x,z,t,u,v,y            5f"; lit "-x,-y,-v,-u,-t,-z      2f"; lit "-v,-y,t,z,-u,-x        2f"; lit "y,z,x,v,-t,-u          3f"] ++ concat mss)).
    { rewrite unlines_app, <- C2. f_equal. unfold pod_preamble, io, unlines. cbn [map concat]. rewrite <- !app_assoc. reflexivity. }
    rewrite Ep2. unfold read_pod. rewrite read_unlines.
    2:{ apply Forall_app. split; [|exact O2]. repeat (apply Forall_cons; [first [apply one_line_dec; reflexivity|unfold io; apply one_line_app; [apply one_line_dec; reflexivity|apply one_line_word', show_nat_word]]|]). apply Forall_nil. }
    cbn [app]. assert (Wi : words io = [lit "nsymo=4"; lit "icent=1"; lit "brv='p'"; lit "io=" ++ show_nat (length vlist)]).
    { unfold io. change (lit "nsymo=4 icent=1 brv='p' io=" ++ show_nat (length vlist)) with (lit "nsymo=4" ++ sp :: lit "icent=1" ++ sp :: lit "brv='p'" ++ sp :: lit "io=" ++ show_nat (length vlist)).
      rewrite !words_word_white by (reflexivity || (apply word_dec; reflexivity)). do 3 f_equal. apply words_word, word_app; [apply word_dec; reflexivity|apply show_nat_word]. }
    rewrite Wi. change (firstn 3 (lit "io=" ++ show_nat (length vlist))) with (lit "io="). change (skipn 3 (lit "io=" ++ show_nat (length vlist))) with (show_nat (length vlist)).
    destruct (list_eq_dec ascii_dec (lit "io=") (lit "io=")) as [_|Q]; [|contradiction].
    unfold show_nat. rewrite py_int_show. cbn [bind]. rewrite Nat2Z.id. cbn [skipn].
    rewrite combine_length, seq_length, Nat.min_id in Re. rewrite Lp. exact Re.
  - unfold read_atm. rewrite C1, read_unlines by exact O1. exact Ra.
Qed.

Lemma obj2podatm_read k proj dedup value o serial x p : obj2podatm_ N k proj dedup value o = Ok (0%Z, Some (x, p)) -> length x = 6 -> shaped p ->
  exists ta tp e xs, obj2podatm_text_ N f3 f6 k proj dedup value o serial = Ok (0%Z, Some (ta, tp)) /\
    read_pod1 tp = Ok e /\ is_entry serial p e /\ read_atm1 ta = Ok (serial, serial, xs) /\ Forall2 (prints f3) x xs.
Proof.
  intros H L S. unfold obj2podatm_text_. rewrite H. cbn [bind]. destruct (atm_x_ok x L) as (l & ws & Ex & Ox & Tx & Px). rewrite Ex. cbn [bind].
  destruct (pod_text_ok serial p S) as (t & ls & e & Et & U & O & I & R). rewrite Et. cbn [bind]. do 2 eexists. exists e, ws. split; [reflexivity|].
  split; [|split; [exact I|split; [|exact Px]]].
  - unfold read_pod1. rewrite U, read_unlines by exact O. pose proof (R []) as R0. rewrite app_nil_r in R0. rewrite R0. reflexivity.
  - destruct (atm_head_ok serial) as (Eh & Oh & Rh). unfold read_atm1.
    replace (atm_head serial ++ l ++ [nl]) with (unlines [ahead serial; l]) by (rewrite Eh; unfold unlines; cbn [map concat]; rewrite app_nil_r; reflexivity).
    rewrite read_unlines by (apply Forall_cons; [exact Oh|apply Forall_cons; [exact Ox|apply Forall_nil]]). rewrite Rh. cbn [bind]. rewrite Tx. reflexivity.
Qed.
End PodText.
