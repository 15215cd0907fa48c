(** Formatting and parsing. *)
From Coq Require Import Ascii String Decimal DecimalFacts DecimalPos DecimalN DecimalZ List ZArith Bool Lia.
From Flocq Require Import IEEE754.BinarySingleNaN IEEE754.Binary IEEE754.Bits.
From Verif Require Import Base.Res Model.Text Spec.TextSpec Proofs.ResLemmas.
Import ListNotations.
Local Open Scope Z_scope.
Local Open Scope res_scope.

Lemma white_spec c : white c = true <-> is_white c.
Proof.
  unfold white, is_white. rewrite orb_true_iff, !andb_true_iff, !Nat.leb_le. tauto.
Qed.
Lemma nonwhite_spec c : white c = false <-> ~ is_white c.
Proof. rewrite <- white_spec. destruct (white c); split; congruence || tauto. Qed.

(** ** words *)
Lemma split_run_app w : forall cur s, Forall (fun c => ~ is_white c) w -> split_run cur (w ++ s) = split_run (rev w ++ cur) s.
Proof.
  induction w as [|c w IH]; intros cur s H; [reflexivity|]. inversion H; subst. cbn [app split_run rev].
  rewrite (proj2 (nonwhite_spec c)) by assumption. rewrite IH by assumption. rewrite <- app_assoc. reflexivity.
Qed.
Lemma words_nil : words [] = [].
Proof. reflexivity. Qed.
Lemma words_white c s : white c = true -> words (c :: s) = words s.
Proof. intros H. unfold words. cbn [split_run]. rewrite H. reflexivity. Qed.
Lemma words_spaces k s : words (repeat sp k ++ s) = words s.
Proof. induction k; [reflexivity|]. cbn [repeat app]. rewrite words_white by reflexivity. exact IHk. Qed.
Lemma words_word_white w c s : word w -> white c = true -> words (w ++ c :: s) = w :: words s.
Proof.
  intros [N W] H. unfold words. rewrite split_run_app by exact W. cbn [split_run]. rewrite H, app_nil_r.
  destruct (rev w) eqn:E; [exfalso; apply N; rewrite <- (rev_involutive w), E; reflexivity|].
  rewrite <- E, rev_involutive. reflexivity.
Qed.
Lemma words_word w : word w -> words w = [w].
Proof.
  intros [N W]. unfold words. rewrite <- (app_nil_r w) at 1. rewrite split_run_app by exact W. cbn [split_run]. rewrite app_nil_r.
  destruct (rev w) eqn:E; [exfalso; apply N; rewrite <- (rev_involutive w), E; reflexivity|].
  rewrite <- E, rev_involutive. reflexivity.
Qed.

Lemma word_dec w : (match w with [] => false | _ => forallb (fun c => negb (white c)) w end) = true -> word w.
Proof.
  destruct w as [|c w]; [discriminate|]. intros H. split; [discriminate|]. apply Forall_forall. intros x Hx.
  rewrite forallb_forall in H. apply H in Hx. apply negb_true_iff, nonwhite_spec in Hx. exact Hx.
Qed.
Lemma word_app a b : word a -> word b -> word (a ++ b).
Proof. intros [N A] [_ B]. split; [destruct a; [congruence|discriminate]|]. apply Forall_app; auto. Qed.
Lemma word_app_r a b : Forall (fun c => ~ is_white c) a -> word b -> word (a ++ b).
Proof. intros A [N B]. split; [destruct a, b; congruence || discriminate|]. apply Forall_app; auto. Qed.
Lemma field_word w : word w -> field w.
Proof. intros H. exists 0%nat, w. auto. Qed.
Lemma field_pad k w : word w -> field (pad sp k w).
Proof. intros H. unfold pad. eexists _, w. split; [reflexivity|exact H]. Qed.

(** ** one_line *)
Lemma one_line_app a b : one_line a -> one_line b -> one_line (a ++ b).
Proof. unfold one_line. rewrite !in_app_iff. tauto. Qed.
Lemma one_line_cons c b : c <> nl -> c <> cr -> one_line b -> one_line (c :: b).
Proof. unfold one_line, nl, cr. cbn [In]. intuition. Qed.
Lemma one_line_nil : one_line [].
Proof. split; intros []. Qed.
Lemma one_line_word w : Forall (fun c => ~ is_white c) w -> one_line w.
Proof.
  intros W. rewrite Forall_forall in W. split; intros H; apply W in H; apply H; left; cbn; lia.
Qed.
Lemma one_line_field s : field s -> one_line s.
Proof.
  intros (k & w & -> & _ & W). apply one_line_app; [|apply one_line_word; exact W].
  induction k; [apply one_line_nil|]. cbn [repeat]. apply one_line_cons; [discriminate|discriminate|exact IHk].
Qed.
Lemma one_line_dec s : forallb (fun c => negb (Ascii.eqb c nl || Ascii.eqb c cr)) s = true -> one_line s.
Proof.
  rewrite forallb_forall. intros H. split; intros I; apply H in I; discriminate.
Qed.

(** ** Lines *)
Lemma newlines_id s : ~ In cr s -> newlines s = s.
Proof.
  induction s as [|c s IH]; intros H; [reflexivity|]. cbn [newlines].
  destruct (Ascii.eqb_spec c cr) as [->|_]; [exfalso; apply H; left; reflexivity|].
  rewrite IH; [reflexivity|]. intros I. apply H. right. exact I.
Qed.
Lemma lines_run_app l : forall cur s, ~ In nl l -> lines_run cur (l ++ s) = lines_run (rev l ++ cur) s.
Proof.
  induction l as [|c l IH]; intros cur s H; [reflexivity|]. cbn [app lines_run rev].
  destruct (Ascii.eqb_spec c nl) as [->|_]; [exfalso; apply H; left; reflexivity|].
  rewrite IH by (intros I; apply H; right; exact I). rewrite <- app_assoc. reflexivity.
Qed.
Lemma read_unlines ls : Forall one_line ls -> read_lines (unlines ls) = ls.
Proof.
  intros H. unfold read_lines. rewrite newlines_id.
  - induction H as [|l ls [Hn _] _ IH]; [reflexivity|]. unfold unlines in *. cbn [map concat].
    rewrite <- app_assoc. rewrite lines_run_app by exact Hn. cbn [app lines_run]. rewrite app_nil_r.
    change (Ascii.eqb "010" nl) with true. cbn [rev map]. rewrite rev_involutive, removelast_last. f_equal. exact IH.
  - unfold unlines. induction H as [|l ls [_ Hc] _ IH]; [tauto|]. cbn [map concat]. rewrite !in_app_iff. cbn [In].
    intros [[I|[I|[]]]|I]; [exact (Hc I)|discriminate|exact (IH I)].
Qed.
Lemma unlines_app a b : unlines (a ++ b) = unlines a ++ unlines b.
Proof. unfold unlines. rewrite map_app, concat_app. reflexivity. Qed.
Lemma unlines_concat ls : unlines (concat ls) = concat (map unlines ls).
Proof. induction ls; [reflexivity|]. cbn [concat map]. rewrite unlines_app. congruence. Qed.
Lemma unlines_cons l ls : unlines (l :: ls) = l ++ nl :: unlines ls.
Proof. unfold unlines. cbn [map concat]. rewrite <- app_assoc. reflexivity. Qed.

(** ** Integers *)
Lemma show_uint_digits d : Forall (fun c => exists n, digit c = Some n) (show_uint d).
Proof. induction d; cbn [show_uint]; constructor; auto; eexists; reflexivity. Qed.
Lemma digit_nonwhite c n : digit c = Some n -> ~ is_white c.
Proof.
  unfold digit. destruct (_ && _) eqn:E; [|discriminate]. apply andb_true_iff in E as [E1 E2]. intros _.
  apply Z.leb_le in E1, E2. unfold is_white. lia.
Qed.
Lemma digits_acc d : forall p, digits (Zpos p) (show_uint d) = Ok (Zpos (Pos.of_uint_acc d p)).
Proof.
  induction d; intros p; [reflexivity|..]; cbn [show_uint digits]; match goal with |- context [digit ?c] => let x := eval vm_compute in (digit c) in change (digit c) with x end; cbv beta iota;
  cbn [Pos.of_uint_acc]; rewrite <- IHd; f_equal; lia.
Qed.
Lemma digits_uint d : digits 0 (show_uint d) = Ok (Z.of_uint d).
Proof.
  unfold Z.of_uint. induction d; [reflexivity|exact IHd|..]; cbn [show_uint digits];
  match goal with |- context [digit ?c] => let x := eval vm_compute in (digit c) in change (digit c) with x end; cbv beta iota;
  match goal with |- digits ?z _ = _ => let k := eval vm_compute in z in change z with k end; rewrite digits_acc; reflexivity.
Qed.

Lemma to_int_nonnil z : match Z.to_int z with Pos d => d <> Nil | Neg d => d <> Nil end.
Proof.
  destruct z as [|p|p]; cbn [Z.to_int]; [discriminate|..]; apply DecimalPos.Unsigned.to_uint_nonnil.
Qed.
Lemma unsigned_show d : d <> Nil -> unsigned (show_uint d) = Ok (Z.of_uint d).
Proof.
  intros N. rewrite <- digits_uint. destruct d; [congruence|..]; reflexivity.
Qed.
Lemma py_int_show z : py_int (show_Z z) = Ok z.
Proof.
  unfold show_Z. pose proof (to_int_nonnil z) as N. pose proof (DecimalZ.of_to z) as E.
  destruct (Z.to_int z) as [d|d]; cbn [Z.of_int] in E.
  - rewrite <- E. rewrite <- (unsigned_show d N). destruct d; [congruence|..]; reflexivity.
  - cbn [py_int]. change (Ascii.eqb "-" "-") with true. cbv iota. rewrite (unsigned_show d N). cbn [bind]. f_equal. exact E.
Qed.
Lemma show_Z_word z : word (show_Z z).
Proof.
  unfold show_Z. pose proof (to_int_nonnil z) as N.
  assert (W : forall d, Forall (fun c => ~ is_white c) (show_uint d)).
  { intros d. eapply Forall_impl; [|apply show_uint_digits]. intros c [n Hn]. eapply digit_nonwhite; exact Hn. }
  destruct (Z.to_int z) as [d|d]; split; try discriminate.
  - destruct d; [congruence|discriminate..].
  - apply W.
  - constructor; [unfold is_white; cbn; lia|apply W].
Qed.
Lemma show_nat_word n : word (show_nat n).
Proof. apply show_Z_word. Qed.

(** ** Floating point *)
Lemma pad_nonwhite c k w : ~ is_white c -> word w -> word (pad c k w).
Proof.
  intros H W. unfold pad. apply word_app_r; [|exact W]. apply Forall_forall. intros x Hx. apply repeat_spec in Hx. subst. exact H.
Qed.
Lemma fixed6_word n : word (fixed6 n).
Proof.
  unfold fixed6. apply word_app; [apply show_Z_word|]. apply (word_app_r ["."%char]).
  - constructor; [unfold is_white; cbn; lia|constructor].
  - apply pad_nonwhite; [unfold is_white; cbn; lia|apply show_Z_word].
Qed.
Lemma show_f6_word x : word (show_f6 x).
Proof.
  assert (Sg : forall s, Forall (fun c => ~ is_white c) (sign_str s)).
  { intros []; repeat constructor. unfold is_white. cbn. lia. }
  destruct x; cbn [show_f6]; try (apply word_app_r; [apply Sg|]); try apply fixed6_word; apply word_dec; reflexivity.
Qed.
Lemma show_f8_6_field x : field (show_f8_6 x).
Proof. apply field_pad, show_f6_word. Qed.
