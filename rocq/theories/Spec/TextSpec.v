(** Vocabulary for text files. *)
From Coq Require Import Ascii String List ZArith.
Import ListNotations.

(** A character Python's str.split treats as white space (ASCII part). *)
Definition is_white (c : ascii) : Prop :=
  (9 <= nat_of_ascii c <= 13)%nat \/ (28 <= nat_of_ascii c <= 32)%nat.

(** A word: not empty, no white space. *)
Definition word (w : list ascii) : Prop := w <> [] /\ Forall (fun c => ~ is_white c) w.

(** What a formatter for a number of minimal width prints: blanks, then a word. *)
Definition field (s : list ascii) : Prop := exists k w, s = repeat " "%char k ++ w /\ word w.

(** Text that stays on one line when it is written and read back. *)
Definition one_line (s : list ascii) : Prop := ~ In "010"%char s /\ ~ In "013"%char s.

(** The lines, each ended by a newline. *)
Definition unlines (ls : list (list ascii)) : list ascii := concat (map (fun l => l ++ ["010"%char]) ls).
