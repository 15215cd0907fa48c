(** Vocabulary shared by the statements: shapes of arrays, "this call succeeds
    and returns a canonical array denoting x", and the affine map R(v-c)+c. *)
From Coq Require Import Reals List ZArith.
From Verif Require Import Base.Res Model.Tau Model.Arr Spec.Value Spec.RVec.
Import ListNotations.
Local Open Scope R_scope.

(** m succeeds with a canonical triple denoting x / a canonical vector denoting xs. *)
Definition evals (w : R) (m : res tau) (x : R) : Prop :=
  wp m (fun r => canon r /\ val w r = x).
Definition evalsv (w : R) (m : res vec) (xs : list R) : Prop :=
  wp m (fun r => canonv r /\ vals w r = xs).

(** All rows have n entries; n x n matrix. *)
Definition rect {B} (m : list (list B)) (n : nat) : Prop := Forall (fun r => length r = n) m.
Definition square {B} (n : nat) (m : list (list B)) : Prop := length m = n /\ rect m n.

(** Every vertex has n components, all well formed (good) / canonical (cgood). *)
Definition good (n : nat) (v : vec) : Prop := wfv v /\ length v = n.
Definition cgood (n : nat) (v : vec) : Prop := canonv v /\ length v = n.
Definition goods (n : nat) (vs : vecs) : Prop := Forall (good n) vs.
Definition cgoods (n : nat) (vs : vecs) : Prop := Forall (cgood n) vs.
Definition goodo (n : nat) (o : obj4) : Prop := Forall (goods n) o.
Definition cgoodo (n : nat) (o : obj4) : Prop := Forall (cgoods n) o.

(** An object made of tetrahedra: four 6-d vertices each. *)
Definition tets (o : obj4) : Prop := Forall (fun t => length t = 4%nat /\ goods 6 t) o.

(** Transpose of a square integer matrix. *)
Definition transposeZ (m : list (list Z)) : list (list Z) :=
  map (fun j => map (fun r => nth j r 0%Z) m) (seq 0 (length m)).

(** R(v-c)+c over the reals. *)
Definition act (op : list (list Z)) (c v : list R) : list R :=
  vadd (matvec (IZRm op) (vsub v c)) c.
