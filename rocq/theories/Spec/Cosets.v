(** Subgroups and cosets in a list of matrices, given by lists of positions. *)
From Coq Require Import Reals List ZArith.
From Verif Require Import Model.Tau Model.Arr Model.IcoMath1 Spec.Value Spec.RVec.
Import ListNotations.

(** The operations at the positions H form a subgroup. *)
Definition subgroup (ops : list (list (list Z))) (H : list nat) : Prop :=
  NoDup H /\
  (exists e, In e H /\ nth_error ops e = Some (identity 6)) /\
  (forall i j, In i H -> In j H -> exists a b k,
     nth_error ops i = Some a /\ nth_error ops j = Some b /\ In k H /\ nth_error ops k = Some (matmul a b)) /\
  (forall i, In i H -> exists a b j,
     nth_error ops i = Some a /\ In j H /\ nth_error ops j = Some b /\ matmul a b = identity 6).

(** Operation g is in the left coset rH. *)
Definition in_coset (ops : list (list (list Z))) (H : list nat) (r g : nat) : Prop :=
  exists a h b, nth_error ops r = Some a /\ In h H /\ nth_error ops h = Some b /\ nth_error ops g = Some (matmul a b).

(** reps has exactly one element in every left coset of H. *)
Definition transversal (ops : list (list (list Z))) (H reps : list nat) : Prop :=
  NoDup reps /\ (forall r, In r reps -> (r < length ops)%nat) /\
  forall g, (g < length ops)%nat -> exists! r, In r reps /\ in_coset ops H r g.

Local Open Scope R_scope.

(** Integer vector. *)
Definition integral (x : list R) : Prop := exists z, x = map IZR z.

(** The operation maps the point x to itself up to a lattice translation. *)
Definition fixes_site (op : list (list Z)) (x : list R) : Prop :=
  integral (vsub x (matvec (IZRm op) x)).

(** The positions of the operations with that property: the site-symmetry group. *)
Definition site_group (ops : list (list (list Z))) (x : list R) (H : list nat) : Prop :=
  NoDup H /\ forall i, In i H <-> exists op, nth_error ops i = Some op /\ fixes_site op x.

(** The translations tried: components in -1,0,1 in the first n directions (n = 4 or
    5), 0 in the others. *)
Definition small_shift (n : nat) (t : list Z) : Prop :=
  length t = 6%nat /\ forall i, (i < 6)%nat ->
    (-1 <= nth i t 0 <= 1)%Z /\ ((n <= i)%nat -> nth i t 0%Z = 0%Z).

(** Euclidean length. *)
Definition vnorm (x : list R) : R := sqrt (dot x x).

(** Number of directions in which translations are tried: ndim 4 or else 5. *)
Definition tdim (n : Z) : nat := if (n =? 4)%Z then 4 else 5.

(** All coordinates are fractions with denominator n. *)
Definition rational (n : Z) (x : list R) : Prop := exists k, x = map (fun z => IZR z / IZR n) k.

(** x is in the unit cell [0,1) / the centred cell [-1/2,1/2] in the four in-plane
    directions. *)
Definition cell (x : list R) : Prop := forall i, (i < 4)%nat -> 0 <= nth i x 0 < 1.
Definition ccell (x : list R) : Prop := forall i, (i < 4)%nat -> - (1 / 2) <= nth i x 0 <= 1 / 2.
