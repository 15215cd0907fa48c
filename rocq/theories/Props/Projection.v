(** Projections of ico2: C08, C09, C10. *)
From Coq Require Import Reals List ZArith Lia Lra Bool.
From Verif Require Import Base.Res Model.Tau Model.Arr Model.IcoScalar Model.Vectors Model.IcoMath1
  Spec.Value Spec.RVec Spec.Shape Spec.IcoSpec.
From Verif Require Import Proofs.P_Projection.
Import ListNotations.
Local Open Scope R_scope.

(** C08: projection returns exactly the two documented 3-d vectors ... *)
Theorem C08_projection_exact : forall v, good 6 v ->
  exists e i, projection v = Ok (e, i) /\ canonv e /\ canonv i /\
    vals TAU e = par (vals TAU v) /\ vals TAU i = perp (vals TAU v).
Proof. exact L_C08_projection_exact. Qed.
Print Assumptions C08_projection_exact.

(** ... projection3 is its second half ... *)
Theorem C08_projection3_half : forall v, good 6 v ->
  exists e i, projection v = Ok (e, i) /\ projection3 v = Ok i.
Proof. exact L_C08_projection3_half. Qed.
Print Assumptions C08_projection3_half.

(** ... linear, on the arrays themselves: projecting k*u+l*v gives the canonical
    array of k*proj(u)+l*proj(v) ... *)
Theorem C08_projection_linear : forall k l u v s, wf k -> wf l -> good 6 u -> good 6 v -> good 6 s ->
  vals TAU s = vadd (vscale (val TAU k) (vals TAU u)) (vscale (val TAU l) (vals TAU v)) ->
  exists eu iu ev iv es is,
    projection u = Ok (eu, iu) /\ projection v = Ok (ev, iv) /\ projection s = Ok (es, is) /\
    vals TAU es = vadd (vscale (val TAU k) (vals TAU eu)) (vscale (val TAU l) (vals TAU ev)) /\
    vals TAU is = vadd (vscale (val TAU k) (vals TAU iu)) (vscale (val TAU l) (vals TAU iv)).
Proof. exact L_C08_projection_linear. Qed.
Print Assumptions C08_projection_linear.

(** ... splits the length ... *)
Theorem C08_norm_split : forall v e i, good 6 v -> projection v = Ok (e, i) ->
  norm2 (vals TAU e) + norm2 (vals TAU i) = (4 + 2*TAU) * norm2 (vals TAU v).
Proof. exact L_C08_norm_split. Qed.
Print Assumptions C08_norm_split.

(** ... the six rows are pairwise orthogonal and of equal length ... *)
Theorem C08_rows_orthogonal : forall i j r s,
  nth_error (par_rows ++ perp_rows) i = Some r -> nth_error (par_rows ++ perp_rows) j = Some s ->
  dot r s = if Nat.eqb i j then 4 + 2*TAU else 0.
Proof. exact L_C08_rows_orthogonal. Qed.
Print Assumptions C08_rows_orthogonal.

(** ... and only the zero vector projects to zero. *)
Theorem C08_injective : forall v e i, good 6 v -> projection v = Ok (e, i) ->
  (vals TAU e = [0;0;0] /\ vals TAU i = [0;0;0] <-> vals TAU v = [0;0;0;0;0;0]).
Proof. exact L_C08_injective. Qed.
Print Assumptions C08_injective.

Example C08_ex : good 6 [T 1 0 1; T 0 1 2; T 0 0 1; T 3 (-1) 4; T 0 0 1; T 1 0 1] /\
  projection [T 1 0 1; T 0 1 2; T 0 0 1; T 3 (-1) 4; T 0 0 1; T 1 0 1] =
    Ok ([T 3 1 2; T 7 3 4; T 1 4 4], [T 0 1 2; T (-5) 6 4; T 1 1 4]).
Proof. exact E_C08_ex. Qed.

(** C09: lattice points (rational coordinates) are separated by projection3:
    the returned arrays are the same iff the coordinates are the same numbers. *)
Theorem C09_separates : forall u v, good 6 u -> good 6 v ->
  Forall (fun t => tb t = 0%Z) u -> Forall (fun t => tb t = 0%Z) v ->
  (projection3 u = projection3 v <-> vals TAU u = vals TAU v).
Proof. exact L_C09_separates. Qed.
Print Assumptions C09_separates.

(** ... but not general TAU-style vectors. *)
Theorem C09_general_refuted :
  exists u v p, good 6 u /\ good 6 v /\ vals TAU u <> vals TAU v /\
    projection3 u = Ok p /\ projection3 v = Ok p.
Proof. exact L_C09_general_refuted. Qed.
Print Assumptions C09_general_refuted.

Example C09_ex :
  let u := [T 1 0 2; T 0 0 1; T 0 0 1; T 3 0 1; T 0 0 1; T (-1) 0 1] in
  good 6 u /\ Forall (fun t => tb t = 0%Z) u /\ projection3 u = Ok [T 0 1 2; T (-1) 4 2; T 4 0 1].
Proof. exact E_C09_ex. Qed.

(** C10: projection_perp is the orthogonal projector onto perpendicular space.
    No parallel part, same perpendicular part: *)
Theorem C10_parts : forall v, good 6 v ->
  exists q, projection_perp v = Ok q /\ cgood 6 q /\
    par (vals TAU q) = [0;0;0] /\ perp (vals TAU q) = perp (vals TAU v) /\
    projection3 q = projection3 v.
Proof. exact L_C10_parts. Qed.
Print Assumptions C10_parts.

(** idempotent, as identical arrays *)
Theorem C10_idempotent : forall v q, good 6 v -> projection_perp v = Ok q -> projection_perp q = Ok q.
Proof. exact L_C10_idempotent. Qed.
Print Assumptions C10_idempotent.

(** linear *)
Theorem C10_linear : forall k l u v s qu qv qs, wf k -> wf l -> good 6 u -> good 6 v -> good 6 s ->
  vals TAU s = vadd (vscale (val TAU k) (vals TAU u)) (vscale (val TAU l) (vals TAU v)) ->
  projection_perp u = Ok qu -> projection_perp v = Ok qv -> projection_perp s = Ok qs ->
  vals TAU qs = vadd (vscale (val TAU k) (vals TAU qu)) (vscale (val TAU l) (vals TAU qv)).
Proof. exact L_C10_linear. Qed.
Print Assumptions C10_linear.

(** self-adjoint *)
Theorem C10_selfadjoint : forall u v qu qv, good 6 u -> good 6 v ->
  projection_perp u = Ok qu -> projection_perp v = Ok qv ->
  dot (vals TAU qu) (vals TAU v) = dot (vals TAU u) (vals TAU qv).
Proof. exact L_C10_selfadjoint. Qed.
Print Assumptions C10_selfadjoint.

(** fixes exactly the vectors without parallel part *)
Theorem C10_fixed_points : forall v, cgood 6 v ->
  (projection_perp v = Ok v <-> par (vals TAU v) = [0;0;0]).
Proof. exact L_C10_fixed_points. Qed.
Print Assumptions C10_fixed_points.

Example C10_ex :
  let v := [T 1 0 1; T 0 0 1; T 0 0 1; T 0 0 1; T 0 0 1; T 0 0 1] in
  let q := [T 1 0 2; T 1 (-2) 10; T 1 (-2) 10; T 1 (-2) 10; T 1 (-2) 10; T 1 (-2) 10] in
  good 6 v /\ projection_perp v = Ok q /\ projection_perp q = Ok q /\ projection q = Ok ([t0;t0;t0],[T 0 1 1; T (-1) 0 1; t0]).
Proof. exact E_C10_ex. Qed.
