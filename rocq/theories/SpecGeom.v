(* SpecGeom.v - boxes as sets of real points, and the exact octree subdivision *)
From Coq Require Import Reals.
From Flocq Require Import Core.
From Verif Require Import Base ModelFloat ModelKey ModelGeom ProofFloat SpecKey.
Open Scope R_scope.

(* value of a double as an extended real: infinities are +-2^1024, beyond every finite double *)
Definition ext (x : f64) : R := rank x.

(* a point of R^3 in the closed box *)
Definition mem (b : box) (x y z : R) : Prop :=
  ext (x_min b) <= x <= ext (x_max b) /\ ext (y_min b) <= y <= ext (y_max b) /\ ext (z_min b) <= z <= ext (z_max b).

(* a box without NaN bounds whose mins do not exceed its maxes *)
Definition no_nan (b : box) : Prop :=
  fnan (x_min b) = false /\ fnan (y_min b) = false /\ fnan (z_min b) = false /\
  fnan (x_max b) = false /\ fnan (y_max b) = false /\ fnan (z_max b) = false.
Definition ordered (b : box) : Prop :=
  no_nan b /\ ext (x_min b) <= ext (x_max b) /\ ext (y_min b) <= ext (y_max b) /\ ext (z_min b) <= ext (z_max b).

(* the cell x of 2^d equal cells of [m, m + s], exactly *)
Definition cell_lo (m s : R) (d x : Z) : R := m + s / bpow radix2 d * IZR x.
Definition cell_hi (m s : R) (d x : Z) : R := m + s / bpow radix2 d * IZR (x + 1).
Definition in_cell (k : key) (mx_ my_ mz_ s x y z : R) : Prop :=
  cell_lo mx_ s (kd k) (kx k) <= x <= cell_hi mx_ s (kd k) (kx k) /\
  cell_lo my_ s (kd k) (ky k) <= y <= cell_hi my_ s (kd k) (ky k) /\
  cell_lo mz_ s (kd k) (kz k) <= z <= cell_hi mz_ s (kd k) (kz k).

Definition no_nan_v (v : vec3) : Prop := fnan (vx v) = false /\ fnan (vy v) = false /\ fnan (vz v) = false.

(* header bounds of reasonable magnitude: finite, span non-negative, nothing beyond 2^900 *)
Definition sane_header (mn mx : vec3) : Prop :=
  ffinite (span mn mx) = true /\ 0 <= R64 (span mn mx) <= bpow radix2 900 /\
  (ffinite (vx mn) = true /\ Rabs (R64 (vx mn)) <= bpow radix2 900) /\
  (ffinite (vy mn) = true /\ Rabs (R64 (vy mn)) <= bpow radix2 900) /\
  (ffinite (vz mn) = true /\ Rabs (R64 (vz mn)) <= bpow radix2 900).

(* no rounding loss downwards in the header's span (it holds when max - min is exact per axis) *)
Definition axis_exact (mn mx : vec3) : Prop :=
  R64 (vx mx) - R64 (vx mn) <= R64 (span mn mx) /\ R64 (vy mx) - R64 (vy mn) <= R64 (span mn mx) /\
  R64 (vz mx) - R64 (vz mn) <= R64 (span mn mx).

Open Scope Z_scope.
