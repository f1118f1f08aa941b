(* SpecKey.v - what an octree key, its ancestors and its children are, independent of
   the code. *)
From Verif Require Import Base ModelKey.

(* the ancestor i levels up *)
Definition ancestor (i : nat) (k : key) : key :=
  mkKey (kd k - Z.of_nat i)
        (kx k / 2 ^ Z.of_nat i) (ky k / 2 ^ Z.of_nat i) (kz k / 2 ^ Z.of_nat i).

(* non-negative depth and coordinates *)
Definition valid (k : key) : Prop := 0 <= kd k /\ 0 <= kx k /\ 0 <= ky k /\ 0 <= kz k.

(* an int32 key *)
Definition int32_key (k : key) : Prop :=
  (-2^31 <= kd k < 2^31) /\ (-2^31 <= kx k < 2^31) /\ (-2^31 <= ky k < 2^31) /\ (-2^31 <= kz k < 2^31).

(* the eight children have int32 depth and coordinates *)
Definition children_fit (k : key) : Prop :=
  kd k < 2^31 - 1 /\ kx k < 2^30 /\ ky k < 2^30 /\ kz k < 2^30.

(* bit i of n as 0 or 1 *)
Definition bit (n i : Z) : Z := (n / 2 ^ i) mod 2.

(* the cell of the octree really exists: coordinates below 2^d *)
Definition in_octree (k : key) : Prop :=
  0 <= kd k /\ 0 <= kx k < 2 ^ kd k /\ 0 <= ky k < 2 ^ kd k /\ 0 <= kz k < 2 ^ kd k.
