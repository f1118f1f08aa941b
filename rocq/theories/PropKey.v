(* PropKey.v - property theorems C01-C05 *)
From Verif Require Import BaseFacts ModelKey SpecKey ProofKey.

(* C01: Bisect and GetParent are inverse *)
Theorem C01_bisect_is_child : forall k dir, valid k -> children_fit k ->
  bisect k dir = Ok (mkKey (kd k + 1) (2 * kx k + bit dir 0) (2 * ky k + bit dir 1) (2 * kz k + bit dir 2)).
Proof. exact bisect_ok. Qed.
Print Assumptions C01_bisect_is_child.

Theorem C01_bisect_overflow_is_ub : forall k dir, valid k -> ~ children_fit k -> bisect k dir = UB.
Proof. exact bisect_ub. Qed.
Print Assumptions C01_bisect_overflow_is_ub.

Theorem C01_parent_of_bisect : forall k dir c, valid k -> bisect k dir = Ok c -> get_parent c = k.
Proof. exact bisect_parent. Qed.
Print Assumptions C01_parent_of_bisect.

Theorem C01_bisect_of_parent : forall c, int32_key c -> valid c -> 1 <= kd c ->
  exists dir, (0 <= dir <= 7 /\ bisect (get_parent c) dir = Ok c) /\
    forall dir', 0 <= dir' <= 7 -> bisect (get_parent c) dir' = Ok c -> dir' = dir.
Proof. exact unique_bisect. Qed.
Print Assumptions C01_bisect_of_parent.

Example C01_nonvacuous : let k := mkKey 4 3 7 11 in
  valid k /\ children_fit k /\ int32_key k /\ bisect k 5 = Ok (mkKey 5 7 14 23)
  /\ get_parent (mkKey 5 7 14 23) = k /\ bisect (mkKey 30 (2^30) 0 0) 0 = UB.
Proof. vm_compute. intuition congruence. Qed.

(* C02: GetChildren *)
Theorem C02_children_exact : forall k, int32_key k -> valid k -> children_fit k ->
  exists cs, get_children k = Ok cs /\ length cs = 8%nat /\ NoDup cs /\
    forall c, int32_key c -> valid c -> 1 <= kd c -> (In c cs <-> get_parent c = k).
Proof. exact get_children_exact. Qed.
Print Assumptions C02_children_exact.

Theorem C02_children_are_one_level_down : forall k cs c,
  int32_key k -> valid k -> get_children k = Ok cs -> In c cs ->
  int32_key c /\ valid c /\ kd c = kd k + 1 /\ get_parent c = k.
Proof. exact get_children_members. Qed.
Print Assumptions C02_children_are_one_level_down.

Example C02_nonvacuous : get_children (mkKey 1 1 0 1) =
  Ok [mkKey 2 2 0 2; mkKey 2 3 0 2; mkKey 2 2 1 2; mkKey 2 3 1 2;
      mkKey 2 2 0 3; mkKey 2 3 0 3; mkKey 2 2 1 3; mkKey 2 3 1 3].
Proof. reflexivity. Qed.

(* C03: GetParents *)
Theorem C03_parents_chain : forall include_self k, valid k ->
  get_parents include_self k =
  map (fun i => ancestor i k)
      (seq (if include_self then 0 else 1)%nat (Z.to_nat (kd k) + (if include_self then 1 else 0))%nat).
Proof. exact get_parents_spec. Qed.
Print Assumptions C03_parents_chain.

Theorem C03_parents_invalid : forall include_self k, ~ valid k -> get_parents include_self k = [].
Proof. exact get_parents_invalid. Qed.
Print Assumptions C03_parents_invalid.

Example C03_nonvacuous : valid (mkKey 3 5 6 7) /\
  get_parents false (mkKey 3 5 6 7) = [mkKey 2 2 3 3; mkKey 1 1 1 1; mkKey 0 0 0 0].
Proof. vm_compute. intuition congruence. Qed.

(* C04: ChildOf *)
Theorem C04_child_of_iff : forall k p, child_of k p = true <->
  valid k /\ valid p /\ kd p <= kd k /\
  kx p = kx k / 2 ^ (kd k - kd p) /\ ky p = ky k / 2 ^ (kd k - kd p) /\ kz p = kz k / 2 ^ (kd k - kd p).
Proof. exact child_of_iff. Qed.
Print Assumptions C04_child_of_iff.

Theorem C04_reflexive : forall k, valid k -> child_of k k = true.
Proof. exact child_of_refl. Qed.
Print Assumptions C04_reflexive.

Theorem C04_transitive : forall a b c, child_of a b = true -> child_of b c = true -> child_of a c = true.
Proof. exact child_of_trans. Qed.
Print Assumptions C04_transitive.

Theorem C04_antisymmetric : forall a b, child_of a b = true -> child_of b a = true -> a = b.
Proof. exact child_of_antisym. Qed.
Print Assumptions C04_antisymmetric.

Example C04_nonvacuous : child_of (mkKey 3 5 6 7) (mkKey 1 1 1 1) = true /\
  child_of (mkKey 1 1 1 1) (mkKey 0 0 0 0) = true /\ child_of (mkKey 3 5 6 7) (mkKey 1 0 1 1) = false.
Proof. vm_compute. intuition congruence. Qed.

(* C05: GetParentAtDepth.  Full statement (false, see C05_refuted):
   forall k depth, valid k -> 0 <= depth <= kd k ->
     get_parent_at_depth k depth = Ok (Nat.iter (Z.to_nat (kd k - depth)) get_parent k) *)
Theorem C05_partial : forall k depth, valid k -> 0 <= depth <= kd k -> kd k - depth < 31 ->
  get_parent_at_depth k depth = Ok (Nat.iter (Z.to_nat (kd k - depth)) get_parent k).
Proof.
  exact (fun k depth Hv Hd Hlt =>
    eq_trans (get_parent_at_depth_ok k depth Hv Hd Hlt)
      (f_equal Ok (eq_sym (iter_parent k Hv (Z.to_nat (kd k - depth)) ltac:(lia))))).
Qed.
Print Assumptions C05_partial.

Theorem C05_refuted : exists k depth, int32_key k /\ valid k /\ 0 <= depth <= kd k /\
  get_parent_at_depth k depth = UB.
Proof. exists (mkKey 31 5 5 5), 0. vm_compute. intuition congruence. Qed.
Print Assumptions C05_refuted.

(* the failing inputs are exactly those with a difference of 31 or more *)
Theorem C05_ub_region : forall k depth, valid k -> 0 <= depth <= kd k -> 31 <= kd k - depth ->
  get_parent_at_depth k depth = UB.
Proof. exact get_parent_at_depth_ub. Qed.
Print Assumptions C05_ub_region.

Theorem C05_bad_depth_throws : forall k depth, valid k -> depth < 0 \/ kd k < depth ->
  get_parent_at_depth k depth = Throw.
Proof. exact get_parent_at_depth_throw. Qed.
Print Assumptions C05_bad_depth_throws.

Theorem C05_invalid_key : forall k depth, ~ valid k -> get_parent_at_depth k depth = Ok invalid_key.
Proof. exact get_parent_at_depth_invalid. Qed.
Print Assumptions C05_invalid_key.

Example C05_nonvacuous : valid (mkKey 3 5 6 7) /\ get_parent_at_depth (mkKey 3 5 6 7) 1 = Ok (mkKey 1 1 1 1).
Proof. vm_compute. intuition congruence. Qed.
