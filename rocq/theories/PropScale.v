(* PropScale.v - C20 for every input: what ApplyInverseScale makes of ApplyScale's result *)
From Coq Require Import Reals Lra.
From Flocq Require Import Core.
From Verif Require Import BaseFacts ModelFloat ModelKey ModelGeom ModelPoint ProofFloat ProofScale ProofScale2.
Open Scope R_scope.

(* rounding error allowed: a few units in the last place of the numbers involved *)
Definition slack (s o v : R) : R := bpow radix2 (-50) * (Rabs v + Rabs (o / s) + Rabs o) + bpow radix2 (-1073) * (1 + / Rabs s).
(* the result of ApplyInverseScale(ApplyScale(v)) along each axis *)
Definition back (s o v : vec3) : vec3 := hdr_apply_inverse_scale s o (hdr_apply_scale s o v).
Definition on_axes (P : f64 -> f64 -> f64 -> f64 -> Prop) (s o v r : vec3) : Prop := P (vx s) (vx o) (vx v) (vx r) /\ P (vy s) (vy o) (vy v) (vy r) /\ P (vz s) (vz o) (vz v) (vz r).
Lemma on_axes_intro (P : f64 -> f64 -> f64 -> f64 -> Prop) : (forall s o v, P s o v (fsub (fdiv (fadd (fmul v s) o) s) o)) -> forall s o v, on_axes P s o v (back s o v).
Proof. intros H s o v. unfold on_axes, back. repeat split; apply H. Qed.
(* whenever no overflow spoils the result, it is v + offset/scale - offset up to rounding *)
Theorem C20_value : forall s o v, on_axes (fun s o v r => ffinite r = true ->
  Rabs (R64 r - (R64 v + R64 o / R64 s - R64 o)) <= slack (R64 s) (R64 o) (R64 v)) s o v (back s o v).
Proof. apply on_axes_intro. intros s o v F. exact (proj2 (proj2 (proj2 (proj2 (inverse_value s o v F))))). Qed.
Print Assumptions C20_value.
(* hence v itself when the offset is zero or the scale is one *)
Theorem C20_inverse : forall s o v, on_axes (fun s o v r => ffinite r = true -> R64 o = 0 \/ R64 s = 1 -> Rabs (R64 r - R64 v) <= slack (R64 s) (R64 o) (R64 v)) s o v (back s o v).
Proof.
  apply on_axes_intro. intros s o v F C. destruct (inverse_value s o v F) as (_ & _ & _ & N & B). unfold slack. set (r := R64 (fsub _ _)) in *. clearbody r. replace (r - R64 v) with (r - (R64 v + R64 o / R64 s - R64 o)); [exact B|].
  destruct C as [->| ->]; field. exact N.
Qed.
Print Assumptions C20_inverse.
(* and otherwise off by offset/scale - offset *)
Theorem C20_otherwise_off : forall s o v, on_axes (fun s o v r => ffinite r = true -> Rabs (R64 o * (1 - R64 s)) / Rabs (R64 s) - slack (R64 s) (R64 o) (R64 v) <= Rabs (R64 r - R64 v)) s o v (back s o v).
Proof.
  apply on_axes_intro. intros s o v F. destruct (inverse_value s o v F) as (_ & _ & _ & N & B). unfold slack. set (r := R64 (fsub _ _)) in *. clearbody r. set (t := bpow radix2 (-50) * _ + _) in *. clearbody t.
  assert (E : Rabs (R64 o * (1 - R64 s)) / Rabs (R64 s) = Rabs (R64 o / R64 s - R64 o)).
  { unfold Rdiv. rewrite <- Rabs_inv, <- Rabs_mult. f_equal. field. exact N. }
  rewrite E. set (d := R64 o / R64 s - R64 o) in *. replace (R64 v + R64 o / R64 s - R64 o) with (R64 v + d) in B by (unfold d; lra). clearbody d.
  pose proof (Rabs_triang (r - R64 v) (- (r - (R64 v + d)))) as T. replace (r - R64 v + - (r - (R64 v + d))) with d in T by lra. rewrite Rabs_Ropp in T. lra.
Qed.
Print Assumptions C20_otherwise_off.
(* a millimetre scale and an offset of 500000: the result is finite and 499.5 million off *)
Definition mm : vec3 := mkVec (f64_of_Z 1) (f64_lit 1 (-10)) (f64_lit 1 (-10)).
Example C20_general_nonvacuous : let o := mkVec (f64_of_Z 500000) f0 (f64_of_Z 500000) in let v := mkVec (f64_of_Z 12) (f64_of_Z 34) (f64_of_Z 56) in let r := back mm o v in
  ffinite (vx r) && ffinite (vy r) && ffinite (vz r) && feq (vx r) (vx v) && feq (vy r) (vy v) && fgt (vz r) (f64_of_Z 400000000) = true /\ R64 (vy o) = 0 /\ R64 (vx mm) = 1.
Proof. split; [vm_compute; reflexivity|]. split; [reflexivity|]. exact (proj1 (f64_of_Z_exact 1 ltac:(lia))). Qed.
