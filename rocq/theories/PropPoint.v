(* PropPoint.v - property theorems C06-C10, C14-C16, C20, C62 *)
From Coq Require Import Reals.
From Flocq Require Import Core IEEE754.BinarySingleNaN IEEE754.Binary.
From Verif Require Import BaseFacts ModelFloat ModelKey ModelGeom ModelEntry ModelPoint SpecPoint
  ProofFloat ProofPoint ProofPoint2 ProofScale.
Open Scope Z_scope.

(* ---- C06: hierarchy entries survive serialisation ---- *)
Theorem C06_entry_is_32_bytes : forall e, length (entry_pack e) = 32%nat.
Proof. exact entry_pack_length. Qed.
Print Assumptions C06_entry_is_32_bytes.

Theorem C06_entry_roundtrip : forall e rest, wf_entry e = true ->
  entry_unpack (entry_pack e ++ rest) = Some (e, rest).
Proof. exact entry_roundtrip. Qed.
Print Assumptions C06_entry_roundtrip.

(* the on-disk layout of the COPC specification: four int32 key components, uint64
   offset, int32 size, int32 count *)
Theorem C06_entry_layout : forall e, let b := entry_pack e in
  slice b 0 4 = le_enc 4 (kd (e_key e)) /\ slice b 4 4 = le_enc 4 (kx (e_key e)) /\
  slice b 8 4 = le_enc 4 (ky (e_key e)) /\ slice b 12 4 = le_enc 4 (kz (e_key e)) /\
  slice b 16 8 = le_enc 8 (e_offset e) /\ slice b 24 4 = le_enc 4 (e_size e) /\
  slice b 28 4 = le_enc 4 (e_count e).
Proof. intros e. repeat split. Qed.
Print Assumptions C06_entry_layout.

Example C06_nonvacuous : let e := mkEntry (mkKey 3 1 2 3) 18446744073709551615 2147483647 (-1) in
  wf_entry e = true /\ entry_is_page e = true /\
  entry_unpack (entry_pack e ++ [7; 7]) = Some (e, [7; 7]).
Proof. vm_compute. auto. Qed.

(* ---- C07: point bit fields ---- *)
Theorem C07_bit_fields_independent : forall f v p,
  0 <= p_returns p < 256 -> 0 <= p_flags p < 256 -> acc_arg f v -> v <= acc_max f ->
  exists p', acc_set f v p = Ok p' /\ acc_get f p' = v /\
    (forall g, g <> f -> acc_get g p' = acc_get g p) /\
    with_returns 0 (with_flags 0 p') = with_returns 0 (with_flags 0 p) /\
    0 <= p_returns p' < 256 /\ 0 <= p_flags p' < 256.
Proof. exact acc_set_spec. Qed.
Print Assumptions C07_bit_fields_independent.

Theorem C07_out_of_range_throws : forall f v p, acc_arg f v -> acc_max f < v -> acc_set f v p = Throw.
Proof. exact acc_set_throw. Qed.
Print Assumptions C07_out_of_range_throws.

Definition ex_point : point :=
  mkPoint 8 40 (f64_of_Z 10) (f64_of_Z (-20)) (f64_of_Z 30) 65535 0xA3 0x5C 9 (-15000) 17 65000
    (f64_lit 3 (-1)) 1 2 3 4 true true [200; 255].
Example C07_nonvacuous : wf_point ex_point /\ acc_get ScannerChannel ex_point = 1 /\
  acc_arg ScannerChannel 2 /\ (exists p', acc_set ScannerChannel 2 ex_point = Ok p' /\ acc_get ScannerChannel p' = 2
  /\ acc_get ScanDirectionFlag p' = 1) /\ acc_set ScannerChannel 4 ex_point = Throw.
Proof.
  split; [|split; [reflexivity|split; [cbn; lia|split; [|reflexivity]]]].
  - unfold wf_point, ex_point. cbn. repeat split; try lia. repeat constructor; lia.
  - eexists. split; [reflexivity|split; reflexivity].
Qed.

(* ---- C08: packed records ---- *)
Theorem C08_every_reachable_point_is_well_formed : forall fmt eb p ops,
  0 <= eb <= 65535 -> new_point fmt eb = Ok p -> Forall op_wf ops -> wf_point (point_run ops p).
Proof. intros. apply point_run_wf; auto. eapply new_point_wf; eauto. Qed.
Print Assumptions C08_every_reachable_point_is_well_formed.

Theorem C08_record_length : forall p scale offset b,
  wf_point p -> point_pack p scale offset = Ok b -> Z.of_nat (length b) = p_reclen p.
Proof. exact pack_length. Qed.
Print Assumptions C08_record_length.

Theorem C08_layout : forall p s o b, wf_point p -> point_pack p s o = Ok b ->
  exists x y z,
    remove_scale_i32 (p_x p) (vx s) (vx o) = Ok x /\ remove_scale_i32 (p_y p) (vy s) (vy o) = Ok y /\
    remove_scale_i32 (p_z p) (vz s) (vz o) = Ok z /\
    slice b 0 4 = le_enc 4 x /\ slice b 4 4 = le_enc 4 y /\ slice b 8 4 = le_enc 4 z /\
    slice b 12 2 = le_enc 2 (p_intensity p) /\ slice b 14 1 = le_enc 1 (p_returns p) /\
    slice b 15 1 = le_enc 1 (p_flags p) /\ slice b 16 1 = le_enc 1 (p_class p) /\
    slice b 17 1 = le_enc 1 (p_user p) /\ slice b 18 2 = le_enc 2 (p_angle p) /\
    slice b 20 2 = le_enc 2 (p_src p) /\ slice b 22 8 = le_enc 8 (f64_bits (p_gps p)) /\
    (p_fmt p <> 6 -> slice b 30 2 = le_enc 2 (p_red p) /\ slice b 32 2 = le_enc 2 (p_green p) /\
                     slice b 34 2 = le_enc 2 (p_blue p)) /\
    (p_fmt p = 8 -> slice b 36 2 = le_enc 2 (p_nir p)) /\
    slice b (Z.to_nat (las_base (p_fmt p))) (length (p_eb p)) = p_eb p.
Proof. exact pack_layout. Qed.
Print Assumptions C08_layout.

Theorem C08_unpack_of_pack : forall p s o b rest, wf_point p -> point_pack p s o = Ok b ->
  exists x y z q,
    remove_scale_i32 (p_x p) (vx s) (vx o) = Ok x /\ remove_scale_i32 (p_y p) (vy s) (vy o) = Ok y /\
    remove_scale_i32 (p_z p) (vz s) (vz o) = Ok z /\
    point_unpack (b ++ rest) (p_fmt p) s o (Z.of_nat (length (p_eb p))) = Ok (q, rest) /\
    same_attributes p q /\
    p_x q = apply_scale_i x (vx s) (vx o) /\ p_y q = apply_scale_i y (vy s) (vy o) /\
    p_z q = apply_scale_i z (vz s) (vz o).
Proof. exact unpack_pack. Qed.
Print Assumptions C08_unpack_of_pack.

Definition ex_scale : vec3 := let c := f64_lit 5764607523034235 (-59) (* 0.01 *) in mkVec c c c.
Definition ex_offset : vec3 := mkVec (f64_of_Z 500000) (f64_of_Z (-4100000)) (f64_of_Z 12).
Example C08_nonvacuous : exists b, point_pack ex_point ex_scale ex_offset = Ok b /\ length b = 40%nat.
Proof. eexists. split; [vm_compute; reflexivity|reflexivity]. Qed.

(* ---- C09: re-packing an unpacked coordinate ---- *)
Theorem C09_repack_gives_the_stored_integer : forall n s o,
  -2147483648 <= n <= 2147483647 ->
  ffinite s = true -> ffinite o = true ->
  (bpow radix2 (-900) <= Rabs (R64 s))%R -> (Rabs (R64 s) <= bpow radix2 900)%R ->
  (Rabs (R64 o) <= IZR (2 ^ 51) * Rabs (R64 s))%R ->
  remove_scale_i32 (apply_scale_i n s o) s o = Ok n.
Proof. exact repack_exact. Qed.
Print Assumptions C09_repack_gives_the_stored_integer.

(* outside the region it fails: scale 1, offset 2^54 *)
Theorem C09_outside_the_region_it_can_fail :
  remove_scale_i32 (apply_scale_i 1 f1 (f64_of_Z (2 ^ 54))) f1 (f64_of_Z (2 ^ 54)) = Ok 0.
Proof. vm_compute. reflexivity. Qed.
Print Assumptions C09_outside_the_region_it_can_fail.

Example C09_nonvacuous :
  remove_scale_i32 (apply_scale_i (-2147483648) (vx ex_scale) (vx ex_offset)) (vx ex_scale) (vx ex_offset)
  = Ok (-2147483648).
Proof. vm_compute. reflexivity. Qed.

(* ---- C10: range check ---- *)
Theorem C10_finite_quotient : forall v s o, let q := fdiv (fsub v o) s in ffinite q = true ->
  remove_scale_i32 v s o =
    (if in_range INT32_MIN INT32_MAX (ZnearestA (R64 q)) then Ok (ZnearestA (R64 q)) else Throw).
Proof. exact remove_scale_finite. Qed.
Print Assumptions C10_finite_quotient.

Theorem C10_infinite_quotient_throws : forall v s o, let q := fdiv (fsub v o) s in
  fnan q = false -> ffinite q = false -> remove_scale_i32 v s o = Throw.
Proof. exact remove_scale_inf. Qed.
Print Assumptions C10_infinite_quotient_throws.

(* whole-point consequence: Pack never stores a coordinate outside int32, and it throws
   exactly when one of the quotients is out of range (no quotient being NaN) *)
Theorem C10_pack_succeeds_iff_in_range : forall p s o,
  let ok v sc of := in_range INT32_MIN INT32_MAX (ZnearestA (R64 (fdiv (fsub v of) sc))) = true /\
                    ffinite (fdiv (fsub v of) sc) = true in
  fnan (fdiv (fsub (p_x p) (vx o)) (vx s)) = false ->
  fnan (fdiv (fsub (p_y p) (vy o)) (vy s)) = false ->
  fnan (fdiv (fsub (p_z p) (vz o)) (vz s)) = false ->
  (exists b, point_pack p s o = Ok b) /\
    ok (p_x p) (vx s) (vx o) /\ ok (p_y p) (vy s) (vy o) /\ ok (p_z p) (vz s) (vz o)
  \/ point_pack p s o = Throw /\
    ~ (ok (p_x p) (vx s) (vx o) /\ ok (p_y p) (vy s) (vy o) /\ ok (p_z p) (vz s) (vz o)).
Proof. exact pack_iff_in_range. Qed.
Print Assumptions C10_pack_succeeds_iff_in_range.

(* the code does not reject NaN: undefined behaviour *)
Theorem C10_nan_is_not_rejected_refuted : forall v s o, let q := fdiv (fsub v o) s in
  fnan q = true -> remove_scale_i32 v s o = UB.
Proof. exact remove_scale_nan. Qed.
Print Assumptions C10_nan_is_not_rejected_refuted.

Example C10_nonvacuous :
  let z := f0 in fnan (fdiv (fsub z z) z) = true /\
  remove_scale_i32 (f64_of_Z 2147483648) f1 f0 = Throw /\
  remove_scale_i32 (f64_lit 4294967295 (-1)) f1 f0 = Throw /\    (* 2147483647.5 *)
  remove_scale_i32 (f64_lit 4294967293 (-1)) f1 f0 = Ok 2147483647.    (* 2147483646.5 *)
Proof. vm_compute. auto. Qed.

(* ---- C14: ToPointFormat ---- *)
Theorem C14_to_point_format : forall fmt p, wf_point p -> 6 <= fmt <= 8 ->
  exists q, to_point_format fmt p = Ok q /\ wf_point q /\
    p_fmt q = fmt /\ p_reclen q = las_base fmt + Z.of_nat (length (p_eb p)) /\
    p_x q = p_x p /\ p_y q = p_y p /\ p_z q = p_z p /\ p_intensity q = p_intensity p /\
    p_returns q = p_returns p /\ p_flags q = p_flags p /\ p_class q = p_class p /\ p_angle q = p_angle p /\
    p_user q = p_user p /\ p_src q = p_src p /\ p_gps q = p_gps p /\ p_eb q = p_eb p /\
    (get_red q = if 7 <=? fmt then Ok (p_red p) else Throw) /\
    (get_green q = if 7 <=? fmt then Ok (p_green p) else Throw) /\
    (get_blue q = if 7 <=? fmt then Ok (p_blue p) else Throw) /\
    (get_nir q = if fmt =? 8 then Ok (p_nir p) else Throw) /\
    to_point_format (p_fmt p) q = Ok p.
Proof. exact to_point_format_spec. Qed.
Print Assumptions C14_to_point_format.

Theorem C14_other_formats_throw : forall fmt p, ~ (6 <= fmt <= 8) -> to_point_format fmt p = Throw.
Proof. exact to_point_format_throw. Qed.
Print Assumptions C14_other_formats_throw.

Example C14_nonvacuous : exists q, to_point_format 6 ex_point = Ok q /\ get_red q = Throw /\ p_reclen q = 32 /\
  to_point_format 8 q = Ok ex_point.
Proof. eexists. split; [reflexivity|]. split; [reflexivity|]. split; reflexivity. Qed.

(* ---- C15: operator== ---- *)
Theorem C15_equality_symmetric : forall a b, wf_point a -> wf_point b -> point_eqb a b = point_eqb b a.
Proof. intros. rewrite !point_eqb_ok by assumption. now rewrite point_eq_spec_sym. Qed.
Print Assumptions C15_equality_symmetric.

Theorem C15_equality_reflexive : forall a, wf_point a ->
  ffinite (p_x a) = true -> ffinite (p_y a) = true -> ffinite (p_z a) = true -> fnan (p_gps a) = false ->
  point_eqb a a = Ok true.
Proof. intros. rewrite point_eqb_ok by assumption. f_equal. now apply point_eq_spec_refl. Qed.
Print Assumptions C15_equality_reflexive.

Theorem C15_equal_points_agree : forall a b, wf_point a -> wf_point b -> point_eqb a b = Ok true ->
  p_fmt a = p_fmt b /\ p_reclen a = p_reclen b /\ p_intensity a = p_intensity b /\ p_returns a = p_returns b /\
  p_flags a = p_flags b /\ p_class a = p_class b /\ p_angle a = p_angle b /\ p_user a = p_user b /\
  p_src a = p_src b /\ p_eb a = p_eb b /\ feq (p_gps a) (p_gps b) = true /\
  (7 <= p_fmt a -> p_red a = p_red b /\ p_green a = p_green b /\ p_blue a = p_blue b) /\
  (p_fmt a = 8 -> p_nir a = p_nir b) /\
  are_close (p_x a) (p_x b) eps_1em6 = true /\ are_close (p_y a) (p_y b) eps_1em6 = true /\
  are_close (p_z a) (p_z b) eps_1em6 = true.
Proof. exact point_eqb_fields. Qed.
Print Assumptions C15_equal_points_agree.

Definition ex_px (x : f64) : point := with_x x ex_point.
(* equality is not transitive: x = 0, 0.75e-6, 1.5e-6 *)
Theorem C15_not_transitive_refuted :
  let a := ex_px f0 in let b := ex_px (f64_lit 3 (-22)) in let c := ex_px (f64_lit 6 (-22)) in
  wf_point a /\ wf_point b /\ wf_point c /\
  point_eqb a b = Ok true /\ point_eqb b c = Ok true /\ point_eqb a c = Ok false.
Proof.
  cbv zeta. pose proof (proj1 C07_nonvacuous) as W.
  repeat split; try apply W; vm_compute; reflexivity.
Qed.
Print Assumptions C15_not_transitive_refuted.

(* ---- C16: scan angle in degrees ---- *)
Theorem C16_angle_within_one_unit : forall a, -32768 <= a <= 32767 ->
  exists z, angle_of_degrees (scan_angle_degrees a) = Ok z /\ Z.abs (z - a) <= 1 /\ -32768 <= z <= 32767.
Proof. exact angle_near. Qed.
Print Assumptions C16_angle_within_one_unit.

Theorem C16_exact_refuted : exists a, -32768 <= a <= 32767 /\
  angle_of_degrees (scan_angle_degrees a) = Ok (a - 1).
Proof. exact angle_loses_one. Qed.
Print Assumptions C16_exact_refuted.

(* ---- C20: ApplyInverseScale ---- *)
Definition inverse_x (s o v : vec3) := vx (hdr_apply_inverse_scale s o (hdr_apply_scale s o v)).
Definition inverse_y (s o v : vec3) := vy (hdr_apply_inverse_scale s o (hdr_apply_scale s o v)).
Definition inverse_z (s o v : vec3) := vz (hdr_apply_inverse_scale s o (hdr_apply_scale s o v)).

Theorem C20_zero_offset_in_range : forall s o v,
  let dim vs vo vv r :=
    ffinite vs = true -> ffinite vv = true -> ffinite vo = true -> R64 vo = 0%R ->
    (bpow radix2 (-100) <= Rabs (R64 vs) <= bpow radix2 100)%R ->
    (bpow radix2 (-900) <= Rabs (R64 vv) <= bpow radix2 900)%R ->
    ffinite r = true /\ (Rabs (R64 r - R64 vv) <= bpow radix2 (-51) * Rabs (R64 vv))%R in
  dim (vx s) (vx o) (vx v) (inverse_x s o v) /\ dim (vy s) (vy o) (vy v) (inverse_y s o v) /\
  dim (vz s) (vz o) (vz v) (inverse_z s o v).
Proof. intros s o v. cbv zeta. repeat apply conj; intros; now apply inverse_zero_offset. Qed.
Print Assumptions C20_zero_offset_in_range.

Theorem C20_unit_scale_in_range : forall s o v,
  let dim vs vo vv r :=
    vs = f1 -> ffinite vv = true -> ffinite vo = true ->
    (Rabs (R64 vv) <= bpow radix2 1000)%R -> (Rabs (R64 vo) <= bpow radix2 1000)%R ->
    ffinite r = true /\
    (Rabs (R64 r - R64 vv) <= bpow radix2 (-51) * (Rabs (R64 vv) + Rabs (R64 vo)) + bpow radix2 (-1073))%R in
  dim (vx s) (vx o) (vx v) (inverse_x s o v) /\ dim (vy s) (vy o) (vy v) (inverse_y s o v) /\
  dim (vz s) (vz o) (vz v) (inverse_z s o v).
Proof.
  intros s o v. cbv zeta.
  repeat apply conj; intros E; intros; unfold inverse_x, inverse_y, inverse_z, hdr_apply_inverse_scale,
    hdr_apply_scale, vsub, vdiv, vadd, vmul, vmap2; cbn [vx vy vz]; rewrite E; now apply inverse_unit_scale.
Qed.
Print Assumptions C20_unit_scale_in_range.

(* scale 1/4, offset 100, v = 8: ApplyScale gives 102, ApplyInverseScale gives 308 *)
Theorem C20_inverse_refuted :
  let s := mkVec (f64_lit 1 (-2)) (f64_lit 1 (-2)) (f64_lit 1 (-2)) in
  let o := mkVec (f64_of_Z 100) (f64_of_Z 100) (f64_of_Z 100) in
  let v := mkVec (f64_of_Z 8) (f64_of_Z 8) (f64_of_Z 8) in
  vec3_eqb (hdr_apply_scale s o v) (mkVec (f64_of_Z 102) (f64_of_Z 102) (f64_of_Z 102)) = true /\
  vec3_eqb (hdr_apply_inverse_scale s o (hdr_apply_scale s o v))
    (mkVec (f64_of_Z 308) (f64_of_Z 308) (f64_of_Z 308)) = true.
Proof. vm_compute. auto. Qed.
Print Assumptions C20_inverse_refuted.

(* ---- C62: the header's RemoveScaleX/Y/Z against Pack's conversion ---- *)
Theorem C62_header_remove_scale : forall v s o,
  hdr_remove_scale v s o = match remove_scale_i32 v s o with Ok z => Ok z | _ => UB end.
Proof. exact hdr_remove_scale_spec. Qed.
Print Assumptions C62_header_remove_scale.

Theorem C62_out_of_range_is_not_rejected_refuted :
  remove_scale_i32 (f64_of_Z 2147483648) f1 f0 = Throw /\ hdr_remove_scale (f64_of_Z 2147483648) f1 f0 = UB.
Proof. vm_compute. auto. Qed.
Print Assumptions C62_out_of_range_is_not_rejected_refuted.
