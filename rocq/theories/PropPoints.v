(* PropPoints.v - property theorems C11-C13 *)
From Verif Require Import BaseFacts ModelFloat ModelKey ModelGeom ModelPoint SpecPoint ModelPoints SpecPoints
  ProofFloat ProofPoint ProofPoint2 ProofScale ProofPoints ProofPoints2 ProofPoints3.
From Coq Require Import Reals.
From Flocq Require Import Core IEEE754.BinarySingleNaN IEEE754.Binary.
Open Scope Z_scope.

(* ---- C11: Pack and Unpack of point lists ---- *)
Theorem C11_pack_size_and_order : forall h c s o b, Forall wf_point h -> uniform h c -> points_pack h c s o = Ok b ->
  Z.of_nat (length b) = Z.of_nat (length (c_pts c)) * c_reclen c /\
  forall i a, nth_error (c_pts c) i = Some a -> exists p, nth_error h a = Some p /\
    point_pack p s o = Ok (slice b (i * Z.to_nat (c_reclen c)) (Z.to_nat (c_reclen c))).
Proof. exact points_pack_spec. Qed.
Print Assumptions C11_pack_size_and_order.

Theorem C11_unpack_rejects_ragged_arrays : forall h data fmt eb s o,
  6 <= fmt <= 8 -> 0 <= eb -> las_base fmt + eb <= 65535 ->
  Z.of_nat (length data) mod (las_base fmt + eb) <> 0 -> points_unpack h data fmt eb s o = Throw.
Proof. exact points_unpack_bad_length. Qed.
Print Assumptions C11_unpack_rejects_ragged_arrays.

(* fresh point objects ps, in the order of the records; the i-th is the i-th record decoded *)
Theorem C11_unpack_in_order : forall h data fmt eb s o,
  wf_bytes data -> 6 <= fmt <= 8 -> 0 <= eb -> las_base fmt + eb <= 65535 ->
  Z.of_nat (length data) mod (las_base fmt + eb) = 0 ->
  Z.of_nat (length data) / (las_base fmt + eb) <= INT32_MAX ->
  exists ps, let n := Z.to_nat (Z.of_nat (length data) / (las_base fmt + eb)) in
    points_unpack h data fmt eb s o = Ok (h ++ ps, mkPoints fmt (las_base fmt + eb) (seq (length h) n)) /\
    length ps = n /\ Forall wf_point ps /\
    Forall (fun p => p_fmt p = fmt /\ p_reclen p = las_base fmt + eb) ps /\
    (forall i p, nth_error ps i = Some p ->
       point_unpack (skipn (i * Z.to_nat (las_base fmt + eb)) data) fmt s o eb
         = Ok (p, skipn (S i * Z.to_nat (las_base fmt + eb)) data)) /\
    (exact_region s o -> exists bs, mapM (fun p => point_pack p s o) ps = Ok bs /\ concat bs = data).
Proof. exact points_unpack_ok. Qed.
Print Assumptions C11_unpack_in_order.

Theorem C11_pack_of_unpack : forall h data fmt eb s o,
  wf_bytes data -> 6 <= fmt <= 8 -> 0 <= eb -> las_base fmt + eb <= 65535 ->
  Z.of_nat (length data) mod (las_base fmt + eb) = 0 ->
  Z.of_nat (length data) / (las_base fmt + eb) <= INT32_MAX -> exact_region s o ->
  exists h' c, points_unpack h data fmt eb s o = Ok (h', c) /\ points_pack h' c s o = Ok data.
Proof. exact pack_of_unpack. Qed.
Print Assumptions C11_pack_of_unpack.

Definition quarter : vec3 := mkVec (f64_lit 1 (-2)) (f64_lit 1 (-2)) (f64_lit 1 (-2)).
Definition thousand : vec3 := mkVec (f64_of_Z 1000) (f64_of_Z 1000) (f64_of_Z 1000).
Example C11_region_nonvacuous : exact_region quarter thousand.
Proof.
  assert (H : exact_axis (f64_lit 1 (-2)) (f64_of_Z 1000)).
  { destruct (fpow2_exact (-2)) as (E1 & F1); [lia|]. destruct (f64_of_Z_exact 1000) as (E2 & F2); [lia|].
    unfold fpow2 in *. unfold exact_axis. rewrite E1, E2.
    rewrite (Rabs_pos_eq (bpow radix2 (-2))) by apply bpow_ge_0.
    split; [exact F1|]. split; [exact F2|]. split; [apply bpow_le; lia|]. split; [apply bpow_le; lia|].
    rewrite Rabs_pos_eq by (apply IZR_le; lia).
    change (bpow radix2 (-2)) with (/ 4)%R. change (2 ^ 51)%Z with 2251799813685248%Z. Lra.lra. }
  split; [exact H|split; exact H].
Qed.
Example C11_nonvacuous : let data := concat (repeat (map Z.of_nat (seq 1 33)) 3) in
  exists h c, points_unpack [] data 6 3 quarter thousand = Ok (h, c) /\ length (c_pts c) = 3%nat /\
    points_pack h c quarter thousand = Ok data /\
    points_unpack [] (0 :: data) 6 3 quarter thousand = Throw.
Proof.
  cbv zeta. destruct (pack_of_unpack [] (concat (repeat (map Z.of_nat (seq 1 33)) 3)) 6 3 quarter thousand)
    as (h & c & E & P); try lia.
  - change (wf_bytes (concat (repeat (map Z.of_nat (seq 1 33)) 3))). apply Forall_concat.
    apply Forall_forall. intros l Hl. apply repeat_spec in Hl. subst l. apply Forall_forall. intros x Hx.
    apply in_map_iff in Hx. destruct Hx as (n & <- & Hn). apply in_seq in Hn. lia.
  - unfold las_base. cbn. lia.
  - vm_compute. reflexivity.
  - vm_compute. discriminate.
  - apply C11_region_nonvacuous.
  - exists h, c. split; auto. split; [|split; [auto|apply points_unpack_bad_length; try lia; [unfold las_base; cbn; lia|vm_compute; discriminate]]].
    destruct (points_unpack_ok [] (concat (repeat (map Z.of_nat (seq 1 33)) 3)) 6 3 quarter thousand) as (ps & E' & L & _); try lia.
    + apply Forall_concat. apply Forall_forall. intros l Hl. apply repeat_spec in Hl. subst l. apply Forall_forall. intros x Hx.
      apply in_map_iff in Hx. destruct Hx as (n & <- & Hn). apply in_seq in Hn. lia.
    + unfold las_base. cbn. lia.
    + vm_compute. reflexivity.
    + vm_compute. discriminate.
    + rewrite E in E'. injection E' as _ ->. vm_compute. reflexivity.
Qed.

(* ---- C12: containers are uniform ---- *)
Theorem C12_containers_stay_uniform : forall s, preach s ->
  Forall wf_point (st_heap s) /\
  forall c, In c (st_conts s) -> 6 <= c_fmt c <= 8 /\ uniform (st_heap s) c.
Proof.
  intros s R. apply preach_inv in R. destruct R as (W & C). split; auto. intros c Hc.
  rewrite Forall_forall in C. destruct (C c Hc). auto.
Qed.
Print Assumptions C12_containers_stay_uniform.

Theorem C12_mismatching_point_rejected : forall h c a p, nth_error h a = Some p ->
  ~ (p_fmt p = c_fmt c /\ p_reclen p = c_reclen c) ->
  add_point h c a = Throw /\ forall l l' c', add_points_vec h c (l ++ a :: l') <> Ok c'.
Proof. exact mismatch_rejected. Qed.
Print Assumptions C12_mismatching_point_rejected.

(* false of the code once two containers share a point and one converts its format *)
Definition alias_ops : list pop :=
  [PNewPoint 7 0; PNew 7 0; PNew 7 0; PAdd 0 0; PAdd 1 0; PFormat 0 6].
Definition prun (ops : list pop) : outcome pstate :=
  fold_left (fun s o => let! x := s in pstep o x) ops (Ok (mkPS [] [])).
Theorem C12_aliasing_refuted : exists s c, prun alias_ops = Ok s /\ In c (st_conts s) /\
  c_fmt c = 7 /\ In 0%nat (c_pts c) /\ exists p, nth_error (st_heap s) 0 = Some p /\ p_fmt p = 6.
Proof.
  do 2 eexists. split; [reflexivity|]. split; [right; left; reflexivity|]. split; [reflexivity|].
  split; [left; reflexivity|]. eexists. split; reflexivity.
Qed.
Print Assumptions C12_aliasing_refuted.

(* also false when the record length passes 65535: the container's own copy wraps *)
Theorem C12_long_records_refuted : forall p, new_point 6 65500 = Ok p ->
  exists h c, points_to_format 8 [p] (mkPoints 6 65530 [0%nat]) = Ok (h, c) /\ uniform [p] (mkPoints 6 65530 [0%nat]) /\
  ~ uniform h c.
Proof. exact long_records_break. Qed.
Print Assumptions C12_long_records_refuted.

Example C12_nonvacuous : exists s, preach s /\ exists c, In c (st_conts s) /\ c_fmt c = 8 /\ length (c_pts c) = 2%nat.
Proof.
  pose proof preach_init as R.
  apply (preach_ok _ (PNewPoint 7 2) _) with (4 := eq_refl) in R; [|cbn; lia|exact I].
  apply (preach_ok _ (PNew 7 2) _) with (4 := eq_refl) in R; [|cbn; lia|exact I].
  apply (preach_ok _ (PAdd 0 0) _) with (4 := eq_refl) in R; [|exact I|exact I].
  apply (preach_ok _ (PCreate 0) _) with (4 := eq_refl) in R; [|exact I|exact I].
  apply (preach_ok _ (PAddVec 0 [1%nat]) _) with (4 := eq_refl) in R; [|exact I|exact I].
  apply (preach_ok _ (PFormat 0 8) _) with (4 := eq_refl) in R; [|exact I|].
  - eexists. split; [exact R|]. eexists. split; [left; reflexivity|]. split; reflexivity.
  - split.
    + intros j (N & c & d & a & _ & Hd & _). cbn in Hd. destruct j as [|[|j]]; try discriminate. congruence.
    + cbn. intros c Hc _. injection Hc as <-. vm_compute. discriminate.
Qed.

(* ---- C13: array accessors ---- *)
Theorem C13_coordinate_arrays : forall d h c vs, uniform h c -> NoDup (c_pts c) -> length vs = length (c_pts c) ->
  exists h', array_set_f d vs h c = Ok h' /\ array_get_f d h' c = Ok vs /\ length h' = length h /\
    (forall a, ~ In a (c_pts c) -> nth_error h' a = nth_error h a) /\
    (forall i a v, nth_error (c_pts c) i = Some a -> nth_error vs i = Some v ->
       exists p, nth_error h a = Some p /\ nth_error h' a = Some (fdim_set d v p)).
Proof. exact array_f_spec. Qed.
Print Assumptions C13_coordinate_arrays.

Theorem C13_integer_arrays : forall d h c vs,
  Forall wf_point h -> uniform h c -> NoDup (c_pts c) -> length vs = length (c_pts c) ->
  Forall (zdim_arg d) vs -> (colour d = true -> c_fmt c <> 6) ->
  exists h', array_set_z d vs h c = Ok h' /\ array_get_z d h' c = Ok vs /\ length h' = length h /\
    (forall a, ~ In a (c_pts c) -> nth_error h' a = nth_error h a) /\
    (forall i a v, nth_error (c_pts c) i = Some a -> nth_error vs i = Some v ->
       exists p q, nth_error h a = Some p /\ zdim_set d v p = Ok q /\ nth_error h' a = Some q).
Proof. exact array_z_spec. Qed.
Print Assumptions C13_integer_arrays.

(* wrong lengths throw before the loop; colours on a colourless container throw at the very
   first element: in both cases nothing was changed *)
Theorem C13_wrong_length_throws : forall d e h c vs ws,
  (length vs <> length (c_pts c) -> array_set_f d vs h c = Throw) /\
  (length ws <> length (c_pts c) -> array_set_z e ws h c = Throw).
Proof. intros. split; apply array_set_wrong_length. Qed.
Print Assumptions C13_wrong_length_throws.

Theorem C13_colour_on_colourless_throws_first : forall d h c vs a l,
  Forall wf_point h -> uniform h c -> c_pts c = a :: l ->
  length vs = length (c_pts c) -> colour d = true -> c_fmt c = 6 ->
  exists p v vs', vs = v :: vs' /\ nth_error h a = Some p /\ zdim_set d v p = Throw /\ array_set_z d vs h c = Throw.
Proof. exact array_colour_throws. Qed.
Print Assumptions C13_colour_on_colourless_throws_first.

(* source ids above 255 are truncated by the array getter *)
Theorem C13_source_id_refuted : exists p, wf_point p /\ p_src p = 300 /\
  array_get_z DSrc [p] (mkPoints 6 30 [0%nat]) = Ok [44].
Proof. exact src_truncated. Qed.
Print Assumptions C13_source_id_refuted.

(* an object that occurs twice in the container keeps only its last value *)
Theorem C13_duplicates_refuted : forall p, exists h', array_set_z DClass [3; 4] [p] (mkPoints 6 30 [0%nat; 0%nat]) = Ok h' /\
  array_get_z DClass h' (mkPoints 6 30 [0%nat; 0%nat]) = Ok [4; 4].
Proof. intros p. eexists. split; reflexivity. Qed.
Print Assumptions C13_duplicates_refuted.
