(* PropEq.v - C70, C73: comparison operators and list constructors; the resolution of a key *)
From Coq Require Import Reals Lra.
From Flocq Require Import Core.
From Verif Require Import Base BaseFacts ModelFloat ModelKey ModelGeom ModelEntry ModelPoint ModelPoints ModelHeader ModelVlr ModelExtents ModelConfig ModelStream ModelWriter ModelReader ModelEq
  SpecKey SpecPoint SpecGeom SpecHier SpecReader SpecData ProofKey ProofFloat ProofGeom ProofReader6 ProofOpen SampleWriter SampleReader PropReader.
Open Scope Z_scope.

(* ---- C70 ---- *)
Theorem C70_key_equality : forall a b, key_eqb a b = true <-> a = b.
Proof. exact key_eqb_eq. Qed.
Print Assumptions C70_key_equality.
Theorem C70_equal_keys_equal_hashes : forall h a b, key_eqb a b = true -> key_hash h a = key_hash h b.
Proof. intros h a b E. apply key_eqb_eq in E. now subst. Qed.
Print Assumptions C70_equal_keys_equal_hashes.
(* nodes are equal when key, offset, size and count are; the page does not matter *)
Theorem C70_node_equality : forall a b, node_eqb a b = true <->
  e_key (n_entry a) = e_key (n_entry b) /\ e_offset (n_entry a) = e_offset (n_entry b) /\ e_size (n_entry a) = e_size (n_entry b) /\ e_count (n_entry a) = e_count (n_entry b).
Proof. intros a b. unfold node_eqb, entry_eqb. rewrite !andb_true_iff, !Z.eqb_eq, key_eqb_eq. tauto. Qed.
Print Assumptions C70_node_equality.
(* doubles compare by value; NaN equals nothing *)
Definition same_number (x y : f64) : Prop := fnan x = false /\ fnan y = false /\ ext x = ext y.
Theorem C70_vector_equality : forall a b, vec3_eqb a b = true <-> same_number (vx a) (vx b) /\ same_number (vy a) (vy b) /\ same_number (vz a) (vz b).
Proof. intros a b. unfold vec3_eqb, same_number, ext. rewrite !andb_true_iff, !feq_iff. tauto. Qed.
Print Assumptions C70_vector_equality.
Theorem C70_extent_equality : forall a b, extent_eqb a b = true <->
  same_number (ex_min a) (ex_min b) /\ same_number (ex_max a) (ex_max b) /\ same_number (ex_mean a) (ex_mean b) /\ same_number (ex_var a) (ex_var b).
Proof. intros a b. unfold extent_eqb, same_number, ext. rewrite !andb_true_iff, !feq_iff. tauto. Qed.
Print Assumptions C70_extent_equality.
Lemma list_eqb_eq : forall a b, list_eqb a b = true <-> a = b.
Proof.
  induction a as [|x a IH]; intros [|y b]; cbn [list_eqb]; try (split; [discriminate|intros Q; discriminate Q]); [tauto|]. rewrite andb_true_iff, Z.eqb_eq, IH. split; [intros [-> ->]; reflexivity|intros Q; injection Q as -> ->; auto].
Qed.
(* extra byte fields: equal fields compare equal ... *)
Theorem C70_extra_byte_fields : forall a, ebfield_eqb a a = true /\
  forall b, ebfield_eqb a b = true -> eb_res a = eb_res b /\ eb_type a = eb_type b /\ eb_options a = eb_options b /\ eb_name a = eb_name b /\ eb_desc a = eb_desc b.
Proof.
  intros a. unfold ebfield_eqb, memcmp_eq. split.
  - rewrite !Z.eqb_refl. assert (R : forall l, list_eqb l l = true) by (intros; now apply list_eqb_eq). rewrite !R. reflexivity.
  - intros b H. repeat (apply andb_prop in H as (H & ?)). rewrite ?Z.eqb_eq, ?list_eqb_eq in *. auto.
Qed.
Print Assumptions C70_extra_byte_fields.
(* ... but so do fields whose scale, range and no-data values differ *)
Definition field_scaled (s : Z) (lo : Z) : ebfield :=
  mkEb 0 3 8 [104; 101; 105; 103; 104; 116] 0 (zeros 24) (enc_u64 lo ++ zeros 16) (zeros 24) (enc_f64 (f64_of_Z s) ++ zeros 16) (zeros 24) [].
Theorem C70_extra_byte_fields_refuted : exists a b, ebfield_eqb a b = true /\ eb_scale a <> eb_scale b /\ eb_min a <> eb_min b /\ enc_eb a <> enc_eb b.
Proof.
  exists (field_scaled 1 0), (field_scaled 2 (2 ^ 24)). split; [vm_compute; reflexivity|]. repeat split; vm_compute; discriminate.
Qed.
Print Assumptions C70_extra_byte_fields_refuted.
(* constructors from lists take exactly as many values as they need *)
Theorem C70_key_from_list : forall l, (forall k, key_of_vec l = Ok k <-> l = [kd k; kx k; ky k; kz k]) /\ (length l <> 4%nat <-> key_of_vec l = Throw).
Proof.
  intros l. split.
  - intros [d x y z]. cbn [kd kx ky kz]. destruct l as [|a [|b [|c [|e [|f l]]]]]; cbn [key_of_vec]; (split; intros Q; try discriminate Q); [|injection Q as -> -> -> ->; reflexivity]. assert (Q' : forall m n : key, Ok m = Ok n -> m = n) by (intros m n W; now injection W). apply Q' in Q.
    pose proof (f_equal kd Q). pose proof (f_equal kx Q). pose proof (f_equal ky Q). pose proof (f_equal kz Q). cbn [kd kx ky kz] in *. congruence.
  - destruct l as [|a [|b [|c [|e [|f l]]]]]; cbn [key_of_vec length]; (split; intros Q; [try reflexivity; exfalso; lia|try discriminate Q; try lia]).
Qed.
Print Assumptions C70_key_from_list.
Theorem C70_vector_from_list : forall l, (forall v, vec3_of_list l = Ok v <-> l = [vx v; vy v; vz v]) /\ (length l <> 3%nat <-> vec3_of_list l = Throw).
Proof.
  intros l. split.
  - intros [x y z]. cbn [vx vy vz]. destruct l as [|a [|b [|c [|e l]]]]; cbn [vec3_of_list]; (split; intros Q; try discriminate Q); [|injection Q as -> -> ->; reflexivity]. assert (Q' : forall m n : vec3, Ok m = Ok n -> m = n) by (intros m n W; now injection W). apply Q' in Q.
    pose proof (f_equal vx Q). pose proof (f_equal vy Q). pose proof (f_equal vz Q). cbn [vx vy vz] in *. congruence.
  - destruct l as [|a [|b [|c [|e l]]]]; cbn [vec3_of_list length]; (split; intros Q; [try reflexivity; exfalso; lia|try discriminate Q; try lia]).
Qed.
Print Assumptions C70_vector_from_list.
Theorem C70_colour_from_list : forall l p, (set_rgb_vec l p = Throw <-> p_has_rgb p = false \/ length l <> 3%nat) /\
  forall r g b, l = [r; g; b] -> set_rgb_vec l p = set_rgb r g b p.
Proof.
  intros l p. split.
  - unfold set_rgb_vec. destruct (p_has_rgb p); [|tauto]. destruct l as [|a [|b [|c [|e l]]]]; cbn [length]; (split; intros Q; [try discriminate Q; right; lia|destruct Q as [Q|Q]; [discriminate Q|try reflexivity; exfalso; lia]]).
  - intros r g b ->. reflexivity.
Qed.
Print Assumptions C70_colour_from_list.
(* MaxBox holds every point with finite coordinates *)
Theorem C70_max_box : exists m, max_box = Ok m /\ forall x y z, ffinite x = true -> ffinite y = true -> ffinite z = true -> box_contains_pt m (mkVec x y z) = true.
Proof.
  exists (mkBox (fopp fmaxval) (fopp fmaxval) (fopp fmaxval) fmaxval fmaxval fmaxval). split; [unfold max_box, box3; rewrite flt_maxval; reflexivity|].
  intros x y z X Y Z. destruct (max_bounds x X) as (X1 & X2). destruct (max_bounds y Y) as (Y1 & Y2). destruct (max_bounds z Z) as (Z1 & Z2).
  unfold box_contains_pt, fge. cbn [vx vy vz x_min x_max y_min y_max z_min z_max]. now rewrite X1, X2, Y1, Y2, Z1, Z2.
Qed.
Print Assumptions C70_max_box.
(* an extent with a NaN is not even equal to itself; nodes of different pages can be equal *)
Example C70_nonvacuous : vec3_eqb (mkVec f0 f1 f1) (mkVec (fopp f0) f1 f1) = true /\ vec3_eqb (mkVec (fdiv f0 f0) f1 f1) (mkVec (fdiv f0 f0) f1 f1) = false /\
  node_eqb (mkNode (mkEntry root_key 1 2 3) root_key) (mkNode (mkEntry root_key 1 2 3) invalid_key) = true /\ key_of_vec [3; 1; 2; 3] = Ok (mkKey 3 1 2 3).
Proof. repeat split; vm_compute; reflexivity. Qed.

(* ---- C73 ---- *)
(* the spacing is positive and halving it d times does not leave the normal range *)
Definition halves (s : f64) (d : Z) : Prop := ffinite s = true /\ (bpow radix2 (d - 1021) <= R64 s)%R /\ 0 <= d <= 1023.
Lemma halves_quot s d : halves s d -> (bpow radix2 (-1021) <= R64 s / bpow radix2 d <= R64 s)%R /\ Fmt (R64 s / bpow radix2 d).
Proof.
  intros (F & B & D). assert (Q : (bpow radix2 (-1021) <= R64 s / bpow radix2 d)%R).
  { unfold Rdiv. rewrite <- bpow_opp. replace (-1021) with ((d - 1021) + - d) by lia. rewrite bpow_plus. apply Rmult_le_compat_r; [apply bpow_ge_0|exact B]. }
  pose proof (bpow_gt_0 radix2 (-1021)) as P. pose proof (bpow_gt_0 radix2 (d - 1021)) as P'. split; [split; [exact Q|]|].
  - assert (1 <= bpow radix2 d)%R by (change 1%R with (bpow radix2 0); apply bpow_le; lia). apply Rmult_le_reg_r with (bpow radix2 d); [lra|].
    unfold Rdiv. rewrite Rmult_assoc, Rinv_l, Rmult_1_r by lra. rewrite <- (Rmult_1_r (R64 s)) at 1. apply Rmult_le_compat_l; lra.
  - apply half_exact; [exact F|lia|]. right. rewrite Rabs_pos_eq by lra. exact Q.
Qed.
Lemma quot_below s d : halves s d -> (Rabs (R64 s / bpow radix2 d) < bpow radix2 1024)%R.
Proof.
  intros H. destruct (halves_quot s d H) as ((A & B) & _). pose proof (bpow_gt_0 radix2 (-1021)) as P. rewrite Rabs_pos_eq by lra. apply Rle_lt_trans with (1 := B). apply Rle_lt_trans with (1 := Rle_abs _). apply (IEEE754.Binary.abs_B2R_lt_emax 53 1024).
Qed.
Theorem C73_resolution_exact : forall s k, halves s (kd k) -> ffinite (resolution s k) = true /\ R64 (resolution s k) = (R64 s / bpow radix2 (kd k))%R.
Proof.
  intros s k H. pose proof H as (F & B & D). destruct (halves_quot s _ H) as (_ & G). destruct (fpow2_exact (kd k)) as (E & FP); [lia|]. unfold resolution. pose proof (bpow_gt_0 radix2 (kd k)) as P.
  destruct (fdiv_correct s (fpow2 (kd k)) F) as (X & Y); rewrite ?E; try lra; [rewrite rnd_id by exact G; now apply quot_below|]. split; [exact Y|]. rewrite X, E. now apply rnd_id.
Qed.
Print Assumptions C73_resolution_exact.
Lemma halves_less s d d' : halves s d -> 0 <= d' <= d -> halves s d'.
Proof. intros (A & B & C) D. split; [exact A|]. split; [|lia]. apply Rle_trans with (2 := B). apply bpow_le. lia. Qed.
(* eight half-size children *)
Theorem C73_child_has_half : forall s k l c, 0 <= kd k -> get_children k = Ok l -> In c l -> halves s (kd k + 1) -> R64 (resolution s c) = (R64 (resolution s k) / 2)%R.
Proof.
  intros s k l c V E I H. assert (D : kd c = kd k + 1).
  { unfold get_children in E. revert l E I. generalize [0; 1; 2; 3; 4; 5; 6; 7] as ds. induction ds as [|d ds IH]; intros l E I; cbn [mapM] in E; [injection E as <-; destruct I|].
    apply bind_ok in E as (x & X & E). apply bind_ok in E as (l' & L & E). injection E as <-. destruct I as [<-|I]; [|now apply (IH l')].
    unfold bisect in X. apply bind_ok in X as (u & _ & X). apply bind_ok in X as (x1 & _ & X). apply bind_ok in X as (x2 & _ & X). apply bind_ok in X as (x3 & _ & X). assert (Q : mkKey (kd k + 1) x1 x2 x3 = x) by congruence. now rewrite <- Q. }
  assert (HK : halves s (kd k)) by (apply (halves_less s _ _ H); lia). rewrite (proj2 (C73_resolution_exact s k HK)). rewrite <- D in H. rewrite (proj2 (C73_resolution_exact s c H)), D. rewrite bpow_plus. change (bpow radix2 1) with 2%R.
  pose proof (bpow_gt_0 radix2 (kd k)). field. lra.
Qed.
Print Assumptions C73_child_has_half.
(* asking for the depth of the resolution of a depth gives that depth *)
Lemma spacing_exact s d : halves s d -> forall n, Z.of_nat n <= d -> ffinite (spacing_at s n) = true /\ R64 (spacing_at s n) = (R64 s / bpow radix2 (Z.of_nat n))%R.
Proof.
  intros H. induction n as [|n IH]; intros L.
  - cbn [spacing_at]. split; [apply H|]. change (bpow radix2 (Z.of_nat 0)) with 1%R. field.
  - destruct IH as (F & E); [lia|]. cbn [spacing_at]. destruct (f64_of_Z_exact 2) as (E2 & F2); [vm_compute; discriminate|].
    assert (Q : (R64 s / bpow radix2 (Z.of_nat n) / 2 = R64 s / bpow radix2 (Z.of_nat (S n)))%R).
    { rewrite Nat2Z.inj_succ, <- Z.add_1_r, bpow_plus. change (bpow radix2 1) with 2%R. pose proof (bpow_gt_0 radix2 (Z.of_nat n)). field. lra. }
    assert (HN : halves s (Z.of_nat (S n))) by (apply (halves_less s _ _ H); lia). destruct (halves_quot _ _ HN) as (_ & G).
    destruct (fdiv_correct (spacing_at s n) (f64_of_Z 2) F) as (X & Y); rewrite ?E2, ?E, ?Q; try lra; [rewrite rnd_id by exact G; now apply quot_below|].
    split; [exact Y|]. rewrite X, E2, E, Q. now apply rnd_id.
Qed.
Theorem C73_depth_of_resolution : forall f hs od r d maxd, copc_pages f hs -> Z.of_nat (length f) < 2 ^ 63 -> visits_all od -> reader_on f r -> deepest (stored_nodes hs) maxd ->
  let s := i_spacing (c_info (r_cfg r)) in halves s d -> d <= maxd ->
  exists r', returns (fun n => get_depth_at_resolution n od (resolution_at_depth s d) r) r' (Ok d).
Proof.
  intros f hs od r d maxd S L V R M s H D. destruct (C48_depth f hs od r (resolution_at_depth s d) maxd S L V R M) as (r' & o & A & _ & B). fold s in B. exists r'. pose proof H as (_ & _ & D0).
  destruct (C73_resolution_exact s (mkKey d 0 0 0) H) as (FR & ER). cbn [kd] in ER. fold (resolution_at_depth s d) in FR, ER. set (res := resolution_at_depth s d) in *. clearbody res.
  destruct (halves_quot s d H) as ((P & _) & _). pose proof (bpow_gt_0 radix2 (-1021)) as P0. rewrite <- ER in P. clearbody s.
  assert (NF : forall x, ffinite x = true -> fnan x = false) by (intros x FX; destruct x; cbn in *; congruence).
  assert (Z0 : fle res f0 = false). { destruct (fle res f0) eqn:Q; [|reflexivity]. apply fle_iff in Q as (_ & _ & Q). rewrite !rank_finite in Q by (exact FR || reflexivity). change (R64 f0) with 0%R in Q. lra. }
  destruct (B Z0) as (B1 & _). specialize (B1 d ltac:(lia)). rewrite B1 in A; [exact A| |].
  - destruct (spacing_exact s d H (Z.to_nat d) ltac:(lia)) as (F & E). rewrite Z2Nat.id in E by lia. apply fle_iff. split; [now apply NF|]. split; [now apply NF|]. rewrite !rank_finite by assumption. rewrite E, ER. lra.
  - intros d' B'. destruct (spacing_exact s d H (Z.to_nat d') ltac:(lia)) as (F & E). rewrite Z2Nat.id in E by lia. destruct (fle (spacing_at s (Z.to_nat d')) res) eqn:Q; [|reflexivity]. exfalso.
    apply fle_iff in Q as (_ & _ & Q). rewrite !rank_finite in Q by assumption. rewrite E, ER in Q.
    assert (bpow radix2 d' < bpow radix2 d)%R by (apply bpow_lt; lia). pose proof (bpow_gt_0 radix2 d'). assert (0 < R64 s)%R by (destruct H as (_ & H & _); pose proof (bpow_gt_0 radix2 (d - 1021)); lra).
    assert (R64 s / bpow radix2 d < R64 s / bpow radix2 d')%R; [|lra]. apply Rmult_lt_compat_l; [assumption|]. apply Rinv_lt_contravar; [apply Rmult_lt_0_compat; lra|assumption].
Qed.
Print Assumptions C73_depth_of_resolution.
(* the same file with a spacing of 16 *)
Definition spaced_file : bytes := Eval vm_compute in put 461 (enc_f64 (f64_of_Z 16)) fine_file.
Lemma spaced_ok : copc_pages spaced_file fine_pages /\ Z.of_nat (length spaced_file) < 2 ^ 63 /\ exists r, open_reader true spaced_file = Ok r /\ reader_on spaced_file r.
Proof. split; [apply hierarchy_b_ok; vm_compute; reflexivity|]. split; [vm_compute; reflexivity|]. apply opens_ok. vm_compute. reflexivity. Qed.
Definition halves_b (s : f64) (d : Z) : bool := ffinite s && fle (fpow2 (d - 1021)) s && (0 <=? d) && (d <=? 1023).
Lemma halves_b_ok s d : halves_b s d = true -> halves s d.
Proof.
  unfold halves_b. rewrite !andb_true_iff, !Z.leb_le. intros (((F & L) & A) & B). destruct (fpow2_exact (d - 1021)) as (E & G); [lia|]. split; [exact F|]. split; [|lia].
  apply fle_iff in L as (_ & _ & L). rewrite !rank_finite in L by assumption. now rewrite <- E.
Qed.
Example C73_nonvacuous : exists r, copc_pages spaced_file fine_pages /\ Z.of_nat (length spaced_file) < 2 ^ 63 /\ visits_all in_order /\ reader_on spaced_file r /\ deepest (stored_nodes fine_pages) 3 /\
  halves (i_spacing (c_info (r_cfg r))) 2 /\ 2 <= 3.
Proof.
  destruct spaced_ok as (S & L & r & O & R). destruct C48_nonvacuous as (_ & _ & _ & _ & _ & D & _). exists r. repeat (split; [assumption || apply in_order_all|]). split; [|lia].
  assert (E : match open_reader true spaced_file with Ok r => halves_b (i_spacing (c_info (r_cfg r))) 2 | _ => false end = true) by (vm_compute; reflexivity). rewrite O in E. now apply halves_b_ok.
Qed.
(* without a spacing (a default CopcInfo has 0) every depth has resolution 0, which stands for the deepest level *)
Theorem C73_no_spacing_refuted : exists f hs od r r', copc_pages f hs /\ reader_on f r /\ deepest (stored_nodes hs) 3 /\
  returns (fun n => get_depth_at_resolution n od (resolution_at_depth (i_spacing (c_info (r_cfg r))) 0) r) r' (Ok 3).
Proof.
  destruct fine_ok as (S & L & r & O & R). destruct C48_nonvacuous as (_ & _ & _ & _ & _ & D & _).
  assert (E : match open_reader true fine_file with Ok r => fle (resolution_at_depth (i_spacing (c_info (r_cfg r))) 0) f0 | _ => false end = true) by (vm_compute; reflexivity). rewrite O in E.
  destruct (C48_depth fine_file fine_pages in_order r (resolution_at_depth (i_spacing (c_info (r_cfg r))) 0) 3 S L in_order_all R D) as (r' & o & A & B & _). rewrite (B E) in A. exists fine_file, fine_pages, in_order, r, r'. auto.
Qed.
Print Assumptions C73_no_spacing_refuted.
