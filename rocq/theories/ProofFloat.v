(* ProofFloat.v - facts about the binary64 operations of ModelFloat.v *)
From Verif Require Import BaseFacts ModelFloat.
From Coq Require Import Reals Lra Psatz.
From Flocq Require Import Core IEEE754.BinarySingleNaN IEEE754.Binary IEEE754.Bits.

Notation fexp64 := (SpecFloat.fexp 53 1024).
Notation rnd := (round radix2 fexp64 ZnearestE).
Notation Fmt := (generic_format radix2 fexp64).
Definition R64 (x : f64) : R := B2R 53 1024 x.
Notation MaxR := (bpow radix2 1024).

#[global] Instance Hprec64 : Prec_gt_0 53 := eq_refl.
#[global] Instance Hpe64 : Prec_lt_emax 53 1024 := eq_refl.
#[global] Instance valid_fexp64 : Valid_exp fexp64.
Proof. apply (fexp_correct 53 1024); typeclasses eauto. Qed.

Lemma fexp64_FLT : forall e, fexp64 e = FLT_exp (-1074) 53 e.
Proof. intros e. reflexivity. Qed.

Lemma f64_bits_roundtrip x : f64_of_bits (f64_bits x) = x.
Proof. apply (binary_float_of_bits_of_binary_float 52 11). Qed.

Lemma f64_bits_range x : 0 <= f64_bits x < 2 ^ 64.
Proof. apply (bits_of_binary_float_range 52 11); reflexivity. Qed.

Lemma f64_of_bits_roundtrip z : 0 <= z < 2 ^ 64 -> f64_bits (f64_of_bits z) = z.
Proof. intros H. apply (bits_of_binary_float_of_bits 52 11); exact H. Qed.

Lemma dec_f64_enc x r : dec_f64 (enc_f64 x ++ r) = Some (x, r).
Proof.
  unfold dec_f64, enc_f64, enc_u64. rewrite dec_u_enc by apply f64_bits_range.
  now rewrite f64_bits_roundtrip.
Qed.

Lemma enc_f64_length x : length (enc_f64 x) = 8%nat.
Proof. apply le_enc_length. Qed.

(* ---- comparisons through a real rank ---- *)
Definition rank (x : f64) : R :=
  match x with
  | B754_infinity _ _ false => MaxR
  | B754_infinity _ _ true => (- MaxR)%R
  | _ => R64 x
  end.

Lemma R64_bound x : (Rabs (R64 x) < MaxR)%R.
Proof. apply (abs_B2R_lt_emax 53 1024). Qed.

Lemma R64_bounds x : (- MaxR < R64 x < MaxR)%R.
Proof. pose proof (R64_bound x) as H. apply Rabs_def2 in H. lra. Qed.

Lemma MaxR_pos : (0 < MaxR)%R.
Proof. apply bpow_gt_0. Qed.

Lemma rank_finite x : ffinite x = true -> rank x = R64 x.
Proof. destruct x; cbn; congruence. Qed.

Lemma rank_bounds x : (- MaxR <= rank x <= MaxR)%R.
Proof.
  pose proof MaxR_pos. pose proof (R64_bounds x).
  destruct x as [s|s|s pl|s m e]; cbn [rank]; try lra. destruct s; lra.
Qed.

Lemma fnan_finite x : ffinite x = true -> fnan x = false.
Proof. destruct x; cbn; congruence. Qed.

Lemma compare_rank x y : fnan x = false -> fnan y = false ->
  b64_compare x y = Some (Rcompare (rank x) (rank y)).
Proof.
  intros Hx Hy. pose proof MaxR_pos as HM.
  destruct (ffinite x) eqn:Fx, (ffinite y) eqn:Fy.
  - rewrite !rank_finite by assumption. now apply Bcompare_correct.
  - rewrite (rank_finite x) by assumption. pose proof (R64_bounds x).
    destruct y as [s|s|s pl Hpl|s m e He]; try (cbn in Hy, Fy; discriminate).
    cbn [rank].
    destruct x as [t|t|t ql Hql|t n f Hf]; try (cbn in Hx, Fx; discriminate);
      destruct s; first [rewrite Rcompare_Gt by lra | rewrite Rcompare_Lt by lra]; destruct t; reflexivity.
  - rewrite (rank_finite y) by assumption. pose proof (R64_bounds y).
    destruct x as [s|s|s pl Hpl|s m e He]; try (cbn in Hx, Fx; discriminate).
    cbn [rank].
    destruct y as [t|t|t ql Hql|t n f Hf]; try (cbn in Hy, Fy; discriminate);
      destruct s; first [rewrite Rcompare_Gt by lra | rewrite Rcompare_Lt by lra]; destruct t; reflexivity.
  - destruct x as [s|s|s pl Hpl|s m e He]; try (cbn in Hx, Fx; discriminate).
    destruct y as [t|t|t ql Hql|t n f Hf]; try (cbn in Hy, Fy; discriminate).
    destruct s, t; cbn [rank];
      first [rewrite Rcompare_Eq by lra | rewrite Rcompare_Gt by lra | rewrite Rcompare_Lt by lra]; reflexivity.
Qed.

Lemma compare_nan_l x y : fnan x = true -> b64_compare x y = None.
Proof. destruct x; cbn; intros; try discriminate. reflexivity. Qed.
Lemma compare_nan_r x y : fnan y = true -> b64_compare x y = None.
Proof. destruct y; cbn; intros; try discriminate. destruct x as [[]|[]| |[] ? ?]; reflexivity. Qed.

Lemma flt_rank x y : fnan x = false -> fnan y = false -> (flt x y = true <-> (rank x < rank y)%R).
Proof.
  intros Hx Hy. unfold flt. rewrite compare_rank by assumption.
  destruct (Rcompare_spec (rank x) (rank y)); split; intros; try discriminate; try lra; auto.
Qed.
Lemma fle_rank x y : fnan x = false -> fnan y = false -> (fle x y = true <-> (rank x <= rank y)%R).
Proof.
  intros Hx Hy. unfold fle. rewrite compare_rank by assumption.
  destruct (Rcompare_spec (rank x) (rank y)); split; intros; try discriminate; try lra; auto.
Qed.
Lemma feq_rank x y : fnan x = false -> fnan y = false -> (feq x y = true <-> (rank x = rank y)%R).
Proof.
  intros Hx Hy. unfold feq. rewrite compare_rank by assumption.
  destruct (Rcompare_spec (rank x) (rank y)); split; intros; try discriminate; try lra; auto.
Qed.

Lemma fle_not_nan x y : fle x y = true -> fnan x = false /\ fnan y = false.
Proof.
  unfold fle. intros H. destruct (fnan x) eqn:Hx; [rewrite compare_nan_l in H by assumption; discriminate|].
  destruct (fnan y) eqn:Hy; [rewrite compare_nan_r in H by assumption; discriminate|]. auto.
Qed.
Lemma flt_not_nan x y : flt x y = true -> fnan x = false /\ fnan y = false.
Proof.
  unfold flt. intros H. destruct (fnan x) eqn:Hx; [rewrite compare_nan_l in H by assumption; discriminate|].
  destruct (fnan y) eqn:Hy; [rewrite compare_nan_r in H by assumption; discriminate|]. auto.
Qed.
Lemma feq_not_nan x y : feq x y = true -> fnan x = false /\ fnan y = false.
Proof.
  unfold feq. intros H. destruct (fnan x) eqn:Hx; [rewrite compare_nan_l in H by assumption; discriminate|].
  destruct (fnan y) eqn:Hy; [rewrite compare_nan_r in H by assumption; discriminate|]. auto.
Qed.

Lemma fle_iff x y : fle x y = true <-> fnan x = false /\ fnan y = false /\ (rank x <= rank y)%R.
Proof.
  split.
  - intros H. pose proof (fle_not_nan _ _ H) as (Hx & Hy). rewrite fle_rank in H by assumption. auto.
  - intros (Hx & Hy & H). now apply fle_rank.
Qed.
Lemma flt_iff x y : flt x y = true <-> fnan x = false /\ fnan y = false /\ (rank x < rank y)%R.
Proof.
  split.
  - intros H. pose proof (flt_not_nan _ _ H) as (Hx & Hy). rewrite flt_rank in H by assumption. auto.
  - intros (Hx & Hy & H). now apply flt_rank.
Qed.
Lemma feq_iff x y : feq x y = true <-> fnan x = false /\ fnan y = false /\ (rank x = rank y)%R.
Proof.
  split.
  - intros H. pose proof (feq_not_nan _ _ H) as (Hx & Hy). rewrite feq_rank in H by assumption. auto.
  - intros (Hx & Hy & H). now apply feq_rank.
Qed.

Lemma fle_refl x : fnan x = false -> fle x x = true.
Proof. intros H. apply fle_iff. repeat split; auto. lra. Qed.
Lemma fle_trans x y z : fle x y = true -> fle y z = true -> fle x z = true.
Proof. rewrite !fle_iff. intros (? & ? & ?) (? & ? & ?). repeat split; auto. lra. Qed.
Lemma flt_fle_trans x y z : flt x y = true -> fle y z = true -> flt x z = true.
Proof. rewrite !fle_iff, !flt_iff. intros (? & ? & ?) (? & ? & ?). repeat split; auto. lra. Qed.
Lemma flt_negb_fle x y : fnan x = false -> fnan y = false -> flt x y = negb (fle y x).
Proof.
  intros Hx Hy. pose proof (flt_rank x y Hx Hy) as H1. pose proof (fle_rank y x Hy Hx) as H2.
  destruct (flt x y), (fle y x); cbn; try reflexivity; exfalso.
  - destruct H1 as [H1 _], H2 as [H2 _]. specialize (H1 eq_refl). specialize (H2 eq_refl). lra.
  - destruct (Rlt_or_le (rank x) (rank y)) as [L|L]; [apply H1 in L|apply H2 in L]; discriminate.
Qed.

(* ---- correctness of the arithmetic on finite values ---- *)
Lemma fadd_correct x y : ffinite x = true -> ffinite y = true ->
  (Rabs (rnd (R64 x + R64 y)) < MaxR)%R ->
  R64 (fadd x y) = rnd (R64 x + R64 y) /\ ffinite (fadd x y) = true.
Proof.
  intros Hx Hy Hb.
  pose proof (Bplus_correct 53 1024 eq_refl eq_refl binop_nan_pl64 mode_NE x y Hx Hy) as H.
  change (round_mode mode_NE) with ZnearestE in H. unfold R64 in *.
  rewrite Rlt_bool_true in H by exact Hb. destruct H as (H1 & H2 & _). split; assumption.
Qed.

Lemma fsub_correct x y : ffinite x = true -> ffinite y = true ->
  (Rabs (rnd (R64 x - R64 y)) < MaxR)%R ->
  R64 (fsub x y) = rnd (R64 x - R64 y) /\ ffinite (fsub x y) = true.
Proof.
  intros Hx Hy Hb.
  pose proof (Bminus_correct 53 1024 eq_refl eq_refl binop_nan_pl64 mode_NE x y Hx Hy) as H.
  change (round_mode mode_NE) with ZnearestE in H. unfold R64 in *.
  rewrite Rlt_bool_true in H by exact Hb. destruct H as (H1 & H2 & _). split; assumption.
Qed.

Lemma fmul_correct x y : ffinite x = true -> ffinite y = true ->
  (Rabs (rnd (R64 x * R64 y)) < MaxR)%R ->
  R64 (fmul x y) = rnd (R64 x * R64 y) /\ ffinite (fmul x y) = true.
Proof.
  intros Hx Hy Hb.
  pose proof (Bmult_correct 53 1024 eq_refl eq_refl binop_nan_pl64 mode_NE x y) as H.
  change (round_mode mode_NE) with ZnearestE in H. unfold R64 in *.
  rewrite Rlt_bool_true in H by exact Hb. destruct H as (H1 & H2 & _). split; [assumption|].
  change (is_finite 53 1024 (fmul x y) = true). unfold fmul, b64_mult.
  unfold ffinite in Hx, Hy. rewrite Hx, Hy in H2. exact H2.
Qed.

Lemma fdiv_correct x y : ffinite x = true -> (R64 y <> 0)%R ->
  (Rabs (rnd (R64 x / R64 y)) < MaxR)%R ->
  R64 (fdiv x y) = rnd (R64 x / R64 y) /\ ffinite (fdiv x y) = true.
Proof.
  intros Hx Hy Hb.
  pose proof (Bdiv_correct 53 1024 eq_refl eq_refl binop_nan_pl64 mode_NE x y Hy) as H.
  change (round_mode mode_NE) with ZnearestE in H. unfold R64 in *.
  rewrite Rlt_bool_true in H by exact Hb. destruct H as (H1 & H2 & _). split; [assumption|].
  unfold ffinite in *. rewrite Hx in H2. exact H2.
Qed.

Lemma fround_correct x :
  R64 (fround x) = IZR (ZnearestA (R64 x)) /\ ffinite (fround x) = ffinite x.
Proof.
  pose proof (Bnearbyint_correct 53 1024 eq_refl unop_nan_pl64 mode_NA x) as (H1 & H2 & _).
  split; [|exact H2]. unfold R64, fround.
  change (B2R 53 1024 (Bnearbyint 53 1024 eq_refl unop_nan_pl64 mode_NA x) = IZR (ZnearestA (B2R 53 1024 x))).
  rewrite H1. rewrite round_FIX_IZR. reflexivity.
Qed.

Lemma f64_lit_correct m e : (Rabs (rnd (IZR m * bpow radix2 e)) < MaxR)%R ->
  R64 (f64_lit m e) = rnd (IZR m * bpow radix2 e) /\ ffinite (f64_lit m e) = true.
Proof.
  intros Hb.
  pose proof (binary_normalize_correct 53 1024 eq_refl eq_refl mode_NE m e false) as H.
  change (round_mode mode_NE) with ZnearestE in H. unfold F2R in H. cbn [Fnum Fexp] in H.
  rewrite Rlt_bool_true in H by exact Hb. destruct H as (H1 & H2 & _). split; assumption.
Qed.

Lemma Fmt_R64 x : Fmt (R64 x).
Proof. apply (generic_format_B2R 53 1024). Qed.

Lemma rnd_id x : Fmt x -> rnd x = x.
Proof. intros H. apply round_generic; [typeclasses eauto|exact H]. Qed.

Lemma rnd_le x y : (x <= y)%R -> (rnd x <= rnd y)%R.
Proof. apply round_le; typeclasses eauto. Qed.

(* integers up to 2^53 are exact *)
Lemma Fmt_IZR z : Z.abs z <= 2 ^ 53 -> Fmt (IZR z).
Proof.
  intros H. apply (generic_format_FLT radix2 (-1074) 53).
  destruct (Z.eq_dec (Z.abs z) (2 ^ 53)) as [E|E].
  - destruct (Z_lt_ge_dec z 0).
    + apply (FLT_spec _ _ _ _ (Float radix2 (-1) 53)); cbn [Fnum Fexp]; change (radix_val radix2) with 2; try lia.
      unfold F2R; cbn [Fnum Fexp]. assert (z = - 2 ^ 53) as -> by lia.
      change (bpow radix2 53) with (IZR (2 ^ 53)). rewrite <- mult_IZR. f_equal.
    + apply (FLT_spec _ _ _ _ (Float radix2 1 53)); cbn [Fnum Fexp]; change (radix_val radix2) with 2; try lia.
      unfold F2R; cbn [Fnum Fexp]. assert (z = 2 ^ 53) as -> by lia.
      change (bpow radix2 53) with (IZR (2 ^ 53)). rewrite <- mult_IZR. f_equal.
  - apply (FLT_spec _ _ _ _ (Float radix2 z 0)); cbn [Fnum Fexp]; change (radix_val radix2) with 2; try lia.
    unfold F2R; cbn [Fnum Fexp]. change (bpow radix2 0) with 1%R. lra.
Qed.

Lemma IZR_lt_MaxR z : Z.abs z <= 2 ^ 53 -> (Rabs (IZR z) < MaxR)%R.
Proof.
  intros H. rewrite <- abs_IZR. apply Rle_lt_trans with (IZR (2 ^ 53)); [now apply IZR_le|].
  change (IZR (2 ^ 53)) with (bpow radix2 53). apply bpow_lt. lia.
Qed.

Lemma f64_of_Z_exact z : Z.abs z <= 2 ^ 53 -> R64 (f64_of_Z z) = IZR z /\ ffinite (f64_of_Z z) = true.
Proof.
  intros H. unfold f64_of_Z. pose proof (f64_lit_correct z 0) as L. unfold f64_lit in L.
  change (bpow radix2 0) with 1%R in L. rewrite Rmult_1_r in L.
  rewrite rnd_id in L by now apply Fmt_IZR. apply L. now apply IZR_lt_MaxR.
Qed.

Lemma Fmt_bpow e : -1074 <= e <= 1023 -> Fmt (bpow radix2 e).
Proof.
  intros H. apply generic_format_bpow. rewrite fexp64_FLT. unfold FLT_exp. lia.
Qed.

Lemma fpow2_exact e : -1074 <= e <= 1023 -> R64 (fpow2 e) = bpow radix2 e /\ ffinite (fpow2 e) = true.
Proof.
  intros H. unfold fpow2. pose proof (f64_lit_correct 1 e) as L.
  rewrite Rmult_1_l in L. rewrite rnd_id in L by now apply Fmt_bpow. apply L.
  rewrite Rabs_pos_eq by apply bpow_ge_0. apply bpow_lt. lia.
Qed.

Lemma f64_to_int_ok n x z : ffinite x = true -> R64 x = IZR z -> - 2 ^ (n - 1) <= z <= 2 ^ (n - 1) - 1 ->
  f64_to_int n x = Ok z.
Proof.
  intros F E Hz. unfold f64_to_int. rewrite F.
  assert (Btrunc 53 1024 x = z) as ->.
  { apply eq_IZR. rewrite Btrunc_correct by reflexivity.
    change (B2R 53 1024 x) with (R64 x). rewrite E. rewrite round_FIX_IZR. now rewrite Ztrunc_IZR. }
  assert (in_range (- 2 ^ (n - 1)) (2 ^ (n - 1) - 1) z = true) as -> by (apply in_range_spec; lia).
  reflexivity.
Qed.

Lemma fabs_correct x : ffinite x = true -> R64 (fabs x) = Rabs (R64 x) /\ ffinite (fabs x) = true.
Proof.
  intros H. split.
  - apply (B2R_Babs 53 1024).
  - unfold fabs, b64_abs, ffinite. now rewrite is_finite_Babs.
Qed.
