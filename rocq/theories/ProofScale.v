(* ProofScale.v - IEEE error analysis of ApplyScale / RemoveScale (C09) and
   ApplyInverseScale (C20) *)
From Verif Require Import BaseFacts ModelFloat ModelKey ModelGeom ModelPoint ProofFloat ProofPoint.
From Coq Require Import Reals Lra Psatz.
From Flocq Require Import Core Relative IEEE754.BinarySingleNaN IEEE754.Binary IEEE754.Bits.
Open Scope R_scope.

Definition u53 : R := / 9007199254740992.      (* 2^-53 *)
Lemma u53_bpow : u53 = bpow radix2 (-53).
Proof. reflexivity. Qed.

Lemma rnd_error x : Rabs (rnd x - x) <= u53 * Rabs x + bpow radix2 (-1075).
Proof.
  pose proof (bpow_gt_0 radix2 (-1075)) as Hp.
  destruct (Rlt_or_le (Rabs x) (bpow radix2 (-1022))) as [H|H].
  - apply Rle_trans with (bpow radix2 (-1075)).
    2:{ assert (0 <= u53 * Rabs x). { apply Rmult_le_pos; [rewrite u53_bpow; apply bpow_ge_0|apply Rabs_pos]. } lra. }
    apply Rle_trans with (/ 2 * ulp radix2 (FLT_exp (-1074) 53) x).
    + apply error_le_half_ulp. typeclasses eauto.
    + rewrite ulp_FLT_small; [|reflexivity|apply Rlt_le_trans with (1 := H); apply bpow_le; lia].
      change (bpow radix2 (-1075)) with (bpow radix2 (-1 + -1074)). rewrite bpow_plus.
      change (bpow radix2 (-1)) with (/ 2). lra.
  - apply Rle_trans with (u53 * Rabs x); [|lra].
    pose proof (relative_error_N_FLT radix2 (-1074) 53 eq_refl (fun x => negb (Z.even x)) x H) as E.
    rewrite bpow_plus in E. change (bpow radix2 1) with 2 in E.
    apply Rle_trans with (1 := E). rewrite u53_bpow. change (- (53))%Z with (-53)%Z. lra.
Qed.

Lemma rnd_bound x e : (-1074 <= e <= 1023)%Z -> Rabs x <= bpow radix2 e -> Rabs (rnd x) <= bpow radix2 e.
Proof.
  intros He H. apply abs_round_le_generic; [typeclasses eauto|typeclasses eauto| |exact H].
  now apply Fmt_bpow.
Qed.

Lemma bpow_lt_Max e : (e <= 1023)%Z -> bpow radix2 e < MaxR.
Proof. intros H. apply bpow_lt. lia. Qed.

Lemma ZnearestA_close x z : Rabs (x - IZR z) < / 2 -> ZnearestA x = z.
Proof. intros H. apply Znearest_imp. exact H. Qed.

Section repack.
Variables (n : Z) (s o : f64).
Hypothesis Hn : (-2147483648 <= n <= 2147483647)%Z.
Hypothesis Fs : ffinite s = true.
Hypothesis Fo : ffinite o = true.
Hypothesis Hs1 : bpow radix2 (-900) <= Rabs (R64 s).
Hypothesis Hs2 : Rabs (R64 s) <= bpow radix2 900.
Hypothesis Ho : Rabs (R64 o) <= IZR (2 ^ 51) * Rabs (R64 s).

Lemma s_pos : 0 < Rabs (R64 s).
Proof. apply Rlt_le_trans with (2 := Hs1). apply bpow_gt_0. Qed.

Lemma n_abs : Rabs (IZR n) <= 2147483648.
Proof. rewrite <- abs_IZR. apply IZR_le. lia. Qed.

Lemma o_bound : Rabs (R64 o) <= bpow radix2 951.
Proof.
  apply Rle_trans with (1 := Ho). replace 951%Z with (51 + 900)%Z by reflexivity. rewrite bpow_plus.
  change (bpow radix2 51) with (IZR (2 ^ 51)). apply Rmult_le_compat_l; [now apply IZR_le|exact Hs2].
Qed.

(* absolute rounding error of a quantity x measured in units of the scale *)
Lemma rel_err x m : Rabs x <= m * Rabs (R64 s) -> Rabs (rnd x - x) <= (u53 * m + / 1024) * Rabs (R64 s).
Proof.
  intros H. apply Rle_trans with (1 := rnd_error x).
  pose proof s_pos as Sp.
  assert (bpow radix2 (-1075) <= / 1024 * Rabs (R64 s)).
  { apply Rle_trans with (bpow radix2 (-10) * bpow radix2 (-900)).
    - rewrite <- bpow_plus. apply bpow_le. lia.
    - change (bpow radix2 (-10)) with (/ 1024). apply Rmult_le_compat_l; [lra|exact Hs1]. }
  assert (u53 * Rabs x <= u53 * (m * Rabs (R64 s))).
  { apply Rmult_le_compat_l; [rewrite u53_bpow; apply bpow_ge_0|exact H]. }
  lra.
Qed.

Lemma repack_exact : remove_scale_i32 (apply_scale_i n s o) s o = Ok n.
Proof.
  pose proof s_pos as Sp. set (S := Rabs (R64 s)) in *. pose proof n_abs as Na.
  unfold apply_scale_i.
  destruct (f64_of_Z_exact n) as (En & Fn); [lia|].
  (* a = n * s *)
  assert (B0 : Rabs (IZR n * R64 s) <= 2147483648 * S).
  { rewrite Rabs_mult. apply Rmult_le_compat_r; [apply Rabs_pos|exact Na]. }
  assert (B0' : Rabs (IZR n * R64 s) <= bpow radix2 931).
  { apply Rle_trans with (1 := B0). replace 931%Z with (31 + 900)%Z by reflexivity. rewrite bpow_plus.
    change (bpow radix2 31) with 2147483648. apply Rmult_le_compat_l; [lra|exact Hs2]. }
  destruct (fmul_correct (f64_of_Z n) s Fn Fs) as (Ea & Fa).
  { rewrite En. apply Rle_lt_trans with (bpow radix2 931); [apply rnd_bound; [lia|exact B0']|apply bpow_lt_Max; lia]. }
  rewrite En in Ea. set (a := fmul (f64_of_Z n) s) in *.
  assert (D1 : Rabs (R64 a - IZR n * R64 s) <= (u53 * 2147483648 + / 1024) * S) by (rewrite Ea; now apply rel_err).
  assert (Ba : Rabs (R64 a) <= 2147483649 * S).
  { replace (R64 a) with ((R64 a - IZR n * R64 s) + IZR n * R64 s) by lra.
    apply Rle_trans with (1 := Rabs_triang _ _). unfold u53 in D1. lra. }
  assert (Ba' : Rabs (R64 a) <= bpow radix2 931) by (rewrite Ea; apply rnd_bound; [lia|exact B0']).
  (* u = a + o *)
  pose proof o_bound as Bo.
  assert (B1 : Rabs (R64 a + R64 o) <= (2147483649 + IZR (2 ^ 51)) * S).
  { apply Rle_trans with (1 := Rabs_triang _ _). lra. }
  assert (B1' : Rabs (R64 a + R64 o) <= bpow radix2 952).
  { apply Rle_trans with (1 := Rabs_triang _ _).
    apply Rle_trans with (bpow radix2 951 + bpow radix2 951).
    - apply Rplus_le_compat; [|exact Bo]. apply Rle_trans with (1 := Ba'). apply bpow_le. lia.
    - replace 952%Z with (1 + 951)%Z by reflexivity. rewrite bpow_plus. change (bpow radix2 1) with 2. lra. }
  destruct (fadd_correct a o Fa Fo) as (Eu & Fu).
  { apply Rle_lt_trans with (bpow radix2 952); [apply rnd_bound; [lia|exact B1']|apply bpow_lt_Max; lia]. }
  set (u := fadd a o) in *.
  assert (D2 : Rabs (R64 u - (R64 a + R64 o)) <= (u53 * (2147483649 + IZR (2 ^ 51)) + / 1024) * S).
  { rewrite Eu. now apply rel_err. }
  assert (Bu' : Rabs (R64 u) <= bpow radix2 952) by (rewrite Eu; apply rnd_bound; [lia|exact B1']).
  (* w = u - o *)
  assert (B2 : Rabs (R64 u - R64 o) <= 2147483650 * S).
  { replace (R64 u - R64 o) with ((R64 u - (R64 a + R64 o)) + R64 a) by lra.
    apply Rle_trans with (1 := Rabs_triang _ _). change (2 ^ 51)%Z with 2251799813685248%Z in D2.
    unfold u53 in D2. lra. }
  assert (B2' : Rabs (R64 u - R64 o) <= bpow radix2 953).
  { unfold Rminus. apply Rle_trans with (1 := Rabs_triang _ _). rewrite Rabs_Ropp.
    apply Rle_trans with (bpow radix2 952 + bpow radix2 952).
    - apply Rplus_le_compat; [exact Bu'|]. apply Rle_trans with (1 := Bo). apply bpow_le. lia.
    - replace 953%Z with (1 + 952)%Z by reflexivity. rewrite bpow_plus. change (bpow radix2 1) with 2. lra. }
  destruct (fsub_correct u o Fu Fo) as (Ew & Fw).
  { apply Rle_lt_trans with (bpow radix2 953); [apply rnd_bound; [lia|exact B2']|apply bpow_lt_Max; lia]. }
  set (w := fsub u o) in *.
  assert (D3 : Rabs (R64 w - (R64 u - R64 o)) <= (u53 * 2147483650 + / 1024) * S).
  { rewrite Ew. now apply rel_err. }
  (* total error so far, in units of s *)
  assert (D : Rabs (R64 w - IZR n * R64 s) <= (/ 4 + / 128) * S).
  { replace (R64 w - IZR n * R64 s) with
      ((R64 w - (R64 u - R64 o)) + ((R64 u - (R64 a + R64 o)) + (R64 a - IZR n * R64 s))) by lra.
    apply Rle_trans with (1 := Rabs_triang _ _).
    pose proof (Rabs_triang (R64 u - (R64 a + R64 o)) (R64 a - IZR n * R64 s)) as T.
    change (2 ^ 51)%Z with 2251799813685248%Z in D2. unfold u53 in *. lra. }
  assert (Sn : R64 s <> 0). { intros E0. unfold S in Sp. rewrite E0, Rabs_R0 in Sp. lra. }
  assert (Dq : Rabs (R64 w / R64 s - IZR n) <= / 4 + / 128).
  { replace (R64 w / R64 s - IZR n) with ((R64 w - IZR n * R64 s) / R64 s) by (field; exact Sn).
    unfold Rdiv. rewrite Rabs_mult, Rabs_inv.
    apply Rmult_le_reg_r with S; [exact Sp|].
    unfold S. rewrite Rmult_assoc, Rinv_l by (fold S; lra). fold S. lra. }
  assert (Bq : Rabs (R64 w / R64 s) <= 2147483649).
  { replace (R64 w / R64 s) with ((R64 w / R64 s - IZR n) + IZR n) by lra.
    apply Rle_trans with (1 := Rabs_triang _ _). lra. }
  assert (Bq' : Rabs (R64 w / R64 s) <= bpow radix2 32).
  { apply Rle_trans with (1 := Bq). change (bpow radix2 32) with 4294967296. lra. }
  destruct (fdiv_correct w s Fw Sn) as (Eq & Fq).
  { apply Rle_lt_trans with (bpow radix2 32); [apply rnd_bound; [lia|exact Bq']|apply bpow_lt_Max; lia]. }
  pose proof (remove_scale_finite u s o) as RS. cbv zeta in RS. fold w in RS.
  rewrite RS by exact Fq.
  assert (ZnearestA (R64 (fdiv w s)) = n) as ->.
  { apply ZnearestA_close. rewrite Eq.
    replace (rnd (R64 w / R64 s) - IZR n) with ((rnd (R64 w / R64 s) - R64 w / R64 s) + (R64 w / R64 s - IZR n)) by lra.
    apply Rle_lt_trans with (1 := Rabs_triang _ _).
    pose proof (rnd_error (R64 w / R64 s)) as E4.
    assert (bpow radix2 (-1075) <= / 1024).
    { change (/ 1024) with (bpow radix2 (-10)). apply bpow_le. lia. }
    unfold u53 in E4. lra. }
  assert (in_range INT32_MIN INT32_MAX n = true) as ->; [|reflexivity].
  apply in_range_spec. unfold INT32_MIN, INT32_MAX. lia.
Qed.
End repack.

(* ---- C20: header.hpp:110-111 ---- *)
Lemma u53_pos : 0 < u53.
Proof. rewrite u53_bpow. apply bpow_gt_0. Qed.

(* ---- ApplyInverseScale (C20) ---- *)
Lemma rnd_rel x : bpow radix2 (-1022) <= Rabs x -> Rabs (rnd x - x) <= u53 * Rabs x.
Proof.
  intros H.
  pose proof (relative_error_N_FLT radix2 (-1074) 53 eq_refl (fun x => negb (Z.even x)) x H) as E.
  rewrite bpow_plus in E. change (bpow radix2 1) with 2 in E.
  apply Rle_trans with (1 := E). rewrite u53_bpow. change (- (53))%Z with (-53)%Z. lra.
Qed.

Definition inv1 (s o v : f64) : f64 := fsub (fdiv (fadd (fmul v s) o) s) o.

Lemma R64_lt_Max x : ffinite x = true -> Rabs (R64 x) < MaxR.
Proof. intros H. apply abs_B2R_lt_emax. Qed.

Lemma inverse_zero_offset s o v :
  ffinite s = true -> ffinite v = true -> ffinite o = true -> R64 o = 0 ->
  bpow radix2 (-100) <= Rabs (R64 s) <= bpow radix2 100 ->
  bpow radix2 (-900) <= Rabs (R64 v) <= bpow radix2 900 ->
  ffinite (inv1 s o v) = true /\
  Rabs (R64 (inv1 s o v) - R64 v) <= bpow radix2 (-51) * Rabs (R64 v).
Proof.
  intros Fs Fv Fo Zo Hs Hv. unfold inv1.
  set (S := Rabs (R64 s)) in *. set (V := Rabs (R64 v)) in *.
  assert (Sp : 0 < S) by (apply Rlt_le_trans with (2 := proj1 Hs); apply bpow_gt_0).
  assert (Vp : 0 < V) by (apply Rlt_le_trans with (2 := proj1 Hv); apply bpow_gt_0).
  assert (Sn : R64 s <> 0). { intros E0. unfold S in Sp. rewrite E0, Rabs_R0 in Sp. lra. }
  assert (P1 : Rabs (R64 v * R64 s) = V * S) by apply Rabs_mult.
  assert (P1u : V * S <= bpow radix2 1000).
  { change 1000%Z with (900 + 100)%Z. rewrite bpow_plus. apply Rmult_le_compat; lra. }
  assert (P1l : bpow radix2 (-1000) <= V * S).
  { change (-1000)%Z with (-900 + -100)%Z. rewrite bpow_plus.
    apply Rmult_le_compat; try apply bpow_ge_0; lra. }
  destruct (fmul_correct v s Fv Fs) as (Ea & Fa).
  { apply Rle_lt_trans with (bpow radix2 1000); [apply rnd_bound; [lia|lra]|apply bpow_lt_Max; lia]. }
  assert (Da : Rabs (R64 (fmul v s) - R64 v * R64 s) <= u53 * (V * S)).
  { rewrite Ea, <- P1. apply rnd_rel. rewrite P1. apply Rle_trans with (2 := P1l). apply bpow_le. lia. }
  set (a := fmul v s) in *.
  destruct (fadd_correct a o Fa Fo) as (Eu & Fu).
  { rewrite Zo, Rplus_0_r, rnd_id by apply Fmt_R64. now apply R64_lt_Max. }
  rewrite Zo, Rplus_0_r, rnd_id in Eu by apply Fmt_R64. set (u := fadd a o) in *.
  assert (U : u53 <= / 1024) by (unfold u53; lra).
  assert (Up : 0 < u53) by (unfold u53; lra).
  assert (Dq : Rabs (R64 u / R64 s - R64 v) <= u53 * V).
  { replace (R64 u / R64 s - R64 v) with ((R64 u - R64 v * R64 s) / R64 s) by (field; exact Sn).
    unfold Rdiv. rewrite Rabs_mult, Rabs_inv, Eu.
    apply Rmult_le_reg_r with S; [exact Sp|].
    unfold S at 1. rewrite Rmult_assoc, Rinv_l by (fold S; lra). lra. }
  assert (uV : u53 * V <= / 1024 * V) by (apply Rmult_le_compat_r; lra).
  assert (Bq : Rabs (R64 u / R64 s) <= 2 * V).
  { replace (R64 u / R64 s) with ((R64 u / R64 s - R64 v) + R64 v) by lra.
    apply Rle_trans with (1 := Rabs_triang _ _). fold V. lra. }
  assert (Bl : / 2 * V <= Rabs (R64 u / R64 s)).
  { pose proof (Rabs_triang_inv (R64 v) (R64 v - R64 u / R64 s)) as T.
    replace (R64 v - (R64 v - R64 u / R64 s)) with (R64 u / R64 s) in T by lra.
    rewrite (Rabs_minus_sym (R64 v)) in T. fold V in T. lra. }
  destruct (fdiv_correct u s Fu Sn) as (Eq & Fq).
  { apply Rle_lt_trans with (bpow radix2 901); [apply rnd_bound; [lia|]|apply bpow_lt_Max; lia].
    apply Rle_trans with (1 := Bq). change 901%Z with (1 + 900)%Z. rewrite bpow_plus.
    change (bpow radix2 1) with 2. lra. }
  assert (Dd : Rabs (R64 (fdiv u s) - R64 u / R64 s) <= u53 * (2 * V)).
  { rewrite Eq. apply Rle_trans with (u53 * Rabs (R64 u / R64 s)).
    - apply rnd_rel. apply Rle_trans with (2 := Bl). apply Rle_trans with (bpow radix2 (-1) * bpow radix2 (-900)).
      + rewrite <- bpow_plus. apply bpow_le. lia.
      + change (bpow radix2 (-1)) with (/ 2). lra.
    - apply Rmult_le_compat_l; lra. }
  set (q := fdiv u s) in *.
  destruct (fsub_correct q o Fq Fo) as (Er & Fr).
  { rewrite Zo, Rminus_0_r, rnd_id by apply Fmt_R64. now apply R64_lt_Max. }
  split; [exact Fr|]. rewrite Er, Zo, Rminus_0_r, rnd_id by apply Fmt_R64.
  replace (R64 q - R64 v) with ((R64 q - R64 u / R64 s) + (R64 u / R64 s - R64 v)) by lra.
  apply Rle_trans with (1 := Rabs_triang _ _).
  change (-51)%Z with (2 + -53)%Z. rewrite bpow_plus, <- u53_bpow. change (bpow radix2 2) with 4.
  assert (0 < u53 * V) by (apply Rmult_lt_0_compat; lra). lra.
Qed.

Lemma f1_exact : R64 f1 = 1 /\ ffinite f1 = true.
Proof. destruct (f64_of_Z_exact 1) as (E & F); [lia|]. split; [exact E|exact F]. Qed.

Lemma inverse_unit_scale o v :
  ffinite v = true -> ffinite o = true ->
  Rabs (R64 v) <= bpow radix2 1000 -> Rabs (R64 o) <= bpow radix2 1000 ->
  ffinite (inv1 f1 o v) = true /\
  Rabs (R64 (inv1 f1 o v) - R64 v) <= bpow radix2 (-51) * (Rabs (R64 v) + Rabs (R64 o)) + bpow radix2 (-1073).
Proof.
  intros Fv Fo Hv Ho. unfold inv1. destruct f1_exact as (E1 & F1).
  set (V := Rabs (R64 v)) in *. set (O := Rabs (R64 o)) in *.
  assert (Vp : 0 <= V) by apply Rabs_pos. assert (Op : 0 <= O) by apply Rabs_pos.
  destruct (fmul_correct v f1 Fv F1) as (Ea & Fa).
  { rewrite E1, Rmult_1_r, rnd_id by apply Fmt_R64. now apply R64_lt_Max. }
  rewrite E1, Rmult_1_r, rnd_id in Ea by apply Fmt_R64. set (a := fmul v f1) in *.
  assert (B1 : Rabs (R64 a + R64 o) <= V + O) by (rewrite Ea; apply Rabs_triang).
  assert (B1' : Rabs (R64 a + R64 o) <= bpow radix2 1001).
  { change 1001%Z with (1 + 1000)%Z. rewrite bpow_plus. change (bpow radix2 1) with 2. lra. }
  destruct (fadd_correct a o Fa Fo) as (Eu & Fu).
  { apply Rle_lt_trans with (bpow radix2 1001); [apply rnd_bound; [lia|exact B1']|apply bpow_lt_Max; lia]. }
  assert (Bu : Rabs (R64 (fadd a o)) <= bpow radix2 1001) by (rewrite Eu; apply rnd_bound; [lia|exact B1']).
  assert (D1 : Rabs (R64 (fadd a o) - (R64 a + R64 o)) <= u53 * (V + O) + bpow radix2 (-1075)).
  { rewrite Eu. apply Rle_trans with (1 := rnd_error _). apply Rplus_le_compat_r.
    apply Rmult_le_compat_l; [unfold u53; lra|exact B1]. }
  set (u := fadd a o) in *.
  destruct (fdiv_correct u f1 Fu) as (Eq & Fq).
  { rewrite E1. lra. }
  { rewrite E1. unfold Rdiv. rewrite Rinv_1, Rmult_1_r, rnd_id by apply Fmt_R64. now apply R64_lt_Max. }
  rewrite E1 in Eq. unfold Rdiv in Eq. rewrite Rinv_1, Rmult_1_r, rnd_id in Eq by apply Fmt_R64.
  set (q := fdiv u f1) in *.
  assert (t : bpow radix2 (-1075) <= / 1024).
  { change (/ 1024) with (bpow radix2 (-10)). apply bpow_le. lia. }
  assert (Dq : Rabs (R64 q - R64 o - R64 v) <= u53 * (V + O) + bpow radix2 (-1075)).
  { rewrite Eq, <- Ea. replace (R64 u - R64 o - R64 a) with (R64 u - (R64 a + R64 o)) by lra. exact D1. }
  assert (B2' : Rabs (R64 q - R64 o) <= bpow radix2 1002).
  { rewrite Eq. unfold Rminus. apply Rle_trans with (1 := Rabs_triang _ _). rewrite Rabs_Ropp.
    change 1002%Z with (1 + 1001)%Z. rewrite bpow_plus. change (bpow radix2 1) with 2.
    assert (bpow radix2 1000 <= bpow radix2 1001) by (apply bpow_le; lia). fold O. lra. }
  destruct (fsub_correct q o Fq Fo) as (Er & Fr).
  { apply Rle_lt_trans with (bpow radix2 1002); [apply rnd_bound; [lia|exact B2']|apply bpow_lt_Max; lia]. }
  split; [exact Fr|]. rewrite Er.
  assert (B2 : Rabs (R64 q - R64 o) <= 2 * (V + O) + bpow radix2 (-1075)).
  { replace (R64 q - R64 o) with ((R64 q - R64 o - R64 v) + R64 v) by lra.
    apply Rle_trans with (1 := Rabs_triang _ _). fold V. unfold u53 in Dq. lra. }
  pose proof (rnd_error (R64 q - R64 o)) as De.
  set (w := R64 q - R64 o) in *.
  replace (rnd w - R64 v) with ((rnd w - w) + (w - R64 v)) by lra.
  apply Rle_trans with (1 := Rabs_triang _ _).
  assert (bpow radix2 (-1073) = 4 * bpow radix2 (-1075)).
  { change (-1073)%Z with (2 + -1075)%Z. rewrite bpow_plus. reflexivity. }
  (* the error of the first addition is exactly representable when it is tiny, but this cruder bound suffices *)
  change (-51)%Z with (2 + -53)%Z. rewrite bpow_plus, <- u53_bpow. change (bpow radix2 2) with 4.
  pose proof (bpow_ge_0 radix2 (-1075)).
  assert (u53 * Rabs w <= u53 * (2 * (V + O) + bpow radix2 (-1075))) by (apply Rmult_le_compat_l; [unfold u53; lra|exact B2]).
  unfold u53 in *. lra.
Qed.

(* ---- LasHeader::RemoveScaleX/Y/Z (C62) ---- *)
Lemma f64_to_int_out n x z : ffinite x = true -> R64 x = IZR z ->
  in_range (- 2 ^ (n - 1)) (2 ^ (n - 1) - 1) z = false -> f64_to_int n x = UB.
Proof.
  intros F E Hz. unfold f64_to_int. rewrite F.
  assert (Btrunc 53 1024 x = z) as ->.
  { apply eq_IZR. rewrite Btrunc_correct by reflexivity.
    change (B2R 53 1024 x) with (R64 x). rewrite E. rewrite round_FIX_IZR. now rewrite Ztrunc_IZR. }
  now rewrite Hz.
Qed.

Lemma hdr_remove_scale_spec v s o :
  hdr_remove_scale v s o = match remove_scale_i32 v s o with Ok z => Ok z | _ => UB end.
Proof.
  set (q := fdiv (fsub v o) s).
  destruct (fnan q) eqn:Nq.
  { rewrite (remove_scale_nan v s o Nq). unfold hdr_remove_scale. fold q.
    destruct (fround_correct q) as (_ & Fr). unfold f64_to_int. rewrite Fr.
    destruct q; try discriminate Nq. reflexivity. }
  destruct (ffinite q) eqn:Fq.
  2:{ rewrite (remove_scale_inf v s o Nq Fq). unfold hdr_remove_scale. fold q.
      destruct (fround_correct q) as (_ & Fr). unfold f64_to_int. rewrite Fr, Fq. reflexivity. }
  rewrite (remove_scale_finite v s o Fq). unfold hdr_remove_scale. fold q.
  destruct (fround_correct q) as (Er & Fr). rewrite Fq in Fr.
  destruct (in_range INT32_MIN INT32_MAX (ZnearestA (R64 q))) eqn:I.
  - apply f64_to_int_ok; auto. apply in_range_spec in I. exact I.
  - eapply f64_to_int_out; eauto.
Qed.
