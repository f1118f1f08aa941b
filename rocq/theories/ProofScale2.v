(* ProofScale2.v - what ApplyInverseScale after ApplyScale computes, for every input with a finite result *)
From Verif Require Import BaseFacts ModelFloat ModelKey ModelGeom ModelPoint ProofFloat ProofPoint ProofScale.
From Coq Require Import Reals Lra Psatz.
From Flocq Require Import Core Relative IEEE754.BinarySingleNaN IEEE754.Binary IEEE754.Bits.
Open Scope R_scope.

Lemma overflow_not_finite s x : is_finite 53 1024 x = true -> B2FF 53 1024 x = binary_overflow 53 1024 mode_NE s -> False.
Proof. intros F H. destruct x; cbn in F; try discriminate F; cbn in H; discriminate H. Qed.
Lemma fadd_finite x y : ffinite (fadd x y) = true -> ffinite x = true /\ ffinite y = true /\ R64 (fadd x y) = rnd (R64 x + R64 y).
Proof.
  intros F. assert (FF : ffinite x = true /\ ffinite y = true).
  { unfold ffinite, fadd, b64_plus in *. destruct x as [|[]| |], y as [|[]| |]; try (split; reflexivity); cbn in F; try discriminate F. }
  destruct FF as (Fx & Fy). split; [exact Fx|]. split; [exact Fy|].
  pose proof (Bplus_correct 53 1024 eq_refl eq_refl binop_nan_pl64 mode_NE x y Fx Fy) as H. change (round_mode mode_NE) with ZnearestE in H.
  destruct (Rlt_bool _ _); [exact (proj1 H)|]. destruct H as (H & _). destruct (overflow_not_finite _ _ F H).
Qed.
Lemma fsub_finite x y : ffinite (fsub x y) = true -> ffinite x = true /\ ffinite y = true /\ R64 (fsub x y) = rnd (R64 x - R64 y).
Proof.
  intros F. assert (FF : ffinite x = true /\ ffinite y = true).
  { unfold ffinite, fsub, b64_minus in *. destruct x as [|[]| |], y as [|[]| |]; try (split; reflexivity); cbn in F; try discriminate F. }
  destruct FF as (Fx & Fy). split; [exact Fx|]. split; [exact Fy|].
  pose proof (Bminus_correct 53 1024 eq_refl eq_refl binop_nan_pl64 mode_NE x y Fx Fy) as H. change (round_mode mode_NE) with ZnearestE in H.
  destruct (Rlt_bool _ _); [exact (proj1 H)|]. destruct H as (H & _). destruct (overflow_not_finite _ _ F H).
Qed.
Lemma fmul_finite x y : ffinite (fmul x y) = true -> ffinite x = true /\ ffinite y = true /\ R64 (fmul x y) = rnd (R64 x * R64 y).
Proof.
  intros F. assert (FF : ffinite x = true /\ ffinite y = true).
  { unfold ffinite, fmul, b64_mult in *. destruct x, y; try (split; reflexivity); cbn in F; try discriminate F. }
  destruct FF as (Fx & Fy). split; [exact Fx|]. split; [exact Fy|].
  pose proof (Bmult_correct 53 1024 eq_refl eq_refl binop_nan_pl64 mode_NE x y) as H. change (round_mode mode_NE) with ZnearestE in H.
  destruct (Rlt_bool _ _); [exact (proj1 H)|]. destruct (overflow_not_finite _ _ F H).
Qed.
Lemma fdiv_finite x y : ffinite y = true -> ffinite (fdiv x y) = true -> ffinite x = true /\ R64 y <> 0 /\ R64 (fdiv x y) = rnd (R64 x / R64 y).
Proof.
  intros Fy F. assert (FF : ffinite x = true /\ R64 y <> 0).
  { unfold ffinite, fdiv, b64_div in *. destruct x as [| | |sx mx ex ?], y as [| | |sy my ey ?]; cbn in F; try discriminate F; cbn in Fy; try discriminate Fy; (split; [reflexivity|]); unfold R64, B2R; apply F2R_neq_0; cbn; now destruct sy. }
  destruct FF as (Fx & Ny). split; [exact Fx|]. split; [exact Ny|].
  pose proof (Bdiv_correct 53 1024 eq_refl eq_refl binop_nan_pl64 mode_NE x y Ny) as H. change (round_mode mode_NE) with ZnearestE in H.
  destruct (Rlt_bool _ _); [exact (proj1 H)|]. destruct (overflow_not_finite _ _ F H).
Qed.

Lemma scale_error A B C D E e1 e2 e3 u : 0 <= A -> 0 <= B -> 0 <= C -> 0 <= D -> 0 <= E -> 0 <= e1 -> 0 <= e2 -> 0 <= e3 -> 0 < u <= / 1000 ->
  e3 <= u * ((1 + u) * A + D + B) + D + u * A + D -> e2 <= u * (A + B + e3) + E -> e1 <= u * (A + B + C + e3 + e2) + E ->
  e1 + e2 + e3 <= 8 * u * (A + B + C) + 4 * D + 4 * E.
Proof.
  intros HA HB HC HD HE H1 H2 H3 Hu G3 G2 G1.
  assert (P : forall x, 0 <= x -> 0 <= u * x <= / 1000 * x) by (intros x Hx; split; [apply Rmult_le_pos; lra|apply Rmult_le_compat_r; lra]).
  pose proof (P A HA) as PA. pose proof (P B HB) as PB. pose proof (P C HC) as PC. pose proof (P D HD) as PD. pose proof (P (u * A) (proj1 PA)) as PUA. pose proof (P e3 H3) as P3. pose proof (P e2 H2) as P2.
  assert (G3' : e3 <= u * A + u * (u * A) + u * D + u * B + D + u * A + D) by lra.
  assert (G2' : e2 <= u * A + u * B + u * e3 + E) by lra.
  assert (G1' : e1 <= u * A + u * B + u * C + u * e3 + u * e2 + E) by lra.
  assert (Q : 8 * u * (A + B + C) = 8 * (u * A) + 8 * (u * B) + 8 * (u * C)) by lra. lra.
Qed.
Lemma inverse_value s o v : let r := fsub (fdiv (fadd (fmul v s) o) s) o in ffinite r = true ->
  ffinite s = true /\ ffinite o = true /\ ffinite v = true /\ R64 s <> 0 /\
  Rabs (R64 r - (R64 v + R64 o / R64 s - R64 o)) <= bpow radix2 (-50) * (Rabs (R64 v) + Rabs (R64 o / R64 s) + Rabs (R64 o)) + bpow radix2 (-1073) * (1 + / Rabs (R64 s)).
Proof.
  intros r Fr. unfold r in *. apply fsub_finite in Fr as (Fq & Fo & Er).
  assert (Fs : ffinite s = true).
  { destruct (ffinite s) eqn:Q; [reflexivity|exfalso]. clear Er. unfold ffinite, fdiv, fadd, fmul, b64_div, b64_plus, b64_mult in *. destruct s as [|ss| |]; try discriminate Q; destruct v as [|sv| |], o as [|so| |]; try discriminate Fo; cbn in Fq; try destruct sv, ss; cbn in Fq; discriminate Fq. }
  apply (fdiv_finite _ _ Fs) in Fq as (Fa & Ns & Eq). apply fadd_finite in Fa as (Fp & _ & Ea). apply fmul_finite in Fp as (Fv & _ & Ep).
  repeat (split; [assumption|]). set (q := R64 (fdiv _ _)) in *. set (a := R64 (fadd _ _)) in *. set (p := R64 (fmul _ _)) in *. set (x := R64 (fsub _ _)) in *.
  clearbody q a p x. set (S := R64 s) in *. set (O := R64 o) in *. set (V := R64 v) in *. clearbody S O V.
  pose proof (rnd_error (q - O)) as E1. rewrite <- Er in E1. pose proof (rnd_error (a / S)) as E2. rewrite <- Eq in E2. pose proof (rnd_error (p + O)) as E3. rewrite <- Ea in E3. pose proof (rnd_error (V * S)) as E4. rewrite <- Ep in E4.
  assert (PS : 0 < Rabs S) by (now apply Rabs_pos_lt). set (h := bpow radix2 (-1075)) in *. assert (Hh : 0 <= h) by apply bpow_ge_0.
  assert (IS : 0 < / Rabs S) by (now apply Rinv_0_lt_compat).
  (* divide by S *)
  assert (D4 : Rabs (p / S - V) <= u53 * Rabs V + h * / Rabs S).
  { replace (p / S - V) with ((p - V * S) * / S) by (field; exact Ns). rewrite Rabs_mult, Rabs_inv. apply Rle_trans with ((u53 * Rabs (V * S) + h) * / Rabs S); [apply Rmult_le_compat_r; lra|].
    rewrite Rabs_mult. right. field. lra. }
  assert (D3 : Rabs (a / S - (p / S + O / S)) <= u53 * (Rabs (p / S) + Rabs (O / S)) + h * / Rabs S).
  { replace (a / S - (p / S + O / S)) with ((a - (p + O)) * / S) by (field; exact Ns). rewrite Rabs_mult, Rabs_inv. apply Rle_trans with ((u53 * Rabs (p + O) + h) * / Rabs S); [apply Rmult_le_compat_r; lra|].
    rewrite Rmult_plus_distr_r. apply Rplus_le_compat_r. rewrite Rmult_assoc. apply Rmult_le_compat_l; [left; apply u53_pos|]. unfold Rdiv. rewrite <- Rabs_inv, <- Rabs_mult.
    rewrite Rmult_plus_distr_r. apply Rabs_triang. }
  set (P := p / S) in *. set (Y := O / S) in *. set (Q := a / S) in *. clearbody P Y Q. clear E3 E4 Er Eq Ea Ep.
  set (e3 := Rabs (Q - (V + Y))). set (e2 := Rabs (q - Q)) in *. set (e1 := Rabs (x - (q - O))) in *.
  assert (U : 0 < u53 <= / 1000) by (unfold u53; lra). assert (HU : 8 * u53 = bpow radix2 (-50)) by (change (bpow radix2 (-50)) with (/ 1125899906842624); unfold u53; lra).
  assert (HH : bpow radix2 (-1073) = 4 * h) by (unfold h; change (-1073)%Z with (2 + -1075)%Z; rewrite bpow_plus; reflexivity). clearbody h. rewrite <- HU, HH. clear HU HH. set (u := u53) in *. clearbody u.
  assert (T0 : Rabs P <= (1 + u) * Rabs V + h * / Rabs S). { replace P with (V + (P - V)) by lra. pose proof (Rabs_triang V (P - V)). lra. }
  assert (G3 : e3 <= u * ((1 + u) * Rabs V + h * / Rabs S + Rabs Y) + h * / Rabs S + u * Rabs V + h * / Rabs S).
  { unfold e3. replace (Q - (V + Y)) with ((Q - (P + Y)) + (P - V)) by lra. pose proof (Rabs_triang (Q - (P + Y)) (P - V)).
    assert (u * (Rabs P + Rabs Y) <= u * ((1 + u) * Rabs V + h * / Rabs S + Rabs Y)) by (apply Rmult_le_compat_l; lra). lra. }
  assert (T1 : Rabs Q <= Rabs V + Rabs Y + e3). { unfold e3. replace Q with ((V + Y) + (Q - (V + Y))) at 1 by lra. pose proof (Rabs_triang (V + Y) (Q - (V + Y))). pose proof (Rabs_triang V Y). lra. }
  assert (G2 : e2 <= u * (Rabs V + Rabs Y + e3) + h) by (pose proof (Rmult_le_compat_l u _ _ ltac:(lra) T1); lra).
  assert (T2 : Rabs (q - O) <= Rabs V + Rabs Y + Rabs O + e3 + e2).
  { unfold e2. replace (q - O) with (Q + (q - Q) + (- O)) by lra. pose proof (Rabs_triang (Q + (q - Q)) (- O)). pose proof (Rabs_triang Q (q - Q)). rewrite Rabs_Ropp in *. lra. }
  assert (G1 : e1 <= u * (Rabs V + Rabs Y + Rabs O + e3 + e2) + h) by (pose proof (Rmult_le_compat_l u _ _ ltac:(lra) T2); lra).
  apply Rle_trans with (e1 + e2 + e3).
  - unfold e1, e2, e3. replace (x - (V + Y - O)) with ((x - (q - O)) + (q - Q) + (Q - (V + Y))) by lra. pose proof (Rabs_triang ((x - (q - O)) + (q - Q)) (Q - (V + Y))). pose proof (Rabs_triang (x - (q - O)) (q - Q)). lra.
  - pose proof (scale_error (Rabs V) (Rabs Y) (Rabs O) (h * / Rabs S) h e1 e2 e3 u (Rabs_pos _) (Rabs_pos _) (Rabs_pos _) ltac:(apply Rmult_le_pos; lra) Hh (Rabs_pos _) (Rabs_pos _) (Rabs_pos _) U G3 G2 G1) as G.
    lra.
Qed.
