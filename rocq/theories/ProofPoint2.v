(* ProofPoint2.v - layout, format conversion, equality, scan angle *)
From Verif Require Import BaseFacts ModelFloat ModelKey ModelGeom ModelEntry ModelPoint SpecPoint ProofFloat ProofPoint.
From Coq Require Import ZifyBool ZifyNat Reals Lra.
From Flocq Require Import Core IEEE754.BinarySingleNaN IEEE754.Binary IEEE754.Bits.
Open Scope Z_scope.

(* ---- slices ---- *)
Lemma slice_skip a b off len k : length a = k -> slice (a ++ b) (k + off) len = slice b off len.
Proof.
  intros <-. unfold slice. rewrite skipn_app.
  replace (length a + off - length a)%nat with off by lia.
  rewrite (skipn_all2 a) by lia. reflexivity.
Qed.
Lemma slice_hd a b len : length a = len -> slice (a ++ b) 0 len = a.
Proof.
  intros <-. unfold slice. cbn [skipn]. rewrite firstn_app, Nat.sub_diag, firstn_all, firstn_O, app_nil_r. reflexivity.
Qed.

Ltac sl k := match goal with |- slice (?a ++ ?b) ?o ?l = _ =>
   change (slice (a ++ b) o l) with (slice (a ++ b) (k + (o - k))%nat l);
   rewrite (slice_skip a b (o - k) l k) by (apply le_enc_length); cbn [Nat.sub] end.

Lemma pack_layout p s o b : wf_point p -> point_pack p s o = Ok b ->
  exists x y z,
    remove_scale_i32 (p_x p) (vx s) (vx o) = Ok x /\ remove_scale_i32 (p_y p) (vy s) (vy o) = Ok y /\
    remove_scale_i32 (p_z p) (vz s) (vz o) = Ok z /\
    slice b 0 4 = le_enc 4 x /\ slice b 4 4 = le_enc 4 y /\ slice b 8 4 = le_enc 4 z /\
    slice b 12 2 = le_enc 2 (p_intensity p) /\ slice b 14 1 = le_enc 1 (p_returns p) /\
    slice b 15 1 = le_enc 1 (p_flags p) /\ slice b 16 1 = le_enc 1 (p_class p) /\
    slice b 17 1 = le_enc 1 (p_user p) /\ slice b 18 2 = le_enc 2 (p_angle p) /\
    slice b 20 2 = le_enc 2 (p_src p) /\ slice b 22 8 = le_enc 8 (f64_bits (p_gps p)) /\
    (p_fmt p <> 6 -> slice b 30 2 = le_enc 2 (p_red p) /\ slice b 32 2 = le_enc 2 (p_green p) /\
                     slice b 34 2 = le_enc 2 (p_blue p)) /\
    (p_fmt p = 8 -> slice b 36 2 = le_enc 2 (p_nir p)) /\
    slice b (Z.to_nat (las_base (p_fmt p))) (length (p_eb p)) = p_eb p.
Proof.
  intros W H. pose proof W as (Hf & Hr & He & _ & _ & _ & _ & _ & _ & _ & _ & _ & _ & _ & _ & Hrgb & Hnir).
  apply point_pack_ok_inv in H. destruct H as (x & y & z & Ex & Ey & Ez & ->).
  exists x, y, z. rewrite Hrgb, Hnir.
  unfold enc_i32, enc_u16, enc_u8, enc_i16, enc_f64, enc_u64.
  split; [exact Ex|]. split; [exact Ey|]. split; [exact Ez|].
  split; [apply slice_hd, le_enc_length|].
  split; [sl 4%nat; apply slice_hd, le_enc_length|].
  split; [sl 4%nat; sl 4%nat; apply slice_hd, le_enc_length|].
  split; [sl 4%nat; sl 4%nat; sl 4%nat; apply slice_hd, le_enc_length|].
  split; [sl 4%nat; sl 4%nat; sl 4%nat; sl 2%nat; apply slice_hd, le_enc_length|].
  split; [sl 4%nat; sl 4%nat; sl 4%nat; sl 2%nat; sl 1%nat; apply slice_hd, le_enc_length|].
  split; [sl 4%nat; sl 4%nat; sl 4%nat; sl 2%nat; sl 1%nat; sl 1%nat; apply slice_hd, le_enc_length|].
  split; [sl 4%nat; sl 4%nat; sl 4%nat; sl 2%nat; sl 1%nat; sl 1%nat; sl 1%nat; apply slice_hd, le_enc_length|].
  split; [sl 4%nat; sl 4%nat; sl 4%nat; sl 2%nat; sl 1%nat; sl 1%nat; sl 1%nat; sl 1%nat; apply slice_hd, le_enc_length|].
  split; [sl 4%nat; sl 4%nat; sl 4%nat; sl 2%nat; sl 1%nat; sl 1%nat; sl 1%nat; sl 1%nat; sl 2%nat; apply slice_hd, le_enc_length|].
  split; [sl 4%nat; sl 4%nat; sl 4%nat; sl 2%nat; sl 1%nat; sl 1%nat; sl 1%nat; sl 1%nat; sl 2%nat; sl 2%nat; apply slice_hd, le_enc_length|].
  assert (p_fmt p = 6 \/ p_fmt p = 7 \/ p_fmt p = 8) as [E|[E|E]] by lia; rewrite E;
    cbn [Z.leb Z.eqb Z.compare Pos.compare Pos.compare_cont Pos.eqb app].
  - split; [congruence|]. split; [congruence|].
    change (Z.to_nat (las_base 6)) with 30%nat.
    sl 4%nat; sl 4%nat; sl 4%nat; sl 2%nat; sl 1%nat; sl 1%nat; sl 1%nat; sl 1%nat; sl 2%nat; sl 2%nat; sl 8%nat.
    unfold slice. cbn [skipn]. apply firstn_all.
  - split; [intros _|split; [discriminate|]].
    + rewrite <- !app_assoc. split; [|split].
      * sl 4%nat; sl 4%nat; sl 4%nat; sl 2%nat; sl 1%nat; sl 1%nat; sl 1%nat; sl 1%nat; sl 2%nat; sl 2%nat; sl 8%nat.
        apply slice_hd, le_enc_length.
      * sl 4%nat; sl 4%nat; sl 4%nat; sl 2%nat; sl 1%nat; sl 1%nat; sl 1%nat; sl 1%nat; sl 2%nat; sl 2%nat; sl 8%nat; sl 2%nat.
        apply slice_hd, le_enc_length.
      * sl 4%nat; sl 4%nat; sl 4%nat; sl 2%nat; sl 1%nat; sl 1%nat; sl 1%nat; sl 1%nat; sl 2%nat; sl 2%nat; sl 8%nat; sl 2%nat; sl 2%nat.
        apply slice_hd, le_enc_length.
    + change (Z.to_nat (las_base 7)) with 36%nat. rewrite <- !app_assoc.
      sl 4%nat; sl 4%nat; sl 4%nat; sl 2%nat; sl 1%nat; sl 1%nat; sl 1%nat; sl 1%nat; sl 2%nat; sl 2%nat; sl 8%nat; sl 2%nat; sl 2%nat; sl 2%nat.
      unfold slice. cbn [skipn]. apply firstn_all.
  - rewrite <- !app_assoc. split; [intros _|split; [intros _|]].
    + split; [|split].
      * sl 4%nat; sl 4%nat; sl 4%nat; sl 2%nat; sl 1%nat; sl 1%nat; sl 1%nat; sl 1%nat; sl 2%nat; sl 2%nat; sl 8%nat.
        apply slice_hd, le_enc_length.
      * sl 4%nat; sl 4%nat; sl 4%nat; sl 2%nat; sl 1%nat; sl 1%nat; sl 1%nat; sl 1%nat; sl 2%nat; sl 2%nat; sl 8%nat; sl 2%nat.
        apply slice_hd, le_enc_length.
      * sl 4%nat; sl 4%nat; sl 4%nat; sl 2%nat; sl 1%nat; sl 1%nat; sl 1%nat; sl 1%nat; sl 2%nat; sl 2%nat; sl 8%nat; sl 2%nat; sl 2%nat.
        apply slice_hd, le_enc_length.
    + sl 4%nat; sl 4%nat; sl 4%nat; sl 2%nat; sl 1%nat; sl 1%nat; sl 1%nat; sl 1%nat; sl 2%nat; sl 2%nat; sl 8%nat; sl 2%nat; sl 2%nat; sl 2%nat.
      apply slice_hd, le_enc_length.
    + change (Z.to_nat (las_base 8)) with 38%nat.
      sl 4%nat; sl 4%nat; sl 4%nat; sl 2%nat; sl 1%nat; sl 1%nat; sl 1%nat; sl 1%nat; sl 2%nat; sl 2%nat; sl 8%nat; sl 2%nat; sl 2%nat; sl 2%nat; sl 2%nat.
      unfold slice. cbn [skipn]. apply firstn_all.
Qed.

(* ---- C14 ---- *)
Lemma to_point_format_spec fmt p : wf_point p -> 6 <= fmt <= 8 ->
  exists q, to_point_format fmt p = Ok q /\ wf_point q /\
    p_fmt q = fmt /\ p_reclen q = las_base fmt + Z.of_nat (length (p_eb p)) /\
    p_x q = p_x p /\ p_y q = p_y p /\ p_z q = p_z p /\ p_intensity q = p_intensity p /\
    p_returns q = p_returns p /\ p_flags q = p_flags p /\ p_class q = p_class p /\ p_angle q = p_angle p /\
    p_user q = p_user p /\ p_src q = p_src p /\ p_gps q = p_gps p /\ p_eb q = p_eb p /\
    (get_red q = if 7 <=? fmt then Ok (p_red p) else Throw) /\
    (get_green q = if 7 <=? fmt then Ok (p_green p) else Throw) /\
    (get_blue q = if 7 <=? fmt then Ok (p_blue p) else Throw) /\
    (get_nir q = if fmt =? 8 then Ok (p_nir p) else Throw) /\
    to_point_format (p_fmt p) q = Ok p.
Proof.
  intros W Hf. exists (with_fmt fmt (with_reclen (las_base fmt + Z.of_nat (length (p_eb p)))
       (with_has_rgb (7 <=? fmt) (with_has_nir (fmt =? 8) p)))).
  split; [now apply to_point_format_ok|].
  assert (W' : wf_point (with_fmt fmt (with_reclen (las_base fmt + Z.of_nat (length (p_eb p)))
       (with_has_rgb (7 <=? fmt) (with_has_nir (fmt =? 8) p))))).
  { apply (point_step_wf (OFormat fmt) p); auto. exact I. cbn [point_step]. now apply to_point_format_ok. }
  split; [exact W'|].
  do 14 (split; [destruct p; reflexivity|]).
  do 3 (split; [destruct p; unfold get_red, get_green, get_blue, get_nir; cbn; reflexivity|]).
  split; [destruct p; unfold get_red, get_green, get_blue, get_nir; cbn; reflexivity|].
  destruct W as (Hp & Hr & He & _ & _ & _ & _ & _ & _ & _ & _ & _ & _ & _ & _ & Hrgb & Hnir).
  rewrite to_point_format_ok by (auto; lia).
  destruct p; cbn in *. subst. reflexivity.
Qed.

(* ---- C15 ---- *)
Lemma flt_inf_eps s : flt (fabs (B754_infinity 53 1024 s)) eps_1em6 = false.
Proof. destruct s; vm_compute; reflexivity. Qed.
Lemma flt_nan_l x y : fnan x = true -> flt x y = false.
Proof. intros H. unfold flt. now rewrite compare_nan_l. Qed.
Lemma fabs_nan x : fnan x = true -> fnan (fabs x) = true.
Proof. destruct x; cbn; intros; try discriminate; reflexivity. Qed.

Lemma fsub_overflow x y : ffinite x = true -> ffinite y = true ->
  ~ (Rabs (rnd (R64 x - R64 y)) < MaxR)%R -> exists s, fsub x y = B754_infinity 53 1024 s.
Proof.
  intros Hx Hy Hb.
  pose proof (Bminus_correct 53 1024 eq_refl eq_refl binop_nan_pl64 mode_NE x y Hx Hy) as H.
  change (round_mode mode_NE) with ZnearestE in H. unfold R64 in *.
  rewrite Rlt_bool_false in H by lra. destruct H as (H & _).
  exists (Bsign 53 1024 x). apply (B2FF_inj 53 1024). unfold fsub, b64_minus. rewrite H. reflexivity.
Qed.

Lemma eps_finite : ffinite eps_1em6 = true.
Proof. vm_compute. reflexivity. Qed.

Lemma are_close_sym a b : are_close a b eps_1em6 = are_close b a eps_1em6.
Proof.
  unfold are_close.
  destruct (ffinite a) eqn:Fa, (ffinite b) eqn:Fb.
  - destruct (Rlt_or_le (Rabs (rnd (R64 a - R64 b))) MaxR) as [L|L].
    + assert (E : rnd (R64 b - R64 a) = (- rnd (R64 a - R64 b))%R).
      { rewrite <- round_NE_opp. f_equal. lra. }
      assert (L' : (Rabs (rnd (R64 b - R64 a)) < MaxR)%R) by (rewrite E, Rabs_Ropp; exact L).
      destruct (fsub_correct a b Fa Fb L) as (E1 & F1). destruct (fsub_correct b a Fb Fa L') as (E2 & F2).
      destruct (fabs_correct _ F1) as (A1 & G1). destruct (fabs_correct _ F2) as (A2 & G2).
      unfold flt. rewrite !compare_rank by (apply fnan_finite; auto using eps_finite).
      rewrite !rank_finite by (auto using eps_finite). rewrite A1, A2, E1, E2, E, Rabs_Ropp. reflexivity.
    + assert (E : rnd (R64 b - R64 a) = (- rnd (R64 a - R64 b))%R).
      { rewrite <- round_NE_opp. f_equal. lra. }
      destruct (fsub_overflow a b Fa Fb) as (s & ->); [lra|].
      destruct (fsub_overflow b a Fb Fa) as (t & ->); [rewrite E, Rabs_Ropp; lra|].
      now rewrite !flt_inf_eps.
  - destruct b as [t|t|t pl Hpl|t m e He]; try (cbn in Fb; discriminate);
    destruct a as [t'|t'|t' pl' Hpl'|t' m' e' He']; try (cbn in Fa; discriminate).
    all: try (rewrite !flt_nan_l by (apply fabs_nan; reflexivity); reflexivity).
    all: destruct t, t'; vm_compute; reflexivity.
  - destruct a as [t|t|t pl Hpl|t m e He]; try (cbn in Fa; discriminate);
    destruct b as [t'|t'|t' pl' Hpl'|t' m' e' He']; try (cbn in Fb; discriminate).
    all: try (rewrite !flt_nan_l by (apply fabs_nan; reflexivity); reflexivity).
    all: destruct t, t'; vm_compute; reflexivity.
  - destruct a as [t|t|t pl Hpl|t m e He]; try (cbn in Fa; discriminate);
    destruct b as [t'|t'|t' pl' Hpl'|t' m' e' He']; try (cbn in Fb; discriminate).
    all: first [rewrite !flt_nan_l by (apply fabs_nan; reflexivity); reflexivity | destruct t, t'; vm_compute; reflexivity].
Qed.

Lemma feq_sym a b : feq a b = feq b a.
Proof.
  unfold feq, b64_compare. rewrite (Bcompare_swap 53 1024 a b). destruct (Bcompare 53 1024 a b) as [[]|]; reflexivity.
Qed.

Lemma eqb_list_sym (a b : bytes) :
  (if list_eq_dec Z.eq_dec a b then true else false) = (if list_eq_dec Z.eq_dec b a then true else false).
Proof. destruct (list_eq_dec Z.eq_dec a b), (list_eq_dec Z.eq_dec b a); congruence. Qed.

(* what operator== computes on two points of the class invariant *)
Definition point_eq_spec (a b : point) : bool :=
  (p_fmt a =? p_fmt b) && (p_reclen a =? p_reclen b) &&
  are_close (p_x a) (p_x b) eps_1em6 && are_close (p_y a) (p_y b) eps_1em6 && are_close (p_z a) (p_z b) eps_1em6 &&
  (p_intensity a =? p_intensity b) && (p_returns a =? p_returns b) && (p_flags a =? p_flags b) &&
  (p_class a =? p_class b) && (p_angle a =? p_angle b) && (p_user a =? p_user b) && (p_src a =? p_src b) &&
  (if list_eq_dec Z.eq_dec (p_eb a) (p_eb b) then true else false) && feq (p_gps a) (p_gps b) &&
  (negb (7 <=? p_fmt a) || ((p_red a =? p_red b) && (p_green a =? p_green b) && (p_blue a =? p_blue b))) &&
  (negb (p_fmt a =? 8) || (p_nir a =? p_nir b)).

Lemma point_eqb_ok a b : wf_point a -> wf_point b -> point_eqb a b = Ok (point_eq_spec a b).
Proof.
  intros (_ & _ & _ & _ & _ & _ & _ & _ & _ & _ & _ & _ & _ & _ & _ & Ra & Na)
         (_ & _ & _ & _ & _ & _ & _ & _ & _ & _ & _ & _ & _ & _ & _ & Rb & Nb).
  unfold point_eqb, point_eq_spec, get_red, get_green, get_blue, get_nir. rewrite Ra, Na, Rb, Nb.
  destruct (Z.eqb_spec (p_fmt a) (p_fmt b)) as [Ef|]; [|reflexivity]. rewrite <- Ef.
  destruct (p_reclen a =? p_reclen b); [|reflexivity]. cbn [negb orb andb].
  destruct (are_close (p_x a) (p_x b) eps_1em6); [|reflexivity].
  destruct (are_close (p_y a) (p_y b) eps_1em6); [|reflexivity].
  destruct (are_close (p_z a) (p_z b) eps_1em6); [|reflexivity].
  destruct (p_intensity a =? p_intensity b); [|reflexivity]. cbn [negb orb andb].
  destruct (p_returns a =? p_returns b); [|reflexivity]. cbn [negb orb andb].
  destruct (p_flags a =? p_flags b); [|reflexivity]. cbn [negb orb andb].
  destruct (p_class a =? p_class b); [|reflexivity]. cbn [negb orb andb].
  destruct (p_angle a =? p_angle b); [|reflexivity]. cbn [negb orb andb].
  destruct (p_user a =? p_user b); [|reflexivity]. cbn [negb orb andb].
  destruct (p_src a =? p_src b); [|reflexivity]. cbn [negb orb andb].
  destruct (list_eq_dec Z.eq_dec (p_eb a) (p_eb b)); [|reflexivity]. cbn [negb orb andb].
  destruct (feq (p_gps a) (p_gps b)); [|reflexivity]. cbn [negb orb andb].
  destruct (7 <=? p_fmt a) eqn:E7; destruct (p_fmt a =? 8) eqn:E8; cbn [negb orb andb bind];
    try (destruct (p_red a =? p_red b); cbn [negb orb andb bind]; [|reflexivity]);
    try (destruct (p_green a =? p_green b); cbn [negb orb andb bind]; [|reflexivity]);
    try (destruct (p_blue a =? p_blue b); cbn [negb orb andb bind]; [|reflexivity]);
    try (destruct (p_nir a =? p_nir b); cbn [negb orb andb bind]); try reflexivity; lia.
Qed.

Lemma point_eq_spec_sym a b : point_eq_spec a b = point_eq_spec b a.
Proof.
  unfold point_eq_spec.
  rewrite (Z.eqb_sym (p_fmt b)), (Z.eqb_sym (p_reclen b)), (are_close_sym (p_x b)), (are_close_sym (p_y b)),
    (are_close_sym (p_z b)), (Z.eqb_sym (p_intensity b)), (Z.eqb_sym (p_returns b)), (Z.eqb_sym (p_flags b)),
    (Z.eqb_sym (p_class b)), (Z.eqb_sym (p_angle b)), (Z.eqb_sym (p_user b)), (Z.eqb_sym (p_src b)),
    (eqb_list_sym (p_eb b)), (feq_sym (p_gps b)), (Z.eqb_sym (p_red b)), (Z.eqb_sym (p_green b)),
    (Z.eqb_sym (p_blue b)), (Z.eqb_sym (p_nir b)).
  destruct (Z.eqb_spec (p_fmt a) (p_fmt b)) as [Ef|]; [rewrite Ef|]; reflexivity.
Qed.

Lemma are_close_refl a : ffinite a = true -> are_close a a eps_1em6 = true.
Proof.
  intros Fa. unfold are_close.
  assert (Z0 : (R64 a - R64 a = 0)%R) by lra.
  assert (L : (Rabs (rnd (R64 a - R64 a)) < MaxR)%R).
  { rewrite Z0, round_0 by typeclasses eauto. rewrite Rabs_R0. apply MaxR_pos. }
  destruct (fsub_correct a a Fa Fa L) as (E1 & F1).
  destruct (fabs_correct _ F1) as (A1 & G1).
  apply flt_iff. repeat split; try (apply fnan_finite; auto using eps_finite).
  rewrite !rank_finite by auto using eps_finite.
  rewrite A1, E1, Z0, round_0 by typeclasses eauto. rewrite Rabs_R0.
  unfold eps_1em6.
  assert (Fm : Fmt (IZR 4722366482869645 * bpow radix2 (-72))).
  { apply (generic_format_FLT radix2 (-1074) 53).
    apply (FLT_spec _ _ _ _ (Float radix2 4722366482869645 (-72))); cbn [Fnum Fexp]; try reflexivity; lia. }
  assert (P : (0 < IZR 4722366482869645 * bpow radix2 (-72))%R).
  { apply Rmult_lt_0_compat; [now apply IZR_lt|apply bpow_gt_0]. }
  destruct (f64_lit_correct 4722366482869645 (-72)) as (E & _).
  - rewrite rnd_id by exact Fm. rewrite Rabs_pos_eq by lra.
    apply Rlt_trans with (bpow radix2 53 * bpow radix2 (-72))%R.
    + apply Rmult_lt_compat_r; [apply bpow_gt_0|]. change (bpow radix2 53) with (IZR (2^53)). now apply IZR_lt.
    + rewrite <- bpow_plus. apply bpow_lt. lia.
  - rewrite E, rnd_id by exact Fm. exact P.
Qed.

Lemma feq_refl x : fnan x = false -> feq x x = true.
Proof. intros H. apply feq_iff. auto. Qed.

Lemma point_eq_spec_refl a : ffinite (p_x a) = true -> ffinite (p_y a) = true -> ffinite (p_z a) = true ->
  fnan (p_gps a) = false -> point_eq_spec a a = true.
Proof.
  intros Hx Hy Hz Hg. unfold point_eq_spec. rewrite !Z.eqb_refl, !are_close_refl, feq_refl by assumption.
  destruct (list_eq_dec Z.eq_dec (p_eb a) (p_eb a)); [|congruence].
  cbn. rewrite !orb_true_r. reflexivity.
Qed.

Lemma point_eq_spec_fields a b : point_eq_spec a b = true ->
  p_fmt a = p_fmt b /\ p_reclen a = p_reclen b /\ p_intensity a = p_intensity b /\ p_returns a = p_returns b /\
  p_flags a = p_flags b /\ p_class a = p_class b /\ p_angle a = p_angle b /\ p_user a = p_user b /\
  p_src a = p_src b /\ p_eb a = p_eb b /\ feq (p_gps a) (p_gps b) = true /\
  (7 <= p_fmt a -> p_red a = p_red b /\ p_green a = p_green b /\ p_blue a = p_blue b) /\
  (p_fmt a = 8 -> p_nir a = p_nir b).
Proof.
  unfold point_eq_spec. rewrite !andb_true_iff, !orb_true_iff, !andb_true_iff, !negb_true_iff, !Z.eqb_eq.
  destruct (list_eq_dec Z.eq_dec (p_eb a) (p_eb b)); intuition (try lia; try discriminate).
Qed.

(* ---- C16 ---- *)
Definition angle_ok (a : Z) : bool :=
  match angle_of_degrees (scan_angle_degrees a) with
  | Ok z => (Z.abs (z - a) <=? 1) && in_range (-32768) 32767 z
  | _ => false
  end.
Definition angle_chunk (i : Z) : bool := forallb (fun j => angle_ok (-32768 + 256 * i + j)) bytes256.
Lemma angle_sweep : forallb angle_chunk bytes256 = true.
Proof. vm_compute. reflexivity. Qed.
Lemma angle_all a : -32768 <= a <= 32767 -> angle_ok a = true.
Proof.
  intros H. pose proof angle_sweep as S. rewrite forallb_forall in S.
  specialize (S ((a + 32768) / 256)). unfold angle_chunk in S.
  assert (I1 : In ((a + 32768) / 256) bytes256).
  { apply in_bytes256. Z.div_mod_to_equations. lia. }
  specialize (S I1). rewrite forallb_forall in S. specialize (S ((a + 32768) mod 256)).
  assert (I2 : In ((a + 32768) mod 256) bytes256).
  { apply in_bytes256. apply Z.mod_pos_bound. lia. }
  specialize (S I2).
  replace (-32768 + 256 * ((a + 32768) / 256) + (a + 32768) mod 256) with a in S; [exact S|].
  Z.div_mod_to_equations. lia.
Qed.
Lemma angle_near a : -32768 <= a <= 32767 ->
  exists z, angle_of_degrees (scan_angle_degrees a) = Ok z /\ Z.abs (z - a) <= 1 /\ -32768 <= z <= 32767.
Proof.
  intros H. pose proof (angle_all a H) as S. unfold angle_ok in S.
  destruct (angle_of_degrees (scan_angle_degrees a)) as [z| |]; try discriminate.
  apply andb_true_iff in S. destruct S as (S1 & S2). apply in_range_spec in S2. exists z. split; auto. split; lia.
Qed.

Lemma angle_loses_one : exists a, -32768 <= a <= 32767 /\
  angle_of_degrees (scan_angle_degrees a) = Ok (a - 1).
Proof.
  set (f := fun j => match angle_of_degrees (scan_angle_degrees j) with Ok z => z =? j - 1 | _ => false end).
  assert (E : existsb f bytes256 = true) by (vm_compute; reflexivity).
  apply existsb_exists in E. destruct E as (a & Ha & E).
  exists a. split.
  - unfold bytes256 in Ha. apply in_map_iff in Ha. destruct Ha as (n & <- & Hn). apply in_seq in Hn. lia.
  - unfold f in E. destruct (angle_of_degrees (scan_angle_degrees a)); try discriminate. f_equal. now apply Z.eqb_eq.
Qed.

Lemma point_eqb_fields a b : wf_point a -> wf_point b -> point_eqb a b = Ok true ->
  p_fmt a = p_fmt b /\ p_reclen a = p_reclen b /\ p_intensity a = p_intensity b /\ p_returns a = p_returns b /\
  p_flags a = p_flags b /\ p_class a = p_class b /\ p_angle a = p_angle b /\ p_user a = p_user b /\
  p_src a = p_src b /\ p_eb a = p_eb b /\ feq (p_gps a) (p_gps b) = true /\
  (7 <= p_fmt a -> p_red a = p_red b /\ p_green a = p_green b /\ p_blue a = p_blue b) /\
  (p_fmt a = 8 -> p_nir a = p_nir b) /\
  are_close (p_x a) (p_x b) eps_1em6 = true /\ are_close (p_y a) (p_y b) eps_1em6 = true /\
  are_close (p_z a) (p_z b) eps_1em6 = true.
Proof.
  intros Wa Wb H. rewrite point_eqb_ok in H by assumption. injection H as H.
  pose proof (point_eq_spec_fields _ _ H) as F.
  repeat (split; [apply F|]). unfold point_eq_spec in H. rewrite !andb_true_iff in H. tauto.
Qed.

(* whole-point range check *)
Lemma remove_scale_cases v s o : fnan (fdiv (fsub v o) s) = false ->
  (exists z, remove_scale_i32 v s o = Ok z) /\
    (in_range INT32_MIN INT32_MAX (ZnearestA (R64 (fdiv (fsub v o) s))) = true /\
     ffinite (fdiv (fsub v o) s) = true)
  \/ remove_scale_i32 v s o = Throw /\
    ~ (in_range INT32_MIN INT32_MAX (ZnearestA (R64 (fdiv (fsub v o) s))) = true /\
     ffinite (fdiv (fsub v o) s) = true).
Proof.
  intros N. destruct (ffinite (fdiv (fsub v o) s)) eqn:F.
  - rewrite (remove_scale_finite v s o F).
    destruct (in_range INT32_MIN INT32_MAX _); [left; eauto|right]. split; [reflexivity|]. intros [? ?]; discriminate.
  - right. split; [now apply remove_scale_inf|]. intros [_ ?]; discriminate.
Qed.

Lemma pack_iff_in_range p s o :
  let ok v sc of := in_range INT32_MIN INT32_MAX (ZnearestA (R64 (fdiv (fsub v of) sc))) = true /\
                    ffinite (fdiv (fsub v of) sc) = true in
  fnan (fdiv (fsub (p_x p) (vx o)) (vx s)) = false ->
  fnan (fdiv (fsub (p_y p) (vy o)) (vy s)) = false ->
  fnan (fdiv (fsub (p_z p) (vz o)) (vz s)) = false ->
  (exists b, point_pack p s o = Ok b) /\
    ok (p_x p) (vx s) (vx o) /\ ok (p_y p) (vy s) (vy o) /\ ok (p_z p) (vz s) (vz o)
  \/ point_pack p s o = Throw /\
    ~ (ok (p_x p) (vx s) (vx o) /\ ok (p_y p) (vy s) (vy o) /\ ok (p_z p) (vz s) (vz o)).
Proof.
  cbv zeta. intros Nx Ny Nz. unfold point_pack.
  destruct (remove_scale_cases _ _ _ Nx) as [((x & ->) & Hx)|(-> & Hx)]; cbn [bind]; [|right; tauto].
  destruct (remove_scale_cases _ _ _ Ny) as [((y & ->) & Hy)|(-> & Hy)]; cbn [bind]; [|right; tauto].
  destruct (remove_scale_cases _ _ _ Nz) as [((z & ->) & Hz)|(-> & Hz)]; cbn [bind]; [|right; tauto].
  left. split; [eexists; reflexivity|tauto].
Qed.
