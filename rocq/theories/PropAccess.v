(* PropAccess.v - C74: accessors of extents and configurations *)
From Verif Require Import Base BaseFacts ModelFloat ModelKey ModelGeom ModelPoint ModelHeader ModelVlr ModelExtents ModelConfig ModelAccess SpecPoint SpecHeader SpecConfig
  ProofPoint ProofPoints ProofExtents PropConfig.
Open Scope Z_scope.

(* position of a dimension in the extents record: the order of the fields of point formats 6 to 8 *)
Definition spec_slot (d : dim) : nat :=
  match d with
  | DX => 0 | DY => 1 | DZ => 2 | DIntensity => 3 | DReturnNumber => 4 | DNumberOfReturns => 5 | DScannerChannel => 6 | DScanDirection => 7 | DEdgeOfFlight => 8
  | DClassification => 9 | DUserData => 10 | DScanAngle => 11 | DPointSource => 12 | DGpsTime => 13 | DRed => 14 | DGreen => 15 | DBlue => 16 | DNir => 17
  end%nat.
Lemma slot_below d fmt : 6 <= fmt <= 8 -> has_dim fmt d -> Z.of_nat (spec_slot d) < las_dims fmt.
Proof. intros F H. assert (E : fmt = 6 \/ fmt = 7 \/ fmt = 8) by lia. destruct d, E as [-> |[-> | ->]]; cbn in *; lia. Qed.
Lemma has_dim_dec fmt d : 6 <= fmt <= 8 -> has_dim fmt d \/ (~ has_dim fmt d /\ forall x, xs_fmt x = fmt -> dim_get d x = Throw /\ forall e, dim_set d e x = Throw).
Proof.
  intros F. assert (E : fmt = 6 \/ fmt = 7 \/ fmt = 8) by lia. destruct d; try (left; exact I).
  1-3: destruct E as [-> |[-> | ->]]; cbn [has_dim]; [right; split; [lia|]; intros x X; cbn [dim_get dim_set]; rewrite X; split; reflexivity|left; lia..].
  destruct E as [-> |[-> | ->]]; cbn [has_dim]; [right; split; [lia|]; intros x X; cbn [dim_get dim_set]; rewrite X; split; reflexivity..|left; lia].
Qed.
Lemma get_is d x : has_dim (xs_fmt x) d -> dim_get d x = get_nth (spec_slot d) (xs_items x).
Proof.
  destruct d; cbn [has_dim dim_get spec_slot]; intros H; try reflexivity.
  1-3: replace (6 <? xs_fmt x) with true by lia; reflexivity. rewrite H. reflexivity.
Qed.
Lemma set_is d e x : has_dim (xs_fmt x) d -> dim_set d e x = put_slot (spec_slot d) e x.
Proof.
  destruct d; cbn [has_dim dim_set spec_slot]; intros H; try reflexivity.
  1-3: replace (6 <? xs_fmt x) with true by lia; reflexivity. rewrite H. reflexivity.
Qed.
(* a getter returns the extent at the dimension's position, or throws when the format lacks the dimension; never undefined *)
Theorem C74_getters : forall d x n, shaped x n -> (has_dim (xs_fmt x) d -> exists e, dim_get d x = Ok e /\ nth_error (xs_items x) (spec_slot d) = Some e) /\ (~ has_dim (xs_fmt x) d -> dim_get d x = Throw).
Proof.
  intros d x n (F & N & L). split.
  - intros H. pose proof (slot_below d _ F H). rewrite (get_is d x H). unfold get_nth. destruct (nth_error (xs_items x) (spec_slot d)) as [e|] eqn:E; [eauto|]. apply nth_error_None in E. lia.
  - intros H. destruct (has_dim_dec (xs_fmt x) d F) as [H'|(_ & T)]; [contradiction|]. exact (proj1 (T x eq_refl)).
Qed.
Print Assumptions C74_getters.
Lemma slot_inj a b : spec_slot a = spec_slot b -> a = b.
Proof. destruct a, b; cbn; intros; try reflexivity; discriminate. Qed.
(* a setter changes its dimension and nothing else *)
Theorem C74_setters : forall d e x n, shaped x n ->
  (has_dim (xs_fmt x) d -> exists y, dim_set d e x = Ok y /\ shaped y n /\ xs_fmt y = xs_fmt x /\ xs_ext y = xs_ext x /\ dim_get d y = Ok e /\ (forall d', d' <> d -> dim_get d' y = dim_get d' x) /\ eb_extents y = eb_extents x) /\
  (~ has_dim (xs_fmt x) d -> dim_set d e x = Throw).
Proof.
  intros d e x n (F & N & L). split.
  - intros H. pose proof (slot_below d _ F H) as B. rewrite (set_is d e x H). unfold put_slot. destruct (set_nth_ok e (spec_slot d) (xs_items x)) as (l & E & LL & NL); [lia|]. rewrite E. cbn [bind].
    exists (mkExts (xs_fmt x) (xs_ext x) l). split; [reflexivity|]. split; [unfold shaped; cbn [xs_fmt xs_items]; lia|]. split; [reflexivity|]. split; [reflexivity|]. split; [|split].
    + rewrite get_is by exact H. unfold get_nth. cbn [xs_items]. rewrite NL, Nat.eqb_refl. reflexivity.
    + intros d' D. destruct (has_dim_dec (xs_fmt x) d' F) as [H'|(_ & T)].
      * rewrite !get_is by exact H'. unfold get_nth. cbn [xs_items]. rewrite NL. destruct (Nat.eqb_spec (spec_slot d') (spec_slot d)) as [Q|Q]; [apply slot_inj in Q; contradiction|reflexivity].
      * rewrite (proj1 (T x eq_refl)). apply T. reflexivity.
    + unfold eb_extents. cbn [xs_fmt xs_items]. rewrite base_dims_ok by assumption. cbn [bind]. f_equal. apply nth_error_ext; [rewrite !skipn_length; lia|].
      intros i _. rewrite !nth_error_skipn'. rewrite NL. destruct (Nat.eqb_spec (Z.to_nat (las_dims (xs_fmt x)) + i) (spec_slot d)); [lia|reflexivity].
  - intros H. destruct (has_dim_dec (xs_fmt x) d F) as [H'|(_ & T)]; [contradiction|]. exact (proj2 (T x eq_refl) e).
Qed.
Print Assumptions C74_setters.
(* ExtraBytes(): one extent per extra-bytes item; the setter takes exactly that many *)
Theorem C74_extra_bytes : forall l x n, shaped x n -> (exists l0, eb_extents x = Ok l0 /\ Z.of_nat (length l0) = n) /\
  (Z.of_nat (length l) = n -> exists y, set_eb_extents l x = Ok y /\ shaped y n /\ xs_fmt y = xs_fmt x /\ xs_ext y = xs_ext x /\ eb_extents y = Ok l /\ forall d, dim_get d y = dim_get d x) /\
  (Z.of_nat (length l) <> n -> set_eb_extents l x = Throw).
Proof.
  intros l x n (F & N & L). pose proof (las_dims_range (xs_fmt x)) as LD.
  assert (NE : num_extents (xs_fmt x) 0 = Ok (las_dims (xs_fmt x))) by (rewrite num_extents_ok by lia; f_equal; lia).
  assert (S64 : to_u 64 (Z.of_nat (length (xs_items x)) - las_dims (xs_fmt x)) = n) by (rewrite L; rewrite to_u_id by lia; lia).
  split; [|split].
  - unfold eb_extents. rewrite base_dims_ok by assumption. cbn [bind]. eexists. split; [reflexivity|]. rewrite skipn_length. lia.
  - intros LL. unfold set_eb_extents. rewrite NE. cbn [bind]. rewrite S64, LL, Z.eqb_refl. cbn [negb].
    destruct (copy_range_ok l (length l) 0 (Z.to_nat (las_dims (xs_fmt x))) (xs_items x)) as (r & E & LR & NR); [lia|lia|]. rewrite E. cbn [bind].
    exists (mkExts (xs_fmt x) (xs_ext x) r). split; [reflexivity|]. split; [unfold shaped; cbn [xs_fmt xs_items]; lia|]. split; [reflexivity|]. split; [reflexivity|]. split.
    + unfold eb_extents. cbn [xs_fmt xs_items]. rewrite base_dims_ok by assumption. cbn [bind]. f_equal. apply nth_error_ext; [rewrite skipn_length; lia|].
      intros i Hi. rewrite skipn_length in Hi. rewrite nth_error_skipn', NR. replace ((Z.to_nat (las_dims (xs_fmt x)) <=? Z.to_nat (las_dims (xs_fmt x)) + i)%nat) with true by lia.
      replace ((Z.to_nat (las_dims (xs_fmt x)) + i <? Z.to_nat (las_dims (xs_fmt x)) + length l)%nat) with true by lia. cbn [andb]. f_equal. lia.
    + intros d. destruct (has_dim_dec (xs_fmt x) d F) as [H|(_ & T)].
      * pose proof (slot_below d _ F H). rewrite !get_is by exact H. unfold get_nth. cbn [xs_items]. rewrite NR. replace ((Z.to_nat (las_dims (xs_fmt x)) <=? spec_slot d)%nat) with false by lia. reflexivity.
      * rewrite (proj1 (T x eq_refl)). apply T. reflexivity.
  - intros LL. unfold set_eb_extents. rewrite NE. cbn [bind]. rewrite S64. destruct (Z.eqb_spec (Z.of_nat (length l)) n); [contradiction|reflexivity].
Qed.
Print Assumptions C74_extra_bytes.
(* SetGpsTimeBit sets bit 0 of the global encoding, keeps the others and every other field *)
Theorem C74_gps_bit : forall h, wf_hdr h -> let g := set_gps_time_bit h in wf_hdr g /\ Z.testbit (h_enc g) 0 = true /\ (forall i, 0 < i -> Z.testbit (h_enc g) i = Z.testbit (h_enc h) i) /\
  set_gps_time_bit g = g /\ (h_src g, h_day g, h_year g, h_max g, h_min g, h_pbr g, h_scale g, h_offset g) = (h_src h, h_day h, h_year h, h_max h, h_min h, h_pbr h, h_scale h, h_offset h) /\
  (h_fmt g, h_reclen g, h_pcount g, h_poff g, h_vlrs g, h_evoff g, h_evcnt g, h_guid g, h_sys g, h_gen g, h_copc g) = (h_fmt h, h_reclen h, h_pcount h, h_poff h, h_vlrs h, h_evoff h, h_evcnt h, h_guid h, h_sys h, h_gen h, h_copc h).
Proof.
  intros h W g. subst g. split; [|split; [|split; [|split; [|split; reflexivity]]]].
  - unfold wf_hdr in *. cbn [set_gps_time_bit h_src h_enc h_day h_year h_max h_min h_pbr h_scale h_offset h_fmt h_reclen h_pcount h_poff h_vlrs h_evoff h_evcnt h_guid h_sys h_gen h_copc].
    assert (B : 0 <= Z.lor (h_enc h) 1 < 65536); [|tauto]. assert (E : 0 <= h_enc h < 65536) by tauto. split; [apply Z.lor_nonneg; lia|].
    destruct (Z.eq_dec (h_enc h) 0) as [->|NZ]; [cbn; lia|].
    assert (Z.log2 (Z.lor (h_enc h) 1) < 16). { rewrite Z.log2_lor by lia. cbn [Z.log2]. change (Z.log2 1) with 0. rewrite Z.max_l by apply Z.log2_nonneg. apply Z.log2_lt_pow2; lia. }
    change 65536 with (2 ^ 16). apply Z.log2_lt_pow2; [|assumption]. assert (0 <= Z.lor (h_enc h) 1) by (apply Z.lor_nonneg; lia).
    assert (Z.lor (h_enc h) 1 <> 0) by (rewrite Z.lor_eq_0_iff; lia). lia.
  - cbn [set_gps_time_bit h_enc]. rewrite Z.lor_spec. cbn. apply orb_true_r.
  - intros i I. cbn [set_gps_time_bit h_enc]. rewrite Z.lor_spec. replace (Z.testbit 1 i) with false; [apply orb_false_r|]. symmetry. change 1 with (2 ^ 0). apply Z.pow2_bits_false. lia.
  - unfold set_gps_time_bit. cbn [h_src h_enc h_day h_year h_max h_min h_pbr h_scale h_offset h_fmt h_reclen h_pcount h_poff h_vlrs h_evoff h_evcnt h_guid h_sys h_gen h_copc].
    rewrite <- Z.lor_assoc. reflexivity.
Qed.
Print Assumptions C74_gps_bit.
(* a LAZ configuration made from any other (a COPC file's, say) keeps everything but the flag that makes the writer reserve COPC's VLRs *)
Theorem C74_laz_config : forall z, let y := laz_writer_config z in h_copc (z_hdr y) = false /\ z_wkt y = z_wkt z /\ z_ebs y = z_ebs z /\ header_with_copc (z_hdr y) (h_copc (z_hdr z)) = z_hdr z.
Proof. intros z. destruct z as [h w e], h. cbn. repeat split. Qed.
Print Assumptions C74_laz_config.
Example C74_nonvacuous : shaped sample_extents 1 /\ has_dim (xs_fmt sample_extents) DBlue /\ ~ has_dim (xs_fmt sample_extents) DNir /\ dim_get DX sample_extents <> dim_get DY sample_extents /\
  Z.of_nat (length [default_extent]) = 1.
Proof.
  destruct C24_nonvacuous as (S & _). split; [exact S|]. split; [cbn; lia|]. split; [cbn; lia|]. split; [|reflexivity].
  intros E. assert (T : match dim_get DX sample_extents, dim_get DY sample_extents with Ok a, Ok b => feq (ex_max a) (ex_max b) | _, _ => true end = true) by (rewrite E; vm_compute; reflexivity).
  vm_compute in T. discriminate T.
Qed.
