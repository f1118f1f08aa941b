(* ProofPoint.v - proofs about entries and points *)
From Verif Require Import BaseFacts ModelFloat ModelKey ModelGeom ModelEntry ModelPoint SpecPoint ProofFloat.
From Coq Require Import ZifyBool ZifyNat Reals Lra.
From Flocq Require Import Core IEEE754.BinarySingleNaN IEEE754.Binary IEEE754.Bits.
Open Scope Z_scope.

(* ---- C06 ---- *)
Lemma i32_range v : i32 v = true -> - 2 ^ (8 * Z.of_nat 4 - 1) <= v < 2 ^ (8 * Z.of_nat 4 - 1).
Proof. unfold i32, in_range, INT32_MIN, INT32_MAX. cbn. lia. Qed.
Lemma u64_range v : u64 v = true -> 0 <= v < 2 ^ (8 * Z.of_nat 8).
Proof. unfold u64, in_range. cbn. lia. Qed.

Lemma entry_pack_length e : length (entry_pack e) = 32%nat.
Proof. unfold entry_pack, enc_i32, enc_u64. rewrite !app_length, !le_enc_length. reflexivity. Qed.

Lemma entry_roundtrip e r : wf_entry e = true -> entry_unpack (entry_pack e ++ r) = Some (e, r).
Proof.
  destruct e as [[d x y z] off sz cnt]. unfold wf_entry, wf_key; cbn [e_key e_offset e_size e_count kd kx ky kz].
  rewrite !andb_true_iff. intros ((((((Hd & Hx) & Hy) & Hz) & Ho) & Hs) & Hc).
  apply i32_range in Hd, Hx, Hy, Hz, Hs, Hc. apply u64_range in Ho.
  unfold entry_pack, entry_unpack, enc_i32, enc_u64; cbn [e_key e_offset e_size e_count kd kx ky kz].
  rewrite <- !app_assoc.
  rewrite dec_s_enc by (auto; lia). rewrite dec_s_enc by (auto; lia). rewrite dec_s_enc by (auto; lia).
  rewrite dec_s_enc by (auto; lia). rewrite dec_u_enc by auto. rewrite dec_s_enc by (auto; lia).
  rewrite dec_s_enc by (auto; lia). reflexivity.
Qed.

Lemma entry_pack_wf e : wf_bytes (entry_pack e).
Proof.
  unfold entry_pack, enc_i32, enc_u64. rewrite !wf_bytes_app. repeat split; apply le_enc_wf.
Qed.

(* ---- C07 ---- *)
Definition bytes256 : list Z := map Z.of_nat (seq 0 256).
Lemma in_bytes256 b : 0 <= b < 256 -> In b bytes256.
Proof.
  intros H. unfold bytes256. apply in_map_iff. exists (Z.to_nat b). split; [lia|]. apply in_seq. lia.
Qed.
Lemma sweep2 (P : Z -> Z -> bool) :
  forallb (fun a => forallb (P a) bytes256) bytes256 = true ->
  forall a b, 0 <= a < 256 -> 0 <= b < 256 -> P a b = true.
Proof.
  intros H a b Ha Hb. rewrite forallb_forall in H. specialize (H a (in_bytes256 a Ha)).
  cbv beta in H. rewrite forallb_forall in H. apply H. now apply in_bytes256.
Qed.

(* the getters only look at the two bit-field bytes *)
Definition acc_get_b (f : acc) (r fl : Z) : Z :=
  match f with
  | ReturnNumber => Z.land r 15 | NumberOfReturns => Z.shiftr r 4
  | Synthetic => Z.land fl 1 | KeyPoint => Z.land (Z.shiftr fl 1) 1
  | Withheld => Z.land (Z.shiftr fl 2) 1 | Overlap => Z.land (Z.shiftr fl 3) 1
  | ScannerChannel => Z.land (Z.shiftr fl 4) 3 | ScanDirectionFlag => Z.land (Z.shiftr fl 6) 1
  | EdgeOfFlightLineFlag => if Z.shiftr fl 7 =? 0 then 0 else 1
  end.
Lemma acc_get_b_ok f p : acc_get f p = acc_get_b f (p_returns p) (p_flags p).
Proof. destruct f; reflexivity. Qed.

Definition acc_set_b (f : acc) (v r fl : Z) : Z * Z :=
  match f with
  | ReturnNumber => (to_u 8 (Z.lor v (Z.land r 240)), fl)
  | NumberOfReturns => (to_u 8 (Z.lor (Z.shiftl v 4) (Z.land r 15)), fl)
  | Synthetic => (r, to_u 8 (Z.lor (Z.land fl 254) v))
  | KeyPoint => (r, to_u 8 (Z.lor (Z.land fl 253) (Z.shiftl v 1)))
  | Withheld => (r, to_u 8 (Z.lor (Z.land fl 251) (Z.shiftl v 2)))
  | Overlap => (r, to_u 8 (Z.lor (Z.land fl 247) (Z.shiftl v 3)))
  | ScannerChannel => (r, to_u 8 (Z.lor (Z.land fl 207) (Z.shiftl v 4)))
  | ScanDirectionFlag => (r, to_u 8 (Z.lor (Z.land fl 191) (Z.shiftl v 6)))
  | EdgeOfFlightLineFlag => (r, to_u 8 (Z.lor (Z.land fl 127) (Z.shiftl v 7)))
  end.
Lemma with_same_returns p : with_returns (p_returns p) p = p.
Proof. now destruct p. Qed.
Lemma acc_set_b_ok f v p : acc_arg f v -> v <= acc_max f ->
  acc_set f v p = Ok (with_returns (fst (acc_set_b f v (p_returns p) (p_flags p)))
                     (with_flags (snd (acc_set_b f v (p_returns p) (p_flags p))) p)).
Proof.
  intros Ha Hm. destruct f; cbn [acc_set acc_set_b fst snd acc_max acc_arg] in *;
    unfold set_ret_number, set_num_returns, set_scanner_channel;
    try (match goal with |- context [?m <? v] => destruct (Z.ltb_spec m v); [lia|] end);
    destruct p; reflexivity.
Qed.

Definition acc_all : list acc := [ReturnNumber; NumberOfReturns; Synthetic; KeyPoint; Withheld; Overlap;
  ScannerChannel; ScanDirectionFlag; EdgeOfFlightLineFlag].
Definition acc_eq_dec (a b : acc) : {a = b} + {a <> b}.
Proof. decide equality. Defined.
Definition is_ret (f : acc) : bool := match f with ReturnNumber | NumberOfReturns => true | _ => false end.

(* finite sweep: the byte the setter writes, for every old byte and argument *)
Definition acc_ok1 (f : acc) (b v : Z) : bool :=
  implb (v <=? acc_max f)
    (let '(r', fl') := acc_set_b f v b b in
     let n := if is_ret f then r' else fl' in
     (0 <=? n) && (n <? 256) && (acc_get_b f n n =? v) &&
     forallb (fun g => if acc_eq_dec g f then true
                       else if Bool.eqb (is_ret f) (is_ret g) then acc_get_b g n n =? acc_get_b g b b else true) acc_all).
Lemma acc_sweep : forall f b v, 0 <= b < 256 -> 0 <= v < 256 -> acc_ok1 f b v = true.
Proof.
  intros f b v Hb Hv. revert b v Hb Hv.
  destruct f; apply sweep2; vm_compute; reflexivity.
Qed.

Lemma acc_get_b_dep f r fl : acc_get_b f r fl = if is_ret f then acc_get_b f r r else acc_get_b f fl fl.
Proof. destruct f; reflexivity. Qed.
Lemma acc_set_b_dep f v r fl : acc_set_b f v r fl =
  if is_ret f then (fst (acc_set_b f v r r), fl) else (r, snd (acc_set_b f v fl fl)).
Proof. destruct f; reflexivity. Qed.

Lemma acc_get_dep f q : acc_get f q =
  if is_ret f then acc_get_b f (p_returns q) (p_returns q) else acc_get_b f (p_flags q) (p_flags q).
Proof. rewrite acc_get_b_ok. apply acc_get_b_dep. Qed.

Lemma acc_arg_byte f v : acc_arg f v -> 0 <= v < 256.
Proof. destruct f; cbn; lia. Qed.

Lemma in_acc_all g : In g acc_all.
Proof. destruct g; cbn; tauto. Qed.

Lemma acc_set_spec f v p : 0 <= p_returns p < 256 -> 0 <= p_flags p < 256 -> acc_arg f v -> v <= acc_max f ->
  exists p', acc_set f v p = Ok p' /\ acc_get f p' = v /\
    (forall g, g <> f -> acc_get g p' = acc_get g p) /\
    with_returns 0 (with_flags 0 p') = with_returns 0 (with_flags 0 p) /\
    0 <= p_returns p' < 256 /\ 0 <= p_flags p' < 256.
Proof.
  intros Hr Hf Ha Hm. pose proof (acc_arg_byte f v Ha) as Hv.
  eexists. split; [apply acc_set_b_ok; assumption|].
  rewrite acc_set_b_dep.
  destruct (is_ret f) eqn:Er.
  - pose proof (acc_sweep f (p_returns p) v Hr Hv) as S. unfold acc_ok1 in S.
    destruct (Z.leb_spec v (acc_max f)); [|lia]. cbn [implb] in S.
    destruct (acc_set_b f v (p_returns p) (p_returns p)) as [r' fl'] eqn:Es. rewrite Er in S.
    rewrite !andb_true_iff, forallb_forall in S. destruct S as (((S1 & S2) & S3) & S4).
    cbn [fst snd].
    assert (E1 : acc_get f (with_returns r' (with_flags (p_flags p) p)) = v).
    { rewrite acc_get_b_ok, acc_get_b_dep, Er. destruct p; cbn. lia. }
    split; [exact E1|]. split.
    + intros g Hg. rewrite !acc_get_dep.
      destruct (is_ret g) eqn:Eg; [|destruct p; reflexivity].
      specialize (S4 g (in_acc_all g)). destruct (acc_eq_dec g f); [contradiction|].
      cbn [Bool.eqb] in S4. destruct p; cbn in *. lia.
    + destruct p; cbn in *. repeat split; lia.
  - pose proof (acc_sweep f (p_flags p) v Hf Hv) as S. unfold acc_ok1 in S.
    destruct (Z.leb_spec v (acc_max f)); [|lia]. cbn [implb] in S.
    destruct (acc_set_b f v (p_flags p) (p_flags p)) as [r' fl'] eqn:Es. rewrite Er in S.
    rewrite !andb_true_iff, forallb_forall in S. destruct S as (((S1 & S2) & S3) & S4).
    cbn [fst snd].
    assert (E1 : acc_get f (with_returns (p_returns p) (with_flags fl' p)) = v).
    { rewrite acc_get_b_ok, acc_get_b_dep, Er. destruct p; cbn. lia. }
    split; [exact E1|]. split.
    + intros g Hg. rewrite !acc_get_dep.
      destruct (is_ret g) eqn:Eg; [destruct p; reflexivity|].
      specialize (S4 g (in_acc_all g)). destruct (acc_eq_dec g f); [contradiction|].
      cbn [Bool.eqb] in S4. destruct p; cbn in *. lia.
    + destruct p; cbn in *. repeat split; lia.
Qed.

Lemma acc_set_throw f v p : acc_arg f v -> acc_max f < v -> acc_set f v p = Throw.
Proof.
  intros Ha Hm. destruct f; cbn [acc_set acc_max acc_arg] in *; try lia;
    unfold set_ret_number, set_num_returns, set_scanner_channel;
    match goal with |- context [?m <? v] => destruct (Z.ltb_spec m v); [reflexivity|lia] end.
Qed.

(* ---- wf_point is an invariant ---- *)
Lemma las_base_ok fmt : 6 <= fmt <= 8 -> base_size fmt = Ok (las_base fmt).
Proof. intros H. assert (fmt = 6 \/ fmt = 7 \/ fmt = 8) as [->|[->| ->]] by lia; reflexivity. Qed.
Lemma format_has_rgb_ok fmt : 6 <= fmt <= 8 -> format_has_rgb fmt = Ok (7 <=? fmt).
Proof. intros H. assert (fmt = 6 \/ fmt = 7 \/ fmt = 8) as [->|[->| ->]] by lia; reflexivity. Qed.
Lemma format_has_nir_ok fmt : 6 <= fmt <= 8 -> format_has_nir fmt = Ok (fmt =? 8).
Proof. intros H. assert (fmt = 6 \/ fmt = 7 \/ fmt = 8) as [->|[->| ->]] by lia; reflexivity. Qed.
Lemma las_base_range fmt : 30 <= las_base fmt <= 38.
Proof. unfold las_base. destruct (fmt =? 6), (fmt =? 7); lia. Qed.

Lemma wf_zeros n : wf_bytes (zeros n).
Proof. unfold zeros. induction n as [|n IH]; cbn; constructor; auto. lia. Qed.

Lemma new_point_ok fmt eb : 6 <= fmt <= 8 -> 0 <= eb <= 65535 ->
  new_point fmt eb = Ok (mkPoint fmt (las_base fmt + eb) f0 f0 f0 0 0 0 0 0 0 0 f0 0 0 0 0
                           (7 <=? fmt) (fmt =? 8) (zeros (Z.to_nat eb))).
Proof.
  intros Hf He. unfold new_point.
  destruct (Z.ltb_spec fmt 6); [lia|]. destruct (Z.ltb_spec 8 fmt); [lia|]. cbn [orb].
  rewrite las_base_ok, format_has_rgb_ok, format_has_nir_ok by lia. cbn [bind].
  pose proof (las_base_range fmt). unfold to_u. rewrite Z.mod_small by lia. reflexivity.
Qed.

Lemma new_point_throw fmt eb : ~ (6 <= fmt <= 8) -> new_point fmt eb = Throw.
Proof.
  intros H. unfold new_point.
  destruct (Z.ltb_spec fmt 6); [reflexivity|]. destruct (Z.ltb_spec 8 fmt); [reflexivity|lia].
Qed.

Lemma new_point_wf fmt eb p : 0 <= eb <= 65535 -> new_point fmt eb = Ok p -> wf_point p.
Proof.
  intros He H. assert (Hf : 6 <= fmt <= 8 \/ ~ (6 <= fmt <= 8)) by lia.
  destruct Hf as [Hf|Hf]; [|rewrite new_point_throw in H by assumption; discriminate].
  rewrite new_point_ok in H by assumption. inversion H; subst p; clear H.
  unfold wf_point; cbn. rewrite zeros_length. repeat split; try lia. apply wf_zeros.
Qed.

Ltac wfp := unfold wf_point in *; cbn [p_fmt p_reclen p_eb p_intensity p_returns p_flags p_class p_user p_angle p_src p_red p_green p_blue p_nir p_has_rgb p_has_nir
   with_x with_y with_z with_intensity with_returns with_flags with_class with_user with_angle with_src with_gps with_red with_green with_blue with_nir with_eb fill_rgb fill_common] in *; intuition (auto; lia).

Lemma point_eb_size_ok p : wf_point p -> point_eb_size p = Ok (Z.of_nat (length (p_eb p))).
Proof.
  intros (Hf & Hr & He & _). unfold point_eb_size, eb_byte_size. rewrite las_base_ok by lia. cbn [bind].
  rewrite Hr. unfold to_u. f_equal. rewrite Z.mod_small by lia. lia.
Qed.

Lemma to_point_format_ok fmt p : wf_point p -> 6 <= fmt <= 8 ->
  to_point_format fmt p = Ok (with_fmt fmt (with_reclen (las_base fmt + Z.of_nat (length (p_eb p)))
       (with_has_rgb (7 <=? fmt) (with_has_nir (fmt =? 8) p)))).
Proof.
  intros (Hf & Hr & He & _) H. unfold to_point_format.
  destruct (Z.ltb_spec fmt 6); [lia|]. destruct (Z.ltb_spec 8 fmt); [lia|]. cbn [orb].
  rewrite las_base_ok, format_has_rgb_ok, format_has_nir_ok by lia. cbn [bind].
  pose proof (las_base_range fmt). unfold to_u. rewrite Z.mod_small by lia. reflexivity.
Qed.
Lemma to_point_format_throw fmt p : ~ (6 <= fmt <= 8) -> to_point_format fmt p = Throw.
Proof.
  intros H. unfold to_point_format.
  destruct (Z.ltb_spec fmt 6); [reflexivity|]. destruct (Z.ltb_spec 8 fmt); [reflexivity|lia].
Qed.

Lemma point_step_wf o p p' : wf_point p -> op_wf o -> point_step o p = Ok p' -> wf_point p'.
Proof.
  intros Hp Ho H. destruct o; cbn [point_step op_wf] in *;
    try (inversion H; subst p'; clear H; destruct p; wfp).
  - (* bit field *)
    set (g := acc_of_nat f) in *.
    assert (M : v <= acc_max g \/ acc_max g < v) by lia.
    destruct M as [M|M]; [|rewrite acc_set_throw in H by assumption; discriminate].
    destruct (acc_set_spec g v p) as (q & E & _ & _ & Q & R1 & R2); auto; try apply Hp.
    rewrite H in E; inversion E; subst q; clear E.
    destruct p, p'; cbn in Q. inversion Q; subst. wfp.
  - unfold set_rgb in H. destruct (p_has_rgb p) eqn:Eh; [|discriminate].
    inversion H; subst p'; clear H; destruct p; cbn in Eh; subst; wfp.
  - unfold set_red in H. destruct (p_has_rgb p) eqn:Eh; [|discriminate].
    inversion H; subst p'; clear H; destruct p; cbn in Eh; subst; wfp.
  - unfold set_green in H. destruct (p_has_rgb p) eqn:Eh; [|discriminate].
    inversion H; subst p'; clear H; destruct p; cbn in Eh; subst; wfp.
  - unfold set_blue in H. destruct (p_has_rgb p) eqn:Eh; [|discriminate].
    inversion H; subst p'; clear H; destruct p; cbn in Eh; subst; wfp.
  - unfold set_nir in H. destruct (p_has_nir p) eqn:Eh; [|discriminate].
    inversion H; subst p'; clear H; destruct p; cbn in Eh; subst; wfp.
  - unfold set_extra_bytes in H. rewrite point_eb_size_ok in H by assumption. cbn [bind] in H.
    destruct (Z.eqb_spec (Z.of_nat (length l)) (Z.of_nat (length (p_eb p)))) as [E|E]; [|discriminate].
    inversion H; subst p'; clear H. destruct p; cbn in E. wfp.
  - assert (Hf : 6 <= fmt <= 8 \/ ~ (6 <= fmt <= 8)) by lia.
    destruct Hf as [Hf|Hf]; [|rewrite to_point_format_throw in H by assumption; discriminate].
    rewrite to_point_format_ok in H by assumption. inversion H; subst p'; clear H.
    destruct p; unfold wf_point in *; cbn in *; intuition.
Qed.

Lemma point_run_wf ops : forall p, wf_point p -> Forall op_wf ops -> wf_point (point_run ops p).
Proof.
  induction ops as [|o ops IH]; intros p Hp Ho; cbn [point_run]; auto.
  inversion Ho; subst. destruct (point_step o p) as [q| |] eqn:E; auto.
  apply IH; auto. eapply point_step_wf; eauto.
Qed.

(* ---- C10 ---- *)
Lemma remove_scale_finite v s o : let q := fdiv (fsub v o) s in ffinite q = true ->
  remove_scale_i32 v s o =
    (if in_range INT32_MIN INT32_MAX (ZnearestA (R64 q)) then Ok (ZnearestA (R64 q)) else Throw).
Proof.
  intros q Fq. unfold remove_scale_i32. fold q.
  destruct (fround_correct q) as (Er & Fr). rewrite Fq in Fr.
  destruct (f64_of_Z_exact INT32_MIN) as (E1 & F1); [unfold INT32_MIN; lia|].
  destruct (f64_of_Z_exact INT32_MAX) as (E2 & F2); [unfold INT32_MAX; lia|].
  set (z := ZnearestA (R64 q)) in *.
  unfold fgt.
  destruct (flt (fround q) (f64_of_Z INT32_MIN)) eqn:L1.
  { cbn [orb]. apply flt_iff in L1. destruct L1 as (_ & _ & L1).
    rewrite !rank_finite, Er, E1 in L1 by assumption. apply lt_IZR in L1.
    unfold in_range. destruct (Z.leb_spec INT32_MIN z); [lia|]. reflexivity. }
  assert (L1' : INT32_MIN <= z).
  { destruct (Z_lt_ge_dec z INT32_MIN) as [C|C]; [|lia]. exfalso.
    assert (flt (fround q) (f64_of_Z INT32_MIN) = true); [|congruence].
    apply flt_iff. repeat split; try now apply fnan_finite.
    rewrite !rank_finite, Er, E1 by assumption. now apply IZR_lt. }
  cbn [orb].
  destruct (flt (f64_of_Z INT32_MAX) (fround q)) eqn:L2.
  { apply flt_iff in L2. destruct L2 as (_ & _ & L2).
    rewrite !rank_finite, Er, E2 in L2 by assumption. apply lt_IZR in L2.
    unfold in_range. destruct (Z.leb_spec z INT32_MAX); [lia|]. now rewrite andb_false_r. }
  assert (L2' : z <= INT32_MAX).
  { destruct (Z_lt_ge_dec INT32_MAX z) as [C|C]; [|lia]. exfalso.
    assert (flt (f64_of_Z INT32_MAX) (fround q) = true); [|congruence].
    apply flt_iff. repeat split; try now apply fnan_finite.
    rewrite !rank_finite, Er, E2 by assumption. now apply IZR_lt. }
  assert (in_range INT32_MIN INT32_MAX z = true) as -> by (apply in_range_spec; lia).
  apply f64_to_int_ok; auto.
Qed.

Lemma remove_scale_inf v s o : let q := fdiv (fsub v o) s in
  fnan q = false -> ffinite q = false -> remove_scale_i32 v s o = Throw.
Proof.
  cbv zeta. unfold remove_scale_i32. generalize (fdiv (fsub v o) s). intros q Nq Fq.
  destruct q as [t|t|t pl Hpl|t m e He]; try (cbn in Nq, Fq; discriminate).
  destruct t; vm_compute; reflexivity.
Qed.

Lemma remove_scale_nan v s o : let q := fdiv (fsub v o) s in
  fnan q = true -> remove_scale_i32 v s o = UB.
Proof.
  cbv zeta. unfold remove_scale_i32. generalize (fdiv (fsub v o) s). intros q Nq.
  destruct q as [t|t|t pl Hpl|t m e He]; try (cbn in Nq; discriminate).
  change (fround (B754_nan 53 1024 t pl Hpl)) with (B754_nan 53 1024 t pl Hpl).
  unfold fgt, flt. rewrite compare_nan_l, compare_nan_r by reflexivity. reflexivity.
Qed.

Lemma remove_scale_range v s o z : remove_scale_i32 v s o = Ok z -> INT32_MIN <= z <= INT32_MAX.
Proof.
  intros H. set (q := fdiv (fsub v o) s).
  destruct (fnan q) eqn:Nq; [rewrite (remove_scale_nan v s o Nq) in H; discriminate|].
  destruct (ffinite q) eqn:Fq; [|rewrite (remove_scale_inf v s o Nq Fq) in H; discriminate].
  rewrite (remove_scale_finite v s o Fq) in H.
  destruct (in_range INT32_MIN INT32_MAX (ZnearestA (R64 (fdiv (fsub v o) s)))) eqn:E; [|discriminate].
  inversion H; subst. now apply in_range_spec.
Qed.

(* ---- C08 ---- *)
Lemma point_pack_ok_inv p s o b : point_pack p s o = Ok b ->
  exists x y z, remove_scale_i32 (p_x p) (vx s) (vx o) = Ok x /\
    remove_scale_i32 (p_y p) (vy s) (vy o) = Ok y /\ remove_scale_i32 (p_z p) (vz s) (vz o) = Ok z /\
    b = enc_i32 x ++ enc_i32 y ++ enc_i32 z ++ enc_u16 (p_intensity p) ++
      enc_u8 (p_returns p) ++ enc_u8 (p_flags p) ++ enc_u8 (p_class p) ++ enc_u8 (p_user p) ++
      enc_i16 (p_angle p) ++ enc_u16 (p_src p) ++ enc_f64 (p_gps p) ++
      (if p_has_rgb p then enc_u16 (p_red p) ++ enc_u16 (p_green p) ++ enc_u16 (p_blue p) else []) ++
      (if p_has_nir p then enc_u16 (p_nir p) else []) ++ p_eb p.
Proof.
  unfold point_pack. rewrite bind_ok. intros (x & Ex & H). rewrite bind_ok in H.
  destruct H as (y & Ey & H). rewrite bind_ok in H. destruct H as (z & Ez & H).
  exists x, y, z. repeat split; auto. now inversion H.
Qed.

Lemma pack_length p s o b : wf_point p -> point_pack p s o = Ok b -> Z.of_nat (length b) = p_reclen p.
Proof.
  intros (Hf & Hr & He & _ & _ & _ & _ & _ & _ & _ & _ & _ & _ & _ & _ & Hrgb & Hnir) H.
  apply point_pack_ok_inv in H. destruct H as (x & y & z & _ & _ & _ & ->).
  rewrite Hr, Hrgb, Hnir. unfold enc_i32, enc_u16, enc_u8, enc_i16, enc_f64, enc_u64.
  rewrite !app_length, !le_enc_length.
  assert (p_fmt p = 6 \/ p_fmt p = 7 \/ p_fmt p = 8) as [E|[E|E]] by lia; rewrite E;
    cbn -[Z.of_nat]; rewrite ?app_length, ?le_enc_length; cbn -[Z.of_nat]; lia.
Qed.

Lemma dec_i32_enc v r : INT32_MIN <= v <= INT32_MAX -> dec_s 4 (enc_i32 v ++ r) = Some (v, r).
Proof. intros H. apply dec_s_enc; [lia|]. unfold INT32_MIN, INT32_MAX in H. cbn. lia. Qed.
Lemma dec_u16_enc v r : 0 <= v < 65536 -> dec_u 2 (enc_u16 v ++ r) = Some (v, r).
Proof. intros H. apply dec_u_enc. cbn. lia. Qed.
Lemma dec_u8_enc v r : 0 <= v < 256 -> dec_u 1 (enc_u8 v ++ r) = Some (v, r).
Proof. intros H. apply dec_u_enc. cbn. lia. Qed.
Lemma dec_i16_enc v r : -32768 <= v < 32768 -> dec_s 2 (enc_i16 v ++ r) = Some (v, r).
Proof. intros H. apply dec_s_enc; [lia|]. cbn. lia. Qed.
Lemma dec_u32_enc v r : 0 <= v < 2^32 -> dec_u 4 (enc_u32 v ++ r) = Some (v, r).
Proof. intros H. apply dec_u_enc. cbn. lia. Qed.
Lemma dec_u64_enc v r : 0 <= v < 2^64 -> dec_u 8 (enc_u64 v ++ r) = Some (v, r).
Proof. intros H. apply dec_u_enc. cbn. lia. Qed.

Lemma unpack_pack p s o b r : wf_point p -> point_pack p s o = Ok b ->
  exists x y z q,
    remove_scale_i32 (p_x p) (vx s) (vx o) = Ok x /\ remove_scale_i32 (p_y p) (vy s) (vy o) = Ok y /\
    remove_scale_i32 (p_z p) (vz s) (vz o) = Ok z /\
    point_unpack (b ++ r) (p_fmt p) s o (Z.of_nat (length (p_eb p))) = Ok (q, r) /\
    same_attributes p q /\
    p_x q = apply_scale_i x (vx s) (vx o) /\ p_y q = apply_scale_i y (vy s) (vy o) /\
    p_z q = apply_scale_i z (vz s) (vz o).
Proof.
  intros (Hf & Hr & He & Hint & Hret & Hfl & Hcl & Hus & Han & Hsr & Hre & Hgr & Hbl & Hni & Heb & Hrgb & Hnir) H.
  apply point_pack_ok_inv in H. destruct H as (x & y & z & Ex & Ey & Ez & ->).
  exists x, y, z. rewrite <- !app_assoc. unfold point_unpack.
  rewrite new_point_ok by lia. cbn [bind].
  unfold rd. rewrite dec_i32_enc by (eapply remove_scale_range; eauto).
  rewrite dec_i32_enc by (eapply remove_scale_range; eauto).
  rewrite dec_i32_enc by (eapply remove_scale_range; eauto).
  rewrite dec_u16_enc by assumption. rewrite !dec_u8_enc by assumption.
  rewrite dec_i16_enc by assumption. rewrite dec_u16_enc by assumption. rewrite dec_f64_enc.
  rewrite Hrgb, Hnir.
  destruct p as [pf pr px py pz pi pret pfl pc pa pu ps pg pre pgr pbl pn phr phn peb].
  cbn [p_fmt p_reclen p_eb p_intensity p_returns p_flags p_class p_user p_angle p_src p_red p_green p_blue p_nir p_has_rgb p_has_nir p_gps p_x p_y p_z] in *.
  assert (pf = 6 \/ pf = 7 \/ pf = 8) as [E|[E|E]] by lia; subst pf;
    cbn [Z.leb Z.eqb Z.compare Pos.compare Pos.compare_cont Pos.eqb bind app p_fmt p_reclen p_eb p_intensity p_returns p_flags p_class p_user p_angle p_src p_red p_green p_blue p_nir p_has_rgb p_has_nir p_gps p_x p_y p_z with_x with_y with_z with_intensity with_returns with_flags with_class with_user with_angle with_src with_gps with_red with_green with_blue with_nir with_eb fill_rgb fill_common];
    rewrite <- ?app_assoc;
    repeat (rewrite dec_u16_enc by assumption; cbn [bind p_fmt p_reclen p_eb p_intensity p_returns p_flags p_class p_user p_angle p_src p_red p_green p_blue p_nir p_has_rgb p_has_nir p_gps p_x p_y p_z with_x with_y with_z with_intensity with_returns with_flags with_class with_user with_angle with_src with_gps with_red with_green with_blue with_nir with_eb fill_rgb fill_common]);
    rewrite take_bytes_app by lia;
    eexists; (split; [exact Ex|split; [exact Ey|split; [exact Ez|split; [reflexivity|]]]]);
    unfold same_attributes;
    cbn [p_fmt p_reclen p_eb p_intensity p_returns p_flags p_class p_user p_angle p_src p_red p_green p_blue p_nir p_has_rgb p_has_nir p_gps p_x p_y p_z];
    subst; repeat split; congruence || discriminate || auto.
Qed.
