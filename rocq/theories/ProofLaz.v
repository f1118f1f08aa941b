(* ProofLaz.v - LAZ files *)
From Coq Require Import Permutation.
From Verif Require Import Base BaseFacts ModelFloat ModelKey ModelGeom ModelEntry ModelPoint ModelPoints ModelHeader ModelVlr ModelExtents ModelConfig
  ModelStream ModelWriter SpecKey SpecPoint SpecConfig SpecHeader SpecWriter SpecLaz SpecHier SpecFile ProofKey ProofPoint ProofPoint2 ProofPoints ProofHeader ProofExtents ProofConfig
  ProofStream ProofWriter ProofWriter2 ProofWriter3 ProofWriter4 ProofTree ProofPages ProofClose ProofClose2 ProofSession ProofFile.

Lemma laz_eb z : laz_ready z -> h_eb_size (z_hdr z) = Ok (eb_total (z_ebs z)) /\ 0 <= eb_total (z_ebs z) < 65536 /\
  h_reclen (z_hdr z) - las_base (h_fmt (z_hdr z)) = eb_total (z_ebs z) /\ 30 <= h_reclen (z_hdr z) < 65536.
Proof.
  intros (_ & F & T & R & W & E & _). destruct (eb_total_nonneg _ E T) as (N & _).
  destruct W as (_ & _ & _ & _ & _ & _ & _ & RL & _). pose proof (las_base_range (h_fmt (z_hdr z))).
  assert (B : 0 <= eb_total (z_ebs z) < 65536) by lia.
  repeat split; try lia. unfold h_eb_size, eb_byte_size. rewrite las_base_ok by assumption. cbn [bind].
  replace (h_reclen (z_hdr z) - las_base (h_fmt (z_hdr z))) with (eb_total (z_ebs z)) by lia. now rewrite small16.
Qed.
Lemma base_offset_ok z : laz_ready z -> base_offset (z_hdr z) (z_ebs z) = Ok (laz_start z) /\ 375 < laz_start z < 2 ^ 32.
Proof.
  intros R. destruct (laz_eb z R) as (E & B & R2 & _). destruct R as (_ & F & _ & _ & _ & _ & K).
  unfold base_offset. rewrite E. cbn [bind]. unfold laz_vlr_size. rewrite laz_items_length by lia.
  unfold laz_start, eb_vlr_size, VLR_HEADER_SIZE, HEADER_SIZE. assert (K0 : 0 <= Z.of_nat (length (z_ebs z))) by lia. set (k := Z.of_nat (length (z_ebs z))) in *. clearbody k.
  set (e := eb_total (z_ebs z)) in *.
  assert (X : (h_reclen (z_hdr z) =? las_base (h_fmt (z_hdr z))) = (e =? 0)) by lia. rewrite X. clearbody e. clear X E R2.
  split.
  - f_equal. destruct (Z.ltb_spec 0 (192 * k)), (Z.eqb_spec k 0); lia.
  - destruct (Z.eqb_spec k 0), (h_fmt _ =? 6), (e =? 0); lia.
Qed.
Lemma laz_packed cd z data x n : laz_ready z -> chunk_source cd (z_hdr z) data 0 false = Ok (x, n) ->
  (x, n) = packed_chunk cd (z_hdr z) data /\ Z.of_nat (length data) = n * h_reclen (z_hdr z) /\ n <= INT32_MAX.
Proof.
  intros G H. destruct (laz_eb z G) as (E & B & E2 & R). destruct G as (_ & F & _). unfold chunk_source in H. rewrite E in H. cbn [bind] in H.
  unfold compress_bytes in H. rewrite point_byte_size_ok in H by assumption. cbn [bind] in H.
  replace (las_base (h_fmt (z_hdr z)) + eb_total (z_ebs z)) with (h_reclen (z_hdr z)) in H by lia.
  rewrite small16 in H by lia.
  destruct (Z.eqb_spec (h_reclen (z_hdr z)) 0); [lia|].
  destruct (Z.eqb_spec (Z.of_nat (length data) mod h_reclen (z_hdr z)) 0) as [M|M]; cbn [negb] in H; [|discriminate].
  destruct (Z.ltb_spec INT32_MAX (Z.of_nat (length data))); [discriminate|]. injection H as <- <-.
  unfold packed_chunk. rewrite E2. split; [reflexivity|]. unfold INT32_MAX in *. split; [|].
  - pose proof (Z.div_mod (Z.of_nat (length data)) (h_reclen (z_hdr z)) ltac:(lia)). lia.
  - apply Z.div_le_upper_bound; [lia|]. nia.
Qed.

(* one call *)
Lemma lstep_grows cd op w w' r : at_end (b_out (lw_base w)) -> lstep cd op w = (w', r) -> at_end (b_out (lw_base w')) /\ exists x, laz_file w' = laz_file w ++ x.
Proof.
  intros A H. assert (SAME : forall q, (w, q) = (w', r) -> at_end (b_out (lw_base w')) /\ exists x, laz_file w' = laz_file w ++ x).
  { intros q X. injection X as <- _. split; [exact A|]. exists []. now rewrite app_nil_r. }
  destruct op as [hp c|data count]; cbn [lstep] in H.
  - destruct (c_pts c); [now apply SAME in H|]. destruct (_ || _); [now apply SAME in H|].
    destruct (points_pack _ _ _ _) as [d| |]; [|now apply SAME in H..].
    destruct (write_chunk _ _ _ _ _ _) as (b, q) eqn:E. apply write_chunk_grows in E; [|exact A]. unfold chunk_written in H.
    destruct q; injection H as <- _; exact E.
  - destruct (count =? 0); [now apply SAME in H|].
    destruct (write_chunk _ _ _ _ _ _) as (b, q) eqn:E. apply write_chunk_grows in E; [|exact A]. unfold chunk_written in H.
    destruct q; injection H as <- _; exact E.
Qed.
Lemma lrun_grows cd ops : forall w w' l, at_end (b_out (lw_base w)) -> lrun cd ops w = (w', l) -> at_end (b_out (lw_base w')) /\ exists x, laz_file w' = laz_file w ++ x.
Proof.
  induction ops as [|op ops IH]; intros w w' l A H; cbn [lrun] in H.
  - injection H as <- _. split; [exact A|]. exists []. now rewrite app_nil_r.
  - destruct (lstep cd op w) as (w1, r) eqn:E. apply lstep_grows in E as (A1 & x & E); [|exact A].
    assert (R : (w' = w1) \/ exists l2, lrun cd ops w1 = (w', l2)).
    { destruct r; [right|right|left]; [destruct (lrun cd ops w1) as (w2, l2); injection H as <- <-; eauto..|injection H as <- <-; auto]. }
    destruct R as [->|(l2 & R)]; [eauto|]. apply IH in R as (A2 & y & R); [|exact A1]. split; [exact A2|]. exists (x ++ y). now rewrite R, E, app_assoc.
Qed.
Lemma lstep_spec cd op w w' r start cs : 0 < start -> laz_ready (lw_cfg w) -> binv start cs (lw_base w) -> lstep cd op w = (w', r) ->
  Z.of_nat (length (laz_file w')) < 2 ^ 64 ->
  lw_cfg w' = lw_cfg w /\
  ((w' = w /\ (r = Throw \/ r = UB \/ (r = Ok tt /\ laz_chunk cd (z_hdr (lw_cfg w)) op = None))) \/
   exists x n, laz_chunk cd (z_hdr (lw_cfg w)) op = Some (x, n) /\ binv start (cs ++ [(x, n)]) (lw_base w') /\
     r = if INT32_MAX <? Z.of_nat (length x) then Throw else Ok tt).
Proof.
  intros S G I H L. destruct op as [hp c|data count]; cbn [lstep laz_chunk] in *.
  - destruct (c_pts c) as [|p0 ps] eqn:EP; [injection H as <- <-; auto 9|]. destruct (_ || _) eqn:M; [injection H as <- <-; auto 9|].
    destruct (points_pack hp c _ _) as [d| |] eqn:PK; [|injection H as <- <-; auto 9..].
    destruct (write_chunk _ _ _ _ _ _) as (b, q) eqn:E. unfold chunk_written in H.
    assert (HW : w' = mkLW b (lw_cfg w) /\ r = match q with Ok _ => Ok tt | Throw => Throw | UB => UB end) by (destruct q; injection H as <- <-; auto 9).
    destruct HW as (-> & ->). cbn [lw_cfg lw_base]. split; [reflexivity|].
    pose proof (write_chunk_spec _ _ _ _ _ _ _ _ _ _ S I E L) as W.
    destruct (chunk_source cd (z_hdr (lw_cfg w)) d 0 false) as [(x, n)| |] eqn:CS.
    + right. destruct W as (B & ->). destruct (laz_packed _ _ _ _ _ G CS) as (X1 & X2 & X3). exists x, n.
      split; [now rewrite X1|]. split; [exact B|]. destruct (INT32_MAX <? _); reflexivity.
    + destruct W as (-> & ->). left. split; [now destruct w|auto 9].
    + destruct W as (-> & ->). left. split; [now destruct w|auto 9].
  - destruct (count =? 0); [injection H as <- <-; auto 9|].
    destruct (write_chunk _ _ _ _ _ _) as (b, q) eqn:E. unfold chunk_written in H.
    assert (HW : w' = mkLW b (lw_cfg w) /\ r = match q with Ok _ => Ok tt | Throw => Throw | UB => UB end) by (destruct q; injection H as <- <-; auto 9).
    destruct HW as (-> & ->). cbn [lw_cfg lw_base]. split; [reflexivity|].
    pose proof (write_chunk_spec _ _ _ _ _ _ _ _ _ _ S I E L) as W. cbn [chunk_source] in W. destruct W as (B & ->). right. exists data, count.
    split; [reflexivity|]. split; [exact B|]. destruct (INT32_MAX <? _); reflexivity.
Qed.
Lemma lrun_spec cd ops : forall w w' l start cs, 0 < start -> laz_ready (lw_cfg w) -> binv start cs (lw_base w) -> lrun cd ops w = (w', l) ->
  Z.of_nat (length (laz_file w')) < 2 ^ 64 ->
  exists cs', binv start (cs ++ cs') (lw_base w') /\ lw_cfg w' = lw_cfg w /\
    (laz_chunks_fit cd (z_hdr (lw_cfg w)) ops -> cs' = laz_chunks cd (z_hdr (lw_cfg w)) l).
Proof.
  induction ops as [|op ops IH]; intros w w' l start cs S G I H L; cbn [lrun] in H.
  { injection H as <- <-. exists []. rewrite app_nil_r. auto. }
  destruct (lstep cd op w) as (w1, r) eqn:E. pose proof (lstep_grows _ _ _ _ _ (proj1 I) E) as (A1 & x1 & GR1).
  assert (Rest : (w' = w1 /\ r = UB /\ l = [(op, UB)]) \/ exists l2, lrun cd ops w1 = (w', l2) /\ l = (op, r) :: l2).
  { destruct r; [right|right|left]; [destruct (lrun cd ops w1) as (w2, l2); injection H as <- <-; eauto..|injection H as <- <-; auto]. }
  destruct Rest as [(-> & -> & ->)|(l2 & R & ->)].
  { destruct (lstep_spec _ _ _ _ _ _ _ S G I E L) as (CF & [(-> & _)|(x & n & C1 & B & R)]).
    - exists []. rewrite app_nil_r. auto.
    - exfalso. destruct (INT32_MAX <? _); discriminate. }
  pose proof (lrun_grows _ _ _ _ _ A1 R) as (A2 & x2 & GR2).
  assert (L1 : Z.of_nat (length (laz_file w1)) < 2 ^ 64) by (rewrite GR2, app_length in L; lia).
  assert (C : exists c1, binv start (cs ++ c1) (lw_base w1) /\ lw_cfg w1 = lw_cfg w /\ (laz_chunks_fit cd (z_hdr (lw_cfg w)) (op :: ops) ->
    c1 = match r with Ok _ => opt_list (laz_chunk cd (z_hdr (lw_cfg w)) op) | _ => [] end)).
  { destruct (lstep_spec _ _ _ _ _ _ _ S G I E L1) as (CF & [(EW & X)|(x & n & C1 & B & X)]).
    - exists []. rewrite app_nil_r, EW. split; [exact I|]. split; [reflexivity|]. intros _. destruct X as [X|[X|(X & Y)]]; rewrite X; [reflexivity..|now rewrite Y].
    - exists [(x, n)]. split; [exact B|]. split; [exact CF|]. intros FIT. rewrite X. pose proof (FIT op x n (or_introl eq_refl) C1).
      destruct (Z.ltb_spec INT32_MAX (Z.of_nat (length x))); [lia|]. now rewrite C1. }
  destruct C as (c1 & B1 & CF1 & X1). rewrite <- CF1 in G.
  destruct (IH _ _ _ _ _ S G B1 R L) as (c2 & B2 & CF2 & X2). exists (c1 ++ c2). rewrite app_assoc. split; [exact B2|]. split; [congruence|].
  intros FIT. rewrite X1, X2, CF1; [reflexivity| |exact FIT]. rewrite CF1. intros o b n Ho. apply FIT. now right.
Qed.

(* ---- Close ---- *)
Definition laz_slack (z : laz_config) : Z := if (0 <? Z.of_nat (length (z_ebs z))) && (eb_total (z_ebs z) =? 0) then 54 + 192 * Z.of_nat (length (z_ebs z)) else 0.
Definition laz_vlrs (z : laz_config) : bytes := laz_and_eb_vlrs (z_hdr z) (z_ebs z) (eb_total (z_ebs z)).
Lemma laz_vlrs_length z : laz_ready z -> 375 + Z.of_nat (length (laz_vlrs z)) + laz_slack z = laz_start z.
Proof.
  intros G. destruct (laz_eb z G) as (_ & B & E2 & _). destruct G as (_ & F & _ & _ & _ & WE & K).
  unfold laz_vlrs, laz_and_eb_vlrs, laz_slack, laz_start. rewrite !app_length, !vlr_header_length.
  pose proof (enc_ebs_length _ WE) as P3. pose proof (enc_laz_length (h_fmt (z_hdr z)) (eb_total (z_ebs z)) F ltac:(lia)) as P4.
  assert (X : (h_reclen (z_hdr z) =? las_base (h_fmt (z_hdr z))) = (eb_total (z_ebs z) =? 0)) by lia. rewrite X.
  assert (Z0 : 0 < Z.of_nat (length (z_ebs z)) \/ eb_total (z_ebs z) = 0) by (destruct (z_ebs z); [now right|left; cbn [length]; lia]).
  destruct (Z.ltb_spec 0 (eb_total (z_ebs z))), (Z.eqb_spec (eb_total (z_ebs z)) 0), (Z.eqb_spec (Z.of_nat (length (z_ebs z))) 0),
    (Z.ltb_spec 0 (Z.of_nat (length (z_ebs z)))); cbn [andb length]; rewrite ?app_length, ?vlr_header_length; lia.
Qed.
Record closed_laz (cd : codec) (z : laz_config) (cs : list (bytes * Z)) (h : header14) (w : laz_writer) : Prop := {
  lc_hdr : to_lazperf (z_hdr z) (laz_start z) (to_u 64 (total_points cs)) (laz_start z + Z.of_nat (length (data_section cd (laz_start z) cs)))
             (match z_wkt z with [] => 0 | _ => 1 end) (negb (eb_total (z_ebs z) =? 0)) false = Ok h;
  lc_len : length (enc_header14 h) = 375%nat;
  lc_file : laz_file w = (enc_header14 h ++ laz_vlrs z ++ zeros (Z.to_nat (laz_slack z))) ++ data_section cd (laz_start z) cs ++ wkt_record (z_wkt z);
  lc_count : Z.of_nat (length cs) <= UINT32_MAX;
  lc_open : b_open (lw_base w) = false;
  lc_cfg : lw_cfg w = z;
  lc_points : laz_point_count w = to_u 64 (total_points cs);
  lc_chunks : laz_chunk_count w = Z.of_nat (length cs) }.
Lemma base_header_ge h ebs b b' r : base_write_header h ebs b = (b', r) -> (blen b <= blen b')%nat.
Proof.
  unfold base_write_header. destruct (base_offset h ebs) as [poff| |], (h_eb_size h) as [eb| |] eqn:EE; try (intros H; injection H as <- _; lia).
  unfold write_las_header. rewrite EE. cbn [bind]. destruct (to_lazperf _ _ _ _ _ _ _) as [l| |]; cbn [then_]; [|intros H; injection H as <- _; lia..].
  set (b1 := emit (enc_header14 l) (with_out (seek_to 0 (b_out b)) b)).
  assert (L1 : (blen b <= blen b1)%nat).
  { unfold b1. eapply Nat.le_trans; [|apply emit_ge]. unfold blen. cbn [with_out b_out]. rewrite seek_to_len. lia. }
  clearbody b1. pose proof (emit_ge (laz_and_eb_vlrs h ebs eb) b1). destruct (_ <? _); intros H0; apply (f_equal fst) in H0; cbn [fst] in H0; subst b'; lia.
Qed.
Lemma close_laz_spec cd w cs w' r : laz_ready (lw_cfg w) -> binv (laz_start (lw_cfg w) + 8) cs (lw_base w) -> close_laz cd w = (w', r) ->
  Z.of_nat (length (laz_file w')) < 2 ^ 64 ->
  (r = Throw /\ UINT32_MAX < Z.of_nat (length cs)) \/ (r = Ok tt /\ exists h, closed_laz cd (lw_cfg w) cs h w').
Proof.
  intros G I H LEN. destruct (base_offset_ok _ G) as (BO & DR). destruct (laz_eb _ G) as (EE & EB & _). unfold close_laz, base_close in H.
  pose proof I as (A & DT & O & _). rewrite O, BO in H. cbn [negb] in H. set (z := lw_cfg w) in *. set (ds := laz_start z) in *.
  destruct (write_chunk_table cd ds (lw_base w)) as (b1, r1) eqn:E1.
  change (length (laz_file w')) with (blen (lw_base w')) in LEN.
  assert (L1 : Z.of_nat (blen b1) < 2 ^ 64).
  { destruct r1 as [[]| |]; cbn [then_] in H; [|injection H as <- _; exact LEN..]. revert H. cbv zeta. set (b2 := mkBW (b_out (with_out (seek_end (b_out b1)) b1)) _ _ _ _ _).
    assert (LW : blen b2 = blen b1) by (unfold b2, blen; cbn [with_out b_out]; now rewrite seek_end_len). clearbody b2.
    destruct (base_write_header _ _ _) as (b4, r4) eqn:E4. apply base_header_ge in E4. pose proof (wkt_ge (z_wkt z) b2).
    destruct r4 as [[]| |]; cbn [then_]; intros H4; apply (f_equal fst) in H4; cbn [fst] in H4; subst w'; cbn [lw_base] in LEN; unfold blen in *; cbn [b_out] in LEN; lia. }
  destruct (chunk_table_spec cd ds cs _ _ _ ltac:(lia) I E1 L1) as [(-> & BIG)|(-> & CC & EB1)].
  { left. cbn [then_] in H. apply (f_equal snd) in H. split; [symmetry; exact H|exact BIG]. }
  right. cbn [then_] in H. rewrite EB1 in H. cbn [with_out b_out] in H. rewrite seek_end_at in H by now split.
  cbn [o_data with_base b_chunks b_points b_evcnt b_open b_out with_out] in H.
  set (D1 := zeros (Z.to_nat ds) ++ data_section cd ds cs) in *.
  assert (LD1 : Z.of_nat (length D1) = ds + Z.of_nat (length (data_section cd ds cs))) by (unfold D1; rewrite app_length, zeros_length; lia).
  assert (L1' : Z.of_nat (length D1) < 2 ^ 64) by (rewrite EB1 in L1; exact L1).
  rewrite tell64_small in H by (now split || exact L1'). cbn [o_pos] in H. rewrite LD1 in H.
  set (b2 := mkBW (mkOut D1 (length D1) false None) true (chunk_sizes cs) (to_u 64 (total_points cs)) (ds + Z.of_nat (length (data_section cd ds cs))) 0) in H.
  set (ec := match z_wkt z with [] => 0 | _ => 1 end).
  set (b3 := mkBW (b_out b2) true (chunk_sizes cs) (to_u 64 (total_points cs)) (ds + Z.of_nat (length (data_section cd ds cs))) ec).
  assert (B3 : write_wkt (z_wkt z) b2 = outb (zeros (Z.to_nat ds) ++ data_section cd ds cs ++ wkt_record (z_wkt z)) b3).
  { change b2 with (outb D1 b2). rewrite evlr_wkt. unfold D1. rewrite <- app_assoc. unfold b3, ec, b2. cbn [b_out b_open b_chunks b_points b_evoff b_evcnt].
    destruct (z_wkt z); reflexivity. }
  rewrite B3 in H. set (DD := data_section cd ds cs ++ wkt_record (z_wkt z)) in *.
  destruct (to_lazperf_defined (z_hdr z) ds (to_u 64 (total_points cs)) (ds + Z.of_nat (length (data_section cd ds cs))) ec (negb (eb_total (z_ebs z) =? 0)) false ltac:(discriminate)) as (h & TL).
  assert (FITS : fits ds (to_u 64 (total_points cs)) (ds + Z.of_nat (length (data_section cd ds cs))) ec).
  { unfold fits. rewrite <- LD1. split; [lia|]. split; [unfold to_u; apply Z.mod_pos_bound; lia|]. split; [lia|]. unfold ec. destruct (z_wkt z); lia. }
  assert (WH : wf_hdr (z_hdr z)) by apply G.
  assert (HL : length (enc_header14 h) = 375%nat) by (eapply header_written_length; eauto).
  unfold base_write_header, write_las_header in H. rewrite BO, EE in H. cbn [bind] in H.
  change (b_points (outb (zeros (Z.to_nat ds) ++ DD) b3)) with (to_u 64 (total_points cs)) in H.
  change (b_evoff (outb (zeros (Z.to_nat ds) ++ DD) b3)) with (ds + Z.of_nat (length (data_section cd ds cs))) in H.
  change (b_evcnt (outb (zeros (Z.to_nat ds) ++ DD) b3)) with ec in H. rewrite TL in H. cbn [then_] in H.
  change (laz_and_eb_vlrs (z_hdr z) (z_ebs z) (eb_total (z_ebs z))) with (laz_vlrs z) in H.
  pose proof (laz_vlrs_length _ G) as SD. fold z ds in SD.
  assert (SL : 0 <= laz_slack z) by (unfold laz_slack; destruct (_ && _); lia).
  unfold emit in H. cbn [outb with_out b_out] in H. rewrite <- put_app in H.
  rewrite (header_area _ (zeros (Z.to_nat ds) ++ DD)) in H; [|now split|reflexivity|rewrite !app_length, zeros_length, HL; lia].
  set (HH := enc_header14 h ++ laz_vlrs z) in *.
  assert (LH : Z.of_nat (length HH) + laz_slack z = ds) by (unfold HH; rewrite app_length, HL; lia).
  assert (SK : skipn (length HH) (zeros (Z.to_nat ds) ++ DD) = zeros (Z.to_nat (laz_slack z)) ++ DD).
  { replace (Z.to_nat ds) with (length HH + Z.to_nat (laz_slack z))%nat by lia. rewrite zeros_add, <- app_assoc. apply skip_app, zeros_length. }
  rewrite SK in H. rewrite tell64_small in H; [|now split|cbn [o_pos]; lia]. cbn [o_pos] in H.
  destruct (Z.ltb_spec ds (Z.of_nat (length HH))); [lia|]. cbn [then_] in H.
  pose proof (f_equal fst H) as HW. pose proof (f_equal snd H) as HR. cbn [fst snd] in HW, HR. split; [now symmetry|]. exists h. subst w'.
  constructor; try assumption; try reflexivity.
  - unfold laz_file. cbn [lw_base b_out o_data with_out]. unfold HH. rewrite <- !app_assoc. reflexivity.
  - unfold laz_chunk_count. change (Z.of_nat (length (chunk_sizes cs)) = Z.of_nat (length cs)). unfold chunk_sizes. now rewrite map_length.
Qed.

(* ---- whole sessions ---- *)
Lemma laz_open_inv z w0 : open_laz_writer None z = Ok w0 -> laz_ready z -> lw_cfg w0 = z /\ 0 < laz_start z + 8 /\ binv (laz_start z + 8) [] (lw_base w0).
Proof.
  intros H G. destruct (base_offset_ok _ G) as (BO & DR). unfold open_laz_writer in H. rewrite BO in H. cbn [bind] in H. injection H as <-.
  cbn [lw_cfg lw_base]. split; [reflexivity|]. split; [lia|]. unfold binv. cbn [b_out b_open b_chunks b_points b_evcnt]. unfold first_chunk_offset, empty_out.
  rewrite put_end by now repeat split. cbn [o_data app]. rewrite app_nil_r. repeat split; reflexivity.
Qed.
Lemma close_laz_ge cd w1 w : close_laz cd w1 = (w, Ok tt) -> (length (laz_file w1) <= length (laz_file w))%nat.
Proof.
  intros CL. change (blen (lw_base w1) <= blen (lw_base w))%nat.  unfold close_laz, base_close in CL. destruct (negb _); [injection CL as <-; cbn [lw_base]; lia|].
    destruct (base_offset _ _) as [ds| |]; [|discriminate..]. destruct (write_chunk_table cd ds (lw_base w1)) as (b1, r1) eqn:E1.
    assert (L1 : (blen (lw_base w1) <= blen b1)%nat).
    { revert E1. unfold write_chunk_table. cbv zeta. set (b0 := with_out (seek_end (b_out (lw_base w1))) (lw_base w1)).
      assert (L0 : blen b0 = blen (lw_base w1)) by (unfold b0, blen; cbn [with_out b_out]; apply seek_end_len). set (rel := relative_chunks _ _).
      set (b2 := mkBW (put (enc_u32 0) (b_out b0)) _ _ _ _ _). assert (L2 : (blen b0 <= blen b2)%nat) by (unfold b2, blen at 2; cbn [b_out]; apply put_ge).
      clearbody b2 rel b0. destruct (UINT32_MAX <? _); intros E; apply (f_equal fst) in E; cbn [fst] in E; subst b1; [lia|].
      eapply Nat.le_trans; [|apply emit_ge]. unfold blen at 2. cbn [with_out b_out]. rewrite seek_to_len. fold (blen (emit (enc_u32 (Z.of_nat (length rel)) ++ cd_table cd rel) b2)).
      pose proof (emit_ge (enc_u32 (Z.of_nat (length rel)) ++ cd_table cd rel) b2). lia. }
    destruct r1 as [[]| |]; cbn [then_] in CL; [|discriminate..]. revert CL. set (b2 := mkBW (b_out (with_out (seek_end (b_out b1)) b1)) _ _ _ _ _).
    assert (LW : blen b2 = blen b1) by (unfold b2, blen; cbn [with_out b_out]; now rewrite seek_end_len). clearbody b2.
    destruct (base_write_header _ _ _) as (b4, r4) eqn:E4. apply base_header_ge in E4. pose proof (wkt_ge (z_wkt (lw_cfg w1)) b2).
    destruct r4 as [[]| |]; cbn [then_]; intros H4; apply (f_equal fst) in H4; cbn [fst] in H4; subst w; cbn [lw_base]; unfold blen in *; cbn [b_out]; lia.
Qed.
Lemma laz_closed cd z ops l w : laz_session cd z ops l w -> exists w0 w1 cs h, open_laz_writer None z = Ok w0 /\ lrun cd ops w0 = (w1, l) /\
  closed_laz cd z cs h w /\ (laz_chunks_fit cd (z_hdr z) ops -> cs = laz_chunks cd (z_hdr z) l) /\ laz_ready z /\ Z.of_nat (length (laz_file w)) < 2 ^ 64 /\
  binv (laz_start z + 8) cs (lw_base w1).
Proof.
  intros (w0 & w1 & O & R & CL & G & AD & L). destruct (laz_open_inv _ _ O G) as (CF & S & B).
  pose proof (close_laz_ge cd w1 w CL) as GE.
  rewrite <- CF in G. destruct (lrun_spec _ _ _ _ _ _ _ S G B R ltac:(lia)) as (cs & B1 & CF1 & X). cbn [app] in B1.
  assert (CZ : lw_cfg w1 = z) by congruence.
  destruct (close_laz_spec cd w1 cs w (Ok tt)) as [(Y & _)|(_ & h & C)]; try assumption; [now rewrite CZ, <- CF|now rewrite CZ|discriminate|].
  exists w0, w1, cs, h. rewrite CZ in C. rewrite CF in X, G. tauto.
Qed.

Section LazClosed.
Variables (cd : codec) (z : laz_config) (cs : list (bytes * Z)) (h : header14) (w : laz_writer).
Hypotheses (C : closed_laz cd z cs h w) (G : laz_ready z) (LEN : Z.of_nat (length (laz_file w)) < 2 ^ 64).
Let ds := laz_start z.
Definition laz_head := enc_header14 h ++ laz_vlrs z ++ zeros (Z.to_nat (laz_slack z)).
Lemma laz_head_length : Z.of_nat (length laz_head) = ds.
Proof.
  unfold laz_head. rewrite !app_length, zeros_length, (lc_len _ _ _ _ _ C). pose proof (laz_vlrs_length _ G) as L. fold ds in L.
  assert (SL : 0 <= laz_slack z) by (unfold laz_slack; destruct (_ && _); lia). lia.
Qed.
Lemma laz_split : laz_file w = laz_head ++ data_section cd ds cs ++ wkt_record (z_wkt z).
Proof. exact (lc_file _ _ _ _ _ C). Qed.
Lemma laz_fields : las_point_offset (laz_file w) = ds /\ las_vlr_count (laz_file w) = 1 + (if eb_total (z_ebs z) =? 0 then 0 else 1) /\
  las_evlr_offset (laz_file w) = ds + Z.of_nat (length (data_section cd ds cs)) /\ las_evlr_count (laz_file w) = match z_wkt z with [] => 0 | _ => 1 end /\
  las_point_count (laz_file w) = to_u 64 (total_points cs).
Proof.
  destruct (base_offset_ok _ G) as (_ & DR). fold ds in DR.
  assert (W : wf_h14 h).
  { apply (to_lazperf_wf _ _ _ _ _ _ _ _ ltac:(apply G)) with (2 := lc_hdr _ _ _ _ _ C). fold ds. pose proof LEN as L. rewrite laz_split, !app_length in L.
    pose proof laz_head_length. unfold fits. split; [lia|]. split; [unfold to_u; apply Z.mod_pos_bound; lia|]. split; [lia|]. destruct (z_wkt z); lia. }
  pose proof (header_fields h ((laz_vlrs z ++ zeros (Z.to_nat (laz_slack z))) ++ data_section cd ds cs ++ wkt_record (z_wkt z)) W) as F. cbv zeta in F.
  assert (E : laz_file w = enc_header14 h ++ (laz_vlrs z ++ zeros (Z.to_nat (laz_slack z))) ++ data_section cd ds cs ++ wkt_record (z_wkt z)).
  { rewrite laz_split. unfold laz_head. now rewrite <- !app_assoc. }
  rewrite <- E in F. destruct F as (F1 & F2 & _ & F3 & F4 & F5). rewrite F1, F2, F3, F4, F5.
  pose proof (lc_hdr _ _ _ _ _ C) as H. fold ds in H. unfold to_lazperf in H. destruct G as (CP & _). rewrite CP in H.
  apply bind_ok in H as (v & EV & H). injection H as H. rewrite <- H. cbn [l_poff l_vlrs l_evoff l_evcnt l_pc14].
  split; [unfold to_u; apply Z.mod_small; lia|]. split; [|auto]. injection EV as <-. destruct (eb_total (z_ebs z) =? 0); reflexivity.
Qed.
Definition laz_recs : list (vlr_header * bytes) :=
  (if 0 <? eb_total (z_ebs z) then [(eb_vlr_header (z_ebs z), enc_eb_vlr (z_ebs z))] else []) ++
  [(laz_vlr_header (h_fmt (z_hdr z)) (eb_total (z_ebs z)), enc_laz_vlr (h_fmt (z_hdr z)) (eb_total (z_ebs z)))].
Lemma laz_vlrs_recs : laz_vlrs z = recs_bytes false laz_recs.
Proof.
  unfold laz_vlrs, laz_and_eb_vlrs, laz_recs, recs_bytes, rec_bytes. destruct (0 <? _); cbn [app map concat fst snd]; rewrite app_nil_r; [now rewrite <- !app_assoc|reflexivity].
Qed.
Lemma laz_vlr_walk : (length (z_ebs z) <= 341)%nat -> follow 54 2 (length laz_recs) 375 (laz_file w) = ds - laz_slack z.
Proof.
  intros K. assert (OK : Forall (rec_ok false) laz_recs).
  { destruct (laz_eb _ G) as (_ & B & _). destruct G as (_ & F & _ & _ & _ & WE & _). unfold laz_recs. rewrite !Forall_app. split.
    - destruct (0 <? _); [|constructor]. constructor; [|constructor]. unfold rec_ok. cbn [fst snd v_len eb_vlr_header].
      rewrite enc_ebs_length by exact WE. unfold eb_vlr_size, to_u. cbn match. rewrite Z.mod_small; lia.
    - constructor; [|constructor]. unfold rec_ok. cbn [fst snd v_len laz_vlr_header]. rewrite enc_laz_length by lia.
      unfold laz_vlr_size. rewrite laz_items_length by lia. unfold to_u.
      destruct (_ =? 6), (eb_total _ =? 0); split; reflexivity. }
  rewrite laz_split. unfold laz_head. rewrite laz_vlrs_recs, <- !app_assoc.
  pose proof (follow_recs false laz_recs (enc_header14 h) (zeros (Z.to_nat (laz_slack z)) ++ data_section cd ds cs ++ wkt_record (z_wkt z)) 375 OK) as F.
  rewrite (lc_len _ _ _ _ _ C) in F. specialize (F eq_refl). cbn [rec_head rec_lenw] in F. rewrite F, <- laz_vlrs_recs.
  pose proof (laz_vlrs_length _ G) as L. fold ds in L. lia.
Qed.
Lemma laz_evlr_walk : Z.of_nat (length (z_wkt z)) < 2 ^ 64 ->
  follow 60 8 (match z_wkt z with [] => 0 | _ => 1 end)%nat (ds + Z.of_nat (length (data_section cd ds cs))) (laz_file w) = Z.of_nat (length (laz_file w)).
Proof.
  intros K. rewrite laz_split, app_assoc.
  set (rs := match z_wkt z with [] => [] | _ => [(wkt_evlr_header (z_wkt z), z_wkt z)] end).
  assert (WR : wkt_record (z_wkt z) = recs_bytes true rs).
  { unfold wkt_record, rs, recs_bytes, rec_bytes. destruct (z_wkt z); cbn [map concat fst snd]; rewrite ?app_nil_r; reflexivity. }
  assert (OK : Forall (rec_ok true) rs).
  { unfold rs. destruct (z_wkt z) as [|a b]; constructor; [|constructor]. split; [reflexivity|]. cbn [snd]. exact K. }
  pose proof (follow_recs true rs (laz_head ++ data_section cd ds cs) [] (ds + Z.of_nat (length (data_section cd ds cs))) OK) as F.
  rewrite app_length in F. pose proof laz_head_length as HL. specialize (F ltac:(lia)). cbn [rec_head rec_lenw] in F. rewrite app_nil_r in F.
  assert (LR : length rs = (match z_wkt z with [] => 0 | _ => 1 end)%nat) by (unfold rs; destruct (z_wkt z); reflexivity).
  rewrite LR in F. rewrite WR, F, !app_length. lia.
Qed.
End LazClosed.

Lemma laz_tiling cd z ops l w : laz_session cd z ops l w -> laz_chunks_fit cd (z_hdr z) ops ->
  let f := laz_file w in let cs := laz_chunks cd (z_hdr z) l in let data := concat (map fst cs) in
  let start := laz_start z + 8 in let table := start + Z.of_nat (length data) in
  las_point_offset f = laz_start z /\ laz_table_offset f = table /\ bytes_at start (Z.of_nat (length data)) f = data /\
  (exists rest, skipn (Z.to_nat table) f = enc_u32 0 ++ enc_u32 (Z.of_nat (length cs)) ++
    cd_table cd (map (fun c => (snd c mod 2 ^ 64, Z.of_nat (length (fst c)))) cs) ++ rest /\
    las_evlr_offset f = Z.of_nat (length f) - Z.of_nat (length rest)) /\
  Z.of_nat (length cs) < 2 ^ 32 /\ las_point_count f = total_points cs mod 2 ^ 64 /\
  laz_point_count w = total_points cs mod 2 ^ 64 /\ laz_chunk_count w = Z.of_nat (length cs).
Proof.
  intros S FIT. destruct (laz_closed _ _ _ _ _ S) as (w0 & w1 & cs & h & O & R & C & X & G & L & B). rewrite <- (X FIT). cbv zeta.
  destruct (laz_fields _ _ _ _ _ C G L) as (H1 & _ & H3 & _ & H5). pose proof (laz_head_length _ _ _ _ _ C G) as HL.
  split; [exact H1|]. pose proof (laz_split _ _ _ _ _ C) as SP. unfold data_section in SP. set (p8 := enc_u64 _) in SP.
  assert (L8 : length p8 = 8%nat) by apply le_enc_length.
  destruct (base_offset_ok _ G) as (_ & DR).
  split; [|split; [|split; [|split; [|split; [exact H5|split]]]]].
  - unfold laz_table_offset. rewrite H1. unfold num_at. rewrite SP.
    replace (laz_head z h ++ _) with (laz_head z h ++ p8 ++ (cdata cs ++ table_bytes cd cs ++ wkt_record (z_wkt z))) by now rewrite <- !app_assoc.
    rewrite (bytes_at_mid _ 8 _ p8) by (rewrite ?L8; auto). unfold p8, enc_u64. rewrite le_dec_enc. change (8 * Z.of_nat 8) with 64. unfold cdata in *. apply Z.mod_small.
    rewrite SP, !app_length in L. unfold cdata in *. lia.
  - rewrite SP. replace (laz_head z h ++ _) with ((laz_head z h ++ p8) ++ cdata cs ++ (table_bytes cd cs ++ wkt_record (z_wkt z))) by now rewrite <- !app_assoc.
    apply bytes_at_mid; [rewrite app_length, L8; lia|reflexivity].
  - exists (wkt_record (z_wkt z)). split.
    + rewrite SP. replace (laz_head z h ++ _) with ((laz_head z h ++ p8 ++ cdata cs) ++ table_bytes cd cs ++ wkt_record (z_wkt z)) by now rewrite <- !app_assoc.
      rewrite skipn_app. match goal with |- skipn ?a ?x ++ _ = _ => assert (LA : a = length x) end.
      { rewrite !app_length, L8, <- HL. unfold cdata. lia. }
      rewrite LA, skipn_all, Nat.sub_diag. cbn [skipn app]. unfold table_bytes. rewrite <- !app_assoc. reflexivity.
    + rewrite H3, (laz_split _ _ _ _ _ C), !app_length. lia.
  - pose proof (lc_count _ _ _ _ _ C). unfold UINT32_MAX in *. lia.
  - exact (lc_points _ _ _ _ _ C).
  - exact (lc_chunks _ _ _ _ _ C).
Qed.
Lemma laz_counts cd z ops l w0 w1 : laz_ready z -> open_laz_writer None z = Ok w0 -> lrun cd ops w0 = (w1, l) -> Z.of_nat (length (laz_file w1)) < 2 ^ 64 ->
  laz_chunks_fit cd (z_hdr z) ops -> let cs := laz_chunks cd (z_hdr z) l in laz_point_count w1 = total_points cs mod 2 ^ 64 /\ laz_chunk_count w1 = Z.of_nat (length cs).
Proof.
  intros G O R L FIT. destruct (laz_open_inv _ _ O G) as (CF & S & B). rewrite <- CF in G.
  destruct (lrun_spec _ _ _ _ _ _ _ S G B R L) as (cs & B1 & CF1 & X). cbn [app] in B1. rewrite CF in X. cbv zeta. rewrite <- (X FIT).
  destruct B1 as (_ & _ & _ & B1 & B2 & _). split; [exact B2|]. unfold laz_chunk_count. rewrite B1.
  f_equal. clear. generalize (laz_start z + 8). induction cs as [|(x, y) cs IH]; intros s; cbn; [reflexivity|now rewrite IH].
Qed.
Lemma laz_directories cd z ops l w : laz_session cd z ops l w -> (length (z_ebs z) <= 341)%nat -> let f := laz_file w in
  follow 54 2 (Z.to_nat (las_vlr_count f)) 375 f <= las_point_offset f /\
  (eb_total (z_ebs z) <> 0 \/ z_ebs z = [] -> follow 54 2 (Z.to_nat (las_vlr_count f)) 375 f = las_point_offset f) /\
  las_evlr_count f = (match z_wkt z with [] => 0 | _ => 1 end) /\
  follow 60 8 (Z.to_nat (las_evlr_count f)) (las_evlr_offset f) f = Z.of_nat (length f).
Proof.
  intros S EB. destruct (laz_closed _ _ _ _ _ S) as (w0 & w1 & cs & h & O & R & C & X & G & L & B). cbv zeta.
  destruct (laz_fields _ _ _ _ _ C G L) as (H1 & H2 & H3 & H4 & H5). pose proof (laz_vlr_walk _ _ _ _ _ C G EB) as VW.
  assert (LR : Z.to_nat (las_vlr_count (laz_file w)) = length (laz_recs z)).
  { rewrite H2. destruct (laz_eb _ G) as (_ & EBN & _). unfold laz_recs.
    destruct (Z.eqb_spec (eb_total (z_ebs z)) 0), (Z.ltb_spec 0 (eb_total (z_ebs z))); try lia; reflexivity. }
  rewrite LR, VW, H1. split; [unfold laz_slack; destruct (_ && _); lia|]. split; [|split; [exact H4|]].
  - intros E. enough (laz_slack z = 0) by lia. unfold laz_slack. destruct E as [E|E]; [|rewrite E; reflexivity].
    destruct (Z.eqb_spec (eb_total (z_ebs z)) 0); [contradiction|]. now rewrite andb_false_r.
  - rewrite H3, H4. replace (Z.to_nat match z_wkt z with [] => 0 | _ => 1 end) with (match z_wkt z with [] => 0 | _ => 1 end)%nat by (destruct (z_wkt z); reflexivity).
    apply (laz_evlr_walk _ _ _ _ _ C G). pose proof L as L'. rewrite (laz_split _ _ _ _ _ C), !app_length in L'. unfold wkt_record in L'. destruct (z_wkt z); [reflexivity|]. rewrite app_length in L'. lia.
Qed.
