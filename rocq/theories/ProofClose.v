(* ProofClose.v - what Close writes *)
From Coq Require Import Permutation.
From Verif Require Import Base BaseFacts ModelFloat ModelKey ModelGeom ModelEntry ModelPoint ModelPoints ModelHeader ModelVlr ModelExtents ModelConfig
  ModelStream ModelWriter SpecKey SpecPoint SpecConfig SpecHeader SpecWriter SpecHier ProofKey ProofPoint ProofPoint2 ProofHeader ProofExtents ProofConfig
  ProofStream ProofWriter ProofWriter2 ProofWriter3 ProofTree ProofPages.

Definition chunk_sizes (cs : list (bytes * Z)) : list (Z * Z) := map (fun c => (to_u 64 (snd c), Z.of_nat (length (fst c)))) cs.
Lemma relative_cends cs : forall s, Z.of_nat (length (cdata cs)) < 2 ^ 64 -> relative_chunks s (cends s cs) = chunk_sizes cs.
Proof.
  induction cs as [|(x, n) cs IH]; intros s L; [reflexivity|]. unfold cdata in *. cbn [map fst concat] in L. rewrite app_length in L.
  cbn [cends relative_chunks chunk_sizes map fst snd]. f_equal.
  - f_equal. unfold to_u. rewrite Z.mod_small; lia.
  - apply IH. lia.
Qed.
Lemma cends_length s cs : length (cends s cs) = length cs.
Proof. revert s. induction cs as [|(x, n) cs IH]; intros s; [reflexivity|]. cbn [cends length]. f_equal. apply IH. Qed.

(* the chunk table as stored: version, number of chunks, compressed table *)
Definition table_bytes (cd : codec) (cs : list (bytes * Z)) : bytes :=
  enc_u32 0 ++ enc_u32 (Z.of_nat (length cs)) ++ cd_table cd (chunk_sizes cs).
(* point data section: pointer to the chunk table, chunks, table *)
Definition data_section (cd : codec) (start : Z) (cs : list (bytes * Z)) : bytes :=
  enc_u64 (start + 8 + Z.of_nat (length (cdata cs))) ++ cdata cs ++ table_bytes cd cs.

Lemma zeros_add a b : zeros (a + b) = zeros a ++ zeros b.
Proof. unfold zeros. apply repeat_app. Qed.

Lemma splice_ge p b d : (length d <= length (splice p b d))%nat.
Proof. unfold splice. rewrite !app_length, firstn_length, skipn_length. lia. Qed.
Lemma chunk_table_spec cd ds cs b b' r : 0 < ds -> binv (ds + 8) cs b -> write_chunk_table cd ds b = (b', r) ->
  Z.of_nat (length (o_data (b_out b'))) < 2 ^ 64 ->
  (r = Throw /\ UINT32_MAX < Z.of_nat (length cs)) \/
  (r = Ok tt /\ Z.of_nat (length cs) <= UINT32_MAX /\
   b' = mkBW (mkOut (zeros (Z.to_nat ds) ++ data_section cd ds cs) (Z.to_nat ds + 8) false None) true (chunk_sizes cs) (to_u 64 (total_points cs)) (b_evoff b) 0).
Proof.
  intros S I H L. pose proof I as (A & DT & O & C & PT & EV).
  assert (EB : b = outb (zeros (Z.to_nat (ds + 8)) ++ cdata cs) (mkBW (b_out b) true (cends (ds + 8) cs) (to_u 64 (total_points cs)) (b_evoff b) 0)).
  { destruct b as [o op ch pt eo ec]. cbn in *. destruct o as [d p bad cap]. destruct A as (A1 & A2 & A3). cbn in *. subst. reflexivity. }
  set (b0 := mkBW (b_out b) true (cends (ds + 8) cs) (to_u 64 (total_points cs)) (b_evoff b) 0) in *.
  assert (L1 : Z.of_nat (length (zeros (Z.to_nat (ds + 8)) ++ cdata cs)) = ds + 8 + Z.of_nat (length (cdata cs))) by (rewrite app_length, zeros_length; lia).
  unfold write_chunk_table in H. rewrite EB in H. rewrite seek_outb in H. cbv zeta in H.
  assert (L0 : Z.of_nat (length (zeros (Z.to_nat (ds + 8)) ++ cdata cs)) < 2 ^ 64).
  { revert H. cbn [outb with_out b_out b_chunks b_points b_evoff b_evcnt b_open]. rewrite put_end by now repeat split. cbn [o_data].
    destruct (UINT32_MAX <? _); intros H; [injection H as <- <-; cbn [b_out o_data] in L; rewrite app_length in L; lia|].
    revert H. unfold emit. cbn [with_out b_out]. rewrite (put_end (_ ++ _)) by now repeat split. cbn [o_data].
    unfold seek_to. cbn [o_bad o_data o_cap]. intros H. pose proof (f_equal fst H) as HB. cbn [fst] in HB. subst b'. cbn [with_out b_out] in L.
    unfold put in L. cbn [o_bad o_cap o_pos o_data] in L. match type of L with context [splice ?p ?b ?d] => pose proof (splice_ge p b d) as SG end.
    eapply Z.le_lt_trans; [|exact L]. apply inj_le. eapply Nat.le_trans; [|exact SG]. rewrite !app_length. lia. }
  rewrite tell_outb in H by exact L0. rewrite L1 in H, L0.
  cbn [outb with_out b_out b_chunks b_points b_evoff b_evcnt b_open b0] in H. rewrite put_end in H by now repeat split. cbn [o_data] in H.
  unfold first_chunk_offset in H. rewrite relative_cends in H by lia.
  assert (NC : length (chunk_sizes cs) = length cs) by apply map_length. rewrite !NC in H.
  destruct (Z.ltb_spec UINT32_MAX (Z.of_nat (length cs))) as [BIG|FIT].
  { left. split; [|exact BIG]. apply (f_equal snd) in H. symmetry. exact H. }
  right. unfold emit in H. cbn [with_out b_out] in H. rewrite (put_end (_ ++ _)) in H by now repeat split. cbn [o_data] in H.
  unfold seek_to in H. cbn [o_bad o_data o_cap] in H. pose proof (f_equal fst H) as HB. pose proof (f_equal snd H) as HR. cbn [fst snd] in HB, HR. clear H.
  split; [now symmetry|]. split; [exact FIT|]. rewrite <- HB. cbn [b_open b_chunks b_points b_evoff b_evcnt b_out with_out].
  rewrite (put_mid _ _ (zeros (Z.to_nat ds)) (zeros 8) (cdata cs ++ table_bytes cd cs)).
  - unfold data_section. cbn [b_open b_chunks b_points b_evoff b_evcnt]. f_equal. f_equal. rewrite zeros_length. unfold enc_u64. rewrite le_enc_length. reflexivity.
  - now split.
  - cbn [o_data]. unfold table_bytes. replace (Z.to_nat (ds + 8)) with (Z.to_nat ds + 8)%nat by lia. rewrite zeros_add, <- !app_assoc. reflexivity.
  - cbn [o_pos]. now rewrite zeros_length.
  - unfold enc_u64. now rewrite le_enc_length, zeros_length.
Qed.

(* ---- the header area ---- *)
Definition wkt_record (wkt : bytes) : bytes := match wkt with [] => [] | _ => enc_evlr_header (wkt_evlr_header wkt) ++ wkt end.
Definition eb_part (c : config) : bytes :=
  if 0 <? eb_total (c_ebs c) then enc_vlr_header (eb_vlr_header (c_ebs c)) ++ enc_eb_vlr (c_ebs c) else [].
Definition ext_part (c : config) : bytes :=
  if xs_ext (c_exts c) then enc_vlr_header (extended_vlr_header (extents_to_extended (c_exts c))) ++ enc_pairs (extents_to_extended (c_exts c)) else [].
Definition gps_extent (c : config) : extent := match dim_get DGpsTime (c_exts c) with Ok e => e | _ => default_extent end.
Definition vlr_part (c : config) : bytes :=
  (enc_vlr_header info_vlr_header ++ enc_info (c_info c) (ex_min (gps_extent c)) (ex_max (gps_extent c))) ++
  (enc_vlr_header (extents_vlr_header (extents_to_vlr (c_exts c))) ++ enc_pairs (extents_to_vlr (c_exts c))) ++
  ext_part c ++ eb_part c ++
  (enc_vlr_header (laz_vlr_header (h_fmt (c_hdr c)) (eb_total (c_ebs c))) ++ enc_laz_vlr (h_fmt (c_hdr c)) (eb_total (c_ebs c))).
Lemma enc_eb_length e : wf_eb e -> length (enc_eb e) = 192%nat.
Proof.
  intros (_ & _ & _ & _ & A & B & C & D & E). unfold enc_eb, enc_u16, enc_u8, enc_u32. rewrite !app_length, !le_enc_length, !put_str_length, A, B, C, D, E. reflexivity.
Qed.
Lemma enc_ebs_length l : Forall wf_eb l -> Z.of_nat (length (enc_eb_vlr l)) = 192 * Z.of_nat (length l).
Proof.
  intros H. unfold enc_eb_vlr. induction H as [|e l He H IH]; [reflexivity|]. cbn [flat_map length]. rewrite app_length, enc_eb_length by exact He. lia.
Qed.
Lemma enc_info_length i a b : length (enc_info i a b) = 160%nat.
Proof. unfold enc_info, enc_u64. rewrite !app_length, !enc_f64_length, !le_enc_length, zeros_length. reflexivity. Qed.
Lemma enc_laz_length fmt eb : 6 <= fmt <= 8 -> 0 <= eb -> Z.of_nat (length (enc_laz_vlr fmt eb)) = 34 + 6 * (1 + (if fmt =? 6 then 0 else 1) + (if eb =? 0 then 0 else 1)).
Proof.
  intros F E. rewrite <- laz_items_length by assumption. unfold enc_laz_vlr, enc_u16, enc_u8, enc_u32, enc_u64.
  rewrite !app_length, !le_enc_length. 
  rewrite ?(flat_map_length_const _ 6) by (intros v; rewrite ?app_length, ?le_enc_length; reflexivity). lia.
Qed.
Lemma gps_ok c : cfg_ok c -> dim_get DGpsTime (c_exts c) = Ok (gps_extent c).
Proof.
  intros G. destruct (good_shape _ G) as ((_ & _ & L) & _). pose proof (las_dims_range (xs_fmt (c_exts c))). unfold gps_extent. cbn [dim_get]. unfold get_nth.
  destruct (nth_error (xs_items (c_exts c)) 13) eqn:E; [reflexivity|]. apply nth_error_None in E. lia.
Qed.
Lemma copc_vlrs_spec c : cfg_ok c -> (copc_vlrs c = Ok (vlr_part c) /\ ordered_bounds (c_hdr c)) \/ (copc_vlrs c = Throw /\ ~ ordered_bounds (c_hdr c)).
Proof.
  intros G. unfold copc_vlrs. rewrite gps_ok by exact G. cbn [bind]. destruct (good_eb_size _ G) as (E & _ & _ & E2 & _).
  unfold new_extent2, new_extent. assert (V : flt f1 f0 = false) by reflexivity. rewrite !V. unfold ordered_bounds.
  destruct (fgt (vx (h_min (c_hdr c))) (vx (h_max (c_hdr c)))) eqn:X; [right; split; [reflexivity|intros (? & _); discriminate]|].
  destruct (fgt (vy (h_min (c_hdr c))) (vy (h_max (c_hdr c)))) eqn:Y; [right; split; [reflexivity|intros (_ & ? & _); discriminate]|].
  destruct (fgt (vz (h_min (c_hdr c))) (vz (h_max (c_hdr c)))) eqn:Z'; [right; split; [reflexivity|intros (_ & _ & ?); discriminate]|].
  left. split; [|now repeat split]. cbn [bind]. rewrite E, E2. cbn [bind]. unfold vlr_part, laz_and_eb_vlrs, ext_part, eb_part.
  now rewrite <- !app_assoc.
Qed.
(* the reserved space is filled exactly, unless all extra-byte items are empty *)
Definition slack (c : config) : Z := if (0 <? Z.of_nat (length (c_ebs c))) && (eb_total (c_ebs c) =? 0) then 54 + 192 * Z.of_nat (length (c_ebs c)) else 0.
Lemma vlr_part_length c : cfg_ok c -> 375 + Z.of_nat (length (vlr_part c)) + slack c = data_start c.
Proof.
  intros G. pose proof G as (_ & F & XF & (_ & K & SH) & _ & _ & _ & _ & WE). destruct (good_eb_size _ G) as (_ & B & _ & E2 & _).
  unfold vlr_part, ext_part, eb_part, slack, data_start. rewrite !app_length, !vlr_header_length, enc_info_length.
  assert (P1 : Z.of_nat (length (enc_pairs (extents_to_vlr (c_exts c)))) = 16 * (las_dims (h_fmt (c_hdr c)) + Z.of_nat (length (c_ebs c)))).
  { rewrite enc_pairs_length. unfold pairs_size, extents_to_vlr. rewrite map_length, SH, XF. reflexivity. }
  assert (P2 : Z.of_nat (length (enc_pairs (extents_to_extended (c_exts c)))) = 16 * (las_dims (h_fmt (c_hdr c)) + Z.of_nat (length (c_ebs c)))).
  { rewrite enc_pairs_length. unfold pairs_size, extents_to_extended. rewrite map_length, SH, XF. reflexivity. }
  pose proof (enc_ebs_length _ WE) as P3. pose proof (enc_laz_length (h_fmt (c_hdr c)) (eb_total (c_ebs c)) F ltac:(lia)) as P4.
  assert (X : (h_reclen (c_hdr c) =? las_base (h_fmt (c_hdr c))) = (eb_total (c_ebs c) =? 0)) by lia. rewrite X.
  assert (Z0 : 0 < Z.of_nat (length (c_ebs c)) \/ eb_total (c_ebs c) = 0) by (destruct (c_ebs c); [now right|left; cbn [length]; lia]).
  destruct (xs_ext (c_exts c)), (Z.ltb_spec 0 (eb_total (c_ebs c))), (Z.eqb_spec (eb_total (c_ebs c)) 0), (Z.eqb_spec (Z.of_nat (length (c_ebs c))) 0),
    (Z.ltb_spec 0 (Z.of_nat (length (c_ebs c)))); cbn [andb length]; rewrite ?app_length, ?vlr_header_length; lia.
Qed.

(* writing over the start of the file *)
Lemma header_area H d s : good_out s -> o_data s = d -> (length H <= length d)%nat ->
  put H (seek_to 0 s) = mkOut (H ++ skipn (length H) d) (length H) false None.
Proof.
  intros (B & C) E L. unfold seek_to. rewrite B, E, C. rewrite (put_mid H _ [] (firstn (length H) d) (skipn (length H) d)).
  - reflexivity.
  - now split.
  - cbn [o_data app]. now rewrite firstn_skipn.
  - reflexivity.
  - rewrite firstn_length. lia.
Qed.
