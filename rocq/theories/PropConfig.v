(* PropConfig.v - property theorems C17, C18, C24, C25, C26, C27, C58, C59, C60, C64 *)
From Verif Require Import BaseFacts ModelFloat ModelKey ModelEntry ModelGeom ModelPoint ModelHeader ModelVlr ModelExtents ModelConfig ModelPickle
  SpecPoint SpecHeader SpecConfig ProofHeader ProofExtents ProofConfig ProofPickle.
Open Scope Z_scope.

(* ---- C17: LAS header round trip ---- *)
(* what the writer's WriteHeader emits (point offset, point count, EVLR offset and count supplied by it)
   is 375 bytes and reads back with every field; the reader reports IsCopc = true for every file *)
Theorem C17_header_roundtrip : forall h po pc eo ec eb ex rest,
  wf_hdr h -> fits po pc eo ec -> 6 <= h_fmt h <= 8 -> (ex = true -> h_copc h = true) ->
  id_string 16 (h_guid h) -> id_string 32 (h_sys h) -> id_string 32 (h_gen h) ->
  exists l, to_lazperf h po pc eo ec eb ex = Ok l /\ length (enc_header14 l) = 375%nat /\
    exists h', read_las_header (enc_header14 l ++ rest) = Ok h' /\
      h_src h' = h_src h /\ h_enc h' = Z.lor (h_enc h) 16 /\ h_day h' = h_day h /\ h_year h' = h_year h /\
      h_fmt h' = h_fmt h /\ h_reclen h' = h_reclen h /\ h_scale h' = h_scale h /\ h_offset h' = h_offset h /\
      h_min h' = h_min h /\ h_max h' = h_max h /\ h_pbr h' = h_pbr h /\
      h_pcount h' = pc /\ h_poff h' = po /\ h_evoff h' = eo /\ h_evcnt h' = ec /\ h_vlrs h' = announced_vlrs (h_copc h) eb ex /\
      h_guid h' = h_guid h /\ h_sys h' = h_sys h /\ h_gen h' = h_gen h.
Proof.
  intros h po pc eo ec eb ex rest W F Hf X G S N. destruct (to_lazperf_defined h po pc eo ec eb ex X) as (l & E).
  exists l. split; [exact E|]. destruct (header_roundtrip h po pc eo ec eb ex l rest W F Hf G S N E) as (L & R).
  split; [exact L|]. eexists. split; [exact R|]. cbn. repeat split.
Qed.
Print Assumptions C17_header_roundtrip.

(* whatever the identification strings, the block has the fixed size *)
Theorem C17_header_size : forall h po pc eo ec eb ex l, wf_hdr h -> fits po pc eo ec ->
  to_lazperf h po pc eo ec eb ex = Ok l -> length (enc_header14 l) = 375%nat.
Proof. exact header_written_length. Qed.
Print Assumptions C17_header_size.

(* a file is accepted only if it has the signature, the WKT bit, version 1.4, header size 375, format 6-8 *)
Theorem C17_rejected : forall file h, read_las_header file = Ok h ->
  exists magic l r, dec_header14 file = Some (magic, l, r) /\ magic = LASF /\
    Z.testbit (l_enc l) 4 = true /\ l_major l = 1 /\ l_minor l = 4 /\ l_hsize l = 375 /\ 6 <= Z.land (l_fmt l) 63 <= 8.
Proof. exact accepted_header. Qed.
Print Assumptions C17_rejected.

(* a 16-character GUID, which the setter accepts, is written without terminator and cannot be read back *)
Theorem C17_full_guid_refuted : exists h g po pc eo ec l, wf_hdr h /\ fits po pc eo ec /\ 6 <= h_fmt h <= 8 /\
  set_guid g (new_header 6 30 zero_vec zero_vec true) = Ok h /\
  to_lazperf h po pc eo ec false false = Ok l /\ forall rest, read_las_header (enc_header14 l ++ rest) = UB.
Proof.
  set (h := with_strings (repeat 65 16) [] [] (new_header 6 30 zero_vec zero_vec true)).
  assert (W : wf_hdr h). { unfold wf_hdr. cbn. repeat split; try lia; repeat constructor; lia. }
  assert (F : fits 375 0 0 0) by (unfold fits; lia).
  destruct (to_lazperf_defined h 375 0 0 0 false false) as (l & E); [discriminate|].
  exists h, (repeat 65 16), 375, 0, 0, 0, l. split; [exact W|]. split; [exact F|]. split; [cbn; lia|]. split; [reflexivity|]. split; [exact E|].
  intros rest. eapply header_overread; [exact W|exact F|cbn; lia| |reflexivity|exact E].
  cbn. intuition discriminate.
Qed.
Print Assumptions C17_full_guid_refuted.

Example C17_nonvacuous : exists h, wf_hdr h /\ 6 <= h_fmt h <= 8 /\ id_string 16 (h_guid h) /\ id_string 32 (h_sys h) /\ id_string 32 (h_gen h) /\
  h_guid h <> [] /\ h_sys h <> [].
Proof.
  exists (with_strings [65; 66; 67] [120; 121] [99] (new_header 7 40 zero_vec zero_vec true)).
  unfold wf_hdr, id_string. cbn. repeat split; try lia; try discriminate; repeat constructor; try lia; intuition discriminate.
Qed.

(* ---- C18: legacy counts ---- *)
Theorem C18_legacy_counts : forall h po pc eo ec eb ex l, to_lazperf h po pc eo ec eb ex = Ok l ->
  l_pc14 l = pc /\ l_pcount l = (if pc <=? 4294967295 then pc else 0) /\ l_pbr5 l = [0; 0; 0; 0; 0] /\ l_pbr14 l = h_pbr h.
Proof. exact legacy_count. Qed.
Print Assumptions C18_legacy_counts.
(* and these are the fields at their LAS 1.4 byte positions: 107 (legacy count), 111 (legacy by return), 247, 255 *)
Theorem C18_legacy_counts_on_disk : forall h po pc eo ec eb ex l, wf_hdr h -> fits po pc eo ec -> to_lazperf h po pc eo ec eb ex = Ok l ->
  firstn 4 (skipn 107 (enc_header14 l)) = enc_u32 (if pc <=? 4294967295 then pc else 0) /\
  firstn 20 (skipn 111 (enc_header14 l)) = zeros 20 /\
  firstn 8 (skipn 247 (enc_header14 l)) = enc_u64 pc.
Proof. exact legacy_on_disk. Qed.
Print Assumptions C18_legacy_counts_on_disk.
Example C18_nonvacuous : exists l l', to_lazperf (new_header 6 30 zero_vec zero_vec true) 375 4294967295 0 0 false false = Ok l /\ l_pcount l = 4294967295 /\
  to_lazperf (new_header 6 30 zero_vec zero_vec true) 375 4294967296 0 0 false false = Ok l' /\ l_pcount l' = 0 /\ l_pc14 l' = 4294967296.
Proof. eexists _, _. split; [reflexivity|]. split; [reflexivity|]. split; [reflexivity|]. split; reflexivity. Qed.

(* ---- C24: extents VLRs ---- *)
(* the extents VLR announces its true length and decodes to the same minima and maxima *)
Theorem C24_extents_roundtrip : forall x n rest, shaped x n -> (length (xs_items x) < 4096)%nat ->
  Forall (fun e => fgt (ex_min e) (ex_max e) = false) (xs_items x) ->
  let v := extents_to_vlr x in
  Z.of_nat (length (enc_pairs v)) = v_len (extents_vlr_header v) /\
  exists v', dec_pairs (v_len (extents_vlr_header v)) (enc_pairs v ++ rest) = Some (v', rest) /\
    forall ext, extents_of_vlr v' (xs_fmt x) n ext = Ok (mkExts (xs_fmt x) ext (map plain (xs_items x))).
Proof.
  intros x n rest S L F v. unfold v. cbn [v_len extents_vlr_header]. rewrite pairs_len16 by (unfold extents_to_vlr; now rewrite map_length).
  split; [apply enc_pairs_length|]. exists (extents_to_vlr x). split; [apply dec_pairs_enc|]. intros ext. now apply extents_vlr_back.
Qed.
Print Assumptions C24_extents_roundtrip.
(* with extended statistics the second VLR restores mean and variance: the extents are equal *)
Theorem C24_extended_roundtrip : forall x n rest, shaped x n -> xs_ext x = true -> (length (xs_items x) < 4096)%nat ->
  Forall (fun e => fgt (ex_min e) (ex_max e) = false) (xs_items x) ->
  let v := extents_to_extended x in
  Z.of_nat (length (enc_pairs v)) = v_len (extended_vlr_header v) /\
  exists v' y, dec_pairs (v_len (extended_vlr_header v)) (enc_pairs v ++ rest) = Some (v', rest) /\
    extents_of_vlr (extents_to_vlr x) (xs_fmt x) n true = Ok y /\ set_extended y v' = Ok x.
Proof.
  intros x n rest S E L F v. unfold v. cbn [v_len extended_vlr_header]. rewrite pairs_len16 by (unfold extents_to_extended; now rewrite map_length).
  split; [apply enc_pairs_length|]. exists (extents_to_extended x). eexists. split; [apply dec_pairs_enc|]. split; [now apply extents_vlr_back|].
  rewrite set_extended_back. destruct x; cbn in *; now subst.
Qed.
Print Assumptions C24_extended_roundtrip.
Theorem C24_wrong_count_rejected : forall v fmt n ext, 6 <= fmt <= 8 -> 0 <= n < 65536 -> Z.of_nat (length v) <> las_dims fmt + n ->
  extents_of_vlr v fmt n ext = Throw.
Proof. exact extents_vlr_wrong_count. Qed.
Print Assumptions C24_wrong_count_rejected.
Theorem C24_wrong_extended_rejected : forall x v, xs_ext x = false \/ length v <> length (xs_items x) -> set_extended x v = Throw.
Proof. exact set_extended_wrong. Qed.
Print Assumptions C24_wrong_extended_rejected.
Definition sample_extents : extents :=
  mkExts 7 true (mkExt (f64_of_Z (-3)) (f64_of_Z 9) (f64_of_Z 2) (f64_of_Z 5) :: repeat default_extent 17).
Example C24_nonvacuous : shaped sample_extents 1 /\ xs_ext sample_extents = true /\ (length (xs_items sample_extents) < 4096)%nat /\
  Forall (fun e => fgt (ex_min e) (ex_max e) = false) (xs_items sample_extents).
Proof.
  unfold shaped. split; [cbn; lia|]. split; [reflexivity|]. split; [cbn; lia|].
  cbn [sample_extents xs_items]. constructor; [vm_compute; reflexivity|]. apply Forall_forall. intros e I. apply repeat_spec in I. subst. vm_compute. reflexivity.
Qed.

(* ---- C25: changing the format keeps matching extents ---- *)
Theorem C25_reslot : forall o n fmt neb ext, shaped o n -> 6 <= fmt <= 8 -> 0 <= neb < 65536 ->
  exists y, reslot_extents o fmt neb ext = Ok y /\ xs_fmt y = fmt /\ xs_ext y = ext /\ carried o n y neb.
Proof.
  intros o n fmt neb ext S F N. destruct (reslot_spec o n fmt neb ext S F N) as (y & E & Sy & Ef & Ee & D).
  exists y. split; [exact E|]. split; [exact Ef|]. split; [exact Ee|]. unfold carried. rewrite Ef. split; [exact Sy|exact D].
Qed.
Print Assumptions C25_reslot.
Example C25_nonvacuous : exists y, reslot_extents sample_extents 8 1 false = Ok y /\ dim_get DX y = dim_get DX sample_extents /\
  dim_get DRed y = dim_get DRed sample_extents /\ dim_get DNir y = Ok default_extent.
Proof. eexists. split; [reflexivity|]. repeat split. Qed.

(* ---- C26: extent invariants ---- *)
Theorem C26_constructor : forall mn mx mean var,
  (exists e, new_extent mn mx mean var = Ok e /\ e = mkExt mn mx mean var /\ extent_ok e) \/
  (new_extent mn mx mean var = Throw /\ (fgt mn mx = true \/ flt var f0 = true)).
Proof. exact new_extent_spec. Qed.
Print Assumptions C26_constructor.
Theorem C26_copy_constructor : forall e, (copy_extent e = Ok e /\ extent_ok e) \/ (copy_extent e = Throw /\ ~ extent_ok e).
Proof. exact copy_extent_spec. Qed.
Print Assumptions C26_copy_constructor.
Theorem C26_list_constructor_bounds : forall l e, extent_of_list l = Ok e -> fgt (ex_min e) (ex_max e) = false.
Proof. exact extent_of_list_bounds. Qed.
Print Assumptions C26_list_constructor_bounds.
Theorem C26_list_constructor_two : forall mn mx e, extent_of_list [mn; mx] = Ok e -> extent_ok e.
Proof. exact extent_of_list_two. Qed.
Print Assumptions C26_list_constructor_two.
(* the four-number list constructor lets a negative variance through; such an extent cannot be copied *)
Theorem C26_negative_variance_refuted : exists l e, extent_of_list l = Ok e /\ ~ extent_ok e /\ copy_extent e = Throw.
Proof.
  exists [f0; f1; f0; fopp f1]. eexists. split; [reflexivity|].
  split; [intros (_ & H); vm_compute in H; discriminate|vm_compute; reflexivity].
Qed.
Print Assumptions C26_negative_variance_refuted.
Example C26_nonvacuous : exists e, new_extent f0 f1 f0 f1 = Ok e /\ new_extent f1 f0 f0 f1 = Throw /\ new_extent f0 f1 f0 (fopp f1) = Throw.
Proof. eexists. split; [reflexivity|]. split; vm_compute; reflexivity. Qed.

(* ---- C27: record length and extra bytes ---- *)
Theorem C27_record_length : forall fmt s o wkt ebs ext,
  6 <= fmt <= 8 -> Forall (fun e => 0 <= eb_type e <= 30) ebs -> Forall wf_eb ebs -> Z.of_nat (length ebs) < 65536 -> las_base fmt + eb_total ebs < 65536 ->
  exists c, new_config fmt s o wkt ebs ext = Ok c /\ h_reclen (c_hdr c) = las_base fmt + eb_total ebs /\
    h_eb_size (c_hdr c) = Ok (eb_total ebs) /\ h_fmt (c_hdr c) = fmt /\ h_scale (c_hdr c) = s /\ h_offset (c_hdr c) = o /\ c_wkt c = wkt /\ c_ebs c = ebs.
Proof.
  intros fmt s o wkt ebs ext Hf F W L T. destruct (new_config_good fmt s o wkt ebs ext Hf F W L T) as (c & E & G & A1 & A2 & A3 & A4 & A5 & A6 & A7).
  exists c. split; [exact E|]. destruct G as (_ & _ & _ & _ & _ & _ & R). rewrite A1, A5 in R. auto 10.
Qed.
Print Assumptions C27_record_length.
Theorem C27_undocumented_type_refuted : forall fmt s o wkt ebs copc, 6 <= fmt <= 8 -> Exists (fun e => 30 < eb_type e) ebs ->
  new_laz_config fmt s o wkt ebs copc = UB.
Proof.
  intros fmt s o wkt ebs copc Hf E. unfold new_laz_config. replace ((fmt <? 6) || (8 <? fmt)) with false by lia.
  rewrite las_base_ok' by assumption. cbn [bind]. rewrite num_bytes_from_eb_ub by assumption. reflexivity.
Qed.
Print Assumptions C27_undocumented_type_refuted.
(* descriptors totalling more than 65535 bytes silently wrap *)
Definition big_eb : ebfield := mkEb 0 0 255 [] 0 (zeros 24) (zeros 24) (zeros 24) (zeros 24) (zeros 24) [].
Theorem C27_overflow_refuted : exists ebs z, Forall wf_eb ebs /\ new_laz_config 6 zero_vec zero_vec [] ebs true = Ok z /\
  eb_total ebs = 76500 /\ h_reclen (z_hdr z) = 10994.
Proof.
  exists (repeat big_eb 300), (mkLaz (new_header 6 10994 zero_vec zero_vec true) [] (repeat big_eb 300)). split.
  { apply Forall_forall. intros e I. apply repeat_spec in I. subst. unfold wf_eb. cbn. repeat split; lia. }
  split; [|split; [vm_compute; reflexivity|reflexivity]].
  rewrite new_laz_config_ok; [|lia|apply Forall_forall; intros e I; apply repeat_spec in I; subst; cbn; lia].
  replace (to_u 16 (las_base 6 + eb_total (repeat big_eb 300))) with 10994 by (vm_compute; reflexivity). reflexivity.
Qed.
Print Assumptions C27_overflow_refuted.
Definition sample_eb : ebfield := mkEb 0 29 0 [97] 0 (zeros 24) (zeros 24) (zeros 24) (zeros 24) (zeros 24) [].
Example C27_nonvacuous : Forall wf_eb [sample_eb; big_eb] /\ Forall (fun e => 0 <= eb_type e <= 30) [sample_eb; big_eb] /\
  las_base 7 + eb_total [sample_eb; big_eb] = 36 + 12 + 255.
Proof. unfold wf_eb. repeat split; repeat constructor; cbn; lia. Qed.

(* ---- C58: pickling ---- *)
Theorem C58_key : forall k, wf_key k = true -> setstate_key (getstate_key k) = Ok k.
Proof. exact pickle_key. Qed.
Print Assumptions C58_key.
Theorem C58_vector : forall v, setstate_vec (getstate_vec v) = Ok v.
Proof. exact pickle_vec. Qed.
Print Assumptions C58_vector.
Theorem C58_node : forall n, wf_entry (pn_entry n) = true -> wf_key (pn_page n) = true -> setstate_node (getstate_node n) = Ok n.
Proof. exact pickle_node. Qed.
Print Assumptions C58_node.
Theorem C58_header : forall h, wf_hdr h -> (length (h_guid h) <= 16)%nat -> (length (h_sys h) <= 32)%nat -> (length (h_gen h) <= 32)%nat ->
  utf8_dec (h_guid h) <> None -> utf8_dec (h_sys h) <> None -> utf8_dec (h_gen h) <> None ->
  exists st, getstate_header h = Ok st /\ setstate_header st = Ok h.
Proof. exact pickle_header. Qed.
Print Assumptions C58_header.
Theorem C58_bytes : forall b, setstate_bytes (getstate_bytes b) = Ok b.
Proof. exact pickle_bytes. Qed.
Print Assumptions C58_bytes.
(* a header whose GUID is not UTF-8 text (any binary GUID) cannot be pickled *)
Theorem C58_binary_guid_refuted : exists h g, wf_hdr h /\ set_guid g (new_header 6 30 zero_vec zero_vec true) = Ok h /\ getstate_header h = Throw.
Proof.
  exists (with_strings [255; 254] [] [] (new_header 6 30 zero_vec zero_vec true)), [255; 254].
  split; [unfold wf_hdr; cbn; repeat split; try lia; repeat constructor; lia|]. split; reflexivity.
Qed.
Print Assumptions C58_binary_guid_refuted.
Example C58_nonvacuous : wf_entry (mkEntry (mkKey 3 1 2 7) 12345678901 100 7) = true /\ utf8_dec [104; 195; 169; 226; 130; 172] = Some [104; 233; 8364].
Proof. split; reflexivity. Qed.

(* ---- C59: configurations are isolated copies ---- *)
(* after any history, whatever is then done to other configurations and writers (including creating new ones from
   this one) leaves this configuration or writer's configuration as it was *)
Theorem C59_isolation : forall ops ops' i, Forall no_sharing ops -> Forall no_sharing ops' ->
  (i < length (wd_cfgs (cfg_run empty_world ops)))%nat -> Forall (fun op => target op <> Some i) ops' ->
  value (cfg_run (cfg_run empty_world ops) ops') i = value (cfg_run empty_world ops) i.
Proof. exact isolation. Qed.
Print Assumptions C59_isolation.
Theorem C59_defined : forall ops i, Forall no_sharing ops -> (i < length (wd_cfgs (cfg_run empty_world ops)))%nat ->
  exists c, value (cfg_run empty_world ops) i = Some c.
Proof. exact value_defined. Qed.
Print Assumptions C59_defined.
(* a writer starts from the value its configuration had at construction *)
Theorem C59_writer_value : forall w i v c w', value w i = Some c -> cfg_step w (CWriter i v) = Ok w' ->
  exists c', init_writer c v = Ok c' /\ value w' (length (wd_cfgs w)) = Some c'.
Proof. exact writer_value. Qed.
Print Assumptions C59_writer_value.
(* its own handle does change it *)
Theorem C59_own_handle : forall w i h w' c, value w i = Some c -> cfg_step w (CSetHdr i h) = Ok w' ->
  value w' i = Some (mkCfg h (c_wkt c) (c_ebs c) (c_info c) (c_exts c)).
Proof. exact own_header. Qed.
Print Assumptions C59_own_handle.
Theorem C59_own_handle_info : forall w i v w' c, value w i = Some c -> cfg_step w (CSetInfo i v) = Ok w' ->
  value w' i = Some (mkCfg (c_hdr c) (c_wkt c) (c_ebs c) v (c_exts c)).
Proof. exact own_info. Qed.
Print Assumptions C59_own_handle_info.
Theorem C59_own_handle_extent : forall ops i slot e w', Forall no_sharing ops -> let w := cfg_run empty_world ops in
  cfg_step w (CSetExtent i slot e) = Ok w' ->
  exists c, value w' i = Some c /\ nth_error (xs_items (c_exts c)) slot = Some e.
Proof. exact own_extent. Qed.
Print Assumptions C59_own_handle_extent.
(* a LazWriter keeps the caller's header object: changing the config afterwards changes the writer *)
Theorem C59_laz_writer_refuted : exists hs p h, deref_laz (upd (lp_h p) h hs) (laz_writer_copy p) <> deref_laz hs (laz_writer_copy p) /\
  exists z, deref_laz hs p = Some z.
Proof.
  exists [new_header 6 30 zero_vec zero_vec false], (mkLazp 0 [] []), (new_header 7 36 zero_vec zero_vec false).
  split; [|eexists; reflexivity]. cbn. intros H. injection H. discriminate.
Qed.
Print Assumptions C59_laz_writer_refuted.
Definition sample_ops : list cfg_op := [CNew 7 zero_vec zero_vec [] [sample_eb] true; CCopy 0; CWriter 1 no_overrides].
Example C59_nonvacuous : Forall no_sharing sample_ops /\ length (wd_cfgs (cfg_run empty_world sample_ops)) = 3%nat /\
  Forall (fun op => target op <> Some 2%nat) [CSetHdr 0 (new_header 6 30 zero_vec zero_vec true); CSetExtent 1 0 default_extent].
Proof. split; [repeat constructor|]. split; [reflexivity|]. repeat constructor; discriminate. Qed.

(* ---- C60: constructor overrides ---- *)
Theorem C60_overrides : forall c v, good_config c -> let fmt := ov (ov_fmt v) (h_fmt (c_hdr c)) in let ebs := ov (ov_ebs v) (c_ebs c) in
  6 <= fmt <= 8 -> Forall wf_eb ebs -> Forall (fun e => 0 <= eb_type e <= 30) ebs -> Z.of_nat (length ebs) < 65536 -> las_base fmt + eb_total ebs < 65536 ->
  exists c', init_writer c v = Ok c' /\ good_config c' /\
    h_fmt (c_hdr c') = fmt /\ h_scale (c_hdr c') = ov (ov_scale v) (h_scale (c_hdr c)) /\ h_offset (c_hdr c') = ov (ov_offset v) (h_offset (c_hdr c)) /\
    c_wkt c' = ov (ov_wkt v) (c_wkt c) /\ c_ebs c' = ebs /\ xs_ext (c_exts c') = ov (ov_ext v) (xs_ext (c_exts c)) /\
    c_info c' = c_info c /\ same_identity (c_hdr c') (c_hdr c) /\
    carried (c_exts c) (Z.of_nat (length (c_ebs c))) (c_exts c') (Z.of_nat (length ebs)).
Proof. exact init_writer_spec. Qed.
Print Assumptions C60_overrides.
Theorem C60_no_overrides_is_copy : forall c, good_config c -> init_writer c no_overrides = Ok c.
Proof. exact init_writer_none. Qed.
Print Assumptions C60_no_overrides_is_copy.
Theorem C60_bad_format_rejected : forall c v, good_config c -> ~ (6 <= ov (ov_fmt v) (h_fmt (c_hdr c)) <= 8) -> init_writer c v = Throw.
Proof. exact init_writer_bad_format. Qed.
Print Assumptions C60_bad_format_rejected.
(* the constructor of a configuration gives such a configuration *)
Theorem C60_constructed_configs_qualify : forall fmt s o wkt ebs ext, 6 <= fmt <= 8 -> Forall (fun e => 0 <= eb_type e <= 30) ebs -> Forall wf_eb ebs ->
  Z.of_nat (length ebs) < 65536 -> las_base fmt + eb_total ebs < 65536 ->
  exists c, new_config fmt s o wkt ebs ext = Ok c /\ good_config c /\ xs_ext (c_exts c) = ext.
Proof. intros fmt s o wkt ebs ext H1 H2 H3 H4 H5. destruct (new_config_good fmt s o wkt ebs ext H1 H2 H3 H4 H5) as (c & E & G & A). exists c. intuition. Qed.
Print Assumptions C60_constructed_configs_qualify.
Example C60_nonvacuous : exists c c', new_config 6 zero_vec zero_vec [65] [sample_eb] false = Ok c /\ good_config c /\
  init_writer c (mkOv (Some 8) None None (Some [66]) (Some []) (Some true)) = Ok c' /\ h_reclen (c_hdr c') = 38 /\ c_wkt c' = [66] /\ length (xs_items (c_exts c')) = 18%nat.
Proof.
  assert (H1 : Forall (fun e => 0 <= eb_type e <= 30) [sample_eb]) by (repeat constructor; cbn; lia).
  assert (H2 : Forall wf_eb [sample_eb]) by (unfold wf_eb; repeat constructor; cbn; lia).
  destruct (new_config_good 6 zero_vec zero_vec [65] [sample_eb] false ltac:(lia) H1 H2 ltac:(cbn; lia) ltac:(vm_compute; reflexivity)) as (c & E & G & _).
  destruct (init_writer_spec c (mkOv (Some 8) None None (Some [66]) (Some []) (Some true)) G) as (c' & E' & G' & A1 & _ & _ & A2 & A3 & _);
    cbn [ov ov_fmt ov_ebs]; [lia|constructor|constructor|cbn; lia|cbn; lia|].
  exists c, c'. split; [exact E|]. split; [exact G|]. split; [exact E'|]. cbn [ov ov_fmt ov_ebs ov_wkt] in *.
  destruct G' as (_ & _ & X1 & (_ & _ & X2) & _ & _ & X3). rewrite A3, A1 in *. rewrite X1 in X2. cbn in X2, X3. split; [exact X3|]. split; [exact A2|].
  change (las_dims 8) with 18 in X2. lia.
Qed.

(* ---- C64: re-slotted extents share storage with their source ---- *)
(* for every extents object, the object built from it for another format or extra-byte count holds the same extent
   objects in the 14 base dimensions: changing one through the new object changes the old one *)
Theorem C64_reslot_shares_refuted : forall hp x o n fmt neb ext,
  nth_error (hp_x hp) x = Some o -> 6 <= xo_fmt o <= 8 -> 0 <= n < 65536 -> Z.of_nat (length (xo_slots o)) = las_dims (xo_fmt o) + n ->
  6 <= fmt <= 8 -> 0 <= neb < 65536 ->
  exists hp' y o', reslot_x hp x fmt neb ext = Ok (hp', y) /\ nth_error (hp_x hp') y = Some o' /\ nth_error (hp_x hp') x = Some o /\ y <> x /\
    (forall i e, nth_error (hp_c hp) i = Some e -> nth_error (hp_c hp') i = Some e) /\
    forall i, (i < 14)%nat -> nth_error (xo_slots o') i = nth_error (xo_slots o) i.
Proof. exact reslot_x_shares. Qed.
Print Assumptions C64_reslot_shares_refuted.
(* the copy constructor does not: see C59_isolation with CCopy *)
Theorem C64_copy_is_independent : forall ops i slot e, Forall no_sharing ops -> (i < length (wd_cfgs (cfg_run empty_world ops)))%nat ->
  let w := cfg_run empty_world ops in let n := length (wd_cfgs w) in
  value (cfg_run w [CCopy i; CSetExtent n slot e]) i = value w i.
Proof.
  intros ops i slot e F L w n. apply isolation; auto; [repeat constructor|]. repeat constructor; cbn [target]; [discriminate|]. intros H. injection H as H. subst n w. lia.
Qed.
Print Assumptions C64_copy_is_independent.
Example C64_nonvacuous : exists hp x o, nth_error (hp_x hp) x = Some o /\ xo_fmt o = 6 /\ length (xo_slots o) = 14%nat /\
  exists hp' y e, reslot_x hp x 7 0 false = Ok (hp', y) /\
    deref_x (mkHeap (hp_h hp') (hp_i hp') (upd 0 e (hp_c hp')) (hp_x hp')) x <> deref_x hp' x.
Proof.
  exists (fst (alloc_x (mkHeap [] [] [] []) (mkExts 6 false (repeat default_extent 14)))), 0%nat. eexists. split; [reflexivity|]. split; [reflexivity|]. split; [reflexivity|].
  eexists _, _, (mkExt f1 f1 f1 f1). split; [reflexivity|]. intros H.
  apply (f_equal (option_map (fun x => map (fun e => feq (ex_min e) f1) (firstn 1 (xs_items x))))) in H. vm_compute in H. discriminate.
Qed.
