(* PropRecomp.v - C100: copies whose nodes are decompressed and compressed again *)
From Coq Require Import Permutation.
From Verif Require Import Base BaseFacts ModelFloat ModelKey ModelGeom ModelEntry ModelPoint ModelPoints ModelHeader ModelVlr ModelExtents ModelConfig
  ModelStream ModelWriter ModelReader ModelCopy SpecKey SpecPoint SpecPoints SpecConfig SpecHeader SpecWriter SpecHier SpecFile SpecReader SpecData SpecRound SpecCopy SpecOrder SpecTotal SpecValid SpecAgain
  ProofFloat ProofScale ProofKey ProofPoint ProofPoints ProofStream ProofConfig ProofHeader ProofFile ProofClose2 ProofWriter ProofWriter2 ProofWriter4 ProofResults ProofReject ProofCount ProofData ProofData2 ProofReader4 ProofReader6 ProofRound ProofOrder ProofTotal ProofCopy ProofMp ProofMp2 ProofMp3 ProofMp4 ProofMp5
  ProofOpen SampleWriter SampleReader PropWriter PropReader PropData PropRound PropCopy PropTrim PropValid PropCopyValid PropAgain.
Open Scope Z_scope.

(* the new file is sound, whatever compressed the chunks of the source, and has the points of the copied nodes *)
Theorem C100_recompressed : forall cd f hs r P page l c c0 w r2, lossless cd -> copies_from f hs r page l -> copy_config (r_cfg r) = Ok c -> copying recompress_nodes cd page l r c no_overrides c0 w ->
  storable c0 -> Z.of_nat (length l) < 2 ^ 32 - 2 -> h_reclen (c_hdr c0) <= 255 -> readable cd (c_hdr (r_cfg r)) f hs P -> reader_on (file w) r2 ->
  exists hs2 P2, sound cd (file w) hs2 r2 P2 /\ alike (r_cfg r) (r_cfg r2) /\
    (forall m, stored_nodes hs2 m -> exists n, In n l /\ n_key m = n_key n /\ n_page m = page n /\ P2 m = P n) /\ (forall n, In n l -> exists m, stored_nodes hs2 m /\ n_key m = n_key n /\ n_page m = page n /\ P2 m = P n).
Proof.
  intros cd f hs r P page l c c0 w r2 LS (SR & FL & RO & OK) CC CP ST LL R255 RDB R2.
  destruct (reader_cfg f hs r SR FL RO) as (isf & r0 & O0 & RC). pose proof (opened_copc _ _ _ O0) as HC. rewrite <- RC in HC. apply (copy_config_id _ _ HC) in CC. subst c.
  destruct CP as (w0 & w1 & r' & wod & O & IW & RD & RE & LP & CL & F2). assert (c0 = r_cfg r) as -> by (unfold init_writer in IW; cbn [any_override no_overrides is_some ov_fmt ov_scale ov_offset ov_wkt ov_ebs ov_ext orb] in IW; now apply (copy_config_id _ _ HC) in IW).
  pose proof OK as OKF. rewrite Forall_forall in OKF.
  destruct (ready_header _ RD) as (F6 & RB & _). destruct (open_spec _ _ _ O) as (c1 & E1 & CF0 & _). assert (c1 = r_cfg r) as -> by congruence.
  destruct (choose node_dec (fun n d => holds_records cd (c_hdr (r_cfg r)) f n d /\ decodes_to (c_hdr (r_cfg r)) d (P n)) [] l) as (D & HD); [intros n I; destruct (OKF n I) as (SN & _); exact (RDB n SN)|].
  assert (HDF : Forall (fun n => holds_records cd (c_hdr (r_cfg r)) f n (D n)) l) by (apply Forall_forall; intros n I; apply HD; exact I).
  destruct (recompress_run f hs r page cd SR FL RO (c_hdr (r_cfg r)) D F6 RB l w0 r' w1 ltac:(now rewrite CF0) OK HDF LP) as (_ & CF & (lg & R & OKS) & _). set (X := repacked cd (c_hdr (r_cfg r)) D) in *.
  destruct (copied_written f hs page X cd l _ _ (r_cfg r) wod w0 w1 lg w SR OK O IW RD RE R OKS CF CL F2) as (MF & W & H1 & H2 & H3 & H4).
  pose proof (copied_info f hs page X cd l _ _ _ wod w0 w1 lg w SR OK O IW RD RE R OKS CF CL F2) as IN.
  assert (ST' : storable (w_cfg w)) by (unfold storable; rewrite H1, H2, H3, H4; exact ST).
  destruct (used_config _ _ _ _ _ _ W ST' ltac:(rewrite map_length; lia) R2) as ((A1 & A2 & A3 & (X1 & X2 & X3) & SS) & _). destruct (used_header _ _ _ _ _ _ W ST' ltac:(rewrite map_length; lia) R2) as (F & RL & SCL & OF).
  destruct (C99_configuration _ _ _ _ _ _ W ST' ltac:(rewrite map_length; lia) R2) as (RDY2 & ST2 & _).
  destruct (written_reader _ _ _ _ _ _ W R2) as (hs2 & S & L & STN & _ & G). pose proof W as ((od & cc & vv & CS) & _).
  (* one copied node *)
  assert (NODE : forall n nd p, In n l -> In (copy_op page X n, Ok (Some nd)) lg -> stored_nodes hs2 (mkNode (n_entry nd) p) -> let m := mkNode (n_entry nd) p in
     0 < e_count (n_entry m) /\ whole_chunk (file w) m /\ (exists data, chunk_records cd (c_hdr (r_cfg r2)) (file w) m data) /\ node_points cd (c_hdr (r_cfg r2)) (file w) m (P n)).
  { intros n nd p I J SM. cbv zeta. destruct (OKF n I) as (SN & CN & _). destruct (HD n I) as (HR & DC). destruct (chunk_kept _ _ _ _ _ _ _ _ _ _ CS J) as (x & CO & AK & SZ & BX). unfold copy_op in CO. cbn [chunk_of] in CO. assert (CE : e_count (n_entry nd) = e_count (n_entry n)) by congruence.
    pose proof HR as (_ & _ & _ & _ & WB & LD & _). assert (SRD : stores_records cd (c_hdr (r_cfg r)) (copy_op page X n) (D n)) by (split; [reflexivity|exact LD]).
    destruct (C84_own_chunks _ _ _ _ _ _ _ p _ LS W J SRD WB) as (D1 & D2 & D3). assert (WC : whole_chunk (file w) (mkNode (n_entry nd) p)) by exact (chunk_within _ _ _ _ _ _ _ _ _ _ p CS J).
    assert (CR : chunk_records cd (c_hdr (r_cfg r2)) (file w) (mkNode (n_entry nd) p) (D n)) by (unfold chunk_records; rewrite F, RL; auto).
    cbn [n_entry]. split; [lia|]. split; [exact WC|]. split; [exists (D n); exact CR|]. exists (D n). split; [|eapply same_decodes; [..|exact DC]; congruence].
    apply (chunk_holds cd (file w) hs2); auto; [cbn [n_entry]; lia|rewrite F; exact F6|rewrite F, RL; lia]. }
  assert (ONE : forall n, In n l -> exists m, stored_nodes hs2 m /\ n_key m = n_key n /\ n_page m = page n).
  { intros n I. destruct (log_view f hs page X l SR OK lg MF OKS n I) as (nd & V & J). destruct (chunk_kept _ _ _ _ _ _ _ _ _ _ CS J) as (x & CO & AK & _). unfold copy_op in AK. cbn [add_keys] in AK. assert (K : n_key nd = n_key n) by (unfold n_key at 1; congruence).
    exists (mkNode (n_entry nd) (page n)). split; [|split; [exact K|reflexivity]]. unfold stored_nodes, n_key. cbn [n_entry]. fold (n_key nd). rewrite K. apply STN. now exists nd, (page n). }
  assert (BACK : forall m, stored_nodes hs2 m -> exists n, In n l /\ n_key m = n_key n /\ n_page m = page n /\ 0 < e_count (n_entry m) /\ whole_chunk (file w) m /\ (exists data, chunk_records cd (c_hdr (r_cfg r2)) (file w) m data) /\ node_points cd (c_hdr (r_cfg r2)) (file w) m (P n)).
  { intros m SM. destruct (proj1 (STN _ _) SM) as (nd & p & V & EM). destruct (log_some _ _ _ _ MF OKS _ _ _ V) as (n & I & K & PG). destruct (log_view f hs page X l SR OK lg MF OKS n I) as (nd' & V' & J).
    rewrite K, V in V'. assert (nd' = nd) as -> by congruence. exists n. split; [exact I|]. split; [now symmetry|]. rewrite EM in SM |- *. split; [exact PG|]. exact (NODE n nd p I J SM). }
  destruct (all_nodes_good (file w) _ _ hs2 S L in_order r2 in_order_all G) as (r3 & na & _ & _ & _ & (_ & NA) & _).
  destruct (choose node_dec (fun m ps => exists n, In n l /\ n_key m = n_key n /\ n_page m = page n /\ ps = P n /\ node_points cd (c_hdr (r_cfg r2)) (file w) m ps) [] na) as (P2 & HP2).
  { intros m I. apply NA in I. destruct (BACK m I) as (n & Y & K & PG & _ & _ & _ & NP). exists (P n), n. auto. }
  assert (H255 : h_reclen (c_hdr (r_cfg r2)) <= 255) by (rewrite RL; exact R255).
  exists hs2, P2. split; [|split; [|split]].
  - split; [exact S|]. split; [exact L|]. split; [exact R2|]. split; [exact RDY2|]. split; [exact ST2|]. split; [exact H255|]. split.
    + intros m SM. apply NA in SM. destruct (HP2 m SM) as (n & _ & _ & _ & _ & NP). exact NP.
    + intros m SM. destruct (BACK m SM) as (n & _ & _ & _ & A & B & C & _). auto.
  - rewrite H1 in SS. rewrite H4 in X1, X2, X3. destruct SS as (E1' & E2 & E3 & E4 & E5 & E6 & E7 & E8 & E9 & E10 & E11 & E12 & E13 & E14 & E15).
    unfold alike. cbv zeta. split; [congruence|]. split; [congruence|]. split; [rewrite A3; exact IN|]. split; [exact X1|]. split; [exact X2|]. split; [rewrite X3; destruct (xs_ext (c_exts (r_cfg r))); [reflexivity|rewrite map_map; reflexivity]|]. split; [intros Q; rewrite X3, Q; reflexivity|].
    split; [exact E1'|]. split; [rewrite E2, <- Z.lor_assoc; reflexivity|]. auto 20.
  - intros m SM. apply NA in SM. destruct (HP2 m SM) as (n & I & K & PG & E & _). exists n. auto.
  - intros n I. destruct (ONE n I) as (m & SM & K & PG). exists m. split; [exact SM|]. split; [exact K|]. split; [exact PG|]. apply NA in SM. destruct (HP2 m SM) as (n' & I' & K' & _ & E & _). rewrite E. f_equal. destruct (OKF n I) as (SN & _), (OKF n' I') as (SN' & _). eapply (stored_unique f hs); eauto. congruence.
Qed.
Print Assumptions C100_recompressed.

(* the points of a key, of a file that need not be sound *)
Lemma readable_get cd f hs r P k hp : copc_pages f hs -> Z.of_nat (length f) < 2 ^ 63 -> reader_on f r -> plain_header (c_hdr (r_cfg r)) -> readable cd (c_hdr (r_cfg r)) f hs P ->
  exists r1 x ps, returns (fun fuel => get_points cd fuel hp k r) r1 (Ok x) /\ has_points (c_hdr (r_cfg r)) x ps /\ ((exists n, stored_nodes hs n /\ n_key n = k /\ ps = P n) \/ (ps = [] /\ forall n, stored_nodes hs n -> n_key n <> k)).
Proof.
  intros S L R PH RD. pose proof (on_good f hs r S L R) as G. destruct (data_by_key cd f _ _ hs S L k r G) as (_ & _ & A & B).
  destruct (all_nodes_good f _ _ hs S L in_order r in_order_all G) as (r3 & na & _ & _ & _ & (_ & NA) & _). destruct (in_dec key_dec k (map n_key na)) as [I|I].
  - apply in_map_iff in I as (n & K & I). apply NA in I. assert (SN : stored_node hs k n) by (rewrite <- K; exact I). destruct (A n (P n) hp SN (RD n I) PH) as (r1 & x & E & HP & _). exists r1, x, (P n). split; [exact E|]. split; [exact HP|]. left. eauto.
  - assert (NO : forall n, stored_nodes hs n -> n_key n <> k) by (intros n SN K; apply I; rewrite <- K; apply in_map; now apply NA). destruct B as (_ & _ & B).
    + intros n SN. assert (n_key n = k) as K by (destruct SN as (i & e & _ & _ & _ & _ & K & ->); exact K). apply (NO n); [unfold stored_nodes; rewrite K; exact SN|exact K].
    + destruct (B hp PH) as (r1 & x & E & HP & _). exists r1, x, []. auto.
Qed.
(* all nodes, and any number of copies afterwards: GetPoints of any key gives the points that the source gives *)
Theorem C100_points : forall cd f hs r P page l c c0 w r2 n f' r' k hp hp', lossless cd -> copies_from f hs r page l -> (forall m, stored_nodes hs m -> In m l) -> copy_config (r_cfg r) = Ok c -> copying recompress_nodes cd page l r c no_overrides c0 w ->
  storable c0 -> Z.of_nat (length l) < 2 ^ 32 - 2 -> h_reclen (c_hdr c0) <= 255 -> readable cd (c_hdr (r_cfg r)) f hs P -> reader_on (file w) r2 -> generation cd (file w) r2 n f' r' ->
  exists r1 x r3 y ps, returns (fun fuel => get_points cd fuel hp k r) r1 (Ok x) /\ has_points (c_hdr (r_cfg r)) x ps /\ returns (fun fuel => get_points cd fuel hp' k r') r3 (Ok y) /\ has_points (c_hdr (r_cfg r)) y ps.
Proof.
  intros cd f hs r P page l c c0 w r2 n f' r' k hp hp' LS CF ALL CC CP ST LL R255 RD R2 G.
  destruct (C100_recompressed cd f hs r P page l c c0 w r2 LS CF CC CP ST LL R255 RD R2) as (hs2 & P2 & SD & AL & BK & FW). destruct (C99_points _ _ _ _ _ _ _ _ k hp hp' SD G) as (q1 & x & q2 & y & ps & E1 & HP1 & E2 & HP2).
  destruct (sound_get _ _ _ _ _ k hp SD) as (q3 & x' & ps' & E3 & HP3 & Q'). destruct (returns_fun _ _ _ _ _ E1 E3) as (_ & EX). assert (x' = x) as -> by congruence. assert (ps' = ps) as -> by (destruct HP1 as (M1 & _), HP3 as (M3 & _); congruence).
  destruct AL as (_ & _ & _ & _ & _ & _ & _ & _ & _ & _ & _ & _ & _ & _ & _ & _ & F & RL & _). pose proof (sound_plain _ _ _ _ _ SD) as PH. assert (PH' : plain_header (c_hdr (r_cfg r))) by (unfold plain_header in *; rewrite <- F, <- RL; exact PH).
  destruct CF as (S & L & R & OK). rewrite Forall_forall in OK. destruct (readable_get cd f hs r P k hp S L R PH' RD) as (q4 & z & qs & E4 & HP4 & Q). exists q4, z, q2, y, ps. split; [exact E4|].
  assert (qs = ps) as <-.
  { destruct SD as (S2 & _). destruct Q as [(a & A & K & ->)|(-> & NO)], Q' as [(b & B & K' & ->)|(-> & NO')].
    - destruct (BK b B) as (a' & IA & KK & _ & EP). rewrite EP. f_equal. destruct (OK a' IA) as (SA & _). eapply (stored_unique f hs); eauto. congruence.
    - destruct (FW a (ALL a A)) as (b & B & KK & _). destruct (NO' b B). congruence.
    - destruct (BK b B) as (a & IA & KK & _). destruct (OK a IA) as (SA & _). destruct (NO a SA). congruence.
    - reflexivity. }
  split; [exact HP4|]. split; [exact E2|]. unfold has_points in *. rewrite <- F, <- RL. exact HP2.
Qed.
Print Assumptions C100_points.
(* ... and ValidateSpatialBounds says of every later copy what it says of the source *)
Theorem C100_validates : forall cd f hs r P page l c c0 w r2 n f' r' od od' hb, lossless cd -> copies_from f hs r page l -> (forall m, stored_nodes hs m -> In m l) -> copy_config (r_cfg r) = Ok c -> copying recompress_nodes cd page l r c no_overrides c0 w ->
  storable c0 -> Z.of_nat (length l) < 2 ^ 32 - 2 -> h_reclen (c_hdr c0) <= 255 -> readable cd (c_hdr (r_cfg r)) f hs P -> reader_on (file w) r2 -> generation cd (file w) r2 n f' r' ->
  header_bounds (h_min (c_hdr (r_cfg r))) (h_max (c_hdr (r_cfg r))) = Ok hb -> visits_all od -> visits_all od' ->
  exists r1 r3 b, returns (fun fuel => validate_spatial_bounds cd fuel od false r) r1 (Ok b) /\ returns (fun fuel => validate_spatial_bounds cd fuel od' false r') r3 (Ok b).
Proof.
  intros cd f hs r P page l c c0 w r2 n f' r' od od' hb LS CF ALL CC CP ST LL R255 RD R2 G HB VA VA'.
  destruct (C100_recompressed cd f hs r P page l c c0 w r2 LS CF CC CP ST LL R255 RD R2) as (hs2 & P2 & SD & AL & BK & FW). pose proof AL as (_ & _ & _ & _ & _ & _ & _ & _ & _ & _ & _ & MX & MN & _).
  destruct (C99_validates _ _ _ _ _ _ _ _ od od' hb SD G ltac:(rewrite MX, MN; exact HB) VA VA') as (q1 & q2 & b & E1 & E2). pose proof SD as (S2 & L2 & _ & _ & _ & _ & RD2 & _). destruct CF as (S & L & R & OK). rewrite Forall_forall in OK.
  destruct (C52_validate cd f hs od r P hb false S L VA R RD HB ltac:(discriminate)) as (q3 & b3 & E3 & I3).
  destruct (C52_validate cd (file w) hs2 od r2 P2 hb false S2 L2 VA R2 RD2) as (q4 & b4 & E4 & I4); [rewrite MX, MN; exact HB|intros X; discriminate X|].
  destruct (returns_fun _ _ _ _ _ E1 E4) as (_ & EB). assert (b4 = b) as -> by congruence. exists q3, q2, b. split; [|exact E2]. replace b with b3; [exact E3|].
  assert (Q : b = true <-> b3 = true).
  { rewrite I3, I4. split.
    - intros Q m SN. destruct (FW m (ALL m SN)) as (m' & SM & K & _ & EP). pose proof (Q m' SM) as X. unfold node_box in *. rewrite K, EP, MX, MN in X. exact X.
    - intros Q m SM. destruct (BK m SM) as (m' & IN & K & _ & EP). destruct (OK m' IN) as (SN & _). pose proof (Q m' SN) as X. unfold node_box in *. rewrite K, EP, MX, MN. exact X. }
  clear - Q. destruct Q as (Q1 & Q2). destruct b, b3; try reflexivity; [specialize (Q1 eq_refl)|specialize (Q2 eq_refl)]; congruence.
Qed.
Print Assumptions C100_validates.

(* the loop throws nothing, and neither does Close *)
Lemma recompress_succeeds f hs r page cd h D : copc_pages f hs -> Z.of_nat (length f) < 2 ^ 63 -> reader_on f r -> 6 <= h_fmt h <= 8 -> las_base (h_fmt h) <= h_reclen h < 65536 -> c_hdr (r_cfg r) = h -> forall l w, c_hdr (w_cfg w) = h ->
  Forall (fun n => stored_nodes hs n /\ 0 < e_count (n_entry n) /\ key_valid (page n) = true /\ int32_key (page n) /\ child_of (n_key n) (page n) = true) l ->
  Forall (fun n => holds_records cd (c_hdr (r_cfg r)) f n (D n) /\ Z.of_nat (length (D n)) <= INT32_MAX /\ Z.of_nat (length (repacked cd h D n)) <= INT32_MAX) l ->
  at_end (b_out (w_base w)) -> 0 < Z.of_nat (length (file w)) -> Z.of_nat (length (file w)) + 2 ^ 31 * Z.of_nat (length l) < 2 ^ 63 ->
  exists w', recompress_nodes cd page l r w = (r, w', Ok tt).
Proof.
  intros SR FL RO F6 RB RH. induction l as [|n l IH]; intros w HC F HD AE POS SM; cbn [recompress_nodes length] in *; [now exists w|].
  pose proof (Forall_inv F) as (S & C & P & _ & CH). apply Forall_inv_tail in F. pose proof (Forall_inv HD) as (HR & LD & LX). apply Forall_inv_tail in HD.
  pose proof (source_good f hs r SR FL RO) as G. destruct (good_data f hs r G) as (GD & RF). destruct (stored_facts f hs n SR S) as (V & _ & _ & K & _).
  rewrite (data_ok cd f n (D n) r GD RF FL V HR). rewrite HC. rewrite eb_size_is by auto. cbn [bind].
  assert (CB : compress_bytes cd (h_fmt h) (h_reclen h - las_base (h_fmt h)) (D n) = Ok (repacked cd h D n, Z.of_nat (length (D n)) / h_reclen h)).
  { assert (30 <= las_base (h_fmt h)) by (assert (Q : h_fmt h = 6 \/ h_fmt h = 7 \/ h_fmt h = 8) by lia; destruct Q as [Q|[Q|Q]]; rewrite Q; cbn; lia).
    unfold compress_bytes. rewrite point_byte_size_ok by auto. cbn [bind]. cbv zeta. rewrite to_u_id by lia. replace (las_base (h_fmt h) + (h_reclen h - las_base (h_fmt h))) with (h_reclen h) by lia.
    destruct (Z.eqb_spec (h_reclen h) 0); [lia|]. destruct HR as (_ & _ & _ & _ & _ & LR & _). rewrite RH in LR. rewrite LR at 1. rewrite Z_mod_mult. cbn [negb Z.eqb]. destruct (Z.ltb_spec INT32_MAX (Z.of_nat (length (D n)))); [lia|]. reflexivity. }
  rewrite CB. unfold INT32_MAX in *. destruct (add_succeeds cd (n_key n) (repacked cd h D n) (e_count (n_entry n)) (page n) w) as (w' & nd & E & AE' & FW); auto; [lia|]. rewrite E.
  apply IH; auto; [rewrite (add_cfg _ _ _ _ _ _ _ _ E); exact HC|rewrite FW, app_length; lia|rewrite FW, app_length; lia].
Qed.
Theorem C100_succeeds : forall cd f hs r P page l c c0 w0, copies_from f hs r page l -> copy_config (r_cfg r) = Ok c -> open_writer None c no_overrides = Ok w0 -> init_writer c no_overrides = Ok c0 -> ready c0 -> let h := c_hdr (r_cfg r) in readable cd h f hs P ->
  (forall n data, In n l -> holds_records cd h f n data -> Z.of_nat (length data) <= INT32_MAX /\ Z.of_nat (length (cd_comp cd (h_fmt h) (h_reclen h - las_base (h_fmt h)) data)) <= INT32_MAX) -> Z.of_nat (length (file w0)) + 2 ^ 31 * Z.of_nat (length l) < 2 ^ 63 ->
  exists w1, recompress_nodes cd page l r w0 = (r, w1, Ok tt) /\
  forall wod w o, reorders wod -> Z.of_nat (length l) < 2 ^ 25 -> ordered_bounds (c_hdr c0) -> Forall (fun n => in_octree (page n)) l -> close cd wod w1 = (w, o) -> Z.of_nat (length (file w)) < 2 ^ 63 -> o = Ok tt /\ copying recompress_nodes cd page l r c no_overrides c0 w.
Proof.
  intros cd f hs r P page l c c0 w0 (SR & FL & RO & OK) CC O IW RD h RDB SZ SM. destruct (reader_cfg f hs r SR FL RO) as (isf & r0 & O0 & RC). pose proof (opened_copc _ _ _ O0) as HC. rewrite <- RC in HC. apply (copy_config_id _ _ HC) in CC. subst c.
  assert (c0 = r_cfg r) as -> by (unfold init_writer in IW; cbn [any_override no_overrides is_some ov_fmt ov_scale ov_offset ov_wkt ov_ebs ov_ext orb] in IW; now apply (copy_config_id _ _ HC) in IW).
  pose proof OK as OKF. rewrite Forall_forall in OKF. destruct (ready_header _ RD) as (F6 & RB & _). destruct (open_inv _ _ _ _ O IW RD) as (C0 & _ & ST & BI & _).
  destruct (choose node_dec (fun n d => holds_records cd h f n d) [] l) as (D & HD); [intros n I; destruct (OKF n I) as (SN & _); destruct (RDB n SN) as (d & Q & _); now exists d|].
  assert (HDF : Forall (fun n => holds_records cd (c_hdr (r_cfg r)) f n (D n)) l) by (apply Forall_forall; intros n I; now apply HD).
  destruct (recompress_succeeds f hs r page cd h D SR FL RO F6 RB eq_refl l w0) as (w1 & E); [now rewrite C0|exact OK| |apply BI|destruct BI as (_ & BD & _); unfold file; rewrite BD, app_length, zeros_length; lia|exact SM|].
  { apply Forall_forall. intros n I. split; [now apply HD|]. unfold repacked. apply (SZ n (D n) I). now apply HD. }
  exists w1. split; [exact E|]. intros wod w o RE LL OB OC CL F2. destruct (recompress_run f hs r page cd SR FL RO h D F6 RB l w0 r w1 ltac:(now rewrite C0) OK HDF E) as (_ & CF & (lg & R & OKS) & _).
  pose proof (log_defined lg OKS) as AD. destruct (ops_fine f hs page (repacked cd h D) l SR OK) as (WF & PO).
  assert (o = Ok tt) as ->; [|split; [reflexivity|exists w0, w1, r, wod; auto 10]].
  refine (ProofCount.close_succeeds cd wod _ no_overrides (r_cfg r) _ w0 w1 lg w o IW RD WF RE O R AD _ _ _ CL _); [|rewrite map_length; lia|rewrite CF, C0; exact OB|lia].
  intros op x p I T. apply (in_map fst) in I. rewrite (wrun_ops _ _ _ _ _ R AD) in I. apply in_map_iff in I as (n & Q & I). cbn [fst] in Q. subst op. unfold copy_op in T. cbn [target_page] in T. rewrite Forall_forall in OC. assert (p = page n) as -> by congruence. auto.
Qed.
Print Assumptions C100_succeeds.

(* ---- the sample file, recompressed; and a copy of the result ---- *)
Definition recompress_test (r : reader) (l : list node) (c : config) (test : writer -> bool) : bool :=
  match open_writer None c no_overrides with
  | Ok w0 => match recompress_nodes verbatim n_page l r w0 with
             | (_, w1, Ok tt) => match close verbatim plain w1 with (w, Ok tt) => (Z.of_nat (length (file w)) <? 2 ^ 63) && test w | _ => false end
             | _ => false end
  | _ => false end.
Lemma recompress_test_ok r l c c0 test : init_writer c no_overrides = Ok c0 -> ready c0 -> recompress_test r l c test = true -> exists w, copying recompress_nodes verbatim n_page l r c no_overrides c0 w /\ test w = true.
Proof.
  intros IW RD H. unfold recompress_test in H. destruct (open_writer None c no_overrides) as [w0| |] eqn:O; try discriminate. destruct (recompress_nodes verbatim n_page l r w0) as ((r', w1), [[]| |]) eqn:E; try discriminate.
  destruct (close verbatim plain w1) as (w, [[]| |]) eqn:C; try discriminate. apply andb_prop in H as (L & T). apply Z.ltb_lt in L. exists w. split; [|exact T]. exists w0, w1, r', plain. split; [exact O|]. split; [exact IW|]. split; [exact RD|]. split; [apply plain_reorders|auto].
Qed.
Lemma recompress_runs : match open_reader true good_file with Ok r => recompress_test r (node_list good_pages) (r_cfg r) (fun w => match open_reader true (file w) with Ok r2 => gens_b 1 r2 (fun r' => match get_all_children_of_page 50 in_order root_key r' with Some (_, Ok l) => (length l =? 3)%nat | _ => false end) | _ => false end) | _ => false end = true.
Proof. vm_compute. reflexivity. Qed.
Example C100_nonvacuous : exists f hs r P l w r2 f' r' hb l', lossless verbatim /\ copies_from f hs r n_page l /\ (forall m, stored_nodes hs m -> In m l) /\ copy_config (r_cfg r) = Ok (r_cfg r) /\ copying recompress_nodes verbatim n_page l r (r_cfg r) no_overrides (r_cfg r) w /\
  storable (r_cfg r) /\ Z.of_nat (length l) < 2 ^ 32 - 2 /\ h_reclen (c_hdr (r_cfg r)) <= 255 /\ readable verbatim (c_hdr (r_cfg r)) f hs P /\ reader_on (file w) r2 /\ generation verbatim (file w) r2 1 f' r' /\ header_bounds (h_min (c_hdr (r_cfg r))) (h_max (c_hdr (r_cfg r))) = Ok hb /\
  (exists n, stored_nodes hs n /\ length (P n) = 3%nat) /\ (exists r3, returns (fun fuel => get_all_nodes fuel in_order r') r3 (Ok l')) /\ length l' = 3%nat.
Proof.
  destruct good_ok as (r & hb & S & L & O & R & PH & RD & HB & SV & _ & N3 & WHO). cbv zeta in *. pose proof recompress_runs as K. pose proof good_takes as GT. rewrite O in K, GT. pose proof copy_source as CSX. pose proof good_length as GL.
  assert (AL : forall n, stored_nodes good_pages n -> In n (node_list good_pages)) by (intros n; apply node_list_in).
  revert S L O R PH RD HB SV N3 WHO K GT CSX AL GL. generalize (node_list good_pages). generalize good_pages good_file. intros hs f l S L O R PH RD HB SV N3 WHO K GT CSX AL GL.
  destruct CSX as (r' & O' & CF & _). assert (r' = r) as -> by congruence.
  apply andb_prop in GT as (GT & G4). apply andb_prop in GT as (GT & G3). apply andb_prop in GT as (G1 & G2).
  assert (RDY : ready (r_cfg r)) by now apply wf_config_b_ok. assert (ST : storable (r_cfg r)) by now apply storable_b_ok. apply Z.leb_le in G4. assert (CC : copy_config (r_cfg r) = Ok (r_cfg r)) by now apply copy_config_good, RDY. assert (LL : Z.of_nat (length l) < 2 ^ 32 - 2) by (rewrite GL; reflexivity).
  destruct (recompress_test_ok r l (r_cfg r) (r_cfg r) _ (init_writer_none _ (proj1 RDY)) RDY K) as (w & CP & T). destruct (open_reader true (file w)) as [r2| |] eqn:O2; try discriminate.
  assert (R2 : reader_on (file w) r2) by (destruct (opens_ok (file w)) as (r3 & O3 & R3); [unfold opens; now rewrite O2|]; assert (r3 = r2) as -> by congruence; exact R3).
  destruct (C100_recompressed verbatim f hs r _ n_page l _ _ w r2 verbatim_lossless CF CC CP ST LL G4 RD R2) as (hs2 & P2 & SD & _).
  destruct (gens_b_ok _ (file w) r2 1 0 (file w) r2 hs2 P2 (first_file verbatim (file w) r2) SD T) as (f' & r3 & G & T'). destruct (get_all_children_of_page 50 in_order root_key r3) as [(s, [l3| |])|] eqn:E; try discriminate. apply Nat.eqb_eq in T'.
  exists f, hs, r, (points_of (c_hdr (r_cfg r)) f), l, w, r2, f', r3, hb, l3. split; [exact verbatim_lossless|]. split; [exact CF|]. split; [exact AL|]. split; [exact CC|]. split; [exact CP|]. split; [exact ST|]. split; [exact LL|]. split; [exact G4|]. split; [exact RD|]. split; [exact R2|]. split; [exact G|]. split; [exact HB|]. split; [exact N3|]. split; [|exact T']. exists s. exact (children_computed in_order root_key r3 _ E).
Qed.
Definition ordered_b (h : las_header) : bool := negb (fgt (vx (h_min h)) (vx (h_max h))) && negb (fgt (vy (h_min h)) (vy (h_max h))) && negb (fgt (vz (h_min h)) (vz (h_max h))).
Lemma ordered_b_ok h : ordered_b h = true -> ordered_bounds h.
Proof. unfold ordered_b, ordered_bounds. rewrite !andb_true_iff, !negb_true_iff. tauto. Qed.
Lemma good_sizes : match open_reader true good_file with Ok r => forallb (fun n => e_count (n_entry n) * h_reclen (c_hdr (r_cfg r)) <=? INT32_MAX) (node_list good_pages) && ordered_b (c_hdr (r_cfg r)) &&
  match open_writer None (r_cfg r) no_overrides with Ok w0 => Z.of_nat (length (file w0)) + 2 ^ 31 * Z.of_nat (length (node_list good_pages)) <? 2 ^ 63 | _ => false end | _ => false end = true.
Proof. vm_compute. reflexivity. Qed.
Example C100_succeeds_nonvacuous : exists f hs r P l w0, copies_from f hs r n_page l /\ copy_config (r_cfg r) = Ok (r_cfg r) /\ open_writer None (r_cfg r) no_overrides = Ok w0 /\ init_writer (r_cfg r) no_overrides = Ok (r_cfg r) /\ ready (r_cfg r) /\ readable verbatim (c_hdr (r_cfg r)) f hs P /\
  (forall n data, In n l -> holds_records verbatim (c_hdr (r_cfg r)) f n data -> Z.of_nat (length data) <= INT32_MAX /\ Z.of_nat (length (cd_comp verbatim (h_fmt (c_hdr (r_cfg r))) (h_reclen (c_hdr (r_cfg r)) - las_base (h_fmt (c_hdr (r_cfg r)))) data)) <= INT32_MAX) /\
  Z.of_nat (length (file w0)) + 2 ^ 31 * Z.of_nat (length l) < 2 ^ 63 /\ length l = 3%nat /\ ordered_bounds (c_hdr (r_cfg r)) /\ Forall (fun n => in_octree (n_page n)) l.
Proof.
  destruct good_ok as (r & hb & S & L & O & R & PH & RD & HB & SV & _ & N3 & WHO). cbv zeta in *. pose proof good_sizes as K. pose proof good_takes as GT. rewrite O in K, GT. pose proof copy_source as CSX. pose proof good_length as GL.
  revert S L O R PH RD HB SV N3 WHO K GT CSX GL. generalize (node_list good_pages). generalize good_pages good_file. intros hs f l S L O R PH RD HB SV N3 WHO K GT CSX GL.
  destruct CSX as (r' & O' & CF & _). assert (r' = r) as -> by congruence. pose proof CF as (_ & _ & _ & OK).
  apply andb_prop in GT as (GT & G4). apply andb_prop in GT as (GT & G3). apply andb_prop in GT as (G1 & G2). apply andb_prop in K as (K & K3). apply andb_prop in K as (K1 & K2).
  assert (RDY : ready (r_cfg r)) by now apply wf_config_b_ok. assert (CC : copy_config (r_cfg r) = Ok (r_cfg r)) by now apply copy_config_good, RDY. destruct (open_writer None (r_cfg r) no_overrides) as [w0| |] eqn:OW; try discriminate. apply Z.ltb_lt in K3.
  destruct (C84_same_pages f hs r l S L R) as (_ & OC). { eapply Forall_impl; [|exact OK]. intros n (A & B & _). auto. }
  exists f, hs, r, (points_of (c_hdr (r_cfg r)) f), l, w0. split; [exact CF|]. split; [exact CC|]. split; [exact OW|]. split; [exact (init_writer_none _ (proj1 RDY))|]. split; [exact RDY|]. split; [exact RD|]. split.
  { intros n data I (_ & _ & _ & _ & _ & LD & _). rewrite forallb_forall in K1. apply K1 in I. apply Z.leb_le in I. cbn [verbatim cd_comp]. lia. }
  split; [exact K3|]. split; [exact GL|]. split; [now apply ordered_b_ok|exact OC].
Qed.
