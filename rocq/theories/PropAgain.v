(* PropAgain.v - C99: copies of copies *)
From Coq Require Import Permutation.
From Verif Require Import Base BaseFacts ModelFloat ModelKey ModelGeom ModelEntry ModelPoint ModelPoints ModelHeader ModelVlr ModelExtents ModelConfig
  ModelStream ModelWriter ModelReader ModelCopy SpecKey SpecPoint SpecPoints SpecConfig SpecHeader SpecWriter SpecHier SpecFile SpecReader SpecData SpecRound SpecCopy SpecOrder SpecTotal SpecValid SpecAgain
  ProofFloat ProofScale ProofKey ProofPoint ProofConfig ProofHeader ProofFile ProofClose2 ProofWriter ProofWriter2 ProofResults ProofReject ProofCount ProofData ProofData2 ProofReader4 ProofReader6 ProofRound ProofOrder ProofTotal ProofCopy ProofMp3
  SampleWriter SampleReader PropWriter PropReader PropData PropRound PropCopy PropTrim PropValid PropCopyValid.
From Verif Require ProofSession.
Open Scope Z_scope.

(* ---- the configuration of a Reader of a written file is one that a Writer takes ---- *)
Lemma lor_bound e : 0 <= e < 65536 -> 0 <= Z.lor e 16 < 65536.
Proof.
  intros H. assert (0 <= Z.lor e 16) by (apply Z.lor_nonneg; lia). split; [lia|]. destruct (Z.eq_dec (Z.lor e 16) 0) as [->|N]; [lia|]. change 65536 with (2 ^ 16). apply Z.log2_lt_pow2; [lia|]. rewrite Z.log2_lor by lia. apply Z.max_lub_lt; [|reflexivity].
  destruct (Z.eq_dec e 0) as [->|]; [reflexivity|]. apply Z.log2_lt_pow2; [lia|]. change (2 ^ 16) with 65536. lia.
Qed.
Lemma written_ranges cd c0 ops l w : written cd c0 ops l w -> cfg_ok (w_cfg w) /\ 0 <= las_point_count (file w) < 2 ^ 64 /\ 0 <= las_point_offset (file w) < 2 ^ 32 /\
  0 <= las_vlr_count (file w) < 2 ^ 32 /\ 0 <= las_evlr_offset (file w) < 2 ^ 64 /\ 0 <= las_evlr_count (file w) < 2 ^ 32.
Proof.
  intros ((od & c & v & S) & _). destruct (complete_closed _ _ _ _ _ _ _ _ S) as (w0 & w1 & cs & PG & ws & h & _ & _ & _ & C & _ & L & _). split; [exact (cl_ok _ _ _ _ _ _ _ _ C)|].
  pose proof (wf_l _ _ _ _ _ _ _ _ C L) as WF. rewrite (cl_file _ _ _ _ _ _ _ _ C). rewrite <- !app_assoc. match goal with |- context [enc_header14 h ++ ?t] => destruct (header_fields h t WF) as (F1 & F2 & _ & F3 & F4 & F5) end.
  cbv zeta in *. rewrite F1, F2, F3, F4, F5. destruct WF as (_ & _ & _ & _ & _ & _ & _ & _ & _ & _ & A & B & _ & _ & _ & _ & _ & _ & D & E & G & _). auto.
Qed.
Lemma plain_ok e : extent_ok e -> extent_ok (SpecConfig.plain e).
Proof. intros (A & _). split; [exact A|vm_compute; reflexivity]. Qed.
Theorem C99_configuration : forall cd c0 ops l w r, written cd c0 ops l w -> storable (w_cfg w) -> Z.of_nat (length ops) < 2 ^ 32 - 2 -> reader_on (file w) r ->
  ready (r_cfg r) /\ storable (r_cfg r) /\ copy_config (r_cfg r) = Ok (r_cfg r) /\ init_writer (r_cfg r) no_overrides = Ok (r_cfg r).
Proof.
  intros cd c0 ops l w r W ST N R. destruct (used_config _ _ _ _ _ _ W ST N R) as ((R1 & R2 & R3 & (X1 & X2 & X3) & SS) & (D1 & D2 & D3 & D4 & D5) & _).
  destruct (written_ranges _ _ _ _ _ W) as ((CP & F6 & XF & (S1 & S2 & S3) & TY & RL & WH & WI & WE) & PC & PO & VC & EO & EC). destruct ST as (T1 & T2 & T3 & T4 & T5 & T6 & T7 & T8).
  destruct SS as (E1 & E2 & E3 & E4 & E5 & E6 & E7 & E8 & E9 & E10 & E11 & E12 & E13 & E14 & E15).
  assert (XO : Forall extent_ok (xs_items (c_exts (r_cfg r)))) by (rewrite X3; destruct (xs_ext (c_exts (w_cfg w))); [exact T4|]; apply Forall_forall; intros e I; apply in_map_iff in I as (a & <- & I); apply plain_ok; rewrite Forall_forall in T4; now apply T4).
  assert (GC : good_config (r_cfg r)).
  { split; [now rewrite E15|]. split; [rewrite E10; exact F6|]. split; [now rewrite X1, E10|]. split; [unfold shaped; rewrite X1, R2; split; [exact S1|split; [exact S2|rewrite X3; destruct (xs_ext (c_exts (w_cfg w))); rewrite ?map_length; exact S3]]|].
    split; [exact XO|]. split; [rewrite R2; exact TY|]. rewrite E10, E11, R2. exact RL. }
  split; [|split; [|split]].
  - split; [exact GC|]. split; [|split; [rewrite R3; exact WI|rewrite R2; exact WE]]. unfold wf_hdr in *. rewrite E1, E2, E3, E4, E7, E10, E11, E12, E13, E14, D1, D2, D3, D4, D5.
    destruct WH as (A1 & A2 & A3 & A4 & A5 & A6 & A7 & A8 & _ & _ & _ & _ & _ & A9 & A10 & A11). split; [exact A1|]. split; [now apply lor_bound|]. auto 20.
  - unfold storable. rewrite R1, R2, E12, E13, E14. auto 12.
  - now apply copy_config_good.
  - now apply init_writer_none.
Qed.
Print Assumptions C99_configuration.

Lemma same_nodes f hs hs' r n : copc_pages f hs -> copc_pages f hs' -> Z.of_nat (length f) < 2 ^ 63 -> reader_on f r -> stored_nodes hs n -> stored_nodes hs' n.
Proof.
  intros S S' L R SN. destruct (all_nodes_good f _ _ hs S L in_order r in_order_all (on_good f hs r S L R)) as (r1 & l1 & E1 & _ & _ & (_ & X1) & _). destruct (all_nodes_good f _ _ hs' S' L in_order r in_order_all (on_good f hs' r S' L R)) as (r2 & l2 & E2 & _ & _ & (_ & X2) & _).
  destruct (returns_fun _ _ _ _ _ E1 E2) as (_ & E). assert (l1 = l2) as -> by congruence. apply X2. now apply X1.
Qed.
(* the chunks of a copy hold the records that the source's chunks hold *)
Section A_sound_copy.
Context (f : bytes) (hs : list page_info) (r : reader) (page : node -> key) (l : list node) (cd : codec) (c c0 : config) (w : writer).
Hypothesis (CF : copies_from f hs r page l) (WH : Forall (whole_chunk f) l) (CC : copy_config (r_cfg r) = Ok c) (CP : copying copy_nodes cd page l r c no_overrides c0 w).
Hypothesis (ST : storable c0) (LL : Z.of_nat (length l) < 2 ^ 32 - 2) (SC : forall n, In n l -> exists data, chunk_records cd (c_hdr (r_cfg r)) f n data).
Lemma copy_fine r2 hs2 m : reader_on (file w) r2 -> copc_pages (file w) hs2 -> stored_nodes hs2 m -> 0 < e_count (n_entry m) /\ whole_chunk (file w) m /\ exists data, chunk_records cd (c_hdr (r_cfg r2)) (file w) m data.
Proof.
  intros R2 S2 SM. destruct (copied _ _ _ _ _ _ _ _ _ _ CF WH CP) as (lg & MF & OKS & W & H1 & H2 & H3 & H4).
  assert (ST' : storable (w_cfg w)) by (unfold storable; rewrite H1, H2, H3, H4; exact ST). destruct (used_header _ _ _ _ _ _ W ST' ltac:(rewrite map_length; lia) R2) as (F & RL & _).
  destruct (written_reader _ _ _ _ _ _ W R2) as (hs3 & S & L & STN & _ & _). pose proof W as ((od & cc & vv & CS) & _). pose proof CF as (SR & FL & RO & OK). pose proof (same_config f hs r page l cd c c0 w CF CC CP) as C0.
  apply (same_nodes _ _ hs3 r2 m S2 S L R2) in SM. unfold stored_nodes in SM. destruct (proj1 (STN _ _) SM) as (nd & p & V & EM). destruct (log_some _ _ _ _ MF OKS _ _ _ V) as (n & I & K & PG). destruct (log_view f hs page (chunk_in f) l SR OK lg MF OKS n I) as (nd' & V' & J).
  rewrite K, V in V'. assert (Q1 : nd' = nd) by congruence. rewrite Q1 in J. clear Q1 V'. rewrite EM. rewrite Forall_forall in OK. destruct (OK n I) as (SN & CN & _). destruct (chunk_kept _ _ _ _ _ _ _ _ _ _ CS J) as (x & CO & _ & SZ & BX). unfold copy_op in CO. cbn [chunk_of] in CO.
  assert (x = chunk_in f n) as -> by congruence. assert (CE : e_count (n_entry nd) = e_count (n_entry n)) by congruence. cbn [n_entry]. split; [lia|]. split; [exact (chunk_within _ _ _ _ _ _ _ _ _ _ p CS J)|].
  destruct (SC n I) as (data & D1 & D2 & D3). rewrite <- C0 in D2, D3. exists data. unfold chunk_records. cbn [n_entry]. rewrite F, RL, CE. split; [exact D1|]. split; [exact D2|]. assert (CI : chunk_in (file w) (mkNode (n_entry nd) p) = chunk_in f n) by exact BX. rewrite CI. exact D3.
Qed.
End A_sound_copy.

Lemma alike_refl c : alike c c.
Proof. unfold alike, same_cube. cbv zeta. auto 40. Qed.
Lemma alike_trans a b c : alike a b -> alike b c -> alike a c.
Proof.
  unfold alike, same_cube. cbv zeta. intros (A1 & A2 & (A3 & A4 & A5 & A6 & A7) & A8 & A9 & A10 & A11 & B1 & B2 & B3 & B4 & B5 & B6 & B7 & B8 & B9 & B10 & B11 & B12 & B13 & B14)
    (C1 & C2 & (C3 & C4 & C5 & C6 & C7) & C8 & C9 & C10 & C11 & D1 & D2 & D3 & D4 & D5 & D6 & D7 & D8 & D9 & D10 & D11 & D12 & D13 & D14).
  split; [congruence|]. split; [congruence|]. split; [repeat split; congruence|]. split; [congruence|]. split; [congruence|]. split; [congruence|]. split; [intros X; rewrite C11, A11 by congruence; reflexivity|]. repeat split; congruence.
Qed.
Lemma same_points_trans hs1 P1 hs2 P2 hs3 P3 : same_points hs1 P1 hs2 P2 -> same_points hs2 P2 hs3 P3 -> same_points hs1 P1 hs3 P3.
Proof.
  intros (A & B) (C & D). split.
  - intros m M. destruct (C m M) as (n & N & K & E). destruct (A n N) as (q & Q & K' & E'). exists q. split; [exact Q|]. split; congruence.
  - intros n N. destruct (B n N) as (m & M & K & E). destruct (D m M) as (q & Q & K' & E'). exists q. split; [exact Q|]. split; congruence.
Qed.
(* one copy of every node *)
Theorem C99_copy : forall cd f hs r P page l w r2, sound cd f hs r P -> copies_from f hs r page l -> (forall n, stored_nodes hs n -> In n l) -> Z.of_nat (length l) < 2 ^ 32 - 2 ->
  copying copy_nodes cd page l r (r_cfg r) no_overrides (r_cfg r) w -> reader_on (file w) r2 ->
  exists hs2 P2, sound cd (file w) hs2 r2 P2 /\ same_points hs P hs2 P2 /\ alike (r_cfg r) (r_cfg r2).
Proof.
  intros cd f hs r P page l w r2 (SR & FL & RO & RDY & ST & R255 & RD & FN) CF ALL LL CP R2. pose proof CF as (_ & _ & _ & OK). rewrite Forall_forall in OK.
  assert (WH : Forall (whole_chunk f) l) by (apply Forall_forall; intros n I; destruct (OK n I) as (SN & _); now apply FN in SN). assert (SC : forall n, In n l -> exists data, chunk_records cd (c_hdr (r_cfg r)) f n data) by (intros n I; destruct (OK n I) as (SN & _); now apply FN in SN).
  assert (CC : copy_config (r_cfg r) = Ok (r_cfg r)) by now apply copy_config_good, RDY.
  destruct (copy_readable f hs r page l cd _ _ w P CF WH CC CP ST LL R255 RD SC r2 R2) as (hs2 & P2 & S2 & L2 & RD2 & _ & BK & FW & SS). destruct (C84_configuration _ _ _ _ _ _ _ _ _ _ CF WH CC CP ST LL R2) as (G1 & G2 & G3 & (X1 & X2 & X3) & _).
  destruct (copied _ _ _ _ _ _ _ _ _ _ CF WH CP) as (lg & _ & _ & W & H1 & H2 & H3 & H4). assert (ST' : storable (w_cfg w)) by (unfold storable; rewrite H1, H2, H3, H4; exact ST).
  destruct (C99_configuration _ _ _ _ _ _ W ST' ltac:(rewrite map_length; lia) R2) as (RDY2 & ST2 & _). destruct SS as (E1 & E2 & E3 & E4 & E5 & E6 & E7 & E8 & E9 & E10 & E11 & E12 & E13 & E14 & E15).
  exists hs2, P2. split; [|split].
  - split; [exact S2|]. split; [exact L2|]. split; [exact R2|]. split; [exact RDY2|]. split; [exact ST2|]. split; [rewrite E11; exact R255|]. split; [exact RD2|]. intros m SM. exact (copy_fine f hs r page l cd _ _ w CF WH CC CP ST LL SC r2 hs2 m R2 S2 SM).
  - split; [intros m SM; destruct (BK m SM) as (n & I & K & E); exists n; destruct (OK n I) as (SN & _); auto|intros n SN; exact (FW n (ALL n SN))].
  - unfold alike. cbv zeta. split; [exact G1|]. split; [exact G2|]. split; [exact G3|]. split; [exact X1|]. split; [exact X2|]. split; [rewrite X3; destruct (xs_ext (c_exts (r_cfg r))); [reflexivity|rewrite map_map; reflexivity]|]. split; [intros Q; rewrite X3, Q; reflexivity|].
    split; [exact E1|]. split; [rewrite E2, <- Z.lor_assoc; reflexivity|]. auto 20.
Qed.
Print Assumptions C99_copy.
Theorem C99_generations : forall cd f0 hs0 r0 P0 n f r, sound cd f0 hs0 r0 P0 -> generation cd f0 r0 n f r -> exists hs P, sound cd f hs r P /\ same_points hs0 P0 hs P /\ alike (r_cfg r0) (r_cfg r).
Proof.
  intros cd f0 hs0 r0 P0 n f r SD G. induction G as [|n f r hs page l w r2 G IH CF ALL LL CP R2].
  - exists hs0, P0. split; [exact SD|]. split; [split; intros m M; exists m; auto|apply alike_refl].
  - destruct (IH) as (hs1 & P1 & SD1 & SP1 & AL1). pose proof SD1 as (S1 & L1 & R1 & _). pose proof CF as (S & _ & RO & OK).
    assert (CF1 : copies_from f hs1 r page l) by (split; [exact S1|split; [exact L1|split; [exact R1|]]]; eapply Forall_impl; [|exact OK]; intros m (SN & Q); split; [now apply (same_nodes f hs hs1 r)|exact Q]).
    assert (ALL1 : forall m, stored_nodes hs1 m -> In m l) by (intros m M; apply ALL; now apply (same_nodes f hs1 hs r)).
    destruct (C99_copy cd f hs1 r P1 page l w r2 SD1 CF1 ALL1 LL CP R2) as (hs2 & P2 & SD2 & SP2 & AL2). exists hs2, P2. split; [exact SD2|]. split; [eapply same_points_trans; eauto|eapply alike_trans; eauto].
Qed.
Print Assumptions C99_generations.

(* the observable answers of an n-th copy: the points of every key, and ValidateSpatialBounds *)
Lemma sound_plain cd f hs r P : sound cd f hs r P -> plain_header (c_hdr (r_cfg r)).
Proof. intros (_ & _ & _ & RDY & _ & R255 & _). destruct (ready_header _ RDY) as (A & B & _). split; [exact A|]. lia. Qed.
Lemma sound_get cd f hs r P k hp : sound cd f hs r P -> exists r1 x ps, returns (fun fuel => get_points cd fuel hp k r) r1 (Ok x) /\ has_points (c_hdr (r_cfg r)) x ps /\
  ((exists n, stored_nodes hs n /\ n_key n = k /\ ps = P n) \/ (ps = [] /\ forall n, stored_nodes hs n -> n_key n <> k)).
Proof.
  intros SD. pose proof (sound_plain _ _ _ _ _ SD) as PH. destruct SD as (S & L & R & _ & _ & _ & RD & _). pose proof (on_good f hs r S L R) as G. destruct (data_by_key cd f _ _ hs S L k r G) as (_ & _ & A & B).
  destruct (all_nodes_good f _ _ hs S L in_order r in_order_all G) as (r3 & na & _ & _ & _ & (_ & NA) & _). destruct (in_dec key_dec k (map n_key na)) as [I|I].
  - apply in_map_iff in I as (n & K & I). apply NA in I. assert (SN : stored_node hs k n) by (rewrite <- K; exact I). destruct (A n (P n) hp SN (RD n I) PH) as (r1 & x & E & HP & _). exists r1, x, (P n). split; [exact E|]. split; [exact HP|]. left. eauto.
  - assert (NO : forall n, stored_nodes hs n -> n_key n <> k) by (intros n SN K; apply I; rewrite <- K; apply in_map; now apply NA). destruct B as (_ & _ & B).
    + intros n SN. assert (n_key n = k) as K by (destruct SN as (i & e & _ & _ & _ & _ & K & ->); exact K). apply (NO n); [unfold stored_nodes; rewrite K; exact SN|exact K].
    + destruct (B hp PH) as (r1 & x & E & HP & _). exists r1, x, []. auto.
Qed.
Theorem C99_points : forall cd f0 hs0 r0 P0 n f r k hp hp', sound cd f0 hs0 r0 P0 -> generation cd f0 r0 n f r ->
  exists r1 x r2 y ps, returns (fun fuel => get_points cd fuel hp k r0) r1 (Ok x) /\ has_points (c_hdr (r_cfg r0)) x ps /\ returns (fun fuel => get_points cd fuel hp' k r) r2 (Ok y) /\ has_points (c_hdr (r_cfg r0)) y ps.
Proof.
  intros cd f0 hs0 r0 P0 n f r k hp hp' SD G. destruct (C99_generations _ _ _ _ _ _ _ _ SD G) as (hs & P & SD1 & (SP1 & SP2) & AL). destruct (sound_get _ _ _ _ _ k hp SD) as (r1 & x & ps & E & HP & Q). destruct (sound_get _ _ _ _ _ k hp' SD1) as (r2 & y & qs & E' & HP' & Q').
  destruct AL as (_ & _ & _ & _ & _ & _ & _ & _ & _ & _ & _ & _ & _ & _ & _ & _ & F & RL & _). exists r1, x, r2, y, ps. split; [exact E|]. split; [exact HP|]. split; [exact E'|]. replace ps with qs; [unfold has_points in *; rewrite F, RL in HP'; exact HP'|].
  destruct SD as (S & _), SD1 as (S1 & _). destruct Q as [(a & A & K & ->)|(-> & NO)], Q' as [(b & B & K' & ->)|(-> & NO')].
  - destruct (SP1 b B) as (a' & A' & KK & EP). rewrite <- EP. f_equal. eapply (stored_unique f0 hs0); eauto. congruence.
  - destruct (SP2 a A) as (b & B & KK & _). destruct (NO' b B). congruence.
  - destruct (SP1 b B) as (a & A & KK & _). destruct (NO a A). congruence.
  - reflexivity.
Qed.
Print Assumptions C99_points.
Theorem C99_validates : forall cd f0 hs0 r0 P0 n f r od od' hb, sound cd f0 hs0 r0 P0 -> generation cd f0 r0 n f r -> header_bounds (h_min (c_hdr (r_cfg r0))) (h_max (c_hdr (r_cfg r0))) = Ok hb -> visits_all od -> visits_all od' ->
  exists r1 r2 b, returns (fun fuel => validate_spatial_bounds cd fuel od false r0) r1 (Ok b) /\ returns (fun fuel => validate_spatial_bounds cd fuel od' false r) r2 (Ok b).
Proof.
  intros cd f0 hs0 r0 P0 n f r od od' hb SD G HB VA VA'. destruct (C99_generations _ _ _ _ _ _ _ _ SD G) as (hs & P & SD1 & (SP1 & SP2) & AL). destruct AL as (_ & _ & _ & _ & _ & _ & _ & _ & _ & _ & _ & MX & MN & _).
  destruct SD as (S & L & R & _ & _ & _ & RD & _), SD1 as (S1 & L1 & R1 & _ & _ & _ & RD1 & _).
  destruct (C52_validate cd f0 hs0 od r0 P0 hb false S L VA R RD HB ltac:(discriminate)) as (r4 & b & E & I).
  destruct (C52_validate cd f hs od' r P hb false S1 L1 VA' R1 RD1) as (r5 & b2 & E2 & I2); [rewrite MX, MN; exact HB|intros X; discriminate X|].
  exists r4, r5, b. split; [exact E|]. replace b with b2; [exact E2|].
  assert (Q : b2 = true <-> b = true).
  { rewrite I, I2. split.
    - intros Q m SN. destruct (SP2 m SN) as (m' & SM & K & EP). pose proof (Q m' SM) as X. unfold node_box in *. rewrite K, EP, MX, MN in X. exact X.
    - intros Q m SM. destruct (SP1 m SM) as (m' & SN & K & EP). pose proof (Q m' SN) as X. unfold node_box in *. rewrite K, EP in X. rewrite MX, MN. exact X. }
  clear - Q. destruct b, b2; try reflexivity; [exact (proj2 Q eq_refl)|symmetry; exact (proj1 Q eq_refl)].
Qed.
Print Assumptions C99_validates.
(* the files that the library writes are sound *)
Theorem C99_written_sound : forall cd c0 ops l w r, lossless cd -> written cd c0 ops l w -> storable (w_cfg w) -> Z.of_nat (length ops) < 2 ^ 32 - 2 -> h_reclen (c_hdr c0) <= 255 -> records_added cd c0 l -> reader_on (file w) r ->
  exists hs P, sound cd (file w) hs r P.
Proof.
  intros cd c0 ops l w r LS W SB N R255 RA R. destruct (kept_readable cd c0 ops l w r LS W SB N R255 RA R) as (hs & P & S & STN & RD & PH & KP & _). destruct (used_header _ _ _ _ _ _ W SB N R) as (F & RL & _). pose proof W as ((od & c & v & CS) & _ & PO & L).
  destruct (C99_configuration _ _ _ _ _ _ W SB N R) as (RDY & ST & _). exists hs, P. split; [exact S|]. split; [exact L|]. split; [exact R|]. split; [exact RDY|]. split; [exact ST|]. split; [rewrite RL; exact R255|]. split; [exact RD|].
  intros n SN. destruct (KP n SN) as (m & p & op & data & V & I & SR & WB & _). assert (EN : n = mkNode (n_entry m) p).
  { destruct (proj1 (STN _ _) SN) as (m' & p' & V' & ->). rewrite V in V'. assert (m' = m) as -> by congruence. f_equal. congruence. }
  rewrite EN. destruct (C84_own_chunks _ _ _ _ _ _ _ p _ LS W I SR WB) as (D1 & D2 & D3). split; [|split].
  - cbn [n_entry]. destruct (complete_closed _ _ _ _ _ _ _ _ CS) as (w0 & w1 & cs & PG & ws & h' & O & RN & HS & C & RO & L' & AD). destruct (ProofSession.hs_nodes _ _ _ _ _ _ HS _ _ I) as ((k' & p' & A & K' & P' & CO2 & K32 & P32 & CR & C0 & CP) & IN & _).
    pose proof (op_positive _ _ _ _ _ _ _ _ _ _ CS I PO) as PS. destruct op; try discriminate A; try exact CP; cbn [positive] in PS; lia.
  - exact (chunk_within _ _ _ _ _ _ _ _ _ _ p CS I).
  - exists data. unfold chunk_records. rewrite F, RL. auto.
Qed.
Print Assumptions C99_written_sound.

(* ---- three generations of the sample file ---- *)
Fixpoint gens_b (m : nat) (r : reader) (test : reader -> bool) : bool :=
  match m with
  | O => test r
  | S m => match get_all_children_of_page 50 in_order root_key r with
           | Some (_, Ok l) => (Z.of_nat (length l) <? 2 ^ 32 - 2) && copy_test r l (r_cfg r) no_overrides (fun w => match open_reader true (file w) with Ok r2 => gens_b m r2 test | _ => false end)
           | _ => false
           end
  end.
Lemma gens_b_ok test f0 r0 : forall m k f r hs P, generation verbatim f0 r0 k f r -> sound verbatim f hs r P -> gens_b m r test = true -> exists f' r', generation verbatim f0 r0 (m + k) f' r' /\ test r' = true.
Proof.
  induction m as [|m IH]; intros k f r hs P G SD T; cbn [gens_b] in T; [exists f, r; auto|]. destruct (get_all_children_of_page 50 in_order root_key r) as [(s, [l| |])|] eqn:E; try discriminate. apply andb_prop in T as (LL & T). apply Z.ltb_lt in LL.
  pose proof (children_computed in_order root_key r _ E) as RT. pose proof SD as (S & L & R & RDY & ST & R255 & RD & FN). destruct (all_nodes_good f _ _ hs S L in_order r in_order_all (on_good f hs r S L R)) as (r1 & l1 & E1 & _ & _ & (_ & X1) & _).
  destruct (returns_fun _ _ _ _ _ RT E1) as (_ & Q). apply (f_equal (fun o => match o with Ok a => a | _ => [] end)) in Q. cbv beta iota in Q. rewrite <- Q in *. clear Q E1 E RT.
  destruct (copy_test_ok r l (r_cfg r) no_overrides (r_cfg r) _ (init_writer_none _ (proj1 RDY)) RDY T) as (w & CP & T2). destruct (open_reader true (file w)) as [r2| |] eqn:O2; try discriminate.
  assert (R2 : reader_on (file w) r2) by (destruct (opens_ok (file w)) as (r3 & O3 & R3); [unfold opens; now rewrite O2|]; assert (r3 = r2) as -> by congruence; exact R3).
  destruct (C84_same_pages f hs r l S L R) as (CF & _). { apply Forall_forall. intros n I. apply X1 in I. split; [exact I|]. now apply FN in I. }
  assert (ALL : forall n, stored_nodes hs n -> In n l) by (intros n SN; now apply X1).
  destruct (C99_copy verbatim f hs r P n_page l w r2 SD CF ALL LL CP R2) as (hs2 & P2 & SD2 & _). assert (G2 : generation verbatim f0 r0 (Datatypes.S k) (file w) r2) by (eapply next_copy; eauto).
  destruct (IH _ _ _ _ _ G2 SD2 T2) as (f' & r' & G' & T'). exists f', r'. split; [|exact T']. replace (Datatypes.S m + k)%nat with (m + Datatypes.S k)%nat by lia. exact G'.
Qed.
Lemma three_times : match open_reader true good_file with Ok r => gens_b 3 r (fun r' => match get_all_children_of_page 50 in_order root_key r' with Some (_, Ok l) => (length l =? 3)%nat | _ => false end) | _ => false end = true.
Proof. vm_compute. reflexivity. Qed.
Lemma good_takes : match open_reader true good_file with Ok r => ready_b (r_cfg r) && wf_config_b (r_cfg r) && storable_b (r_cfg r) && (h_reclen (c_hdr (r_cfg r)) <=? 255) | _ => false end = true.
Proof. vm_compute. reflexivity. Qed.
Example C99_nonvacuous : exists f0 hs0 r0 P0 f r hb l, sound verbatim f0 hs0 r0 P0 /\ generation verbatim f0 r0 3 f r /\ header_bounds (h_min (c_hdr (r_cfg r0))) (h_max (c_hdr (r_cfg r0))) = Ok hb /\ (exists n, stored_nodes hs0 n /\ length (P0 n) = 3%nat) /\
  (exists r', returns (fun fuel => get_all_nodes fuel in_order r) r' (Ok l)) /\ length l = 3%nat.
Proof.
  destruct good_ok as (r & hb & S & L & O & R & PH & RD & HB & SV & _ & N3 & WHO). cbv zeta in *. pose proof three_times as K. pose proof good_takes as GT. pose proof all_held as AH. rewrite O in K, GT, AH. pose proof copy_source as CSX.
  assert (AL : forall n, stored_nodes good_pages n -> In n (node_list good_pages)) by (intros n; apply node_list_in).
  revert S L O R PH RD HB SV N3 WHO K GT AH CSX AL. generalize (node_list good_pages). generalize good_pages good_file. intros hs f l S L O R PH RD HB SV N3 WHO K GT AH CSX AL.
  destruct CSX as (r' & O' & (_ & _ & _ & OK) & _). rewrite Forall_forall in OK. rewrite forallb_forall in AH.
  apply andb_prop in GT as (GT & G4). apply andb_prop in GT as (GT & G3). apply andb_prop in GT as (G1 & G2).
  assert (SD : sound verbatim f hs r (points_of (c_hdr (r_cfg r)) f)).
  { split; [exact S|]. split; [exact L|]. split; [exact R|]. split; [now apply wf_config_b_ok|]. split; [now apply storable_b_ok|]. split; [now apply Z.leb_le|]. split; [exact RD|].
    intros n SN. pose proof (AL n SN) as I. destruct (OK n I) as (_ & C & _). split; [exact C|]. split; [now apply WHO|]. eexists. apply holds_b_ok. now apply AH. }
  destruct (gens_b_ok _ f r 3 0 f r hs _ (first_file verbatim f r) SD K) as (f' & r3 & G & T). destruct (get_all_children_of_page 50 in_order root_key r3) as [(s, [l3| |])|] eqn:E; try discriminate. apply Nat.eqb_eq in T.
  exists f, hs, r, (points_of (c_hdr (r_cfg r)) f), f', r3, hb, l3. split; [exact SD|]. split; [exact G|]. split; [exact HB|]. split; [exact N3|]. split; [|exact T]. exists s. exact (children_computed in_order root_key r3 _ E).
Qed.
