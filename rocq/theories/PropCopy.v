(* PropCopy.v - C84: copying nodes from file to file *)
From Coq Require Import Permutation.
From Verif Require ProofOpen3.
From Verif Require Import Base BaseFacts ModelFloat ModelKey ModelGeom ModelEntry ModelPoint ModelPoints ModelHeader ModelVlr ModelExtents ModelConfig
  ModelStream ModelWriter ModelReader ModelPickle ModelMp ModelCopy SpecKey SpecPoint SpecPoints SpecConfig SpecWriter SpecHier SpecFile SpecReader SpecData SpecRound SpecMp SpecCopy
  ProofFloat ProofGeom ProofKey ProofPoint ProofPoints ProofConfig ProofStream ProofWriter ProofWriter2 ProofWriter4 ProofClose2 ProofSession ProofResults ProofReject ProofCount ProofData ProofData2 ProofReader4 ProofReader6 ProofOpen ProofRound ProofMp ProofMp2 ProofMp3 ProofMp4 ProofMp5 ProofCopy
  SampleWriter SampleReader PropWriter PropReader PropData PropRound PropMp PropMp3.
Open Scope Z_scope.

Lemma copied f hs r page l cd c v c0 w : copies_from f hs r page l -> Forall (whole_chunk f) l -> copying copy_nodes cd page l r c v c0 w ->
  exists lg, map fst lg = map (copy_op page (chunk_in f)) l /\ Forall (fun x : wop * outcome (option node) => exists n, snd x = Ok (Some n)) lg /\ written cd c0 (map (copy_op page (chunk_in f)) l) lg w /\
  c_hdr (w_cfg w) = c_hdr c0 /\ c_wkt (w_cfg w) = c_wkt c0 /\ c_ebs (w_cfg w) = c_ebs c0 /\ c_exts (w_cfg w) = c_exts c0.
Proof.
  intros (SR & FL & RO & OK) WH (w0 & w1 & r' & wod & O & IW & RD & RE & LP & CL & F2). destruct (copy_run f hs r page SR FL RO cd l w0 r' w1 OK WH LP) as (_ & CF & lg & R & OKS).
  destruct (copied_written f hs page (chunk_in f) cd l c v c0 wod w0 w1 lg w SR OK O IW RD RE R OKS CF CL F2) as (A & B & C). exists lg. auto.
Qed.
Lemma copied_node f hs r page l cd c v c0 w n : copies_from f hs r page l -> Forall (whole_chunk f) l -> copying copy_nodes cd page l r c v c0 w -> In n l ->
  exists lg nd, written cd c0 (map (copy_op page (chunk_in f)) l) lg w /\ view_of lg (n_key n) = Some (nd, page n) /\ In (copy_op page (chunk_in f) n, Ok (Some nd)) lg /\
    n_key nd = n_key n /\ e_count (n_entry nd) = e_count (n_entry n) /\ e_size (n_entry nd) = e_size (n_entry n).
Proof.
  intros CF WH CP I. destruct (copied _ _ _ _ _ _ _ _ _ _ CF WH CP) as (lg & MF & OKS & W & _). destruct CF as (SR & FL & RO & OK). destruct (log_view f hs page (chunk_in f) l SR OK lg MF OKS n I) as (nd & V & J). exists lg, nd. split; [exact W|]. split; [exact V|]. split; [exact J|].
  destruct W as ((wod & cc & vv & CS) & _). destruct (chunk_kept _ _ _ _ _ _ _ _ _ _ CS J) as (x & CO & AK & SZ & _). unfold copy_op in CO, AK. cbn [chunk_of add_keys] in CO, AK. rewrite Forall_forall in OK, WH.
  destruct (chunk_size f hs page SR n (proj1 (OK n I)) (WH n I)) as (LC & _). split; [unfold n_key at 1; congruence|]. split; [congruence|]. assert (x = chunk_in f n) as -> by congruence. lia.
Qed.

(* ---- C84 ---- *)
(* every copied node is found in the copy under its key, in its page, with its count and size *)
Theorem C84_find : forall f hs r page l cd c v c0 w n r2, copies_from f hs r page l -> Forall (whole_chunk f) l -> copying copy_nodes cd page l r c v c0 w -> In n l -> reader_on (file w) r2 ->
  exists r3 m, returns (fun fuel => find_node fuel (n_key n) r2) r3 (Ok m) /\ n_key m = n_key n /\ n_page m = page n /\ e_count (n_entry m) = e_count (n_entry n) /\ e_size (n_entry m) = e_size (n_entry n).
Proof.
  intros f hs r page l cd c v c0 w n r2 CF WH CP I R. destruct (copied_node _ _ _ _ _ _ _ _ _ _ _ CF WH CP I) as (lg & nd & W & V & J & K & C & S). destruct (C32_find_added _ _ _ _ _ _ _ _ _ W R V) as (r3 & E). exists r3, (mkNode (n_entry nd) (page n)). auto.
Qed.
Print Assumptions C84_find.
(* and nothing else is *)
Theorem C84_absent : forall f hs r page l cd c v c0 w k r2, copies_from f hs r page l -> Forall (whole_chunk f) l -> copying copy_nodes cd page l r c v c0 w -> ~ In k (map n_key l) -> reader_on (file w) r2 ->
  exists r3, returns (fun fuel => find_node fuel k r2) r3 (Ok invalid_node).
Proof.
  intros f hs r page l cd c v c0 w k r2 CF WH CP NI R. destruct (copied _ _ _ _ _ _ _ _ _ _ CF WH CP) as (lg & MF & OKS & W & _). eapply C32_find_absent; eauto. destruct CF as (SR & FL & RO & OK). eapply log_none; eauto.
  intros n I E. apply NI. rewrite <- E. now apply in_map.
Qed.
Print Assumptions C84_absent.
(* GetAllNodes of the copy lists the copied keys once each *)
Theorem C84_all_nodes : forall f hs r page l cd c v c0 w r2 od, copies_from f hs r page l -> Forall (whole_chunk f) l -> copying copy_nodes cd page l r c v c0 w -> reader_on (file w) r2 -> visits_all od ->
  exists r3 ns, returns (fun fuel => get_all_nodes fuel od r2) r3 (Ok ns) /\ NoDup (map n_key ns) /\ forall k, In k (map n_key ns) <-> In k (map n_key l).
Proof.
  intros f hs r page l cd c v c0 w r2 od CF WH CP R VA. destruct (copied _ _ _ _ _ _ _ _ _ _ CF WH CP) as (lg & MF & OKS & W & _). destruct (C33_all_nodes _ _ _ _ _ _ _ W R VA) as (r3 & ns & E & (ND & X)). exists r3, ns. split; [exact E|]. split; [exact ND|].
  intros k. split; intros I; apply in_map_iff in I as (m & <- & I).
  - apply X in I as (nd & q & V & _). destruct CF as (SR & FL & RO & OK). destruct (log_some page (chunk_in f) l lg MF OKS _ _ _ V) as (n & N & K & _). rewrite <- K. now apply in_map.
  - destruct (copied_node _ _ _ _ _ _ _ _ _ _ _ CF WH CP I) as (lg' & nd & W' & V & J & K & _). destruct (C33_all_nodes _ _ _ _ _ _ _ W' R VA) as (r4 & ns' & E' & (_ & X')).
    destruct E as (n0 & E), E' as (n1 & E'). specialize (E (max n0 n1) ltac:(lia)). specialize (E' (max n0 n1) ltac:(lia)). assert (ns' = ns) as -> by congruence.
    assert (NK : n_key (mkNode (n_entry nd) (page m)) = n_key m) by exact K. rewrite <- NK. apply in_map. apply X'. exists nd, (page m). rewrite NK. auto.
Qed.
Print Assumptions C84_all_nodes.
(* GetPointDataCompressed gives the same bytes for the copy and for the source *)
Theorem C84_chunk : forall f hs r page l cd c v c0 w n r1 r2, copies_from f hs r page l -> Forall (whole_chunk f) l -> copying copy_nodes cd page l r c v c0 w -> In n l -> reader_on f r1 -> reader_on (file w) r2 ->
  exists r3 r4 data, returns (fun fuel => get_compressed fuel (n_key n) r1) r3 (Ok data) /\ returns (fun fuel => get_compressed fuel (n_key n) r2) r4 (Ok data) /\ data = chunk_in f n.
Proof.
  intros f hs r page l cd c v c0 w n r1 r2 CF WH CP I R1 R2. destruct (copied_node _ _ _ _ _ _ _ _ _ _ _ CF WH CP I) as (lg & nd & W & V & J & _). destruct (C34_compressed _ _ _ _ _ _ _ _ _ _ W R2 V J) as (r4 & x & cnt & CO & E). unfold copy_op in CO. cbn [chunk_of] in CO.
  destruct CF as (SR & FL & RO & OK). rewrite Forall_forall in OK, WH. destruct (data_by_key cd _ _ _ hs SR FL (n_key n) r1 (on_good f hs r1 SR FL R1)) as (_ & A & _). destruct (A n (proj1 (OK n I)) (WH n I)) as (r3 & E3 & _).
  exists r3, r4, (chunk_in f n). split; [exact E3|]. split; [|reflexivity]. assert (chunk_in f n = x) as -> by congruence. exact E.
Qed.
Print Assumptions C84_chunk.
Lemma copy_holds f hs r page l cd c v c0 w n data r2 : copies_from f hs r page l -> Forall (whole_chunk f) l -> copying copy_nodes cd page l r c v c0 w -> In n l -> reader_on (file w) r2 -> storable c0 -> Z.of_nat (length l) < 2 ^ 32 - 2 -> h_reclen (c_hdr c0) <= 255 ->
  chunk_records cd (c_hdr c0) f n data -> exists hs2 m, copc_pages (file w) hs2 /\ Z.of_nat (length (file w)) < 2 ^ 63 /\ stored_node hs2 (n_key n) m /\ ProofReader6.good (file w) hs2 r2 /\
    same_meaning (c_hdr c0) (c_hdr (r_cfg r2)) /\ holds_records cd (c_hdr (r_cfg r2)) (file w) m data.
Proof.
  intros CF WH CP I R2 ST LL R255 CR. destruct (copied_node _ _ _ _ _ _ _ _ _ _ _ CF WH CP I) as (lg & nd & W & V & J & K & C & SZ). destruct (copied _ _ _ _ _ _ _ _ _ _ CF WH CP) as (lg' & _ & _ & _ & H1 & H2 & H3 & H4).
  assert (ST' : storable (w_cfg w)) by (unfold storable; rewrite H1, H2, H3, H4; exact ST). destruct (used_header _ _ _ _ _ _ W ST' ltac:(rewrite map_length; lia) R2) as (F & RL & SC & OF).
  destruct (written_reader _ _ _ _ _ _ W R2) as (hs2 & S & L & STN & _ & G). assert (NS : stored_node hs2 (n_key n) (mkNode (n_entry nd) (page n))) by (apply STN; now exists nd, (page n)).
  pose proof W as ((od & cc & vv & CS) & _). destruct (ready_base _ _ _ _ _ _ _ _ CS) as (F6 & RB). destruct (chunk_kept _ _ _ _ _ _ _ _ _ _ CS J) as (x & CO & _ & _ & BX). unfold copy_op in CO. cbn [chunk_of] in CO. assert (x = chunk_in f n) as -> by congruence.
  exists hs2, (mkNode (n_entry nd) (page n)). split; [exact S|]. split; [exact L|]. split; [exact NS|]. split; [exact G|]. split; [repeat split; assumption|].
  assert (CN : 0 < e_count (n_entry n)). { destruct CF as (_ & _ & _ & OK). rewrite Forall_forall in OK. apply (OK n I). }
  assert (NS' : stored_nodes hs2 (mkNode (n_entry nd) (page n))) by (unfold stored_nodes, n_key; cbn [n_entry]; fold (n_key nd); rewrite K; exact NS).
  apply (chunk_holds cd (file w) hs2); auto.
  - exact (chunk_within _ _ _ _ _ _ _ _ _ _ (page n) CS J).
  - cbn [n_entry]. lia.
  - rewrite F. exact F6.
  - rewrite F, RL. lia.
  - destruct CR as (D1 & D2 & D3). unfold chunk_records, chunk_in. cbn [n_entry]. rewrite F, RL, C, BX. auto.
Qed.
(* GetPointData gives the records of the source, if the Writer has the format and record length of the source *)
Theorem C84_records : forall f hs r page l cd c v c0 w n data r1 r2, copies_from f hs r page l -> Forall (whole_chunk f) l -> copying copy_nodes cd page l r c v c0 w -> In n l -> reader_on f r1 -> reader_on (file w) r2 ->
  storable c0 -> Z.of_nat (length l) < 2 ^ 32 - 2 -> h_reclen (c_hdr c0) <= 255 -> h_fmt (c_hdr (r_cfg r1)) = h_fmt (c_hdr c0) -> h_reclen (c_hdr (r_cfg r1)) = h_reclen (c_hdr c0) -> chunk_records cd (c_hdr (r_cfg r1)) f n data ->
  exists r3 r4, returns (fun fuel => get_point_data cd fuel (n_key n) r1) r3 (Ok data) /\ returns (fun fuel => get_point_data cd fuel (n_key n) r2) r4 (Ok data).
Proof.
  intros f hs r page l cd c v c0 w n data r1 r2 CF WH CP I R1 R2 ST LL R255 F RL CR. assert (CR' : chunk_records cd (c_hdr c0) f n data) by (unfold chunk_records in *; rewrite <- F, <- RL; exact CR).
  destruct (copy_holds _ _ _ _ _ _ _ _ _ _ _ _ _ CF WH CP I R2 ST LL R255 CR') as (hs2 & m & S2 & L2 & N2 & G2 & SM & H2).
  destruct (data_by_key cd _ _ _ hs2 S2 L2 (n_key n) r2 G2) as (A2 & _). destruct (A2 m data N2 H2) as (r4 & E4 & _).
  destruct (copied_node _ _ _ _ _ _ _ _ _ _ _ CF WH CP I) as (lg & nd & ((od & cc & vv & CS) & _) & _). destruct (ready_base _ _ _ _ _ _ _ _ CS) as (F6 & RB).
  destruct CF as (SR & FL & RO & OK). rewrite Forall_forall in OK, WH. destruct (OK n I) as (SN & CN & _). destruct (data_by_key cd _ _ _ hs SR FL (n_key n) r1 (on_good f hs r1 SR FL R1)) as (A & _).
  destruct (A n data SN) as (r3 & E3 & _); [apply (chunk_holds cd f hs); auto; [lia|rewrite F; exact F6|rewrite F, RL; lia]|]. exists r3, r4. auto.
Qed.
Print Assumptions C84_records.
(* GetPoints gives the same points, if the Writer also has the scale and offset of the source *)
Theorem C84_points : forall f hs r page l cd c v c0 w n data hp hp' r1 r2, copies_from f hs r page l -> Forall (whole_chunk f) l -> copying copy_nodes cd page l r c v c0 w -> In n l -> reader_on f r1 -> reader_on (file w) r2 ->
  storable c0 -> Z.of_nat (length l) < 2 ^ 32 - 2 -> h_reclen (c_hdr c0) <= 255 -> same_meaning (c_hdr (r_cfg r1)) (c_hdr c0) -> chunk_records cd (c_hdr (r_cfg r1)) f n data ->
  exists r3 r4 x y qs, returns (fun fuel => get_points cd fuel hp (n_key n) r1) r3 (Ok x) /\ returns (fun fuel => get_points cd fuel hp' (n_key n) r2) r4 (Ok y) /\
    has_points (c_hdr (r_cfg r1)) x qs /\ has_points (c_hdr (r_cfg r1)) y qs /\ decodes_to (c_hdr (r_cfg r1)) data qs.
Proof.
  intros f hs r page l cd c v c0 w n data hp hp' r1 r2 CF WH CP I R1 R2 ST LL R255 (F & RL & SC & OF) CR. symmetry in F, RL, SC, OF. assert (CR' : chunk_records cd (c_hdr c0) f n data) by (unfold chunk_records in *; rewrite <- F, <- RL; exact CR).
  destruct (copy_holds _ _ _ _ _ _ _ _ _ _ _ _ _ CF WH CP I R2 ST LL R255 CR') as (hs2 & m & S2 & L2 & N2 & G2 & (M1 & M2 & M3 & M4) & H2).
  destruct (copied_node _ _ _ _ _ _ _ _ _ _ _ CF WH CP I) as (lg & nd & ((od & cc & vv & CS) & _) & _). destruct (ready_base _ _ _ _ _ _ _ _ CS) as (F6 & RB).
  destruct CF as (SR & FL & RO & OK). rewrite Forall_forall in OK, WH. destruct (OK n I) as (SN & CN & _).
  assert (H1 : holds_records cd (c_hdr (r_cfg r1)) f n data) by (apply (chunk_holds cd f hs); auto; [lia|rewrite F; exact F6|rewrite F, RL; lia]).
  pose proof H1 as (X1 & X2 & X3 & X4 & X5 & X6 & X7). destruct (unpack_decodes (c_hdr (r_cfg r1)) [] data X1 ltac:(lia) X5 _ X6 ltac:(lia)) as (qs & D & _).
  assert (P1 : plain_header (c_hdr (r_cfg r1))) by (split; [exact X1|lia]). assert (P2 : plain_header (c_hdr (r_cfg r2))) by (split; [rewrite M1; exact F6|rewrite M1, M2; lia]).
  destruct (data_by_key cd _ _ _ hs SR FL (n_key n) r1 (on_good f hs r1 SR FL R1)) as (_ & _ & A & _). destruct (A n qs hp SN ltac:(exists data; auto) P1) as (r3 & x & E3 & HP3 & _).
  destruct (data_by_key cd _ _ _ hs2 S2 L2 (n_key n) r2 G2) as (_ & _ & A2 & _). destruct (A2 m qs hp' N2) as (r4 & y & E4 & HP4 & _); [exists data; split; [exact H2|eapply same_decodes; [..|exact D]; congruence]|exact P2|].
  exists r3, r4, x, y, qs. split; [exact E3|]. split; [exact E4|]. split; [exact HP3|]. split; [|exact D]. destruct HP4 as (Q1 & Q2 & Q3). split; [exact Q1|]. split; congruence.
Qed.
Print Assumptions C84_points.
(* GetPageList of the copy: the root page and the chosen pages *)
Theorem C84_page_list : forall f hs r page l cd c v c0 w r2 od, copies_from f hs r page l -> Forall (whole_chunk f) l -> copying copy_nodes cd page l r c v c0 w -> reader_on (file w) r2 -> visits_all od ->
  exists r3 ks, returns (fun fuel => get_page_list fuel od r2) r3 (Ok ks) /\ NoDup ks /\ forall p, In p ks <-> p = root_key \/ In p (map page l).
Proof.
  intros f hs r page l cd c v c0 w r2 od CF WH CP R VA. destruct (copied _ _ _ _ _ _ _ _ _ _ CF WH CP) as (lg & MF & OKS & W & _). destruct (C33_page_list _ _ _ _ _ _ _ W R VA) as (r3 & ks & E & ND & X). exists r3, ks. split; [exact E|]. split; [exact ND|].
  destruct CF as (SR & FL & RO & OK). intros p. rewrite X. unfold page_of_view. split; (intros [->|H]; [now left|right]).
  - destruct H as (k & n & V). destruct (log_some page (chunk_in f) l lg MF OKS _ _ _ V) as (m & M & _ & ->). now apply in_map.
  - apply in_map_iff in H as (m & <- & M). destruct (log_view f hs page (chunk_in f) l SR OK lg MF OKS m M) as (nd & V & _). exists (n_key m), nd. exact V.
Qed.
Print Assumptions C84_page_list.
(* a Writer constructed from the source's configuration gives the copy the same configuration *)
Theorem C84_configuration : forall f hs r page l cd c c0 w r2, copies_from f hs r page l -> Forall (whole_chunk f) l -> copy_config (r_cfg r) = Ok c -> copying copy_nodes cd page l r c no_overrides c0 w -> storable c0 -> Z.of_nat (length l) < 2 ^ 32 - 2 -> reader_on (file w) r2 ->
  c_wkt (r_cfg r2) = c_wkt (r_cfg r) /\ c_ebs (r_cfg r2) = c_ebs (r_cfg r) /\ same_cube (c_info (r_cfg r)) (c_info (r_cfg r2)) /\ same_extents (c_exts (r_cfg r)) (c_exts (r_cfg r2)) /\ same_settings (c_hdr (r_cfg r)) (c_hdr (r_cfg r2)) /\
  describes (file w) (c_hdr (r_cfg r2)).
Proof.
  intros f hs r page l cd c c0 w r2 CF WH CC CP ST LL R2. destruct (copied _ _ _ _ _ _ _ _ _ _ CF WH CP) as (lg & MF & OKS & W & H1 & H2 & H3 & H4).
  assert (ST' : storable (w_cfg w)) by (unfold storable; rewrite H1, H2, H3, H4; exact ST). destruct (used_config _ _ _ _ _ _ W ST' ltac:(rewrite map_length; lia) R2) as ((A1 & A2 & A3 & A4 & A5) & D & _).
  destruct CF as (SR & FL & RO & OK). destruct (reader_cfg f hs r SR FL RO) as (isf & r0 & O & RC). pose proof (opened_copc _ _ _ O) as HC. rewrite <- RC in HC. apply (copy_config_id _ _ HC) in CC. subst c.
  destruct CP as (w0 & w1 & r' & wod & OW & IW & RD & RE & LP & CL & F2). assert (c0 = r_cfg r) as -> by (unfold init_writer in IW; cbn [any_override no_overrides is_some ov_fmt ov_scale ov_offset ov_wkt ov_ebs ov_ext orb] in IW; now apply (copy_config_id _ _ HC) in IW).
  destruct (copy_run f hs r page SR FL RO cd l w0 r' w1 OK WH LP) as (_ & CF' & lg' & R & OKS'). pose proof (copied_info f hs page (chunk_in f) cd l _ _ _ wod w0 w1 lg' w SR OK OW IW RD RE R OKS' CF' CL F2) as IN.
  rewrite H1 in A5. rewrite H4 in A4. rewrite A3. split; [congruence|]. split; [congruence|]. auto.
Qed.
Print Assumptions C84_configuration.
(* the loop throws nothing, and neither does Close *)
Theorem C84_succeeds : forall f hs r page l cd c v c0 w0, copies_from f hs r page l -> Forall (whole_chunk f) l -> open_writer None c v = Ok w0 -> init_writer c v = Ok c0 -> ready c0 -> Z.of_nat (length (file w0)) + 2 ^ 31 * Z.of_nat (length l) < 2 ^ 63 ->
  exists w1, copy_nodes cd page l r w0 = (r, w1, Ok tt) /\
  forall wod w o, reorders wod -> Z.of_nat (length l) < 2 ^ 25 -> ordered_bounds (c_hdr c0) -> Forall (fun n => in_octree (page n)) l -> close cd wod w1 = (w, o) -> Z.of_nat (length (file w)) < 2 ^ 63 -> o = Ok tt /\ copying copy_nodes cd page l r c v c0 w.
Proof.
  intros f hs r page l cd c v c0 w0 (SR & FL & RO & OK) WH O IW RD SM. destruct (open_inv _ _ _ _ O IW RD) as (C0 & _ & ST & BI & _).
  destruct (copy_succeeds f hs r page cd SR FL RO l w0 OK WH) as (w1 & E & _); [apply BI|destruct BI as (_ & BD & _); unfold file; rewrite BD, app_length, zeros_length; lia|exact SM|]. exists w1. split; [exact E|].
  intros wod w o RE LL OB OC CL F2. destruct (copy_run f hs r page SR FL RO cd l w0 r w1 OK WH E) as (_ & CF & lg & R & OKS). pose proof (log_defined lg OKS) as AD. destruct (ops_fine f hs page (chunk_in f) l SR OK) as (WF & PO).
  assert (o = Ok tt) as ->; [|split; [reflexivity|exists w0, w1, r, wod; auto 10]].
  refine (ProofCount.close_succeeds cd wod c v c0 _ w0 w1 lg w o IW RD WF RE O R AD _ _ _ CL _); [|rewrite map_length; lia|rewrite CF, C0; exact OB|lia].
  intros op x p I T. apply (in_map fst) in I. rewrite (wrun_ops _ _ _ _ _ R AD) in I. apply in_map_iff in I as (n & Q & I). cbn [fst] in Q. subst op. unfold copy_op in T. cbn [target_page] in T. rewrite Forall_forall in OC. assert (p = page n) as -> by congruence. auto.
Qed.
Print Assumptions C84_succeeds.
(* the pages of the source are always possible choices *)
Theorem C84_same_pages : forall f hs r l, copc_pages f hs -> Z.of_nat (length f) < 2 ^ 63 -> reader_on f r -> Forall (fun n => stored_nodes hs n /\ 0 < e_count (n_entry n)) l -> copies_from f hs r n_page l /\ Forall (fun n => in_octree (n_page n)) l.
Proof.
  intros f hs r l SR FL RO F. split; [split; [exact SR|split; [exact FL|split; [exact RO|]]]|]; (eapply Forall_impl; [|exact F]); intros n (S & C); [|eapply page_octree; eauto].
  destruct (stored_facts f hs n SR S) as (_ & _ & WP & _ & KP & CH). split; [exact S|]. split; [exact C|]. split; [exact KP|]. split; [now apply wf_key_int32|exact CH].
Qed.
Print Assumptions C84_same_pages.
(* the chunks of files that this library wrote decompress whatever follows them *)
Theorem C84_own_chunks : forall cd c0 ops lg w op n p data, lossless cd -> written cd c0 ops lg w -> In (op, Ok (Some n)) lg -> stores_records cd (c_hdr c0) op data -> wf_bytes data ->
  chunk_records cd (c_hdr c0) (file w) (mkNode (n_entry n) p) data.
Proof.
  intros cd c0 ops lg w op n p data LS ((od & c & v & CS) & _ & PO & _) I SRD WB. destruct (accepted_whole _ _ _ _ _ _ _ _ _ _ _ CS I SRD) as (LD & CO). destruct (chunk_kept _ _ _ _ _ _ _ _ _ _ CS I) as (x & CO' & _ & _ & BX).
  destruct (ready_base _ _ _ _ _ _ _ _ CS) as (F6 & RB). split; [exact WB|]. cbn [n_entry]. split; [exact LD|]. intros rest. unfold chunk_in. cbn [n_entry]. rewrite BX. rewrite CO in CO'. assert (x = cd_comp cd (h_fmt (c_hdr c0)) (h_reclen (c_hdr c0) - las_base (h_fmt (c_hdr c0))) data) as -> by congruence.
  destruct (complete_closed _ _ _ _ _ _ _ _ CS) as (w0 & w1 & cs & PG & ws & h' & O & R & HS & C & RO & L & AD). destruct (hs_nodes _ _ _ _ _ _ HS _ _ I) as ((k' & p' & A & K' & P' & CO2 & K32 & P32 & CR & C0 & CP) & IN & _).
  pose proof (op_positive _ _ _ _ _ _ _ _ _ _ CS I PO) as PS. assert (0 < e_count (n_entry n)) as CPOS by (destruct op; try discriminate A; try exact CP; cbn [positive] in PS; lia).
  apply (proj1 LS); [exact F6|lia|exact CPOS|unfold rec_size; rewrite LD; f_equal; lia].
Qed.
Print Assumptions C84_own_chunks.
(* the loop that decompresses each node and compresses it again: the records come back *)
Theorem C84_recompressed : forall f hs r page l cd c v c0 w D n r2, copies_from f hs r page l -> lossless cd -> Forall (fun n => holds_records cd (c_hdr (r_cfg r)) f n (D n)) l -> copying recompress_nodes cd page l r c v c0 w ->
  In n l -> reader_on (file w) r2 -> storable c0 -> Z.of_nat (length l) < 2 ^ 32 - 2 -> h_reclen (c_hdr c0) <= 255 -> h_reclen (c_hdr (r_cfg r)) = h_reclen (c_hdr c0) ->
  (exists r3 m, returns (fun fuel => find_node fuel (n_key n) r2) r3 (Ok m) /\ n_key m = n_key n /\ n_page m = page n /\ e_count (n_entry m) = e_count (n_entry n)) /\
  (exists r3, returns (fun fuel => get_compressed fuel (n_key n) r2) r3 (Ok (cd_comp cd (h_fmt (c_hdr c0)) (h_reclen (c_hdr c0) - las_base (h_fmt (c_hdr c0))) (D n)))) /\
  (exists r3, returns (fun fuel => get_point_data cd fuel (n_key n) r2) r3 (Ok (D n))).
Proof.
  intros f hs r page l cd c v c0 w D n r2 (SR & FL & RO & OK) LS HD (w0 & w1 & r' & wod & O & IW & RD & RE & LP & CL & F2) I R2 ST LL R255 RL. destruct (ready_header _ RD) as (F6 & RB & _).
  destruct (open_spec _ _ _ O) as (c1 & E1 & CF0 & _). assert (c1 = c0) as -> by congruence.
  destruct (recompress_run f hs r page cd SR FL RO (c_hdr c0) D F6 RB l w0 r' w1 ltac:(now rewrite CF0) OK HD LP) as (_ & CF & (lg & R & OKS) & MD). set (X := repacked cd (c_hdr c0) D) in *.
  destruct (copied_written f hs page X cd l c v c0 wod w0 w1 lg w SR OK O IW RD RE R OKS CF CL F2) as (MF & W & H1 & H2 & H3 & H4). destruct (log_view f hs page X l SR OK lg MF OKS n I) as (nd & V & J).
  pose proof W as ((od & cc & vv & CS) & _). destruct (chunk_kept _ _ _ _ _ _ _ _ _ _ CS J) as (x & CO & AK & _). unfold copy_op in CO, AK. cbn [chunk_of add_keys] in CO, AK. split; [|split].
  - destruct (C32_find_added _ _ _ _ _ _ _ _ _ W R2 V) as (r3 & E). exists r3, (mkNode (n_entry nd) (page n)). split; [exact E|]. split; [unfold n_key at 1; cbn [n_entry]; congruence|]. split; [reflexivity|]. cbn [n_entry]. congruence.
  - destruct (C34_compressed _ _ _ _ _ _ _ _ _ _ W R2 V J) as (r3 & y & cnt & CO' & E). unfold copy_op in CO'. cbn [chunk_of] in CO'. exists r3. assert (y = X n) as -> by congruence. exact E.
  - assert (ST' : storable (w_cfg w)) by (unfold storable; rewrite H1, H2, H3, H4; exact ST). rewrite Forall_forall in HD. destruct (HD n I) as (_ & _ & _ & _ & WB & LD & _).
    apply (C34_records cd c0 _ lg w r2 (n_key n) nd (page n) (copy_op page X n) (D n) LS W ST' ltac:(rewrite map_length; lia) R2 V J); [|exact WB|exact R255]. split; [reflexivity|]. rewrite <- RL. exact LD.
Qed.
Print Assumptions C84_recompressed.

(* ---- a copy of a file with three nodes in two pages ---- *)
Definition copy_test (r : reader) (l : list node) (c : config) (v : overrides) (test : writer -> bool) : bool :=
  match open_writer None c v with
  | Ok w0 => match copy_nodes verbatim n_page l r w0 with
             | (_, w1, Ok tt) => match close verbatim plain w1 with (w, Ok tt) => (Z.of_nat (length (file w)) <? 2 ^ 63) && test w | _ => false end
             | _ => false end
  | _ => false end.
Lemma copy_test_ok r l c v c0 test : init_writer c v = Ok c0 -> ready c0 -> copy_test r l c v test = true -> exists w, copying copy_nodes verbatim n_page l r c v c0 w /\ test w = true.
Proof.
  intros IW RD H. unfold copy_test in H. destruct (open_writer None c v) as [w0| |] eqn:O; try discriminate. destruct (copy_nodes verbatim n_page l r w0) as ((r', w1), [[]| |]) eqn:E; try discriminate.
  destruct (close verbatim plain w1) as (w, [[]| |]) eqn:C; try discriminate. apply andb_prop in H as (L & T). apply Z.ltb_lt in L. exists w. split; [|exact T]. exists w0, w1, r', plain. split; [exact O|]. split; [exact IW|]. split; [exact RD|]. split; [apply plain_reorders|auto].
Qed.
Lemma copy_source : exists r, open_reader true good_file = Ok r /\ copies_from good_file good_pages r n_page (node_list good_pages) /\ Forall (whole_chunk good_file) (node_list good_pages).
Proof.
  destruct good_ok as (r & hb & S & L & O & R & PH & RD & _ & _ & _ & _ & W). exists r. split; [exact O|].
  assert (F : Forall (fun n => stored_nodes good_pages n /\ 0 < e_count (n_entry n)) (node_list good_pages)).
  { apply Forall_forall. intros n I. split; [apply node_list_in_rev; [vm_compute; reflexivity|exact I]|]. assert (Q : forallb (fun n => 0 <? e_count (n_entry n)) (node_list good_pages) = true) by (vm_compute; reflexivity). rewrite forallb_forall in Q. apply Z.ltb_lt. now apply Q. }
  split; [apply (C84_same_pages good_file good_pages r (node_list good_pages) S L R F)|]. apply Forall_forall. intros n I. apply W. rewrite Forall_forall in F. now apply F.
Qed.
Lemma copy_runs : match open_reader true good_file with Ok r => copy_test r (node_list good_pages) round_config no_overrides (fun w => opens (file w)) | _ => false end = true.
Proof. vm_compute. reflexivity. Qed.
Definition same_f (x y : f64) : bool := f64_bits x =? f64_bits y.
Lemma same_f_eq x y : same_f x y = true -> x = y.
Proof. unfold same_f. intros H. apply Z.eqb_eq in H. rewrite <- (f64_bits_roundtrip x), <- (f64_bits_roundtrip y). now rewrite H. Qed.
Definition same_v (a b : vec3) : bool := same_f (vx a) (vx b) && same_f (vy a) (vy b) && same_f (vz a) (vz b).
Lemma same_v_eq a b : same_v a b = true -> a = b.
Proof. unfold same_v. intros H. apply andb_prop in H as (H & C). apply andb_prop in H as (A & B). apply same_f_eq in A, B, C. destruct a, b. cbn in *. congruence. Qed.
Definition same_meaning_b (h g : las_header) : bool := (h_fmt g =? h_fmt h) && (h_reclen g =? h_reclen h) && same_v (h_scale g) (h_scale h) && same_v (h_offset g) (h_offset h).
Lemma same_meaning_b_ok h g : same_meaning_b h g = true -> same_meaning h g.
Proof.
  unfold same_meaning_b. intros H. apply andb_prop in H as (H & D). apply andb_prop in H as (H & C). apply andb_prop in H as (A & B). apply Z.eqb_eq in A, B. apply same_v_eq in C, D. repeat split; assumption.
Qed.
Lemma same_headers : match open_reader true good_file with Ok r => same_meaning_b (c_hdr (r_cfg r)) (c_hdr round_config) | _ => false end = true.
Proof. vm_compute. reflexivity. Qed.
(* under the codec that stores records verbatim, a chunk holds the records that fit *)
Definition holds_b (h : las_header) (f : bytes) (n : node) : bool :=
  let size := e_count (n_entry n) * h_reclen h in (0 <=? e_count (n_entry n)) && (0 <=? h_reclen h) && (size <=? Z.of_nat (length (chunk_in f n))) && forallb (fun b => (0 <=? b) && (b <? 256)) (chunk_in f n) && (rec_size (h_fmt h) (h_reclen h - las_base (h_fmt h)) =? h_reclen h).
Lemma holds_b_ok h f n : holds_b h f n = true -> chunk_records verbatim h f n (firstn (Z.to_nat (e_count (n_entry n) * h_reclen h)) (chunk_in f n)).
Proof.
  unfold holds_b. intros H. apply andb_prop in H as (H & E). apply andb_prop in H as (H & D). apply andb_prop in H as (H & C). apply andb_prop in H as (A & B). apply Z.leb_le in A, B, C. apply Z.eqb_eq in E.
  assert (L : (Z.to_nat (e_count (n_entry n) * h_reclen h) <= length (chunk_in f n))%nat) by lia. split; [|split].
  - apply Forall_forall. intros b I. apply ProofOpen3.firstn_in in I. rewrite forallb_forall in D. apply D in I. lia.
  - rewrite firstn_length_le by exact L. assert (0 <= e_count (n_entry n) * h_reclen h) by (apply Z.mul_nonneg_nonneg; assumption). lia.
  - intros rest. cbn [verbatim cd_decomp]. rewrite E. rewrite firstn_app. replace (_ - _)%nat with 0%nat by lia. cbn [firstn]. now rewrite app_nil_r.
Qed.
Lemma all_held : match open_reader true good_file with Ok r => forallb (holds_b (c_hdr (r_cfg r)) good_file) (node_list good_pages) | _ => false end = true.
Proof. vm_compute. reflexivity. Qed.
Lemma round_storable : storable round_config /\ h_reclen (c_hdr round_config) <= 255.
Proof. split; [apply storable_b_ok|apply Z.leb_le]; vm_compute; reflexivity. Qed.
Lemma good_length : length (node_list good_pages) = 3%nat.
Proof. vm_compute. reflexivity. Qed.
Example C84_nonvacuous : exists f hs r l c0 w r2, copies_from f hs r n_page l /\ Forall (whole_chunk f) l /\ length l = 3%nat /\ copying copy_nodes verbatim n_page l r c0 no_overrides c0 w /\ reader_on (file w) r2 /\ storable c0 /\ h_reclen (c_hdr c0) <= 255 /\ same_meaning (c_hdr (r_cfg r)) (c_hdr c0) /\ Forall (fun n => exists data, chunk_records verbatim (c_hdr (r_cfg r)) f n data) l.
Proof.
  destruct copy_source as (r & O & CF & WH). pose proof copy_runs as K. pose proof same_headers as SH. pose proof all_held as AH. rewrite O in K, SH, AH. destruct round_config_ok as (RD & IW). destruct round_storable as (ST & RL). pose proof good_length as GL.
  revert CF WH K SH AH RD IW ST RL GL. generalize (node_list good_pages) round_config. intros l c CF WH K SH AH RD IW ST RL GL.
  destruct (copy_test_ok r l c no_overrides c _ IW RD K) as (w & CP & OP). apply opens_ok in OP as (r2 & _ & R2). exists good_file, good_pages, r, l, c, w, r2.
  split; [exact CF|]. split; [exact WH|]. split; [exact GL|]. split; [exact CP|]. split; [exact R2|]. split; [exact ST|]. split; [exact RL|]. split; [now apply same_meaning_b_ok|].
  apply Forall_forall. intros n I. rewrite forallb_forall in AH. eexists. apply holds_b_ok. now apply AH.
Qed.
(* AddNodeCompressed does not notice chunks of another point format: a Writer of format 6 takes the chunks of a file of
   format 7, and GetPointData then gives other records *)
Lemma copy_runs_plain : match open_reader true good_file with Ok r => copy_test r (node_list good_pages) plain_config no_overrides (fun w => opens (file w)) | _ => false end = true.
Proof. vm_compute. reflexivity. Qed.
Lemma plain_held : forallb (holds_b (c_hdr plain_config) good_file) (node_list good_pages) = true.
Proof. vm_compute. reflexivity. Qed.
Lemma plain_storable : storable plain_config.
Proof. apply storable_b_ok. vm_compute. reflexivity. Qed.
Lemma good_header : match open_reader true good_file with Ok r => (h_fmt (c_hdr (r_cfg r)) =? 7) && (h_reclen (c_hdr (r_cfg r)) =? 48) | _ => false end = true.
Proof. vm_compute. reflexivity. Qed.
Theorem C84_other_format_refuted : exists cd f hs r l c0 w n r2 r3 r4 data data', lossless cd /\ copies_from f hs r n_page l /\ Forall (whole_chunk f) l /\ copying copy_nodes cd n_page l r c0 no_overrides c0 w /\ In n l /\ reader_on (file w) r2 /\ h_fmt (c_hdr (r_cfg r)) = 7 /\ h_fmt (c_hdr c0) = 6 /\ returns (fun fuel => get_point_data cd fuel (n_key n) r) r3 (Ok data) /\ returns (fun fuel => get_point_data cd fuel (n_key n) r2) r4 (Ok data') /\ length data <> length data'.
Proof.
  destruct copy_source as (r & O & CF & WH). pose proof copy_runs_plain as K. pose proof plain_held as PH. pose proof all_held as AH. pose proof good_header as GH. rewrite O in K, AH, GH. destruct plain_config_ok as (RD & IW). destruct plain_text as (_ & RF & RL). pose proof plain_storable as ST. pose proof good_length as GL.
  revert CF WH K PH AH RD IW ST RL RF GL. generalize (node_list good_pages) plain_config. intros l c CF WH K PH AH RD IW ST RL RF GL. pose proof GL as GL'. apply some_in in GL' as (n & I). apply andb_prop in GH as (GF & GR). apply Z.eqb_eq in GF, GR.
  destruct (copy_test_ok r l c no_overrides c _ IW RD K) as (w & CP & OP). apply opens_ok in OP as (r2 & _ & R2). rewrite forallb_forall in PH, AH. pose proof (holds_b_ok _ _ _ (PH n I)) as C2. pose proof (holds_b_ok _ _ _ (AH n I)) as C1.
  destruct (copy_holds _ _ _ _ _ _ _ _ _ _ _ _ _ CF WH CP I R2 ST ltac:(rewrite GL; lia) ltac:(lia) C2) as (hs2 & m & S2 & L2 & N2 & G2 & SM & H2).
  destruct (data_by_key verbatim _ _ _ hs2 S2 L2 (n_key n) r2 G2) as (A2 & _). destruct (A2 m _ N2 H2) as (r4 & E4 & _).
  pose proof CF as (SR & FL & RO & OK). rewrite Forall_forall in OK, WH. destruct (OK n I) as (SN & CN & _). destruct (data_by_key verbatim _ _ _ good_pages SR FL (n_key n) r (on_good good_file good_pages r SR FL RO)) as (A & _).
  assert (H1 : holds_records verbatim (c_hdr (r_cfg r)) good_file n (firstn (Z.to_nat (e_count (n_entry n) * h_reclen (c_hdr (r_cfg r)))) (chunk_in good_file n))).
  { apply (chunk_holds verbatim good_file good_pages n); [exact SR|exact SN|apply WH; exact I|lia|rewrite GF; lia|rewrite GF, GR; cbn; lia|exact C1]. }
  destruct (A n _ SN H1) as (r3 & E3 & _).
  eexists verbatim, good_file, good_pages, r, l, c, w, n, r2, r3, r4, _, _. split; [exact verbatim_lossless|]. split; [exact CF|]. split; [now apply Forall_forall|]. split; [exact CP|]. split; [exact I|]. split; [exact R2|]. split; [exact GF|]. split; [exact RF|]. split; [exact E3|]. split; [exact E4|].
  destruct C1 as (_ & L1 & _). destruct C2 as (_ & L3 & _). rewrite GR in L1 at 2. rewrite RL in L3 at 2. intros Q. rewrite Q in L1. lia.
Qed.
Print Assumptions C84_other_format_refuted.
