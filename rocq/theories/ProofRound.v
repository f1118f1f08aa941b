(* ProofRound.v - reading back what a Writer wrote *)
From Coq Require Import Permutation.
From Verif Require Import Base BaseFacts ModelFloat ModelKey ModelGeom ModelEntry ModelPoint ModelPoints ModelHeader ModelVlr ModelExtents ModelConfig
  ModelStream ModelWriter ModelReader SpecKey SpecPoint SpecPoints SpecConfig SpecHeader SpecWriter SpecHier SpecFile SpecReader SpecData SpecRound
  ProofPoint ProofPoint2 ProofPoints ProofPoints2 ProofStream ProofWriter ProofWriter2 ProofWriter3 ProofWriter4 ProofClose ProofClose2 ProofSession ProofFile ProofCount ProofResults
  ProofReader3 ProofReader6 ProofData ProofData2 ProofOpen ProofOpen2.

(* ---- the configuration ---- *)
Lemma reader_of_session cd od c v c0 ops l w isf : complete_session cd od c v c0 ops l w -> storable (w_cfg w) -> Z.of_nat (length ops) < 2 ^ 32 - 2 ->
  exists r, open_reader isf (file w) = Ok r /\ reports (w_cfg w) (r_cfg r) /\ describes (file w) (c_hdr (r_cfg r)) /\ fixed_parts c0 (w_cfg w).
Proof.
  intros S (EB & EZ & ET & EX & I1 & I2 & I3 & WK) N. destruct (complete_closed _ _ _ _ _ _ _ _ S) as (w0 & w1 & cs & PG & ws & h & O & R & HS & C & RO & L & AD).
  pose proof (hs_pages _ _ _ _ _ _ HS) as (ND & _ & RT & _). destruct S as (S & E & RD & WF & _).
  assert (PF : (length (w_pages w1) <= Datatypes.S (length ops))%nat).
  { eapply pages_few; eauto. destruct (S) as (w0' & w1' & O' & R' & CL). pose proof (close_ge _ _ _ _ _ CL) as GE. rewrite O in O'. injection O' as <-. rewrite R in R'. injection R' as <-. lia. }
  assert (NP : Z.of_nat (length (w_pages w1)) < 2 ^ 32 - 1) by lia.
  destruct (open_closed _ _ _ _ _ _ _ _ RO C L EB NP ND RT I1 I2 I3 EX ET EZ WK isf) as (r & OP & H & A1 & A2 & A3 & A4). exists r. split; [exact OP|].
  destruct (op_header _ _ _ _ _ _ _ _ C L EB NP ND I1 I2 I3) as (h' & H' & EH). rewrite H in H'. injection H' as HH.
  destruct (cfg_with_parts (w_cfg w1) ws) as (P1 & P2 & P3 & P4). rewrite <- (cl_cfg _ _ _ _ _ _ _ _ C) in *.
  destruct (head_fields _ _ _ _ _ _ _ _ C L) as (F1 & F2 & F3 & F4 & F5). pose proof (cl_ok _ _ _ _ _ _ _ _ C) as OK.
  split; [|split].
  - split; [exact A1|]. split; [exact A2|]. split; [exact A3|]. split; [rewrite A4; unfold seen_exts, same_extents; auto|].
    rewrite HH, EH. unfold same_settings. cbn. pose proof (proj1 OK) as CP. rewrite CP. repeat split.
  - rewrite HH, EH. unfold describes. cbn. rewrite F1, F2, F3, F4, F5. split; [reflexivity|]. split; [|split; [|split; [reflexivity|]]].
    + unfold data_start. rewrite P1, P3, P4. reflexivity.
    + rewrite vlr_recs_count by exact OK. unfold announced_vlrs. destruct (eb_total _ =? 0), (xs_ext _); reflexivity.
    + destruct (evlr_total _ _ _ _ _ _ _ _ C ND) as (T1 & _). rewrite P2, T1. unfold ev_count, to_u. destruct (c_wkt (w_cfg w1)); rewrite ?(Z.mod_small (Z.of_nat (length (w_pages w1)))), ?Z.mod_small; lia.
  - destruct (hs_fix _ _ _ _ _ _ HS) as (X1 & X2 & X3 & X4 & X5 & X6 & X7). unfold fixed_parts. rewrite P1, P2, P3, P4. auto 10.
Qed.

(* ---- the hierarchy ---- *)
Definition seen_in (l : log) (k : key) (n : node) : Prop := exists m p, view_of l k = Some (m, p) /\ n = mkNode (n_entry m) p.
Lemma written_pages cd c0 ops l w : written cd c0 ops l w ->
  exists hs, copc_pages (file w) hs /\ (forall k n, stored_node hs k n <-> seen_in l k n) /\ (forall p, In p (map pi_key hs) <-> page_of_view (view_of l) p).
Proof.
  intros ((od & c & v & S) & ST & PO & L). destruct (hierarchy_in_file _ _ _ _ _ _ _ _ S ST PO) as (hs & H & V1 & V2 & P). exists hs. split; [exact H|]. split; [|exact P].
  assert (IT : forall i, In i hs -> intact i = true). { intros i I. apply forallb_forall. intros e J. now apply (sh_entry _ _ _ _ H i e I J). }
  intros k n. split.
  - intros (i & e & I & _ & J & NS & K & ->). destruct (view_of l k) as [(m, p)|] eqn:V; [|now destruct (V2 _ V _ _ I J NS K)].
    destruct (V1 _ _ _ V) as (_ & _ & _ & U). destruct (U _ _ I J NS K) as (<- & ->). exists m, (pi_key i). auto.
  - intros (m & p & V & ->). destruct (V1 _ _ _ V) as ((i & I & K & J) & E & NS & _). exists i, (n_entry m). rewrite K. auto 10.
Qed.
Lemma reader_cfg f hs r : copc_pages f hs -> Z.of_nat (length f) < 2 ^ 63 -> reader_on f r -> exists isf r0, open_reader isf f = Ok r0 /\ r_cfg r = r_cfg r0.
Proof.
  intros S L (cd & od & isf & r0 & O & A & F). exists isf, r0. split; [exact O|]. destruct (pages_root f hs S L) as (X & Y).
  destruct (used_rinv f _ _ hs (hierarchy_tree _ _ _ _ S) L cd od r0 r (opened_fields isf f r0 O X Y) A) as (_ & G). now apply grows_cfg.
Qed.
Lemma used_config cd c0 ops l w r : written cd c0 ops l w -> storable (w_cfg w) -> Z.of_nat (length ops) < 2 ^ 32 - 2 -> reader_on (file w) r ->
  reports (w_cfg w) (r_cfg r) /\ describes (file w) (c_hdr (r_cfg r)) /\ fixed_parts c0 (w_cfg w).
Proof.
  intros W ST N R. destruct (written_pages _ _ _ _ _ W) as (hs & H & _). destruct W as ((od & c & v & S) & _ & _ & L).
  destruct (reader_cfg _ _ _ H L R) as (isf & r0 & O & ->). destruct (reader_of_session _ _ _ _ _ _ _ _ isf S ST N) as (r1 & O1 & X). rewrite O in O1. injection O1 as ->. exact X.
Qed.

(* ---- the data ---- *)
Lemma add_whole cd k d p w w' m : add_node cd k d p w = (w', Ok m) -> exists q, Z.of_nat (length d) = q * h_reclen (c_hdr (w_cfg w)).
Proof.
  unfold add_node. destruct d as [|z d]; [discriminate|]. set (dd := z :: d) in *. destruct (Z.eqb_spec (h_reclen (c_hdr (w_cfg w))) 0); [discriminate|].
  destruct (Z.eqb_spec (Z.of_nat (length dd) mod h_reclen (c_hdr (w_cfg w))) 0) as [Q|Q]; [|discriminate]. intros _. exists (Z.of_nat (length dd) / h_reclen (c_hdr (w_cfg w))).
  pose proof (Z.div_mod (Z.of_nat (length dd)) (h_reclen (c_hdr (w_cfg w)))). lia.
Qed.
Lemma step_whole cd op w w' n data h : wstep cd op w = (w', Ok (Some n)) -> h_reclen (c_hdr (w_cfg w)) = h_reclen h -> h_scale (c_hdr (w_cfg w)) = h_scale h -> h_offset (c_hdr (w_cfg w)) = h_offset h ->
  stores_records cd h op data -> exists q, Z.of_nat (length data) = q * h_reclen h.
Proof.
  intros E R1 R2 R3 S. unfold wstep, some_node in E. destruct op; cbn [stores_records] in S; try contradiction.
  - subst. destruct (add_node _ _ _ _ _) as (?, [?| |]) eqn:Q; try discriminate. rewrite <- R1. eapply add_whole; eauto.
  - unfold add_node_points in E. destruct (c_pts c); [discriminate|]. destruct (negb _ || negb _); [discriminate|]. rewrite R2, R3, S in E.
    destruct (add_node _ _ _ _ _) as (?, [?| |]) eqn:Q; try discriminate. rewrite <- R1. eapply add_whole; eauto.
  - eexists. apply S.
Qed.
Lemma accepted_whole cd od c v c0 ops l w op n data : complete_session cd od c v c0 ops l w -> In (op, Ok (Some n)) l -> stores_records cd (c_hdr c0) op data ->
  Z.of_nat (length data) = e_count (n_entry n) * h_reclen (c_hdr c0) /\ 
  chunk_of cd (c_hdr c0) op = Some (cd_comp cd (h_fmt (c_hdr c0)) (h_reclen (c_hdr c0) - las_base (h_fmt (c_hdr c0))) data, e_count (n_entry n)).
Proof.
  intros S Hin SR. destruct (chunk_kept _ _ _ _ _ _ _ _ _ _ S Hin) as (x & CO & _). destruct S as ((w0 & w1 & O & R & CL) & E & RD & WF & RO & AD & L).
  pose proof (close_ge _ _ _ _ _ CL) as GE. destruct (open_inv _ _ _ _ O E RD) as (C & G & SS & B & HI). apply in_split in Hin as (l1 & l2 & ->).
  destruct (wrun_split _ _ _ _ _ _ _ R) as (o1 & o2 & wm & wm' & -> & R1 & R2 & R3). cbn [fst snd] in *. specialize (R3 ltac:(discriminate)).
  apply Forall_app in WF as (WF1 & WF2). inversion WF2 as [|? ? W1 W2]; subst.
  pose proof (wrun_grows _ _ _ _ _ (proj1 B) R1) as G1. pose proof (wstep_grows _ _ _ _ _ (proj1 G1) R2) as G2.
  pose proof (wrun_grows _ _ _ _ _ (proj1 G2) R3) as G3. apply grows_le in G2. apply grows_le in G3.
  destruct (run_base _ _ _ _ _ _ _ WF1 SS ltac:(exact G) B R1 ltac:(lia)) as (cs & B1 & CK1 & F1 & CF & _).
  destruct F1 as (X1 & X2 & X3 & X4 & _). destruct (step_whole _ _ _ _ _ data _ R2 X2 X3 X4 SR) as (q & Q).
  assert (RP : 0 < h_reclen (c_hdr (w_cfg w0))) by (destruct (good_eb_size _ G) as (_ & _ & _ & _ & RP); lia). set (h := c_hdr (w_cfg w0)) in *.
  assert (FIN : forall x m, packed_chunk cd h data = (x, m) -> Z.of_nat (length data) = m * h_reclen h /\ x = cd_comp cd (h_fmt h) (h_reclen h - las_base (h_fmt h)) data).
  { intros y m P. unfold packed_chunk in P. pose proof (f_equal snd P) as P2. pose proof (f_equal fst P) as P1. cbn [fst snd] in P1, P2. rewrite <- P1, <- P2, Q. rewrite Z.div_mul by lia. auto. }
  destruct op; cbn [stores_records chunk_of] in SR, CO |- *; try contradiction.
  - subst. pose proof (f_equal (fun o => match o with Some a => a | None => (x, 0) end) CO) as CO'. cbv beta iota in CO'. destruct (FIN _ _ CO') as (Y1 & <-). auto.
  - rewrite SR in *. pose proof (f_equal (fun o => match o with Some a => a | None => (x, 0) end) CO) as CO'. cbv beta iota in CO'. destruct (FIN _ _ CO') as (Y1 & <-). auto.
  - destruct SR as (-> & SR). pose proof (f_equal (fun o => match o with Some a => snd a | None => 0 end) CO) as CO'. cbv beta iota in CO'. cbn [snd] in CO'. rewrite <- CO'. auto.
Qed.
Lemma holds_written cd od c v c0 ops l w op n data : lossless cd -> complete_session cd od c v c0 ops l w -> In (op, Ok (Some n)) l -> stores_records cd (c_hdr c0) op data -> positive op ->
  wf_bytes data -> h_reclen (c_hdr c0) <= 255 -> forall p h, h_fmt h = h_fmt (c_hdr c0) -> h_reclen h = h_reclen (c_hdr c0) -> holds_records cd h (file w) (mkNode (n_entry n) p) data.
Proof.
  intros LS S Hin SR PO WB R255 p g G1 G2. unfold holds_records. rewrite G1, G2. clear g G1 G2. destruct (accepted_whole _ _ _ _ _ _ _ _ _ _ _ S Hin SR) as (LD & CO).
  destruct (complete_closed _ _ _ _ _ _ _ _ S) as (w0 & w1 & cs & PG & ws & h' & O & R & HS & C & RO & L & AD).
  destruct (hs_nodes _ _ _ _ _ _ HS _ _ Hin) as ((k' & p' & A & K' & P' & CO' & K32 & P32 & CR & C0 & CP) & IN & x & CK & PL).
  rewrite CO in CK. injection CK as <-. set (h := c_hdr c0) in *. set (x := cd_comp _ _ _ _) in *.
  assert (0 < e_count (n_entry n)) as CPOS by (destruct op; try discriminate A; try exact CP; cbn [positive] in PO; lia).
  pose proof PL as (pre & post & CS & OF & SZ & LE).
  assert (OFR : 0 <= e_offset (n_entry n) <= Z.of_nat (length (file w)) /\ e_size (n_entry n) = Z.of_nat (length x)).
  { split; [|exact SZ]. pose proof (ds_range _ _ _ _ _ _ _ _ C) as DR. rewrite (hs_start _ _ _ _ _ _ HS) in DR. split; [lia|].
    destruct (table_at _ _ _ _ _ _ _ _ C L) as (_ & _ & TB). rewrite (hs_start _ _ _ _ _ _ HS) in TB.
    assert (TL : Z.of_nat (length (table_bytes cd cs)) > 0) by (unfold table_bytes, enc_u32; rewrite !app_length, !le_enc_length; lia).
    apply (f_equal (fun b => Z.of_nat (length b))) in TB. apply bytes_at_len_le in TB; [|lia..]. rewrite CS, cdata_app, app_length in TB. lia. }
  assert (GE : 6 <= h_fmt h <= 8 /\ las_base (h_fmt h) <= h_reclen h).
  { destruct S as (_ & _ & RD & _). apply ready_ok in RD. destruct (good_eb_size _ RD) as (_ & X & Y & _). unfold h. lia. }
  destruct GE as (GE1 & GE2). split; [exact GE1|]. split; [lia|]. cbn [n_entry]. split; [unfold INT32_MAX; lia|]. split; [lia|]. split; [exact WB|]. split; [exact LD|]. intros _.
  assert (BX : bytes_at (e_offset (n_entry n)) (e_size (n_entry n)) (file w) = x) by (eapply chunk_bytes; [exact C|]; rewrite (hs_start _ _ _ _ _ _ HS); exact PL).
  unfold bytes_at in BX. rewrite <- (firstn_skipn (Z.to_nat (e_size (n_entry n))) (skipn (Z.to_nat (e_offset (n_entry n))) (file w))), BX. unfold x.
  apply LS; [exact GE1|lia|exact CPOS|]. unfold rec_size. rewrite LD. f_equal. lia.
Qed.

(* ---- points ---- *)
Lemma pack_wf p s o b : wf_point p -> point_pack p s o = Ok b -> wf_bytes b.
Proof.
  intros W H. apply point_pack_ok_inv in H as (x & y & z & _ & _ & _ & ->). destruct W as (_ & _ & _ & _ & _ & _ & _ & _ & _ & _ & _ & _ & _ & _ & WB & _).
  unfold enc_i32, enc_u16, enc_u8, enc_i16, enc_f64, enc_u64. rewrite !wf_bytes_app. repeat split; try apply le_enc_wf; try exact WB; destruct (p_has_rgb p), (p_has_nir p); rewrite ?wf_bytes_app; repeat split; try apply le_enc_wf; constructor.
Qed.
Lemma pack_all hp s o : forall l bs ps, Forall wf_point ps -> mapM (hget hp) l = Ok ps -> mapM (fun a => let! p := hget hp a in point_pack p s o) l = Ok bs ->
  Forall2 (fun p b => point_pack p s o = Ok b) ps bs /\ wf_bytes (concat bs).
Proof.
  induction l as [|a l IH]; intros bs ps W P H; cbn [mapM] in *; [injection P as <-; injection H as <-; split; constructor|].
  apply bind_ok in P as (p & P1 & P). apply bind_ok in P as (ps' & P2 & P). injection P as <-. apply bind_ok in H as (b & H1 & H). apply bind_ok in H as (bs' & H2 & H). injection H as <-.
  rewrite P1 in H1. cbn [bind] in H1. inversion W as [|? ? W1 W2]; subst. destruct (IH _ _ W2 P2 H2) as (X & Y). split; [now constructor|]. cbn [concat]. apply wf_bytes_app. split; [eapply pack_wf; eauto|exact Y].
Qed.
Lemma packs_decode h : las_base (h_fmt h) <= h_reclen h -> forall ps bs, Forall2 (fun p b => point_pack p (h_scale h) (h_offset h) = Ok b) ps bs -> Forall wf_point ps ->
  Forall (fun p => p_fmt p = h_fmt h /\ p_reclen p = h_reclen h) ps -> exists qs, decodes_to h (concat bs) qs /\ Forall2 (comes_back (h_scale h) (h_offset h)) ps qs.
Proof.
  intros RL. induction 1 as [|p b ps bs PB _ IH]; intros W U; [exists []; split; [split; [reflexivity|intros [] q Q; discriminate]|constructor]|].
  inversion W as [|? ? W1 W2]; subst. inversion U as [|? ? (U1 & U2) U3]; subst. destruct (IH W2 U3) as (qs & (L & D) & F).
  destruct (unpack_pack _ _ _ _ (concat bs) W1 PB) as (x & y & z & q & X & Y & Z & UN & SA & QX & QY & QZ). exists (q :: qs).
  pose proof (pack_length _ _ _ _ W1 PB) as LB. rewrite U2 in LB. cbn [concat]. split; [split|].
  - rewrite app_length. cbn [length]. lia.
  - intros [|i] r R; cbn [nth_error] in R.
    + injection R as <-. cbn [Nat.mul skipn]. exists (concat bs). destruct W1 as (_ & RR & _). rewrite U1, U2 in *. etransitivity; [|exact UN]. f_equal. lia.
    + destruct (D i r R) as (rest & E). exists rest. rewrite <- E. f_equal. rewrite skipn_app. replace (S i * Z.to_nat (h_reclen h) - length b)%nat with (i * Z.to_nat (h_reclen h))%nat by (cbn; lia).
      rewrite skipn_all2 by (cbn; lia). reflexivity.
  - constructor; [|exact F]. split; [exact SA|]. eauto 12.
Qed.
Lemma uniform_points hp c : Forall wf_point hp -> uniform hp c -> exists ps, mapM (hget hp) (c_pts c) = Ok ps /\ Forall wf_point ps /\ Forall (fun p => p_fmt p = c_fmt c /\ p_reclen p = c_reclen c) ps.
Proof.
  intros W. unfold uniform. induction (c_pts c) as [|a l IH]; intros U; [exists []; repeat split; constructor|].
  destruct (U a (or_introl eq_refl)) as (p & P & F). destruct (IH (fun b B => U b (or_intror B))) as (ps & E & W' & F'). exists (p :: ps). cbn [mapM]. unfold hget at 1. rewrite P. cbn [bind]. rewrite E. cbn [bind].
  split; [reflexivity|]. split; constructor; auto. rewrite Forall_forall in W. apply W. eapply nth_error_In; eauto.
Qed.
Lemma points_come_back h hp c data : Forall wf_point hp -> uniform hp c -> c_fmt c = h_fmt h -> c_reclen c = h_reclen h -> las_base (h_fmt h) <= h_reclen h -> points_pack hp c (h_scale h) (h_offset h) = Ok data ->
  wf_bytes data /\ exists ps qs, mapM (hget hp) (c_pts c) = Ok ps /\ decodes_to h data qs /\ Forall2 (comes_back (h_scale h) (h_offset h)) ps qs.
Proof.
  intros W U F R RL P. destruct (uniform_points hp c W U) as (ps & E & WP & UP). unfold points_pack in P. apply bind_ok in P as (bs & B & P). injection P as <-.
  destruct (pack_all _ _ _ _ _ _ WP E B) as (X & Y). split; [exact Y|]. rewrite F, R in UP. destruct (packs_decode h RL _ _ X WP UP) as (qs & D & G). exists ps, qs. auto.
Qed.
Lemma chunk_within cd od c v c0 ops l w op n p : complete_session cd od c v c0 ops l w -> In (op, Ok (Some n)) l -> whole_chunk (file w) (mkNode (n_entry n) p).
Proof.
  intros S Hin. destruct (complete_closed _ _ _ _ _ _ _ _ S) as (w0 & w1 & cs & PG & ws & h' & O & R & HS & C & RO & L & AD).
  destruct (hs_nodes _ _ _ _ _ _ HS _ _ Hin) as (_ & _ & x & _ & PL). destruct PL as (pre & post & CS & OF & SZ & LE).
  pose proof (ds_range _ _ _ _ _ _ _ _ C) as DR. rewrite (hs_start _ _ _ _ _ _ HS) in DR. unfold whole_chunk. cbn [n_entry]. split; [lia|].
  destruct (table_at _ _ _ _ _ _ _ _ C L) as (_ & _ & TB). rewrite (hs_start _ _ _ _ _ _ HS) in TB.
  assert (TL : Z.of_nat (length (table_bytes cd cs)) > 0) by (unfold table_bytes, enc_u32; rewrite !app_length, !le_enc_length; lia).
  apply (f_equal (fun b => Z.of_nat (length b))) in TB. apply bytes_at_len_le in TB; [|lia..]. rewrite CS, cdata_app, app_length in TB. cbn [cdata flat_map fst] in TB.
  change (cdata ((x, e_count (n_entry n)) :: post)) with (x ++ cdata post) in TB. rewrite app_length in TB. lia.
Qed.
Lemma used_header cd c0 ops l w r : written cd c0 ops l w -> storable (w_cfg w) -> Z.of_nat (length ops) < 2 ^ 32 - 2 -> reader_on (file w) r ->
  let h := c_hdr (r_cfg r) in h_fmt h = h_fmt (c_hdr c0) /\ h_reclen h = h_reclen (c_hdr c0) /\ h_scale h = h_scale (c_hdr c0) /\ h_offset h = h_offset (c_hdr c0).
Proof.
  intros W SB N R. destruct (used_config _ _ _ _ _ _ W SB N R) as ((_ & _ & _ & _ & A4) & _ & (B1 & B2 & B3 & B4 & _)).
  destruct A4 as (_ & _ & _ & _ & _ & _ & _ & E1 & E2 & E3 & E4 & _). cbv zeta. rewrite E1, E2, E3, E4. auto.
Qed.
Lemma op_positive cd od c v c0 ops l w op n : complete_session cd od c v c0 ops l w -> In (op, Ok (Some n)) l -> Forall positive ops -> positive op.
Proof.
  intros S Hin PO. destruct (complete_closed _ _ _ _ _ _ _ _ S) as (w0 & w1 & cs & PG & ws & h & O & R & HS & C & RO & L & AD).
  destruct (hs_nodes _ _ _ _ _ _ HS _ _ Hin) as (_ & IN & _). rewrite Forall_forall in PO. auto.
Qed.
Lemma same_decodes h h' data qs : h_fmt h = h_fmt h' -> h_reclen h = h_reclen h' -> h_scale h = h_scale h' -> h_offset h = h_offset h' -> decodes_to h data qs -> decodes_to h' data qs.
Proof. intros E1 E2 E3 E4 (L & D). unfold decodes_to. rewrite <- E1, <- E2, <- E3, <- E4. split; auto. Qed.
Lemma ready_base cd od c v c0 ops l w : complete_session cd od c v c0 ops l w -> 6 <= h_fmt (c_hdr c0) <= 8 /\ las_base (h_fmt (c_hdr c0)) <= h_reclen (c_hdr c0) <= 65535.
Proof. intros (_ & _ & RD & _). apply ready_ok in RD. destruct (good_eb_size _ RD) as (_ & X & Y & _ & Z'). lia. Qed.
Lemma accepted_points cd od c v c0 ops l w k hp pts page n : complete_session cd od c v c0 ops l w -> In (WAddPoints k hp pts page, Ok (Some n)) l ->
  c_fmt pts = h_fmt (c_hdr c0) /\ c_reclen pts = h_reclen (c_hdr c0) /\ exists data, points_pack hp pts (h_scale (c_hdr c0)) (h_offset (c_hdr c0)) = Ok data.
Proof.
  intros ((w0 & w1 & O & R & CL) & E & RD & WF & RO & AD & L) Hin.
  pose proof (close_ge _ _ _ _ _ CL) as GE. destruct (open_inv _ _ _ _ O E RD) as (C & G & SS & B & HI). apply in_split in Hin as (l1 & l2 & ->).
  destruct (wrun_split _ _ _ _ _ _ _ R) as (o1 & o2 & wm & wm' & -> & R1 & R2 & R3). cbn [fst snd] in *. specialize (R3 ltac:(discriminate)).
  apply Forall_app in WF as (WF1 & WF2). inversion WF2 as [|? ? W1 W2]; subst.
  pose proof (wrun_grows _ _ _ _ _ (proj1 B) R1) as G1. pose proof (wstep_grows _ _ _ _ _ (proj1 G1) R2) as G2.
  pose proof (wrun_grows _ _ _ _ _ (proj1 G2) R3) as G3. apply grows_le in G2. apply grows_le in G3.
  destruct (run_base _ _ _ _ _ _ _ WF1 SS ltac:(exact G) B R1 ltac:(lia)) as (cs & B1 & CK1 & (X1 & X2 & X3 & X4 & _) & CF & _).
  unfold wstep, some_node, add_node_points in R2. destruct (c_pts pts); [discriminate|]. rewrite X1, X2, X3, X4 in R2. set (h := c_hdr (w_cfg w0)) in *.
  destruct (Z.eqb_spec (c_fmt pts) (h_fmt h)) as [E1|]; [|discriminate]. destruct (Z.eqb_spec (c_reclen pts) (h_reclen h)) as [E2|]; [|discriminate]. cbn [negb orb] in R2.
  destruct (points_pack hp pts (h_scale h) (h_offset h)) as [data| |]; try discriminate. eauto.
Qed.
