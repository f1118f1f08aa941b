(* PropExport.v - C93: writing the nodes of a COPC file into a LAZ file *)
From Verif Require Import Base BaseFacts ModelFloat ModelKey ModelGeom ModelEntry ModelPoint ModelPoints ModelHeader ModelVlr ModelExtents ModelConfig
  ModelStream ModelWriter ModelReader ModelLazReader ModelExport SpecKey SpecPoint SpecPoints SpecConfig SpecHeader SpecWriter SpecHier SpecFile SpecReader SpecData SpecRound SpecLaz SpecLazRound SpecCopy SpecTotal SpecExport
  ProofPoint ProofPoints ProofStream ProofWriter ProofWriter2 ProofWriter4 ProofClose2 ProofSession ProofResults ProofReject ProofCount ProofData ProofData2 ProofReader6 ProofRound ProofMp2 ProofMp3 ProofCopy ProofTrim ProofLaz ProofLazRound ProofExport
  SampleWriter SampleReader PropWriter PropReader PropData PropRound PropLaz PropCopy.
Open Scope Z_scope.

(* ---- C93 ---- *)
(* the LAZ file has the points of the nodes, and the records that GetPointData gave for each, node after node *)
Theorem C93_records : forall cd used f hs r l z w D, exports_from f hs r l -> exporting (export_nodes cd l) cd r z w -> lossless cd -> laz_storable z -> h_reclen (z_hdr z) <= 255 ->
  h_fmt (z_hdr z) = h_fmt (c_hdr (r_cfg r)) -> h_reclen (z_hdr z) = h_reclen (c_hdr (r_cfg r)) ->
  Forall (fun n => chunk_records cd (c_hdr (r_cfg r)) f n (D n) /\ chunk_exact used (c_hdr (r_cfg r)) f n) l ->
  (forall n, In n l -> get_point_data_node cd n r = (r, Ok (D n))) /\
  exists lr, open_laz_reader (laz_file w) = Ok lr /\ laz_point_data cd used lr = Ok (concat (map D l)) /\ h_pcount (z_hdr (lr_cfg lr)) = point_total l mod 2 ^ 64.
Proof.
  intros cd used f hs r l z w D (SR & FL & RO & F) EX LS SB R255 HF HR CR. destruct (export_session f hs r SR FL RO cd l z w F EX) as (S & FIT).
  assert (G : laz_ready z) by (destruct S as (? & ? & _ & _ & _ & G & _); exact G). destruct (laz_eb _ G) as (_ & EB & E2 & RL). pose proof G as (_ & F6 & _).
  split.
  - intros n I. rewrite Forall_forall in F, CR. destruct (F n I) as (SN & C & W). destruct (good_data f hs r (source_good f hs r SR FL RO)) as (RD & RF). destruct (stored_facts f hs n SR SN) as (V & _).
    apply (data_ok cd f n (D n) r RD RF FL V). apply (chunk_holds cd f hs); auto; [lia|rewrite <- HF; exact F6|rewrite <- HF, <- HR; lia|apply (CR n I)].
  - destruct (laz_opened _ _ _ _ _ S FIT SB) as (lr & O & FF & _ & _ & SE & _ & _ & PO & PC). exists lr. split; [exact O|].
    assert (LG : laz_chunks cd (z_hdr z) (map (fun n => (export_op f n, Ok tt)) l) = map (fun n => (chunk_in f n, e_count (n_entry n))) l) by apply export_log.
    split; [|rewrite PC, LG, export_total; reflexivity].
    destruct lr as (fl, (hd, wkt, ebs)). cbn [lr_file lr_cfg z_hdr] in *. subst fl. destruct SE as (_ & _ & _ & _ & _ & _ & _ & _ & _ & HF' & HR' & _).
    eapply laz_read_gen; eauto; [exact (proj2 LS)|]. rewrite LG. rewrite HF, HR. clear - F CR SR.
    induction F as [|n l N F IH]; cbn [map]; constructor; [|apply IH; now apply Forall_inv_tail in CR]. pose proof (Forall_inv CR) as ((_ & L & X) & U). pose proof (export_count f hs SR n N) as C. unfold INT32_MAX in C.
    split; [cbn [snd]; lia|]. split; [exact L|]. intros rest. split; [apply X|apply U].
Qed.
Print Assumptions C93_records.
(* GetPoints of the LazReader gives the points that GetPoints gave for each node, node after node *)
Theorem C93_points : forall cd used f hs r l z w P hp, exports_from f hs r l -> exporting (export_nodes cd l) cd r z w -> lossless cd -> laz_storable z -> h_reclen (z_hdr z) <= 255 ->
  same_meaning (c_hdr (r_cfg r)) (z_hdr z) -> point_total l < 2 ^ 31 ->
  Forall (fun n => (exists data, chunk_records cd (c_hdr (r_cfg r)) f n data /\ decodes_to (c_hdr (r_cfg r)) data (P n)) /\ chunk_exact used (c_hdr (r_cfg r)) f n) l ->
  (forall n hp', In n l -> exists x, get_points_node cd hp' n r = (r, Ok x) /\ has_points (c_hdr (r_cfg r)) x (P n)) /\
  exists lr x, open_laz_reader (laz_file w) = Ok lr /\ laz_points cd used hp lr = Ok x /\ has_points (c_hdr (r_cfg r)) x (flat_map P l).
Proof.
  intros cd used f hs r l z w P hp XF EX LS SB R255 (M1 & M2 & M3 & M4) CT CR. pose proof XF as (SR & FL & RO & F).
  assert (DD : exists D, Forall (fun n => chunk_records cd (c_hdr (r_cfg r)) f n (D n) /\ decodes_to (c_hdr (r_cfg r)) (D n) (P n)) l).
  { exists (fun n => match cd_decomp cd (h_fmt (c_hdr (r_cfg r))) (h_reclen (c_hdr (r_cfg r)) - las_base (h_fmt (c_hdr (r_cfg r)))) (e_count (n_entry n)) (chunk_in f n ++ []) with Some d => d | None => [] end).
    eapply Forall_impl; [|exact CR]. cbv beta. intros n ((d & A & B) & _). pose proof A as (_ & _ & Q). rewrite (Q []). auto. }
  destruct DD as (D & DD).
  assert (CR' : Forall (fun n => chunk_records cd (c_hdr (r_cfg r)) f n (D n) /\ chunk_exact used (c_hdr (r_cfg r)) f n) l).
  { rewrite Forall_forall in *. intros n I. split; [apply (DD n I)|apply (CR n I)]. }
  destruct (C93_records cd used f hs r l z w D XF EX LS SB R255 M1 M2 CR') as (GD & lr & O & PD & _).
  destruct (export_session f hs r SR FL RO cd l z w F EX) as (S & FIT). assert (G : laz_ready z) by (destruct S as (? & ? & _ & _ & _ & G & _); exact G). destruct (laz_eb _ G) as (_ & EB & E2 & RL). pose proof G as (_ & F6 & _).
  destruct (laz_opened _ _ _ _ _ S FIT SB) as (lr' & O' & _ & _ & _ & SE & _). assert (lr' = lr) as -> by congruence. destruct (laz_ready_header _ _ G SE) as (P1 & P2). destruct SE as (_ & _ & _ & _ & _ & _ & _ & SC & OF & HF & HR & _).
  pose proof (las_base_range (h_fmt (z_hdr z))) as LB. split.
  - intros n hp' I. rewrite Forall_forall in F, DD. destruct (F n I) as (SN & C & W). destruct (DD n I) as (A & B). destruct (good_data f hs r (source_good f hs r SR FL RO)) as (RD & RF). destruct (stored_facts f hs n SR SN) as (V & _).
    destruct (points_ok cd f n (P n) r hp' RD RF FL V) as (E & _).
    { exists (D n). split; [|exact B]. apply (chunk_holds cd f hs); auto; [lia|rewrite <- M1; exact F6|rewrite <- M1, <- M2; lia]. }
    eexists. split; [exact E|]. split; [cbn [fst snd c_pts]; apply hget_fresh|split; reflexivity].
  - assert (WB : wf_bytes (concat (map D l))) by (apply wf_concat; eapply Forall_impl; [|exact DD]; cbv beta; intros n ((A & _) & _); exact A).
    assert (LN : Z.of_nat (length (concat (map D l))) = point_total l * h_reclen (c_hdr (r_cfg r))) by (apply length_concat; eapply Forall_impl; [|exact DD]; cbv beta; intros n ((_ & A & _) & _); exact A).
    destruct (points_of_data cd used hp lr (concat (map D l)) (point_total l) P1 P2 PD WB) as (x & qs & E & (Q1 & Q2 & Q3) & DC); [congruence|unfold INT32_MAX; change (2 ^ 31) with 2147483648 in CT; lia|].
    exists lr, x. split; [exact O|]. split; [exact E|]. assert (R0 : 0 < h_reclen (c_hdr (r_cfg r))) by (rewrite <- M2; lia).
    assert (DC' : decodes_to (c_hdr (r_cfg r)) (concat (map D l)) (flat_map P l)) by (apply decodes_concat; [exact R0|]; eapply Forall_impl; [|exact DD]; cbv beta; tauto).
    assert (qs = flat_map P l) as ->. { eapply decodes_unique; [|exact DC|]; [rewrite HR, M2; exact R0|]. eapply same_decodes; [..|exact DC']; congruence. }
    split; [exact Q1|]. split; congruence.
Qed.
Print Assumptions C93_points.
(* LazWriter(out, reader.CopcConfig()): the LAZ file has the WKT, the extra bytes and the header settings of the source *)
Theorem C93_configuration : forall cd f hs r l w, exports_from f hs r l -> exporting (export_nodes cd l) cd r (laz_of_copc (r_cfg r)) w -> laz_storable (laz_of_copc (r_cfg r)) ->
  exists lr, open_laz_reader (laz_file w) = Ok lr /\ z_wkt (lr_cfg lr) = c_wkt (r_cfg r) /\ z_ebs (lr_cfg lr) = c_ebs (r_cfg r) /\ laz_settings (c_hdr (r_cfg r)) (z_hdr (lr_cfg lr)) /\
    same_meaning (c_hdr (r_cfg r)) (z_hdr (lr_cfg lr)) /\ same_meaning (c_hdr (r_cfg r)) (z_hdr (laz_of_copc (r_cfg r))).
Proof.
  intros cd f hs r l w (SR & FL & RO & F) EX SB. destruct (export_session f hs r SR FL RO cd l _ w F EX) as (S & FIT). destruct (C54_config _ _ _ _ _ S FIT SB) as (lr & O & W & E & ST & _).
  exists lr. split; [exact O|]. split; [exact W|]. split; [exact E|]. split; [exact ST|]. split; [|repeat split]. destruct ST as (_ & _ & _ & _ & _ & _ & _ & A & B & C & D & _). repeat split; assumption.
Qed.
Print Assumptions C93_configuration.
(* a configuration that is ready for a Writer is ready for a LazWriter *)
Theorem C93_ready : forall c, ready c -> storable c -> laz_ready (laz_of_copc c) /\ laz_storable (laz_of_copc c).
Proof.
  intros c RD (EB & EZ & ET & _ & I1 & I2 & I3 & WK). pose proof (ready_header _ RD) as (_ & _ & WH). destruct RD as ((_ & F6 & _ & _ & _ & TY & RL) & _ & _ & WE). split.
  - split; [reflexivity|]. split; [exact F6|]. split; [exact TY|]. split; [exact RL|]. split; [exact WH|]. split; [exact WE|]. cbn [laz_of_copc laz_writer_config z_ebs]. lia.
  - split; [exact EB|]. split; [exact EZ|]. split; [exact ET|]. auto.
Qed.
Print Assumptions C93_ready.
(* neither the loop nor Close throws, for at most 2^32 - 1 nodes *)
Theorem C93_succeeds : forall cd f hs r l z w0, exports_from f hs r l -> open_laz_writer None z = Ok w0 -> laz_ready z -> laz_start z + 8 + 2 ^ 31 * Z.of_nat (length l) < 2 ^ 64 ->
  exists w1, export_nodes cd l r w0 = (r, w1, Ok tt) /\
  forall w o, Z.of_nat (length l) < 2 ^ 32 -> close_laz cd w1 = (w, o) -> Z.of_nat (length (laz_file w)) < 2 ^ 63 -> o = Ok tt /\ exporting (export_nodes cd l) cd r z w.
Proof.
  intros cd f hs r l z w0 (SR & FL & RO & F) O G SM. destruct (laz_open_inv _ _ O G) as (CF & ST & B). assert (L0 : Z.of_nat (length (laz_file w0)) = laz_start z + 8) by (destruct B as (_ & D & _); unfold laz_file; rewrite D, app_length, zeros_length; cbn [cdata map concat length]; lia).
  destruct (export_succeeds f hs r SR FL RO cd l w0 F (proj1 B)) as (w1 & E & L1); [lia|lia|]. exists w1. split; [exact E|].
  intros w o LL CL LW. assert (o = Ok tt) as ->; [|split; [reflexivity|exists w0, w1, r; auto 10]].
  destruct (export_run f hs r SR FL RO cd l w0 r w1 F E) as (_ & R). pose proof (export_fit f hs SR cd (z_hdr z) l F) as FIT.
  assert (GE : Z.of_nat (length (laz_file w1)) < 2 ^ 64) by lia.
  rewrite <- CF in G. destruct (lrun_spec _ _ _ _ _ _ _ ST G B R GE) as (cs & B1 & CF1 & X). cbn [app] in B1. rewrite CF in X. specialize (X FIT). rewrite (export_log f) in X. subst cs.
  destruct (close_laz_spec cd w1 (map (fun n => (chunk_in f n, e_count (n_entry n))) l) w o) as [(_ & Y)|(Y & _)]; [now rewrite CF1| |exact CL|lia| |exact Y]; [rewrite CF1, CF; exact B1|]. rewrite map_length in Y. unfold UINT32_MAX in Y. lia.
Qed.
Print Assumptions C93_succeeds.
(* the chunks of files that this library wrote are decompressed exactly *)
Theorem C93_own_chunks : forall cd used c0 ops lg w op n p data, exact cd used -> written cd c0 ops lg w -> In (op, Ok (Some n)) lg -> stores_records cd (c_hdr c0) op data ->
  chunk_exact used (c_hdr c0) (file w) (mkNode (n_entry n) p).
Proof.
  intros cd used c0 ops lg w op n p data LS ((od & c & v & CS) & _ & PO & _) I SRD. destruct (accepted_whole _ _ _ _ _ _ _ _ _ _ _ CS I SRD) as (LD & CO). destruct (chunk_kept _ _ _ _ _ _ _ _ _ _ CS I) as (x & CO' & _ & _ & BX).
  destruct (ready_base _ _ _ _ _ _ _ _ CS) as (F6 & RB). intros rest. unfold chunk_in. cbn [n_entry]. rewrite BX. rewrite CO in CO'. assert (x = cd_comp cd (h_fmt (c_hdr c0)) (h_reclen (c_hdr c0) - las_base (h_fmt (c_hdr c0))) data) as -> by congruence.
  destruct (complete_closed _ _ _ _ _ _ _ _ CS) as (w0 & w1 & cs & PG & ws & h' & O & R & HS & C & RO & L & AD). destruct (hs_nodes _ _ _ _ _ _ HS _ _ I) as ((k' & p' & A & K' & P' & CO2 & K32 & P32 & CR & C0 & CP) & IN & _).
  pose proof (op_positive _ _ _ _ _ _ _ _ _ _ CS I PO) as PS. assert (0 < e_count (n_entry n)) as CPOS by (destruct op; try discriminate A; try exact CP; cbn [positive] in PS; lia).
  apply LS; [exact F6|lia|exact CPOS|unfold rec_size; rewrite LD; f_equal; lia].
Qed.
Print Assumptions C93_own_chunks.
(* WritePoints(reader.GetPoints(node)) for each node: the points come back in order, coordinates rounded to the scale and
   offset of the LAZ file, and unchanged if these are the source's and give every stored coordinate back *)
Theorem C93_through_points : forall cd used f hs r l z w P hp hp', copc_pages f hs -> Z.of_nat (length f) < 2 ^ 63 -> reader_on f r -> Forall (fun n => stored_nodes hs n /\ node_points cd (c_hdr (r_cfg r)) f n (P n)) l ->
  Forall wf_point hp -> exporting (export_points cd l hp) cd r z w -> lossless cd -> exact cd used -> laz_storable z -> h_reclen (z_hdr z) <= 255 -> Z.of_nat (length (flat_map P l)) < 2 ^ 31 ->
  exists lr x qs, open_laz_reader (laz_file w) = Ok lr /\ laz_points cd used hp' lr = Ok x /\ has_points (z_hdr z) x qs /\
    Forall2 (comes_back (h_scale (z_hdr z)) (h_offset (z_hdr z))) (flat_map P l) qs /\
    (same_meaning (c_hdr (r_cfg r)) (z_hdr z) -> exact_region (h_scale (c_hdr (r_cfg r))) (h_offset (c_hdr (r_cfg r))) -> qs = flat_map P l).
Proof.
  intros cd used f hs r l z w P hp hp' SR FL RO F W EX LS XA SB R255 LN. destruct (points_session cd f hs r P SR FL RO l hp z w F EX) as (S & FIT).
  assert (G : laz_ready z) by (destruct S as (? & ? & _ & _ & _ & G & _); exact G). destruct (laz_eb _ G) as (_ & EB & E2 & RL).
  pose proof (points_given cd f hs r P l hp F W) as GV. rewrite flat_map_concat_map in *. pose proof GV as GV'. rewrite <- (accepted_all (point_ops _ P hp l)) in GV' at 1.
  destruct (C54_points cd used z _ _ w (map P l) hp' LS XA S FIT SB R255 GV' LN) as (lr & x & qs & O & E & HP & CB). exists lr, x, qs. split; [exact O|]. split; [exact E|]. split; [exact HP|]. split; [exact CB|].
  intros SM ER. destruct (points_stored cd f hs r P z ER SM l hp F) as (datas & ST & WB & DC). pose proof ST as ST'. rewrite <- (accepted_all (point_ops _ P hp l)) in ST' at 1. rewrite <- flat_map_concat_map in LN |- *.
  destruct (C54_points_of_records cd used z _ _ w datas hp' (Z.of_nat (length (flat_map P l))) LS XA S FIT SB R255 ST' WB (proj1 DC) LN) as (lr' & x' & qs' & O' & E' & (Q & _) & DC').
  assert (lr' = lr) as -> by congruence. assert (x' = x) as -> by congruence. destruct HP as (Q' & _). assert (qs = qs') as -> by congruence. eapply decodes_unique; [|exact DC'|exact DC]. lia.
Qed.
Print Assumptions C93_through_points.
(* a node without points ends the loop with an exception *)
Definition empty_draft : draft := [(root_key, [inl (chunk_at 0 2 (at_key root_key)); inl (at_key c1)])].
Definition empty_file : bytes := Eval vm_compute in draft_file good_base empty_draft.
Definition empty_pages : list page_info := Eval vm_compute in draft_pages good_base empty_draft.
Theorem C93_empty_node_refuted : exists f hs r n, copc_pages f hs /\ Z.of_nat (length f) < 2 ^ 63 /\ reader_on f r /\ stored_nodes hs n /\ whole_chunk f n /\ e_count (n_entry n) = 0 /\
  forall cd l w, export_nodes cd (n :: l) r w = (r, w, Throw).
Proof.
  destruct (opens_ok empty_file ltac:(vm_compute; reflexivity)) as (r & _ & R). exists empty_file, empty_pages, r, (mkNode (at_key c1) root_key).
  assert (S : copc_pages empty_file empty_pages) by (apply hierarchy_b_ok; vm_compute; reflexivity). assert (L : Z.of_nat (length empty_file) < 2 ^ 63) by (vm_compute; reflexivity).
  assert (N : stored_nodes empty_pages (mkNode (at_key c1) root_key)) by (apply node_list_in_rev; [vm_compute; reflexivity|]; vm_compute; auto).
  assert (W : whole_chunk empty_file (mkNode (at_key c1) root_key)) by (split; vm_compute; discriminate).
  revert S L N W R. generalize empty_file empty_pages. intros f hs S L N W R. split; [exact S|]. split; [exact L|]. split; [exact R|]. split; [exact N|]. split; [exact W|]. split; [reflexivity|].
  intros cd l w. cbn [export_nodes]. rewrite (export_chunk f hs r S L R _ N W). cbn [lstep at_key n_entry e_count]. reflexivity.
Qed.
Print Assumptions C93_empty_node_refuted.

(* ---- three nodes of a COPC file ---- *)
Definition export_test (loop : reader -> laz_writer -> reader * laz_writer * outcome unit) (r : reader) (z : laz_config) (test : laz_writer -> bool) : bool :=
  match open_laz_writer None z with
  | Ok w0 => match loop r w0 with
             | (_, w1, Ok tt) => match close_laz verbatim w1 with (w, Ok tt) => (Z.of_nat (length (laz_file w)) <? 2 ^ 63) && test w | _ => false end
             | _ => false end
  | _ => false end.
Lemma export_test_ok loop r z test : laz_ready z -> export_test loop r z test = true -> exists w, exporting loop verbatim r z w /\ test w = true.
Proof.
  intros G H. unfold export_test in H. destruct (open_laz_writer None z) as [w0| |] eqn:O; try discriminate H. destruct (loop r w0) as ((r', w1), [[]| |]) eqn:E; try discriminate H.
  destruct (close_laz verbatim w1) as (w, [[]| |]) eqn:C; try discriminate H. apply andb_prop in H as (L & T). apply Z.ltb_lt in L. exists w. split; [|exact T]. exists w0, w1, r'. auto.
Qed.
Lemma export_runs : match open_reader true good_file with Ok r => export_test (export_nodes verbatim (node_list good_pages)) r (laz_of_copc round_config) (fun _ => true) && export_test (export_points verbatim (node_list good_pages) []) r (laz_of_copc round_config) (fun _ => true) | _ => false end = true.
Proof. vm_compute. reflexivity. Qed.
(* the chunks hold exactly the records *)
Definition exact_b (h : las_header) (f : bytes) (n : node) : bool := (Z.of_nat (length (chunk_in f n)) =? e_count (n_entry n) * rec_size (h_fmt h) (h_reclen h - las_base (h_fmt h))).
Lemma exact_b_ok h f n : exact_b h f n = true -> chunk_exact verbatim_used h f n.
Proof. unfold exact_b. intros H rest. apply Z.eqb_eq in H. unfold verbatim_used. rewrite <- H. apply Nat2Z.id. Qed.
Lemma all_exact : match open_reader true good_file with Ok r => forallb (exact_b (c_hdr (r_cfg r)) good_file) (node_list good_pages) | _ => false end = true.
Proof. vm_compute. reflexivity. Qed.
Lemma all_whole : Forall (fun n => stored_nodes good_pages n /\ 0 < e_count (n_entry n) /\ whole_chunk good_file n) (node_list good_pages).
Proof.
  destruct copy_source as (r & _ & (_ & _ & _ & F) & W). rewrite Forall_forall in *. intros n I. destruct (F n I) as (A & B & _). split; [exact A|]. split; [exact B|]. now apply W.
Qed.
Example C93_nonvacuous : exists f hs r l z w w2 P, exports_from f hs r l /\ length l = 3%nat /\ exporting (export_nodes verbatim l) verbatim r z w /\ exporting (export_points verbatim l []) verbatim r z w2 /\ laz_storable z /\ h_reclen (z_hdr z) <= 255 /\
  same_meaning (c_hdr (r_cfg r)) (z_hdr z) /\ lossless verbatim /\ exact verbatim verbatim_used /\ Forall (fun n => node_points verbatim (c_hdr (r_cfg r)) f n (P n)) l /\
  Forall (fun n => (exists data, chunk_records verbatim (c_hdr (r_cfg r)) f n data /\ decodes_to (c_hdr (r_cfg r)) data (P n)) /\ chunk_exact verbatim_used (c_hdr (r_cfg r)) f n) l.
Proof.
  destruct good_ok as (r & hb & S & L & O & R & PH & RD & _). pose proof export_runs as K. pose proof same_headers as SH. pose proof all_held as AH. pose proof all_exact as AE. rewrite O in K, SH, AH, AE. destruct round_config_ok as (RDY & _). destruct round_storable as (ST & RL). pose proof good_length as GL. pose proof all_whole as AW.
  destruct (C93_ready _ RDY ST) as (LR & LS). cbv zeta in *. change (h_reclen (c_hdr round_config)) with (h_reclen (z_hdr (laz_of_copc round_config))) in RL. apply same_meaning_b_ok in SH.
  assert (SM : same_meaning (c_hdr (r_cfg r)) (z_hdr (laz_of_copc round_config))) by exact SH.
  revert S L O R PH RD K SM AH AE RL GL AW LR LS. generalize (laz_of_copc round_config). clear. generalize (node_list good_pages). generalize good_pages good_file. intros hs f l z S L O R PH RD K SM AH AE RL GL AW LR LS.
  apply andb_prop in K as (K1 & K2). destruct (export_test_ok _ r z _ LR K1) as (w & E1 & _), (export_test_ok _ r z _ LR K2) as (w2 & E2 & _). exists f, hs, r, l, z, w, w2, (points_of (c_hdr (r_cfg r)) f).
  assert (NP : Forall (fun n => node_points verbatim (c_hdr (r_cfg r)) f n (points_of (c_hdr (r_cfg r)) f n)) l) by (rewrite Forall_forall in *; intros n I; apply RD; now apply (AW n I)).
  split; [split; [exact S|split; [exact L|split; [exact R|exact AW]]]|]. split; [exact GL|]. split; [exact E1|]. split; [exact E2|]. split; [exact LS|]. split; [exact RL|]. split; [exact SM|]. split; [apply verbatim_lossless|]. split; [apply verbatim_exact|]. split; [exact NP|].
  apply Forall_forall. intros n I. rewrite forallb_forall in AH, AE. rewrite Forall_forall in NP, AW. split; [|apply exact_b_ok; now apply AE]. pose proof (holds_b_ok _ _ _ (AH n I)) as CR. eexists. split; [exact CR|].
  destruct (NP n I) as (data & HR & D). destruct (AW n I) as (_ & C & (W1 & W2)). destruct CR as (A1 & A2 & A3). pose proof HR as (_ & _ & _ & _ & _ & _ & DD). specialize (DD C).
  rewrite <- (firstn_skipn (Z.to_nat (e_size (n_entry n))) (skipn (Z.to_nat (e_offset (n_entry n))) f)) in DD. change (firstn (Z.to_nat (e_size (n_entry n))) (skipn (Z.to_nat (e_offset (n_entry n))) f)) with (chunk_in f n) in DD. rewrite A3 in DD.
  assert (EQ : data = firstn (Z.to_nat (e_count (n_entry n) * h_reclen (c_hdr (r_cfg r)))) (chunk_in f n)) by congruence. rewrite <- EQ. exact D.
Qed.
