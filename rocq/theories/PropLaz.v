(* PropLaz.v - C54: what a LazWriter wrote is what a LazReader reads *)
From Verif Require Import Base BaseFacts ModelFloat ModelKey ModelGeom ModelEntry ModelPoint ModelPoints ModelHeader ModelVlr ModelExtents ModelConfig
  ModelStream ModelWriter ModelReader ModelLazReader SpecKey SpecPoint SpecPoints SpecConfig SpecHeader SpecWriter SpecLaz SpecHier SpecFile SpecData SpecRound SpecLazRound
  ProofPoint ProofLaz ProofData ProofRound ProofLazRound SampleWriter SampleReader PropWriter PropData PropRound.

(* ---------------- C54 ---------------- *)
(* the header settings, the WKT and the extra-byte descriptors come back; the computed fields are the file's *)
Theorem C54_config : forall cd z ops l w, laz_session cd z ops l w -> laz_chunks_fit cd (z_hdr z) ops -> laz_storable z ->
  exists r, open_laz_reader (laz_file w) = Ok r /\ z_wkt (lr_cfg r) = z_wkt z /\ z_ebs (lr_cfg r) = z_ebs z /\ laz_settings (z_hdr z) (z_hdr (lr_cfg r)) /\
    describes (laz_file w) (z_hdr (lr_cfg r)) /\ h_pcount (z_hdr (lr_cfg r)) = total_points (laz_chunks cd (z_hdr z) l) mod 2 ^ 64.
Proof.
  intros cd z ops l w S F SB. destruct (laz_opened _ _ _ _ _ S F SB) as (r & O & _ & W & E & ST & _ & D & _ & PC). exists r. split; [exact O|]. split; [exact W|]. split; [|auto].
  rewrite E. destruct SB as (_ & [-> | P] & _); [reflexivity|]. destruct (Z.ltb_spec 0 (eb_total (z_ebs z))); [reflexivity|lia].
Qed.
Print Assumptions C54_config.
(* GetPointData returns the records of every accepted call, in order *)
Theorem C54_records : forall cd used z ops l w datas, lossless cd -> exact cd used -> laz_session cd z ops l w -> laz_chunks_fit cd (z_hdr z) ops -> laz_storable z ->
  h_reclen (z_hdr z) <= 255 -> Forall2 (laz_stores cd (z_hdr z)) (accepted l) datas ->
  exists r, open_laz_reader (laz_file w) = Ok r /\ laz_point_data cd used r = Ok (concat datas).
Proof.
  intros cd used z ops l w datas LS EX S F SB R ST. destruct (laz_opened _ _ _ _ _ S F SB) as (r & O & FF & _ & _ & SE & _ & _ & PO & PC). exists r. split; [exact O|].
  destruct r as (f, (hd, wkt, ebs)). cbn [lr_file lr_cfg z_hdr] in *. subst f. destruct SE as (_ & _ & _ & _ & _ & _ & _ & _ & _ & HF & HR & _).
  exact (laz_fit_of _ _ _ _ _ _ S F LS ST R used EX hd HF HR PO PC wkt ebs).
Qed.
Print Assumptions C54_records.
(* GetPoints decodes them *)
Theorem C54_points_of_records : forall cd used z ops l w datas hp n, lossless cd -> exact cd used -> laz_session cd z ops l w -> laz_chunks_fit cd (z_hdr z) ops -> laz_storable z ->
  h_reclen (z_hdr z) <= 255 -> Forall2 (laz_stores cd (z_hdr z)) (accepted l) datas -> wf_bytes (concat datas) -> Z.of_nat (length (concat datas)) = n * h_reclen (z_hdr z) -> n < 2 ^ 31 ->
  exists r x qs, open_laz_reader (laz_file w) = Ok r /\ laz_points cd used hp r = Ok x /\ has_points (z_hdr z) x qs /\ decodes_to (z_hdr z) (concat datas) qs.
Proof.
  intros cd used z ops l w datas hp n LS EX S F SB R ST WB L N. destruct (C54_records _ used _ _ _ _ _ LS EX S F SB R ST) as (r & O & D). exists r.
  destruct (laz_opened _ _ _ _ _ S F SB) as (r' & O' & _ & _ & _ & SE & _). rewrite O in O'. injection O' as <-. assert (G : laz_ready z) by (destruct S as (? & ? & _ & _ & _ & G & _); exact G).
  destruct (laz_ready_header _ _ G SE) as (F1 & F2). destruct SE as (_ & _ & _ & _ & _ & _ & _ & SC & OF & HF & HR & _).
  destruct (points_of_data cd used hp r (concat datas) n F1 F2 D WB) as (x & qs & E & (P1 & P2 & P3) & DC); [rewrite HR; exact L|unfold INT32_MAX; change (2 ^ 31) with 2147483648 in N; lia|].
  exists x, qs. split; [exact O|]. split; [exact E|]. split; [split; [exact P1|rewrite <- HF, <- HR; auto]|]. eapply same_decodes; eauto.
Qed.
Print Assumptions C54_points_of_records.
(* the points given to the accepted calls come back in order, coordinates rounded to the header's scale and offset *)
Theorem C54_points : forall cd used z ops l w pss hp, lossless cd -> exact cd used -> laz_session cd z ops l w -> laz_chunks_fit cd (z_hdr z) ops -> laz_storable z ->
  h_reclen (z_hdr z) <= 255 -> Forall2 laz_given (accepted l) pss -> Z.of_nat (length (concat pss)) < 2 ^ 31 ->
  exists r x qs, open_laz_reader (laz_file w) = Ok r /\ laz_points cd used hp r = Ok x /\ has_points (z_hdr z) x qs /\
    Forall2 (comes_back (h_scale (z_hdr z)) (h_offset (z_hdr z))) (concat pss) qs.
Proof.
  intros cd used z ops l w pss hp LS EX S F SB R GV N. destruct (given_records _ _ _ _ _ S (accepted l) pss (incl_refl _) GV) as (bss & F1 & F2 & F3 & F4 & F5).
  assert (G : laz_ready z) by (destruct S as (? & ? & _ & _ & _ & G & _); exact G). destruct (laz_eb _ G) as (_ & EB & E2 & RL).
  assert (LB : las_base (h_fmt (z_hdr z)) <= h_reclen (z_hdr z)) by lia. destruct (packs_decode (z_hdr z) LB _ _ F2 F3 F4) as (qs & D & CB).
  assert (LQ : length qs = length (concat pss)) by (symmetry; clear - CB; induction CB; cbn; congruence).
  destruct (C54_points_of_records cd used z ops l w _ hp (Z.of_nat (length (concat pss))) LS EX S F SB R F1) as (r & x & qs' & O & E & HP & DC).
  - rewrite concat_concats. exact F5.
  - rewrite concat_concats. etransitivity; [exact (proj1 D)|now rewrite LQ].
  - exact N.
  - rewrite concat_concats in DC. assert (qs' = qs) as -> by (eapply decodes_unique; [|exact DC|exact D]; lia). exists r, x, qs. auto.
Qed.
Print Assumptions C54_points.

(* the reader's header claims to be COPC *)
Theorem C54_is_copc_refuted : forall cd z ops l w, laz_session cd z ops l w -> laz_chunks_fit cd (z_hdr z) ops -> laz_storable z ->
  exists r, open_laz_reader (laz_file w) = Ok r /\ h_copc (z_hdr (lr_cfg r)) = true /\ h_copc (z_hdr z) = false.
Proof.
  intros cd z ops l w S F SB. destruct (laz_opened _ _ _ _ _ S F SB) as (r & O & _ & _ & _ & _ & CP & _). exists r. split; [exact O|]. split; [exact CP|].
  destruct S as (? & ? & _ & _ & _ & (G & _) & _). exact G.
Qed.
Print Assumptions C54_is_copc_refuted.
(* records longer than 255 bytes overrun a buffer *)
Theorem C54_long_records_refuted : forall cd used z ops l w, laz_session cd z ops l w -> laz_chunks_fit cd (z_hdr z) ops -> laz_storable z -> 255 < h_reclen (z_hdr z) ->
  0 < total_points (laz_chunks cd (z_hdr z) l) < 2 ^ 64 -> exists r, open_laz_reader (laz_file w) = Ok r /\ laz_point_data cd used r = UB.
Proof.
  intros cd used z ops l w S F SB L T. destruct (laz_opened _ _ _ _ _ S F SB) as (r & O & _ & _ & _ & SE & _ & _ & _ & PC). exists r. split; [exact O|].
  destruct r as (f, (hd, wkt, ebs)). cbn [lr_file lr_cfg z_hdr] in *. destruct SE as (_ & _ & _ & _ & _ & _ & _ & _ & _ & HF & HR & _).
  apply (long_records cd used z); auto; [destruct S as (? & ? & _ & _ & _ & G & _); exact G|]. rewrite PC. unfold to_u. now rewrite Z.mod_small by lia.
Qed.
Print Assumptions C54_long_records_refuted.

(* a concrete session *)
Definition laz_b (z : laz_config) (ops : list lop) (test : laz_log -> laz_writer -> bool) : bool :=
  match open_laz_writer None z with
  | Ok w0 => let '(w1, l) := lrun verbatim ops w0 in
      match close_laz verbatim w1 with
      | (w, Ok _) => (Z.of_nat (length (laz_file w)) <? 2 ^ 64) && forallb (fun x => match snd x with UB => false | _ => true end) l && test l w
      | _ => false
      end
  | _ => false
  end.
Lemma laz_b_ok z ops test : laz_ready z -> laz_b z ops test = true -> exists l w, laz_session verbatim z ops l w /\ test l w = true.
Proof.
  intros G H. unfold laz_b in H. destruct (open_laz_writer None z) as [w0| |] eqn:O; try discriminate. destruct (lrun verbatim ops w0) as (w1, l) eqn:R. destruct (close_laz verbatim w1) as (w, [[]| |]) eqn:C; try discriminate.
  apply andb_prop in H as (H & T). apply andb_prop in H as (L & D). apply Z.ltb_lt in L. exists l, w. split; [|exact T]. exists w0, w1. split; [exact O|]. split; [exact R|]. split; [exact C|]. split; [exact G|]. split; [|exact L].
  apply Forall_forall. intros (op, x) I Q. rewrite forallb_forall in D. apply D in I. cbn in *. now subst x.
Qed.
Definition verbatim_used (fmt eb n : Z) (s : bytes) : nat := Z.to_nat (n * rec_size fmt eb).
Lemma verbatim_exact : exact verbatim verbatim_used.
Proof. intros fmt eb n data rest _ _ _ L. unfold verbatim_used. rewrite <- L, Nat2Z.id. reflexivity. Qed.
Definition laz_round_config (ebs : list ebfield) (reclen : Z) : laz_config :=
  mkLaz (mkHdr 7 1 200 2024 (mkVec (f64_of_Z 9) (f64_of_Z 9) (f64_of_Z 9)) zero_vec (repeat 3 15) unit_vec zero_vec 7 reclen 0 0 0 0 0 [71; 72] [73] [74; 75; 76] false) [65; 66] ebs.
Definition laz_round_calls : list lop :=
  [LWrite round_points (mkPoints 7 48 [1; 0; 1]%nat); LWrite round_points (mkPoints 6 48 [1]%nat); LWriteCompressed [7] 0; LWrite round_points (mkPoints 7 48 []); LWrite round_points (mkPoints 7 48 [0]%nat)].
Lemma laz_round_ready ebs reclen : (length ebs < 341)%nat -> Forall (fun e => 0 <= eb_type e <= 30) ebs -> Forall wf_eb ebs -> reclen = 36 + eb_total ebs -> 36 <= reclen < 65536 -> laz_ready (laz_round_config ebs reclen).
Proof.
  intros N T W R B. unfold laz_ready, laz_round_config. cbn [z_hdr z_ebs h_copc h_fmt h_reclen]. split; [reflexivity|]. split; [lia|]. split; [exact T|]. split; [exact R|].
  split; [unfold wf_hdr; cbn; repeat split; try lia; repeat (first [lia | constructor])|]. split; [exact W|lia].
Qed.

Lemma lrun_ops cd ops : forall w w' l, lrun cd ops w = (w', l) -> Forall (fun x => snd x <> UB) l -> map fst l = ops.
Proof.
  induction ops as [|op ops IH]; intros w w' l H N; cbn [lrun] in H; [injection H as <- <-; reflexivity|].
  destruct (lstep cd op w) as (w1, r). assert (R : l = [(op, UB)] \/ exists l2, lrun cd ops w1 = (w', l2) /\ l = (op, r) :: l2).
  { destruct r; [right|right|left]; [destruct (lrun cd ops w1) as (w2, l2); injection H as <- <-; eauto..|now injection H as _ <-]. }
  destruct R as [->|(l2 & R & ->)]; [inversion N as [|? ? N1 _]; cbn in N1; congruence|]. inversion N; subst. cbn [map fst]. f_equal. eauto.
Qed.
Definition code (r : outcome unit) : Z := match r with Ok _ => 0 | Throw => 1 | UB => 2 end.
Definition uncode (c : Z) : outcome unit := if c =? 0 then Ok tt else if c =? 1 then Throw else UB.
Lemma log_known cd z ops l w cs : laz_session cd z ops l w -> same_bytes (map (fun x => code (snd x)) l) cs = true -> l = combine ops (map uncode cs).
Proof.
  intros (w0 & w1 & _ & R & _ & _ & N & _) E. apply same_bytes_eq in E. pose proof (lrun_ops _ _ _ _ _ R N) as M. subst ops cs. clear. induction l as [|(o, r) l IH]; [reflexivity|].
  cbn [map fst snd combine]. rewrite <- IH. destruct r as [[]| |]; reflexivity.
Qed.
Definition laz_compressed_calls : list lop := [LWriteCompressed (repeat 9 96) 2; LWrite round_points (mkPoints 7 48 [1; 0]%nat)].
Lemma fit_b cd h ops : forallb (fun op => match laz_chunk cd h op with Some (b, _) => Z.of_nat (length b) <=? INT32_MAX | None => true end) ops = true -> laz_chunks_fit cd h ops.
Proof. intros H op b n I E. rewrite forallb_forall in H. apply H in I. rewrite E in I. now apply Z.leb_le. Qed.
Lemma eb_ready : laz_ready (laz_round_config [an_eb] 48) /\ laz_storable (laz_round_config [an_eb] 48).
Proof.
  split.
  - apply laz_round_ready; [cbn; lia|repeat constructor; cbn; lia|unfold wf_eb; repeat constructor; cbn; lia|reflexivity|lia].
  - unfold laz_storable, laz_round_config. cbn [z_ebs z_hdr z_wkt h_guid h_sys h_gen]. split; [cbn; lia|]. split; [right; reflexivity|]. split; [repeat constructor; cbn; try lia; discriminate|].
    unfold id_string. repeat split; try (repeat constructor; discriminate); cbn; lia.
Qed.
Example C54_nonvacuous : exists l w pss, lossless verbatim /\ exact verbatim verbatim_used /\ laz_session verbatim (laz_round_config [an_eb] 48) laz_round_calls l w /\
  laz_chunks_fit verbatim (z_hdr (laz_round_config [an_eb] 48)) laz_round_calls /\ laz_storable (laz_round_config [an_eb] 48) /\
  map snd l = [Ok tt; Throw; Throw; Ok tt; Ok tt] /\ Forall2 laz_given (accepted l) pss /\ length (concat pss) = 4%nat.
Proof.
  destruct eb_ready as (G & SB).
  destruct (laz_b_ok (laz_round_config [an_eb] 48) laz_round_calls (fun l w => same_bytes (map (fun x => code (snd x)) l) [0; 1; 1; 0; 0])) as (l & w & S & T); [exact G|vm_compute; reflexivity|].
  pose proof (log_known _ _ _ _ _ _ S T) as L. 
  exists l, w, [[nth 1 round_points (nth 0 round_points (mkPoint 0 0 f0 f0 f0 0 0 0 0 0 0 0 f0 0 0 0 0 false false [])); nth 0 round_points (mkPoint 0 0 f0 f0 f0 0 0 0 0 0 0 0 f0 0 0 0 0 false false []); nth 1 round_points (mkPoint 0 0 f0 f0 f0 0 0 0 0 0 0 0 f0 0 0 0 0 false false [])]; []; [nth 0 round_points (mkPoint 0 0 f0 f0 f0 0 0 0 0 0 0 0 f0 0 0 0 0 false false [])]].
  split; [apply verbatim_lossless|]. split; [apply verbatim_exact|]. split; [exact S|]. split; [apply fit_b; vm_compute; reflexivity|]. split; [exact SB|]. rewrite L.
  assert (W : Forall wf_point round_points) by (unfold round_points, wf_point; repeat constructor; cbn; try lia).
  split; [reflexivity|]. split; [|reflexivity]. unfold laz_round_calls. cbn [map combine uncode Z.eqb]. change (accepted _) with [LWrite round_points (mkPoints 7 48 [1; 0; 1]%nat); LWrite round_points (mkPoints 7 48 []); LWrite round_points (mkPoints 7 48 [0]%nat)].
  constructor; [|constructor; [|constructor; [|constructor]]]; (split; [reflexivity|]; split; [exact W|]; intros a I; cbn [c_pts In] in I).
  - repeat (destruct I as [<-|I]; [eexists; split; [reflexivity|split; reflexivity]|]). destruct I.
  - destruct I.
  - repeat (destruct I as [<-|I]; [eexists; split; [reflexivity|split; reflexivity]|]). destruct I.
Qed.
Example C54_compressed_nonvacuous : exists l w datas, laz_session verbatim (laz_round_config [an_eb] 48) laz_compressed_calls l w /\
  laz_chunks_fit verbatim (z_hdr (laz_round_config [an_eb] 48)) laz_compressed_calls /\
  Forall2 (laz_stores verbatim (z_hdr (laz_round_config [an_eb] 48))) (accepted l) datas /\ wf_bytes (concat datas) /\ length (concat datas) = 192%nat.
Proof.
  destruct eb_ready as (G & SB).
  destruct (laz_b_ok (laz_round_config [an_eb] 48) laz_compressed_calls (fun l w => same_bytes (map (fun x => code (snd x)) l) [0; 0])) as (l & w & S & T); [exact G|vm_compute; reflexivity|].
  pose proof (log_known _ _ _ _ _ _ S T) as L.
  assert (P : match points_pack round_points (mkPoints 7 48 [1; 0]%nat) (h_scale (z_hdr (laz_round_config [an_eb] 48))) (h_offset (z_hdr (laz_round_config [an_eb] 48))) with Ok d => (length d =? 96)%nat && forallb (fun b => (0 <=? b) && (b <? 256)) d | _ => false end = true) by (vm_compute; reflexivity).
  assert (E : forall o : outcome bytes, match o with Ok d => (length d =? 96)%nat && forallb (fun b => (0 <=? b) && (b <? 256)) d | _ => false end = true -> exists data, o = Ok data /\ length data = 96%nat /\ wf_bytes data).
  { intros [d| |] Q; try discriminate. apply andb_prop in Q as (Q1 & Q2). exists d. split; [reflexivity|]. split; [now apply Nat.eqb_eq|]. apply Forall_forall. intros b I. rewrite forallb_forall in Q2. apply Q2 in I. cbv beta; lia. }
  destruct (E (points_pack round_points (mkPoints 7 48 [1; 0]%nat) (h_scale (z_hdr (laz_round_config [an_eb] 48))) (h_offset (z_hdr (laz_round_config [an_eb] 48)))) P) as (data & E' & LD & WD). clear E P. exists l, w, [repeat 9 96; data]. split; [exact S|]. split; [apply fit_b; vm_compute; reflexivity|]. rewrite L.
  split; [|split].
  - unfold laz_compressed_calls. cbn [map combine uncode Z.eqb]. change (accepted _) with [LWriteCompressed (repeat 9 96) 2; LWrite round_points (mkPoints 7 48 [1; 0]%nat)].
    constructor; [|constructor; [|constructor]]; [split; [reflexivity|split; [vm_compute; reflexivity|lia]]|exact E'].
  - cbn [concat]. rewrite app_nil_r. apply wf_bytes_app. split; [repeat constructor; lia|exact WD].
  - cbn [concat]. rewrite app_nil_r, app_length, repeat_length, LD. reflexivity.
Qed.
(* descriptors that describe no bytes are lost *)
Theorem C54_no_bytes_refuted : exists z ops l w r, laz_session verbatim z ops l w /\ laz_chunks_fit verbatim (z_hdr z) ops /\ z_ebs z = [no_bytes_eb] /\
  open_laz_reader (laz_file w) = Ok r /\ z_ebs (lr_cfg r) = [].
Proof.
  assert (G : laz_ready (laz_round_config [no_bytes_eb] 36)) by (apply laz_round_ready; [cbn; lia|repeat constructor; cbn; lia|unfold wf_eb; repeat constructor; cbn; lia|reflexivity|lia]).
  destruct (laz_b_ok (laz_round_config [no_bytes_eb] 36) [LWriteCompressed (repeat 9 72) 2] (fun l w => true)) as (l & w & S & T); [exact G|vm_compute; reflexivity|].
  assert (F : laz_chunks_fit verbatim (z_hdr (laz_round_config [no_bytes_eb] 36)) [LWriteCompressed (repeat 9 72) 2]) by (apply fit_b; vm_compute; reflexivity).
  destruct (laz_opened' _ _ _ _ _ S F) as (r & O & _ & _ & E & _).
  - cbn; lia.
  - repeat constructor; cbn; try lia; discriminate.
  - unfold laz_round_config; cbn [z_hdr h_guid]. split; [repeat constructor; cbn; lia|cbn; lia].
  - unfold laz_round_config; cbn [z_hdr h_sys]. split; [repeat constructor; cbn; lia|cbn; lia].
  - unfold laz_round_config; cbn [z_hdr h_gen]. split; [repeat constructor; cbn; lia|cbn; lia].
  - cbn; lia.
  - exists (laz_round_config [no_bytes_eb] 36), [LWriteCompressed (repeat 9 72) 2], l, w, r. split; [exact S|]. split; [exact F|]. split; [reflexivity|]. split; [exact O|]. exact E.
Qed.
Print Assumptions C54_no_bytes_refuted.
