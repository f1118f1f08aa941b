(* PropMp3.v - C56: exceptions, closing, and concrete transformations *)
From Coq Require Import Permutation.
From Verif Require Import Base BaseFacts ModelFloat ModelKey ModelGeom ModelEntry ModelPoint ModelPoints ModelHeader ModelVlr ModelExtents ModelConfig
  ModelStream ModelWriter ModelReader ModelPickle ModelMp SpecKey SpecPoint SpecPoints SpecConfig SpecWriter SpecHier SpecFile SpecReader SpecData SpecRound SpecReject SpecMp
  ProofFloat ProofGeom ProofKey ProofPickle ProofPoint ProofPoints ProofConfig ProofStream ProofWriter ProofWriter2 ProofWriter4 ProofData ProofReader4 ProofReader6 ProofOpen ProofRound ProofMp ProofMp2 ProofMp3 ProofMp4 ProofMp5
  SampleWriter SampleReader PropWriter PropReader PropData PropRound PropMp SampleMp PropMp2.
Open Scope Z_scope.

(* and closing the Writer afterwards succeeds too *)
Theorem C56_close_succeeds : forall cd f hs h P p od nodes res r l tf c0 T upd chunk c v w0 w1 wod w o',
  transforms cd f hs h P p od nodes res r l tf (c_hdr c0) T -> 0 < chunk -> open_writer None c v = Ok w0 -> init_writer c v = Ok c0 -> ready c0 -> reorders wod -> Z.of_nat (length l) < 2 ^ 25 - 1 ->
  (upd = false -> ordered_bounds (c_hdr c0)) -> transform_copc cd tf upd od nodes res chunk r p w0 w1 (Ok tt) -> close cd wod w1 = (w, o') -> Z.of_nat (length (file w)) < 2 ^ 64 -> o' = Ok tt.
Proof. exact closing_succeeds. Qed.
Print Assumptions C56_close_succeeds.

Lemma write_compressed_ub cd h data count b : snd (write_chunk cd h data count true b) <> UB.
Proof. unfold write_chunk. cbv zeta. destruct (_ <=? 0); [discriminate|]. destruct (_ <=? 0); [discriminate|]. destruct (_ <? _); discriminate. Qed.
Lemma store_ub cd (d : done) s : snd (store (add_to_copc cd) d s) <> UB.
Proof.
  unfold store. destruct (0 <? dn_count d); [|discriminate]. cbv zeta. unfold add_to_copc. destruct (INT32_MAX <? dn_count d); [discriminate|]. unfold add_node_compressed. destruct (dn_count d =? 0); [discriminate|].
  unfold do_add_node. destruct (_ || _); [discriminate|]. destruct (negb _); [discriminate|]. pose proof (write_compressed_ub cd (c_hdr (w_cfg (fst s))) (dn_data d) (dn_count d) (w_base (fst s))) as U.
  destruct (write_chunk cd (c_hdr (w_cfg (fst s))) (dn_data d) (dn_count d) true (w_base (fst s))) as (b, [((off, size), n)| |]); [discriminate|discriminate|]. contradiction U. reflexivity.
Qed.
Lemma job_ub cd tf upd hw x n y ps : 6 <= h_fmt hw <= 8 -> las_base (h_fmt hw) <= h_reclen hw < 65536 -> wf_entry (n_entry n) = true -> wf_key (n_page n) = true ->
  tf x n hw = Ok y -> points_in y ps -> points_pack (fst y) (snd y) (h_scale hw) (h_offset hw) <> UB -> transform_job cd tf upd hw x n <> UB.
Proof.
  intros F R W1 W2 TY PS PU. unfold transform_job. rewrite TY. cbn [bind]. cbv zeta. pose proof (points_in_length _ _ PS) as LP.
  assert (B : exists bo, (if upd && (0 <? Z.of_nat (length (c_pts (snd y)))) then let! b := node_bounds y in Ok (Some b) else Ok None) = Ok bo).
  { destruct (upd && _) eqn:E; [|eauto]. apply andb_prop in E as (_ & E). apply Z.ltb_lt in E. destruct (bounds_succeed y ps PS) as (b & ->); [intros ->; cbn [length] in LP; lia|]. cbn [bind]. eauto. }
  destruct B as (bo & B). rewrite B. cbn [bind]. destruct (points_pack _ _ _ _) as [data| |]; [|discriminate|contradiction]. cbn [bind]. rewrite eb_size_is by auto. cbn [bind].
  assert (30 <= las_base (h_fmt hw)) by (assert (D : h_fmt hw = 6 \/ h_fmt hw = 7 \/ h_fmt hw = 8) by lia; destruct D as [D|[D|D]]; rewrite D; cbn; lia).
  unfold compress_bytes. rewrite point_byte_size_ok by auto. cbn [bind]. cbv zeta. rewrite to_u_id by lia. replace (las_base (h_fmt hw) + (h_reclen hw - las_base (h_fmt hw))) with (h_reclen hw) by lia.
  destruct (Z.eqb_spec (h_reclen hw) 0); [lia|]. destruct (negb _); [clear; cbn [bind]; discriminate|]. destruct (INT32_MAX <? Z.of_nat (length data)); [clear; cbn [bind]; discriminate|]. cbn [bind]. unfold ship_bytes. rewrite pickle_bytes. cbn [bind]. rewrite ship_node_ok by assumption. clear; cbn [bind]; discriminate.
Qed.
Lemma stored_wf f hs n : copc_pages f hs -> stored_nodes hs n -> wf_entry (n_entry n) = true /\ wf_key (n_page n) = true.
Proof. intros S N. destruct (stored_facts f hs n S N) as (_ & A & B & _). auto. Qed.

(* an exception of the user's function, or of packing the points it returns, ends the call with an exception *)
Theorem C56_exceptions : forall cd f hs h P p od nodes res r l tf upd chunk c v c0 w0 w1 o,
  source cd f hs h P -> fresh_pool f p -> selects od nodes res r l -> Forall (stored_nodes hs) l -> picklable (c_hdr c0) -> 0 < chunk -> open_writer None c v = Ok w0 -> init_writer c v = Ok c0 -> ready c0 ->
  (exists n, In n l /\ (tf (loaded h (P n)) n (c_hdr c0) = Throw \/ exists y, tf (loaded h (P n)) n (c_hdr c0) = Ok y /\ points_pack (fst y) (snd y) (h_scale (c_hdr c0)) (h_offset (c_hdr c0)) = Throw)) ->
  (forall n, In n l -> tf (loaded h (P n)) n (c_hdr c0) <> UB) ->
  (forall n y, In n l -> tf (loaded h (P n)) n (c_hdr c0) = Ok y -> (exists ps, points_in y ps) /\ points_pack (fst y) (snd y) (h_scale (c_hdr c0)) (h_offset (c_hdr c0)) <> UB) ->
  transform_copc cd tf upd od nodes res chunk r p w0 w1 o -> o = Throw.
Proof.
  intros cd f hs h P p od nodes res r l tf upd chunk c v c0 w0 w1 o SR FP SL FS PK N OW IW RD (n & I & TH) TU PU TR.
  destruct (open_spec _ _ _ OW) as (c1 & E1 & CF & _). assert (c1 = c0) as -> by congruence. clear E1.
  destruct (pool_reader cd f hs h P p SR FP) as (r0 & SP & D & RF & CH). unfold transform_copc in TR. rewrite CF in TR. destruct TR as (w2 & bs & LP & _).
  destruct (ready_header _ RD) as (F6 & RB & WH).
  refine (loop_throws _ (store (add_to_copc cd)) r0 (stored_nodes hs) _ (fun m M => transform_task_ok cd tf upd _ f hs h _ r0 m SR D RF CH PK M) od nodes res chunk r p _ _ o l SP FS _ _ (store_ub cd) SL N LP).
  - exists n. split; [exact I|]. unfold transform_job. destruct TH as [->|(y & TY & PT)]; [reflexivity|]. rewrite TY. cbn [bind]. cbv zeta. destruct (PU n y I TY) as ((ps & PS) & _). pose proof (points_in_length _ _ PS) as LP'.
    destruct (upd && _) eqn:E.
    + apply andb_prop in E as (_ & E). apply Z.ltb_lt in E. destruct (bounds_succeed y ps PS) as (b & ->); [intros ->; cbn [length] in LP'; lia|]. cbn [bind]. now rewrite PT.
    + cbn [bind]. now rewrite PT.
  - intros m M. cbv beta. destruct (tf (loaded h (P m)) m (c_hdr c0)) as [y| |] eqn:TY; [|unfold transform_job; rewrite TY; discriminate|now apply TU in M].
    destruct (PU m y M TY) as ((ps & PS) & U). rewrite Forall_forall in FS. destruct (stored_wf f hs m (proj1 SR) (FS m M)) as (W1 & W2). eapply job_ub; eauto.
Qed.
Print Assumptions C56_exceptions.

(* A Writer whose GUID is not UTF-8 text: its header cannot be pickled, and every call throws *)
Theorem C56_binary_guid : forall cd f hs h P p od nodes res r l tf upd chunk (w0 w1 : writer) o,
  source cd f hs h P -> fresh_pool f p -> selects od nodes res r l -> Forall (stored_nodes hs) l -> l <> [] -> 0 < chunk -> utf8_dec (h_guid (c_hdr (w_cfg w0))) = None ->
  transform_copc cd tf upd od nodes res chunk r p w0 w1 o -> o = Throw.
Proof.
  intros cd f hs h P p od nodes res r l tf upd chunk w0 w1 o SR FP SL FS NE N GU (w2 & bs & LP & _). destruct (pool_reader cd f hs h P p SR FP) as (r0 & SP & _).
  assert (TK : forall n, stored_nodes hs n -> transform_task cd tf upd (c_hdr (w_cfg w0)) n r0 = (r0, Throw)).
  { intros n M. unfold transform_task. rewrite (stored_ship f hs n (proj1 SR) M). cbn [bind]. unfold ship_header. rewrite pickle_header_not_utf8 by exact GU. reflexivity. }
  refine (loop_throws _ (store (add_to_copc cd)) r0 (stored_nodes hs) (fun _ => Throw) TK od nodes res chunk r p _ _ o l SP FS _ _ (store_ub cd) SL N LP).
  - destruct l as [|n l]; [contradiction|]. exists n. split; [now left|reflexivity].
  - intros m _. discriminate.
Qed.
Print Assumptions C56_binary_guid.
(* the bindings do not convert the GUID to text only when asked: False of the code for the binary GUIDs of real files *)
Definition with_guid (g : bytes) (h : las_header) : las_header :=
  mkHdr (h_src h) (h_enc h) (h_day h) (h_year h) (h_max h) (h_min h) (h_pbr h) (h_scale h) (h_offset h) (h_fmt h) (h_reclen h) (h_pcount h) (h_poff h) (h_vlrs h) (h_evoff h) (h_evcnt h)
    g (h_sys h) (h_gen h) (h_copc h).
Definition guid_config (c : config) : config := mkCfg (with_guid [200; 1; 2; 3] (c_hdr c)) (c_wkt c) (c_ebs c) (c_info c) (c_exts c).

Definition guid_packs (f : bytes) (r : reader) (c : config) (l : list node) : bool :=
  forallb (fun n => match points_pack (points_of (c_hdr (r_cfg r)) f n) (snd (loaded (c_hdr (r_cfg r)) (points_of (c_hdr (r_cfg r)) f n))) (h_scale (c_hdr c)) (h_offset (c_hdr c)) with
     | Ok data => (Z.of_nat (length data) mod h_reclen (c_hdr c) =? 0) && (Z.of_nat (length data) <=? INT32_MAX) && (Z.of_nat (length (cd_comp verbatim (h_fmt (c_hdr c)) (h_reclen (c_hdr c) - las_base (h_fmt (c_hdr c))) data)) <=? INT32_MAX)
        && (Z.of_nat (length (points_of (c_hdr (r_cfg r)) f n)) <=? INT32_MAX)
     | _ => false end) l.
Lemma guid_packs_ok f r c l n : guid_packs f r c l = true -> In n l -> packable verbatim (c_hdr c) (loaded (c_hdr (r_cfg r)) (points_of (c_hdr (r_cfg r)) f n)).
Proof.
  unfold guid_packs. rewrite forallb_forall. intros H I. apply H in I. unfold packable, loaded in *. cbn [fst snd c_pts] in *. destruct (points_pack _ _ _ _) as [data| |]; [|discriminate..].
  apply andb_prop in I as (I & I4). apply andb_prop in I as (I & I3). apply andb_prop in I as (I1 & I2). rewrite Z.eqb_eq in I1. rewrite Z.leb_le in *. rewrite seq_length. eauto 10.
Qed.
Lemma after_open f (t : reader -> bool) : match open_reader true f with Ok r => t r | _ => false end = true -> exists r, open_reader true f = Ok r /\ t r = true.
Proof. destruct (open_reader true f); [eauto|discriminate..]. Qed.
Lemma round_text : picklable (c_hdr round_config) /\ h_fmt (c_hdr round_config) = 7 /\ h_reclen (c_hdr round_config) = 48 /\ storable round_config.
Proof.
  destruct round_config_ok as (RD & _). destruct (ready_header _ RD) as (_ & _ & WH).
  assert (E : (length (h_guid (c_hdr round_config)) <=? 16)%nat && (length (h_sys (c_hdr round_config)) <=? 32)%nat && (length (h_gen (c_hdr round_config)) <=? 32)%nat &&
    match utf8_dec (h_guid (c_hdr round_config)), utf8_dec (h_sys (c_hdr round_config)), utf8_dec (h_gen (c_hdr round_config)) with Some _, Some _, Some _ => true | _, _, _ => false end &&
    (h_fmt (c_hdr round_config) =? 7) && (h_reclen (c_hdr round_config) =? 48) && storable_b round_config = true) by (vm_compute; reflexivity).
  revert WH E. generalize round_config. intros c WH E. apply andb_prop in E as (E & E7). apply andb_prop in E as (E & E6). apply andb_prop in E as (E & E5). apply andb_prop in E as (E & E4). apply andb_prop in E as (E & E3). apply andb_prop in E as (E1 & E2).
  apply Nat.leb_le in E1, E2, E3. apply Z.eqb_eq in E5, E6. apply storable_b_ok in E7. split; [|auto]. split; [exact WH|]. split; [exact E1|]. split; [exact E2|]. split; [exact E3|].
  destruct (utf8_dec (h_guid (c_hdr c))), (utf8_dec (h_sys (c_hdr c))), (utf8_dec (h_gen (c_hdr c))); try discriminate. repeat split; discriminate.
Qed.
Lemma guid_ready c : ready c -> ready (guid_config c) /\ init_writer (guid_config c) no_overrides = Ok (guid_config c).
Proof.
  intros (G & W & I & E). assert (G' : good_config (guid_config c)) by exact G. split; [|now apply init_writer_none]. split; [exact G'|]. split; [|split; [exact I|exact E]].
  destruct W as (W1 & W2 & W3 & W4 & W5 & W6 & W7 & W8 & W9 & W10 & W11 & W12 & W13 & W14 & W15 & W16). unfold wf_hdr, guid_config, with_guid. cbn [c_hdr h_src h_enc h_day h_year h_pbr h_fmt h_reclen h_pcount h_poff h_vlrs h_evoff h_evcnt h_guid h_sys h_gen].
  do 13 (split; [assumption|]). split; [unfold wf_bytes; repeat constructor; lia|]. split; assumption.
Qed.
(* three nodes, points that the Writer can store, a GUID whose first byte is 200: nothing can be transformed *)
Theorem C56_binary_guid_refuted : exists cd f hs h P p r l c0 w0, source cd f hs h P /\ fresh_pool f p /\ selects in_order (Some l) (f64_of_Z (-1)) r l /\ Forall (stored_nodes hs) l /\ length l = 3%nat /\
  ready c0 /\ open_writer None c0 no_overrides = Ok w0 /\ init_writer c0 no_overrides = Ok c0 /\ h_guid (c_hdr c0) = [200; 1; 2; 3] /\ (forall n, In n l -> packable cd (c_hdr c0) (loaded h (P n))) /\
  forall upd chunk w1 o, 0 < chunk -> transform_copc cd copy_points upd in_order (Some l) (f64_of_Z (-1)) chunk r p w0 w1 o -> o = Throw.
Proof.
  destruct good_ok as (r & hb & S & L & O & R & _ & RD & _). cbv zeta in RD. set (h := c_hdr (r_cfg r)) in *.
  assert (SR : source verbatim good_file good_pages h (points_of h good_file)) by (split; [exact S|]; split; [exact L|]; split; [exists r; split; [exact O|reflexivity]|exact RD]).
  assert (FP : fresh_pool good_file (fun _ => r)) by (intros i; exact O).
  assert (FS : Forall (stored_nodes good_pages) (node_list good_pages)) by (apply Forall_forall; intros n I; apply node_list_in_rev; [vm_compute; reflexivity|exact I]).
  assert (LL : length (node_list good_pages) = 3%nat) by (vm_compute; reflexivity).
  destruct (guid_ready _ (proj1 round_config_ok)) as (GR & GI).
  assert (PA : match open_reader true good_file with Ok r => guid_packs good_file r (guid_config round_config) (node_list good_pages) | _ => false end = true) by (vm_compute; reflexivity). rewrite O in PA.
  assert (OW : exists w0, open_writer None (guid_config round_config) no_overrides = Ok w0).
  { assert (E : match open_writer None (guid_config round_config) no_overrides with Ok _ => true | _ => false end = true) by (vm_compute; reflexivity). revert E. generalize (open_writer None (guid_config round_config) no_overrides). intros [w| |] E; [eauto|discriminate..]. }
  destruct OW as (w0 & OW). revert FS LL PA. generalize (node_list good_pages). intros l FS LL PA.
  exists verbatim, good_file, good_pages, h, (points_of h good_file), (fun _ => r), r, l, (guid_config round_config), w0.
  split; [exact SR|]. split; [exact FP|]. split; [apply given_selects|]. split; [exact FS|]. split; [exact LL|]. split; [exact GR|]. split; [exact OW|]. split; [exact GI|]. split; [reflexivity|]. split; [intros n I; exact (guid_packs_ok _ _ _ _ n PA I)|].
  intros upd chunk w1 o N T. refine (C56_binary_guid _ _ _ _ _ _ _ _ _ _ _ _ _ _ _ _ _ SR FP (given_selects _ _ _) FS _ N _ T); [intros ->; discriminate|].
  destruct (open_spec _ _ _ OW) as (c1 & E1 & CF & _). assert (c1 = guid_config round_config) as -> by congruence. rewrite CF. vm_compute. reflexivity.
Qed.
Print Assumptions C56_binary_guid_refuted.
(* a program that copies the sample file, and one whose function returns points of another format *)
Lemma sample_setup : exists r, let h := c_hdr (r_cfg r) in open_reader true good_file = Ok r /\ source verbatim good_file good_pages h (points_of h good_file) /\ Forall (stored_nodes good_pages) (node_list good_pages) /\ reader_on good_file r.
Proof.
  destruct good_ok as (r & hb & S & L & O & R & _ & RD & _). cbv zeta in RD. exists r. cbv zeta. split; [exact O|]. split; [split; [exact S|]; split; [exact L|]; split; [exists r; split; [exact O|reflexivity]|exact RD]|]. split; [|exact R].
  apply Forall_forall; intros n I; apply node_list_in_rev; [vm_compute; reflexivity|exact I].
Qed.
Definition wf_point_b (p : point) : bool :=
  (6 <=? p_fmt p) && (p_fmt p <=? 8) && (p_reclen p =? las_base (p_fmt p) + Z.of_nat (length (p_eb p))) && (Z.of_nat (length (p_eb p)) <=? 65535) &&
  forallb (fun x => (fst (fst x) <=? snd (fst x)) && (snd (fst x) <? snd x)) [(0, p_intensity p, 65536); (0, p_returns p, 256); (0, p_flags p, 256); (0, p_class p, 256); (0, p_user p, 256); (-32768, p_angle p, 32768); (0, p_src p, 65536);
    (0, p_red p, 65536); (0, p_green p, 65536); (0, p_blue p, 65536); (0, p_nir p, 65536)] && forallb (fun b => (0 <=? b) && (b <? 256)) (p_eb p) && Bool.eqb (p_has_rgb p) (7 <=? p_fmt p) && Bool.eqb (p_has_nir p) (p_fmt p =? 8).
Lemma wf_point_b_ok p : wf_point_b p = true -> wf_point p.
Proof.
  unfold wf_point_b. intros H. apply andb_prop in H as (H & H8). apply andb_prop in H as (H & H7). apply andb_prop in H as (H & H6). apply andb_prop in H as (H & H5). apply andb_prop in H as (H & H4). apply andb_prop in H as (H & H3). apply andb_prop in H as (H1 & H2).
  cbn [forallb fst snd] in H5. repeat (apply andb_prop in H5 as (?H & H5)). repeat match goal with A : (_ <=? _) && _ = true |- _ => apply andb_prop in A as (?A & ?A) end. apply Bool.eqb_prop in H7, H8.
  rewrite ?Z.leb_le, ?Z.ltb_lt, ?Z.eqb_eq in *. unfold wf_point. repeat (split; [first [lia|assumption]|]). split; [|auto]. apply Forall_forall. intros b B. rewrite forallb_forall in H6. apply H6 in B. apply andb_prop in B as (A & B). rewrite Z.leb_le, Z.ltb_lt in *. lia.
Qed.
Definition fits_b (h : las_header) (c : config) (ps : list point) : bool := (h_fmt h =? h_fmt (c_hdr c)) && (h_reclen h =? h_reclen (c_hdr c)) && forallb (fun p => wf_point_b p && (p_fmt p =? h_fmt h) && (p_reclen p =? h_reclen h)) ps.
Lemma fits_b_ok h c ps : fits_b h c ps = true -> fits_header (c_hdr c) (loaded h ps).
Proof.
  unfold fits_b. intros H. apply andb_prop in H as (H & H3). apply andb_prop in H as (H1 & H2). apply Z.eqb_eq in H1, H2. rewrite forallb_forall in H3. unfold fits_header, loaded. cbn [fst snd c_fmt c_reclen]. split; [exact H1|]. split; [exact H2|].
  assert (Q : forall p, In p ps -> wf_point p /\ p_fmt p = h_fmt h /\ p_reclen p = h_reclen h). { intros p I. apply H3 in I. apply andb_prop in I as (I & I3). apply andb_prop in I as (I1 & I2). apply wf_point_b_ok in I1. apply Z.eqb_eq in I2, I3. auto. }
  split; [apply Forall_forall; intros p I; now apply Q|]. intros a A. cbn [c_pts c_fmt c_reclen] in *. apply in_seq in A. destruct (nth_error ps a) as [p|] eqn:E; [|apply nth_error_None in E; lia]. exists p. split; [reflexivity|]. apply nth_error_In in E. now apply Q in E.
Qed.
Definition nan_free_b (ps : list point) : bool := forallb (fun p => negb (fnan (p_x p)) && negb (fnan (p_y p)) && negb (fnan (p_z p))) ps.
Lemma nan_free_ok ps : nan_free_b ps = true -> no_nan ps.
Proof. unfold nan_free_b, no_nan. rewrite forallb_forall, Forall_forall. intros H p I. apply H in I. apply andb_prop in I as (I & A). apply andb_prop in I as (I & B). apply negb_true_iff in I, A, B. auto. Qed.
Lemma all_loaded h (P : node -> list point) l T : (forall n, In n l -> copy_points (loaded h (P n)) n h = Ok (T n)) -> all_points l T (flat_map P l).
Proof.
  intros H. exists (map P l). split; [|apply flat_map_concat_map]. induction l as [|n l IH]; [constructor|]. cbn [map]. constructor; [|apply IH; intros m M; apply H; now right].
  assert (E : T n = loaded h (P n)) by (pose proof (H n (or_introl eq_refl)) as X; unfold copy_points in X; congruence). rewrite E. exact (loaded_points h (P n)).
Qed.
Lemma same_ok {A} (o : outcome A) a b : o = Ok a -> o = Ok b -> a = b.
Proof. congruence. Qed.
Lemma copied : forall upd, match open_reader true good_file with
  | Ok r => let h := c_hdr (r_cfg r) in run_check good_file (node_list good_pages) r copy_points upd round_config (fun w => opens (file w)) && guid_packs good_file r round_config (node_list good_pages) &&
      forallb (fun n => fits_b h round_config (points_of h good_file n) && nan_free_b (points_of h good_file n)) (node_list good_pages)
  | _ => false end = true.
Proof. intros [|]; vm_compute; reflexivity. Qed.
Lemma flat_no_nan (P : node -> list point) l : Forall (fun n => no_nan (P n)) l -> no_nan (flat_map P l).
Proof. intros F. unfold no_nan. apply Forall_flat_map. exact F. Qed.
Example C56_nonvacuous : forall upd, exists cd f hs h P p r l T c0 w r', transforms cd f hs h P p in_order (Some l) (f64_of_Z (-1)) r l copy_points (c_hdr c0) T /\
  transform_program cd copy_points upd in_order (Some l) (f64_of_Z (-1)) 2 r p c0 no_overrides c0 w /\ reader_on (file w) r' /\ lossless cd /\ storable c0 /\ h_reclen (c_hdr c0) <= 255 /\ Z.of_nat (length l) < 2 ^ 25 - 1 /\
  (forall n, In n l -> fits_header (c_hdr c0) (T n) /\ packable cd (c_hdr c0) (T n)) /\ (exists n, In n l /\ length (c_pts (snd (T n))) = 3%nat) /\ (exists ps, all_points l T ps /\ no_nan ps /\ ps <> []).
Proof.
  intros upd. destruct sample_setup as (r & O & SR & FS & R). cbv zeta in SR. pose proof (copied upd) as K. rewrite O in K. cbv zeta in K. set (h := c_hdr (r_cfg r)) in *. apply andb_prop in K as (K & K3). apply andb_prop in K as (K1 & K2).
  destruct round_text as (PK & RF & RL & SB). destruct round_config_ok as (RD & RI). assert (X : exists n, In n (node_list good_pages) /\ length (points_of h good_file n) = 3%nat).
  { destruct good_ok as (r1 & hb & _ & _ & O1 & _ & _ & _ & _ & _ & _ & (n & N & LN) & _). rewrite (same_ok _ _ _ O1 O) in LN. exists n. split; [now apply node_list_in|exact LN]. }
  assert (LL : Z.of_nat (length (node_list good_pages)) < 2 ^ 25 - 1) by (vm_compute; reflexivity).
  revert FS K1 K2 K3 X LL RD RI PK RF RL SB. generalize (node_list good_pages) round_config. intros l c FS K1 K2 K3 (n & I & LN) LL RD RI PK RF RL SB.
  destruct (run_check_ok good_file good_pages r l copy_points upd c _ 2 O SR FS PK RD RI ltac:(lia) K1) as (T & w & TR & TP & OP & TF). apply opens_ok in OP as (r' & _ & R').
  assert (TE : forall m, In m l -> T m = loaded h (points_of h good_file m)) by (intros m M; symmetry; exact (same_ok (copy_points (loaded h (points_of h good_file m)) m (c_hdr c)) _ _ eq_refl (TF m M))).
  rewrite forallb_forall in K3. assert (K4 : forall m, In m l -> fits_b h c (points_of h good_file m) = true /\ nan_free_b (points_of h good_file m) = true) by (intros m M; apply K3 in M; now apply andb_prop in M).
  exists verbatim, good_file, good_pages, h, (points_of h good_file), (fun _ => r), r, l, T, c, w, r'. split; [exact TR|]. split; [exact TP|]. split; [exact R'|]. split; [exact verbatim_lossless|]. split; [exact SB|]. split; [lia|]. split; [exact LL|]. split; [|split].
  - intros m M. rewrite (TE m M). split; [apply fits_b_ok; now apply K4|]. exact (guid_packs_ok _ _ _ _ m K2 M).
  - exists n. split; [exact I|]. rewrite (TE n I). cbn [loaded snd c_pts]. rewrite seq_length. exact LN.
  - exists (flat_map (points_of h good_file) l). split; [|split].
    + apply (all_loaded h). intros m M. rewrite (TE m M). reflexivity.
    + apply flat_no_nan. apply Forall_forall. intros m M. apply nan_free_ok. now apply K4.
    + intros E. assert (L0 : length (points_of h good_file n) = 0%nat); [|lia]. destruct (points_of h good_file n) as [|q qs] eqn:Q; [reflexivity|]. exfalso. assert (J : In q (flat_map (points_of h good_file) l)) by (apply in_flat_map; exists n; split; [exact I|rewrite Q; now left]). rewrite E in J. exact J.
Qed.
(* False of the code when the function returns points of another record length: five points of 36 bytes are stored in
   a file of 30-byte records as a node of 5 points whose chunk is 6 records *)
Definition plain_config : config := match new_config 6 unit_vec zero_vec [] [] false with Ok c => c | _ => a_config end.
Lemma plain_config_ok : ready plain_config /\ init_writer plain_config no_overrides = Ok plain_config.
Proof.
  destruct (fresh_ready 6 unit_vec zero_vec [] [] false) as (c & E & R & I); [lia|repeat constructor|repeat constructor|cbn; lia|vm_compute; reflexivity|]. unfold plain_config. rewrite E. auto.
Qed.
Definition other_points : node_data := (repeat (mkPoint 7 36 f1 f1 f1 1 2 3 4 5 6 7 f0 65535 2 3 4 true false []) 5, mkPoints 7 36 [0; 1; 2; 3; 4]%nat).
Definition to_other (_ : node_data) (_ : node) (_ : las_header) : outcome node_data := Ok other_points.
Lemma plain_text : picklable (c_hdr plain_config) /\ h_fmt (c_hdr plain_config) = 6 /\ h_reclen (c_hdr plain_config) = 30.
Proof.
  destruct plain_config_ok as (RD & _). destruct (ready_header _ RD) as (_ & _ & WH).
  assert (E : (length (h_guid (c_hdr plain_config)) <=? 16)%nat && (length (h_sys (c_hdr plain_config)) <=? 32)%nat && (length (h_gen (c_hdr plain_config)) <=? 32)%nat &&
    match utf8_dec (h_guid (c_hdr plain_config)), utf8_dec (h_sys (c_hdr plain_config)), utf8_dec (h_gen (c_hdr plain_config)) with Some _, Some _, Some _ => true | _, _, _ => false end &&
    (h_fmt (c_hdr plain_config) =? 6) && (h_reclen (c_hdr plain_config) =? 30) = true) by (vm_compute; reflexivity).
  revert WH E. generalize plain_config. intros c WH E. apply andb_prop in E as (E & E6). apply andb_prop in E as (E & E5). apply andb_prop in E as (E & E4). apply andb_prop in E as (E & E3). apply andb_prop in E as (E1 & E2).
  apply Nat.leb_le in E1, E2, E3. apply Z.eqb_eq in E5, E6. split; [|auto]. split; [exact WH|]. split; [exact E1|]. split; [exact E2|]. split; [exact E3|].
  destruct (utf8_dec (h_guid (c_hdr c))), (utf8_dec (h_sys (c_hdr c))), (utf8_dec (h_gen (c_hdr c))); try discriminate. repeat split; discriminate.
Qed.
Lemma othered : match open_reader true good_file with Ok r => run_check good_file (node_list good_pages) r to_other false plain_config (fun w => opens (file w)) | _ => false end = true.
Proof. vm_compute. reflexivity. Qed.
Lemma other_data : exists data, points_pack (fst other_points) (snd other_points) (h_scale (c_hdr plain_config)) (h_offset (c_hdr plain_config)) = Ok data /\ length data = 180%nat.
Proof.
  assert (E : match points_pack (fst other_points) (snd other_points) (h_scale (c_hdr plain_config)) (h_offset (c_hdr plain_config)) with Ok d => (length d =? 180)%nat | _ => false end = true) by (vm_compute; reflexivity).
  revert E. generalize (points_pack (fst other_points) (snd other_points) (h_scale (c_hdr plain_config)) (h_offset (c_hdr plain_config))). intros [d| |] E; [|discriminate..]. exists d. split; [reflexivity|now apply Nat.eqb_eq].
Qed.
Lemma some_in {A} (l : list A) n : length l = S n -> exists a, In a l.
Proof. destruct l as [|a l]; [discriminate|]. exists a. now left. Qed.
Theorem C56_other_format_refuted : exists cd f hs h P p r l T c0 w r' n r1 m r2 data, transforms cd f hs h P p in_order (Some l) (f64_of_Z (-1)) r l to_other (c_hdr c0) T /\
  transform_program cd to_other false in_order (Some l) (f64_of_Z (-1)) 1 r p c0 no_overrides c0 w /\ reader_on (file w) r' /\ lossless cd /\ In n l /\ h_fmt (c_hdr c0) = 6 /\ h_reclen (c_hdr c0) = 30 /\
  T n = other_points /\ returns (fun fuel => find_node fuel (n_key n) r') r1 (Ok m) /\ e_count (n_entry m) = 5 /\
  returns (fun fuel => get_compressed fuel (n_key n) r') r2 (Ok (cd_comp cd 6 0 data)) /\ Z.of_nat (length data) = 6 * 30.
Proof.
  destruct sample_setup as (r & O & SR & FS & R). cbv zeta in SR. pose proof othered as K1. rewrite O in K1. set (h := c_hdr (r_cfg r)) in *. destruct plain_text as (PK & RF & RL). destruct plain_config_ok as (RD & RI). destruct other_data as (data & PD & LD).
  assert (X : length (node_list good_pages) = 3%nat) by (vm_compute; reflexivity). apply some_in in X.
  revert FS K1 X RD RI PK RF RL PD. generalize (node_list good_pages) plain_config. intros l c FS K1 (n & I) RD RI PK RF RL PD.
  destruct (run_check_ok good_file good_pages r l to_other false c _ 1 O SR FS PK RD RI ltac:(lia) K1) as (T & w & TR & TP & OP & TF). apply opens_ok in OP as (r' & _ & R').
  assert (TE : T n = other_points) by (symmetry; exact (same_ok (to_other (loaded h (points_of h good_file n)) n (c_hdr c)) _ _ eq_refl (TF n I))).
  assert (NE : nonempty (T n)) by (rewrite TE; unfold nonempty; cbn; discriminate).
  destruct (C56_find _ _ _ _ _ _ _ _ _ _ _ _ _ _ _ _ _ _ _ _ _ TR Z.lt_0_1 TP I NE R') as (r1 & m & E1 & _ & _ & C1).
  destruct (C56_chunk _ _ _ _ _ _ _ _ _ _ _ _ _ _ _ _ _ _ _ _ _ TR Z.lt_0_1 TP I NE R') as (r2 & d & E2 & E3).
  rewrite TE in C1, E2. rewrite <- (same_ok _ _ _ PD E2) in E3. rewrite RF, RL in E3.
  exists verbatim, good_file, good_pages, h, (points_of h good_file), (fun _ => r), r, l, T, c, w, r', n, r1, m, r2, data.
  split; [exact TR|]. split; [exact TP|]. split; [exact R'|]. split; [exact verbatim_lossless|]. split; [exact I|]. split; [exact RF|]. split; [exact RL|]. split; [exact TE|]. split; [exact E1|]. split; [exact C1|]. split; [exact E3|]. now rewrite LD.
Qed.
Print Assumptions C56_other_format_refuted.
