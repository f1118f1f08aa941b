(* ProofMp6.v - transforming into a LAZ file *)
From Coq Require Import Permutation.
From Verif Require Import Base BaseFacts ModelFloat ModelKey ModelGeom ModelEntry ModelPoint ModelPoints ModelHeader ModelVlr ModelExtents ModelConfig
  ModelStream ModelWriter ModelReader ModelLazReader ModelPickle ModelMp SpecKey SpecPoint SpecPoints SpecConfig SpecWriter SpecHier SpecFile SpecLaz SpecReader SpecData SpecRound SpecLazRound SpecMp
  ProofFloat ProofGeom ProofKey ProofPickle ProofPoint ProofPoints ProofConfig ProofStream ProofWriter ProofWriter2 ProofWriter4 ProofLaz ProofLazRound ProofData ProofReader4 ProofReader6 ProofOpen ProofRound ProofMp ProofMp2 ProofMp3 ProofMp4 ProofMp5.
Open Scope Z_scope.

Definition laz_op (d : done) : lop := LWriteCompressed (dn_data d) (dn_count d).
Lemma lwrite_cfg cd d n w z : lstep cd (LWriteCompressed d n) (mkLW (lw_base w) z) = (mkLW (lw_base (fst (lstep cd (LWriteCompressed d n) w))) z, snd (lstep cd (LWriteCompressed d n) w)).
Proof.
  destruct w as (b, z'). cbn [lstep lw_base lw_cfg]. destruct (n =? 0); [reflexivity|].
  assert (E : forall h h', write_chunk cd h d n true b = write_chunk cd h' d n true b) by reflexivity. rewrite (E _ (z_hdr z')). destruct (write_chunk cd (z_hdr z') d n true b) as (b', [x| |]); reflexivity.
Qed.
Lemma lwrite_keeps cd d n w : lw_cfg (fst (lstep cd (LWriteCompressed d n) w)) = lw_cfg w.
Proof. cbn [lstep]. destruct (n =? 0); [reflexivity|]. destruct (write_chunk _ _ _ _ _ _) as (b, [x| |]); reflexivity. Qed.
(* the calls that storing the results makes, on a Writer with any configuration *)
Lemma store_laz_run cd : forall ds w bs w' bs', each (store (add_to_laz cd)) ds (w, bs) = ((w', bs'), Ok tt) ->
  bs' = bs ++ bounds_of ds /\ lw_cfg w' = lw_cfg w /\ Forall (fun d => dn_count d <= INT32_MAX) (stored_ones ds) /\
  forall z, lrun cd (map laz_op (stored_ones ds)) (mkLW (lw_base w) z) = (mkLW (lw_base w') z, map (fun d => (laz_op d, Ok tt)) (stored_ones ds)).
Proof.
  induction ds as [|d ds IH]; intros w bs w' bs' H.
  - cbn [each] in H. injection H as <- <-. unfold bounds_of. cbn. rewrite app_nil_r. auto.
  - cbn [each] in H. unfold then_ in H. unfold store at 1 in H. unfold bounds_of, stored_ones. cbn [filter]. destruct (0 <? dn_count d) eqn:C.
    + cbn [fst snd] in H. unfold add_to_laz in H at 1. destruct (Z.ltb_spec INT32_MAX (dn_count d)); [discriminate|].
      pose proof (lwrite_keeps cd (dn_data d) (dn_count d) w) as K. pose proof (fun z => lwrite_cfg cd (dn_data d) (dn_count d) w z) as LC.
      destruct (lstep cd (LWriteCompressed (dn_data d) (dn_count d)) w) as (w1, [[]| |]) eqn:A; try discriminate. cbn [fst snd] in K, LC.
      destruct (IH _ _ _ _ H) as (B1 & B2 & B3 & B4). cbn [map flat_map]. split; [|split; [|split]].
      * rewrite B1. unfold bounds_of, stored_ones. destruct (dn_bounds d); cbn [opt_list app]; [now rewrite <- app_assoc|reflexivity].
      * congruence.
      * constructor; assumption.
      * intros z. cbn [lrun]. fold (stored_ones ds). unfold laz_op at 1. rewrite LC. rewrite B4. reflexivity.
    + destruct (IH _ _ _ _ H) as (B1 & B2 & B3). unfold bounds_of, stored_ones in *. auto.
Qed.
Lemma laz_ready_header' z : laz_ready z -> 6 <= h_fmt (z_hdr z) <= 8 /\ las_base (h_fmt (z_hdr z)) <= h_reclen (z_hdr z) < 65536.
Proof. intros R. destruct (laz_eb _ R) as (_ & A & B & C). destruct R as (_ & F & _ & RL & _). split; [exact F|]. lia. Qed.
(* what a run of transform_multithreaded leaves in a LazWriter *)
Lemma transform_laz_ran cd f hs h P p od nodes res r l tf z T upd chunk w0 w1 :
  transforms cd f hs h P p od nodes res r l tf (z_hdr z) T -> 0 < chunk -> open_laz_writer None z = Ok w0 -> laz_ready z -> transform_laz cd tf upd od nodes res chunk r p w0 w1 (Ok tt) ->
  exists z' ds l', Permutation l l' /\ Forall2 (fun n d => brings cd upd (z_hdr z) (T n) n d) l' ds /\ Forall (fun d => dn_count d <= INT32_MAX) (stored_ones ds) /\
    open_laz_writer None z' = Ok (mkLW (lw_base w0) z') /\ lrun cd (map laz_op (stored_ones ds)) (mkLW (lw_base w0) z') = (w1, map (fun d => (laz_op d, Ok tt)) (stored_ones ds)) /\ laz_ready z' /\
    z_wkt z' = z_wkt z /\ z_ebs z' = z_ebs z /\
    if upd then exists mn mx, global_bounds (bounds_of ds) mn mx /\ z_hdr z' = with_bounds mn mx (z_hdr z) else z_hdr z' = z_hdr z.
Proof.
  intros (SR & FP & SL & FS & PK & TF) N O RD TR. destruct (laz_open_inv _ _ O RD) as (CF & _). destruct (laz_ready_header' _ RD) as (F6 & RB).
  destruct (pool_reader cd f hs h P p SR FP) as (r0 & SP & D & RF & CH). unfold transform_laz in TR. rewrite CF in TR. destruct TR as (w2 & bs & LP & EW).
  destruct (loop_ok _ _ r0 (stored_nodes hs) _ od nodes res chunk r p _ _ l (fun n M => transform_task_ok cd tf upd _ f hs h _ r0 n SR D RF CH PK M) SP FS SL N LP) as (l' & ds & PL & FD & EA).
  assert (FB : Forall2 (fun n d => brings cd upd (z_hdr z) (T n) n d) l' ds).
  { assert (INL : forall n, In n l' -> In n l) by (intros n I; eapply Permutation_in; [apply Permutation_sym; exact PL|exact I]). clear - FD TF FS SR F6 RB INL. rewrite Forall_forall in FS. induction FD as [|n d l' ds J FD IH]; [constructor|]. constructor.
    - assert (M : In n l) by (apply INL; now left). destruct (stored_wf f hs n (proj1 SR) (FS n M)) as (_ & W1 & W2). eapply job_brings; eauto.
    - apply IH. intros m M. apply INL. now right. }
  destruct (store_laz_run _ _ _ _ _ _ EA) as (E1 & E2 & E3 & E4). cbn [app] in E1. subst bs.
  assert (OP : forall z', z_ebs z' = z_ebs z -> h_fmt (z_hdr z') = h_fmt (z_hdr z) -> h_reclen (z_hdr z') = h_reclen (z_hdr z) -> open_laz_writer None z' = Ok (mkLW (lw_base w0) z')).
  { intros z' A B C. unfold open_laz_writer in *. assert (BE : base_offset (z_hdr z') (z_ebs z') = base_offset (z_hdr z) (z_ebs z)) by (unfold base_offset, h_eb_size; rewrite A, B, C; reflexivity). rewrite BE. apply bind_ok in O as (po & Q & O). rewrite Q. cbn [bind]. injection O as <-. reflexivity. }
  destruct upd.
  - destruct EW as (mn & mx & G & ->). exists (mkLaz (with_bounds mn mx (z_hdr z)) (z_wkt z) (z_ebs z)), ds, l'. split; [exact PL|]. split; [exact FB|]. split; [exact E3|]. split; [now apply OP|]. split; [|split; [exact RD|]].
    + rewrite E4. unfold laz_bounds. cbv zeta. rewrite E2, CF. reflexivity.
    + split; [reflexivity|]. split; [reflexivity|]. exists mn, mx. auto.
  - subst w2. exists z, ds, l'. split; [exact PL|]. split; [exact FB|]. split; [exact E3|]. split; [now apply OP|]. split; [|auto]. rewrite E4. rewrite CF in E2. rewrite <- E2. destruct w1; reflexivity.
Qed.
Lemma accepted_all (ds : list done) : accepted (map (fun d => (laz_op d, Ok tt)) ds) = map laz_op ds.
Proof. induction ds as [|d ds IH]; [reflexivity|]. cbn [map accepted flat_map]. cbn [app]. f_equal. exact IH. Qed.
Lemma lwrite_fits cd d n w w' : at_end (b_out (lw_base w)) -> lstep cd (LWriteCompressed d n) w = (w', Ok tt) -> Z.of_nat (length (laz_file w')) < 2 ^ 64 -> Z.of_nat (length d) <= INT32_MAX.
Proof.
  intros AE H LEN. cbn [lstep] in H. destruct (n =? 0); [discriminate|]. unfold write_chunk in H. cbv zeta in H.
  assert (G : good_out (b_out (lw_base w))) by (destruct AE as (A & B & _); split; auto). assert (PO : o_pos (b_out (lw_base w)) = length (laz_file w)) by apply AE.
  rewrite put_end in H by exact AE. change (o_data (b_out (lw_base w))) with (laz_file w) in H.
  destruct (tell64 (b_out (lw_base w)) <=? 0) eqn:T0; [cbn [chunk_written] in H; discriminate|].
  assert (LF : (tell64 (mkOut (laz_file w ++ d) (length (laz_file w ++ d)) false None) <=? 0) = false /\ (INT32_MAX <? to_u 64 (tell64 (mkOut (laz_file w ++ d) (length (laz_file w ++ d)) false None) - tell64 (b_out (lw_base w)))) = false /\ laz_file w' = laz_file w ++ d).
  { destruct (tell64 (mkOut (laz_file w ++ d) (length (laz_file w ++ d)) false None) <=? 0); [cbn [chunk_written] in H; discriminate|]. destruct (INT32_MAX <? _); [cbn [chunk_written] in H; discriminate|]. cbn [chunk_written] in H. split; [reflexivity|]. split; [reflexivity|]. pose proof (f_equal fst H) as Q. cbn [fst] in Q. rewrite <- Q. reflexivity. }
  destruct LF as (_ & SZ & FW). rewrite FW, app_length, Nat2Z.inj_add in LEN. rewrite tell64_small in SZ; [|split; reflexivity|cbn [o_pos]; rewrite app_length; lia]. rewrite (tell64_small (b_out (lw_base w))) in SZ by (auto; rewrite PO; lia).
  cbn [o_pos] in SZ. rewrite PO, app_length, Nat2Z.inj_add in SZ. unfold to_u in SZ. rewrite Z.mod_small in SZ by lia. apply Z.ltb_ge in SZ. lia.
Qed.
Lemma lrun_fits cd : forall ds w w', at_end (b_out (lw_base w)) -> lrun cd (map laz_op ds) w = (w', map (fun d => (laz_op d, Ok tt)) ds) -> Z.of_nat (length (laz_file w')) < 2 ^ 64 -> Forall (fun d => Z.of_nat (length (dn_data d)) <= INT32_MAX) ds.
Proof.
  induction ds as [|d ds IH]; intros w w' AE H LEN; [constructor|]. cbn [map lrun] in H. destruct (lstep cd (laz_op d) w) as (w1, o) eqn:E. destruct (lstep_grows _ _ _ _ _ AE E) as (AE1 & _).
  assert (Q : o = Ok tt /\ lrun cd (map laz_op ds) w1 = (w', map (fun d => (laz_op d, Ok tt)) ds)).
  { destruct o as [[]| |]; [|destruct (lrun cd (map laz_op ds) w1) as (w2, lg); discriminate|discriminate]. split; [reflexivity|]. destruct (lrun cd (map laz_op ds) w1) as (w2, lg). injection H as -> ->. reflexivity. }
  destruct Q as (-> & R). pose proof R as R'. apply lrun_grows in R' as (_ & x & FX); [|exact AE1]. constructor; [|now apply (IH w1 w')]. eapply lwrite_fits; [exact AE|exact E|]. rewrite FX, app_length, Nat2Z.inj_add in LEN. lia.
Qed.
Lemma transform_laz_session cd f hs h P p od nodes res r l tf z T upd chunk w0 w1 w :
  transforms cd f hs h P p od nodes res r l tf (z_hdr z) T -> 0 < chunk -> open_laz_writer None z = Ok w0 -> laz_ready z -> transform_laz cd tf upd od nodes res chunk r p w0 w1 (Ok tt) ->
  close_laz cd w1 = (w, Ok tt) -> Z.of_nat (length (laz_file w)) < 2 ^ 64 ->
  exists z' ds l', Permutation l l' /\ Forall2 (fun n d => brings cd upd (z_hdr z) (T n) n d) l' ds /\ Forall (fun d => dn_count d <= INT32_MAX) (stored_ones ds) /\
    laz_session cd z' (map laz_op (stored_ones ds)) (map (fun d => (laz_op d, Ok tt)) (stored_ones ds)) w /\ laz_chunks_fit cd (z_hdr z') (map laz_op (stored_ones ds)) /\
    z_wkt z' = z_wkt z /\ z_ebs z' = z_ebs z /\
    if upd then exists mn mx, global_bounds (bounds_of ds) mn mx /\ z_hdr z' = with_bounds mn mx (z_hdr z) else z_hdr z' = z_hdr z.
Proof.
  intros TR N O RD TL CL LEN. destruct (transform_laz_ran _ _ _ _ _ _ _ _ _ _ _ _ _ _ _ _ _ _ TR N O RD TL) as (z' & ds & l' & PL & FB & FC & O' & R & RD' & ZW & ZE & ZH). exists z', ds, l'.
  split; [exact PL|]. split; [exact FB|]. split; [exact FC|]. split; [|split; [|auto]].
  - exists (mkLW (lw_base w0) z'), w1. split; [exact O'|]. split; [exact R|]. split; [exact CL|]. split; [exact RD'|]. split; [|exact LEN]. clear. induction (stored_ones ds); cbn [map]; constructor; [discriminate|assumption].
  - destruct (laz_open_inv _ _ O' RD') as (_ & _ & BI). pose proof (close_laz_ge _ _ _ CL) as GE. pose proof (lrun_fits cd _ _ _ (proj1 BI) R ltac:(lia)) as FF. rewrite Forall_forall in FF.
    intros op b n I Q. apply in_map_iff in I as (d & <- & I). cbn [laz_op laz_chunk] in Q. injection Q as <- <-. auto.
Qed.
