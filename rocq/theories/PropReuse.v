(* PropReuse.v - C89: writing to a stream that already has contents *)
From Verif Require Import Base BaseFacts ModelFloat ModelKey ModelGeom ModelEntry ModelPoint ModelPoints ModelHeader ModelVlr ModelExtents ModelConfig
  ModelStream ModelWriter ModelReader ModelLazReader ModelReuse SpecKey SpecPoint SpecConfig SpecWriter SpecHier SpecFile SpecReader SpecData SpecLaz SpecRound
  ProofKey ProofConfig ProofStream ProofWriter ProofWriter2 ProofWriter4 ProofClose2 ProofSession ProofFile ProofReuse SampleWriter SampleReader PropWriter PropData PropRound PropLaz.
Open Scope Z_scope.

(* a constructor call on the stream s, calls with what they returned, and a Close that returned *)
Definition written_to (cd : codec) (od : orders) (s : ostream) (c : config) (v : overrides) (ops : list wop) (l : log) (w : writer) : Prop :=
  exists w0 w1, open_writer_on s c v = Ok w0 /\ wrun cd ops w0 = (w1, l) /\ close cd od w1 = (w, Ok tt).
Definition laz_written_to (cd : codec) (s : ostream) (z : laz_config) (ops : list lop) (l : laz_log) (w : laz_writer) : Prop :=
  exists w0 w1, open_laz_writer_on s z = Ok w0 /\ lrun cd ops w0 = (w1, l) /\ close_laz cd w1 = (w, Ok tt).

(* ---- C89 ---- *)
(* on a stream with any old contents, standing at its beginning, the constructor and every call do what they do on an
   empty stream, and the rest of the old contents follows what was written *)
Theorem C89_results : forall cd c v d ops, match open_writer None c v with
  | Ok w0 => exists w0', open_writer_on (holding d 0) c v = Ok w0' /\
      forall w1 l, wrun cd ops w0 = (w1, l) -> exists w1', wrun cd ops w0' = (w1', l) /\
        (forall k, writer_find_node k w1' = writer_find_node k w1) /\ w_cfg w1' = w_cfg w1 /\ file w1' = file w1 ++ skipn (length (file w1)) d
  | Throw => open_writer_on (holding d 0) c v = Throw
  | UB => open_writer_on (holding d 0) c v = UB
  end.
Proof.
  intros cd c v d ops. rewrite open_over. destruct (open_writer None c v) as [w0| |] eqn:O; cbn [bind]; [|reflexivity..]. eexists. split; [reflexivity|]. intros w1 l R.
  destruct (run_over cd d _ _ _ _ (open_at_end _ _ _ O) R) as (R' & _). eexists. split; [exact R'|]. auto.
Qed.
Print Assumptions C89_results.
(* when the old contents are no longer than what the calls wrote, nothing is left of them: the writer is in the very
   state of one on an empty stream, so Close writes the same file *)
Theorem C89_same_state : forall cd c v d ops w0 w1 l, open_writer None c v = Ok w0 -> wrun cd ops w0 = (w1, l) -> (length d <= length (file w1))%nat ->
  exists w0', open_writer_on (holding d 0) c v = Ok w0' /\ wrun cd ops w0' = (w1, l).
Proof.
  intros cd c v d ops w0 w1 l O R L. rewrite open_over, O. cbn [bind]. eexists. split; [reflexivity|]. destruct (run_over cd d _ _ _ _ (open_at_end _ _ _ O) R) as (R' & E). rewrite R'. now rewrite wover_short.
Qed.
Print Assumptions C89_same_state.
(* in particular when they end before the point data starts *)
Theorem C89_same_file : forall cd od c v c0 d ops l w, complete_session cd od c v c0 ops l w -> Z.of_nat (length d) <= data_start c0 + 8 -> written_to cd od (holding d 0) c v ops l w.
Proof.
  intros cd od c v c0 d ops l w ((w0 & w1 & O & R & CL) & E & RD & WF & RO & AD & L) LD. pose proof (close_ge _ _ _ _ _ CL) as GE.
  destruct (run_history _ _ _ _ _ _ _ _ O E RD WF R ltac:(lia)) as (cs & HS). destruct (hs_base _ _ _ _ _ _ HS) as (_ & DT & _).
  assert (DS : 375 < data_start c0 < 2 ^ 32). { destruct (copc_offset_ok _ (ready_ok _ RD)) as (_ & X). exact X. }
  destruct (C89_same_state cd c v d ops w0 w1 l O R) as (w0' & O' & R'); [|exists w0', w1; auto]. unfold file. rewrite DT, app_length, zeros_length. lia.
Qed.
Print Assumptions C89_same_file.
(* whatever the old contents, every chunk is where the node that AddNode returned says *)
Theorem C89_chunks : forall cd od c v c0 d ops l w op n, init_writer c v = Ok c0 -> ready c0 -> Forall wf_op ops -> written_to cd od (holding d 0) c v ops l w -> Z.of_nat (length (file w)) < 2 ^ 64 ->
  In (op, Ok (Some n)) l ->
  exists x, chunk_of cd (c_hdr c0) op = Some (x, e_count (n_entry n)) /\ add_keys op = Some (e_key (n_entry n), n_page n) /\
    e_size (n_entry n) = Z.of_nat (length x) /\ bytes_at (e_offset (n_entry n)) (e_size (n_entry n)) (file w) = x.
Proof.
  intros cd od c v c0 d ops l w op n E RD WF (w0' & w1' & O' & R' & CL) L I. pose proof (close_ge _ _ _ _ _ CL) as GE. rewrite open_over in O'. apply bind_ok in O' as (w0 & O & X). assert (w0' = wover d w0) as -> by congruence. clear X.
  destruct (wrun cd ops w0) as (w1, l1) eqn:R. destruct (run_over cd d _ _ _ _ (open_at_end _ _ _ O) R) as (R1 & AE). rewrite R' in R1. assert (w1' = wover d w1 /\ l = l1) as (-> & ->) by (split; congruence). clear R1.
  assert (LF : (length (file w1) <= length (file (wover d w1)))%nat) by (unfold file, wover, bover, over; cbn [with_base w_base with_out b_out o_data]; rewrite app_length; lia).
  destruct (run_history _ _ _ _ _ _ _ _ O E RD WF R ltac:(lia)) as (cs & HS). destruct (hs_nodes _ _ _ _ _ _ HS _ _ I) as ((k & p & A & K & P & _) & _ & x & CO & PL). exists x. split; [exact CO|].
  split; [subst k p; exact A|]. split; [destruct PL as (pre & post & _ & _ & SZ & _); exact SZ|].
  destruct (hs_base _ _ _ _ _ _ HS) as (_ & DT & OP & _). destruct (copc_offset_ok _ (hs_cfg _ _ _ _ _ _ HS)) as (CP & DR). rewrite (hs_start _ _ _ _ _ _ HS) in CP, DR.
  assert (LW : (Z.to_nat (data_start c0) + 8 <= length (file w1))%nat) by (unfold file; rewrite DT, app_length, zeros_length; lia).
  destruct PL as (pre & post & EC & OF & SZ & _).
  assert (KP : keeps (Z.to_nat (data_start c0) + 8) (length (file w1)) (b_out (w_base (wover d w1))) (b_out (w_base (wover d w1)))).
  { apply keeps_refl; [now split| |exact LF]. destruct AE as (_ & _ & AP). unfold wover, bover, over. cbn [with_base w_base with_out b_out o_data o_pos]. rewrite AP, app_length. lia. }
  pose proof (close_keeps cd od (wover d w1) w (data_start c0) _ _ OP CP ltac:(lia) LW KP CL L) as KW.
  assert (LX : (length (file w1) = Z.to_nat (data_start c0 + 8) + length (cdata pre) + length x + length (cdata post))%nat).
  { unfold file. rewrite DT, EC, cdata_app, app_length, zeros_length. change (cdata ((x, e_count (n_entry n)) :: post)) with (x ++ cdata post). rewrite !app_length. lia. }
  unfold file. rewrite (bytes_at_keeps _ _ _ _ _ _ KW) by lia. unfold wover, bover, over. cbn [with_base w_base with_out b_out o_data]. rewrite DT, EC, cdata_app. change (cdata ((x, e_count (n_entry n)) :: post)) with (x ++ cdata post).
  rewrite (app_assoc (zeros _) (cdata pre)), <- !app_assoc. rewrite (app_assoc (zeros _) (cdata pre)). apply bytes_at_mid; [|exact SZ]. rewrite app_length, zeros_length. lia.
Qed.
Print Assumptions C89_chunks.
(* the same for LazWriter *)
Theorem C89_laz_results : forall cd z d ops, match open_laz_writer None z with
  | Ok w0 => exists w0', open_laz_writer_on (holding d 0) z = Ok w0' /\
      forall w1 l, lrun cd ops w0 = (w1, l) -> exists w1', lrun cd ops w0' = (w1', l) /\
        laz_point_count w1' = laz_point_count w1 /\ laz_chunk_count w1' = laz_chunk_count w1 /\ laz_file w1' = laz_file w1 ++ skipn (length (laz_file w1)) d /\
        ((length d <= length (laz_file w1))%nat -> w1' = w1)
  | Throw => open_laz_writer_on (holding d 0) z = Throw
  | UB => open_laz_writer_on (holding d 0) z = UB
  end.
Proof.
  intros cd z d ops. rewrite lopen_over. destruct (open_laz_writer None z) as [w0| |] eqn:O; cbn [bind]; [|reflexivity..]. eexists. split; [reflexivity|]. intros w1 l R.
  destruct (lrun_over cd d _ _ _ _ (lopen_at_end _ _ O) R) as (R' & E). eexists. split; [exact R'|]. split; [reflexivity|]. split; [reflexivity|]. split; [reflexivity|]. intros L. now apply lover_short.
Qed.
Print Assumptions C89_laz_results.

(* ---- witnesses ---- *)
Definition written_test (s : ostream) (c : config) (ops : list wop) (test : log -> bytes -> bool) : bool :=
  match open_writer_on s c no_overrides with
  | Ok w0 => match wrun verbatim ops w0 with (w1, l) => match close verbatim plain w1 with (w, Ok _) => (Z.of_nat (length (file w)) <? 2 ^ 63) && test l (file w) | _ => false end end
  | _ => false end.
Lemma written_test_ok s c ops test : written_test s c ops test = true -> exists l w, written_to verbatim plain s c no_overrides ops l w /\ Z.of_nat (length (file w)) < 2 ^ 63 /\ test l (file w) = true.
Proof.
  unfold written_test. destruct (open_writer_on s c no_overrides) as [w0| |] eqn:O; try discriminate. destruct (wrun verbatim ops w0) as (w1, l) eqn:R. destruct (close verbatim plain w1) as (w, [[]| |]) eqn:C; try discriminate.
  intros H. apply andb_prop in H as (L & T). apply Z.ltb_lt in L. exists l, w. split; [exists w0, w1; auto|auto].
Qed.
(* The desired property - the file is that of an empty stream, whatever the stream held - is false of the code: nothing
   empties the stream, so what is left of longer old contents stays in the file, between the chunks and the chunk table *)
Definition old_bytes : bytes := repeat 85 6000.
Theorem C89_longer_refuted : exists l w w', complete_session verbatim plain a_config no_overrides a_config some_calls l w /\ written_to verbatim plain (holding old_bytes 0) a_config no_overrides some_calls l w' /\
  bytes_at 5000 1000 (file w') = repeat 85 1000 /\ laz_table_offset (file w') = 6000 /\ Z.of_nat (length (file w)) < 5000.
Proof.
  destruct a_config_ok as (RD & _ & I).
  destruct (check_with_ok a_config plain some_calls (fun l w => (Z.of_nat (length (file w)) <? 5000) && written_test (holding old_bytes 0) a_config some_calls (fun _ f => same_bytes (bytes_at 5000 1000 f) (repeat 85 1000) && (laz_table_offset f =? 6000))) RD I plain_reorders some_calls_wf) as (l & w & S & _ & _ & T); [vm_compute; reflexivity|].
  apply andb_prop in T as (L & T). apply Z.ltb_lt in L. destruct (written_test_ok _ _ _ _ T) as (l' & w' & W & _ & T'). apply andb_prop in T' as (T1 & T2). apply same_bytes_eq in T1. apply Z.eqb_eq in T2.
  exists l, w, w'. split; [exact S|]. split; [|auto]. destruct W as (w0' & w1' & O' & R' & C'). exists w0', w1'. split; [exact O'|]. split; [|exact C'].
  destruct S as ((w0 & w1 & O & R & _) & _). pose proof (C89_results verbatim a_config no_overrides old_bytes some_calls) as X. rewrite O in X. destruct X as (w0'' & O'' & X). assert (w0'' = w0') as -> by congruence. destruct (X _ _ R) as (w1'' & R'' & _). rewrite R' in R''. rewrite R'. congruence.
Qed.
Print Assumptions C89_longer_refuted.
(* Nor can a second file be written to the stream of a first one without rewinding it: Close leaves the stream inside
   the file, the constructor reserves the header there but Close writes it at the beginning, so the first chunk is not
   where the header says the point data starts *)
Theorem C89_second_file_refuted : exists l w l' w' op n rest, complete_session verbatim plain a_config no_overrides a_config some_calls l w /\ written_to verbatim plain (b_out (w_base w)) a_config no_overrides some_calls l' w' /\
  l' = (op, Ok (Some n)) :: rest /\ e_offset (n_entry n) <> las_point_offset (file w') + 8.
Proof.
  destruct a_config_ok as (RD & _ & I).
  destruct (check_with_ok a_config plain some_calls (fun l w => written_test (b_out (w_base w)) a_config some_calls (fun l f => match l with (_, Ok (Some n)) :: _ => negb (e_offset (n_entry n) =? las_point_offset f + 8) | _ => false end)) RD I plain_reorders some_calls_wf) as (l & w & S & _ & _ & T); [vm_compute; reflexivity|].
  destruct (written_test_ok _ _ _ _ T) as (l' & w' & W & _ & T'). destruct l' as [|(op, [[n|]| |]) rest]; try discriminate T'. apply negb_true_iff, Z.eqb_neq in T'. exists l, w, ((op, Ok (Some n)) :: rest), w', op, n, rest. auto.
Qed.
Print Assumptions C89_second_file_refuted.
(* a LazReader then reads other records than were written *)
Definition laz_written_test (s : ostream) (z : laz_config) (ops : list lop) (test : laz_log -> bytes -> bool) : bool :=
  match open_laz_writer_on s z with
  | Ok w0 => match lrun verbatim ops w0 with (w1, l) => match close_laz verbatim w1 with (w, Ok _) => test l (laz_file w) | _ => false end end
  | _ => false end.
Lemma laz_written_test_ok s z ops test : laz_written_test s z ops test = true -> exists l w, laz_written_to verbatim s z ops l w /\ test l (laz_file w) = true.
Proof.
  unfold laz_written_test. destruct (open_laz_writer_on s z) as [w0| |] eqn:O; try discriminate. destruct (lrun verbatim ops w0) as (w1, l) eqn:R. destruct (close_laz verbatim w1) as (w, [[]| |]) eqn:C; try discriminate.
  intros T. exists l, w. split; [exists w0, w1; auto|exact T].
Qed.
Definition reads (f d : bytes) : bool := match open_laz_reader f with Ok r => match laz_point_data verbatim verbatim_used r with Ok x => same_bytes x d | _ => false end | _ => false end.
Lemma reads_ok f d : reads f d = true -> exists r, open_laz_reader f = Ok r /\ laz_point_data verbatim verbatim_used r = Ok d.
Proof.
  unfold reads. destruct (open_laz_reader f) as [r| |]; try discriminate. destruct (laz_point_data verbatim verbatim_used r) as [x| |] eqn:E; try discriminate. intros H. apply same_bytes_eq in H as ->. eauto.
Qed.
Definition one_record : list lop := [LWriteCompressed (repeat 9 48) 1].
Theorem C89_laz_second_file_refuted : exists l w r w' r', laz_session verbatim (laz_round_config [an_eb] 48) one_record l w /\ open_laz_reader (laz_file w) = Ok r /\ laz_point_data verbatim verbatim_used r = Ok (repeat 9 48) /\
  laz_written_to verbatim (b_out (lw_base w)) (laz_round_config [an_eb] 48) one_record l w' /\ open_laz_reader (laz_file w') = Ok r' /\ laz_point_data verbatim verbatim_used r' = Ok (repeat 0 48).
Proof.
  destruct eb_ready as (G & _).
  destruct (laz_b_ok (laz_round_config [an_eb] 48) one_record (fun l w => same_bytes (map (fun x => code (snd x)) l) [0] && reads (laz_file w) (repeat 9 48) && laz_written_test (b_out (lw_base w)) (laz_round_config [an_eb] 48) one_record (fun l f => (Nat.eqb (length l) 1) && match l with [(LWriteCompressed d n, Ok _)] => same_bytes d (repeat 9 48) && (n =? 1) | _ => false end && reads f (repeat 0 48)))) as (l & w & S & T); [exact G|vm_compute; reflexivity|].
  apply andb_prop in T as (T & T3). apply andb_prop in T as (T1 & T2). pose proof (log_known _ _ _ _ _ _ S T1) as L. destruct (reads_ok _ _ T2) as (r & O & D). destruct (laz_written_test_ok _ _ _ _ T3) as (l' & w' & W & T'). apply andb_prop in T' as (T' & T6). apply andb_prop in T' as (_ & T5). destruct (reads_ok _ _ T6) as (r' & O' & D').
  exists l, w, r, w', r'. split; [exact S|]. split; [exact O|]. split; [exact D|]. split; [|auto]. assert (l' = l) as ->; [|exact W].
  rewrite L. destruct l' as [|([?|d n], [[]| |]) [|]]; try discriminate T5. apply andb_prop in T5 as (T4 & T5). apply same_bytes_eq in T4 as ->. apply Z.eqb_eq in T5 as ->. reflexivity.
Qed.
Print Assumptions C89_laz_second_file_refuted.

(* old contents that are overwritten completely, and longer ones with chunks that stay in place *)
Example C89_nonvacuous : exists l w w' op n, complete_session verbatim plain a_config no_overrides a_config some_calls l w /\ Z.of_nat (length (repeat 85 500)) <= data_start a_config + 8 /\
  written_to verbatim plain (holding old_bytes 0) a_config no_overrides some_calls l w' /\ init_writer a_config no_overrides = Ok a_config /\ ready a_config /\ Forall wf_op some_calls /\ Z.of_nat (length (file w')) < 2 ^ 64 /\ In (op, Ok (Some n)) l.
Proof.
  destruct a_config_ok as (RD & _ & I).
  destruct (check_with_ok a_config plain some_calls (fun l w => written_test (holding old_bytes 0) a_config some_calls (fun l f => match l with (_, Ok (Some n)) :: _ => true | _ => false end)) RD I plain_reorders some_calls_wf) as (l & w & S & _ & _ & T); [vm_compute; reflexivity|].
  destruct (written_test_ok _ _ _ _ T) as (l' & w' & W & L & T').
  assert (l' = l) as ->. { destruct W as (w0' & w1' & O' & R' & C'). destruct S as ((w0 & w1 & O & R & _) & _). pose proof (C89_results verbatim a_config no_overrides old_bytes some_calls) as X. rewrite O in X. destruct X as (w0'' & O'' & X). assert (w0'' = w0') as -> by congruence. destruct (X _ _ R) as (w1'' & R'' & _). congruence. }
  destruct l as [|(op, [[n|]| |]) rest]; try discriminate T'. exists ((op, Ok (Some n)) :: rest), w, w', op, n. split; [exact S|]. split; [vm_compute; discriminate|]. split; [exact W|]. split; [exact I|]. split; [exact RD|]. split; [exact some_calls_wf|]. split; [lia|now left].
Qed.
