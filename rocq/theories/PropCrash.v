(* PropCrash.v - C75, C76: programs that are killed while a Writer is at work *)
From Verif Require Import Base BaseFacts ModelFloat ModelKey ModelGeom ModelEntry ModelPoint ModelPoints ModelHeader ModelVlr ModelExtents ModelConfig
  ModelStream ModelWriter ModelReader ModelLazReader ModelTrace SpecKey SpecPoint SpecConfig SpecHeader SpecWriter SpecLaz SpecFile SpecRound SpecCrash ProofStream ProofHeader ProofConfig
  ProofWriter ProofWriter2 ProofWriter4 ProofClose ProofClose2 ProofSession ProofCount ProofResults ProofLaz ProofReject ProofTrace ProofTrace2 ProofTrace3 ProofTrace4 ProofTrace5 ProofTrace6 SampleWriter PropWriter2.
Open Scope Z_scope.

(* ---- the traces are those of the writers ---- *)
Theorem C75_trace : forall cd od cap c v w0 ops, open_writer cap c v = Ok w0 ->
  play (t_session cd od w0 ops) (empty_out cap) = b_out (w_base (fst (close cd od (fst (wrun cd ops w0))))).
Proof. exact play_session. Qed.
Print Assumptions C75_trace.
Theorem C75_laz_trace : forall cd cap z w0 ops, open_laz_writer cap z = Ok w0 ->
  play (t_laz_session cd w0 ops) (empty_out cap) = b_out (lw_base (fst (close_laz cd (fst (lrun cd ops w0))))).
Proof. exact play_laz_session. Qed.
Print Assumptions C75_laz_trace.

(* ---- C75: a file that was not closed is not mistaken for a complete one ---- *)
Theorem C75_unclosed : forall cd c v c0 ops f, init_writer c v = Ok c0 -> ready c0 -> left_unclosed cd c v ops f -> rejected f.
Proof. intros cd c v c0 ops f E RD (w0 & O & H). exact (unclosed_cut cd c v c0 ops w0 O E RD f H). Qed.
Print Assumptions C75_unclosed.
Theorem C75_laz_unclosed : forall cd z ops f, laz_ready z -> left_unclosed_laz cd z ops f -> rejected f.
Proof. intros cd z ops f G (w0 & O & H). exact (lz_unclosed_cut cd z ops w0 O G f H). Qed.
Print Assumptions C75_laz_unclosed.

Lemma session_file cd od c v c0 ops l w f : complete_session cd od c v c0 ops l w -> left_by_writer cd od c v ops f ->
  rejected f \/ exists p, 105 <= p <= data_start c0 /\ f = blanked p (data_start c0) (file w).
Proof.
  intros S (w0 & O & H). destruct (complete_closed _ _ _ _ _ _ _ _ S) as (w0' & w1 & cs & PG & ws & h & O' & R & HS & C & RO & L & AD).
  assert (EW : w0' = w0) by congruence. subst w0'. destruct S as ((w0' & w1' & O2 & R2 & CL) & E & RD & _).
  assert (EW : w0' = w0) by congruence. subst w0'. assert (EW : w1' = w1) by congruence. subst w1'.
  destruct (session_cut cd od c v c0 ops w0 O E RD w1 l cs R HS f H) as [Z|(_ & p & P & ->)]; [left; now apply head_rejected|]. rewrite CL. cbn [fst].
  destruct (Z.leb_spec p 104) as [Q|Q]; [left|right; exists p; split; [lia|reflexivity]]. apply few_bytes; [lia|].
  destruct (copc_offset_ok _ (ready_ok _ RD)) as (_ & DR). split; [lia|]. pose proof (close_ge _ _ _ _ _ CL) as GE.
  destruct (hs_base _ _ _ _ _ _ HS) as (_ & DT & _). unfold file in GE at 1. rewrite DT, app_length, zeros_length in GE. lia.
Qed.
(* killed at any moment, the program leaves a file that no reader opens, or the complete file with the
   end of its header area (at most everything but the first 105 bytes) still zero *)
Theorem C75_interrupted : forall cd od c v c0 ops l w f, complete_session cd od c v c0 ops l w -> left_by_writer cd od c v ops f ->
  rejected f \/ exists p, 105 <= p <= data_start c0 /\ f = blanked p (data_start c0) (file w).
Proof. exact session_file. Qed.
Print Assumptions C75_interrupted.
(* a COPC Reader does not open it before the LAS header is complete and the COPC info record has been announced *)
Theorem C75_interrupted_copc : forall cd od c v c0 ops l w f, complete_session cd od c v c0 ops l w -> storable (w_cfg w) -> Z.of_nat (length ops) < 2 ^ 32 - 2 ->
  left_by_writer cd od c v ops f ->
  (forall isfile, open_reader isfile f = Throw) \/ exists p, 394 <= p <= data_start c0 /\ f = blanked p (data_start c0) (file w).
Proof.
  intros cd od c v c0 ops l w f S (EB & EZ & ET & EX & I1 & I2 & I3 & WK) N F. destruct (session_file _ _ _ _ _ _ _ _ _ S F) as [(J & _)|(p & P & EF)]; [left; exact J|].
  destruct (Z.leb_spec p 393) as [Q|Q]; [left|right; exists p; split; [lia|exact EF]].
  destruct (complete_closed _ _ _ _ _ _ _ _ S) as (w0 & w1 & cs & PG & ws & h & O & R & HS & C & RO & L & AD).
  pose proof (hs_pages _ _ _ _ _ _ HS) as (ND & _ & RT & _). destruct S as (S & E & RD & WF & _).
  assert (PF : (length (w_pages w1) <= Datatypes.S (length ops))%nat).
  { eapply pages_few; eauto. destruct (S) as (w0' & w1' & O' & R' & CL). pose proof (close_ge _ _ _ _ _ CL) as GE. rewrite O in O'. injection O' as <-. rewrite R in R'. injection R' as <-. lia. }
  assert (NP : Z.of_nat (length (w_pages w1)) < 2 ^ 32 - 1) by lia.
  intros isf. rewrite EF, <- (hs_start _ _ _ _ _ _ HS).
  apply (partial_rejected cd od w1 cs PG ws h w); try assumption. lia.
Qed.
Print Assumptions C75_interrupted_copc.
Theorem C75_laz_interrupted : forall cd z ops l w f, laz_session cd z ops l w -> left_by_laz_writer cd z ops f ->
  rejected f \/ exists p, 105 <= p <= laz_start z /\ f = blanked p (laz_start z) (laz_file w).
Proof.
  intros cd z ops l w f S (w0 & O & H). destruct (laz_closed _ _ _ _ _ S) as (w0' & w1 & cs & h & O' & R & C & X & G & L & B).
  assert (EW : w0' = w0) by congruence. subst w0'. destruct S as (w0' & w1' & O2 & R2 & CL & _).
  assert (EW : w0' = w0) by congruence. subst w0'. assert (EW : w1' = w1) by congruence. subst w1'.
  assert (CF : lw_cfg w1 = z).
  { destruct (laz_open_inv _ _ O G) as (CF & S & B0). assert (L1 : Z.of_nat (length (laz_file w1)) < 2 ^ 64) by (pose proof (close_laz_ge cd w1 w CL); lia).
    destruct (lrun_spec cd ops w0 w1 l (laz_start z + 8) [] S) as (cs' & _ & CF1 & _); [now rewrite CF|exact B0|exact R|exact L1|congruence]. }
  destruct (lz_session_cut cd z ops w0 O G w1 l cs R CF B f H) as [Z|(p & P & ->)]; [left; now apply head_rejected|]. rewrite CL. cbn [fst].
  destruct (Z.leb_spec p 104) as [Q|Q]; [left|right; exists p; split; [lia|reflexivity]]. apply few_bytes; [lia|].
  destruct (base_offset_ok _ G) as (_ & DR). split; [lia|]. pose proof (close_laz_ge cd w1 w CL) as GE.
  destruct B as (_ & DT & _). unfold laz_file in GE at 1. rewrite DT, app_length, zeros_length in GE. lia.
Qed.
Print Assumptions C75_laz_interrupted.

(* ---- a Close that throws ---- *)
(* if Close throws although no bound of the header is inverted, nothing has reached the header area *)
Theorem C75_failed_close : forall cd od c v c0 ops w0 w1 l w f, open_writer None c v = Ok w0 -> init_writer c v = Ok c0 -> ready c0 -> Forall wf_op ops ->
  wrun cd ops w0 = (w1, l) -> Z.of_nat (length (file w1)) < 2 ^ 64 -> ordered_bounds (c_hdr (w_cfg w1)) -> close cd od w1 = (w, Throw) ->
  left_by_writer cd od c v ops f -> rejected f.
Proof.
  intros cd od c v c0 ops w0 w1 l w f O E RD WF R L OB CL (w0' & O' & H). assert (EW : w0' = w0) by congruence. subst w0'.
  destruct (run_history cd c v c0 ops w0 w1 l O E RD WF R L) as (cs & HS).
  destruct (session_cut cd od c v c0 ops w0 O E RD w1 l cs R HS f H) as [Z|(T & _)]; [now apply head_rejected|]. exfalso.
  pose proof (tail_close cd od w1 (hs_cfg _ _ _ _ _ _ HS)) as TC. rewrite CL in TC. cbn [snd] in TC.
  assert (X : Throw = Ok tt :> outcome unit); [|discriminate X]. apply TC; [|split|exact OB|exact T].
  - destruct (hs_base _ _ _ _ _ _ HS) as (_ & _ & _ & _ & -> & _). apply Z.mod_pos_bound. lia.
  - destruct (hs_base _ _ _ _ _ _ HS) as ((B & _) & _). exact B.
  - destruct (hs_base _ _ _ _ _ _ HS) as ((_ & B & _) & _). exact B.
Qed.
Print Assumptions C75_failed_close.

(* ---- C76: the bytes of a chunk are on the stream from the moment its AddNode returned ---- *)
Theorem C76_chunk_survives : forall cd od c v c0 ops1 ops2 w0 w1 w2 l1 l2 op n f, open_writer None c v = Ok w0 -> init_writer c v = Ok c0 -> ready c0 ->
  Forall wf_op ops1 -> Forall wf_op ops2 -> wrun cd ops1 w0 = (w1, l1) -> all_defined l1 -> wrun cd ops2 w1 = (w2, l2) -> Z.of_nat (length (file w2)) < 2 ^ 64 ->
  In (op, Ok (Some n)) l1 -> left_after cd od w1 ops2 f ->
  exists x, chunk_of cd (c_hdr c0) op = Some (x, e_count (n_entry n)) /\ bytes_at (e_offset (n_entry n)) (e_size (n_entry n)) f = x.
Proof. exact chunk_survives. Qed.
Print Assumptions C76_chunk_survives.
(* killed at any moment, the program was killed before its first calls had returned or after that *)
Theorem C76_moments : forall cd od c v ops1 ops2 w0 w1 l1 f, open_writer None c v = Ok w0 -> wrun cd ops1 w0 = (w1, l1) -> all_defined l1 ->
  left_by_writer cd od c v (ops1 ++ ops2) f -> left_unclosed cd c v ops1 f \/ left_after cd od w1 ops2 f.
Proof.
  intros cd od c v ops1 ops2 w0 w1 l1 f O R D (w0' & O' & H). assert (EW : w0' = w0) by congruence. subst w0'. unfold t_session in H.
  rewrite (run_trace_app cd ops1 ops2 w0 w1 l1 R D) in H. pose proof (wrun_app cd ops1 ops2 w0 w1 l1 R D) as A. unfold left_after.
  destruct (wrun cd ops2 w1) as (w2, l2). rewrite A in H. cbn [fst] in H |- *. rewrite <- !app_assoc, app_assoc in H. apply cut_app in H as [H|H]; [left; exists w0; auto|right].
  assert (PS : play (t_reserve (copc_offset (w_cfg w0)) ++ t_run cd ops1 w0) (empty_out None) = b_out (w_base w1)); [|now rewrite PS in H].
  rewrite play_app. pose proof (play_run cd ops1 w0) as PR. rewrite R in PR. cbn [fst] in PR. rewrite <- PR. f_equal.
  destruct (open_spec _ _ _ O) as (c1 & _ & _ & poff & CO & ->). cbn [w_cfg w_base b_out]. rewrite CO. reflexivity.
Qed.
Print Assumptions C76_moments.
Theorem C76_laz_chunks_survive : forall cd z ops1 ops2 w0 w1 w2 l1 l2 f, open_laz_writer None z = Ok w0 -> laz_ready z ->
  lrun cd ops1 w0 = (w1, l1) -> Forall (fun x => snd x <> UB) l1 -> lrun cd ops2 w1 = (w2, l2) -> Z.of_nat (length (laz_file w2)) < 2 ^ 64 -> laz_chunks_fit cd (z_hdr z) ops1 ->
  laz_left_after cd w1 ops2 f ->
  let data := concat (map fst (laz_chunks cd (z_hdr z) l1)) in bytes_at (laz_start z + 8) (Z.of_nat (length data)) f = data.
Proof.
  intros cd z ops1 ops2 w0 w1 w2 l1 l2 f O G R1 D1 R2 L FIT F data. destruct (laz_open_inv _ _ O G) as (CF & S & B0).
  destruct (base_offset_ok _ G) as (_ & DR).
  assert (L1 : Z.of_nat (length (laz_file w1)) < 2 ^ 64).
  { assert (GE : (length (laz_file w1) <= length (laz_file w2))%nat); [|lia]. unfold laz_file. pose proof (play_laz_run cd ops2 w1) as PR. rewrite R2 in PR. cbn [fst] in PR. rewrite <- PR.
    assert (A : solid (length (o_data (b_out (lw_base w1)))) (b_out (lw_base w1))) by (right; lia). pose proof (play_solid _ (t_laz_run cd ops2 w1) _ A) as X.
    destruct X as [X|X]; [|exact X]. exfalso.
    assert (FI : fine (b_out (lw_base w1))). { pose proof (play_laz_run cd ops1 w0) as PR1. rewrite R1 in PR1. cbn [fst] in PR1. rewrite <- PR1. apply play_fine. destruct B0 as ((Y1 & Y2 & _) & _). split; assumption. }
    pose proof (play_fine (t_laz_run cd ops2 w1) _ FI) as (Y & _). congruence. }
  destruct (lrun_spec cd ops1 w0 w1 l1 (laz_start z + 8) [] S ltac:(now rewrite CF) B0 R1 L1) as (cs1 & B1 & CF1 & X1). cbn [app] in B1. rewrite CF in CF1, X1. specialize (X1 FIT).
  destruct (lrun_spec cd ops2 w1 w2 l2 (laz_start z + 8) cs1 S ltac:(now rewrite CF1) B1 R2 L) as (cs2 & B2 & CF2 & _). rewrite CF1 in CF2.
  assert (ED : data = cdata cs1) by (unfold data; now rewrite <- X1).
  destruct B1 as ((B1 & B3 & B4) & DT & _).
  rewrite (laz_survives cd w1 w2 ops2 l2 f).
  - unfold laz_file. rewrite DT, ED. rewrite <- (app_nil_r (zeros _ ++ cdata cs1)), <- app_assoc.
    apply ProofFile.bytes_at_mid; [rewrite zeros_length; lia|reflexivity].
  - exact R2.
  - now rewrite CF2.
  - destruct B2 as (_ & _ & _ & _ & -> & _). apply Z.mod_pos_bound. lia.
  - destruct B2 as (_ & _ & _ & _ & _ & ->). lia.
  - rewrite CF2. lia.
  - lia.
  - right. rewrite B4, DT, app_length, zeros_length, ED. lia.
  - exact F.
Qed.
Print Assumptions C76_laz_chunks_survive.

(* ---- non-vacuity ---- *)
Lemma cut_end l s : cut_short l s (o_data (play l s)).
Proof. rewrite <- (app_nil_r l) at 1. apply cut_app_r. reflexivity. Qed.
(* the sample session, killed in the middle of the third write of its calls: more than a kilobyte is on the
   stream, and nobody opens it *)
Definition cut_file (n m : nat) (t : list sop) : bytes := o_data (match skipn n t with SPut b :: _ => put (firstn m b) (play (firstn n t) (empty_out None)) | _ => play (firstn n t) (empty_out None) end).
Lemma cut_file_ok n m t : cut_short t (empty_out None) (cut_file n m t).
Proof.
  unfold cut_file. rewrite <- (firstn_skipn n t) at 1. apply cut_app_r. destruct (skipn n t) as [|o r]; [reflexivity|]. cbn [cut_short]. left. destruct o as [b| |p]; [exists m; reflexivity|exists 0%nat; reflexivity..].
Qed.
Example C75_unclosed_nonvacuous : exists f, left_unclosed verbatim a_config no_overrides some_calls f /\ (length f > 900)%nat.
Proof.
  destruct (check_calls_ok some_calls (fun w l => match open_writer None a_config no_overrides with Ok w0 => (900 <? length (cut_file 3 20 (t_reserve (copc_offset (w_cfg w0)) ++ t_run verbatim some_calls w0)))%nat | _ => false end)) as (w0 & w & l & O & R & T); [vm_compute; reflexivity|].
  rewrite O in T. eexists. split; [exists w0; split; [exact O|apply (cut_file_ok 3 20)]|]. apply Nat.ltb_lt in T. exact T.
Qed.
(* a complete session; killed while it writes its header: 300 bytes of the header are there, and the file is rejected by the COPC reader *)
Example C75_interrupted_nonvacuous : exists l w f, complete_session verbatim plain a_config no_overrides a_config some_calls l w /\ left_by_writer verbatim plain a_config no_overrides some_calls f /\
  f = blanked 300 (data_start a_config) (file w) /\ f <> file w.
Proof.
  destruct (check_session_ok plain some_calls (fun l w => match open_writer None a_config no_overrides with Ok w0 =>
    same_bytes (cut_file (length (t_session verbatim plain w0 some_calls) - 8) 300 (t_session verbatim plain w0 some_calls)) (blanked 300 (data_start a_config) (file w)) &&
    negb (same_bytes (blanked 300 (data_start a_config) (file w)) (file w)) | _ => false end)) as (l & w & S & T); [vm_compute; reflexivity|apply plain_reorders|apply some_calls_wf|].
  exists l, w, (blanked 300 (data_start a_config) (file w)). split; [exact S|]. destruct (open_writer None a_config no_overrides) as [w0| |] eqn:O; [|discriminate..]. apply andb_prop in T as (T1 & T2).
  apply same_bytes_eq in T1. split; [|split; [reflexivity|]].
  - exists w0. split; [exact O|]. rewrite <- T1. apply cut_file_ok.
  - intros E. apply negb_true_iff in T2. unfold same_bytes in T2. destruct (list_eq_dec Z.eq_dec _ _); [discriminate|contradiction].
Qed.
