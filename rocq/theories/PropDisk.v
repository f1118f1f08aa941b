(* PropDisk.v - C78: what a FileWriter leaves on disk; C79: a FileWriter after Close *)
From Verif Require Import Base BaseFacts ModelFloat ModelKey ModelGeom ModelEntry ModelPoint ModelPoints ModelHeader ModelVlr ModelExtents ModelConfig
  ModelStream ModelWriter ModelReader ModelLazReader ModelTrace ModelFile SpecKey SpecPoint SpecConfig SpecHeader SpecWriter SpecLaz SpecHier SpecReject SpecFile SpecRound SpecCrash ProofStream ProofHeader ProofConfig
  ProofKey ProofWriter ProofWriter2 ProofWriter4 ProofClose ProofClose2 ProofSession ProofCount ProofResults ProofLaz ProofReject ProofTrace ProofTrace2 ProofTrace3 ProofTrace4 ProofTrace5 ProofTrace6 ProofFile2 SampleWriter PropWriter PropWriter2 PropCrash PropRetry.
Open Scope Z_scope.

(* ---- C78 ---- *)
(* however the stream is buffered: after Close the disk has the contents that the theorems about files speak of *)
Theorem C78_disk_after_close : forall cd od c v ops l w w0 f, session cd od c v ops l w -> open_writer None c v = Ok w0 ->
  disk_when_closed (t_session cd od w0 ops) f -> f = file w.
Proof.
  intros cd od c v ops l w w0 f (w0' & w1 & O & R & CL) O' (s & B & ->). assert (E : w0' = w0) by congruence. subst w0'. rewrite (buffered_stream _ _ _ B). cbn [new_file f_pend f_dev]. rewrite put_nil, (play_session cd od None c v w0 ops O').
  rewrite R. cbn [fst]. rewrite CL. reflexivity.
Qed.
Print Assumptions C78_disk_after_close.
Theorem C78_laz_disk_after_close : forall cd z ops l w w0 f, laz_session cd z ops l w -> open_laz_writer None z = Ok w0 ->
  disk_when_closed (t_laz_session cd w0 ops) f -> f = laz_file w.
Proof.
  intros cd z ops l w w0 f (w0' & w1 & O & R & CL & _) O' (s & B & ->). assert (E : w0' = w0) by congruence. subst w0'. rewrite (buffered_stream _ _ _ B). cbn [new_file f_pend f_dev]. rewrite put_nil, (play_laz_session cd None z w0 ops O').
  rewrite R. cbn [fst]. rewrite CL. reflexivity.
Qed.
Print Assumptions C78_laz_disk_after_close.
(* a program that is killed at any moment leaves on disk what an unbuffered one could have left: no
   later than its last call to the stream, and nothing out of order *)
Theorem C78_killed : forall cd od c v ops w0 f, open_writer None c v = Ok w0 -> disk_when_killed (t_session cd od w0 ops) f -> left_by_writer cd od c v ops f.
Proof. intros cd od c v ops w0 f O K. exists w0. split; [exact O|]. now apply killed_cut. Qed.
Print Assumptions C78_killed.
Theorem C78_killed_not_mistaken : forall cd od c v c0 ops l w w0 f, complete_session cd od c v c0 ops l w -> open_writer None c v = Ok w0 ->
  disk_when_killed (t_session cd od w0 ops) f -> rejected f \/ exists p, 105 <= p <= data_start c0 /\ f = blanked p (data_start c0) (file w).
Proof. intros cd od c v c0 ops l w w0 f S O K. apply (C75_interrupted _ _ _ _ _ _ _ _ _ S). exact (C78_killed _ _ _ _ _ _ _ O K). Qed.
Print Assumptions C78_killed_not_mistaken.
Theorem C78_laz_killed : forall cd z ops w0 f, open_laz_writer None z = Ok w0 -> disk_when_killed (t_laz_session cd w0 ops) f -> left_by_laz_writer cd z ops f.
Proof. intros cd z ops w0 f O K. exists w0. split; [exact O|]. now apply killed_cut. Qed.
Print Assumptions C78_laz_killed.
(* the chunks of all calls are on disk as soon as Close has made its first seek *)
Theorem C78_chunks_once_closing : forall cd od c v c0 ops w0 w l op n a b s, open_writer None c v = Ok w0 -> init_writer c v = Ok c0 -> ready c0 -> Forall wf_op ops ->
  wrun cd ops w0 = (w, l) -> all_defined l -> Z.of_nat (length (file w)) < 2 ^ 64 -> In (op, Ok (Some n)) l ->
  t_session cd od w0 ops = (t_reserve (copc_offset (w_cfg w0)) ++ t_run cd ops w0) ++ SEnd :: a ++ b ->
  buffered ((t_reserve (copc_offset (w_cfg w0)) ++ t_run cd ops w0) ++ SEnd :: a) new_file s ->
  exists x, chunk_of cd (c_hdr c0) op = Some (x, e_count (n_entry n)) /\ bytes_at (e_offset (n_entry n)) (e_size (n_entry n)) (o_data (f_dev s)) = x.
Proof.
  intros cd od c v c0 ops w0 w l op n a b s O E RD WF R D L I T B.
  apply (C76_chunk_survives cd od c v c0 ops [] w0 w w l [] op n (o_data (f_dev s)) O E RD WF ltac:(constructor) R D eq_refl L I). unfold left_after. cbn [wrun t_run fst app].
  unfold t_session in T. rewrite R in T. cbn [fst] in T. rewrite app_assoc in T. apply app_inv_head in T. rewrite T.
  destruct (buffered_seek _ _ _ _ B ltac:(discriminate)) as (s1 & P & DV & B1). pose proof (disk_cut _ _ _ B1 P 0) as C. rewrite firstn_O, put_nil, DV in C. cbn [cut_short]. right. apply cut_app_l.
  assert (PS : play (t_reserve (copc_offset (w_cfg w0)) ++ t_run cd ops w0) (empty_out None) = b_out (w_base w)).
  { rewrite play_app. pose proof (play_run cd ops w0) as PR. rewrite R in PR. cbn [fst] in PR. rewrite <- PR. f_equal. destruct (open_spec _ _ _ O) as (c1 & _ & _ & poff & CO & ->). cbn [w_cfg w_base b_out]. rewrite CO. reflexivity. }
  rewrite play_app, PS in C. exact C.
Qed.
Print Assumptions C78_chunks_once_closing.
(* Close writes the last part of the buffer with fstream::close(), whose failure nobody looks at: Close
   returns, and the file is not complete.  It is not taken for a complete one either. *)
Theorem C78_last_flush_lost : forall cd od c v c0 ops l w w0 n f, complete_session cd od c v c0 ops l w -> open_writer None c v = Ok w0 ->
  disk_when_close_fails (t_session cd od w0 ops) n f -> rejected f \/ exists p, 105 <= p <= data_start c0 /\ f = blanked p (data_start c0) (file w).
Proof.
  intros cd od c v c0 ops l w w0 n f S O (s & B & _ & ->). apply (C75_interrupted _ _ _ _ _ _ _ _ _ S). exists w0. split; [exact O|]. exact (disk_cut _ _ _ B eq_refl n).
Qed.
Print Assumptions C78_last_flush_lost.
(* a stream that writes its buffer only when it has to *)
Definition late (l : list sop) : fbuf := fold_left (fun s o => file_op o s) l new_file.
Lemma late_ok l : buffered l new_file (late l).
Proof. induction l as [|o l IH] using rev_ind; [constructor|]. unfold late. rewrite fold_left_app. now apply buf_op. Qed.
Theorem C78_close_reports_refuted : exists l w w0 f, complete_session verbatim plain a_config no_overrides a_config some_calls l w /\ open_writer None a_config no_overrides = Ok w0 /\
  snd (file_close verbatim plain (fst (wrun verbatim some_calls w0))) = Ok tt /\ disk_when_close_fails (t_session verbatim plain w0 some_calls) 0 f /\ rejected f.
Proof.
  destruct (check_session_ok plain some_calls (fun l w => match open_writer None a_config no_overrides with Ok w0 => let s := late (t_session verbatim plain w0 some_calls) in
     (0 <? length (f_pend s))%nat && same_bytes (firstn 4 (o_data (f_dev s))) (zeros 4) && match snd (file_close verbatim plain (fst (wrun verbatim some_calls w0))) with Ok _ => true | _ => false end | _ => false end)) as (l & w & S & T); [vm_compute; reflexivity|apply plain_reorders|apply some_calls_wf|].
  exists l, w. destruct (open_writer None a_config no_overrides) as [w0| |] eqn:O; [|discriminate..]. exists w0. cbv zeta in T. apply andb_prop in T as (T & T3). apply andb_prop in T as (T1 & T2). apply Nat.ltb_lt in T1. apply same_bytes_eq in T2.
  eexists. split; [exact S|]. split; [reflexivity|]. split; [destruct (snd (file_close _ _ _)) as [[]| |]; [reflexivity|discriminate..]|]. split; [exists (late (t_session verbatim plain w0 some_calls)); split; [apply late_ok|split; [exact T1|reflexivity]]|].
  rewrite firstn_O, put_nil. apply head_rejected. rewrite T2. reflexivity.
Qed.
Print Assumptions C78_close_reports_refuted.
(* before that a chunk can be lost although its AddNode has returned *)
Theorem C78_chunk_lost_refuted : exists w0 w l op n f, open_writer None a_config no_overrides = Ok w0 /\ wrun verbatim some_calls w0 = (w, l) /\ In (op, Ok (Some n)) l /\
  disk_when_killed (t_reserve (copc_offset (w_cfg w0)) ++ t_run verbatim some_calls w0) f /\ f = [] /\ 0 < e_size (n_entry n).
Proof.
  destruct (check_calls_ok some_calls (fun w l => match open_writer None a_config no_overrides with Ok w0 => same_bytes (o_data (f_dev (late (t_reserve (copc_offset (w_cfg w0)) ++ t_run verbatim some_calls w0)))) [] &&
    match l with (_, Ok (Some n)) :: _ => 0 <? e_size (n_entry n) | _ => false end | _ => false end)) as (w0 & w & l & O & R & T); [vm_compute; reflexivity|].
  rewrite O in T. apply andb_prop in T as (T1 & T2). apply same_bytes_eq in T1. destruct l as [|(op, [[n|]| |]) l]; try discriminate. apply Z.ltb_lt in T2.
  exists w0, w, ((op, Ok (Some n)) :: l), op, n, []. split; [exact O|]. split; [exact R|]. split; [now left|]. split; [|auto].
  eexists _, [], (late _). split; [symmetry; apply app_nil_r|]. split; [apply late_ok|]. now rewrite T1.
Qed.
Print Assumptions C78_chunk_lost_refuted.
Example C78_nonvacuous : exists l w w0 f1 f2, complete_session verbatim plain a_config no_overrides a_config some_calls l w /\ open_writer None a_config no_overrides = Ok w0 /\
  disk_when_closed (t_session verbatim plain w0 some_calls) f1 /\ disk_when_killed (t_session verbatim plain w0 some_calls) f2 /\ (length f2 > 900)%nat /\ f2 <> f1 /\
  (exists a b s op n, t_session verbatim plain w0 some_calls = (t_reserve (copc_offset (w_cfg w0)) ++ t_run verbatim some_calls w0) ++ SEnd :: a ++ b /\
     buffered ((t_reserve (copc_offset (w_cfg w0)) ++ t_run verbatim some_calls w0) ++ SEnd :: a) new_file s /\ In (op, Ok (Some n)) l /\ f_pend s <> []).
Proof.
  destruct (check_session_ok plain some_calls (fun l w => match open_writer None a_config no_overrides with Ok w0 => let t := t_session verbatim plain w0 some_calls in let pre := t_reserve (copc_offset (w_cfg w0)) ++ t_run verbatim some_calls w0 in
     (900 <? length (o_data (f_dev (late t))))%nat && negb (same_bytes (o_data (f_dev (late t))) (o_data (play t (empty_out None)))) &&
     match skipn (length pre) t with SEnd :: SPut x :: _ => negb (length x =? 0)%nat && negb (length (f_pend (late (pre ++ [SEnd; SPut x]))) =? 0)%nat | _ => false end &&
     match l with (_, Ok (Some n)) :: _ => true | _ => false end | _ => false end)) as (l & w & S & T); [vm_compute; reflexivity|apply plain_reorders|apply some_calls_wf|].
  destruct (open_writer None a_config no_overrides) as [w0| |] eqn:O; [|discriminate..]. cbv zeta in T. apply andb_prop in T as (T & T4). apply andb_prop in T as (T & T3). apply andb_prop in T as (T1 & T2). apply Nat.ltb_lt in T1.
  set (t := t_session verbatim plain w0 some_calls) in *. set (pre := t_reserve (copc_offset (w_cfg w0)) ++ t_run verbatim some_calls w0) in *.
  exists l, w, w0, (o_data (put (f_pend (late t)) (f_dev (late t)))), (o_data (f_dev (late t))). split; [exact S|]. split; [reflexivity|]. split; [exists (late t); split; [apply late_ok|reflexivity]|].
  split; [exists t, [], (late t); split; [symmetry; apply app_nil_r|split; [apply late_ok|reflexivity]]|]. split; [lia|]. split.
  - intros E. rewrite (buffered_stream _ _ _ (late_ok t)) in E. cbn [new_file f_pend f_dev] in E. rewrite put_nil in E. apply negb_true_iff in T2. unfold same_bytes in T2. destruct (list_eq_dec Z.eq_dec _ _); [discriminate|contradiction].
  - assert (SP : exists r, t = pre ++ r) by (eexists; unfold t, pre, t_session; rewrite app_assoc; reflexivity). destruct SP as (r & SP). rewrite SP, skipn_app, Nat.sub_diag, skipn_all in T3. cbn [app skipn] in T3.
    destruct r as [|[?| |?] r]; try discriminate. destruct r as [|[x| |?] r]; try discriminate. apply andb_prop in T3 as (_ & T3). apply negb_true_iff, Nat.eqb_neq in T3.
    destruct l as [|(op, [[n|]| |]) l]; try discriminate. exists [SPut x], r, (late (pre ++ [SEnd; SPut x])), op, n. split; [exact SP|]. split; [apply late_ok|]. split; [now left|]. intros E. now rewrite E in T3.
Qed.

(* ---- C79 ---- *)
Lemma play_bad l : forall s, o_bad s = true -> play l s = s.
Proof. induction l as [|[b| |p] l IH]; intros s B; [reflexivity|..]; cbn [play do_sop]; unfold put, seek_end, seek_to; rewrite B; now apply IH. Qed.
Lemma run_bad cd ops w w' l : o_bad (b_out (w_base w)) = true -> wrun cd ops w = (w', l) -> b_out (w_base w') = b_out (w_base w).
Proof. intros B R. pose proof (play_run cd ops w) as P. rewrite R, (play_bad _ _ B) in P. now symmetry. Qed.
Lemma closed_shut cd od w w' : close cd od w = (w', Ok tt) -> file_close cd od w = (shut_writer w', Ok tt).
Proof. intros C. unfold file_close. now rewrite C. Qed.
Lemma close_open cd od w w' : close cd od w = (w', Ok tt) -> ModelWriter.b_open (w_base w') = false.
Proof.
  intros H. unfold close in H. destruct (ModelWriter.b_open (w_base w)) eqn:O; cbn [negb] in H; [|now apply (f_equal fst) in H; cbn [fst] in H; subst w']. destruct (copc_offset _); [|discriminate..].
  destruct (write_chunk_table _ _ _) as (b1, [?| |]); [|discriminate..]. destruct (compute_hierarchy _ _); [|discriminate..].
  destruct (write_page_tree _ _ _ _) as (w1, [?| |]); cbn [then_] in H; [|discriminate..]. destruct (copc_write_header _ _) as (w2, [?| |]) eqn:E; cbn [then_] in H; [|discriminate..].
  apply (f_equal fst) in H. cbn [fst] in H. now subst w'.
Qed.
Lemma step_open cd op w : ModelWriter.b_open (w_base (fst (wstep cd op w))) = ModelWriter.b_open (w_base w).
Proof.
  assert (WC : forall h data n comp b, ModelWriter.b_open (fst (write_chunk cd h data n comp b)) = ModelWriter.b_open b).
  { intros. unfold write_chunk. destruct (_ <=? 0); [reflexivity|]. destruct (if comp then _ else _) as [(x, m)| |]; [|reflexivity..]. destruct (_ <=? 0); [reflexivity|]. now destruct (_ <? _). }
  assert (D : forall k data n comp p, ModelWriter.b_open (w_base (fst (do_add_node cd k data n comp p w))) = ModelWriter.b_open (w_base w)).
  { intros. unfold do_add_node. destruct (_ || _); [reflexivity|]. destruct (negb _); [reflexivity|]. pose proof (WC (c_hdr (w_cfg w)) data n comp (w_base w)) as X. now destruct (write_chunk _ _ _ _ _ _) as (b, [((o, z), m)| |]). }
  assert (A : forall k data p, ModelWriter.b_open (w_base (fst (add_node cd k data p w))) = ModelWriter.b_open (w_base w)).
  { intros. unfold add_node. destruct data; [reflexivity|]. destruct (_ =? 0); [reflexivity|]. destruct (negb _); [reflexivity|]. apply D. }
  destruct op; cbn [wstep].
  - rewrite some_node_fst. apply A.
  - rewrite some_node_fst. unfold add_node_points. cbv zeta. destruct (c_pts c); [reflexivity|]. destruct (_ || _); [reflexivity|]. destruct (points_pack _ _ _ _); [apply A|reflexivity..].
  - rewrite some_node_fst. unfold add_node_compressed. destruct (_ =? 0); [reflexivity|apply D].
  - pose proof (move_base k page w) as M. destruct (change_node_page k page w) as (w1, [?| |]); cbn [fst] in *; now rewrite M.
  - destruct (edit_header _ _); reflexivity.
  - reflexivity.
  - destruct (ModelExtents.set_nth _ _ _); reflexivity.
Qed.
Lemma run_open cd ops : forall w w' l, wrun cd ops w = (w', l) -> ModelWriter.b_open (w_base w') = ModelWriter.b_open (w_base w).
Proof.
  induction ops as [|op ops IH]; intros w w' l R; cbn [wrun] in R; [now apply (f_equal fst) in R; cbn [fst] in R; subst w'|]. pose proof (step_open cd op w) as S.
  destruct (wstep cd op w) as (w1, r) eqn:E. cbn [fst] in S. destruct r; [|destruct (wrun cd ops w1) as (w2, l2) eqn:R2; apply (f_equal fst) in R; cbn [fst] in R; subst w'; rewrite <- S; eapply IH; eauto|].
  - destruct (wrun cd ops w1) as (w2, l2) eqn:R2. apply (f_equal fst) in R. cbn [fst] in R. subst w'. rewrite <- S. eapply IH; eauto.
  - apply (f_equal fst) in R. cbn [fst] in R. now subst w'.
Qed.
(* once Close has returned, no call changes the file, and Close (the destructor calls it) does nothing *)
Theorem C79_closed_file_is_final : forall cd od od2 ops w w1 w2 l, file_close cd od w = (w1, Ok tt) -> wrun cd ops w1 = (w2, l) ->
  file w2 = file w1 /\ file_close cd od2 w2 = (w2, Ok tt) /\ exists w', close cd od w = (w', Ok tt) /\ file w1 = file w'.
Proof.
  intros cd od od2 ops w w1 w2 l C R. unfold file_close in C. destruct (close cd od w) as (w', [[]| |]) eqn:CL; [|discriminate..]. pose proof (close_open _ _ _ _ CL) as OP. apply (f_equal fst) in C. cbn [fst] in C. subst w1.
  assert (B : o_bad (b_out (w_base (shut_writer w'))) = true) by reflexivity. pose proof (run_bad _ _ _ _ _ B R) as X. pose proof (run_open _ _ _ _ _ R) as Y. cbn [shut_writer with_base w_base with_out ModelWriter.b_open] in Y. rewrite OP in Y.
  split; [unfold file; now rewrite X|]. split; [|exists w'; split; reflexivity]. unfold file_close, close. rewrite Y. cbn [negb]. f_equal. unfold shut_writer, with_base, with_out. destruct w2 as [b2 c2 ld pg]. cbn [w_base w_cfg w_loaded w_pages] in *. f_equal. destruct b2 as [o ? ? ? ? ?]. cbn [b_out ModelWriter.b_open] in *. f_equal.
  rewrite X. reflexivity.
Qed.
Print Assumptions C79_closed_file_is_final.
(* but AddNode is not refused: it returns a node that is nowhere *)
Theorem C79_add_after_close_refuted : forall cd od w w1 k data n p, file_close cd od w = (w1, Ok tt) -> n <> 0 -> valid k -> valid p -> inside k p ->
  exists w2 nd, wstep cd (WAddCompressed k data n p) w1 = (w2, Ok (Some nd)) /\ file w2 = file w1 /\ e_size (n_entry nd) = 0 /\ e_offset (n_entry nd) = 2 ^ 64 - 1 /\ writer_find_node k w2 = nd.
Proof.
  intros cd od w w1 k data n p C N VK VP I. assert (B : o_bad (b_out (w_base w1)) = true).
  { unfold file_close in C. destruct (close cd od w) as (w', [[]| |]); [|discriminate..]. apply (f_equal fst) in C. cbn [fst] in C. now subst w1. }
  destruct (failed_add_accepted cd k data n p w1 B N VK VP I) as (w2 & nd & S & F & Z1 & Z2). exists w2, nd. split; [exact S|]. split; [exact F|]. split; [exact Z1|]. split; [exact Z2|].
  assert (S2 : wrun cd [WAddCompressed k data n p] w1 = (w2, [(WAddCompressed k data n p, Ok (Some nd))])) by (cbn [wrun]; now rewrite S).
  cbn [wstep] in S. apply some_node_inv in S as (W & A). unfold add_node_compressed, do_add_node in W, A. destruct (n =? 0); [discriminate|]. destruct (_ || _); [discriminate|]. destruct (negb _); [discriminate|].
  destruct (write_chunk _ _ _ _ _ _) as (b, [((o, z), m)| |]); [|discriminate..]. cbn [fst snd] in *. subst w2. assert (E : nd = mkNode (mkEntry k o z m) p) by congruence. subst nd.
  unfold writer_find_node. cbn [w_loaded]. now rewrite mget_mset_same.
Qed.
Print Assumptions C79_add_after_close_refuted.
Lemma laz_run_bad cd ops w w' l : o_bad (b_out (lw_base w)) = true -> lrun cd ops w = (w', l) -> b_out (lw_base w') = b_out (lw_base w).
Proof. intros B R. pose proof (play_laz_run cd ops w) as P. rewrite R, (play_bad _ _ B) in P. now symmetry. Qed.
Lemma lstep_open cd op w : ModelWriter.b_open (lw_base (fst (lstep cd op w))) = ModelWriter.b_open (lw_base w) /\ lw_cfg (fst (lstep cd op w)) = lw_cfg w.
Proof.
  assert (WC : forall h data n comp b, ModelWriter.b_open (fst (write_chunk cd h data n comp b)) = ModelWriter.b_open b).
  { intros. unfold write_chunk. destruct (_ <=? 0); [reflexivity|]. destruct (if comp then _ else _) as [(x, m)| |]; [|reflexivity..]. destruct (_ <=? 0); [reflexivity|]. now destruct (_ <? _). }
  assert (CW : forall h data n comp, ModelWriter.b_open (lw_base (fst (chunk_written (lw_cfg w) (write_chunk cd h data n comp (lw_base w))))) = ModelWriter.b_open (lw_base w) /\ lw_cfg (fst (chunk_written (lw_cfg w) (write_chunk cd h data n comp (lw_base w)))) = lw_cfg w).
  { intros. rewrite <- (WC h data n comp (lw_base w)). now destruct (write_chunk _ _ _ _ _ _) as (b, [x| |]). }
  destruct op; cbn [lstep]; cbv zeta.
  - destruct (c_pts c); [auto|]. destruct (_ || _); [auto|]. destruct (points_pack _ _ _ _); auto.
  - destruct (_ =? 0); auto.
Qed.
Lemma lrun_open cd ops : forall w w' l, lrun cd ops w = (w', l) -> ModelWriter.b_open (lw_base w') = ModelWriter.b_open (lw_base w).
Proof.
  induction ops as [|op ops IH]; intros w w' l R; cbn [lrun] in R; [now apply (f_equal fst) in R; cbn [fst] in R; subst w'|]. destruct (lstep_open cd op w) as (S & _).
  destruct (lstep cd op w) as (w1, r) eqn:E. cbn [fst] in S. destruct r; [destruct (lrun cd ops w1) as (w2, l2) eqn:R2; apply (f_equal fst) in R; cbn [fst] in R; subst w'; rewrite <- S; eapply IH; eauto..|].
  apply (f_equal fst) in R. cbn [fst] in R. now subst w'.
Qed.
Lemma laz_closed_open cd w w' : close_laz cd w = (w', Ok tt) -> ModelWriter.b_open (lw_base w') = false.
Proof.
  unfold close_laz, base_close. intros H. destruct (ModelWriter.b_open (lw_base w)) eqn:O; cbn [negb] in H; [|now apply (f_equal fst) in H; cbn [fst] in H; subst w']. destruct (base_offset _ _); [|discriminate..].
  destruct (write_chunk_table _ _ _) as (b1, [?| |]); cbn [then_] in H; [|discriminate..]. destruct (base_write_header _ _ _) as (b2, [?| |]); cbn [then_] in H; [|discriminate..].
  apply (f_equal fst) in H. cbn [fst] in H. now subst w'.
Qed.
Theorem C79_closed_laz_file_is_final : forall cd ops w w1 w2 l, laz_file_close cd w = (w1, Ok tt) -> lrun cd ops w1 = (w2, l) ->
  laz_file w2 = laz_file w1 /\ laz_file_close cd w2 = (w2, Ok tt) /\ exists w', close_laz cd w = (w', Ok tt) /\ laz_file w1 = laz_file w'.
Proof.
  intros cd ops w w1 w2 l C R. unfold laz_file_close in C. destruct (close_laz cd w) as (w', [[]| |]) eqn:CL; [|discriminate..]. pose proof (laz_closed_open _ _ _ CL) as OP. apply (f_equal fst) in C. cbn [fst] in C. subst w1.
  assert (B : o_bad (b_out (lw_base (shut_laz w'))) = true) by reflexivity. pose proof (laz_run_bad _ _ _ _ _ B R) as X. pose proof (lrun_open _ _ _ _ _ R) as Y. cbn [shut_laz lw_base with_out ModelWriter.b_open] in Y. rewrite OP in Y.
  split; [unfold laz_file; now rewrite X|]. split; [|exists w'; split; reflexivity]. unfold laz_file_close, close_laz, base_close. rewrite Y. cbn [negb]. f_equal. unfold shut_laz, with_out. destruct w2 as [b2 c2]. cbn [lw_base lw_cfg] in *. f_equal. destruct b2 as [o ? ? ? ? ?]. cbn [b_out ModelWriter.b_open] in *. f_equal.
  rewrite X. reflexivity.
Qed.
Print Assumptions C79_closed_laz_file_is_final.
(* WritePointsCompressed is not refused either, and is counted *)
Theorem C79_laz_write_after_close_refuted : forall cd w w1 data n, laz_file_close cd w = (w1, Ok tt) -> n <> 0 ->
  exists w2, lstep cd (LWriteCompressed data n) w1 = (w2, Ok tt) /\ laz_file w2 = laz_file w1 /\ length (b_chunks (lw_base w2)) = S (length (b_chunks (lw_base w1))).
Proof.
  intros cd w w1 data n C N. assert (B : o_bad (b_out (lw_base w1)) = true).
  { unfold laz_file_close in C. destruct (close_laz cd w) as (w', [[]| |]); [|discriminate..]. apply (f_equal fst) in C. cbn [fst] in C. now subst w1. }
  cbn [lstep]. cbv zeta. destruct (Z.eqb_spec n 0); [contradiction|]. unfold write_chunk. rewrite (tell_bad _ B), (put_bad _ _ B), (tell_bad _ B). cbv zeta beta. change (2 ^ 64 - 1 <=? 0) with false. change (to_u 64 (2 ^ 64 - 1 - (2 ^ 64 - 1))) with 0.
  change (INT32_MAX <? 0) with false. cbv iota. eexists. split; [reflexivity|]. cbn [chunk_written lw_base b_chunks]. split; [reflexivity|]. rewrite app_length. cbn. lia.
Qed.
Print Assumptions C79_laz_write_after_close_refuted.
Example C79_nonvacuous : (exists w w1, file_close verbatim plain w = (w1, Ok tt) /\ (length (file w1) > 1600)%nat /\ valid k1 /\ valid k0 /\ inside k1 k0) /\
  exists w w1, laz_file_close verbatim w = (w1, Ok tt) /\ b_chunks (lw_base w1) <> [].
Proof.
  split.
  - destruct (check_session_ok plain some_calls (fun l w => (1600 <? length (file w))%nat)) as (l & w & S & T); [vm_compute; reflexivity|apply plain_reorders|apply some_calls_wf|]. apply Nat.ltb_lt in T.
    destruct S as ((w0 & w1 & O & R & CL) & _). exists w1, (shut_writer w). split; [now apply closed_shut|]. split; [exact T|]. unfold valid, inside; cbn; lia.
  - destruct some_laz_session as (l & w & S & _ & _ & CH). destruct (ProofLaz.laz_closed _ _ _ _ _ S) as (w0 & w1 & cs & h & O & R & C & X & G & L & B). destruct S as (w0' & w1' & O2 & R2 & CL & _).
    exists w1', (shut_laz w). split; [unfold laz_file_close; now rewrite CL|]. cbn [shut_laz lw_base with_out b_chunks]. intros E.
    assert (T : match open_laz_writer None a_laz_config with Ok w0 => match b_chunks (lw_base (fst (close_laz verbatim (fst (lrun verbatim laz_calls w0))))) with [] => false | _ => true end | _ => false end = true) by (vm_compute; reflexivity).
    rewrite O2, R2 in T. cbn [fst] in T. rewrite CL in T. cbn [fst] in T. now rewrite E in T.
Qed.

(* A FileWriter or Writer whose Close threw still accepts nodes (the program may have caught the exception, to go on after removing the
   cause), but it writes them where Close stopped: over the records before the point data and over the points of earlier nodes *)
Definition long_chunk : wop := WAddCompressed (mkKey 5 0 0 0) (repeat 5 2000) 1 root_key.
Theorem C77_add_after_failed_close_refuted : exists w0 w1 l w2 op n w3 m, open_writer None a_config no_overrides = Ok w0 /\ wrun verbatim (some_calls ++ [inverted]) w0 = (w1, l) /\ file_close verbatim plain w1 = (w2, Throw) /\ In (op, Ok (Some n)) l /\
  wstep verbatim long_chunk w2 = (w3, Ok (Some m)) /\ bytes_at (e_offset (n_entry n)) (e_size (n_entry n)) (file w3) <> bytes_at (e_offset (n_entry n)) (e_size (n_entry n)) (file w2) /\ e_offset (n_entry m) < data_start a_config.
Proof.
  destruct (check_calls_ok (some_calls ++ [inverted]) (fun w1 l => match file_close verbatim plain w1 with (w2, Throw) => match wstep verbatim long_chunk w2 with (w3, Ok (Some m)) =>
    match l with (_, Ok (Some n)) :: _ => negb (same_bytes (bytes_at (e_offset (n_entry n)) (e_size (n_entry n)) (file w3)) (bytes_at (e_offset (n_entry n)) (e_size (n_entry n)) (file w2))) | _ => false end && (e_offset (n_entry m) <? data_start a_config) | _ => false end | _ => false end)) as (w0 & w1 & l & O & R & T); [vm_compute; reflexivity|].
  destruct (file_close verbatim plain w1) as (w2, [?| |]) eqn:C; try discriminate T. destruct (wstep verbatim long_chunk w2) as (w3, [[m|]| |]) eqn:S; try discriminate T. apply andb_prop in T as (T & T2). apply Z.ltb_lt in T2. destruct l as [|(op, [[n|]| |]) l]; try discriminate T. apply negb_true_iff in T.
  exists w0, w1, ((op, Ok (Some n)) :: l), w2, op, n, w3, m. split; [exact O|]. split; [exact R|]. split; [exact C|]. split; [now left|]. split; [exact S|]. split; [|exact T2]. intros E. rewrite E in T. unfold same_bytes in T. destruct (list_eq_dec Z.eq_dec _ _); congruence.
Qed.
Print Assumptions C77_add_after_failed_close_refuted.
