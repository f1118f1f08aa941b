(* ProofExport.v - writing the nodes of a COPC file into a LAZ file *)
From Verif Require Import Base BaseFacts ModelFloat ModelKey ModelGeom ModelEntry ModelPoint ModelPoints ModelHeader ModelVlr ModelExtents ModelConfig
  ModelStream ModelWriter ModelReader ModelLazReader ModelExport SpecKey SpecPoint SpecPoints SpecConfig SpecHeader SpecWriter SpecHier SpecFile SpecReader SpecData SpecRound SpecLaz SpecLazRound SpecCopy SpecTotal SpecExport
  ProofPoint ProofPoints ProofStream ProofWriter ProofData ProofData2 ProofReader6 ProofRound ProofMp2 ProofMp3 ProofCopy ProofTrim ProofLaz ProofLazRound.
Open Scope Z_scope.

Section Export.
Variables (f : bytes) (hs : list page_info) (r : reader).
Hypothesis SR : copc_pages f hs.
Hypothesis FL : Z.of_nat (length f) < 2 ^ 63.
Hypothesis RO : reader_on f r.
Definition export_op (n : node) : lop := LWriteCompressed (chunk_in f n) (e_count (n_entry n)).
Lemma export_chunk n : stored_nodes hs n -> whole_chunk f n -> get_compressed_node n r = (r, Ok (chunk_in f n)).
Proof. intros S W. destruct (stored_facts f hs n SR S) as (V & _). apply (compressed_ok f hs FL n r (source_good f hs r SR FL RO) V W). Qed.
Definition exportable (n : node) : Prop := stored_nodes hs n /\ 0 < e_count (n_entry n) /\ whole_chunk f n.
Lemma export_count n : exportable n -> 0 < e_count (n_entry n) <= INT32_MAX.
Proof. intros (S & C & _). destruct (stored_facts f hs n SR S) as (_ & W & _). unfold wf_entry, i32, in_range in W. repeat (apply andb_prop in W as (W & ?)). unfold INT32_MAX in *. lia. Qed.
Lemma export_run cd : forall l w r' w', Forall exportable l -> export_nodes cd l r w = (r', w', Ok tt) ->
  r' = r /\ lrun cd (map export_op l) w = (w', map (fun n => (export_op n, Ok tt)) l).
Proof.
  induction l as [|n l IH]; intros w r' w' F H; cbn [export_nodes] in H; [injection H as <- <-; split; reflexivity|].
  pose proof (Forall_inv F) as N. apply Forall_inv_tail in F. rewrite (export_chunk n (proj1 N) (proj2 (proj2 N))) in H. fold (export_op n) in H.
  destruct (lstep cd (export_op n) w) as (w1, [[]| |]) eqn:A; try discriminate H.
  destruct (IH _ _ _ F H) as (-> & R). split; [reflexivity|]. cbn [map lrun]. rewrite A, R. reflexivity.
Qed.
Lemma export_log cd h : forall l, laz_chunks cd h (map (fun n => (export_op n, Ok tt)) l) = map (fun n => (chunk_in f n, e_count (n_entry n))) l.
Proof. induction l as [|n l IH]; [reflexivity|]. unfold laz_chunks in *. cbn [map flat_map export_op laz_chunk opt_list app]. now rewrite IH. Qed.
Lemma export_total : forall l, total_points (map (fun n => (chunk_in f n, e_count (n_entry n))) l) = point_total l.
Proof. induction l as [|n l IH]; [reflexivity|]. cbn [map point_total fold_right]. unfold point_total in IH. rewrite <- IH. reflexivity. Qed.
Lemma export_size n : stored_nodes hs n -> whole_chunk f n -> Z.of_nat (length (chunk_in f n)) = e_size (n_entry n) /\ 0 <= e_size (n_entry n) <= INT32_MAX.
Proof.
  intros S (W1 & W2). destruct (stored_facts f hs n SR S) as (V & W & _). assert (B : 0 <= e_size (n_entry n) <= INT32_MAX).
  { unfold node_valid, entry_valid in V. apply andb_prop in V as (V & _). apply andb_prop in V as (_ & V). unfold wf_entry, i32, in_range in W. repeat (apply andb_prop in W as (W & ?)). lia. }
  split; [|exact B]. unfold chunk_in, bytes_at. rewrite firstn_length, skipn_length. lia.
Qed.
Lemma export_fit cd h l : Forall exportable l -> laz_chunks_fit cd h (map export_op l).
Proof.
  intros F op b n I E. apply in_map_iff in I as (m & <- & I). rewrite Forall_forall in F. destruct (F m I) as (S & _ & W). destruct (export_size m S W) as (L & B). unfold export_op in E. cbn [laz_chunk] in E. assert (b = chunk_in f m) as -> by congruence. lia.
Qed.
Lemma export_session cd l z w : Forall exportable l -> exporting (export_nodes cd l) cd r z w ->
  laz_session cd z (map export_op l) (map (fun n => (export_op n, Ok tt)) l) w /\ laz_chunks_fit cd (z_hdr z) (map export_op l).
Proof.
  intros F (w0 & w1 & r' & O & G & E & C & L). destruct (export_run cd l w0 r' w1 F E) as (_ & R). split; [|now apply export_fit].
  exists w0, w1. split; [exact O|]. split; [exact R|]. split; [exact C|]. split; [exact G|]. split; [|lia]. apply Forall_forall. intros x I. apply in_map_iff in I as (n & <- & _). discriminate.
Qed.
Lemma write_compressed cd x n w : at_end (b_out (lw_base w)) -> 0 < Z.of_nat (length (laz_file w)) -> n <> 0 -> Z.of_nat (length x) <= INT32_MAX -> Z.of_nat (length (laz_file w)) + Z.of_nat (length x) < 2 ^ 64 ->
  exists w', lstep cd (LWriteCompressed x n) w = (w', Ok tt) /\ lw_cfg w' = lw_cfg w /\ at_end (b_out (lw_base w')) /\ laz_file w' = laz_file w ++ x.
Proof.
  intros AE POS N LX LF. cbn [lstep]. destruct (Z.eqb_spec n 0); [contradiction|]. unfold write_chunk. cbv zeta.
  assert (G : good_out (b_out (lw_base w))) by (destruct AE as (A & B & _); split; auto). assert (PO : o_pos (b_out (lw_base w)) = length (laz_file w)) by apply AE.
  rewrite (tell64_small _ G) by (rewrite PO; lia). rewrite PO. destruct (Z.leb_spec (Z.of_nat (length (laz_file w))) 0); [lia|].
  rewrite put_end by exact AE. change (o_data (b_out (lw_base w))) with (laz_file w). rewrite tell64_small; [|split; reflexivity|cbn [o_pos]; rewrite app_length, Nat2Z.inj_add; lia].
  cbn [o_pos]. rewrite app_length, Nat2Z.inj_add. destruct (Z.leb_spec (Z.of_nat (length (laz_file w)) + Z.of_nat (length x)) 0); [lia|].
  match goal with |- context [INT32_MAX <? to_u 64 ?a] => replace (to_u 64 a) with (Z.of_nat (length x)) by (unfold to_u; rewrite Z.mod_small; lia) end. destruct (Z.ltb_spec INT32_MAX (Z.of_nat (length x))); [lia|].
  eexists. split; [reflexivity|]. cbn [chunk_written lw_cfg lw_base b_out]. split; [reflexivity|]. split; [split; [reflexivity|split; [reflexivity|cbn [o_pos o_data]; now rewrite app_length]]|]. reflexivity.
Qed.
Lemma export_succeeds cd : forall l w, Forall exportable l -> at_end (b_out (lw_base w)) -> 0 < Z.of_nat (length (laz_file w)) -> Z.of_nat (length (laz_file w)) + 2 ^ 31 * Z.of_nat (length l) < 2 ^ 64 ->
  exists w', export_nodes cd l r w = (r, w', Ok tt) /\ Z.of_nat (length (laz_file w')) <= Z.of_nat (length (laz_file w)) + 2 ^ 31 * Z.of_nat (length l).
Proof.
  induction l as [|n l IH]; intros w F AE POS SM; cbn [export_nodes length] in *; [exists w; split; [reflexivity|lia]|].
  pose proof (Forall_inv F) as (S & C & W). apply Forall_inv_tail in F. rewrite (export_chunk n S W). destruct (export_size n S W) as (LC & B). unfold INT32_MAX in *.
  destruct (write_compressed cd (chunk_in f n) (e_count (n_entry n)) w AE POS) as (w' & E & _ & AE' & FW); [lia|unfold INT32_MAX; lia|lia|]. rewrite E.
  destruct (IH w' F AE') as (w2 & E2 & L2); [rewrite FW, app_length; lia|rewrite FW, app_length; lia|]. exists w2. split; [exact E2|]. rewrite FW, app_length in L2. lia.
Qed.
End Export.

(* the points of records stored one after another *)
Lemma decodes_app h d1 d2 p1 p2 : 0 < h_reclen h -> decodes_to h d1 p1 -> decodes_to h d2 p2 -> decodes_to h (d1 ++ d2) (p1 ++ p2).
Proof.
  intros R (L1 & D1) (L2 & D2). split; [rewrite !app_length, !Nat2Z.inj_add; lia|]. intros i p E.
  assert (LD : length d1 = (length p1 * Z.to_nat (h_reclen h))%nat) by nia.
  destruct (Nat.ltb_spec i (length p1)) as [I|I].
  - rewrite nth_error_app1 in E by exact I. destruct (D1 i p E) as (rest & U). destruct (local_unpack _ _ _ _ _ _ _ U) as (pre & Q & A).
    exists (rest ++ d2). rewrite skipn_app. replace (_ - _)%nat with 0%nat by nia. cbn [skipn]. rewrite Q, <- app_assoc. apply A.
  - rewrite nth_error_app2 in E by exact I. destruct (D2 _ p E) as (rest & U). exists rest. rewrite <- U. f_equal. rewrite skipn_app, skipn_all2 by nia. cbn [app]. f_equal. rewrite Nat.mul_sub_distr_r. lia.
Qed.
Lemma decodes_concat h D P : 0 < h_reclen h -> forall l : list node, Forall (fun n => decodes_to h (D n) (P n)) l -> decodes_to h (concat (map D l)) (flat_map P l).
Proof.
  intros R. induction 1 as [|n l X _ IH]; [split; [reflexivity|intros [] q Q; discriminate Q]|]. cbn [map concat flat_map]. now apply decodes_app.
Qed.
Lemma wf_concat D : forall l : list node, Forall (fun n => wf_bytes (D n)) l -> wf_bytes (concat (map D l)).
Proof. induction 1 as [|n l X _ IH]; [constructor|]. cbn [map concat]. apply Forall_app. auto. Qed.
Lemma length_concat rl (D : node -> bytes) : forall l, Forall (fun n => Z.of_nat (length (D n)) = e_count (n_entry n) * rl) l -> Z.of_nat (length (concat (map D l))) = point_total l * rl.
Proof. induction 1 as [|n l X _ IH]; [reflexivity|]. cbn [map concat point_total fold_right]. unfold point_total in IH. rewrite app_length, Nat2Z.inj_add, IH, X. lia. Qed.

(* ---- the loop that goes through points ---- *)
Lemma lrun_all_fit cd : forall ops w w' start cs, 0 < start -> laz_ready (lw_cfg w) -> binv start cs (lw_base w) -> lrun cd ops w = (w', map (fun op => (op, Ok tt)) ops) -> Z.of_nat (length (laz_file w')) < 2 ^ 64 ->
  laz_chunks_fit cd (z_hdr (lw_cfg w)) ops.
Proof.
  induction ops as [|op ops IH]; intros w w' start cs ST G B H L; [intros op b n []|]. cbn [map lrun] in H. destruct (lstep cd op w) as (w1, o) eqn:E. destruct (lstep_grows _ _ _ _ _ (proj1 B) E) as (AE1 & _).
  assert (Q : o = Ok tt /\ lrun cd ops w1 = (w', map (fun op => (op, Ok tt)) ops)).
  { destruct o as [[]| |]; [|destruct (lrun cd ops w1) as (w2, lg); discriminate H|discriminate H]. split; [reflexivity|]. destruct (lrun cd ops w1) as (w2, lg). injection H as -> ->. reflexivity. }
  destruct Q as (-> & R). pose proof R as R'. apply lrun_grows in R' as (_ & x & FX); [|exact AE1].
  assert (L1 : Z.of_nat (length (laz_file w1)) < 2 ^ 64) by (rewrite FX, app_length, Nat2Z.inj_add in L; lia).
  destruct (lstep_spec cd op w w1 (Ok tt) start cs ST G B E L1) as (CF & [(-> & [Q|[Q|(_ & Q)]])|(y & m & CH & B' & Q)]); [discriminate Q..| |].
  - intros op' b n [<-|I] CH; [rewrite Q in CH; discriminate CH|]. eapply (IH w w'); eauto.
  - intros op' b n [<-|I] CH'.
    + rewrite CH in CH'. assert (y = b) as <- by congruence. destruct (Z.ltb_spec INT32_MAX (Z.of_nat (length y))); [discriminate Q|lia].
    + rewrite <- CF in CH'. eapply (IH w1 w'); eauto. now rewrite CF.
Qed.
Fixpoint point_ops (h : las_header) (P : node -> list point) (hp : ModelPoints.heap) (l : list node) : list lop :=
  match l with [] => [] | n :: l => LWrite (hp ++ P n) (mkPoints (h_fmt h) (h_reclen h) (seq (length hp) (length (P n)))) :: point_ops h P (hp ++ P n) l end.
Section Points.
Variables (cd : codec) (f : bytes) (hs : list page_info) (r : reader) (P : node -> list point).
Hypothesis SR : copc_pages f hs.
Hypothesis FL : Z.of_nat (length f) < 2 ^ 63.
Hypothesis RO : reader_on f r.
Let h := c_hdr (r_cfg r).
Definition point_source (n : node) : Prop := stored_nodes hs n /\ node_points cd h f n (P n).
Lemma export_get hp n : point_source n -> get_points_node cd hp n r = (r, Ok (hp ++ P n, mkPoints (h_fmt h) (h_reclen h) (seq (length hp) (length (P n))))).
Proof. intros (S & N). destruct (good_data f hs r (source_good f hs r SR FL RO)) as (RD & RF). destruct (stored_facts f hs n SR S) as (V & _). apply (points_ok cd f n (P n) r hp RD RF FL V N). Qed.
Lemma points_run : forall l hp w r' w', Forall point_source l -> export_points cd l hp r w = (r', w', Ok tt) ->
  r' = r /\ lrun cd (point_ops h P hp l) w = (w', map (fun op => (op, Ok tt)) (point_ops h P hp l)).
Proof.
  induction l as [|n l IH]; intros hp w r' w' F H; cbn [export_points] in H; [injection H as <- <-; split; reflexivity|].
  pose proof (Forall_inv F) as N. apply Forall_inv_tail in F. rewrite (export_get hp n N) in H. cbn [point_ops]. set (op := LWrite _ _) in *.
  destruct (lstep cd op w) as (w1, [[]| |]) eqn:A; try discriminate H.
  destruct (IH _ _ _ _ F H) as (-> & R). split; [reflexivity|]. cbn [map lrun]. rewrite A, R. reflexivity.
Qed.
Lemma accepted_all : forall ops, accepted (map (fun op => (op, Ok tt)) ops) = ops.
Proof. induction ops as [|op ops IH]; [reflexivity|]. unfold accepted in *. cbn [map flat_map app]. now rewrite IH. Qed.
Lemma points_session l hp z w : Forall point_source l -> exporting (export_points cd l hp) cd r z w ->
  laz_session cd z (point_ops h P hp l) (map (fun op => (op, Ok tt)) (point_ops h P hp l)) w /\ laz_chunks_fit cd (z_hdr z) (point_ops h P hp l).
Proof.
  intros F (w0 & w1 & r' & O & G & E & C & L). destruct (points_run l hp w0 r' w1 F E) as (_ & R). destruct (laz_open_inv _ _ O G) as (CF & ST & B). pose proof (close_laz_ge _ _ _ C) as GE.
  split; [|rewrite <- CF; eapply lrun_all_fit; eauto; [now rewrite CF|lia]].
  exists w0, w1. split; [exact O|]. split; [exact R|]. split; [exact C|]. split; [exact G|]. split; [|lia]. apply Forall_forall. intros x I. apply in_map_iff in I as (n & <- & _). discriminate.
Qed.
Lemma source_wf n : point_source n -> Forall (fun p => wf_point p /\ p_fmt p = h_fmt h /\ p_reclen p = h_reclen h) (P n).
Proof. intros (_ & data & (F & R & _ & _ & W & _) & D). apply (decoded_points h data); [split; [exact F|lia]|exact W|exact D]. Qed.
Lemma points_given : forall l hp, Forall point_source l -> Forall wf_point hp -> Forall2 laz_given (point_ops h P hp l) (map P l).
Proof.
  induction l as [|n l IH]; intros hp F W; cbn [point_ops map]; constructor.
  - pose proof (source_wf n (Forall_inv F)) as S. cbn [laz_given c_pts]. split; [apply hget_fresh|]. split; [apply Forall_app; split; [exact W|]; eapply Forall_impl; [|exact S]; cbv beta; tauto|].
    intros a I. cbn [c_pts c_fmt c_reclen] in *. apply in_seq in I. destruct (nth_error (hp ++ P n) a) as [p|] eqn:E; [|apply nth_error_None in E; rewrite app_length in E; lia].
    exists p. split; [reflexivity|]. rewrite nth_error_app2 in E by lia. apply nth_error_In in E. rewrite Forall_forall in S. now apply S in E.
  - apply IH; [now apply Forall_inv_tail in F|]. apply Forall_app. split; [exact W|]. eapply Forall_impl; [|exact (source_wf n (Forall_inv F))]. cbv beta. tauto.
Qed.
(* under a scale and offset that give every stored coordinate back *)
Lemma points_stored z : exact_region (h_scale h) (h_offset h) -> same_meaning h (z_hdr z) -> forall l hp, Forall point_source l ->
  exists datas, Forall2 (laz_stores cd (z_hdr z)) (point_ops h P hp l) datas /\ wf_bytes (concat datas) /\ decodes_to (z_hdr z) (concat datas) (flat_map P l).
Proof.
  intros ER (M1 & M2 & M3 & M4). induction l as [|n l IH]; intros hp F; cbn [point_ops flat_map].
  - exists []. split; [constructor|]. split; [constructor|]. split; [reflexivity|intros [] q Q; discriminate Q].
  - destruct (IH (hp ++ P n) (Forall_inv_tail F)) as (ds & A & B & C). destruct (Forall_inv F) as (_ & data & (F6 & R & _ & _ & W & _) & D). assert (PH : plain_header h) by (split; [exact F6|lia]).
    destruct (exact_pack h (hp ++ P n) PH (seq (length hp) (length (P n))) (P n) (hget_fresh hp (P n)) (decoded_exact h data (P n) PH ER W D)) as (d & PK & DD & WD).
    exists (d :: ds). split; [constructor; [|exact A]; cbn [laz_stores]; now rewrite M3, M4|]. cbn [concat]. split; [apply Forall_app; auto|].
    apply decodes_app; [rewrite M2; pose proof (las_base_range (h_fmt h)); lia|eapply same_decodes; [..|exact DD]; congruence|exact C].
Qed.
End Points.
