(* PropWriter.v - property theorems C28-C31, C36-C43: what a Writer or LazWriter leaves in the file *)
From Verif Require Import BaseFacts ModelFloat ModelKey ModelGeom ModelEntry ModelPoint ModelPoints ModelHeader ModelVlr ModelExtents ModelConfig
  ModelStream ModelWriter SpecKey SpecPoint SpecHeader SpecConfig SpecWriter SpecReject SpecLaz SpecFile SpecHier
  ProofKey ProofPoint2 ProofConfig ProofStream ProofWriter ProofWriter2 ProofWriter3 ProofWriter4 ProofSession ProofClose2 ProofCount ProofResults ProofLaz ProofReject SampleWriter.
Open Scope Z_scope.

(* a session to which all theorems about sessions apply: nodes in two pages, one replaced, one moved, one call refused *)
Lemma some_session : exists l w, complete_session verbatim reversed a_config no_overrides a_config some_calls l w /\ settled l /\ Forall positive some_calls /\
  map (fun x => match snd x with Ok _ => 1 | Throw => 2 | UB => 3 end) l = [1; 1; 1; 1; 2; 1; 1] /\
  chunks_fit verbatim (c_hdr a_config) some_calls /\ (length (c_ebs a_config) <= 341)%nat.
Proof.
  destruct (check_session_ok reversed some_calls (fun l w => settled_b (fun _ => None) l &&
    same_bytes (map (fun x => match snd x with Ok _ => 1 | Throw => 2 | UB => 3 end) l) [1; 1; 1; 1; 2; 1; 1])) as (l & w & S & T);
    [vm_compute; reflexivity|apply reversed_reorders|apply some_calls_wf|].
  apply andb_prop in T as (T1 & T2). exists l, w. split; [exact S|]. split; [now apply settled_b_ok|].
  split; [unfold some_calls; repeat constructor; cbn; lia|]. split; [now apply same_bytes_eq|]. split; [|vm_compute; repeat constructor].
  intros op b n Hin E. assert (X : match chunk_of verbatim (c_hdr a_config) op with Some (b, _) => Z.of_nat (length b) <=? 1000 | None => true end = true).
  { revert Hin. apply (proj1 (forallb_forall (fun op => match chunk_of verbatim (c_hdr a_config) op with Some (b, _) => Z.of_nat (length b) <=? 1000 | None => true end) some_calls)). vm_compute. reflexivity. }
  rewrite E in X. apply Z.leb_le in X. unfold INT32_MAX. lia.
Qed.

(* ---- C28 ---- *)
(* every chunk is where AddNode said, with the key, page, size and count it reported *)
Theorem C28_chunks_kept : forall cd od c v c0 ops l w op n, complete_session cd od c v c0 ops l w -> In (op, Ok (Some n)) l ->
  exists x, chunk_of cd (c_hdr c0) op = Some (x, e_count (n_entry n)) /\ add_keys op = Some (e_key (n_entry n), n_page n) /\
    e_size (n_entry n) = Z.of_nat (length x) /\ bytes_at (e_offset (n_entry n)) (e_size (n_entry n)) (file w) = x.
Proof. exact chunk_kept. Qed.
Print Assumptions C28_chunks_kept.
Example C28_nonvacuous : exists l w op n, complete_session verbatim reversed a_config no_overrides a_config some_calls l w /\ In (op, Ok (Some n)) l /\ e_size (n_entry n) = 96.
Proof.
  destruct (check_session_ok reversed some_calls (fun l w => existsb (fun x => match snd x with Ok (Some n) => e_size (n_entry n) =? 96 | _ => false end) l)) as (l & w & S & T);
    [vm_compute; reflexivity|apply reversed_reorders|apply some_calls_wf|].
  apply existsb_exists in T as ((op, [[n|]| |]) & I & E); try discriminate. exists l, w, op, n. split; [exact S|]. split; [exact I|]. now apply Z.eqb_eq.
Qed.

(* ---- C29 ---- *)
Theorem C29_write_order : forall cd od c v c0 ops l1 op n l2 w, complete_session cd od c v c0 ops (l1 ++ (op, Ok (Some n)) :: l2) w -> chunks_fit cd (c_hdr c0) ops ->
  e_offset (n_entry n) = data_start c0 + 8 + Z.of_nat (length (concat (map fst (chunks_of cd (c_hdr c0) l1)))).
Proof. exact chunk_position. Qed.
Print Assumptions C29_write_order.
Theorem C29_tiling : forall cd od c v c0 ops l w, complete_session cd od c v c0 ops l w -> chunks_fit cd (c_hdr c0) ops ->
  let cs := chunks_of cd (c_hdr c0) l in let data := concat (map fst cs) in let start := data_start c0 + 8 in let table := start + Z.of_nat (length data) in
  las_point_offset (file w) = data_start c0 /\ laz_table_offset (file w) = table /\ bytes_at start (Z.of_nat (length data)) (file w) = data /\
  (exists rest, skipn (Z.to_nat table) (file w) = enc_u32 0 ++ enc_u32 (Z.of_nat (length cs)) ++
    cd_table cd (map (fun c => (snd c mod 2 ^ 64, Z.of_nat (length (fst c)))) cs) ++ rest /\
    las_evlr_offset (file w) = Z.of_nat (length (file w)) - Z.of_nat (length rest)) /\
  Z.of_nat (length cs) < 2 ^ 32.
Proof. intros cd od c v c0 ops l w S F. destruct (tiling _ _ _ _ _ _ _ _ S F) as (A & B & C & D & E & _). cbv zeta. auto. Qed.
Print Assumptions C29_tiling.
Theorem C29_laz_tiling : forall cd z ops l w, laz_session cd z ops l w -> laz_chunks_fit cd (z_hdr z) ops ->
  let f := laz_file w in let cs := laz_chunks cd (z_hdr z) l in let data := concat (map fst cs) in
  let start := laz_start z + 8 in let table := start + Z.of_nat (length data) in
  las_point_offset f = laz_start z /\ laz_table_offset f = table /\ bytes_at start (Z.of_nat (length data)) f = data /\
  (exists rest, skipn (Z.to_nat table) f = enc_u32 0 ++ enc_u32 (Z.of_nat (length cs)) ++
    cd_table cd (map (fun c => (snd c mod 2 ^ 64, Z.of_nat (length (fst c)))) cs) ++ rest /\
    las_evlr_offset f = Z.of_nat (length f) - Z.of_nat (length rest)) /\
  Z.of_nat (length cs) < 2 ^ 32.
Proof. intros cd z ops l w S F. destruct (laz_tiling _ _ _ _ _ S F) as (A & B & C & D & E & _). cbv zeta. auto. Qed.
Print Assumptions C29_laz_tiling.
Example C29_nonvacuous : exists l w, complete_session verbatim reversed a_config no_overrides a_config some_calls l w /\ chunks_fit verbatim (c_hdr a_config) some_calls.
Proof. destruct some_session as (l & w & S & _ & _ & _ & F & _). eauto. Qed.

(* ---- C30 ---- *)
Theorem C30_point_count : forall cd od c v c0 ops l w, complete_session cd od c v c0 ops l w -> chunks_fit cd (c_hdr c0) ops ->
  let cs := chunks_of cd (c_hdr c0) l in las_point_count (file w) = total_points cs mod 2 ^ 64 /\ (0 <= total_points cs < 2 ^ 64 -> las_point_count (file w) = total_points cs).
Proof.
  intros cd od c v c0 ops l w S F. destruct (tiling _ _ _ _ _ _ _ _ S F) as (_ & _ & _ & _ & _ & E). cbv zeta in *. split; [exact E|]. intros R. now rewrite E, Z.mod_small.
Qed.
Print Assumptions C30_point_count.
Theorem C30_laz_point_count : forall cd z ops l w, laz_session cd z ops l w -> laz_chunks_fit cd (z_hdr z) ops ->
  let cs := laz_chunks cd (z_hdr z) l in 0 <= total_points cs < 2 ^ 64 ->
  las_point_count (laz_file w) = total_points cs /\ laz_point_count w = total_points cs /\ laz_chunk_count w = Z.of_nat (length cs).
Proof.
  intros cd z ops l w S F. destruct (laz_tiling _ _ _ _ _ S F) as (_ & _ & _ & _ & _ & A & B & C). cbv zeta in *. intros R. rewrite A, B, C, Z.mod_small by exact R. auto.
Qed.
Print Assumptions C30_laz_point_count.
(* at any time before Close *)
Theorem C30_laz_running_counts : forall cd z ops l w0 w1, laz_ready z -> open_laz_writer None z = Ok w0 -> lrun cd ops w0 = (w1, l) ->
  Z.of_nat (length (laz_file w1)) < 2 ^ 64 -> laz_chunks_fit cd (z_hdr z) ops ->
  let cs := laz_chunks cd (z_hdr z) l in 0 <= total_points cs < 2 ^ 64 -> laz_point_count w1 = total_points cs /\ laz_chunk_count w1 = Z.of_nat (length cs).
Proof.
  intros cd z ops l w0 w1 G O R L F cs T. destruct (laz_counts _ _ _ _ _ _ G O R L F) as (A & B). fold cs in A, B. rewrite A, B, Z.mod_small by exact T. auto.
Qed.
Print Assumptions C30_laz_running_counts.
(* nodes of 1, 2, 2, 5 and 1 points were added *)
Example C30_nonvacuous : exists l w, complete_session verbatim reversed a_config no_overrides a_config some_calls l w /\ chunks_fit verbatim (c_hdr a_config) some_calls /\
  las_point_count (file w) = 11.
Proof.
  destruct (check_session_ok reversed some_calls (fun l w => las_point_count (file w) =? 11)) as (l & w & S & T); [vm_compute; reflexivity|apply reversed_reorders|apply some_calls_wf|].
  exists l, w. destruct some_session as (_ & _ & _ & _ & _ & _ & F & _). split; [exact S|]. split; [exact F|]. now apply Z.eqb_eq.
Qed.

(* ---- C31 ---- *)
(* after any history, a wrong call throws and leaves the writer as it was *)
Theorem C31_bad_calls_throw : forall cd c v c0 ops w0 w l op, init_writer c v = Ok c0 -> ready c0 -> Forall wf_op ops -> open_writer None c v = Ok w0 ->
  wrun cd ops w0 = (w, l) -> Z.of_nat (length (file w)) < 2 ^ 64 -> bad_call (c_hdr c0) l op -> wstep cd op w = (w, Throw).
Proof. exact bad_call_throws. Qed.
Print Assumptions C31_bad_calls_throw.
(* whenever a call throws, the writer is as it was (chunks of at most 2^31-1 bytes) *)
Theorem C31_no_effect : forall cd c v c0 ops w0 w l op w', init_writer c v = Ok c0 -> ready c0 -> Forall wf_op ops -> wf_op op -> open_writer None c v = Ok w0 ->
  wrun cd ops w0 = (w, l) -> wstep cd op w = (w', Throw) -> Z.of_nat (length (file w')) < 2 ^ 64 ->
  (forall b n, chunk_of cd (c_hdr c0) op = Some (b, n) -> Z.of_nat (length b) <= INT32_MAX) -> w' = w.
Proof. exact throw_unchanged. Qed.
Print Assumptions C31_no_effect.
(* and Close gives the file of the session without that call *)
Theorem C31_same_file : forall cd od c v c0 l1 op l2 w, complete_session cd od c v c0 (map fst (l1 ++ (op, Throw) :: l2)) (l1 ++ (op, Throw) :: l2) w ->
  (forall b n, chunk_of cd (c_hdr c0) op = Some (b, n) -> Z.of_nat (length b) <= INT32_MAX) ->
  complete_session cd od c v c0 (map fst (l1 ++ l2)) (l1 ++ l2) w.
Proof. exact without_rejected. Qed.
Print Assumptions C31_same_file.
Lemma opened : exists w0, open_writer None a_config no_overrides = Ok w0.
Proof. destruct a_config_ok as (R & _ & I). unfold open_writer. rewrite I. cbn [bind]. rewrite (proj1 (copc_offset_ok _ (ready_ok _ R))). eexists. reflexivity. Qed.
(* a chunk of 2^31 bytes or more is refused only after it was written and counted *)
Theorem C31_oversize_refuted : forall data, Z.of_nat (length data) = 2 ^ 31 ->
  exists w0 w, open_writer None a_config no_overrides = Ok w0 /\ wstep verbatim (WAddCompressed k0 data 1 k0) w0 = (w, Throw) /\
    file w = file w0 ++ data /\ b_points (w_base w) = b_points (w_base w0) + 1.
Proof.
  intros data L. destruct a_config_ok as (R & _ & I). destruct opened as (w0 & O).
  destruct (open_inv _ _ _ _ O I R) as (C & G & S & (AE & D & OP & CH & PT & _) & _). exists w0.
  cbn [wstep]. unfold add_node_compressed, do_add_node. cbn [key_valid child_of]. change (1 =? 0) with false. change (negb (key_valid k0) || negb (key_valid k0)) with false.
  change (negb (child_of k0 k0)) with false. cbv iota. unfold write_chunk. destruct AE as (NB & CAP & PE).
  assert (LZ : Z.of_nat (length (o_data (b_out (w_base w0)))) = data_start a_config + 8).
  { rewrite D, app_length, zeros_length. cbn [cdata map concat length]. rewrite Nat.add_0_r. apply Z2Nat.id. clear - S. lia. }
  destruct (copc_offset_ok _ G) as (_ & DS).
  assert (T0 : tell64 (b_out (w_base w0)) = data_start a_config + 8). { unfold tell64, to_u. rewrite NB, PE, LZ. apply Z.mod_small. clear - DS. lia. }
  rewrite T0. destruct (Z.leb_spec (data_start a_config + 8) 0) as [X|_]; [lia|].
  assert (PUT : put data (b_out (w_base w0)) = mkOut (o_data (b_out (w_base w0)) ++ data) (length (o_data (b_out (w_base w0))) + length data) false None).
  { unfold put, splice. rewrite NB, CAP, PE, firstn_all, skipn_all2, app_nil_r by lia. rewrite Nat.ltb_irrefl. reflexivity. }
  rewrite PUT. assert (T1 : tell64 (mkOut (o_data (b_out (w_base w0)) ++ data) (length (o_data (b_out (w_base w0))) + length data) false None) = data_start a_config + 8 + 2 ^ 31).
  { unfold tell64, to_u. cbn [o_bad o_pos]. rewrite Nat2Z.inj_add, L, LZ. apply Z.mod_small. clear - DS. lia. }
  cbv beta zeta iota. rewrite T1. destruct (Z.leb_spec (data_start a_config + 8 + 2 ^ 31) 0) as [X|_]; [lia|].
  replace (to_u 64 (data_start a_config + 8 + 2 ^ 31 - (data_start a_config + 8))) with (2 ^ 31) by (unfold to_u; rewrite Z.mod_small; lia).
  change (INT32_MAX <? 2 ^ 31) with true. cbv iota. cbn [some_node]. eexists. split; [exact O|]. split; [reflexivity|].
  unfold file. cbn [w_base with_base b_out o_data b_points]. split; [reflexivity|]. rewrite PT. reflexivity.
Qed.
Print Assumptions C31_oversize_refuted.
Example C31_oversize_nonvacuous : exists data : bytes, Z.of_nat (length data) = 2 ^ 31.
Proof. exists (zeros (Z.to_nat (2 ^ 31))). rewrite zeros_length. apply Z2Nat.id. lia. Qed.
(* the refused call of the sample session, and a wrong call of every kind *)
Example C31_nonvacuous : exists w0 w l, open_writer None a_config no_overrides = Ok w0 /\ wrun verbatim some_calls w0 = (w, l) /\ Z.of_nat (length (file w)) < 2 ^ 64 /\
  In (WAdd k1 [7] k0, Throw) l /\
  Forall (bad_call (c_hdr a_config) l) [WAdd k0 [] k0; WAdd k0 [1] k0; WAdd k0 (repeat 1 48) k1; WAdd (mkKey 1 (-1) 0 0) (repeat 1 48) k0; WAddCompressed k1 [1] 0 k0; WMove (mkKey 1 1 1 1) k0; WMove k2 k2'].
Proof.
  destruct some_session as (l & w & ((w0 & w1 & O & R & CL) & E & RD & WF & RO & AD & L) & _ & _ & M & _). exists w0, w1, l. split; [exact O|]. split; [exact R|].
  pose proof (close_ge _ _ _ _ _ CL) as GE. split; [lia|]. pose proof (wrun_ops _ _ _ _ _ R AD) as MF. unfold some_calls in MF. split.
  - destruct l as [|x0 [|x1 [|x2 [|x3 [|(op, r) l]]]]]; try discriminate. cbn [map fst] in MF. injection MF as _ _ _ _ -> _. cbn [map snd] in M. injection M as _ _ _ _ M _.
    destruct r; try discriminate. cbn [In]. auto 9.
  - assert (RL : h_reclen (c_hdr a_config) = 48) by (vm_compute; reflexivity). repeat (constructor; [cbn [bad_call]|]); [..|constructor]; rewrite ?RL.
    + now left.
    + right. left. vm_compute. discriminate.
    + right. right. right. right. unfold inside. cbn. lia.
    + right. right. left. unfold valid. cbn. lia.
    + now left.
    + right. intros (op & n & p & I & K). apply in_split in I as (a & b & ->). rewrite map_app in MF. cbn [map fst] in MF.
      assert (X : In op some_calls) by (unfold some_calls; rewrite <- MF; apply in_or_app; right; now left). clear - X K.
      unfold some_calls in X. cbn [In] in X. repeat (destruct X as [X|X]; [subst op; discriminate K|]). exact X.
    + left. right. right. unfold inside. cbn. lia.
Qed.

(* ---- C36 ---- *)
(* VLRs: the announced records, followed by their lengths from byte 375, end at or before the point
   data, and exactly there unless extra-byte descriptors of total size 0 were given; the first is the
   COPC info record (user id "copc", record id 1, 160 bytes).  EVLRs: one per page and one for the WKT,
   ending at the end of the file.  With more than 341 descriptors the 16-bit VLR lengths overflow. *)
Theorem C36_directories : forall cd od c v c0 ops l w, complete_session cd od c v c0 ops l w -> (length (c_ebs c0) <= 341)%nat -> Z.of_nat (length ops) < 2 ^ 32 - 2 ->
  let f := file w in
  follow 54 2 (Z.to_nat (las_vlr_count f)) 375 f <= las_point_offset f /\
  (eb_total (c_ebs c0) <> 0 \/ c_ebs c0 = [] -> follow 54 2 (Z.to_nat (las_vlr_count f)) 375 f = las_point_offset f) /\
  num_at 393 2 f = 1 /\ bytes_at 377 16 f = s_copc ++ zeros 12 /\ num_at 395 2 f = 160 /\
  follow 60 8 (Z.to_nat (las_evlr_count f)) (las_evlr_offset f) f = Z.of_nat (length f) /\
  (settled l -> exists pages, NoDup pages /\ (forall p, In p pages <-> page_of_view (view_of l) p) /\
     las_evlr_count f = Z.of_nat (length pages) + match c_wkt c0 with [] => 0 | _ => 1 end).
Proof. exact directories. Qed.
Print Assumptions C36_directories.
Theorem C36_laz_directories : forall cd z ops l w, laz_session cd z ops l w -> (length (z_ebs z) <= 341)%nat -> let f := laz_file w in
  follow 54 2 (Z.to_nat (las_vlr_count f)) 375 f <= las_point_offset f /\
  (eb_total (z_ebs z) <> 0 \/ z_ebs z = [] -> follow 54 2 (Z.to_nat (las_vlr_count f)) 375 f = las_point_offset f) /\
  las_evlr_count f = (match z_wkt z with [] => 0 | _ => 1 end) /\
  follow 60 8 (Z.to_nat (las_evlr_count f)) (las_evlr_offset f) f = Z.of_nat (length f).
Proof. exact laz_directories. Qed.
Print Assumptions C36_laz_directories.
(* five VLRs up to byte 1625; two pages and the WKT *)
Example C36_nonvacuous : exists l w, complete_session verbatim reversed a_config no_overrides a_config some_calls l w /\ (length (c_ebs a_config) <= 341)%nat /\ settled l /\
  las_vlr_count (file w) = 5 /\ las_evlr_count (file w) = 3 /\ las_point_offset (file w) = 1625.
Proof.
  destruct (check_session_ok reversed some_calls (fun l w => settled_b (fun _ => None) l && (las_vlr_count (file w) =? 5) && (las_evlr_count (file w) =? 3) && (las_point_offset (file w) =? 1625)))
    as (l & w & S & T); [vm_compute; reflexivity|apply reversed_reorders|apply some_calls_wf|].
  rewrite !andb_true_iff, !Z.eqb_eq in T. destruct T as (((T1 & T2) & T3) & T4). exists l, w. split; [exact S|]. split; [vm_compute; repeat constructor|]. split; [now apply settled_b_ok|auto].
Qed.
Definition a_laz_config : laz_config := mkLaz (new_header 7 48 zero_vec zero_vec false) [65; 66] [an_eb].
Definition laz_calls : list lop := [LWriteCompressed [1; 2; 3] 5; LWriteCompressed [7] 0; LWriteCompressed [9; 9] 1].
Lemma some_laz_session : exists l w, laz_session verbatim a_laz_config laz_calls l w /\ map snd l = [Ok tt; Throw; Ok tt] /\ laz_chunks_fit verbatim (z_hdr a_laz_config) laz_calls /\
  laz_chunks verbatim (z_hdr a_laz_config) l = [([1; 2; 3], 5); ([9; 9], 1)].
Proof.
  set (run := match open_laz_writer None a_laz_config with Ok w0 => let '(w1, l) := lrun verbatim laz_calls w0 in (w0, w1, l, close_laz verbatim w1) | _ => (mkLW (mkBW (empty_out None) true [] 0 0 0) a_laz_config, mkLW (mkBW (empty_out None) true [] 0 0 0) a_laz_config, [], (mkLW (mkBW (empty_out None) true [] 0 0 0) a_laz_config, UB)) end).
  exists (snd (fst run)), (fst (snd run)). split; [exists (fst (fst (fst run))), (snd (fst (fst run)))|].
  - split; [vm_compute; reflexivity|]. split; [vm_compute; reflexivity|]. split; [vm_compute; reflexivity|]. split; [|split].
    + unfold laz_ready, a_laz_config. cbn [z_hdr z_ebs]. split; [reflexivity|]. split; [cbn; lia|]. split; [repeat constructor; cbn; lia|]. split; [reflexivity|].
      split; [unfold wf_hdr; cbn; repeat split; try lia; repeat (first [lia | constructor])|]. split; [unfold wf_eb; repeat constructor; cbn; lia|reflexivity].
    + vm_compute. repeat constructor; discriminate.
    + vm_compute. reflexivity.
  - split; [vm_compute; reflexivity|]. split; [|vm_compute; reflexivity].
    intros op b n I E. unfold laz_calls in I. cbn [In] in I. repeat (destruct I as [I|I]; [subst op; cbn [laz_chunk] in E; injection E as <- <-; vm_compute; discriminate|]). contradiction.
Qed.

(* ---- C37 ---- *)
Theorem C37_close_twice : forall cd od od' w w', close cd od w = (w', Ok tt) -> close cd od' w' = (w', Ok tt).
Proof. exact close_idempotent. Qed.
Print Assumptions C37_close_twice.
Theorem C37_laz_close_twice : forall cd w w', close_laz cd w = (w', Ok tt) -> close_laz cd w' = (w', Ok tt).
Proof. exact close_laz_idempotent. Qed.
Print Assumptions C37_laz_close_twice.
Example C37_nonvacuous : exists w w', close verbatim plain w = (w', Ok tt) /\ file w' <> file w.
Proof.
  destruct (check_session_ok plain some_calls (fun l w => (1625 <? Z.of_nat (length (file w))) && (num_at 0 4 (file w) =? 1179861324))) as (l & w & S & T);
    [vm_compute; reflexivity|apply plain_reorders|apply some_calls_wf|].
  pose proof S as ((w0 & w1 & O & R & CL) & E & RD & WF & RO & AD & L). exists w1, w. split; [exact CL|]. intros X. apply andb_prop in T as (_ & T). apply Z.eqb_eq in T. rewrite X in T.
  destruct (complete_closed _ _ _ _ _ _ _ _ S) as (w0' & w1' & cs & PG & ws & h & O' & R' & HS & _). rewrite O in O'. injection O' as <-. rewrite R in R'. injection R' as <-.
  destruct (hs_base _ _ _ _ _ _ HS) as (_ & D & _). unfold file in T. rewrite D in T. clear - T. revert T. unfold num_at, bytes_at. cbn [Z.to_nat skipn].
  set (n := Z.to_nat (data_start a_config + 8)). assert (N : n = (4 + (n - 4))%nat) by (assert (n = 1633%nat) by (vm_compute; reflexivity); lia). rewrite N. cbn. discriminate.
Qed.

(* ---- C38 ---- *)
(* calls other than AddNode never change the file, closed or not *)
Theorem C38_other_calls : forall cd op w w' r, add_keys op = None -> wstep cd op w = (w', r) -> file w' = file w.
Proof. exact other_keeps. Qed.
Print Assumptions C38_other_calls.
(* AddNodeCompressed after Close is accepted and overwrites the chunk table offset and the first chunk;
   a further Close does not repair it *)
Theorem C38_refuted : exists ops l w op w' n, complete_session verbatim plain a_config no_overrides a_config ops l w /\ wstep verbatim op w = (w', Ok (Some n)) /\
  file w' <> file w /\ laz_table_offset (file w') <> laz_table_offset (file w) /\ close verbatim plain w' = (w', Ok tt).
Proof.
  set (op := WAddCompressed k1 [9; 9; 9; 9; 9; 9; 9; 9; 9; 9] 1 k0).
  destruct (check_session_ok plain some_calls (fun l w => match wstep verbatim op w with (w', Ok (Some n)) =>
    negb (laz_table_offset (file w') =? laz_table_offset (file w)) && negb (b_open (w_base w')) | _ => false end)) as (l & w & S & T); [vm_compute; reflexivity|apply plain_reorders|apply some_calls_wf|].
  exists some_calls, l, w, op. destruct (wstep verbatim op w) as (w', [[n|]| |]) eqn:E; try discriminate. exists w', n. apply andb_prop in T as (T & O). split; [exact S|]. split; [reflexivity|].
  apply negb_true_iff, Z.eqb_neq in T. split; [intros X; apply T; now rewrite X|]. split; [exact T|]. unfold close. rewrite O. reflexivity.
Qed.
Print Assumptions C38_refuted.
Example C38_nonvacuous : add_keys (WMove k2 k0) = None /\ add_keys (WSetHeader (c_hdr a_config)) = None. Proof. split; reflexivity. Qed.

(* ---- C39 ---- *)
Theorem C39_close_succeeds : forall cd od c v c0 ops w0 w1 l w r, init_writer c v = Ok c0 -> ready c0 -> Forall wf_op ops -> reorders od ->
  open_writer None c v = Ok w0 -> wrun cd ops w0 = (w1, l) -> all_defined l ->
  (forall op x p, In (op, Ok x) l -> target_page op = Some p -> in_octree p) -> Z.of_nat (length ops) < 2 ^ 25 -> ordered_bounds (c_hdr (w_cfg w1)) ->
  close cd od w1 = (w, r) -> Z.of_nat (length (file w)) < 2 ^ 64 -> r = Ok tt.
Proof. exact close_succeeds. Qed.
Print Assumptions C39_close_succeeds.
(* (1,2,2,2) is not a cell of the octree, yet accepted as a page *)
Theorem C39_refuted : exists ops w0 w1 l, Forall wf_op ops /\ open_writer None a_config no_overrides = Ok w0 /\ wrun verbatim ops w0 = (w1, l) /\
  Forall (fun x => exists n, snd x = Ok n) l /\ snd (close verbatim plain w1) = Throw.
Proof.
  exists [WAddCompressed (mkKey 1 2 2 2) [1; 2; 3] 1 (mkKey 1 2 2 2)].
  destruct opened as (w0 & O).
  assert (X : match open_writer None a_config no_overrides with Ok w0 => let (w1, l) := wrun verbatim [WAddCompressed (mkKey 1 2 2 2) [1; 2; 3] 1 (mkKey 1 2 2 2)] w0 in
    forallb (fun x => match snd x with Ok _ => true | _ => false end) l && match snd (close verbatim plain w1) with Throw => true | _ => false end | _ => false end = true) by (vm_compute; reflexivity).
  rewrite O in X. destruct (wrun verbatim _ w0) as (w1, l) eqn:R. exists w0, w1, l. apply andb_prop in X as (A & B). split; [repeat constructor; cbn; lia|]. split; [exact O|]. split; [exact R|]. split.
  - apply Forall_forall. intros x I. rewrite forallb_forall in A. apply A in I. destruct (snd x); try discriminate. eauto.
  - destruct (snd (close verbatim plain w1)); congruence.
Qed.
Print Assumptions C39_refuted.
(* bounds in the wrong order, which no setter refuses, make Close throw as well *)
Example C39_nonvacuous : exists w0 w1 l, open_writer None a_config no_overrides = Ok w0 /\ wrun verbatim some_calls w0 = (w1, l) /\ all_defined l /\
  (forall op x p, In (op, Ok x) l -> target_page op = Some p -> in_octree p) /\ ordered_bounds (c_hdr (w_cfg w1)).
Proof.
  destruct (check_session_ok plain some_calls (fun l w => negb (fgt (vx (h_min (c_hdr (w_cfg w)))) (vx (h_max (c_hdr (w_cfg w))))))) as (l & w & S & T);
    [vm_compute; reflexivity|apply plain_reorders|apply some_calls_wf|].
  destruct S as ((w0 & w1 & O & R & CL) & E & RD & WF & RO & AD & L). exists w0, w1, l. split; [exact O|]. split; [exact R|]. split; [exact AD|].
  pose proof (wrun_ops _ _ _ _ _ R AD) as MF. split.
  - intros op x p I K. apply (in_map fst) in I. cbn [fst] in I. rewrite MF in I. unfold some_calls in I. cbn [In] in I.
    repeat (destruct I as [I|I]; [subst op; cbn [target_page] in K; injection K as <-; unfold in_octree; cbn; lia|]). contradiction.
  - assert (X : match open_writer None a_config no_overrides with Ok w0 => let (w1, l) := wrun verbatim some_calls w0 in let h := c_hdr (w_cfg w1) in
      negb (fgt (vx (h_min h)) (vx (h_max h))) && negb (fgt (vy (h_min h)) (vy (h_max h))) && negb (fgt (vz (h_min h)) (vz (h_max h))) | _ => false end = true) by (vm_compute; reflexivity).
    rewrite O, R in X. cbv zeta in X. rewrite !andb_true_iff, !negb_true_iff in X. unfold ordered_bounds. tauto.
Qed.

(* ---- C40 ---- *)
(* AddNode always stores a positive count, AddNodeCompressed if it is given one *)
Theorem C40_positive : forall cd od c v c0 ops l w op n, complete_session cd od c v c0 ops l w -> In (op, Ok (Some n)) l -> positive op -> 0 < e_count (n_entry n).
Proof. exact count_positive. Qed.
Print Assumptions C40_positive.
Definition K2 := mkKey 2 0 0 0.
Definition P1 := mkKey 1 0 0 0.
(* a node added with count -1 is stored in the root page as an entry that means "page" *)
Theorem C40_refuted : exists ops l w n, complete_session verbatim plain a_config no_overrides a_config ops l w /\ l = [(WAddCompressed K2 [1; 2; 3] (-1) k0, Ok (Some n))] /\
  has_entry (file w) (copc_root_offset (file w)) (copc_root_size (file w)) (n_entry n) /\ is_sub (n_entry n) = true.
Proof.
  destruct (check_session_ok plain [WAddCompressed K2 [1; 2; 3] (-1) k0] (fun l w => match l with [(_, Ok (Some n))] =>
    entry_at (file w) (copc_root_offset (file w)) (copc_root_size (file w)) 0 (n_entry n) && is_sub (n_entry n) | _ => false end)) as (l & w & S & T);
    [vm_compute; reflexivity|apply plain_reorders|repeat constructor; cbn; lia|].
  destruct l as [|(op, [[n|]| |]) [|]]; try discriminate. apply andb_prop in T as (T1 & T2). eexists _, _, w, n. split; [exact S|].
  split; [|split; [eapply entry_at_ok; exact T1|exact T2]]. destruct S as ((w0 & w1 & _ & R & _) & _ & _ & _ & _ & AD & _). pose proof (wrun_ops _ _ _ _ _ R AD) as M.
  cbn [map fst] in M. injection M as ->. reflexivity.
Qed.
Print Assumptions C40_refuted.
Example C40_nonvacuous : exists l w op n, complete_session verbatim reversed a_config no_overrides a_config some_calls l w /\ In (op, Ok (Some n)) l /\ positive op.
Proof.
  destruct C28_nonvacuous as (l & w & op & n & S & I & _). exists l, w, op, n. split; [exact S|]. split; [exact I|].
  destruct some_session as (_ & _ & _ & _ & P & _). destruct S as ((w0 & w1 & _ & R & _) & _ & _ & _ & _ & AD & _). pose proof (wrun_ops _ _ _ _ _ R AD) as M.
  apply (in_map fst) in I. cbn [fst] in I. rewrite M in I. rewrite Forall_forall in P. auto.
Qed.

(* ---- C41 ---- *)
(* the closed file stores exactly the nodes of the log, each in the page it was last put in, and the
   pages are the root and those holding a node: for histories in which no node is moved a second
   time without being added again and no key is added again under another page *)
Theorem C41_hierarchy : forall cd od c v c0 ops l w, complete_session cd od c v c0 ops l w -> settled l -> Forall positive ops ->
  exists hs, stored_hierarchy (file w) (copc_root_offset (file w)) (copc_root_size (file w)) hs /\
    (forall k n p, view_of l k = Some (n, p) -> stored_only_in hs k n p) /\
    (forall k, view_of l k = None -> forall i e, In i hs -> In e (pi_ents i) -> is_sub e = false -> e_key e <> k) /\
    forall p, In p (map pi_key hs) <-> page_of_view (view_of l) p.
Proof. exact hierarchy_in_file. Qed.
Print Assumptions C41_hierarchy.
(* in particular for a move just before Close: the node is in page p only, every other node is where it
   was, and a page other than the root without nodes is gone *)
Theorem C41_move : forall cd od c v c0 ops l w k p r n q, complete_session cd od c v c0 ops (l ++ [(WMove k p, Ok r)]) w ->
  settled (l ++ [(WMove k p, Ok r)]) -> Forall positive ops -> view_of l k = Some (n, q) ->
  exists hs, stored_hierarchy (file w) (copc_root_offset (file w)) (copc_root_size (file w)) hs /\ stored_only_in hs k n p /\
    (forall k' n' q', k' <> k -> view_of l k' = Some (n', q') -> stored_only_in hs k' n' q') /\
    (q <> root_key -> q <> p -> (forall k' n', k' <> k -> view_of l k' <> Some (n', q)) -> ~ In q (map pi_key hs)).
Proof.
  intros cd od c v c0 ops l w k p r n q S ST PO V. destruct (hierarchy_in_file _ _ _ _ _ _ _ _ S ST PO) as (hs & H & A & _ & P).
  assert (E : view_of (l ++ [(WMove k p, Ok r)]) = set_view k (n, p) (view_of l)).
  { unfold view_of. rewrite fold_left_app. cbn [fold_left see]. fold (view_of l). rewrite V. reflexivity. }
  rewrite E in A, P. exists hs. split; [exact H|]. split; [apply A, set_view_same|]. split.
  - intros k' n' q' N V'. apply A. rewrite set_view_other; [exact V'|congruence].
  - intros NR NP EM I. apply P in I as [I|(k' & n' & I)]; [contradiction|]. destruct (key_eqb_spec k k') as [<-|NK].
    + rewrite set_view_same in I. congruence.
    + rewrite set_view_other in I by exact NK. apply (EM k' n'); [congruence|exact I].
Qed.
Print Assumptions C41_move.
(* moving a node to the page it was added to and never moved from does nothing *)
Theorem C41_move_to_current : forall cd c v c0 ops w0 w l k n, init_writer c v = Ok c0 -> ready c0 -> Forall wf_op ops -> open_writer None c v = Ok w0 ->
  wrun cd ops w0 = (w, l) -> all_defined l -> settled l -> Z.of_nat (length (file w)) < 2 ^ 64 -> view_of l k = Some (n, n_page n) ->
  wstep cd (WMove k (n_page n)) w = (w, Ok None).
Proof.
  intros cd c v c0 ops w0 w l k n E R WF O H AD ST L V. destruct (run_history _ _ _ _ _ _ _ _ O E R WF H L) as (cs & HS).
  pose proof (hs_hier _ _ _ _ _ _ HS AD ST) as HI. destruct (hi_view _ _ HI _ _ _ V) as (_ & K & C & _).
  cbn [wstep]. unfold change_node_page. rewrite (hi_loaded _ _ HI k), V. cbn [option_map fst].
  pose proof (child_of_valid_l _ _ C) as V1. pose proof (child_of_valid_r _ _ C) as V2. apply key_valid_spec in V1, V2. rewrite V1, V2, C, key_eqb_refl. reflexivity.
Qed.
Print Assumptions C41_move_to_current.
(* a second move leaves the node in both pages: here in page (1,0,0,0), which a sub-page entry of the
   root page refers to, and in page (2,0,0,0), which an entry of that page refers to *)
Theorem C41_second_move_refuted : exists l w n o1 s1 o2 s2, complete_session verbatim plain a_config no_overrides a_config (map fst l) l w /\
  l = [(WAddCompressed K2 [1; 2; 3] 1 k0, Ok (Some n)); (WMove K2 P1, Ok None); (WMove K2 K2, Ok None)] /\
  has_entry (file w) (copc_root_offset (file w)) (copc_root_size (file w)) (mkEntry P1 o1 s1 (-1)) /\ has_entry (file w) o1 s1 (n_entry n) /\
  has_entry (file w) o1 s1 (mkEntry K2 o2 s2 (-1)) /\ has_entry (file w) o2 s2 (n_entry n).
Proof.
  set (ops := [WAddCompressed K2 [1; 2; 3] 1 k0; WMove K2 P1; WMove K2 K2]).
  destruct (check_session_ok plain ops (fun l w => match l with [(_, Ok (Some n)); (_, Ok None); (_, Ok None)] => let f := file w in
    entry_at f (copc_root_offset f) (copc_root_size f) 0 (mkEntry P1 1812 64 (-1)) && entry_at f 1812 64 0 (n_entry n) && entry_at f 1812 64 1 (mkEntry K2 1720 32 (-1)) && entry_at f 1720 32 0 (n_entry n)
    | _ => false end)) as (l & w & S & T); [vm_compute; reflexivity|apply plain_reorders|repeat constructor; cbn; lia|].
  assert (M : map fst l = ops) by (destruct S as ((w0 & w1 & _ & R & _) & _ & _ & _ & _ & AD & _); exact (wrun_ops _ _ _ _ _ R AD)).
  destruct l as [|(op1, [[n|]| |]) [|(op2, [[n2|]| |]) [|(op3, [[n3|]| |]) [|]]]]; try discriminate. cbn [map fst] in M.
  exists [(op1, Ok (Some n)); (op2, Ok None); (op3, Ok None)], w, n, 1812, 64, 1720, 32. cbn [map fst]. split; [rewrite M; exact S|]. split; [unfold ops in M; injection M as -> -> ->; reflexivity|].
  cbv zeta in T. rewrite !andb_true_iff in T. destruct T as (((T1 & T2) & T3) & T4). repeat split; eapply entry_at_ok; eassumption.
Qed.
Print Assumptions C41_second_move_refuted.
(* a move back is ignored: the root page has one entry, for page (1,0,0,0), which still has the node *)
Theorem C41_move_back_refuted : exists l w n o1 s1, complete_session verbatim plain a_config no_overrides a_config (map fst l) l w /\
  l = [(WAddCompressed K2 [1; 2; 3] 1 k0, Ok (Some n)); (WMove K2 P1, Ok None); (WMove K2 k0, Ok None)] /\ copc_root_size (file w) = 32 /\
  has_entry (file w) (copc_root_offset (file w)) (copc_root_size (file w)) (mkEntry P1 o1 s1 (-1)) /\ has_entry (file w) o1 s1 (n_entry n).
Proof.
  set (ops := [WAddCompressed K2 [1; 2; 3] 1 k0; WMove K2 P1; WMove K2 k0]).
  destruct (check_session_ok plain ops (fun l w => match l with [(_, Ok (Some n)); (_, Ok None); (_, Ok None)] => let f := file w in
    (copc_root_size f =? 32) && entry_at f (copc_root_offset f) (copc_root_size f) 0 (mkEntry P1 1720 32 (-1)) && entry_at f 1720 32 0 (n_entry n)
    | _ => false end)) as (l & w & S & T); [vm_compute; reflexivity|apply plain_reorders|repeat constructor; cbn; lia|].
  assert (M : map fst l = ops) by (destruct S as ((w0 & w1 & _ & R & _) & _ & _ & _ & _ & AD & _); exact (wrun_ops _ _ _ _ _ R AD)).
  destruct l as [|(op1, [[n|]| |]) [|(op2, [[n2|]| |]) [|(op3, [[n3|]| |]) [|]]]]; try discriminate. cbn [map fst] in M.
  exists [(op1, Ok (Some n)); (op2, Ok None); (op3, Ok None)], w, n, 1720, 32. cbn [map fst]. split; [rewrite M; exact S|]. split; [unfold ops in M; injection M as -> -> ->; reflexivity|].
  cbv zeta in T. rewrite !andb_true_iff in T. destruct T as ((T1 & T2) & T3). split; [now apply Z.eqb_eq|]. split; eapply entry_at_ok; eassumption.
Qed.
Print Assumptions C41_move_back_refuted.
Lemma wrun_prefix cd ops : forall w, map fst (snd (wrun cd ops w)) = firstn (length (snd (wrun cd ops w))) ops.
Proof.
  induction ops as [|op ops IH]; intros w; [reflexivity|]. cbn [wrun]. destruct (wstep cd op w) as (w1, [x| |]); [| |reflexivity];
    specialize (IH w1); destruct (wrun cd ops w1) as (w2, l); cbn [snd map fst length firstn] in *; now rewrite IH.
Qed.
(* a move after the original page was dropped dereferences a null pointer *)
Theorem C41_dropped_page_refuted : exists ops w0, Forall wf_op ops /\ open_writer None a_config no_overrides = Ok w0 /\
  ops = [WAddCompressed K2 [1; 2; 3] 1 P1; WMove K2 k0; WMove K2 K2] /\ In (WMove K2 K2, UB) (snd (wrun verbatim ops w0)).
Proof.
  set (ops := [WAddCompressed K2 [1; 2; 3] 1 P1; WMove K2 k0; WMove K2 K2]). destruct opened as (w0 & O). exists ops, w0. split; [repeat constructor; cbn; lia|]. split; [exact O|]. split; [reflexivity|].
  assert (X : match open_writer None a_config no_overrides with Ok w0 => match snd (wrun verbatim ops w0) with [_; _; (_, UB)] => true | _ => false end | _ => false end = true) by (vm_compute; reflexivity).
  rewrite O in X. unfold ops in *. destruct (snd (wrun verbatim _ w0)) as [|x1 [|x2 [|(op, [?| |]) [|]]]] eqn:E; try discriminate. right. right. left.
  pose proof (wrun_prefix verbatim [WAddCompressed K2 [1; 2; 3] 1 P1; WMove K2 k0; WMove K2 K2] w0) as P. rewrite E in P. cbn [map fst length firstn] in P. injection P as _ _ ->. reflexivity.
Qed.
Print Assumptions C41_dropped_page_refuted.
Example C41_nonvacuous : exists l w n q, complete_session verbatim reversed a_config no_overrides a_config some_calls (l ++ [(WMove k2' k1, Ok None)]) w /\
  settled (l ++ [(WMove k2' k1, Ok None)]) /\ Forall positive some_calls /\ view_of l k2' = Some (n, q) /\ q <> k1.
Proof.
  destruct (check_session_ok reversed some_calls (fun l w => settled_b (fun _ => None) l && match l with [_; _; _; _; _; _; (_, Ok None)] => true | _ => false end &&
    match view_of (firstn 6 l) k2' with Some (n, q) => negb (key_eqb q k1) | None => false end)) as (l & w & S & T); [vm_compute; reflexivity|apply reversed_reorders|apply some_calls_wf|].
  rewrite !andb_true_iff in T. destruct T as ((T1 & T2) & T3).
  assert (M : map fst l = some_calls) by (destruct S as ((w0 & w1 & _ & R & _) & _ & _ & _ & _ & AD & _); exact (wrun_ops _ _ _ _ _ R AD)).
  destruct l as [|x1 [|x2 [|x3 [|x4 [|x5 [|x6 [|(op, [[?|]| |]) [|]]]]]]]]; try discriminate. cbn [map fst] in M. injection M as _ _ _ _ _ _ ->.
  cbn [firstn] in T3. destruct (view_of [x1; x2; x3; x4; x5; x6] k2') as [(n, q)|] eqn:V; [|discriminate].
  exists [x1; x2; x3; x4; x5; x6], w, n, q. split; [exact S|]. split; [now apply settled_b_ok|]. split; [unfold some_calls; repeat constructor; cbn; lia|]. split; [exact V|].
  intros ->. rewrite key_eqb_refl in T3. discriminate.
Qed.

(* ---- C42 ---- *)
(* adding a key again under its page: the closed file has the new node in that page and nothing else under the key *)
Theorem C42_readd : forall cd od c v c0 ops l op k p n w, complete_session cd od c v c0 ops (l ++ [(op, Ok (Some n))]) w ->
  settled (l ++ [(op, Ok (Some n))]) -> Forall positive ops -> add_keys op = Some (k, p) ->
  exists hs, stored_hierarchy (file w) (copc_root_offset (file w)) (copc_root_size (file w)) hs /\ stored_only_in hs k n p.
Proof.
  intros cd od c v c0 ops l op k p n w S ST PO K. destruct (hierarchy_in_file _ _ _ _ _ _ _ _ S ST PO) as (hs & H & A & _). exists hs. split; [exact H|]. apply A.
  unfold view_of. rewrite fold_left_app. cbn [fold_left see]. destruct op; try discriminate K; cbn [add_keys] in K; injection K as -> ->; apply set_view_same.
Qed.
Print Assumptions C42_readd.
(* under another page: the old node stays in the old page *)
Theorem C42_other_page_refuted : exists l w n1 n2 o1 s1, complete_session verbatim plain a_config no_overrides a_config (map fst l) l w /\
  l = [(WAddCompressed K2 [1; 2; 3] 1 k0, Ok (Some n1)); (WAddCompressed K2 [4] 2 P1, Ok (Some n2))] /\
  has_entry (file w) (copc_root_offset (file w)) (copc_root_size (file w)) (n_entry n1) /\
  has_entry (file w) (copc_root_offset (file w)) (copc_root_size (file w)) (mkEntry P1 o1 s1 (-1)) /\ has_entry (file w) o1 s1 (n_entry n2) /\
  e_key (n_entry n1) = K2 /\ e_key (n_entry n2) = K2 /\ n_entry n1 <> n_entry n2.
Proof.
  set (ops := [WAddCompressed K2 [1; 2; 3] 1 k0; WAddCompressed K2 [4] 2 P1]).
  destruct (check_session_ok plain ops (fun l w => match l with [(_, Ok (Some n1)); (_, Ok (Some n2))] => let f := file w in
    entry_at f (copc_root_offset f) (copc_root_size f) 0 (n_entry n1) && entry_at f (copc_root_offset f) (copc_root_size f) 1 (mkEntry P1 1737 32 (-1)) && entry_at f 1737 32 0 (n_entry n2) &&
    key_eqb (e_key (n_entry n1)) K2 && key_eqb (e_key (n_entry n2)) K2 && negb (e_count (n_entry n1) =? e_count (n_entry n2))
    | _ => false end)) as (l & w & S & T); [vm_compute; reflexivity|apply plain_reorders|repeat constructor; cbn; lia|].
  assert (M : map fst l = ops) by (destruct S as ((w0 & w1 & _ & R & _) & _ & _ & _ & _ & AD & _); exact (wrun_ops _ _ _ _ _ R AD)).
  destruct l as [|(op1, [[n1|]| |]) [|(op2, [[n2|]| |]) [|]]]; try discriminate. cbn [map fst] in M.
  exists [(op1, Ok (Some n1)); (op2, Ok (Some n2))], w, n1, n2, 1737, 32. cbn [map fst]. split; [rewrite M; exact S|]. split; [unfold ops in M; injection M as -> ->; reflexivity|].
  cbv zeta in T. rewrite !andb_true_iff in T. destruct T as (((((T1 & T2) & T3) & T4) & T5) & T6). split; [eapply entry_at_ok; exact T1|]. split; [eapply entry_at_ok; exact T2|].
  split; [eapply entry_at_ok; exact T3|]. apply key_eqb_eq in T4, T5. split; [exact T4|]. split; [exact T5|]. apply negb_true_iff, Z.eqb_neq in T6. congruence.
Qed.
Print Assumptions C42_other_page_refuted.
Example C42_nonvacuous : exists l w n, complete_session verbatim reversed a_config no_overrides a_config (firstn 4 some_calls) (l ++ [(WAddCompressed k2 [1; 2; 3; 4] 5 k1, Ok (Some n))]) w /\
  settled (l ++ [(WAddCompressed k2 [1; 2; 3; 4] 5 k1, Ok (Some n))]) /\ Forall positive (firstn 4 some_calls) /\ (exists m q, view_of l k2 = Some (m, q) /\ m <> n).
Proof.
  destruct (check_session_ok reversed (firstn 4 some_calls) (fun l w => settled_b (fun _ => None) l && match l with [_; _; _; (_, Ok (Some n))] =>
    match view_of (firstn 3 l) k2 with Some (m, q) => negb (e_count (n_entry m) =? e_count (n_entry n)) | None => false end | _ => false end)) as (l & w & S & T);
    [vm_compute; reflexivity|apply reversed_reorders|unfold some_calls; cbn [firstn]; repeat constructor; cbn; lia|].
  rewrite !andb_true_iff in T. destruct T as (T1 & T2).
  assert (M : map fst l = firstn 4 some_calls) by (destruct S as ((w0 & w1 & _ & R & _) & _ & _ & _ & _ & AD & _); exact (wrun_ops _ _ _ _ _ R AD)).
  destruct l as [|x1 [|x2 [|x3 [|(op, [[n|]| |]) [|]]]]]; try discriminate. cbn [map fst] in M. unfold some_calls in M. cbn [firstn] in M. injection M as _ _ _ ->.
  cbn [firstn] in T2. destruct (view_of [x1; x2; x3] k2) as [(m, q)|] eqn:V; [|discriminate]. exists [x1; x2; x3], w, n. split; [exact S|]. split; [now apply settled_b_ok|].
  split; [unfold some_calls; cbn [firstn]; repeat constructor; cbn; lia|]. exists m, q. split; [exact V|]. intros ->. rewrite Z.eqb_refl in T2. discriminate.
Qed.

(* ---- C43 ---- *)
(* on a failed stream every well-formed AddNodeCompressed is accepted, though nothing is written *)
Theorem C43_refuted : forall cd k data n p w, o_bad (b_out (w_base w)) = true -> n <> 0 -> valid k -> valid p -> inside k p ->
  exists w' nd, wstep cd (WAddCompressed k data n p) w = (w', Ok (Some nd)) /\ file w' = file w /\ e_size (n_entry nd) = 0 /\ e_offset (n_entry nd) = 2 ^ 64 - 1.
Proof. exact failed_add_accepted. Qed.
Print Assumptions C43_refuted.
(* the call during which the stream fails does throw (the failure makes the chunk look too large) *)
Theorem C43_first_failure : forall cd op w w' r, wstep cd op w = (w', r) -> o_bad (b_out (w_base w)) = false -> o_bad (b_out (w_base w')) = true ->
  Z.of_nat (o_pos (b_out (w_base w))) < 2 ^ 63 -> r = Throw.
Proof. exact first_failure. Qed.
Print Assumptions C43_first_failure.
(* a stream too short for the header space fails in the constructor, unnoticed, and stays failed *)
Theorem C43_constructor_refuted : exists cap w0 w nd, open_writer (Some cap) a_config no_overrides = Ok w0 /\ o_bad (b_out (w_base w0)) = true /\
  wstep verbatim (WAddCompressed k0 [1; 2; 3] 1 k0) w0 = (w, Ok (Some nd)) /\ file w = file w0.
Proof.
  set (run := match open_writer (Some 1000%nat) a_config no_overrides with Ok w0 => o_bad (b_out (w_base w0)) | _ => false end).
  assert (X : run = true) by (vm_compute; reflexivity). unfold run in X.
  destruct (open_writer (Some 1000%nat) a_config no_overrides) as [w0| |] eqn:O; [|discriminate..].
  destruct (failed_add_accepted verbatim k0 [1; 2; 3] 1 k0 w0 X) as (w & nd & A & B & _); [lia|unfold valid; cbn; lia..|unfold inside; cbn; lia|].
  exists 1000%nat, w0, w, nd. auto.
Qed.
Print Assumptions C43_constructor_refuted.
Example C43_first_failure_nonvacuous : exists cap w0 w, open_writer (Some cap) a_config no_overrides = Ok w0 /\ o_bad (b_out (w_base w0)) = false /\
  wstep verbatim (WAddCompressed k0 [1; 2; 3] 1 k0) w0 = (w, Throw) /\ o_bad (b_out (w_base w)) = true /\ Z.of_nat (o_pos (b_out (w_base w0))) < 2 ^ 63.
Proof.
  set (run := match open_writer (Some 1634%nat) a_config no_overrides with Ok w0 => match wstep verbatim (WAddCompressed k0 [1; 2; 3] 1 k0) w0 with
    (w, Throw) => negb (o_bad (b_out (w_base w0))) && o_bad (b_out (w_base w)) && (Z.of_nat (o_pos (b_out (w_base w0))) <? 2 ^ 63) | _ => false end | _ => false end).
  assert (X : run = true) by (vm_compute; reflexivity). unfold run in X.
  destruct (open_writer (Some 1634%nat) a_config no_overrides) as [w0| |] eqn:O; [|discriminate..]. destruct (wstep verbatim _ w0) as (w, [[nd|]| |]) eqn:W; try discriminate.
  rewrite !andb_true_iff, negb_true_iff, Z.ltb_lt in X. destruct X as ((A & B) & C). exists 1634%nat, w0, w. auto.
Qed.
(* no call repairs a failed stream, and Close on one does not return normally; when Close returns normally the stream is good *)
Theorem C43_stays_failed : forall cd op w w' r, wstep cd op w = (w', r) -> o_bad (b_out (w_base w)) = true -> o_bad (b_out (w_base w')) = true.
Proof. exact step_failed. Qed.
Print Assumptions C43_stays_failed.
Theorem C43_close_reports : forall cd od w w' r, o_bad (b_out (w_base w)) = true -> b_open (w_base w) = true -> cfg_ok (w_cfg w) -> close cd od w = (w', r) -> r <> Ok tt.
Proof. exact failed_close. Qed.
Print Assumptions C43_close_reports.
Theorem C43_closed_means_good : forall cd od w w', b_open (w_base w) = true -> cfg_ok (w_cfg w) -> close cd od w = (w', Ok tt) -> o_bad (b_out (w_base w')) = false.
Proof. exact close_good_stream. Qed.
Print Assumptions C43_closed_means_good.
Example C43_nonvacuous : exists w, o_bad (b_out (w_base w)) = true /\ b_open (w_base w) = true /\ cfg_ok (w_cfg w) /\ valid k1 /\ inside k1 k0.
Proof.
  destruct C43_first_failure_nonvacuous as (cap & w0 & w & O & _ & W & B & _). exists w. split; [exact B|].
  assert (X : w_cfg w = w_cfg w0 /\ b_open (w_base w) = b_open (w_base w0)).
  { cbn [wstep] in W. apply some_node_inv in W as (-> & _). unfold add_node_compressed, do_add_node. destruct (_ =? 0); [auto|]. destruct (_ || _); [auto|]. destruct (negb _); [auto|].
    unfold write_chunk. destruct (_ <=? 0); [auto|]. destruct (_ <=? 0); [auto|]. destruct (_ <? _); auto. }
  unfold open_writer in O. destruct a_config_ok as (R & _ & I). rewrite I in O. cbn [bind] in O. rewrite (proj1 (copc_offset_ok _ (ready_ok _ R))) in O. cbn [bind] in O. injection O as <-.
  cbn [w_cfg w_base b_open] in X. destruct X as (-> & ->). split; [reflexivity|]. split; [now apply ready_ok|]. unfold valid, inside. cbn. lia.
Qed.
