(* PropWriter2.v - C68, C71, C72: FindNode on a writer; compressing outside a writer *)
From Verif Require Import Base BaseFacts ModelFloat ModelKey ModelGeom ModelEntry ModelPoint ModelPoints ModelHeader ModelVlr ModelExtents ModelConfig
  ModelStream ModelWriter ModelLazFns SpecKey SpecPoint SpecPoints SpecHeader SpecConfig SpecWriter SpecReject SpecLaz ProofKey ProofPoint ProofPoint2 ProofPoints ProofPoints2 ProofStream ProofWriter ProofWriter2 ProofWriter3 ProofWriter4 ProofSession ProofData
  ProofResults ProofConfig ProofLaz ProofReject SampleWriter.
Open Scope Z_scope.

(* ---- C68 ---- *)
(* what the last accepted AddNode call for k returned *)
Definition last_added (k : key) (l : log) : option node :=
  fold_left (fun o x => match x with (op, Ok (Some n)) => match add_keys op with Some (k', _) => if key_eqb k' k then Some n else o | None => o end | _ => o end) l None.
Lemma step_loaded_is cd op w w' r k : wstep cd op w = (w', r) -> mget k (w_loaded w') =
  match r with Ok (Some n) => match add_keys op with Some (k', _) => if key_eqb k' k then Some n else mget k (w_loaded w) | None => mget k (w_loaded w) end | _ => mget k (w_loaded w) end.
Proof.
  assert (D : forall k' data c comp p w w' r, some_node (do_add_node cd k' data c comp p w) = (w', r) -> mget k (w_loaded w') =
    match r with Ok (Some n) => if key_eqb k' k then Some n else mget k (w_loaded w) | _ => mget k (w_loaded w) end).
  { clear. intros k' data c comp p w w' r H. unfold do_add_node in H. destruct (_ || _); [now injection H as <- <-|].
    destruct (negb _); [now injection H as <- <-|]. destruct (write_chunk _ _ _ _ _ _) as (b, [((off, size), m)| |]); cbn [some_node] in H; [|now injection H as <- <-..].
    pose proof (f_equal snd H) as R. pose proof (f_equal fst H) as W. cbn [fst snd] in R, W. subst r w'. cbn [w_loaded].
    destruct (key_eqb_spec k' k) as [->|N]; [apply mget_mset_same|now apply mget_mset_other]. }
  assert (D2 : forall k' data p, some_node (add_node cd k' data p w) = (w', r) -> mget k (w_loaded w') = match r with Ok (Some n) => if key_eqb k' k then Some n else mget k (w_loaded w) | _ => mget k (w_loaded w) end).
  { intros k' data p H. unfold add_node in H. cbv zeta in H. destruct data; [now injection H as <- <-|].
    destruct (_ =? 0); [now injection H as <- <-|]. destruct (negb _); [now injection H as <- <-|]. eapply D; eauto. }
  destruct op as [k' data p|k' hp c p|k' data m p|k' p|h|i|slot e]; cbn [wstep add_keys]; intros H.
  - eapply D2; eauto.
  - unfold add_node_points in H. cbv zeta in H. destruct (c_pts c); [now injection H as <- <-|]. destruct (_ || _); [now injection H as <- <-|].
    destruct (points_pack _ _ _ _); [|now injection H as <- <-..]. eapply D2; eauto.
  - unfold add_node_compressed in H. destruct (_ =? 0); [now injection H as <- <-|]. eapply D; eauto.
  - assert (L : w_loaded w' = w_loaded w); [|rewrite L; destruct r as [[]| |]; reflexivity]. unfold change_node_page in H. destruct (negb (key_valid k')); [now injection H as <- <-|].
    destruct (negb (key_valid p)); [now injection H as <- <-|]. destruct (mget k' _); [|now injection H as <- <-]. destruct (negb _); [now injection H as <- <-|].
    destruct (key_eqb _ _); [now injection H as <- <-|]. destruct (mget (n_page _) _); now injection H as <- <-.
  - destruct (edit_header _ _); now injection H as <- <-.
  - now injection H as <- <-.
  - destruct (ModelExtents.set_nth _ _ _); now injection H as <- <-.
Qed.
Lemma run_loaded_is cd k : forall ops w w' l, wrun cd ops w = (w', l) -> mget k (w_loaded w') =
  fold_left (fun o x => match x with (op, Ok (Some n)) => match add_keys op with Some (k', _) => if key_eqb k' k then Some n else o | None => o end | _ => o end) l (mget k (w_loaded w)).
Proof.
  induction ops as [|op ops IH]; intros w w' l H; cbn [wrun] in H; [now injection H as <- <-|]. destruct (wstep cd op w) as (w1, r) eqn:E. pose proof (step_loaded_is _ _ _ _ _ k E) as S.
  destruct r as [x| |].
  - destruct (wrun cd ops w1) as (w2, l2) eqn:R. injection H as <- <-. rewrite (IH _ _ _ R), S. cbn [fold_left]. destruct x; reflexivity.
  - destruct (wrun cd ops w1) as (w2, l2) eqn:R. injection H as <- <-. rewrite (IH _ _ _ R), S. reflexivity.
  - injection H as <- <-. rewrite S. reflexivity.
Qed.
Theorem C68_find_node : forall cd cap c v ops w0 w l k, open_writer cap c v = Ok w0 -> wrun cd ops w0 = (w, l) ->
  (forall n, last_added k l = Some n -> writer_find_node k w = n) /\ (last_added k l = None -> writer_find_node k w = invalid_node).
Proof.
  intros cd cap c v ops w0 w l k O H. pose proof (run_loaded_is cd k ops w0 w l H) as E. assert (L0 : w_loaded w0 = []).
  { unfold open_writer in O. apply bind_ok in O as (c1 & _ & O). apply bind_ok in O as (po & _ & O). now injection O as <-. }
  rewrite L0 in E. cbn [mget] in E. fold (last_added k l) in E. unfold writer_find_node. rewrite E. split; [intros n ->; reflexivity|intros ->; reflexivity].
Qed.
Print Assumptions C68_find_node.
(* the node returned carries the key and the page of the call *)
Theorem C68_returned_node : forall cd op w w' n k p, wstep cd op w = (w', Ok (Some n)) -> add_keys op = Some (k, p) -> n_key n = k /\ n_page n = p /\ writer_find_node k w' = n.
Proof.
  intros cd op w w' n k p H K.
  assert (S : writer_find_node k w' = n). { unfold writer_find_node. rewrite (step_loaded_is _ _ _ _ _ k H), K. destruct (key_eqb_spec k k); [reflexivity|contradiction]. }
  assert (D : forall data c comp w, some_node (do_add_node cd k data c comp p w) = (w', Ok (Some n)) -> n_key n = k /\ n_page n = p).
  { clear. intros data c comp w H. unfold do_add_node in H. destruct (_ || _); [discriminate (f_equal snd H)|].
    destruct (negb _); [discriminate (f_equal snd H)|]. destruct (write_chunk _ _ _ _ _ _) as (b, [((off, size), m)| |]); cbn [some_node] in H; [|discriminate (f_equal snd H)..].
    pose proof (f_equal snd H) as R. cbn [snd] in R. assert (Q : mkNode (mkEntry k off size m) p = n) by congruence. now rewrite <- Q. }
  assert (D2 : forall data, some_node (add_node cd k data p w) = (w', Ok (Some n)) -> n_key n = k /\ n_page n = p).
  { intros data Q. unfold add_node in Q. cbv zeta in Q. destruct data; [discriminate (f_equal snd Q)|].
    destruct (_ =? 0); [discriminate (f_equal snd Q)|]. destruct (negb _); [discriminate (f_equal snd Q)|]. eapply D; eauto. }
  assert (R : n_key n = k /\ n_page n = p); [|tauto].
  destruct op as [k' data p'|k' hp c p'|k' data m p'| | | |]; cbn [wstep add_keys] in *; try discriminate K; injection K as -> ->.
  - eapply D2; eauto.
  - unfold add_node_points in H. cbv zeta in H. destruct (c_pts c); [discriminate (f_equal snd H)|]. destruct (_ || _); [discriminate (f_equal snd H)|].
    destruct (points_pack _ _ _ _); [|discriminate (f_equal snd H)..]. eapply D2; eauto.
  - unfold add_node_compressed in H. destruct (_ =? 0); [discriminate (f_equal snd H)|]. eapply D; eauto.
Qed.
Print Assumptions C68_returned_node.
(* the page a moved node reports is the one it was added to *)
Definition check_calls (ops : list wop) (test : writer -> log -> bool) : bool := match open_writer None a_config no_overrides with Ok w0 => let '(w, l) := wrun verbatim ops w0 in test w l | _ => false end.
Lemma check_calls_ok ops test : check_calls ops test = true -> exists w0 w l, open_writer None a_config no_overrides = Ok w0 /\ wrun verbatim ops w0 = (w, l) /\ test w l = true.
Proof. unfold check_calls. destruct (open_writer _ _ _) as [w0| |]; [|discriminate..]. destruct (wrun verbatim ops w0) as (w, l) eqn:R. intros T. exists w0, w, l. auto. Qed.
Definition moved : list wop := [WAddCompressed k1 [1; 2; 3] 5 root_key; WMove k1 k1].
Definition moved_test (w : writer) (l : log) : bool := match view_of l k1 with Some (_, p) => key_eqb p k1 | None => false end && key_eqb (n_page (writer_find_node k1 w)) root_key && match close verbatim plain w with (_, Ok _) => true | _ => false end.
Lemma moved_test_ok w l : moved_test w l = true -> (exists n, view_of l k1 = Some (n, k1)) /\ n_page (writer_find_node k1 w) = root_key /\ exists w' u, close verbatim plain w = (w', Ok u).
Proof.
  unfold moved_test. intros F. apply andb_prop in F as (F & F3). apply andb_prop in F as (F1 & F2). apply key_eqb_eq in F2. split; [|split; [exact F2|]].
  - destruct (view_of l k1) as [(n, p)|]; [|discriminate]. apply key_eqb_eq in F1. exists n. now rewrite F1.
  - destruct (close verbatim plain w) as (w', [u| |]); try discriminate. eauto.
Qed.
Theorem C68_moved_page_refuted : exists cd c v ops w0 w l n, open_writer None c v = Ok w0 /\ wrun cd ops w0 = (w, l) /\ view_of l k1 = Some (n, k1) /\ n_page (writer_find_node k1 w) = root_key /\ k1 <> root_key /\
  exists od w' u, close cd od w = (w', Ok u) /\ reorders od.
Proof.
  assert (T : check_calls moved moved_test = true) by (vm_compute; reflexivity).
  destruct (check_calls_ok _ _ T) as (w0 & w & l & O & R & Q). destruct (moved_test_ok _ _ Q) as ((n & V) & P & w' & u & C). clear T Q.
  exists verbatim, a_config, no_overrides, moved, w0, w, l, n. split; [exact O|]. split; [exact R|]. split; [exact V|]. split; [exact P|]. split; [discriminate|].
  exists plain, w', u. split; [exact C|exact plain_reorders].
Qed.
Print Assumptions C68_moved_page_refuted.
Definition replaced : list wop := WAddCompressed k1 [1] 7 root_key :: some_calls.
Definition replaced_test (w : writer) (l : log) : bool := match last_added k1 l with Some n => negb (e_count (n_entry n) =? 7) | None => false end && match last_added (mkKey 3 0 0 0) l with None => true | _ => false end.
Lemma replaced_test_ok w l : replaced_test w l = true -> exists n, last_added k1 l = Some n /\ last_added (mkKey 3 0 0 0) l = None /\ e_count (n_entry n) <> 7.
Proof.
  unfold replaced_test. intros F. apply andb_prop in F as (F1 & F2). destruct (last_added k1 l) as [n|]; [|discriminate]. destruct (last_added (mkKey 3 0 0 0) l); [discriminate|].
  exists n. apply negb_true_iff, Z.eqb_neq in F1. auto.
Qed.
Example C68_nonvacuous : exists w0 w l n, open_writer None a_config no_overrides = Ok w0 /\ wrun verbatim replaced w0 = (w, l) /\ last_added k1 l = Some n /\ last_added (mkKey 3 0 0 0) l = None /\ e_count (n_entry n) <> 7.
Proof.
  assert (T : check_calls replaced replaced_test = true) by (vm_compute; reflexivity).
  destruct (check_calls_ok _ _ T) as (w0 & w & l & O & R & Q). destruct (replaced_test_ok _ _ Q) as (n & A & B & C). clear T Q. exists w0, w, l, n.
  split; [exact O|]. split; [exact R|]. auto.
Qed.

(* ---- C71 ---- *)
(* whole records, and no more bytes than an int32 counts *)
Definition whole_records (size : Z) (data : bytes) : Prop := exists n, Z.of_nat (length data) = n * size /\ Z.of_nat (length data) <= 2147483647.
Lemma compress_vector_ok cd data fmt eb : 6 <= fmt <= 8 -> 0 <= eb -> rec_size fmt eb < 65536 -> whole_records (rec_size fmt eb) data ->
  compress_bytes cd fmt eb data = Ok (cd_comp cd fmt eb data, Z.of_nat (length data) / rec_size fmt eb).
Proof.
  intros F E R (n & L & B). pose proof (las_base_range fmt) as LB. unfold rec_size in *. unfold compress_bytes. rewrite point_byte_size_ok by assumption. cbn [bind].
  rewrite to_u_id by (change (2 ^ 16) with 65536; lia). cbv zeta. assert (0 < las_base fmt + eb) by lia. destruct (Z.eqb_spec (las_base fmt + eb) 0); [lia|].
  rewrite L, Z.mod_mul by lia. cbn [negb Z.eqb]. unfold INT32_MAX. destruct (Z.ltb_spec 2147483647 (n * (las_base fmt + eb))); [lia|]. reflexivity.
Qed.
Theorem C71_compresses_or_throws : forall cd data fmt eb, 6 <= fmt <= 8 -> 0 <= eb -> rec_size fmt eb < 65536 ->
  (whole_records (rec_size fmt eb) data -> exists x, compress_vector cd data fmt eb = Ok x) /\ (~ whole_records (rec_size fmt eb) data -> compress_vector cd data fmt eb = Throw).
Proof.
  intros cd data fmt eb F E R. split.
  - intros W. unfold compress_vector. rewrite (compress_vector_ok _ _ _ _ F E R W). cbn [bind]. eauto.
  - intros N. pose proof (las_base_range fmt) as LB. unfold rec_size in *. unfold compress_vector, compress_bytes. rewrite point_byte_size_ok by assumption. cbn [bind].
    rewrite to_u_id by (change (2 ^ 16) with 65536; lia). cbv zeta. assert (P : 0 < las_base fmt + eb) by lia. destruct (Z.eqb_spec (las_base fmt + eb) 0); [lia|].
    destruct (Z.eqb_spec (Z.of_nat (length data) mod (las_base fmt + eb)) 0) as [M|M]; [|reflexivity]. cbn [negb]. unfold INT32_MAX.
    destruct (Z.ltb_spec 2147483647 (Z.of_nat (length data))) as [B|B]; [reflexivity|]. exfalso. apply N. exists (Z.of_nat (length data) / (las_base fmt + eb)). split; [|exact B].
    pose proof (Z.div_mod (Z.of_nat (length data)) (las_base fmt + eb) ltac:(lia)). lia.
Qed.
Print Assumptions C71_compresses_or_throws.
(* what was compressed comes back, also with other bytes after it, as long as a record has at most 255 bytes *)
Theorem C71_round_trip : forall cd data fmt eb x rest, lossless cd -> 6 <= fmt <= 8 -> 0 <= eb -> rec_size fmt eb <= 255 -> whole_records (rec_size fmt eb) data ->
  compress_vector cd data fmt eb = Ok x -> decompress_vector cd (x ++ rest) fmt eb (Z.of_nat (length data) / rec_size fmt eb) = Ok data.
Proof.
  intros cd data fmt eb x rest (LS & _) F E R W H. unfold compress_vector in H. rewrite (compress_vector_ok _ _ _ _ F E ltac:(lia) W) in H. cbn [bind] in H. injection H as <-.
  destruct W as (n & L & B). pose proof (las_base_range fmt) as LB. assert (P : 0 < rec_size fmt eb) by (unfold rec_size; lia). rewrite L, Z.div_mul by lia.
  unfold decompress_vector. rewrite las_base_ok by assumption. cbn [bind]. fold (rec_size fmt eb).
  destruct (Z.leb_spec n 0) as [N|N].
  - assert (Z.of_nat (length data) = 0) by nia. destruct data; [reflexivity|cbn [length] in *; lia].
  - destruct (Z.ltb_spec 255 (rec_size fmt eb)); [lia|]. now rewrite (LS _ _ n data rest F E N L).
Qed.
Print Assumptions C71_round_trip.
(* the overloads taking a header use its format and its record length *)
Theorem C71_header_overloads : forall cd data h count, 6 <= h_fmt h <= 8 -> las_base (h_fmt h) <= h_reclen h < 65536 ->
  compress_with cd data h = compress_vector cd data (h_fmt h) (h_reclen h - las_base (h_fmt h)) /\
  decompress_with cd data h count = decompress_vector cd data (h_fmt h) (h_reclen h - las_base (h_fmt h)) count.
Proof.
  intros cd data h count F R. pose proof (las_base_range (h_fmt h)) as LB. assert (E : h_eb_size h = Ok (h_reclen h - las_base (h_fmt h))).
  { unfold h_eb_size, eb_byte_size. rewrite las_base_ok by assumption. cbn [bind]. rewrite to_u_id by (change (2 ^ 16) with 65536; lia). reflexivity. }
  unfold compress_with, decompress_with. rewrite E. split; reflexivity.
Qed.
Print Assumptions C71_header_overloads.
Theorem C71_no_points : forall cd data fmt eb count, 6 <= fmt <= 8 -> count <= 0 -> decompress_vector cd data fmt eb count = Ok [].
Proof. intros cd data fmt eb count F C. unfold decompress_vector. rewrite las_base_ok by assumption. cbn [bind]. destruct (Z.leb_spec count 0); [reflexivity|lia]. Qed.
Print Assumptions C71_no_points.
(* a record of 256 bytes (format 7, 220 extra bytes) can be compressed but not decompressed *)
Theorem C71_long_record_refuted : exists cd data fmt eb x, lossless cd /\ 6 <= fmt <= 8 /\ 0 <= eb < 65536 /\ rec_size fmt eb < 65536 /\ whole_records (rec_size fmt eb) data /\ compress_vector cd data fmt eb = Ok x /\
  decompress_vector cd x fmt eb (Z.of_nat (length data) / rec_size fmt eb) = UB.
Proof.
  exists verbatim, (repeat 1 256), 7, 220, (repeat 1 256). split; [exact verbatim_lossless|]. split; [lia|]. split; [lia|]. split; [vm_compute; reflexivity|]. split; [|split; vm_compute; reflexivity].
  exists 1. split; [vm_compute; reflexivity|]. vm_compute. discriminate.
Qed.
Print Assumptions C71_long_record_refuted.
Example C71_nonvacuous : lossless verbatim /\ rec_size 7 12 <= 255 /\ whole_records (rec_size 7 12) (repeat 1 96) /\ ~ whole_records (rec_size 7 12) (repeat 1 95) /\
  compress_vector verbatim (repeat 1 96) 7 12 = Ok (repeat 1 96) /\ Z.of_nat (length (repeat 1 96)) / rec_size 7 12 = 2.
Proof.
  split; [exact verbatim_lossless|]. change (rec_size 7 12) with 48. split; [lia|]. split; [exists 2; rewrite repeat_length; lia|].
  split; [|split; vm_compute; reflexivity]. intros (n & L & _). rewrite repeat_length in L. lia.
Qed.

(* ---- C72 ---- *)
Lemma same_chunk cd h hw data n x b : 6 <= h_fmt hw <= 8 -> las_base (h_fmt hw) <= h_reclen hw < 65536 -> h_fmt h = h_fmt hw -> h_reclen h = h_reclen hw ->
  Z.of_nat (length data) = n * h_reclen hw -> compress_with cd data h = Ok x -> write_chunk cd hw data 0 false b = write_chunk cd hw x n true b.
Proof.
  intros F R HF HR L C. pose proof (las_base_range (h_fmt hw)) as LB. assert (E : h_eb_size h = Ok (h_reclen hw - las_base (h_fmt hw)) /\ h_eb_size hw = Ok (h_reclen hw - las_base (h_fmt hw))).
  { unfold h_eb_size, eb_byte_size. rewrite HF, HR, las_base_ok by assumption. cbn [bind]. rewrite to_u_id by (change (2 ^ 16) with 65536; lia). auto. }
  destruct E as (E1 & E2). unfold compress_with in C. rewrite E1, HF in C. cbn [bind] in C. unfold compress_vector in C. apply bind_ok in C as ((x', n') & C & X). assert (x' = x) by congruence. subst x'. clear X.
  assert (N : n' = n). { unfold compress_bytes in C. rewrite point_byte_size_ok in C by assumption. cbn [bind] in C. replace (las_base (h_fmt hw) + (h_reclen hw - las_base (h_fmt hw))) with (h_reclen hw) in C by lia.
    rewrite to_u_id in C by (change (2 ^ 16) with 65536; lia). cbv zeta in C. destruct (_ =? 0) in C; [discriminate|]. destruct (negb _) in C; [discriminate|]. destruct (_ <? _) in C; [discriminate|].
    assert (Q : Z.of_nat (length data) / h_reclen hw = n') by congruence. rewrite L, Z.div_mul in Q by lia. congruence. }
  subst n'. unfold write_chunk. rewrite E2. cbn [bind]. rewrite C. reflexivity.
Qed.
(* for every reachable writer, adding records and adding what CompressBytes makes of them are the same call: same
   result, same file, same hierarchy *)
Theorem C72_compressed_outside : forall cd c v c0 ops w0 w l h data n x k p, init_writer c v = Ok c0 -> ready c0 -> Forall wf_op ops -> open_writer None c v = Ok w0 -> wrun cd ops w0 = (w, l) ->
  Z.of_nat (length (file w)) < 2 ^ 64 -> h_fmt h = h_fmt (c_hdr c0) -> h_reclen h = h_reclen (c_hdr c0) -> 0 < n -> Z.of_nat (length data) = n * h_reclen (c_hdr c0) ->
  compress_with cd data h = Ok x -> wstep cd (WAddCompressed k x n p) w = wstep cd (WAdd k data p) w.
Proof.
  intros cd c v c0 ops w0 w l h data n x k p I R WF O H L HF HR N D C. destruct (run_history _ _ _ _ _ _ _ _ O I R WF H L) as (cs & HS).
  pose proof (hs_cfg _ _ _ _ _ _ HS) as G. pose proof (hs_fix _ _ _ _ _ _ HS) as FX. destruct (good_eb_size _ G) as (_ & B & F & _ & RL).
  assert (FF : h_fmt (c_hdr (w_cfg w)) = h_fmt (c_hdr c0) /\ h_reclen (c_hdr (w_cfg w)) = h_reclen (c_hdr c0)) by (unfold fixed_parts in FX; intuition congruence).
  destruct FF as (F1 & F2). rewrite <- F1 in HF. rewrite <- F2 in HR, D. cbn [wstep]. f_equal. unfold add_node_compressed, add_node. destruct (Z.eqb_spec n 0); [lia|].
  destruct data as [|d data]; [cbn [length] in D; nia|]. destruct (Z.eqb_spec (h_reclen (c_hdr (w_cfg w))) 0); [lia|]. rewrite D, Z.mod_mul by lia. cbn [Z.eqb negb].
  unfold do_add_node. rewrite (same_chunk cd h (c_hdr (w_cfg w)) (d :: data) n x (w_base w)) by (auto; lia). reflexivity.
Qed.
Print Assumptions C72_compressed_outside.
(* the same for WritePoints and WritePointsCompressed of a LazWriter *)
Lemma lstep_cfg cd op w w' r : lstep cd op w = (w', r) -> lw_cfg w' = lw_cfg w.
Proof.
  assert (D : forall z y, chunk_written z y = (w', r) -> lw_cfg w' = z) by (intros z (b, [a| |]) H; cbn [chunk_written] in H; now injection H as <- <-).
  destruct op as [hp c|data n]; cbn [lstep]; intros H.
  - destruct (c_pts c); [now injection H as <- <-|]. destruct (_ || _); [now injection H as <- <-|]. destruct (points_pack _ _ _ _); [eapply D; eauto|now injection H as <- <-..].
  - destruct (_ =? 0); [now injection H as <- <-|]. eapply D; eauto.
Qed.
Lemma lrun_cfg cd ops : forall w w' l, lrun cd ops w = (w', l) -> lw_cfg w' = lw_cfg w.
Proof.
  induction ops as [|op ops IH]; intros w w' l H; cbn [lrun] in H; [now injection H as <- <-|]. destruct (lstep cd op w) as (w1, r) eqn:E. apply lstep_cfg in E.
  destruct r; [destruct (lrun cd ops w1) as (w2, l2) eqn:R; injection H as <- <-; rewrite (IH _ _ _ R); exact E..|]. now injection H as <- <-.
Qed.
Theorem C72_laz_compressed_outside : forall cd z ops w0 w l h hp c data x, laz_ready z -> open_laz_writer None z = Ok w0 -> lrun cd ops w0 = (w, l) ->
  h_fmt h = h_fmt (z_hdr z) -> h_reclen h = h_reclen (z_hdr z) -> Forall wf_point hp -> uniform hp c -> c_fmt c = h_fmt h -> c_reclen c = h_reclen h -> c_pts c <> [] ->
  points_pack hp c (h_scale (z_hdr z)) (h_offset (z_hdr z)) = Ok data -> compress_with cd data h = Ok x ->
  lstep cd (LWriteCompressed x (Z.of_nat (length (c_pts c)))) w = lstep cd (LWrite hp c) w.
Proof.
  intros cd z ops w0 w l h hp c data x R O H HF HR WP U CF CR NE P C. assert (Z0 : lw_cfg w = z).
  { rewrite (lrun_cfg _ _ _ _ _ H). unfold open_laz_writer in O. apply bind_ok in O as (po & _ & O). now injection O as <-. }
  destruct (laz_eb z R) as (_ & B & B2 & RL). destruct (points_pack_spec _ _ _ _ _ WP U P) as (L & _). pose proof (las_base_range (h_fmt (z_hdr z))) as LB.
  assert (F : 6 <= h_fmt (z_hdr z) <= 8) by apply R. cbn [lstep]. rewrite Z0. destruct (c_pts c) as [|a pts] eqn:E; [contradiction|].
  destruct (Z.eqb_spec (Z.of_nat (length (a :: pts))) 0); [cbn [length] in *; lia|]. rewrite CF, CR, HF, HR, !Z.eqb_refl. cbn [negb orb]. rewrite P. f_equal.
  rewrite (same_chunk cd h (z_hdr z) data (Z.of_nat (length (a :: pts))) x (lw_base w)) by (auto; try lia; congruence). reflexivity.
Qed.
Print Assumptions C72_laz_compressed_outside.
Definition same_node_test (w : writer) (l : log) : bool := match compress_with verbatim (repeat 5 96) (c_hdr a_config) with Ok x => same_bytes x (repeat 5 96) | _ => false end && (Z.of_nat (length (file w)) <? 2 ^ 64) && (h_reclen (c_hdr a_config) =? 48) && match wstep verbatim (WAdd k2' (repeat 5 96) k1) w with (_, Ok (Some n)) => e_count (n_entry n) =? 2 | _ => false end.
Lemma same_node_test_ok w l : same_node_test w l = true -> compress_with verbatim (repeat 5 96) (c_hdr a_config) = Ok (repeat 5 96) /\ Z.of_nat (length (file w)) < 2 ^ 64 /\ h_reclen (c_hdr a_config) = 48 /\ exists w' n, wstep verbatim (WAdd k2' (repeat 5 96) k1) w = (w', Ok (Some n)) /\ e_count (n_entry n) = 2.
Proof.
  unfold same_node_test. intros F. apply andb_prop in F as (F & F4). apply andb_prop in F as (F & F3). apply andb_prop in F as (F1 & F2). apply Z.ltb_lt in F2. apply Z.eqb_eq in F3.
  split; [|split; [exact F2|split; [exact F3|]]].
  - destruct (compress_with _ _ _) as [x| |]; [|discriminate..]. apply same_bytes_eq in F1. now rewrite F1.
  - destruct (wstep _ _ w) as (w', [[n|]| |]); try discriminate. apply Z.eqb_eq in F4. eauto.
Qed.
(* a writer that has accepted calls and rejected one: the hypotheses hold and the call is accepted *)
Example C72_nonvacuous : exists w0 w l, init_writer a_config no_overrides = Ok a_config /\ ready a_config /\ Forall wf_op some_calls /\ open_writer None a_config no_overrides = Ok w0 /\ wrun verbatim some_calls w0 = (w, l) /\
  Z.of_nat (length (file w)) < 2 ^ 64 /\ Z.of_nat (length (repeat 5 96)) = 2 * h_reclen (c_hdr a_config) /\ compress_with verbatim (repeat 5 96) (c_hdr a_config) = Ok (repeat 5 96) /\
  exists w' n, wstep verbatim (WAdd k2' (repeat 5 96) k1) w = (w', Ok (Some n)) /\ e_count (n_entry n) = 2.
Proof.
  assert (T : check_calls some_calls same_node_test = true) by (vm_compute; reflexivity). destruct a_config_ok as (R & _ & I).
  destruct (check_calls_ok _ _ T) as (w0 & w & l & O & H & Q). destruct (same_node_test_ok _ _ Q) as (A & B & C & D). clear T Q. exists w0, w, l.
  split; [exact I|]. split; [exact R|]. split; [exact some_calls_wf|]. split; [exact O|]. split; [exact H|]. split; [exact B|]. split; [rewrite C, repeat_length; reflexivity|]. split; [exact A|exact D].
Qed.
