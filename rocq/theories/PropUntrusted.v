(* PropUntrusted.v - property theorem C82 (reading files from an untrusted source) *)
From Coq Require Import Permutation.
From Verif Require Import Base BaseFacts ModelFloat ModelKey ModelGeom ModelEntry ModelPoint ModelPoints ModelHeader ModelVlr ModelExtents ModelConfig
  ModelStream ModelWriter ModelReader ModelLazReader ModelClosed SpecKey SpecPoint SpecConfig SpecHeader SpecWriter SpecHier SpecFile SpecReader SpecData SpecClosed SpecOpen SpecUntrusted
  ProofFloat ProofKey ProofPoint ProofReader ProofReader2 ProofReader3 ProofReader4 ProofReader5 ProofReader6 ProofData ProofData2 ProofOpen ProofOpen3 ProofClosed ProofUntrusted ProofOpen4 SampleWriter SampleReader PropReader PropData.
Open Scope Z_scope.

(* ---- C82 ---- *)
(* Whatever the bytes of the file, after whatever queries, no query is undefined, as long as no page of the
   file is cut by its end, no node has depth 2^31 - 1, records have a sane length and the decompressor
   does its part.  The verbose spatial check is C52. *)
Theorem C82_defined : forall cd od isfile f r0 r fuel q r' a, sized_output cd -> visits_all od -> wf_bytes f -> open_reader isfile f = Ok r0 ->
  no_cut_page f -> no_deepest_node f -> sane_records (c_hdr (r_cfg r0)) -> reader_after cd od r0 r -> int_count q -> q <> QValidate true ->
  answer_to cd od fuel q r = Some (r', a) -> a <> UB.
Proof.
  intros cd od isfile f r0 r fuel q r' a CD OD WF O NC ND SR (fl & qs & A) IC NV E. pose proof (opened_winv isfile f r0 WF O) as W.
  pose proof (asks_winv f _ _ (r_cfg r0) NC od cd fl qs r0 r W A) as W'.
  exact (answers_defined f _ _ (r_cfg r0) NC od OD ND cd CD SR fuel q r r' a W' IC NV E).
Qed.
Print Assumptions C82_defined.
(* queries about nodes and pages do not depend on the records, nor on the decompressor *)
Theorem C82_nodes_defined : forall cd od isfile f r0 r fuel q r' a, visits_all od -> wf_bytes f -> open_reader isfile f = Ok r0 ->
  no_cut_page f -> no_deepest_node f -> reader_after cd od r0 r -> about_nodes q = true -> answer_to cd od fuel q r = Some (r', a) -> a <> UB.
Proof.
  intros cd od isfile f r0 r fuel q r' a OD WF O NC ND (fl & qs & A) AN E. pose proof (opened_winv isfile f r0 WF O) as W.
  pose proof (asks_winv f _ _ (r_cfg r0) NC od cd fl qs r0 r W A) as W'. clear W. pose proof (Nat.le_0_l (length (r_pages r))) as L.
  destruct q; try discriminate AN; cbn [answer_to] in E.
  - exact (safe_wrap _ _ _ _ _ _ _ _ (safe_find _ _ _ _ NC k 0 fuel r W' L) _ _ E).
  - exact (safe_wrap _ _ _ _ _ _ _ _ (safe_children _ _ _ _ NC od OD fuel k r 0 W' L) _ _ E).
  - exact (safe_wrap _ _ _ _ _ _ _ _ (safe_all _ _ _ _ NC od OD fuel r 0 W' L) _ _ E).
  - exact (safe_wrap _ _ _ _ _ _ _ _ (safe_pages _ _ _ _ NC od OD fuel r 0 W' L) _ _ E).
  - exact (safe_wrap _ _ _ _ _ _ _ _ (safe_depth _ _ _ _ NC od OD ND fuel res r 0 W' L) _ _ E).
  - exact (safe_wrap _ _ _ _ _ _ _ _ (safe_select _ _ _ _ NC od OD ND _ fuel res r 0 W' L) _ _ E).
  - exact (safe_wrap _ _ _ _ _ _ _ _ (safe_select _ _ _ _ NC od OD ND _ fuel res r 0 W' L) _ _ E).
  - exact (safe_wrap _ _ _ _ _ _ _ _ (safe_select _ _ _ _ NC od OD ND _ fuel res r 0 W' L) _ _ E).
  - exact (safe_wrap _ _ _ _ _ _ _ _ (safe_select _ _ _ _ NC od OD ND _ fuel res r 0 W' L) _ _ E).
Qed.
Print Assumptions C82_nodes_defined.

(* files that store a hierarchy meet the first condition *)
Lemma page_in_tree f off size hs : stored_hierarchy f off size hs -> forall o s, page_of f off size o s -> exists h, In h hs /\ pi_off h = o /\ pi_size h = s.
Proof.
  intros S o s P. induction P as [|o s es e P IH E I SU].
  - destruct (sh_root _ _ _ _ S) as (h & A & _ & <- & <-). eauto.
  - destruct IH as (h & A & <- & <-).
    destruct (sh_page _ _ _ _ S h A) as (B1 & B2 & B3 & B4 & B5).
    assert (es = pi_ents h) as ->.
    { apply (entries_once f (pi_off h) (pi_size h) es (pi_ents h) E). split.
      - rewrite B2. rewrite Z.mul_comm, Z.div_mul by lia. lia.
      - assert (X : skipn (Z.to_nat (pi_off h)) f = flat_map entry_pack (pi_ents h) ++ skipn (Z.to_nat (pi_size h)) (skipn (Z.to_nat (pi_off h)) f)) by (rewrite <- B5; unfold bytes_at; now rewrite firstn_skipn).
        rewrite X. generalize (skipn (Z.to_nat (pi_size h)) (skipn (Z.to_nat (pi_off h)) f)).
        assert (W : Forall (fun e => wf_entry e = true) (pi_ents h)) by (apply Forall_forall; intros e' Ie'; now destruct (sh_entry _ _ _ _ S h e' A Ie')).
        clear -W. induction W as [|e l W1 W2 IH]; intros rest; [exact Logic.I|]. cbn [flat_map entries_from]. rewrite <- app_assoc, entry_roundtrip by exact W1. eexists. split; [reflexivity|apply IH]. }
    destruct (sh_sub _ _ _ _ S h e A I SU) as (_ & j & J1 & J2 & <- & <- & _). eauto.
Qed.
Lemma stored_no_cut f hs : copc_pages f hs -> root_page_size f = copc_root_size f -> no_cut_page f.
Proof.
  intros S RS o s P (C1 & C2). rewrite RS in P. destruct (page_in_tree _ _ _ _ S _ _ P) as (h & A & <- & <-). destruct (sh_page _ _ _ _ S h A) as (_ & _ & _ & B & _). lia.
Qed.
Lemma stored_no_deepest f hs : copc_pages f hs -> root_page_size f = copc_root_size f -> (forall h e, In h hs -> In e (pi_ents h) -> kd (e_key e) < INT32_MAX) -> no_deepest_node f.
Proof.
  intros S RS D e (o & s & es & P & E & I & _). rewrite RS in P. destruct (page_in_tree _ _ _ _ S _ _ P) as (h & A & <- & <-). apply (D h e A).
  destruct (sh_page _ _ _ _ S h A) as (B1 & B2 & B3 & B4 & B5). replace (pi_ents h) with es; [exact I|].
  apply (entries_once f (pi_off h) (pi_size h) es (pi_ents h) E). split; [rewrite B2; rewrite Z.mul_comm, Z.div_mul by lia; lia|].
  assert (X : skipn (Z.to_nat (pi_off h)) f = flat_map entry_pack (pi_ents h) ++ skipn (Z.to_nat (pi_size h)) (skipn (Z.to_nat (pi_off h)) f)) by (rewrite <- B5; unfold bytes_at; now rewrite firstn_skipn).
  rewrite X. generalize (skipn (Z.to_nat (pi_size h)) (skipn (Z.to_nat (pi_off h)) f)).
  assert (W : Forall (fun e => wf_entry e = true) (pi_ents h)) by (apply Forall_forall; intros e' Ie'; now destruct (sh_entry _ _ _ _ S h e' A Ie')).
  clear -W. induction W as [|e l W1 W2 IH]; intros rest; [exact Logic.I|]. cbn [flat_map entries_from]. rewrite <- app_assoc, entry_roundtrip by exact W1. eexists. split; [reflexivity|apply IH].
Qed.

(* ---- each condition is needed ---- *)
Definition is_ub {A} (x : call A) : bool := match x with Some (_, UB) => true | _ => false end.
Lemma is_ub_ok {A} (x : call A) : is_ub x = true -> exists r, x = Some (r, UB).
Proof. destruct x as [(r, [?| |])|]; try discriminate. eauto. Qed.
Definition all_bytes (f : bytes) : bool := forallb (fun b => (0 <=? b) && (b <? 256)) f.
Lemma all_bytes_ok f : all_bytes f = true -> wf_bytes f.
Proof. intros H. apply Forall_forall. intros b B. unfold all_bytes in H. rewrite forallb_forall in H. apply H, andb_prop in B as (B1 & B2). lia. Qed.
(* a decompressor of stored records that checks its input *)
Definition checked : codec := mkCodec (fun _ _ d => d) (fun fmt eb n d => let m := Z.to_nat (n * rec_size fmt eb) in if (m <=? length d)%nat && all_bytes (firstn m d) then Some (firstn m d) else None) (cd_table verbatim) (cd_untable verbatim).
Lemma checked_sized : sized_output checked.
Proof.
  intros fmt eb n s b F E N D. cbn [checked cd_decomp] in D. destruct ((_ <=? _)%nat && _) eqn:Q; [|discriminate]. assert (b = firstn (Z.to_nat (n * rec_size fmt eb)) s) as -> by congruence. apply andb_prop in Q as (Q1 & Q2). apply Nat.leb_le in Q1.
  split; [now apply all_bytes_ok|]. rewrite firstn_length, Nat.min_l by exact Q1. assert (R : rec_size fmt eb = las_base fmt + eb) by (unfold rec_size; reflexivity). rewrite R. pose proof (las_base_range fmt). nia.
Qed.
(* a file that lost its last 4 bytes opens; looking for a node reads a page entry only in part *)
Definition short_file : bytes := Eval vm_compute in firstn (length good_file - 4) good_file.
Theorem C82_cut_page_refuted : exists f r r' k, wf_bytes f /\ open_reader true f = Ok r /\ sane_records (c_hdr (r_cfg r)) /\ find_node 50 k r = Some (r', UB).
Proof.
  destruct (test_after_ok short_file [] (fun r _ => is_ub (find_node 50 c0 r) && all_bytes short_file && (h_fmt (c_hdr (r_cfg r)) =? 7) && (h_reclen (c_hdr (r_cfg r)) =? 48))) as (r & _ & O & _ & _ & _ & T); [vm_compute; reflexivity|].
  apply andb_prop in T as (T & T4). apply andb_prop in T as (T & T3). apply andb_prop in T as (T1 & T2). apply is_ub_ok in T1 as (r' & T1). apply Z.eqb_eq in T3, T4. exists short_file, r, r', c0. split; [now apply all_bytes_ok|]. split; [exact O|]. split; [|exact T1].
  intros _. rewrite T3, T4. vm_compute. split; discriminate.
Qed.
Print Assumptions C82_cut_page_refuted.
(* a header that gives a record length of 20 bytes: the number of extra bytes wraps around, and the first record overruns the buffer *)
Definition thin_file : bytes := Eval vm_compute in put 105 (le_enc 2 20) good_file.
Theorem C82_record_length_refuted : exists f hs r r' k, wf_bytes f /\ copc_pages f hs /\ open_reader true f = Ok r /\ h_fmt (c_hdr (r_cfg r)) = 7 /\ h_reclen (c_hdr (r_cfg r)) = 20 /\ get_point_data checked 50 k r = Some (r', UB).
Proof.
  destruct (test_after_ok thin_file [] (fun r _ => is_ub (get_point_data checked 50 c0 r) && all_bytes thin_file && (h_fmt (c_hdr (r_cfg r)) =? 7) && (h_reclen (c_hdr (r_cfg r)) =? 20))) as (r & _ & O & _ & _ & _ & T); [vm_compute; reflexivity|].
  apply andb_prop in T as (T & T4). apply andb_prop in T as (T & T3). apply andb_prop in T as (T1 & T2). apply is_ub_ok in T1 as (r' & T1). apply Z.eqb_eq in T3, T4. exists thin_file, good_pages, r, r', c0. split; [now apply all_bytes_ok|]. split; [apply hierarchy_b_ok; vm_compute; reflexivity|]. auto.
Qed.
Print Assumptions C82_record_length_refuted.
(* a node at depth 2^31 - 1 in a file with an infinite spacing: the loop over the depths overflows its counter *)
Definition infinite : f64 := fdiv (f64_of_Z 1) (f64_of_Z 0).
Definition deep_file : bytes := Eval vm_compute in put 461 (enc_f64 infinite) (draft_file cube_file [(root_key, [inl (mkEntry (mkKey INT32_MAX 0 0 0) 100 48 1)])]).
Lemma loop_overflows s res : fle s res = false -> fdiv s f2 = s -> forall n i, depth_loop n i INT32_MAX s res = UB.
Proof. intros F D. induction n as [|n IH]; intros i; cbn [depth_loop]; [now rewrite Z.eqb_refl|]. rewrite F, D. apply IH. Qed.
Definition is_infinite (x : f64) : bool := match x with Binary.B754_infinity _ _ false => true | _ => false end.
Lemma infinite_spacing x : is_infinite x = true -> fle x (f64_of_Z 1) = false /\ fle (f64_of_Z 1) f0 = false /\ fdiv x f2 = x.
Proof. unfold is_infinite. destruct x as [| [|] | |]; try discriminate. intros _. split; [vm_compute; reflexivity|]. split; vm_compute; reflexivity. Qed.
Theorem C82_deepest_node_refuted : exists f r r', wf_bytes f /\ open_reader true f = Ok r /\ get_depth_at_resolution 50 in_order (f64_of_Z 1) r = Some (r', UB).
Proof.
  destruct (test_after_ok deep_file [] (fun r _ => all_bytes deep_file && match get_all_nodes 50 in_order r with Some (r', Ok l) => (max_depth_of l =? INT32_MAX) && is_infinite (i_spacing (c_info (r_cfg r'))) | _ => false end)) as (r & _ & O & _ & _ & _ & T); [vm_compute; reflexivity|].
  apply andb_prop in T as (T1 & T2). destruct (get_all_nodes 50 in_order r) as [(r', [l| |])|] eqn:A; try discriminate T2. apply andb_prop in T2 as (T2 & T3). apply Z.eqb_eq in T2. apply infinite_spacing in T3 as (T3 & T4 & T5).
  exists deep_file, r, r'. split; [now apply all_bytes_ok|]. split; [exact O|]. unfold get_depth_at_resolution. rewrite A. cbn [and_then]. unfold depth_for. rewrite T4, T2. now rewrite (loop_overflows _ _ T3 T5).
Qed.
Print Assumptions C82_deepest_node_refuted.

Example C82_nonvacuous : exists r0 r, sized_output checked /\ visits_all in_order /\ wf_bytes good_file /\ open_reader true good_file = Ok r0 /\ no_cut_page good_file /\ no_deepest_node good_file /\
  sane_records (c_hdr (r_cfg r0)) /\ reader_after checked in_order r0 r /\
  Forall (fun q => exists r' a, answer_to checked in_order 50 q r = Some (r', Ok a)) [QFind c0; QAllPoints f0; QPages; QData c1; QDepth f0].
Proof.
  set (qs := [QFind c0; QAllPoints f0; QPages; QData c1; QDepth f0]).
  set (t := fun r => forallb (fun q => match answer_to checked in_order 50 q r with Some (_, Ok _) => true | _ => false end) qs).
  assert (T : test_after good_file [QPoints c1] (fun r _ => match ask_all checked in_order 50 [QPoints c1; QFind (mkKey 3 0 0 0)] r with Some r' => t r' | None => false end && (h_fmt (c_hdr (r_cfg r)) =? 7) && (h_reclen (c_hdr (r_cfg r)) =? 48) && all_bytes good_file) = true) by (vm_compute; reflexivity).
  destruct (test_after_ok _ _ _ T) as (r0 & _ & O & _ & _ & _ & T'). clear T. apply andb_prop in T' as (T' & T4). apply andb_prop in T' as (T' & T3). apply andb_prop in T' as (T1 & T2). apply Z.eqb_eq in T2, T3.
  destruct (ask_all checked in_order 50 _ r0) as [r|] eqn:A; [|discriminate T1]. exists r0, r. split; [apply checked_sized|]. split; [apply in_order_all|]. split; [now apply all_bytes_ok|]. split; [exact O|].
  assert (S : copc_pages good_file good_pages) by (apply hierarchy_b_ok; vm_compute; reflexivity). assert (RS : root_page_size good_file = copc_root_size good_file) by (vm_compute; reflexivity).
  split; [now apply (stored_no_cut _ good_pages)|]. split.
  { apply (stored_no_deepest _ good_pages S RS). assert (B : forallb (fun h => forallb (fun e => kd (e_key e) <? INT32_MAX) (pi_ents h)) good_pages = true) by (vm_compute; reflexivity). intros h e H E. rewrite forallb_forall in B. specialize (B h H). rewrite forallb_forall in B. apply Z.ltb_lt. exact (B e E). }
  split; [intros _; rewrite T2, T3; vm_compute; split; discriminate|]. split; [now exists 50%nat, [QPoints c1; QFind (mkKey 3 0 0 0)]|].
  apply Forall_forall. intros q Q. unfold t in T1. rewrite forallb_forall in T1. specialize (T1 q Q). destruct (answer_to checked in_order 50 q r) as [(r', [a| |])|]; try discriminate T1. eauto.
Qed.

(* ---- C83 ---- *)
(* Opening is defined - it gives a reader or an exception - for every file whose records lie in it, whose header
   texts are terminated and that reaches to the end of its COPC info. *)
Theorem C83_opening_defined : forall isfile f, wf_bytes f -> records_inside f -> wkt_vlr_followed f -> texts_terminated f -> info_inside f -> open_reader isfile f <> UB.
Proof. exact open_defined. Qed.
Print Assumptions C83_opening_defined.
Theorem C83_laz_opening_defined : forall f, wf_bytes f -> records_inside f -> wkt_vlr_followed f -> texts_terminated f -> open_laz_reader f <> UB.
Proof. intros f W R F T. unfold open_laz_reader. apply bind_defined; [now apply init_defined|]. discriminate. Qed.
Print Assumptions C83_laz_opening_defined.
(* the whole reading session: opening and then any queries *)
Theorem C83_session_defined : forall cd od isfile f, sized_output cd -> visits_all od -> wf_bytes f -> records_inside f -> wkt_vlr_followed f -> texts_terminated f -> info_inside f -> no_cut_page f -> no_deepest_node f ->
  open_reader isfile f = Throw \/ exists r0, open_reader isfile f = Ok r0 /\
    (sane_records (c_hdr (r_cfg r0)) -> forall r fuel q r' a, reader_after cd od r0 r -> int_count q -> q <> QValidate true -> answer_to cd od fuel q r = Some (r', a) -> a <> UB).
Proof.
  intros cd od isfile f CD OD W RI FO T II NC ND. destruct (open_reader isfile f) as [r0| |] eqn:O; [|now left|exfalso; revert O; now apply open_defined].
  right. exists r0. split; [reflexivity|]. intros SR r fuel q r' a A IC NV E. exact (C82_defined cd od isfile f r0 r fuel q r' a CD OD W O NC ND SR A IC NV E).
Qed.
Print Assumptions C83_session_defined.
(* a GUID of 16 non-zero bytes, which is what GUIDs are: the header's text has no end *)
Definition guid_file : bytes := Eval vm_compute in put 8 [1; 2; 3; 4; 5; 6; 7; 8; 9; 10; 11; 12; 13; 14; 15; 16] good_file.
Definition inside_b (f : bytes) : bool :=
  forallb (fun i => vlr_pos f i + 54 + num_at (vlr_pos f i + 20) 2 f <=? Z.of_nat (length f)) (seq 0 (Z.to_nat (las_vlr_count f))) &&
  forallb (fun i => evlr_pos f i + 60 + num_at (evlr_pos f i + 20) 8 f <=? Z.of_nat (length f)) (seq 0 (Z.to_nat (las_evlr_count f))) &&
  forallb (fun i => vlr_pos f i + 60 + num_at (vlr_pos f i + 20) 2 f <=? Z.of_nat (length f)) (seq 0 (Z.to_nat (las_vlr_count f))) &&
  (589 <=? Z.of_nat (length f)) && all_bytes f.
Lemma inside_ok f : inside_b f = true -> wf_bytes f /\ records_inside f /\ wkt_vlr_followed f /\ info_inside f.
Proof.
  unfold inside_b. intros H. apply andb_prop in H as (H & H5). apply andb_prop in H as (H & H4). apply andb_prop in H as (H & H3). apply andb_prop in H as (H1 & H2). rewrite forallb_forall in H1, H2, H3.
  assert (IN : forall i n, Z.of_nat i < n -> In i (seq 0 (Z.to_nat n))) by (intros i n L; apply in_seq; lia).
  split; [now apply all_bytes_ok|]. split; [split; intros i L; apply Z.leb_le; [apply (H1 i)|apply (H2 i)]; now apply IN|]. split; [|unfold info_inside; lia].
  intros i L _. apply Z.leb_le. now apply (H3 i), IN.
Qed.
Definition opens_ub (f : bytes) : bool := match open_reader true f with UB => true | _ => false end.
Lemma opens_ub_ok f : opens_ub f = true -> open_reader true f = UB.
Proof. unfold opens_ub. destruct (open_reader true f); [discriminate|discriminate|reflexivity]. Qed.
Theorem C83_full_guid_refuted : exists f, wf_bytes f /\ records_inside f /\ wkt_vlr_followed f /\ info_inside f /\ open_reader true f = UB.
Proof.
  exists guid_file. assert (T : inside_b guid_file && opens_ub guid_file = true) by (vm_compute; reflexivity). apply andb_prop in T as (T1 & T2).
  apply opens_ub_ok in T2. destruct (inside_ok _ T1) as (A & B & C & D). auto.
Qed.
Print Assumptions C83_full_guid_refuted.
Definition texts_b (f : bytes) : bool := existsb (Z.eqb 0) (bytes_at 8 16 f) && existsb (Z.eqb 0) (bytes_at 26 32 f) && existsb (Z.eqb 0) (bytes_at 58 32 f).
Lemma texts_ok f : texts_b f = true -> texts_terminated f.
Proof.
  unfold texts_b. intros H. apply andb_prop in H as (H & H3). apply andb_prop in H as (H1 & H2). apply existsb_exists in H1 as (x & A & E1), H2 as (y & B & E2), H3 as (z & C & E3). apply Z.eqb_eq in E1, E2, E3. subst. now repeat split.
Qed.
Definition clipped_file : bytes := Eval vm_compute in firstn 1762 good_file.
Example C83_nonvacuous : wf_bytes good_file /\ records_inside good_file /\ wkt_vlr_followed good_file /\ texts_terminated good_file /\ info_inside good_file /\ 3 < las_vlr_count good_file + las_evlr_count good_file /\
  (wf_bytes clipped_file /\ texts_terminated clipped_file /\ ~ records_inside clipped_file) /\ (exists g, records_inside g /\ texts_terminated g /\ info_inside g /\ open_reader true g = Throw).
Proof.
  assert (T : inside_b good_file && texts_b good_file && (3 <? las_vlr_count good_file + las_evlr_count good_file) = true) by (vm_compute; reflexivity). apply andb_prop in T as (T & T3). apply andb_prop in T as (T1 & T2).
  destruct (inside_ok _ T1) as (A & B & C & D). split; [exact A|]. split; [exact B|]. split; [exact C|]. split; [now apply texts_ok|]. split; [exact D|]. split; [now apply Z.ltb_lt|]. split.
  - assert (U : all_bytes clipped_file && texts_b clipped_file = true) by (vm_compute; reflexivity). apply andb_prop in U as (U1 & U2). split; [now apply all_bytes_ok|]. split; [now apply texts_ok|].
    intros (_ & E). assert (X : (evlr_pos clipped_file 1 + 60 + num_at (evlr_pos clipped_file 1 + 20) 8 clipped_file <=? Z.of_nat (length clipped_file)) = false /\ (1 <? las_evlr_count clipped_file) = true) by (vm_compute; split; reflexivity).
    destruct X as (X1 & X2). apply Z.ltb_lt in X2. specialize (E 1%nat X2). apply Z.leb_gt in X1. lia.
  - exists (put 24 [1; 3] good_file). assert (U : inside_b (put 24 [1; 3] good_file) && texts_b (put 24 [1; 3] good_file) = true) by (vm_compute; reflexivity). apply andb_prop in U as (U1 & U2). destruct (inside_ok _ U1) as (A' & B' & C' & D').
    split; [exact B'|]. split; [now apply texts_ok|]. split; [exact D'|]. vm_compute. reflexivity.
Qed.
