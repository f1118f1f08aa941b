(* ProofResults.v - what a closed COPC file contains, in terms of the calls made *)
From Coq Require Import Permutation.
From Verif Require Import Base BaseFacts ModelFloat ModelKey ModelGeom ModelEntry ModelPoint ModelPoints ModelHeader ModelVlr ModelExtents ModelConfig
  ModelStream ModelWriter SpecKey SpecPoint SpecConfig SpecHeader SpecWriter SpecHier SpecFile ProofKey ProofPoint ProofPoint2 ProofHeader ProofExtents ProofConfig
  ProofStream ProofWriter ProofWriter2 ProofWriter3 ProofWriter4 ProofTree ProofPages ProofClose ProofClose2 ProofSession ProofFile ProofHier ProofCount.

Lemma complete_closed cd od c v c0 ops l w : complete_session cd od c v c0 ops l w ->
  exists w0 w1 cs PG ws h, open_writer None c v = Ok w0 /\ wrun cd ops w0 = (w1, l) /\ history cd c0 ops l w1 cs /\ closed cd od w1 cs PG ws h w /\
    reorders od /\ Z.of_nat (length (file w)) < 2 ^ 64 /\ all_defined l.
Proof.
  intros (S & E & R & WF & RO & AD & L). destruct (session_closed _ _ _ _ _ _ _ _ S E R WF RO L) as (w0 & w1 & cs & PG & ws & h & A & B & C & D).
  exists w0, w1, cs, PG, ws, h. tauto.
Qed.

(* ---- chunks ---- *)
Lemma chunk_kept cd od c v c0 ops l w op n : complete_session cd od c v c0 ops l w -> In (op, Ok (Some n)) l ->
  exists x, chunk_of cd (c_hdr c0) op = Some (x, e_count (n_entry n)) /\ add_keys op = Some (e_key (n_entry n), n_page n) /\
    e_size (n_entry n) = Z.of_nat (length x) /\ bytes_at (e_offset (n_entry n)) (e_size (n_entry n)) (file w) = x.
Proof.
  intros S Hin. destruct (complete_closed _ _ _ _ _ _ _ _ S) as (w0 & w1 & cs & PG & ws & h & O & R & HS & C & RO & L & AD).
  destruct (hs_nodes _ _ _ _ _ _ HS _ _ Hin) as ((k & p & A & K & P & _) & _ & x & CO & PL). exists x. split; [exact CO|].
  split; [subst k p; exact A|]. split; [destruct PL as (pre & post & _ & _ & SZ & _); exact SZ|].
  eapply chunk_bytes; [exact C|]. rewrite (hs_start _ _ _ _ _ _ HS). exact PL.
Qed.

Lemma wrun_split cd l1 : forall ops w w' x l2, wrun cd ops w = (w', l1 ++ x :: l2) ->
  exists ops1 ops2 wm wm', ops = ops1 ++ fst x :: ops2 /\ wrun cd ops1 w = (wm, l1) /\ wstep cd (fst x) wm = (wm', snd x) /\
    (snd x <> UB -> wrun cd ops2 wm' = (w', l2)).
Proof.
  induction l1 as [|y l1 IH]; intros ops w w' x l2 H.
  - destruct ops as [|op ops]; cbn [wrun app] in H; [discriminate|]. destruct (wstep cd op w) as (w1, r) eqn:E.
    exists [], ops, w, w1. cbn [app wrun]. destruct r; [destruct (wrun cd ops w1) as (w2, l) eqn:R; injection H as <- <- <-; cbn [fst snd]; auto..|].
    injection H as <- <- <-. cbn [fst snd]. repeat split; auto. congruence.
  - destruct ops as [|op ops]; cbn [wrun app] in H; [discriminate|]. destruct (wstep cd op w) as (w1, r) eqn:E.
    assert (H' : r <> UB /\ exists l, wrun cd ops w1 = (w', l) /\ y = (op, r) /\ l = l1 ++ x :: l2).
    { destruct r; [destruct (wrun cd ops w1) as (w2, l) eqn:R; injection H as <- <- <-; split; [discriminate|]; eauto..|].
      injection H as <- <- H. destruct l1; discriminate. }
    destruct H' as (NU & l & R & -> & ->). apply IH in R as (o1 & o2 & wm & wm' & -> & R1 & R2 & R3).
    exists (op :: o1), o2, wm, wm'. cbn [app wrun]. rewrite E, R1. repeat split; auto. destruct r; [reflexivity..|congruence].
Qed.
Lemma chunk_position cd od c v c0 ops l1 op n l2 w : complete_session cd od c v c0 ops (l1 ++ (op, Ok (Some n)) :: l2) w -> chunks_fit cd (c_hdr c0) ops ->
  e_offset (n_entry n) = data_start c0 + 8 + Z.of_nat (length (concat (map fst (chunks_of cd (c_hdr c0) l1)))).
Proof.
  intros ((w0 & w1 & O & R & CL) & E & RD & WF & RO & AD & L) FIT. pose proof (close_ge _ _ _ _ _ CL) as GE.
  destruct (open_inv _ _ _ _ O E RD) as (C & G & S & B & HI).
  destruct (wrun_split _ _ _ _ _ _ _ R) as (o1 & o2 & wm & wm' & -> & R1 & R2 & R3). cbn [fst snd] in *. specialize (R3 ltac:(discriminate)).
  apply Forall_app in WF as (WF1 & WF2). inversion WF2 as [|? ? W1 W2]; subst.
  pose proof (wrun_grows _ _ _ _ _ (proj1 B) R1) as G1. pose proof (wstep_grows _ _ _ _ _ (proj1 G1) R2) as G2.
  pose proof (wrun_grows _ _ _ _ _ (proj1 G2) R3) as G3. apply grows_le in G2. apply grows_le in G3.
  destruct (run_base _ _ _ _ _ _ _ WF1 S ltac:(exact G) B R1 ltac:(lia)) as (cs & B1 & CK1 & F1 & CF & _). cbn [app] in B1.
  assert (CS : cs = chunks_of cd (c_hdr (w_cfg w0)) l1) by (apply CF; intros o b m Ho; apply FIT; apply in_or_app; now left).
  destruct (add_args op) as [(k, p)|] eqn:A.
  - destruct (wstep_add _ _ _ _ _ _ _ _ _ A W1 S CK1 B1 R2 ltac:(lia)) as [(_ & [X|X])|(x & m & _ & _ & _ & _ & _ & _ & _ & T)]; try discriminate.
    destruct T as [(_ & X & _)|(_ & X & _)]; [discriminate|]. injection X as ->. cbn [n_entry e_offset]. rewrite CS. reflexivity.
  - destruct (wstep_other _ _ _ _ _ A W1 CK1 R2) as (_ & _ & _ & _ & [X|[(_ & X)|X]] & _); discriminate.
Qed.
Lemma tiling cd od c v c0 ops l w : complete_session cd od c v c0 ops l w -> chunks_fit cd (c_hdr c0) ops ->
  let cs := chunks_of cd (c_hdr c0) l in let data := concat (map fst cs) in let start := data_start c0 + 8 in let table := start + Z.of_nat (length data) in
  las_point_offset (file w) = data_start c0 /\ laz_table_offset (file w) = table /\ bytes_at start (Z.of_nat (length data)) (file w) = data /\
  (exists rest, skipn (Z.to_nat table) (file w) = enc_u32 0 ++ enc_u32 (Z.of_nat (length cs)) ++
    cd_table cd (map (fun c => (snd c mod 2 ^ 64, Z.of_nat (length (fst c)))) cs) ++ rest /\
    las_evlr_offset (file w) = Z.of_nat (length (file w)) - Z.of_nat (length rest)) /\
  Z.of_nat (length cs) < 2 ^ 32 /\ las_point_count (file w) = total_points cs mod 2 ^ 64.
Proof.
  intros S FIT. destruct (complete_closed _ _ _ _ _ _ _ _ S) as (w0 & w1 & cs & PG & ws & h & O & R & HS & C & RO & L & AD).
  rewrite <- (hs_cs _ _ _ _ _ _ HS FIT). cbv zeta. pose proof (hs_start _ _ _ _ _ _ HS) as DS. rewrite <- DS.
  destruct (head_fields _ _ _ _ _ _ _ _ C L) as (H1 & _ & H3 & _ & H4). destruct (table_at _ _ _ _ _ _ _ _ C L) as (T1 & T2 & T3).
  split; [exact H1|]. split; [exact T1|]. split; [exact T2|]. split; [|split; [|exact H4]].
  - exists (recs_bytes true (evlr_recs od ws (c_wkt (w_cfg w1)))). split.
    + rewrite (file_split _ _ _ _ _ _ _ _ C). unfold data_section. set (rs := recs_bytes _ _).
      replace (head_area w1 h w ++ _) with ((head_area w1 h w ++ enc_u64 (data_start (w_cfg w1) + 8 + Z.of_nat (length (cdata cs))) ++ cdata cs) ++ table_bytes cd cs ++ rs)
        by now rewrite <- !app_assoc.
      rewrite skipn_app. match goal with |- skipn ?a ?x ++ _ = _ => assert (LA : a = length x) end.
      { rewrite !app_length. pose proof (head_length _ _ _ _ _ _ _ _ C) as HL. unfold enc_u64. rewrite le_enc_length. rewrite <- HL. unfold cdata. lia. }
      rewrite LA, skipn_all, Nat.sub_diag. cbn [skipn app]. unfold table_bytes. rewrite <- !app_assoc. reflexivity.
    + rewrite H3, (ev_start_pos _ _ _ _ _ _ _ _ C), (file_split _ _ _ _ _ _ _ _ C), !app_length. lia.
  - pose proof (cl_count _ _ _ _ _ _ _ _ C). unfold UINT32_MAX in *. lia.
Qed.

(* ---- directories ---- *)
Lemma directories cd od c v c0 ops l w : complete_session cd od c v c0 ops l w -> (length (c_ebs c0) <= 341)%nat -> Z.of_nat (length ops) < 2 ^ 32 - 2 ->
  let f := file w in
  follow 54 2 (Z.to_nat (las_vlr_count f)) 375 f <= las_point_offset f /\
  (eb_total (c_ebs c0) <> 0 \/ c_ebs c0 = [] -> follow 54 2 (Z.to_nat (las_vlr_count f)) 375 f = las_point_offset f) /\
  num_at 393 2 f = 1 /\ bytes_at 377 16 f = s_copc ++ zeros 12 /\ num_at 395 2 f = 160 /\
  follow 60 8 (Z.to_nat (las_evlr_count f)) (las_evlr_offset f) f = Z.of_nat (length f) /\
  (settled l -> exists pages, NoDup pages /\ (forall p, In p pages <-> page_of_view (view_of l) p) /\
     las_evlr_count f = Z.of_nat (length pages) + match c_wkt c0 with [] => 0 | _ => 1 end).
Proof.
  intros S EB N. destruct (complete_closed _ _ _ _ _ _ _ _ S) as (w0 & w1 & cs & PG & ws & h & O & R & HS & C & RO & L & AD).
  cbv zeta. pose proof (hs_start _ _ _ _ _ _ HS) as DS. pose proof (hs_fix _ _ _ _ _ _ HS) as (_ & _ & _ & _ & FW & FE & _).
  destruct (head_fields _ _ _ _ _ _ _ _ C L) as (H1 & H2 & H3 & H4 & _).
  assert (VW : follow 54 2 (Z.to_nat (las_vlr_count (file w))) 375 (file w) = data_start (w_cfg w1) - slack (w_cfg w1)).
  { rewrite H2, Nat2Z.id. apply (vlr_walk _ _ _ _ _ _ _ _ C). now rewrite FE. }
  rewrite VW, H1. split; [unfold slack; destruct (_ && _); lia|]. split.
  { intros E. enough (slack (w_cfg w1) = 0) by lia. unfold slack. rewrite FE. destruct E as [E|E]; [|rewrite E; reflexivity].
    destruct (Z.eqb_spec (eb_total (c_ebs c0)) 0); [contradiction|]. now rewrite andb_false_r. }
  assert (V1 : exists rest, file w = enc_header14 h ++ enc_vlr_header info_vlr_header ++ rest).
  { rewrite (cl_file _ _ _ _ _ _ _ _ C). unfold vlr_part. rewrite <- !app_assoc. eauto. }
  destruct V1 as (rest & V1). pose proof (cl_hlen _ _ _ _ _ _ _ _ C) as HL.
  set (iv := enc_vlr_header info_vlr_header) in *. assert (LI : length iv = 54%nat) by reflexivity.
  assert (FI : forall off n, 375 <= off -> 0 <= n -> off + n <= 429 -> bytes_at off n (file w) = bytes_at (off - 375) n iv).
  { intros off n A1 A2 A3. rewrite V1. change 375 with (Z.of_nat 375) at 1. rewrite <- HL. apply bytes_at_in; rewrite ?HL, ?LI; lia. }
  split; [unfold num_at; rewrite FI by lia; reflexivity|]. split; [rewrite FI by lia; reflexivity|]. split; [unfold num_at; rewrite FI by lia; reflexivity|].
  pose proof (hs_pages _ _ _ _ _ _ HS) as (ND & _). destruct S as (S & E & RD & WF & _).
  destruct (evlr_total _ _ _ _ _ _ _ _ C ND) as (T1 & T2).
  assert (PF : (length (w_pages w1) <= Datatypes.S (length ops))%nat).
  { eapply pages_few; eauto. destruct (S) as (w0' & w1' & O' & R' & CL). pose proof (close_ge _ _ _ _ _ CL) as GE. rewrite O in O'. injection O' as <-. rewrite R in R'. injection R' as <-. lia. }
  assert (EC : las_evlr_count (file w) = Z.of_nat (length (evlr_recs od ws (c_wkt (w_cfg w1))))).
  { rewrite H4, T1. unfold ev_count, to_u. destruct (c_wkt (w_cfg w1)); rewrite ?(Z.mod_small (Z.of_nat (length (w_pages w1)))), ?Z.mod_small; lia. }
  split.
  { rewrite EC, Nat2Z.id, H3. apply (evlr_walk _ _ _ _ _ _ _ _ RO C L). }
  intros ST. exists (map fst (w_pages w1)). split; [exact ND|]. pose proof (hs_hier _ _ _ _ _ _ HS AD ST) as HI. split.
  - intros p. split.
    + intros P. apply mget_some_in in P as (P & EP). destruct (key_eqb_spec p root_key) as [->|NR]; [now left|right].
      destruct (hi_page _ _ HI _ _ EP) as (_ & _ & _ & _ & _ & X). now apply X.
    + intros [E'|(k & n & V)]; [rewrite E'; apply mget_some_in; apply (hi_root _ _ HI)|]. apply mget_some_in. now apply (hi_view _ _ HI) in V as (V & _).
  - rewrite EC, T1, FW, map_length. destruct (c_wkt c0); lia.
Qed.

(* ---- the hierarchy ---- *)
Lemma hierarchy_stored cd od c v c0 ops l w : complete_session cd od c v c0 ops l w -> settled l -> Forall positive ops ->
  exists hs, stored_hierarchy (file w) (i_root_off (c_info (w_cfg w))) (i_root_size (c_info (w_cfg w))) hs /\ stores_view hs (view_of l) /\
    forall p, In p (map pi_key hs) <-> page_of_view (view_of l) p.
Proof.
  intros S ST PO. destruct (complete_closed _ _ _ _ _ _ _ _ S) as (w0 & w1 & cs & PG & ws & h & O & R & HS & C & RO & L & AD). exists ws.
  pose proof (hs_hier _ _ _ _ _ _ HS AD ST) as HI. eapply closed_hierarchy; eauto.
  intros k n p V. unfold view_of in V. apply view_from_log in V as [(q & V)|(op & Hin & K)]; [discriminate| |].
  2:{ intros op m Hin. destruct (hs_nodes _ _ _ _ _ _ HS _ _ Hin) as ((k' & p' & A & K & _) & _). exists p'. now rewrite K. }
  destruct (hs_nodes _ _ _ _ _ _ HS _ _ Hin) as ((k' & p' & A & K' & P' & CO & K32 & P32 & CR & C0 & CP) & IN & x & CK & PL).
  rewrite Forall_forall in PO. apply PO in IN.
  assert (0 < e_count (n_entry n)) by (destruct op; try discriminate A; try exact CP; cbn [positive] in IN; lia).
  destruct PL as (pre & post & CS & OF & SZ & LE). pose proof (child_of_valid_l _ _ CO) as V.
  assert (OFR : 0 <= e_offset (n_entry n) < 2 ^ 64).
  { pose proof (ds_range _ _ _ _ _ _ _ _ C) as DR. rewrite (hs_start _ _ _ _ _ _ HS) in DR. split; [lia|].
    destruct (table_at _ _ _ _ _ _ _ _ C L) as (_ & _ & TB). rewrite (hs_start _ _ _ _ _ _ HS) in TB.
    assert (TL : Z.of_nat (length (table_bytes cd cs)) > 0) by (unfold table_bytes, enc_u32; rewrite !app_length, !le_enc_length; lia).
    apply (f_equal (fun b => Z.of_nat (length b))) in TB. apply bytes_at_len_le in TB; [|lia..]. rewrite CS, cdata_app, app_length in TB. lia. }
  split; [|split; [|lia]].
  - unfold wf_entry. rewrite K'. cbn [e_key e_offset e_size e_count]. unfold INT32_MAX in LE. destruct K32 as (I1 & I2 & I3 & I4).
    unfold wf_key, i32, u64, in_range, INT32_MIN, INT32_MAX. rewrite SZ. destruct V as (V1 & V2 & V3 & V4).
    repeat (apply andb_true_intro; split); try apply Z.leb_le; try apply Z.ltb_lt; try lia.
  - unfold entry_valid. rewrite K'. destruct V as (V1 & V2 & V3 & V4). unfold key_valid. rewrite SZ.
    repeat (apply andb_true_intro; split); try apply Z.leb_le; lia.
Qed.
Lemma root_fields cd od c v c0 ops l w : complete_session cd od c v c0 ops l w ->
  copc_root_offset (file w) = i_root_off (c_info (w_cfg w)) /\ copc_root_size (file w) = i_root_size (c_info (w_cfg w)).
Proof.
  intros S. destruct (complete_closed _ _ _ _ _ _ _ _ S) as (w0 & w1 & cs & PG & ws & h & O & R & HS & C & RO & L & AD).
  pose proof (cl_hlen _ _ _ _ _ _ _ _ C) as HL. pose proof (cl_ok _ _ _ _ _ _ _ _ C) as (_ & _ & _ & _ & _ & _ & _ & WI & _).
  set (i := c_info (w_cfg w)) in *. destruct (ltac:(exact WI) : wf_info i) as (W1 & W2).
  assert (V1 : exists pre rest, length pre = 469%nat /\ file w = pre ++ enc_u64 (i_root_off i) ++ enc_u64 (i_root_size i) ++ rest).
  { rewrite (cl_file _ _ _ _ _ _ _ _ C). unfold vlr_part, enc_info.
    exists (enc_header14 h ++ enc_vlr_header info_vlr_header ++ enc_f64 (i_cx i) ++ enc_f64 (i_cy i) ++ enc_f64 (i_cz i) ++ enc_f64 (i_half i) ++ enc_f64 (i_spacing i)).
    eexists. split; [|rewrite <- !app_assoc; reflexivity]. rewrite !app_length, HL, vlr_header_length. unfold enc_f64, enc_u64. rewrite !le_enc_length. reflexivity. }
  destruct V1 as (pre & rest & LP & ->). unfold copc_root_offset, copc_root_size. change 8 with (Z.of_nat 8). split.
  - apply num_at_mid; [rewrite LP; reflexivity|exact W1].
  - rewrite app_assoc. apply num_at_mid; [rewrite app_length, LP; unfold enc_u64; rewrite le_enc_length; reflexivity|exact W2].
Qed.
(* the counts of accepted calls *)
Lemma count_positive cd od c v c0 ops l w op n : complete_session cd od c v c0 ops l w -> In (op, Ok (Some n)) l -> positive op -> 0 < e_count (n_entry n).
Proof.
  intros S Hin P. destruct (complete_closed _ _ _ _ _ _ _ _ S) as (w0 & w1 & cs & PG & ws & h & O & R & HS & C & RO & L & AD).
  destruct (hs_nodes _ _ _ _ _ _ HS _ _ Hin) as ((k' & p' & A & K' & P' & CO & K32 & P32 & CR & C0 & CP) & IN & x & CK & PL).
  destruct op; try discriminate A; try exact CP. cbn [positive] in P. cbn [chunk_of] in CK. injection CK as _ <-. exact P.
Qed.
Lemma view_logged cd od c v c0 ops l w k n p : complete_session cd od c v c0 ops l w -> view_of l k = Some (n, p) ->
  exists op, In (op, Ok (Some n)) l /\ In op ops /\ e_key (n_entry n) = k.
Proof.
  intros S V. destruct (complete_closed _ _ _ _ _ _ _ _ S) as (w0 & w1 & cs & PG & ws & h & O & R & HS & C & RO & L & AD).
  unfold view_of in V. apply view_from_log in V as [(q & V)|(op & Hin & K)]; [discriminate| |].
  - exists op. split; [exact Hin|]. split; [apply (hs_nodes _ _ _ _ _ _ HS _ _ Hin)|exact K].
  - intros op m Hin. destruct (hs_nodes _ _ _ _ _ _ HS _ _ Hin) as ((k' & p' & A & K & _) & _). exists p'. now rewrite K.
Qed.
Lemma hierarchy_in_file cd od c v c0 ops l w : complete_session cd od c v c0 ops l w -> settled l -> Forall positive ops ->
  exists hs, stored_hierarchy (file w) (copc_root_offset (file w)) (copc_root_size (file w)) hs /\
    (forall k n p, view_of l k = Some (n, p) -> stored_only_in hs k n p) /\
    (forall k, view_of l k = None -> forall i e, In i hs -> In e (pi_ents i) -> is_sub e = false -> e_key e <> k) /\
    forall p, In p (map pi_key hs) <-> page_of_view (view_of l) p.
Proof.
  intros S ST PO. destruct (hierarchy_stored _ _ _ _ _ _ _ _ S ST PO) as (hs & H & (V1 & V2) & P). destruct (root_fields _ _ _ _ _ _ _ _ S) as (-> & ->).
  exists hs. split; [exact H|]. split; [|split; [|exact P]].
  - intros k n p V. destruct (V1 _ _ _ V) as (i & I1 & I2 & I3 & I4). split; [eauto|]. split; [exact I4|]. split.
    + destruct (view_logged _ _ _ _ _ _ _ _ _ _ _ S V) as (op & Hin & Iop & _). rewrite Forall_forall in PO.
      pose proof (count_positive _ _ _ _ _ _ _ _ _ _ S Hin (PO _ Iop)). unfold is_sub. apply Z.eqb_neq. lia.
    + intros j e J E NS <-. destruct (V2 _ _ J E NS) as (m & M & <-). rewrite V in M. injection M as <- <-. auto.
  - intros k V i e I E NS <-. destruct (V2 _ _ I E NS) as (m & M & _). congruence.
Qed.
