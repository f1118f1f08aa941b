(* ProofCopy.v - copying nodes from file to file *)
From Verif Require Import Base BaseFacts ModelFloat ModelKey ModelGeom ModelEntry ModelPoint ModelPoints ModelHeader ModelVlr ModelExtents ModelConfig
  ModelStream ModelWriter ModelReader ModelPickle ModelMp ModelCopy SpecKey SpecPoint SpecPoints SpecConfig SpecWriter SpecHier SpecFile SpecReader SpecData SpecRound SpecMp SpecCopy
  ProofFloat ProofGeom ProofKey ProofPoint ProofPoints ProofConfig ProofStream ProofWriter ProofWriter2 ProofWriter4 ProofClose2 ProofSession ProofResults ProofReject ProofCount ProofData ProofData2 ProofReader4 ProofReader6 ProofOpen ProofRound ProofMp ProofMp2 ProofMp3 ProofMp4 ProofMp5.
Open Scope Z_scope.

Section Copy.
Variables (f : bytes) (hs : list page_info) (r : reader) (page : node -> key).
Definition copy_op (X : node -> bytes) (n : node) : wop := WAddCompressed (n_key n) (X n) (e_count (n_entry n)) (page n).
(* the nodes of l and what the loop adds for them *)
Definition okn (n : node) : Prop := stored_nodes hs n /\ 0 < e_count (n_entry n) /\ key_valid (page n) = true /\ int32_key (page n) /\ child_of (n_key n) (page n) = true.
Hypothesis SR : copc_pages f hs.
Hypothesis FL : Z.of_nat (length f) < 2 ^ 63.
Hypothesis RO : reader_on f r.

Lemma source_good : ProofReader6.good f hs r.
Proof. eapply used_good; eauto. eapply reader_used; eauto. Qed.
Lemma source_chunk n : okn n -> whole_chunk f n -> get_compressed_node n r = (r, Ok (chunk_in f n)).
Proof. intros (S & _) W. destruct (stored_facts f hs n SR S) as (V & _). apply (compressed_ok f hs FL n r source_good V W). Qed.
Lemma add_cfg cd k x c p w w' n : add_node_compressed cd k x c p w = (w', Ok n) -> w_cfg w' = w_cfg w.
Proof.
  unfold add_node_compressed. intros A. destruct (c =? 0); [discriminate|]. unfold do_add_node in A. destruct (negb _ || negb _); [discriminate|]. destruct (negb _); [discriminate|].
  destruct (write_chunk _ _ _ _ _ _) as (b, [((off, size), m)| |]); try discriminate. apply (f_equal fst) in A. cbn [fst] in A. now subst w'.
Qed.
Lemma copy_run cd : forall l w r' w', Forall okn l -> Forall (whole_chunk f) l -> copy_nodes cd page l r w = (r', w', Ok tt) ->
  r' = r /\ w_cfg w' = w_cfg w /\ exists lg, wrun cd (map (copy_op (chunk_in f)) l) w = (w', lg) /\ Forall (fun x => exists n, snd x = Ok (Some n)) lg.
Proof.
  induction l as [|n l IH]; intros w r' w' F WH H; cbn [copy_nodes] in H; [injection H as <- <-; split; [reflexivity|split; [reflexivity|exists []; split; [reflexivity|constructor]]]|].
  pose proof (Forall_inv F) as N. apply Forall_inv_tail in F. pose proof (Forall_inv WH) as W. apply Forall_inv_tail in WH. rewrite (source_chunk n N W) in H. destruct (add_node_compressed cd (n_key n) (chunk_in f n) (e_count (n_entry n)) (page n) w) as (w1, [m| |]) eqn:A; try discriminate.
  destruct (IH _ _ _ F WH H) as (-> & C & lg & R & OKS). split; [reflexivity|]. split; [rewrite C; eapply add_cfg; eauto|]. exists ((copy_op (chunk_in f) n, Ok (Some m)) :: lg). split; [|constructor; [exists m; reflexivity|exact OKS]].
  cbn [map wrun]. unfold copy_op at 1. cbn [wstep]. rewrite A. cbn [some_node]. rewrite R. reflexivity.
Qed.
End Copy.
(* ---- what a run of additions leaves ---- *)
Section Added.
Variables (f : bytes) (hs : list page_info) (page : node -> key) (X : node -> bytes) (cd : codec) (l : list node).
Hypothesis SR : copc_pages f hs.
Hypothesis OKL : Forall (okn hs page) l.
Lemma copies_unique a b : In a l -> In b l -> n_key a = n_key b -> a = b.
Proof. rewrite Forall_forall in OKL. intros A B K. eapply stored_unique; [exact SR|apply (OKL a A)|apply (OKL b B)|exact K]. Qed.
Variables (lg : log).
Hypothesis OPS : map fst lg = map (copy_op page X) l.
Hypothesis OKS : Forall (fun x : wop * outcome (option node) => exists n, snd x = Ok (Some n)) lg.
Lemma log_adds : adds_only lg.
Proof.
  clear OKL. revert lg OPS OKS. induction l as [|d ds IH]; intros [|x g] E F; try discriminate; [constructor|]. cbn [map] in E. injection E as E1 E2. pose proof (Forall_inv F) as (n & Q). constructor; [|apply IH; [exact E2|now apply Forall_inv_tail in F]].
  destruct x as (op, o). cbn [fst snd] in *. subst. unfold copy_op. do 4 eexists. eexists. reflexivity.
Qed.
Lemma log_entry k x a p o : In (WAddCompressed k x a p, o) lg -> exists n, In n l /\ k = n_key n /\ x = X n /\ a = e_count (n_entry n) /\ p = page n.
Proof. intros I. apply (in_map fst) in I. rewrite OPS in I. apply in_map_iff in I as (n & E & I). cbn [fst] in E. unfold copy_op in E. injection E as <- <- <- <-. exists n. auto. Qed.
Lemma log_view n : In n l -> exists nd, view_of lg (n_key n) = Some (nd, page n) /\ In (copy_op page X n, Ok (Some nd)) lg.
Proof.
  intros I. destruct (view_adds lg (fun _ => None) (n_key n) log_adds) as [(_ & NO)|(x & a & p & nd & J & V)].
  - exfalso. assert (Q : In (copy_op page X n) (map fst lg)) by (rewrite OPS; now apply in_map). apply in_map_iff in Q as ((op, o) & E & J). cbn [fst] in E. subst op. exact (NO _ _ _ _ J).
  - destruct (log_entry _ _ _ _ _ J) as (m & M & K & -> & -> & ->). assert (m = n) as -> by (apply copies_unique; auto). exists nd. split; [exact V|exact J].
Qed.
Lemma log_none k : (forall n, In n l -> n_key n <> k) -> view_of lg k = None.
Proof.
  intros N. destruct (view_adds lg (fun _ => None) k log_adds) as [(E & _)|(x & a & p & nd & J & V)]; [exact E|]. destruct (log_entry _ _ _ _ _ J) as (m & M & K & _). now destruct (N m M).
Qed.
Lemma log_some k nd p : view_of lg k = Some (nd, p) -> exists n, In n l /\ n_key n = k /\ p = page n.
Proof.
  intros V. destruct (view_adds lg (fun _ => None) k log_adds) as [(E & _)|(x & a & q & nd' & J & V')]; [unfold view_of in V; congruence|]. destruct (log_entry _ _ _ _ _ J) as (m & M & K & _ & _ & Q). exists m. unfold view_of in V. split; [exact M|]. split; [now symmetry|congruence].
Qed.
Lemma log_settled : settled lg.
Proof.
  apply settled_adds; [exact log_adds|discriminate|]. intros k p x a o p' x' a' o' I J. destruct (log_entry _ _ _ _ _ I) as (n & N & K & _ & _ & ->), (log_entry _ _ _ _ _ J) as (m & M & K' & _ & _ & ->). f_equal. apply copies_unique; congruence.
Qed.
Lemma ops_fine : Forall wf_op (map (copy_op page X) l) /\ Forall positive (map (copy_op page X) l).
Proof.
  rewrite Forall_forall in OKL. split; apply Forall_forall; intros op I; apply in_map_iff in I as (n & <- & I); destruct (OKL n I) as (S & C & _ & P & _); cbn; [|exact C].
  destruct (stored_wf f hs n SR S) as (K & _ & W). split; [now apply wf_key_int32|]. split; [exact P|]. unfold wf_entry, i32, in_range, INT32_MAX, INT32_MIN in W. repeat (apply andb_prop in W as (W & ?)). lia.
Qed.
Lemma log_defined : all_defined lg.
Proof. unfold all_defined. eapply Forall_impl; [|exact OKS]. intros x (n & ->). discriminate. Qed.
End Added.

Lemma copied_written f hs page X cd l c v c0 wod w0 w1 lg w : copc_pages f hs -> Forall (okn hs page) l ->
  open_writer None c v = Ok w0 -> init_writer c v = Ok c0 -> ready c0 -> reorders wod -> wrun cd (map (copy_op page X) l) w0 = (w1, lg) -> Forall (fun x : wop * outcome (option node) => exists n, snd x = Ok (Some n)) lg ->
  w_cfg w1 = w_cfg w0 -> close cd wod w1 = (w, Ok tt) -> Z.of_nat (length (file w)) < 2 ^ 63 ->
  map fst lg = map (copy_op page X) l /\ written cd c0 (map (copy_op page X) l) lg w /\
  c_hdr (w_cfg w) = c_hdr c0 /\ c_wkt (w_cfg w) = c_wkt c0 /\ c_ebs (w_cfg w) = c_ebs c0 /\ c_exts (w_cfg w) = c_exts c0.
Proof.
  intros SR OKL O IW RD RO R OKS CF CL FL. pose proof (log_defined lg OKS) as AD. pose proof (wrun_ops _ _ _ _ _ R AD) as MF. split; [exact MF|].
  destruct (ops_fine f hs page X l SR OKL) as (WF & PO).
  assert (CS : complete_session cd wod c v c0 (map (copy_op page X) l) lg w) by (split; [exists w0, w1; auto|]; split; [exact IW|]; split; [exact RD|]; split; [exact WF|]; split; [exact RO|]; split; [exact AD|lia]).
  split; [split; [eauto|]; split; [eapply log_settled; eauto|]; split; [exact PO|exact FL]|].
  destruct (session_cfg _ _ _ _ _ _ _ _ _ _ CS O R) as (Q1 & Q2 & Q3 & Q4). destruct (open_spec _ _ _ O) as (c1 & E1 & CF0 & _). assert (c1 = c0) as -> by congruence. rewrite Q1, Q2, Q3, Q4, CF, CF0. auto.
Qed.

(* ---- the loop succeeds ---- *)
Section Runs.
Variables (f : bytes) (hs : list page_info) (r : reader) (page : node -> key) (cd : codec).
Hypothesis SR : copc_pages f hs.
Hypothesis FL : Z.of_nat (length f) < 2 ^ 63.
Hypothesis RO : reader_on f r.
Lemma chunk_size n : stored_nodes hs n -> whole_chunk f n -> Z.of_nat (length (chunk_in f n)) = e_size (n_entry n) /\ 0 <= e_size (n_entry n) <= INT32_MAX.
Proof.
  intros S (W1 & W2). destruct (stored_facts f hs n SR S) as (V & W & _). assert (B : 0 <= e_size (n_entry n) <= INT32_MAX).
  { unfold node_valid, entry_valid in V. apply andb_prop in V as (V & _). apply andb_prop in V as (_ & V). unfold wf_entry, i32, in_range in W. repeat (apply andb_prop in W as (W & ?)). lia. }
  split; [|exact B]. unfold chunk_in, bytes_at. rewrite firstn_length, skipn_length. lia.
Qed.
Lemma copy_succeeds : forall l w, Forall (okn hs page) l -> Forall (whole_chunk f) l -> at_end (b_out (w_base w)) -> 0 < Z.of_nat (length (file w)) -> Z.of_nat (length (file w)) + 2 ^ 31 * Z.of_nat (length l) < 2 ^ 63 ->
  exists w', copy_nodes cd page l r w = (r, w', Ok tt) /\ file w' = file w ++ concat (map (chunk_in f) l).
Proof.
  induction l as [|n l IH]; intros w F WH AE POS SM; cbn [copy_nodes map concat length] in *; [exists w; split; [reflexivity|now rewrite app_nil_r]|].
  pose proof (Forall_inv F) as N. apply Forall_inv_tail in F. pose proof (Forall_inv WH) as W. apply Forall_inv_tail in WH. rewrite (source_chunk f hs r page SR FL RO n N W).
  destruct N as (S & C & P & _ & CH). destruct (chunk_size n S W) as (LC & B). destruct (stored_facts f hs n SR S) as (_ & _ & _ & K & _). unfold INT32_MAX in *.
  destruct (add_succeeds cd (n_key n) (chunk_in f n) (e_count (n_entry n)) (page n) w) as (w' & nd & E & AE' & FW); auto; [lia|unfold INT32_MAX; lia|]. rewrite E.
  destruct (IH w' F WH AE') as (w2 & E2 & F2); [rewrite FW, app_length; lia|rewrite FW, app_length; lia|]. exists w2. split; [exact E2|]. now rewrite F2, FW, app_assoc.
Qed.
(* the loop that decompresses and compresses again *)
Definition repacked (h : las_header) (D : node -> bytes) (n : node) : bytes := cd_comp cd (h_fmt h) (h_reclen h - las_base (h_fmt h)) (D n).
Lemma recompress_run h D : 6 <= h_fmt h <= 8 -> las_base (h_fmt h) <= h_reclen h < 65536 -> forall l w r' w', c_hdr (w_cfg w) = h -> Forall (okn hs page) l -> Forall (fun n => holds_records cd (c_hdr (r_cfg r)) f n (D n)) l ->
  recompress_nodes cd page l r w = (r', w', Ok tt) ->
  r' = r /\ w_cfg w' = w_cfg w /\ (exists lg, wrun cd (map (copy_op page (repacked h D)) l) w = (w', lg) /\ Forall (fun x : wop * outcome (option node) => exists n, snd x = Ok (Some n)) lg) /\ Forall (fun n => Z.of_nat (length (D n)) mod h_reclen h = 0) l.
Proof.
  intros H6 HR. induction l as [|n l IH]; intros w r' w' HC F HD H; cbn [recompress_nodes] in H; [injection H as <- <-; split; [reflexivity|split; [reflexivity|split; [exists []; split; [reflexivity|constructor]|constructor]]]|].
  pose proof (Forall_inv F) as N. apply Forall_inv_tail in F. pose proof (Forall_inv HD) as W. apply Forall_inv_tail in HD.
  assert (G : ProofReader6.good f hs r) by (eapply source_good; eauto). destruct (good_data f hs r G) as (RD & RF). destruct (stored_facts f hs n SR (proj1 N)) as (V & _).
  rewrite (data_ok cd f n (D n) r RD RF FL V W) in H. rewrite HC in H. rewrite eb_size_is in H by auto. cbn [bind] in H.
  destruct (compress_bytes cd (h_fmt h) (h_reclen h - las_base (h_fmt h)) (D n)) as [(x, m)| |] eqn:CB; try discriminate.
  assert (XE : x = repacked h D n /\ Z.of_nat (length (D n)) mod h_reclen h = 0).
  { assert (30 <= las_base (h_fmt h)) by (assert (Q : h_fmt h = 6 \/ h_fmt h = 7 \/ h_fmt h = 8) by lia; destruct Q as [Q|[Q|Q]]; rewrite Q; cbn; lia).
    unfold compress_bytes in CB. rewrite point_byte_size_ok in CB by auto. cbn [bind] in CB. cbv zeta in CB. rewrite to_u_id in CB by lia. replace (las_base (h_fmt h) + (h_reclen h - las_base (h_fmt h))) with (h_reclen h) in CB by lia.
    destruct (h_reclen h =? 0); [discriminate|]. destruct (Z.eqb_spec (Z.of_nat (length (D n)) mod h_reclen h) 0); [|discriminate]. cbn [negb] in CB. destruct (INT32_MAX <? Z.of_nat (length (D n))); [discriminate|].
    split; [|assumption]. pose proof (f_equal (fun o : outcome (bytes * Z) => match o with Ok (a, _) => a | _ => [] end) CB) as CB'. cbv beta iota in CB'. now symmetry. }
  destruct XE as (-> & MD). destruct (add_node_compressed cd (n_key n) (repacked h D n) (e_count (n_entry n)) (page n) w) as (w1, [nd| |]) eqn:A; try discriminate.
  pose proof (add_cfg _ _ _ _ _ _ _ _ A) as CW. destruct (IH w1 r' w') as (-> & C & (lg & R & OKS) & MDS); auto; [now rewrite CW|]. split; [reflexivity|]. split; [congruence|]. split; [|now constructor].
  exists ((copy_op page (repacked h D) n, Ok (Some nd)) :: lg). split; [|constructor; [exists nd; reflexivity|exact OKS]]. cbn [map wrun]. unfold copy_op at 1. cbn [wstep]. rewrite A. cbn [some_node]. rewrite R. reflexivity.
Qed.
End Runs.
(* chunks that decompress whatever follows them *)
Lemma chunk_holds cd f hs n data h : copc_pages f hs -> stored_nodes hs n -> whole_chunk f n -> 0 <= e_count (n_entry n) -> 6 <= h_fmt h <= 8 -> las_base (h_fmt h) <= h_reclen h <= 255 -> chunk_records cd h f n data -> holds_records cd h f n data.
Proof.
  intros SR S (W1 & W2) C F R (D1 & D2 & D3). destruct (stored_facts f hs n SR S) as (V & W & _). unfold holds_records. split; [exact F|]. split; [exact R|].
  assert (B : 0 <= e_size (n_entry n) /\ e_count (n_entry n) <= INT32_MAX). { unfold node_valid, entry_valid in V. apply andb_prop in V as (V & _). apply andb_prop in V as (_ & V). unfold wf_entry, i32, in_range in W. repeat (apply andb_prop in W as (W & ?)). lia. }
  split; [lia|]. split; [lia|]. split; [exact D1|]. split; [exact D2|]. intros _.
  rewrite <- (firstn_skipn (Z.to_nat (e_size (n_entry n))) (skipn (Z.to_nat (e_offset (n_entry n))) f)). apply (D3 _).
Qed.

(* ---- the configuration ---- *)
Lemma extent_ok_dec e : {extent_ok e} + {~ extent_ok e}.
Proof. unfold extent_ok. destruct (Bool.bool_dec (fgt (ex_min e) (ex_max e)) false), (Bool.bool_dec (flt (ex_var e) f0) false); [left; auto|right; intros (A & B); auto..]. Qed.
Lemma copy_extents_id x y : copy_extents x = Ok y -> y = x.
Proof.
  intros H. destruct (Forall_dec _ extent_ok_dec (xs_items x)) as [F|F].
  - rewrite ProofExtents.copy_extents_ok in H by exact F. congruence.
  - rewrite ProofExtents.copy_extents_bad in H by exact F. discriminate.
Qed.
Lemma copy_config_id c c' : h_copc (c_hdr c) = true -> copy_config c = Ok c' -> c' = c.
Proof.
  intros F H. unfold copy_config in H. apply bind_ok in H as (x & X & H). apply copy_extents_id in X. subst x. unfold config_of in H. apply bind_ok in H as (x & X & H). apply copy_extents_id in X. subst x. injection H as <-.
  destruct c as [h ? ? ? ?]. destruct h; cbn in *. now subst.
Qed.
Lemma opened_copc isf f r : open_reader isf f = Ok r -> h_copc (c_hdr (r_cfg r)) = true.
Proof.
  unfold open_reader. intros H. apply bind_ok in H as (b & _ & H). cbv zeta in H. destruct (_ || _); [discriminate|]. apply bind_ok in H as (i & _ & H). apply bind_ok in H as (x & _ & H). apply bind_ok in H as (c & C & H).
  unfold config_of in C. apply bind_ok in C as (y & _ & C). pose proof (f_equal (fun o => match o with Ok q => r_cfg q | _ => r_cfg r end) H) as E. cbv beta iota in E. cbn [r_cfg] in E. rewrite <- E.
  pose proof (f_equal (fun o => match o with Ok q => c_hdr q | _ => c_hdr c end) C) as E'. cbv beta iota in E'. cbn [c_hdr] in E'. rewrite <- E'. reflexivity.
Qed.
Lemma session_info cd od c v c0 ops l w w0 w1 : complete_session cd od c v c0 ops l w -> open_writer None c v = Ok w0 -> wrun cd ops w0 = (w1, l) -> same_cube (c_info (w_cfg w1)) (c_info (w_cfg w)).
Proof.
  intros S O R. destruct (complete_closed _ _ _ _ _ _ _ _ S) as (w0' & w1' & cs & PG & ws & h & O' & R' & _ & C & _). rewrite O in O'. injection O' as <-. rewrite R in R'. injection R' as <-.
  rewrite (cl_cfg _ _ _ _ _ _ _ _ C). unfold ProofPages.cfg_with. destruct (find_page root_key ws); repeat split.
Qed.
Lemma copied_info f hs page X cd l c v c0 wod w0 w1 lg w : copc_pages f hs -> Forall (okn hs page) l ->
  open_writer None c v = Ok w0 -> init_writer c v = Ok c0 -> ready c0 -> reorders wod -> wrun cd (map (copy_op page X) l) w0 = (w1, lg) -> Forall (fun x : wop * outcome (option node) => exists n, snd x = Ok (Some n)) lg ->
  w_cfg w1 = w_cfg w0 -> close cd wod w1 = (w, Ok tt) -> Z.of_nat (length (file w)) < 2 ^ 63 -> same_cube (c_info c0) (c_info (w_cfg w)).
Proof.
  intros SR OKL O IW RD RO R OKS CF CL FL. pose proof (log_defined lg OKS) as AD. destruct (ops_fine f hs page X l SR OKL) as (WF & PO).
  assert (CS : complete_session cd wod c v c0 (map (copy_op page X) l) lg w) by (split; [exists w0, w1; auto|]; split; [exact IW|]; split; [exact RD|]; split; [exact WF|]; split; [exact RO|]; split; [exact AD|lia]).
  pose proof (session_info _ _ _ _ _ _ _ _ _ _ CS O R) as Q. destruct (open_spec _ _ _ O) as (c1 & E1 & CF0 & _). assert (c1 = c0) as -> by congruence. now rewrite CF, CF0 in Q.
Qed.
