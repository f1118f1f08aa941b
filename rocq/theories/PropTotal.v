(* PropTotal.v - C90: the point count of the header and the points a Reader returns *)
From Coq Require Import Permutation.
From Verif Require Import Base BaseFacts ModelFloat ModelKey ModelGeom ModelEntry ModelPoint ModelPoints ModelHeader ModelVlr ModelExtents ModelConfig
  ModelStream ModelWriter ModelReader SpecKey SpecPoint SpecPoints SpecConfig SpecHeader SpecWriter SpecHier SpecFile SpecReader SpecData SpecRound SpecOrder SpecTotal
  ProofFloat ProofKey ProofPoint ProofConfig ProofWriter ProofWriter2 ProofResults ProofReject ProofCount ProofData ProofData2 ProofReader4 ProofReader6 ProofRound ProofOrder ProofTotal
  SampleWriter SampleReader PropWriter PropReader PropData PropRound.
Open Scope Z_scope.

(* ---- C90 ---- *)
(* the nodes that a Reader lists hold at most as many points as the header says, and exactly as many if and only if no key was added twice *)
Theorem C90_all_nodes : forall cd c0 ops l w r od, written cd c0 ops l w -> chunks_fit cd (c_hdr c0) ops -> storable (w_cfg w) -> Z.of_nat (length ops) < 2 ^ 32 - 2 -> reader_on (file w) r -> visits_all od ->
  exists r' ns, returns (fun fuel => get_all_nodes fuel od r) r' (Ok ns) /\ point_total ns <= h_pcount (c_hdr (r_cfg r)) /\ (point_total ns = h_pcount (c_hdr (r_cfg r)) <-> added_once l).
Proof.
  intros cd c0 ops l w r od W CF SB N R VA. destruct (C33_all_nodes _ _ _ _ _ _ _ W R VA) as (r' & ns & E & (ND & X)). exists r', ns. split; [exact E|].
  rewrite (header_total _ _ _ _ _ W r SB N CF R). exact (listed_total _ _ _ _ _ W ns ND X).
Qed.
Print Assumptions C90_all_nodes.
(* a program that adds every node once *)
Theorem C90_once_each : forall cd c0 ops l w r od, written cd c0 ops l w -> once_each ops -> chunks_fit cd (c_hdr c0) ops -> storable (w_cfg w) -> Z.of_nat (length ops) < 2 ^ 32 - 2 -> reader_on (file w) r -> visits_all od ->
  exists r' ns, returns (fun fuel => get_all_nodes fuel od r) r' (Ok ns) /\ point_total ns = h_pcount (c_hdr (r_cfg r)).
Proof.
  intros cd c0 ops l w r od W OE CF SB N R VA. destruct (C90_all_nodes _ _ _ _ _ _ _ W CF SB N R VA) as (r' & ns & E & _ & I). exists r', ns. split; [exact E|]. apply I.
  eapply once_added; eauto.
Qed.
Print Assumptions C90_once_each.
(* GetAllPoints at full resolution returns at most as many points as the header says, and exactly as many if and only if no key was added twice *)
Theorem C90_all_points : forall cd c0 ops l w r od hp res, lossless cd -> written cd c0 ops l w -> chunks_fit cd (c_hdr c0) ops -> storable (w_cfg w) -> Z.of_nat (length ops) < 2 ^ 32 - 2 -> h_reclen (c_hdr c0) <= 255 ->
  (forall op n, In (op, Ok (Some n)) l -> exists data, stores_records cd (c_hdr c0) op data /\ wf_bytes data) -> reader_on (file w) r -> visits_all od -> fle res f0 = true ->
  exists r' x ps, returns (fun fuel => get_all_points cd fuel od hp res r) r' (Ok x) /\ has_points (c_hdr c0) x ps /\
    Z.of_nat (length ps) <= h_pcount (c_hdr (r_cfg r)) /\ (Z.of_nat (length ps) = h_pcount (c_hdr (r_cfg r)) <-> added_once l).
Proof.
  intros cd c0 ops l w r od hp res LS W CF SB N R255 SR R VA RZ. destruct (written_reader _ _ _ _ _ _ W R) as (hs & S & L & ST & _ & G). destruct (used_header _ _ _ _ _ _ W SB N R) as (F & RL & SC & OF).
  pose proof W as ((od' & c & v & CS) & _ & PO & _). destruct (ready_base _ _ _ _ _ _ _ _ CS) as (F6 & RB). pose proof (ProofPoint.las_base_range (h_fmt (c_hdr c0))) as LB.
  destruct (all_nodes_good _ _ _ hs S L od r VA G) as (ra & na & _ & _ & _ & (NK & NX) & _).
  assert (EX : forall n, In n na -> exists ps, node_points cd (c_hdr (r_cfg r)) (file w) n ps).
  { intros n I. apply NX, ST in I as (m & p & V & E). destruct (view_added_node _ _ _ _ _ W _ _ _ V) as (I & _). apply added_in in I as (op & I). destruct (SR op m I) as (data & D & WB).
    assert (HR : holds_records cd (c_hdr (r_cfg r)) (file w) (mkNode (n_entry m) p) data) by (apply (holds_written cd od' c v c0 ops l w op m data); auto; eapply op_positive; eauto).
    pose proof HR as (H1 & H2 & H3 & H4 & H5 & H6 & H7). destruct (unpack_decodes (c_hdr (r_cfg r)) [] data H1 ltac:(lia) H5 _ H6 ltac:(lia)) as (qs & D' & _). exists qs. rewrite E. exists data. auto. }
  destruct (choose node_dec _ [] na EX) as (P & HP). assert (RD : readable cd (c_hdr (r_cfg r)) (file w) hs P) by (intros n I; now apply HP, NX).
  assert (PL : plain_header (c_hdr (r_cfg r))) by (unfold plain_header; rewrite F, RL; split; [exact F6|lia]).
  destruct (deepest_exists (file w) _ _ hs S) as (d & D). destruct (C48_depth (file w) hs od r res d S L VA R D) as (r1 & o & DR & B & _). rewrite (B RZ) in DR.
  destruct (all_points_good cd (file w) _ _ hs S L P od hp res r r1 d VA G PL RD DR) as (r3 & x & ps & A & _ & _ & HPS & (ns & (ND & X) & PM)).
  exists r3, x, ps. split; [exact A|]. split; [unfold has_points in *; rewrite F, RL in HPS; exact HPS|].
  assert (LEN : Z.of_nat (length ps) = point_total ns).
  { rewrite (Permutation_length PM). assert (NP : forall n, In n ns -> node_points cd (c_hdr (r_cfg r)) (file w) n (P n)) by (intros n I; apply RD; now apply X in I). clear - NP LB RL F RB. induction ns as [|n m IH]; [reflexivity|]. cbn [flat_map]. rewrite app_length. unfold point_total in *. cbn [fold_right].
    destruct (NP n (or_introl eq_refl)) as (data & (_ & _ & _ & _ & _ & LD & _) & (DL & _)). rewrite LD in DL. apply Z.mul_reg_r in DL; [|lia]. rewrite Nat2Z.inj_add, IH by (intros y Y; apply NP; now right). lia. }
  rewrite LEN, (header_total _ _ _ _ _ W r SB N CF R). apply (listed_total _ _ _ _ _ W ns ND). intros n. rewrite X. rewrite <- (ST (n_key n) n). split; [tauto|]. intros I. split; [exact I|]. now apply D.
Qed.
Print Assumptions C90_all_points.
Definition fits_b (cd : codec) (h : las_header) (ops : list wop) : bool := forallb (fun op => match chunk_of cd h op with Some (b, _) => Z.of_nat (length b) <=? INT32_MAX | None => true end) ops.
Lemma fits_b_ok cd h ops : fits_b cd h ops = true -> chunks_fit cd h ops.
Proof. unfold fits_b. rewrite forallb_forall. intros H op b n I E. specialize (H op I). rewrite E in H. now apply Z.leb_le. Qed.
Definition total_b (n : Z) (r : reader) : bool := match get_all_children_of_page 50 in_order root_key r with Some (_, Ok ns) => point_total ns =? n | _ => false end.
Lemma total_b_ok n r : total_b n r = true -> exists s ns, returns (fun fuel => get_all_nodes fuel in_order r) s (Ok ns) /\ point_total ns = n.
Proof.
  unfold total_b. destruct (get_all_children_of_page 50 in_order root_key r) as [(s, [ns| |])|] eqn:E; try discriminate. intros T. exists s, ns. split; [exact (children_computed in_order root_key r _ E)|now apply Z.eqb_eq].
Qed.
Lemma nodup_keys (l : list key) : (if list_eq_dec key_dec (nodup key_dec l) l then true else false) = true -> NoDup l.
Proof. destruct (list_eq_dec key_dec (nodup key_dec l) l) as [<-|]; [|discriminate]. intros _. apply NoDup_nodup. Qed.
(* a key that is added again: the header counts the points of both chunks, the Reader returns the later ones *)
Theorem C90_added_again_refuted : exists l w r r' ns, written verbatim round_config round_calls l w /\ chunks_fit verbatim (c_hdr round_config) round_calls /\ reader_on (file w) r /\
  returns (fun fuel => get_all_nodes fuel in_order r) r' (Ok ns) /\ point_total ns = 8 /\ h_pcount (c_hdr (r_cfg r)) = 9.
Proof.
  destruct round_config_ok as (RD & I). destruct round_calls_wf as (WF & PO).
  destruct (check_with_ok round_config reversed round_calls (fun l w => settled_b (fun _ => None) l && test_after (file w) [] (fun r _ => total_b 8 r && (h_pcount (c_hdr (r_cfg r)) =? 9)))) as (l & w & S & L & M & T); [exact RD|exact I|apply reversed_reorders|exact WF|vm_compute; reflexivity|].
  apply andb_prop in T as (T1 & T2). apply settled_b_ok in T1. destruct (test_after_ok _ _ _ T2) as (r & r0 & O & R & _ & _ & T). apply andb_prop in T as (TT & TC). apply Z.eqb_eq in TC. destruct (total_b_ok _ _ TT) as (s & ns & E & P).
  exists l, w, r, s, ns. split; [split; [eauto|auto]|]. split; [apply fits_b_ok; vm_compute; reflexivity|]. auto.
Qed.
Print Assumptions C90_added_again_refuted.
(* four nodes, one of them moved to another page, 8 points *)
Definition total_calls : list wop :=
  [WAdd k0 (repeat 1 48) k0; WAddCompressed k1 (repeat 9 96) 2 k0; WAddPoints k2 round_points (mkPoints 7 48 [1; 0; 1]%nat) k0; WMove k2 k1; WAdd k2' (repeat 3 96) k1; WAdd k0 (repeat 3 47) k0].
Lemma packed_round : exists data, points_pack round_points (mkPoints 7 48 [1; 0; 1]%nat) (h_scale (c_hdr round_config)) (h_offset (c_hdr round_config)) = Ok data /\ wf_bytes data.
Proof.
  assert (P : match points_pack round_points (mkPoints 7 48 [1; 0; 1]%nat) (h_scale (c_hdr round_config)) (h_offset (c_hdr round_config)) with Ok d => forallb (fun b => (0 <=? b) && (b <? 256)) d | _ => false end = true) by (vm_compute; reflexivity).
  revert P. generalize (points_pack round_points (mkPoints 7 48 [1; 0; 1]%nat) (h_scale (c_hdr round_config)) (h_offset (c_hdr round_config))). intros [d| |] Q; try discriminate Q. exists d. split; [reflexivity|].
  apply Forall_forall. intros b B. rewrite forallb_forall in Q. apply Q in B. apply andb_prop in B as (B1 & B2). apply Z.leb_le in B1. apply Z.ltb_lt in B2. split; assumption.
Qed.
Example C90_nonvacuous : exists l w r, lossless verbatim /\ written verbatim round_config total_calls l w /\ chunks_fit verbatim (c_hdr round_config) total_calls /\ storable (w_cfg w) /\ Z.of_nat (length total_calls) < 2 ^ 32 - 2 /\
  h_reclen (c_hdr round_config) <= 255 /\ (forall op n, In (op, Ok (Some n)) l -> exists data, stores_records verbatim (c_hdr round_config) op data /\ wf_bytes data) /\ reader_on (file w) r /\ visits_all in_order /\ added_once l /\ h_pcount (c_hdr (r_cfg r)) = 8.
Proof.
  destruct round_config_ok as (RD & I). assert (WF : Forall wf_op total_calls) by (unfold total_calls; repeat constructor; cbn; try lia; try (intros; discriminate)). assert (PO : Forall positive total_calls) by (unfold total_calls; repeat constructor; cbn; lia).
  destruct (check_with_ok round_config reversed total_calls (fun l w => settled_b (fun _ => None) l && storable_b (w_cfg w) && test_after (file w) [] (fun r _ => h_pcount (c_hdr (r_cfg r)) =? 8) && (if list_eq_dec key_dec (nodup key_dec (map n_key (added_nodes l))) (map n_key (added_nodes l)) then true else false) && match l with [_; _; _; (_, Ok None); _; (_, Throw)] => true | _ => false end)) as (l & w & S & L & M & T); [exact RD|exact I|apply reversed_reorders|exact WF|vm_compute; reflexivity|].
  apply andb_prop in T as (T & T5). apply andb_prop in T as (T & T4). apply andb_prop in T as (T & T3). apply andb_prop in T as (T1 & T2). apply settled_b_ok in T1. apply storable_b_ok in T2. destruct (test_after_ok _ _ _ T3) as (r & r0 & O & R & _ & _ & TC). apply Z.eqb_eq in TC. apply nodup_keys in T4.
  assert (K : forall op n, In (op, Ok (Some n)) l -> exists data, stores_records verbatim (c_hdr round_config) op data /\ wf_bytes data).
  { intros op n J. destruct l as [|(o0, r0') [|(o1, r1) [|(o2, r2) [|(o3, [[n3|]| |]) [|(o4, r4) [|(o5, [| |]) [|? ?]]]]]]]; try discriminate T5. cbn [map fst] in M. unfold total_calls in M. injection M as M0 M1 M2 M3 M4 M5.
    assert (WR : forall b k, 0 <= b < 256 -> wf_bytes (repeat b k)) by (intros b k B; apply Forall_forall; intros y Y; apply repeat_spec in Y; now subst y).
    destruct J as [J|[J|[J|[J|[J|[J|[]]]]]]]; [apply (f_equal fst) in J; cbn [fst] in J; subst op|apply (f_equal fst) in J; cbn [fst] in J; subst op|apply (f_equal fst) in J; cbn [fst] in J; subst op|discriminate J|apply (f_equal fst) in J; cbn [fst] in J; subst op|discriminate J].
    - rewrite M0. exists (repeat 1 48). split; [reflexivity|apply WR; lia].
    - rewrite M1. exists (repeat 9 96). split; [split; [reflexivity|vm_compute; reflexivity]|apply WR; lia].
    - rewrite M2. destruct packed_round as (data & D & WB). exists data. split; [exact D|exact WB].
    - rewrite M4. exists (repeat 3 96). split; [reflexivity|apply WR; lia]. }
  exists l, w, r. split; [apply verbatim_lossless|]. split; [split; [eauto|auto]|]. split; [apply fits_b_ok; vm_compute; reflexivity|]. split; [exact T2|]. split; [cbn; lia|]. split; [vm_compute; discriminate|]. split; [exact K|]. split; [exact R|]. split; [apply in_order_all|]. split; [exact T4|exact TC].
Qed.
