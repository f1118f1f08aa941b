(* PropAssign.v - C92: assigning a header to a Writer *)
From Verif Require Import Base BaseFacts ModelFloat ModelKey ModelGeom ModelEntry ModelPoint ModelPoints ModelHeader ModelVlr ModelExtents ModelConfig
  ModelStream ModelWriter ModelAssign SpecKey SpecPoint SpecConfig SpecWriter SpecAssign
  ModelReader SpecFile SpecReader SpecData SpecCopy ProofFloat ProofKey ProofPoint ProofPoints ProofConfig ProofWriter ProofResults SampleWriter SampleReader PropData PropRound PropCopy.
Open Scope Z_scope.

(* ---- what no call looks at ---- *)
Definition plain_hdr (h : las_header) : las_header :=
  mkHdr (h_src h) (h_enc h) (h_day h) (h_year h) (h_max h) (h_min h) (h_pbr h) (h_scale h) (h_offset h) (h_fmt h) (h_reclen h) 0 0 0 0 0 (h_guid h) (h_sys h) (h_gen h) (h_copc h).
Definition plain_cfg (c : config) : config := mkCfg (plain_hdr (c_hdr c)) (c_wkt c) (c_ebs c) (c_info c) (c_exts c).
Definition plain_w (w : writer) : writer := mkW (w_base w) (plain_cfg (w_cfg w)) (w_loaded w) (w_pages w).
Definition mapw {A} (x : writer * outcome A) : writer * outcome A := (plain_w (fst x), snd x).
Ltac splitm := repeat match goal with |- context [match ?x with _ => _ end] => destruct x end.

Lemma plain_eb h : h_eb_size (plain_hdr h) = h_eb_size h.
Proof. reflexivity. Qed.
Lemma plain_chunk cd h data count z b : write_chunk cd (plain_hdr h) data count z b = write_chunk cd h data count z b.
Proof. reflexivity. Qed.
Lemma plain_add cd k data count z p w : do_add_node cd k data count z p (plain_w w) = mapw (do_add_node cd k data count z p w).
Proof.
  unfold do_add_node, mapw. destruct (_ || _); [reflexivity|]. destruct (negb _); [reflexivity|]. cbn [plain_w w_cfg plain_cfg c_hdr w_base]. rewrite plain_chunk. destruct (write_chunk _ _ _ _ _ _) as (b, [((off, size), n)| |]); reflexivity.
Qed.
Lemma plain_add_node cd k data p w : add_node cd k data p (plain_w w) = mapw (add_node cd k data p w).
Proof. unfold add_node. destruct data as [|x l]; [reflexivity|]. cbn [plain_w w_cfg plain_cfg c_hdr plain_hdr h_reclen]. destruct (_ =? 0); [reflexivity|]. destruct (negb _); [reflexivity|]. apply plain_add. Qed.
Lemma some_mapw x : some_node (mapw x) = mapw (some_node x).
Proof. destruct x as (w, [n| |]); reflexivity. Qed.
Lemma plain_step cd op w : wstep cd op (plain_w w) = mapw (wstep cd op w).
Proof.
  destruct op as [k data p|k hp pts p|k data n p|k p|h|i|s e]; cbn [wstep].
  - now rewrite plain_add_node, some_mapw.
  - rewrite <- some_mapw. f_equal. unfold add_node_points. cbn [plain_w w_cfg plain_cfg c_hdr plain_hdr h_fmt h_reclen h_scale h_offset]. destruct (c_pts pts); [reflexivity|]. destruct (_ || _); [reflexivity|]. destruct (points_pack _ _ _ _); [apply plain_add_node|reflexivity..].
  - rewrite <- some_mapw. f_equal. unfold add_node_compressed. destruct (_ =? 0); [reflexivity|apply plain_add].
  - assert (E : change_node_page k p (plain_w w) = mapw (change_node_page k p w)); [|rewrite E; destruct (change_node_page k p w) as (w', [u| |]); reflexivity].
    unfold change_node_page, mapw. destruct (negb _); [reflexivity|]. destruct (negb _); [reflexivity|]. cbn [plain_w w_loaded w_pages]. destruct (mget k (w_loaded w)) as [nd|]; [|reflexivity]. destruct (negb _); [reflexivity|]. destruct (key_eqb _ _); [reflexivity|]. cbv zeta. destruct (mget (n_page nd) _); reflexivity.
  - unfold edit_header, set_guid, set_system_identifier, set_generating_software. cbn [plain_w w_cfg plain_cfg c_hdr]. destruct (16 <? _)%nat; [reflexivity|]. cbn [bind]. destruct (32 <? _)%nat; [reflexivity|]. cbn [bind]. destruct (32 <? _)%nat; reflexivity.
  - reflexivity.
  - cbn [plain_w w_cfg plain_cfg c_exts c_hdr]. destruct (set_nth _ _ _); reflexivity.
Qed.
Lemma plain_page od k w : write_page od k (plain_w w) = mapw (write_page od k w).
Proof.
  unfold write_page. cbn [plain_w w_pages]. destruct (mget k (w_pages w)) as [p|]; [|reflexivity]. cbv zeta. cbn [w_base w_cfg w_loaded]. destruct (INT32_MAX <? _); [reflexivity|]. destruct (key_eqb k root_key); reflexivity.
Qed.
Lemma plain_each {A} (f : A -> writer -> writer * outcome unit) : (forall a w, f a (plain_w w) = mapw (f a w)) -> forall l w, each f l (plain_w w) = mapw (each f l w).
Proof. intros H. induction l as [|a l IH]; intros w; [reflexivity|]. cbn [each]. rewrite H. destruct (f a w) as (w', [u| |]); cbn [then_ mapw fst snd]; [apply IH|reflexivity..]. Qed.
Lemma plain_tree od : forall fuel k w, write_page_tree fuel od k (plain_w w) = mapw (write_page_tree fuel od k w).
Proof.
  induction fuel as [|n IH]; intros k w; [reflexivity|]. cbn [write_page_tree plain_w w_pages]. destruct (mget k (w_pages w)) as [p|]; [|reflexivity]. fold (plain_w w). rewrite (plain_each _ IH). destruct (each _ _ w) as (w', [u| |]); cbn [then_ mapw fst snd]; [apply plain_page|reflexivity..].
Qed.
Lemma plain_write_header poff w : copc_write_header poff (plain_w w) = mapw (copc_write_header poff w).
Proof.
  unfold copc_write_header. cbn [plain_w w_cfg w_base]. replace (write_las_header (c_hdr (plain_cfg (w_cfg w))) poff (xs_ext (c_exts (plain_cfg (w_cfg w)))) (w_base w)) with (write_las_header (c_hdr (w_cfg w)) poff (xs_ext (c_exts (w_cfg w))) (w_base w)) by reflexivity.
  destruct (write_las_header _ _ _ _) as (b, [u| |]); [|reflexivity..]. replace (copc_vlrs (plain_cfg (w_cfg w))) with (copc_vlrs (w_cfg w)) by reflexivity. destruct (copc_vlrs (w_cfg w)) as [v| |]; [|reflexivity..]. cbv zeta. destruct (poff <? _); reflexivity.
Qed.
Lemma plain_close cd od w : close cd od (plain_w w) = mapw (close cd od w).
Proof.
  unfold close. cbn [plain_w w_base w_cfg w_pages w_loaded]. destruct (negb (b_open (w_base w))); [reflexivity|]. replace (copc_offset (plain_cfg (w_cfg w))) with (copc_offset (w_cfg w)) by reflexivity. destruct (copc_offset (w_cfg w)) as [poff| |]; [|reflexivity..].
  destruct (write_chunk_table cd poff (w_base w)) as (b, [u| |]); [|reflexivity..]. cbv zeta. cbn [with_base w_pages w_loaded w_cfg w_base]. destruct (compute_hierarchy _ _) as [pages| |]; [|reflexivity..].
  match goal with |- _ = mapw (then_ (write_page_tree ?n od root_key ?W) _) => set (X := W); match goal with |- then_ (write_page_tree _ _ _ ?V) _ = _ => change V with (plain_w X) end; rewrite (plain_tree od n root_key X); destruct (write_page_tree n od root_key X) as (w1, [u1| |]) end; [|reflexivity..].
  cbn [then_ mapw fst snd]. match goal with |- context [copc_write_header poff (with_base ?b (plain_w w1))] => change (copc_write_header poff (with_base b (plain_w w1))) with (copc_write_header poff (plain_w (with_base (write_wkt (c_wkt (w_cfg w1)) (w_base w1)) w1))) end.
  rewrite plain_write_header. destruct (copc_write_header _ _) as (w2, [u2| |]); reflexivity.
Qed.

(* ---- assignments as edits ---- *)
Definition layout (h : las_header) : Z * Z * vec3 * vec3 * bool := (h_fmt h, h_reclen h, h_scale h, h_offset h, h_copc h).
Definition w_layout (w : writer) := layout (c_hdr (w_cfg w)).
Lemma step_layout cd op w w' o : wstep cd op w = (w', o) -> w_layout w' = w_layout w.
Proof.
  intros E. unfold w_layout. assert (D : forall k data n z p w w' o, do_add_node cd k data n z p w = (w', o) -> w_cfg w' = w_cfg w).
  { clear. intros k data n z p w w' o. unfold do_add_node. destruct (_ || _); [congruence|]. destruct (negb _); [congruence|]. destruct (write_chunk _ _ _ _ _ _) as (b, [((off, size), m)| |]); intros E; apply (f_equal fst) in E; cbn [fst] in E; subst w'; reflexivity. }
  assert (A : forall k data p w w' o, add_node cd k data p w = (w', o) -> w_cfg w' = w_cfg w).
  { intros k data p v v' q. unfold add_node. destruct data; [congruence|]. destruct (_ =? 0); [congruence|]. destruct (negb _); [congruence|]. apply D. }
  assert (SN : forall x, fst (some_node x) = fst x) by (intros (v, [n| |]); reflexivity).
  destruct op as [k data p|k hp pts p|k data n p|k p|h|i|s e]; cbn [wstep] in E; cbv zeta in E.
  - apply (f_equal fst) in E. rewrite SN in E. cbn [fst] in E. destruct (add_node cd k data p w) as (v, q) eqn:Q. cbn [fst] in E. subst v. now rewrite (A _ _ _ _ _ _ Q).
  - apply (f_equal fst) in E. rewrite SN in E. cbn [fst] in E. destruct (add_node_points cd k hp pts p w) as (v, q) eqn:Q. cbn [fst] in E. subst v. unfold add_node_points in Q. destruct (c_pts pts); [congruence|]. destruct (_ || _); [congruence|]. destruct (points_pack _ _ _ _); [now rewrite (A _ _ _ _ _ _ Q)|congruence..].
  - apply (f_equal fst) in E. rewrite SN in E. cbn [fst] in E. destruct (add_node_compressed cd k data n p w) as (v, q) eqn:Q. cbn [fst] in E. subst v. unfold add_node_compressed in Q. destruct (_ =? 0); [congruence|]. now rewrite (D _ _ _ _ _ _ _ _ Q).
  - assert (Q : w_cfg (fst (change_node_page k p w)) = w_cfg w).
    { unfold change_node_page. destruct (negb _); [reflexivity|]. destruct (negb _); [reflexivity|]. destruct (mget _ _) as [nd|]; [|reflexivity]. destruct (negb _); [reflexivity|]. destruct (key_eqb _ _); [reflexivity|]. cbv zeta. destruct (mget (n_page nd) _); reflexivity. }
    destruct (change_node_page k p w) as (v, [u| |]); apply (f_equal fst) in E; cbn [fst] in E, Q; subst v; now rewrite Q.
  - unfold edit_header, set_guid, set_system_identifier, set_generating_software in E. destruct (16 <? _)%nat; [cbn [bind] in E; congruence|]. cbn [bind] in E. destruct (32 <? _)%nat; [cbn [bind] in E; congruence|]. cbn [bind] in E. destruct (32 <? _)%nat; cbn [bind] in E; [congruence|]. apply (f_equal fst) in E. cbn [fst] in E. subst w'. reflexivity.
  - apply (f_equal fst) in E. cbn [fst] in E. subst w'. reflexivity.
  - destruct (set_nth _ _ _); apply (f_equal fst) in E; cbn [fst] in E; subst w'; reflexivity.
Qed.
Lemma assign_edit cd h w h0 : w_layout w = layout h0 -> same_layout h0 h -> exists w', wstep cd (WSetHeader h) w = (w', Ok None) /\ plain_w w' = plain_w (assign_header h w).
Proof.
  intros L (A & B & C & D & E & G & S & N). unfold w_layout, layout in L. assert (L1 : h_fmt (c_hdr (w_cfg w)) = h_fmt h) by congruence. assert (L2 : h_reclen (c_hdr (w_cfg w)) = h_reclen h) by congruence. assert (L3 : h_scale (c_hdr (w_cfg w)) = h_scale h) by congruence. assert (L4 : h_offset (c_hdr (w_cfg w)) = h_offset h) by congruence. assert (L5 : h_copc (c_hdr (w_cfg w)) = h_copc h) by congruence.
  cbn [wstep]. unfold edit_header, set_guid, set_system_identifier, set_generating_software. destruct (Nat.ltb_spec 16 (length (h_guid h))) as [|_]; [lia|]. cbn [bind]. destruct (Nat.ltb_spec 32 (length (h_sys h))) as [|_]; [lia|]. cbn [bind]. destruct (Nat.ltb_spec 32 (length (h_gen h))) as [|_]; [lia|]. cbn [bind]. eexists. split; [reflexivity|].
  unfold plain_w, assign_header, with_cfg, plain_cfg, plain_hdr. cbn [w_base w_cfg w_loaded w_pages c_hdr c_wkt c_ebs c_info c_exts h_src h_enc h_day h_year h_max h_min h_pbr h_scale h_offset h_fmt h_reclen h_guid h_sys h_gen h_copc with_strings]. rewrite L1, L2, L3, L4, L5. reflexivity.
Qed.
Lemma step_agrees cd h0 op w v w' o : plain_w w = plain_w v -> w_layout w = layout h0 -> w_layout v = layout h0 -> fits_layout h0 op -> astep cd op w = (w', o) -> exists v', wstep cd (as_edit op) v = (v', o) /\ plain_w w' = plain_w v' /\ w_layout w' = layout h0 /\ w_layout v' = layout h0.
Proof.
  intros P L1 L2 F E. destruct op as [op|h]; cbn [astep as_edit fits_layout] in *.
  - destruct (wstep cd op v) as (v', o') eqn:Q. pose proof (plain_step cd op w) as X. pose proof (plain_step cd op v) as Y. rewrite E in X. rewrite Q in Y. rewrite P in X. rewrite X in Y. unfold mapw in Y. cbn [fst snd] in Y. exists v'. assert (o = o') as -> by congruence. split; [reflexivity|]. split; [congruence|]. split; [now rewrite (step_layout _ _ _ _ _ E)|now rewrite (step_layout _ _ _ _ _ Q)].
  - apply pair_equal_spec in E as (<- & <-). destruct (assign_edit cd h v h0 L2 F) as (v' & E & Q). exists v'. split; [exact E|]. split; [|split].
    + rewrite Q. unfold plain_w in *. cbn [assign_header with_cfg w_base w_cfg w_loaded w_pages plain_cfg c_hdr c_wkt c_ebs c_info c_exts] in *. unfold plain_cfg in *. cbn [c_hdr c_wkt c_ebs c_info c_exts] in *.
      assert (X : w_base w = w_base v /\ w_loaded w = w_loaded v /\ w_pages w = w_pages v /\ c_wkt (w_cfg w) = c_wkt (w_cfg v) /\ c_ebs (w_cfg w) = c_ebs (w_cfg v) /\ c_info (w_cfg w) = c_info (w_cfg v) /\ c_exts (w_cfg w) = c_exts (w_cfg v)) by (repeat split; congruence).
      destruct X as (-> & -> & -> & -> & -> & -> & ->). reflexivity.
    + destruct F as (A & B & C & D & H & _). unfold w_layout, layout. cbn [assign_header with_cfg w_cfg c_hdr]. congruence.
    + now rewrite (step_layout _ _ _ _ _ E).
Qed.
Lemma run_agrees cd h0 : forall l w v w' lg, plain_w w = plain_w v -> w_layout w = layout h0 -> w_layout v = layout h0 -> Forall (fits_layout h0) l -> arun cd l w = (w', lg) ->
  exists v', wrun cd (map as_edit l) v = (v', map (fun x => (as_edit (fst x), snd x)) lg) /\ plain_w w' = plain_w v'.
Proof.
  induction l as [|op l IH]; intros w v w' lg P L1 L2 F E; cbn [arun map wrun] in *.
  - apply pair_equal_spec in E as (<- & <-). exists v. auto.
  - destruct (astep cd op w) as (w1, o) eqn:A. destruct (step_agrees cd h0 op w v w1 o P L1 L2 (Forall_inv F) A) as (v1 & B & P1 & M1 & M2). rewrite B. destruct o as [x| |].
    + destruct (arun cd l w1) as (w2, lg2) eqn:R. apply pair_equal_spec in E as (<- & <-). destruct (IH w1 v1 w2 lg2 P1 M1 M2 (Forall_inv_tail F) R) as (v2 & R2 & P2). rewrite R2. exists v2. auto.
    + destruct (arun cd l w1) as (w2, lg2) eqn:R. apply pair_equal_spec in E as (<- & <-). destruct (IH w1 v1 w2 lg2 P1 M1 M2 (Forall_inv_tail F) R) as (v2 & R2 & P2). rewrite R2. exists v2. auto.
    + apply pair_equal_spec in E as (<- & <-). exists v1. auto.
Qed.

(* ---- C92 ---- *)
(* a program that assigns headers of the Writer's layout: every call returns what it returns when the members are set one by one, and
   so does Close, with the same stream afterwards *)
Theorem C92_as_edits : forall cd od cap c v c0 l w0 w1 lg w o, open_writer cap c v = Ok w0 -> init_writer c v = Ok c0 -> Forall (fits_layout (c_hdr c0)) l -> arun cd l w0 = (w1, lg) -> close cd od w1 = (w, o) ->
  exists v1 w', wrun cd (map as_edit l) w0 = (v1, map (fun x => (as_edit (fst x), snd x)) lg) /\ close cd od v1 = (w', o) /\ w_base w' = w_base w /\ w_base v1 = w_base w1.
Proof.
  intros cd od cap c v c0 l w0 w1 lg w o O I F R C. assert (C0 : w_cfg w0 = c0) by (unfold open_writer in O; rewrite I in O; cbn [bind] in O; destruct (copc_offset c0); cbn [bind] in O; try discriminate O; assert (X : w0 = w0) by reflexivity; apply (f_equal (fun x => match x with Ok w => w_cfg w | _ => c0 end)) in O; cbn [w_cfg] in O; congruence).
  assert (L : w_layout w0 = layout (c_hdr c0)) by (unfold w_layout; now rewrite C0). destruct (run_agrees cd (c_hdr c0) l w0 w0 w1 lg eq_refl L L F R) as (v1 & R' & P). destruct (close cd od v1) as (w', o') eqn:C'. pose proof (plain_close cd od w1) as X. pose proof (plain_close cd od v1) as Y. rewrite C in X. rewrite C' in Y. rewrite P in X. rewrite X in Y. unfold mapw in Y. cbn [fst snd] in Y. apply pair_equal_spec in Y as (Y1 & Y2).
  exists v1, w'. split; [exact R'|]. split; [congruence|]. split; [apply (f_equal w_base) in Y1; symmetry; exact Y1|apply (f_equal w_base) in P; symmetry; exact P].
Qed.
Print Assumptions C92_as_edits.
(* hence the file is one that a Writer makes without any assignment *)
Theorem C92_file : forall cd od c v c0 l w0 w1 lg w, open_writer None c v = Ok w0 -> init_writer c v = Ok c0 -> ready c0 -> Forall (fits_layout (c_hdr c0)) l -> Forall wf_op (map as_edit l) -> reorders od ->
  arun cd l w0 = (w1, lg) -> Forall (fun x => snd x <> UB) lg -> close cd od w1 = (w, Ok tt) -> Z.of_nat (length (file w)) < 2 ^ 64 ->
  exists w', complete_session cd od c v c0 (map as_edit l) (map (fun x => (as_edit (fst x), snd x)) lg) w' /\ file w' = file w.
Proof.
  intros cd od c v c0 l w0 w1 lg w O I RD F WF RE R AD C L. destruct (C92_as_edits cd od None c v c0 l w0 w1 lg w _ O I F R C) as (v1 & w' & R' & C' & B & _). assert (E : file w' = file w) by (unfold file; now rewrite B). exists w'. split; [|exact E].
  split; [exists w0, v1; auto|]. split; [exact I|]. split; [exact RD|]. split; [exact WF|]. split; [exact RE|]. split; [|rewrite E; exact L]. unfold all_defined. apply Forall_forall. intros x X. apply in_map_iff in X as (y & <- & Y). rewrite Forall_forall in AD. now apply AD.
Qed.
Print Assumptions C92_file.

(* ---- programs that assign headers ---- *)
Definition assign_test (c : config) (l : list aop) (test : writer -> list (aop * outcome (option node)) -> writer -> outcome unit -> bool) : bool :=
  match open_writer None c no_overrides with
  | Ok w0 => let (w1, lg) := arun verbatim l w0 in let (w, o) := close verbatim plain w1 in test w1 lg w o
  | _ => false end.
Lemma assign_test_ok c l test : assign_test c l test = true -> exists w0 w1 lg w o, open_writer None c no_overrides = Ok w0 /\ arun verbatim l w0 = (w1, lg) /\ close verbatim plain w1 = (w, o) /\ test w1 lg w o = true.
Proof.
  unfold assign_test. destruct (open_writer None c no_overrides) as [w0| |]; try discriminate. destruct (arun verbatim l w0) as (w1, lg) eqn:R. destruct (close verbatim plain w1) as (w, o) eqn:C. intros T. exists w0, w1, lg, w, o. auto.
Qed.
Definition given (f rl : Z) (s : vec3) (cp : bool) (pc vl : Z) (g : bytes) (h : las_header) : las_header :=
  mkHdr (h_src h) (h_enc h) (h_day h) (h_year h) (h_max h) (h_min h) (h_pbr h) s (h_offset h) f rl pc (h_poff h) vl (h_evoff h) (h_evcnt h) g (h_sys h) (h_gen h) cp.
Definition one_record : aop := ACall (WAdd root_key (repeat 9 48) root_key).
Definition is_ok (o : outcome unit) : bool := match o with Ok tt => true | _ => false end.
Lemma is_ok_eq o : is_ok o = true -> o = Ok tt.
Proof. destruct o as [[]| |]; cbn; congruence. Qed.
Definition accepted_twice (lg : list (aop * outcome (option node))) : option node := match lg with [(_, Ok (Some n)); (_, Ok None)] => Some n | _ => None end.
(* a header with another GUID, and the point and VLR counts of another file *)
Example C92_nonvacuous : exists c l w0 w1 lg w, open_writer None c no_overrides = Ok w0 /\ init_writer c no_overrides = Ok c /\ ready c /\ Forall (fits_layout (c_hdr c)) l /\ Forall wf_op (map as_edit l) /\ reorders plain /\
  arun verbatim l w0 = (w1, lg) /\ Forall (fun x => snd x <> UB) lg /\ length lg = 2%nat /\ close verbatim plain w1 = (w, Ok tt) /\ Z.of_nat (length (file w)) < 2 ^ 64 /\ h_guid (c_hdr (w_cfg w)) <> h_guid (c_hdr c) /\ h_pcount (c_hdr (w_cfg w)) = 12345.
Proof.
  destruct round_config_ok as (RD & IW).
  assert (T : assign_test round_config [one_record; AAssign (given 7 48 (h_scale (c_hdr round_config)) true 12345 3 [71] (c_hdr round_config))] (fun _ lg w o => is_ok o && (length lg =? 2)%nat && forallb (fun x => match snd x with UB => false | _ => true end) lg && (Z.of_nat (length (file w)) <? 2 ^ 64) && (length (h_guid (c_hdr (w_cfg w))) =? 1)%nat && (length (h_guid (c_hdr round_config)) =? 0)%nat && (h_pcount (c_hdr (w_cfg w)) =? 12345)) = true) by (vm_compute; reflexivity).
  assert (LB : (h_fmt (c_hdr round_config) =? 7) && (h_reclen (c_hdr round_config) =? 48) && h_copc (c_hdr round_config) && (length (h_sys (c_hdr round_config)) <=? 32)%nat && (length (h_gen (c_hdr round_config)) <=? 32)%nat = true) by (vm_compute; reflexivity).
  pose proof RD as (_ & WH & _).
  revert RD IW WH T LB. generalize round_config. intros c RD IW WH T LB. apply assign_test_ok in T as (w0 & w1 & lg & w & o & O & R & C & T). apply andb_prop in T as (T & T7). apply andb_prop in T as (T & T6). apply andb_prop in T as (T & T5). apply andb_prop in T as (T & T4). apply andb_prop in T as (T & T3). apply andb_prop in T as (T1 & T2).
  apply andb_prop in LB as (LB & L5). apply andb_prop in LB as (LB & L4). apply andb_prop in LB as (LB & L3). apply andb_prop in LB as (L1 & L2). apply Z.eqb_eq in L1, L2. apply Nat.leb_le in L4, L5. apply is_ok_eq in T1. subst o. apply Nat.eqb_eq in T2, T5, T6. apply Z.ltb_lt in T4. apply Z.eqb_eq in T7.
  eexists c, _, w0, w1, lg, w. split; [exact O|]. split; [exact IW|]. split; [exact RD|]. split; [|split; [|split; [apply plain_reorders|split; [exact R|split; [|split; [exact T2|split; [exact C|split; [exact T4|split; [|exact T7]]]]]]]]].
  - constructor; [exact Logic.I|]. constructor; [|constructor]. unfold fits_layout, same_layout. cbn. repeat split; try congruence; lia.
  - constructor; [|constructor; [|constructor]].
    + unfold as_edit, one_record, wf_op. split; repeat split; vm_compute; congruence.
    + unfold as_edit, wf_op. destruct WH as (A1 & A2 & A3 & A4 & A5 & A6 & A7 & A8 & A9 & A10 & A11 & A12 & A13 & A14 & A15 & A16). unfold wf_hdr, given. cbn [h_src h_enc h_day h_year h_pbr h_fmt h_reclen h_pcount h_poff h_vlrs h_evoff h_evcnt h_guid h_sys h_gen]. repeat (split; [first [assumption|lia]|]). split; [|auto]. constructor; [lia|constructor].
  - apply Forall_forall. intros x X. rewrite forallb_forall in T3. specialize (T3 x X). destruct (snd x); congruence.
  - intros E. rewrite E in T5. lia.
Qed.
(* another scale: Close succeeds, but a point that was written is read elsewhere than without the assignment *)
Definition two_vec : vec3 := mkVec (f64_of_Z 2) (f64_of_Z 2) (f64_of_Z 2).
Definition first_x (r : reader) (n : node) : option f64 :=
  match get_points_node verbatim [] n r with (_, Ok (hp, c)) => match c_pts c with i :: _ => match nth_error hp i with Some p => Some (p_x p) | None => None end | [] => None end | _ => None end.
Definition moved_point (w w' : writer) (n : node) : bool :=
  match open_reader true (file w), open_reader true (file w') with
  | Ok r, Ok r' => match first_x r n, first_x r' n with Some x, Some y => negb (same_f x y) | _, _ => false end
  | _, _ => false end.
Lemma first_logged cd a l w w' x o lg : arun cd (a :: l) w = (w', (x, o) :: lg) -> x = a.
Proof. cbn [arun]. destruct (astep cd a w) as (v, [n| |]); [destruct (arun cd l v) as (u, lg')|destruct (arun cd l v) as (u, lg')|]; intros E; apply (f_equal snd) in E; cbn [snd] in E; congruence. Qed.
Lemma same_f_refl x : same_f x x = true.
Proof. unfold same_f. apply Z.eqb_refl. Qed.
Definition scale_test (c : config) (h : las_header) : bool :=
  assign_test c [one_record; AAssign h] (fun _ lg w o => is_ok o && assign_test c [one_record] (fun _ lg' v o' => is_ok o' &&
    match lg, lg' with [(_, Ok (Some n)); _], [(_, Ok (Some m))] => (if node_dec n m then true else false) && moved_point w v n | _, _ => false end)).
Lemma scale_moves c h : scale_test c h = true -> exists n w0 w1 lg w v1 lg' v x y r r', open_writer None c no_overrides = Ok w0 /\ arun verbatim [one_record; AAssign h] w0 = (w1, lg) /\ close verbatim plain w1 = (w, Ok tt) /\ arun verbatim [one_record] w0 = (v1, lg') /\ close verbatim plain v1 = (v, Ok tt) /\
  In (one_record, Ok (Some n)) lg /\ In (one_record, Ok (Some n)) lg' /\ open_reader true (file w) = Ok r /\ open_reader true (file v) = Ok r' /\ first_x r n = Some x /\ first_x r' n = Some y /\ x <> y.
Proof.
  intros T. apply assign_test_ok in T as (w0 & w1 & lg & w & o & O & R & C & T). apply andb_prop in T as (T1 & T). apply is_ok_eq in T1. subst o. apply assign_test_ok in T as (w0' & v1 & lg' & v & o & O' & R' & C' & T). assert (w0' = w0) as -> by congruence. apply andb_prop in T as (T1 & T). apply is_ok_eq in T1. subst o.
  destruct lg as [|(a, [[n|]| |]) [|b [|? ?]]]; try discriminate T. destruct lg' as [|(a', [[m|]| |]) [|? ?]]; try discriminate T. pose proof (first_logged _ _ _ _ _ _ _ _ R) as ->. pose proof (first_logged _ _ _ _ _ _ _ _ R') as ->. apply andb_prop in T as (T1 & T). destruct (node_dec n m) as [<-|]; [|discriminate T1].
  unfold moved_point in T. destruct (open_reader true (file w)) as [r| |] eqn:OR; try discriminate T. destruct (open_reader true (file v)) as [r'| |] eqn:OV; try discriminate T. destruct (first_x r n) as [x|] eqn:X; try discriminate T. destruct (first_x r' n) as [y|] eqn:Y; try discriminate T.
  eexists n, w0, w1, _, w, v1, _, v, x, y, r, r'. split; [exact O|]. split; [exact R|]. split; [exact C|]. split; [exact R'|]. split; [exact C'|]. split; [now left|]. split; [now left|]. split; [exact OR|]. split; [exact OV|]. split; [exact X|]. split; [exact Y|]. intros ->. rewrite same_f_refl in T. discriminate T.
Qed.
Theorem C92_other_scale_refuted : exists c h n w0 w1 lg w v1 lg' v x y r r', ready c /\ init_writer c no_overrides = Ok c /\ h_fmt h = h_fmt (c_hdr c) /\ h_reclen h = h_reclen (c_hdr c) /\
  open_writer None c no_overrides = Ok w0 /\ arun verbatim [one_record; AAssign h] w0 = (w1, lg) /\ close verbatim plain w1 = (w, Ok tt) /\ arun verbatim [one_record] w0 = (v1, lg') /\ close verbatim plain v1 = (v, Ok tt) /\
  In (one_record, Ok (Some n)) lg /\ In (one_record, Ok (Some n)) lg' /\ open_reader true (file w) = Ok r /\ open_reader true (file v) = Ok r' /\ first_x r n = Some x /\ first_x r' n = Some y /\ x <> y.
Proof.
  destruct round_config_ok as (RD & IW). destruct (scale_moves round_config (given 7 48 two_vec true 0 0 [] (c_hdr round_config)) ltac:(vm_compute; reflexivity)) as (n & w0 & w1 & lg & w & v1 & lg' & v & x & y & r & r' & H).
  exists round_config, (given 7 48 two_vec true 0 0 [] (c_hdr round_config)), n, w0, w1, lg, w, v1, lg', v, x, y, r, r'. split; [exact RD|]. split; [exact IW|]. split; [vm_compute; reflexivity|]. split; [vm_compute; reflexivity|exact H].
Qed.
Print Assumptions C92_other_scale_refuted.
(* another format: Close succeeds, but it writes the position of the chunk table into the points, because the point data now seem to
   start later; no Reader opens the file *)
Definition format_test (c : config) (h : las_header) : bool :=
  assign_test c [one_record; AAssign h] (fun w1 lg w o => is_ok o && match lg with [(_, Ok (Some n)); _] => same_bytes (chunk_in (file w1) n) (repeat 9 48) && negb (same_bytes (chunk_in (file w) n) (repeat 9 48)) | _ => false end && match open_reader true (file w) with Throw => true | _ => false end).
Lemma format_spoils c h : format_test c h = true -> exists n w0 w1 lg w, open_writer None c no_overrides = Ok w0 /\ arun verbatim [one_record; AAssign h] w0 = (w1, lg) /\ close verbatim plain w1 = (w, Ok tt) /\ In (one_record, Ok (Some n)) lg /\
  chunk_in (file w1) n = repeat 9 48 /\ chunk_in (file w) n <> repeat 9 48 /\ open_reader true (file w) = Throw.
Proof.
  intros T. apply assign_test_ok in T as (w0 & w1 & lg & w & o & O & R & C & T). apply andb_prop in T as (T & T3). apply andb_prop in T as (T1 & T). apply is_ok_eq in T1. subst o. destruct lg as [|(a, [[n|]| |]) [|b [|? ?]]]; try discriminate T. pose proof (first_logged _ _ _ _ _ _ _ _ R) as ->. apply andb_prop in T as (T1 & T2). apply same_bytes_eq in T1. apply negb_true_iff in T2.
  destruct (open_reader true (file w)) eqn:OR; try discriminate T3. eexists n, w0, w1, _, w. split; [exact O|]. split; [exact R|]. split; [exact C|]. split; [now left|]. split; [exact T1|]. split; [|exact OR]. intros E. rewrite E in T2. unfold same_bytes in T2. destruct (list_eq_dec Z.eq_dec (repeat 9 48) (repeat 9 48)); congruence.
Qed.
Theorem C92_other_format_refuted : exists c h n w0 w1 lg w, ready c /\ init_writer c no_overrides = Ok c /\ h_scale h = h_scale (c_hdr c) /\ h_offset h = h_offset (c_hdr c) /\ open_writer None c no_overrides = Ok w0 /\ arun verbatim [one_record; AAssign h] w0 = (w1, lg) /\ close verbatim plain w1 = (w, Ok tt) /\ In (one_record, Ok (Some n)) lg /\
  chunk_in (file w1) n = repeat 9 48 /\ chunk_in (file w) n <> repeat 9 48 /\ open_reader true (file w) = Throw.
Proof.
  destruct round_config_ok as (RD & IW). destruct (format_spoils round_config (given 8 50 (h_scale (c_hdr round_config)) true 0 0 [] (c_hdr round_config)) ltac:(vm_compute; reflexivity)) as (n & w0 & w1 & lg & w & H).
  exists round_config, (given 8 50 (h_scale (c_hdr round_config)) true 0 0 [] (c_hdr round_config)), n, w0, w1, lg, w. split; [exact RD|]. split; [exact IW|]. split; [reflexivity|]. split; [reflexivity|exact H].
Qed.
Print Assumptions C92_other_format_refuted.
(* a header that was read from a file that is no COPC file: Close throws (for a configuration with extended statistics) *)
Theorem C92_not_copc_refuted : exists c h w0 w1 lg w, ready c /\ init_writer c no_overrides = Ok c /\ h_fmt h = h_fmt (c_hdr c) /\ h_reclen h = h_reclen (c_hdr c) /\ h_scale h = h_scale (c_hdr c) /\ h_offset h = h_offset (c_hdr c) /\
  open_writer None c no_overrides = Ok w0 /\ arun verbatim [one_record; AAssign h] w0 = (w1, lg) /\ close verbatim plain w1 = (w, Throw).
Proof.
  destruct round_config_ok as (RD & IW). set (h := given 7 48 (h_scale (c_hdr round_config)) false 0 0 [] (c_hdr round_config)). assert (T : assign_test round_config [one_record; AAssign h] (fun _ _ _ o => match o with Throw => true | _ => false end) = true) by (vm_compute; reflexivity).
  apply assign_test_ok in T as (w0 & w1 & lg & w & o & O & R & C & T). destruct o; try discriminate T. exists round_config, h, w0, w1, lg, w. split; [exact RD|]. split; [exact IW|]. split; [vm_compute; reflexivity|]. split; [vm_compute; reflexivity|]. split; [reflexivity|]. split; [reflexivity|auto].
Qed.
Print Assumptions C92_not_copc_refuted.
