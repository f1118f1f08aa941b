(* PropThin.v - C91: trimming a file to a resolution *)
From Coq Require Import Permutation.
From Verif Require Import Base BaseFacts ModelFloat ModelKey ModelGeom ModelEntry ModelPoint ModelPoints ModelHeader ModelVlr ModelExtents ModelConfig
  ModelStream ModelWriter ModelReader ModelCopy ModelThin SpecKey SpecPoint SpecPoints SpecConfig SpecWriter SpecHier SpecFile SpecReader SpecData SpecRound SpecCopy SpecThin
  ProofFloat ProofKey ProofPoint ProofPoints ProofConfig ProofWriter ProofWriter2 ProofResults ProofReject ProofCount ProofData ProofData2 ProofReader4 ProofReader6 ProofRound ProofCopy ProofOrder ProofTotal
  SampleWriter SampleReader PropWriter PropReader PropData PropRound PropCopy PropTrim.
Open Scope Z_scope.

Lemma same_return {A} (g : nat -> call A) r1 o1 r2 o2 : returns g r1 o1 -> returns g r2 o2 -> r1 = r2 /\ o1 = o2.
Proof. intros (n1 & E1) (n2 & E2). specialize (E1 (max n1 n2) ltac:(lia)). specialize (E2 (max n1 n2) ltac:(lia)). rewrite E1 in E2. split; congruence. Qed.

(* ---- any copy: GetAllPoints gives the points of the nodes copied ---- *)
Lemma copy_all_points cd f hs P r page l c v c0 w r2 od hp res : copies_from f hs r page l -> NoDup l -> Forall (whole_chunk f) l -> copying copy_nodes cd page l r c v c0 w -> same_meaning (c_hdr (r_cfg r)) (c_hdr c0) -> h_reclen (c_hdr (r_cfg r)) <= 255 -> storable c0 -> Z.of_nat (length l) < 2 ^ 32 - 2 ->
  (forall n, In n l -> exists data, chunk_records cd (c_hdr (r_cfg r)) f n data /\ decodes_to (c_hdr (r_cfg r)) data (P n)) -> reader_on (file w) r2 -> visits_all od -> fle res f0 = true ->
  exists r3 x ps, returns (fun fuel => get_all_points cd fuel od hp res r2) r3 (Ok x) /\ has_points (c_hdr (r_cfg r)) x ps /\ Permutation ps (flat_map P l).
Proof.
  intros CF ND WH CP (F & RL & SC & OF) R255 ST LL D R2 VA RZ. destruct (copied _ _ _ _ _ _ _ _ _ _ CF WH CP) as (lg & MF & OKS & W & H1 & H2 & H3 & H4). pose proof CF as (SR & FL & RO & OK). rewrite Forall_forall in OK.
  assert (UN : forall x y, In x l -> In y l -> n_key x = n_key y -> x = y) by (intros x y X Y E; eapply (copies_unique f hs page l); eauto; apply Forall_forall; exact OK).
  assert (ST' : storable (w_cfg w)) by (unfold storable; rewrite H1, H2, H3, H4; exact ST). destruct (used_header _ _ _ _ _ _ W ST' ltac:(rewrite map_length; lia) R2) as (F2 & RL2 & SC2 & OF2).
  pose proof W as ((wod & cc & vv & CS) & _). destruct (ready_base _ _ _ _ _ _ _ _ CS) as (F6 & RB). destruct (written_reader _ _ _ _ _ _ W R2) as (hs2 & S2 & L2 & STN & _ & G2).
  set (Q := fun m : node => match under l (n_key m) with Some n => P n | None => [] end).
  assert (ON : forall m, stored_nodes hs2 m -> exists n, In n l /\ n_key n = n_key m).
  { intros m M. apply STN in M as (nd & p & V & _). destruct (log_some page (chunk_in f) l lg MF OKS _ _ _ V) as (n & N & K & _). eauto. }
  assert (ST2 : forall n, In n l -> exists nd, stored_nodes hs2 nd /\ n_key nd = n_key n).
  { intros n N. destruct (log_view f hs page (chunk_in f) l SR ltac:(apply Forall_forall; exact OK) lg MF OKS n N) as (nd & V & J). assert (NS : stored_node hs2 (n_key n) (mkNode (n_entry nd) (page n))) by (apply STN; now exists nd, (page n)).
    exists (mkNode (n_entry nd) (page n)). assert (K : n_key (mkNode (n_entry nd) (page n)) = n_key n) by (destruct NS as (i & e & _ & _ & _ & _ & K & E); unfold n_key in *; rewrite E; exact K). split; [unfold stored_nodes; rewrite K; exact NS|exact K]. }
  assert (PL : plain_header (c_hdr (r_cfg r2))) by (unfold plain_header; rewrite F2, RL2; split; [exact F6|lia]).
  assert (RD : readable cd (c_hdr (r_cfg r2)) (file w) hs2 Q).
  { intros m M. destruct (ON m M) as (n & N & E). unfold Q. rewrite <- E, (under_in l n UN N). destruct (D n N) as (data & CR & DD). assert (CR' : chunk_records cd (c_hdr c0) f n data) by (unfold chunk_records in *; rewrite F, RL; exact CR).
    destruct (copy_holds _ _ _ _ _ _ _ _ _ _ _ _ _ CF WH CP N R2 ST LL ltac:(lia) CR') as (hs3 & m' & S3 & L3 & N3 & G3 & (M1 & M2 & M3 & M4) & HR).
    assert (m' = m) as ->.
    { destruct (find_good _ _ _ hs3 S3 L3 (n_key n) r2 G3) as (ra & oa & Ea & _ & _ & Aa & _). destruct (find_good _ _ _ hs2 S2 L2 (n_key n) r2 G2) as (rb & ob & Eb & _ & _ & Ab & _). rewrite (Aa m' N3) in Ea. unfold stored_nodes in M. rewrite <- E in M. rewrite (Ab m M) in Eb. destruct (same_return _ _ _ _ _ Ea Eb) as (_ & X). congruence. }
    exists data. split; [exact HR|]. eapply same_decodes; [..|exact DD]; congruence. }
  destruct (deepest_exists (file w) _ _ hs2 S2) as (d & DP). destruct (C48_depth (file w) hs2 od r2 res d S2 L2 VA R2 DP) as (r1 & o & DR & B & _). rewrite (B RZ) in DR.
  destruct (all_points_good cd (file w) _ _ hs2 S2 L2 Q od hp res r2 r1 d VA G2 PL RD DR) as (r3 & x & ps & A & _ & _ & HP & (ns & (NN & X) & PM)). exists r3, x, ps. split; [exact A|]. split; [unfold has_points in *; rewrite F2, RL2, F, RL in HP; exact HP|].
  rewrite PM. set (g := fun k => match under l k with Some n => P n | None => [] end). transitivity (flat_map g (map n_key ns)); [rewrite flat_map_concat_map, flat_map_concat_map, map_map; reflexivity|].
  transitivity (flat_map g (map n_key l)).
  - apply Permutation_flat_map. apply NoDup_Permutation; [exact NN|now apply nodup_map|]. intros k. split; intros I; apply in_map_iff in I as (m & <- & I).
    + apply X in I as (I & _). destruct (ON m I) as (n & N & E). rewrite <- E. now apply in_map.
    + destruct (ST2 m I) as (nd & S & K). rewrite <- K. apply in_map, X. split; [exact S|]. now apply DP.
  - assert (H : forall q, (forall n, In n q -> In n l) -> Permutation (flat_map g (map n_key q)) (flat_map P q)); [|apply H; auto].
    clear - UN. intros q SUB. induction q as [|n q IH]; [constructor|]. cbn [map flat_map]. unfold g at 1. rewrite (under_in l n UN (SUB n (or_introl eq_refl))). apply Permutation_app_head, IH. intros m M. apply SUB. now right.
Qed.

(* the nodes selected, in terms of the file *)
Lemma selected_nodes f hs res d l : copc_pages f hs -> Z.of_nat (length f) < 2 ^ 63 -> selected f res d l -> exactly l (fun n => stored_nodes hs n /\ kd (n_key n) <= d) /\ NoDup l.
Proof.
  intros S L (od1 & rq & rq' & od2 & ra & ra' & ns & V1 & R1 & E1 & V2 & R2 & E2 & ->). destruct (all_nodes_good f _ _ hs S L od2 ra V2 (on_good f hs ra S L R2)) as (rb & ns' & E & _ & _ & (ND & X) & _).
  destruct (same_return _ _ _ _ _ E2 E) as (_ & Q). assert (ns' = ns) as -> by congruence. assert (NF : NoDup (map n_key (up_to_depth d ns))).
  { unfold up_to_depth. clear - ND. induction ns as [|n ns IH]; [constructor|]. cbn [map] in ND. apply NoDup_cons_iff in ND as (NI & ND). cbn [filter]. destruct (_ <=? _); [|now apply IH]. cbn [map]. constructor; [|now apply IH]. intros I. apply NI. apply in_map_iff in I as (m & <- & I). apply in_map. now apply filter_In in I. }
  split; [|now apply NoDup_map_inv in NF]. split; [exact NF|]. intros n. unfold up_to_depth. rewrite filter_In, X, Z.leb_le. reflexivity.
Qed.

(* ---- depths ---- *)
Definition depth_value (maxd : Z) (s res : f64) : outcome Z := if fle res f0 then Ok maxd else depth_loop (Z.to_nat (maxd + 1)) 0 maxd s res.
Lemma depth_returned f hs od res r md : copc_pages f hs -> Z.of_nat (length f) < 2 ^ 63 -> visits_all od -> reader_on f r -> deepest (stored_nodes hs) md ->
  exists r', returns (fun n => get_depth_at_resolution n od res r) r' (depth_value md (i_spacing (c_info (r_cfg r))) res).
Proof.
  intros S L VA R MD. destruct (all_nodes_good f _ _ hs S L od r VA (on_good f hs r S L R)) as (r1 & l & E & G1 & G & (_ & X) & _). exists r1.
  assert (Q : max_depth_of l = md). { pose proof (max_depth_spec l (stored_nodes hs) X ltac:(intros n N; eapply stored_depth; eauto)) as (A & B). destruct MD as (C & D). destruct B as [(B & B')|(n & N & B)], D as [(D & D')|(m & M & D)]; [lia|destruct (B' m M)|destruct (D' n N)|]. pose proof (A m M). pose proof (C n N). lia. }
  unfold depth_value. rewrite <- Q. change (if fle res f0 then Ok (max_depth_of l) else depth_loop (Z.to_nat (max_depth_of l + 1)) 0 (max_depth_of l) (i_spacing (c_info (r_cfg r))) res) with (depth_for l (i_spacing (c_info (r_cfg r))) res).
  rewrite <- (grows_cfg _ _ G). apply (returns_then _ _ _ _ _ _ E), returns_const.
Qed.
Lemma loop_cut : forall n i maxd cur res d, maxd + 1 - i = Z.of_nat n -> 0 <= i -> depth_loop n i maxd cur res = Ok d -> (d = maxd \/ i <= d <= maxd) /\ depth_loop (Z.to_nat (d + 1 - i)) i d cur res = Ok d.
Proof.
  induction n as [|n IH]; intros i maxd cur res d E I H; cbn [depth_loop] in H.
  - destruct (Z.eqb_spec maxd INT32_MAX); [discriminate H|]. assert (d = maxd) as -> by congruence. split; [now left|]. replace (Z.to_nat (maxd + 1 - i)) with 0%nat by lia. cbn [depth_loop]. destruct (Z.eqb_spec maxd INT32_MAX); congruence.
  - destruct (fle cur res) eqn:C.
    + assert (d = i) as -> by congruence. split; [lia|]. replace (Z.to_nat (i + 1 - i)) with 1%nat by lia. cbn [depth_loop]. now rewrite C.
    + destruct (IH (i + 1) maxd _ _ d ltac:(lia) ltac:(lia) H) as (A & B). split; [lia|]. replace (Z.to_nat (d + 1 - i)) with (Datatypes.S (Z.to_nat (d + 1 - (i + 1)))) by lia. cbn [depth_loop]. now rewrite C.
Qed.
Lemma value_cut md s res d : -1 <= md -> depth_value md s res = Ok d -> d <= md /\ (d = md \/ 0 <= d) /\ depth_value d s res = Ok d.
Proof.
  unfold depth_value. intros M. destruct (fle res f0); intros H; [assert (d = md) as -> by congruence; split; [lia|auto]|]. destruct (loop_cut (Z.to_nat (md + 1)) 0 md s res d ltac:(lia) ltac:(lia) H) as (A & B). replace (d + 1 - 0) with (d + 1) in B by lia. split; [lia|]. split; [lia|exact B].
Qed.
Lemma deepest_low f hs d : copc_pages f hs -> deepest (stored_nodes hs) d -> -1 <= d.
Proof. intros S (_ & [(-> & _)|(n & N & <-)]); [lia|]. pose proof (stored_depth f _ _ hs S n N). lia. Qed.
(* the depth that the program got *)
Lemma selected_depth f hs res d l md r : copc_pages f hs -> Z.of_nat (length f) < 2 ^ 63 -> selected f res d l -> deepest (stored_nodes hs) md -> reader_on f r -> depth_value md (i_spacing (c_info (r_cfg r))) res = Ok d.
Proof.
  intros S L (od1 & rq & rq' & od2 & ra & ra' & ns & V1 & R1 & E1 & _) MD R. destruct (depth_returned f hs od1 res rq md S L V1 R1 MD) as (r' & E). destruct (same_return _ _ _ _ _ E1 E) as (_ & Q). rewrite (same_file_config f hs r rq S L R R1). congruence.
Qed.
(* with no depth left out, there is a node at the depth that the program got *)
Lemma no_gaps_node hs md d : no_gaps hs -> deepest (stored_nodes hs) md -> 0 <= d <= md -> exists n, stored_nodes hs n /\ kd (n_key n) = d.
Proof.
  intros NG (_ & [(-> & _)|(n & N & K)]) D; [lia|]. assert (H : forall j, 0 <= md - Z.of_nat j -> exists m, stored_nodes hs m /\ kd (n_key m) = md - Z.of_nat j).
  { induction j as [|j IH]; intros J; [exists n; split; [exact N|lia]|]. destruct (IH ltac:(lia)) as (m & M & E). destruct (NG m M ltac:(lia)) as (m' & M' & E'). exists m'. split; [exact M'|lia]. }
  destruct (H (Z.to_nat (md - d)) ltac:(lia)) as (m & M & E). exists m. split; [exact M|lia].
Qed.

(* ---- C91 ---- *)
Lemma thinned_copies cd f hs r res d l c v c0 w : thinned_file cd f hs r res d l c v c0 w -> copies_from f hs r n_page l /\ Forall (whole_chunk f) l /\ NoDup l /\ exactly l (fun n => stored_nodes hs n /\ kd (n_key n) <= d).
Proof.
  intros (S & L & R & SE & CP & ALL & SM & R255 & ST & LL). destruct (selected_nodes f hs res d l S L SE) as (EX & ND). pose proof EX as (_ & X). split; [|split; [|split; [exact ND|exact EX]]].
  - apply (C84_same_pages f hs r l S L R). apply Forall_forall. intros n N. apply X in N as (N & _). split; [exact N|]. now destruct (ALL n N).
  - apply Forall_forall. intros n N. apply X in N as (N & _). now destruct (ALL n N) as (_ & ? & _).
Qed.
(* GetAllPoints of the thinned file gives the points that GetAllPoints(resolution) gives for the source *)
Theorem C91_all_points : forall cd f hs r res d l c v c0 w r1 r2 od od2 hp hp2 res2, thinned_file cd f hs r res d l c v c0 w -> reader_on f r1 -> reader_on (file w) r2 -> visits_all od -> visits_all od2 -> fle res2 f0 = true ->
  exists r3 x ps r4 y qs, returns (fun fuel => get_all_points cd fuel od hp res r1) r3 (Ok x) /\ has_points (c_hdr (r_cfg r1)) x ps /\
    returns (fun fuel => get_all_points cd fuel od2 hp2 res2 r2) r4 (Ok y) /\ has_points (c_hdr (r_cfg r1)) y qs /\ Permutation ps qs.
Proof.
  intros cd f hs r res d l c v c0 w r1 r2 od od2 hp hp2 res2 T R1 R2 VA VA2 RZ. destruct (thinned_copies _ _ _ _ _ _ _ _ _ _ _ T) as (CF & WH & ND & EX). pose proof T as (S & L & R & SE & CP & ALL & SM & R255 & ST & LL).
  assert (HH : r_cfg r1 = r_cfg r) by (eapply same_file_config; eassumption). rewrite HH.
  assert (PH : 6 <= h_fmt (c_hdr (r_cfg r)) <= 8 /\ las_base (h_fmt (c_hdr (r_cfg r))) <= h_reclen (c_hdr (r_cfg r)) <= 255).
  { destruct (copied _ _ _ _ _ _ _ _ _ _ CF WH CP) as (lg & _ & _ & ((wod & cc & vv & CS) & _) & _). destruct (ready_base _ _ _ _ _ _ _ _ CS) as (F6 & RB). destruct SM as (M1 & M2 & _). rewrite M1, M2 in *. lia. }
  destruct (all_nodes_good f _ _ hs S L od r1 VA (on_good f hs r1 S L R1)) as (ra & na & _ & _ & _ & (NK & NX) & _).
  assert (DEC : forall n, In n na -> exists ps, exists data, chunk_records cd (c_hdr (r_cfg r)) f n data /\ decodes_to (c_hdr (r_cfg r)) data ps).
  { intros n N. apply NX in N. destruct (ALL n N) as (C & WC & data & CR). assert (H : holds_records cd (c_hdr (r_cfg r)) f n data) by (apply (chunk_holds cd f hs); auto; [lia|apply PH|apply PH]).
    pose proof H as (X1 & X2 & X3 & X4 & X5 & X6 & X7). destruct (unpack_decodes (c_hdr (r_cfg r)) [] data X1 ltac:(lia) X5 _ X6 ltac:(lia)) as (qs & D & _). exists qs, data. auto. }
  destruct (choose node_dec _ [] na DEC) as (P & HP). assert (HP' : forall n, stored_nodes hs n -> exists data, chunk_records cd (c_hdr (r_cfg r)) f n data /\ decodes_to (c_hdr (r_cfg r)) data (P n)) by (intros n N; now apply HP, NX).
  destruct (copy_all_points cd f hs P r n_page l c v c0 w r2 od2 hp2 res2 CF ND WH CP SM R255 ST LL) as (r4 & y & qs & E4 & HY & PY); auto. { intros n N. apply HP'. now apply EX in N. }
  destruct (deepest_exists f _ _ hs S) as (md & MD). destruct (depth_returned f hs od res r1 md S L VA R1 MD) as (r5 & DR). rewrite HH, (selected_depth f hs res d l md r S L SE MD R) in DR.
  destruct (all_points_good cd f _ _ hs S L P od hp res r1 r5 d VA (on_good f hs r1 S L R1)) as (r3 & x & ps & E & _ & _ & HX & (ns & (NN & X) & PM)).
  - rewrite HH. split; [apply PH|lia].
  - intros n N. rewrite HH. destruct (HP' n N) as (data & CR & DD). exists data. split; [|exact DD]. destruct (ALL n N) as (C & WC & _). apply (chunk_holds cd f hs); auto; [lia|apply PH|apply PH].
  - exact DR.
  - exists r3, x, ps, r4, y, qs. rewrite HH in HX. split; [exact E|]. split; [exact HX|]. split; [exact E4|]. split; [exact HY|]. rewrite PM, PY. apply Permutation_flat_map. apply NoDup_Permutation; [now apply NoDup_map_inv in NN|exact ND|].
    intros n. rewrite X, (proj2 EX n). reflexivity.
Qed.
Print Assumptions C91_all_points.
Lemma thinned_pages cd f hs r res d l c v c0 w r2 : thinned_file cd f hs r res d l c v c0 w -> reader_on (file w) r2 ->
  exists hs2, copc_pages (file w) hs2 /\ Z.of_nat (length (file w)) < 2 ^ 63 /\ (forall n, stored_nodes hs n -> kd (n_key n) <= d -> exists m, stored_nodes hs2 m /\ n_key m = n_key n) /\ (forall m, stored_nodes hs2 m -> exists n, stored_nodes hs n /\ kd (n_key n) <= d /\ n_key n = n_key m).
Proof.
  intros T R2. destruct (thinned_copies _ _ _ _ _ _ _ _ _ _ _ T) as (CF & WH & ND & (NK & EX)). pose proof T as (S & L & R & SE & CP & _). destruct (copied _ _ _ _ _ _ _ _ _ _ CF WH CP) as (lg & MF & OKS & W & _). pose proof CF as (_ & _ & _ & OK).
  destruct (written_reader _ _ _ _ _ _ W R2) as (hs2 & S2 & L2 & STN & _ & G2). exists hs2. split; [exact S2|]. split; [exact L2|]. split.
  - intros n N D. assert (I : In n l) by (apply EX; auto). destruct (log_view f hs n_page (chunk_in f) l S OK lg MF OKS n I) as (nd & V & J). assert (NS : stored_node hs2 (n_key n) (mkNode (n_entry nd) (n_page n))) by (apply STN; now exists nd, (n_page n)).
    exists (mkNode (n_entry nd) (n_page n)). assert (K : n_key (mkNode (n_entry nd) (n_page n)) = n_key n) by (destruct NS as (i & e & _ & _ & _ & _ & K & E); unfold n_key in *; rewrite E; exact K). split; [unfold stored_nodes; rewrite K; exact NS|exact K].
  - intros m M. apply STN in M as (nd & p & V & _). destruct (log_some n_page (chunk_in f) l lg MF OKS _ _ _ V) as (n & N & K & _). apply EX in N as (N & D). eauto.
Qed.
Lemma thinned_deepest hs hs2 f res d l md : copc_pages f hs -> Z.of_nat (length f) < 2 ^ 63 -> selected f res d l -> deepest (stored_nodes hs) md -> (exists r, reader_on f r) ->
  (forall n, stored_nodes hs n -> kd (n_key n) <= d -> exists m, stored_nodes hs2 m /\ n_key m = n_key n) -> (forall m, stored_nodes hs2 m -> exists n, stored_nodes hs n /\ kd (n_key n) <= d /\ n_key n = n_key m) ->
  forall md2, deepest (stored_nodes hs2) md2 -> md2 <= d /\ (no_gaps hs -> md2 = d).
Proof.
  intros S L SE MD (r & R) A B md2 (D1 & D2). pose proof (selected_depth f hs res d l md r S L SE MD R) as DV. destruct (value_cut md _ _ _ (deepest_low f hs md S MD) DV) as (U1 & U2 & _). pose proof (deepest_low f hs md S MD) as LOW.
  assert (LE : md2 <= d). { destruct D2 as [(-> & _)|(m & M & <-)]; [lia|]. destruct (B m M) as (n & N & K & <-). exact K. } split; [exact LE|].
  intros NG. destruct (Z.le_gt_cases 0 d) as [D0|D0].
  - destruct (no_gaps_node hs md d NG MD ltac:(lia)) as (n & N & K). destruct (A n N ltac:(lia)) as (m & M & E). pose proof (D1 m M) as Q. rewrite E in Q. lia.
  - destruct D2 as [(-> & _)|(m & M & K)]; [lia|]. destruct (B m M) as (n & N & Q & E). pose proof (stored_depth f _ _ hs S n N). rewrite E in *. lia.
Qed.
(* the thinned file is no deeper than the depth of the resolution, and just as deep if the source left out no depth *)
Theorem C91_depth : forall cd f hs r res d l c v c0 w r2 od res2, thinned_file cd f hs r res d l c v c0 w -> reader_on (file w) r2 -> visits_all od -> fle res2 f0 = true ->
  exists r3 d2, returns (fun fuel => get_depth_at_resolution fuel od res2 r2) r3 (Ok d2) /\ d2 <= d /\ (no_gaps hs -> d2 = d).
Proof.
  intros cd f hs r res d l c v c0 w r2 od res2 T R2 VA RZ. destruct (thinned_pages _ _ _ _ _ _ _ _ _ _ _ r2 T R2) as (hs2 & S2 & L2 & A & B). pose proof T as (S & L & R & SE & _). destruct (deepest_exists f _ _ hs S) as (md & MD). destruct (deepest_exists (file w) _ _ hs2 S2) as (md2 & MD2).
  destruct (depth_returned (file w) hs2 od res2 r2 md2 S2 L2 VA R2 MD2) as (r3 & E). unfold depth_value in E. rewrite RZ in E. exists r3, md2. split; [exact E|]. eapply thinned_deepest; eauto.
Qed.
Print Assumptions C91_depth.
(* no node of it is deeper *)
Theorem C91_nodes : forall cd f hs r res d l c v c0 w r2 od, thinned_file cd f hs r res d l c v c0 w -> reader_on (file w) r2 -> visits_all od ->
  exists r3 ns, returns (fun fuel => get_all_nodes fuel od r2) r3 (Ok ns) /\ NoDup (map n_key ns) /\ (forall k, In k (map n_key ns) <-> exists n, stored_nodes hs n /\ n_key n = k /\ kd k <= d) /\ Forall (fun n => kd (n_key n) <= d) ns.
Proof.
  intros cd f hs r res d l c v c0 w r2 od T R2 VA. destruct (thinned_copies _ _ _ _ _ _ _ _ _ _ _ T) as (CF & WH & ND & (NK & EX)). pose proof T as (S & L & R & SE & CP & _). destruct (C84_all_nodes _ _ _ _ _ _ _ _ _ _ _ _ CF WH CP R2 VA) as (r3 & ns & E & NN & X). exists r3, ns. split; [exact E|]. split; [exact NN|].
  assert (Q : forall k, In k (map n_key ns) <-> exists n, stored_nodes hs n /\ n_key n = k /\ kd k <= d).
  { intros k. rewrite X, in_map_iff. split.
    - intros (n & <- & I). apply EX in I as (I & D). eauto.
    - intros (n & N & <- & D). exists n. split; [reflexivity|]. apply EX. auto. }
  split; [exact Q|]. apply Forall_forall. intros n I. apply (in_map n_key) in I. apply Q in I as (m & _ & _ & D). exact D.
Qed.
Print Assumptions C91_nodes.
(* a Writer with the source's configuration: the resolution means the same depth in the thinned file *)
Theorem C91_same_resolution : forall cd f hs r res d l c c0 w r2 od, thinned_file cd f hs r res d l c no_overrides c0 w -> copy_config (r_cfg r) = Ok c -> no_gaps hs -> reader_on (file w) r2 -> visits_all od ->
  exists r3, returns (fun fuel => get_depth_at_resolution fuel od res r2) r3 (Ok d).
Proof.
  intros cd f hs r res d l c c0 w r2 od T CC NG R2 VA. destruct (thinned_pages _ _ _ _ _ _ _ _ _ _ _ r2 T R2) as (hs2 & S2 & L2 & A & B). destruct (thinned_copies _ _ _ _ _ _ _ _ _ _ _ T) as (CF & WH & ND & EX). pose proof T as (S & L & R & SE & CP & ALL & SM & R255 & ST & LL). destruct (deepest_exists f _ _ hs S) as (md & MD). destruct (deepest_exists (file w) _ _ hs2 S2) as (md2 & MD2).
  destruct (C84_configuration _ _ _ _ _ _ _ _ _ _ CF WH CC CP ST LL R2) as (_ & _ & (_ & _ & _ & _ & SP) & _).
  destruct (thinned_deepest hs hs2 f res d l md S L SE MD ltac:(eauto) A B md2 MD2) as (_ & Q). specialize (Q NG). subst md2. destruct (depth_returned (file w) hs2 od res r2 d S2 L2 VA R2 MD2) as (r3 & E). rewrite SP in E.
  pose proof (selected_depth f hs res d l md r S L SE MD R) as DV. destruct (value_cut md _ _ _ (deepest_low f hs md S MD) DV) as (_ & _ & V). rewrite V in E. eauto.
Qed.
Print Assumptions C91_same_resolution.

(* ---- a file with three nodes, of which the resolution selects one; a file without a root node, of which it selects none ---- *)
Definition listed (r : reader) : list node := match get_all_nodes 50 in_order r with Some (_, Ok l) => l | _ => [] end.
Definition listed_b (r : reader) : bool := match get_all_nodes 50 in_order r with Some (_, Ok _) => true | _ => false end.
Definition depth_b (d : Z) (res : f64) (r : reader) : bool := match get_depth_at_resolution 50 in_order res r with Some (_, Ok x) => x =? d | _ => false end.
Lemma listed_ok r : listed_b r = true -> exists s, returns (fun m => get_all_nodes m in_order r) s (Ok (listed r)).
Proof.
  unfold listed_b, listed, get_all_nodes. destruct (get_all_children_of_page 50 in_order root_key r) as [(s, [m| |])|] eqn:E; try discriminate. intros _. exists s. exact (children_computed in_order root_key r _ E).
Qed.
Lemma depth_b_ok d res r : depth_b d res r = true -> exists s, returns (fun m => get_depth_at_resolution m in_order res r) s (Ok d).
Proof.
  unfold depth_b. destruct (get_depth_at_resolution 50 in_order res r) as [(s, [x| |])|] eqn:E; try discriminate. intros D. apply Z.eqb_eq in D. subst x. exists s. exists 50%nat. intros n N. now rewrite (depth_mono in_order res n r _ N E).
Qed.
Lemma select_ok f r res d : reader_on f r -> listed_b r = true -> depth_b d res r = true -> selected f res d (up_to_depth d (listed r)).
Proof.
  intros R L D. apply listed_ok in L as (s & E). apply depth_b_ok in D as (t & D). exists in_order, r, t, in_order, r, s, (listed r). split; [exact in_order_all|]. split; [exact R|]. split; [exact D|]. split; [exact in_order_all|auto].
Qed.
Definition node_b (h : las_header) (f : bytes) (n : node) : bool := (0 <? e_count (n_entry n)) && (0 <=? e_offset (n_entry n)) && (e_offset (n_entry n) + e_size (n_entry n) <=? Z.of_nat (length f)) && holds_b h f n.
Definition thin_test (f : bytes) (hs : list page_info) (c : config) (res : f64) (d : Z) (m : nat) : bool :=
  match open_reader true f with
  | Ok r => listed_b r && depth_b d res r && forallb (node_b (c_hdr (r_cfg r)) f) (node_list hs) && same_meaning_b (c_hdr (r_cfg r)) (c_hdr c) && (length (up_to_depth d (listed r)) =? m)%nat &&
      copy_test r (up_to_depth d (listed r)) c no_overrides (fun w => opens (file w))
  | _ => false end.
Lemma thin_test_ok f hs c res d m : copc_pages f hs -> Z.of_nat (length f) < 2 ^ 63 -> ready c -> init_writer c no_overrides = Ok c -> storable c -> h_reclen (c_hdr c) <= 255 -> (m < 4)%nat -> thin_test f hs c res d m = true ->
  exists r l w r2, thinned_file verbatim f hs r res d l c no_overrides c w /\ length l = m /\ reader_on (file w) r2.
Proof.
  intros S L RD IW ST RL M H. unfold thin_test in H. destruct (open_reader true f) as [r| |] eqn:O; try discriminate H. destruct (opens_ok f ltac:(unfold opens; now rewrite O)) as (r0 & O' & R). assert (r0 = r) as -> by congruence.
  apply andb_prop in H as (H & H7). apply andb_prop in H as (H & H5). apply andb_prop in H as (H & H4). apply andb_prop in H as (H & H3). apply andb_prop in H as (H1 & H2). apply Nat.eqb_eq in H5. apply same_meaning_b_ok in H4.
  destruct (copy_test_ok r _ c no_overrides c _ IW RD H7) as (w & CP & OP). apply opens_ok in OP as (r2 & _ & R2). exists r, (up_to_depth d (listed r)), w, r2. split; [|split; [exact H5|exact R2]].
  pose proof H4 as (_ & Q & _). split; [exact S|]. split; [exact L|]. split; [exact R|]. split; [now apply select_ok|]. split; [exact CP|]. split; [|split; [exact H4|split; [lia|split; [exact ST|lia]]]].
  intros n N. apply node_list_in in N. rewrite forallb_forall in H3. specialize (H3 n N). unfold node_b in H3. apply andb_prop in H3 as (A & D). apply andb_prop in A as (A & C). apply andb_prop in A as (A & B). apply Z.ltb_lt in A. apply Z.leb_le in B, C. split; [exact A|]. split; [split; assumption|]. eexists. now apply holds_b_ok.
Qed.
Definition ten : f64 := f64_of_Z 10.
Lemma thin_good : thin_test good_file good_pages round_config ten 0 1 = true.
Proof. vm_compute. reflexivity. Qed.
Definition no_gaps_b (hs : list page_info) : bool := forallb (fun n => (kd (n_key n) <=? 0) || existsb (fun m => kd (n_key m) =? kd (n_key n) - 1) (node_list hs)) (node_list hs).
Lemma no_gaps_b_ok hs : forallb intact hs = true -> no_gaps_b hs = true -> no_gaps hs.
Proof.
  intros I H n N D. unfold no_gaps_b in H. rewrite forallb_forall in H. specialize (H n (node_list_in hs n N)). apply orb_prop in H as [H|H]; [apply Z.leb_le in H; lia|]. apply existsb_exists in H as (m & M & E). apply Z.eqb_eq in E. exists m. split; [now apply node_list_in_rev|exact E].
Qed.
Example C91_nonvacuous : exists f hs r res l c w r2, thinned_file verbatim f hs r res 0 l c no_overrides c w /\ length l = 1%nat /\ reader_on (file w) r2 /\ no_gaps hs /\ (exists ns, exactly ns (stored_nodes hs) /\ length ns = 3%nat) /\ fle res f0 = false.
Proof.
  destruct good_ok as (r0 & hb & S & L & _). destruct round_config_ok as (RD & IW). destruct round_storable as (ST & RL). destruct (thin_test_ok _ _ _ _ _ 1%nat S L RD IW ST RL ltac:(lia) thin_good) as (r & l & w & r2 & T & N & R2).
  exists good_file, good_pages, r, ten, l, round_config, w, r2. split; [exact T|]. split; [exact N|]. split; [exact R2|]. split; [apply no_gaps_b_ok; vm_compute; reflexivity|]. split; [|vm_compute; reflexivity].
  exists (node_list good_pages). split; [|exact good_length]. split; [apply nodup_keys_ok; vm_compute; reflexivity|]. intros n. split; [apply node_list_in_rev; vm_compute; reflexivity|apply node_list_in].
Qed.
(* a file whose only node is at depth 1: the depth of a coarse resolution is 0, where there is no node, so that nothing is copied,
   and the copy is not as deep as the depth of the resolution *)
Definition stray_pages : list page_info := Eval vm_compute in draft_pages stray_base stray_draft.
Lemma thin_stray : thin_test stray_file stray_pages round_config ten 0 0 = true.
Proof. vm_compute. reflexivity. Qed.
Theorem C91_gap_refuted : exists f hs r res d l c w r2 r3 d2, thinned_file verbatim f hs r res d l c no_overrides c w /\ reader_on (file w) r2 /\ (exists n, stored_nodes hs n) /\
  returns (fun fuel => get_depth_at_resolution fuel in_order f0 r2) r3 (Ok d2) /\ d2 < d /\ (forall r1 ns, ~ (returns (fun fuel => get_all_nodes fuel in_order r2) r1 (Ok ns) /\ ns <> [])).
Proof.
  assert (S : copc_pages stray_file stray_pages) by (apply hierarchy_b_ok; vm_compute; reflexivity). assert (L : Z.of_nat (length stray_file) < 2 ^ 63) by (vm_compute; reflexivity). destruct round_config_ok as (RD & IW). destruct round_storable as (ST & RL).
  destruct (thin_test_ok _ _ _ _ _ 0%nat S L RD IW ST RL ltac:(lia) thin_stray) as (r & l & w & r2 & T & N & R2).
  assert (K : exists n, In n (node_list stray_pages) /\ kd (n_key n) = 1) by (eexists; split; [vm_compute; left; reflexivity|reflexivity]). destruct K as (n & K & K1). apply node_list_in_rev in K; [|vm_compute; reflexivity].
  destruct (C91_nodes _ _ _ _ _ _ _ _ _ _ _ r2 in_order T R2 in_order_all) as (r4 & ns & E4 & _ & X & _).
  assert (ns = []) as ->.
  { destruct ns as [|m ns]; [reflexivity|exfalso]. destruct (proj1 (X (n_key m)) ltac:(now left)) as (x & XS & XK & XD). pose proof (stored_depth _ _ _ _ S x XS) as D0. assert (A : forallb (fun n => 0 <? kd (n_key n)) (node_list stray_pages) = true) by (vm_compute; reflexivity). rewrite forallb_forall in A. specialize (A x (node_list_in _ _ XS)). apply Z.ltb_lt in A. rewrite <- XK in XD. lia. }
  destruct (thinned_pages _ _ _ _ _ _ _ _ _ _ _ r2 T R2) as (hs2 & S2 & L2 & A & B). assert (DP : deepest (stored_nodes hs2) (-1)).
  { assert (NO : forall m, ~ stored_nodes hs2 m) by (intros m M; destruct (B m M) as (x & XS & XD & XK); destruct (proj2 (X (n_key x)) ltac:(eauto)) as []). split; [intros m M; now destruct (NO m)|left; auto]. }
  destruct (depth_returned _ hs2 in_order f0 r2 (-1) S2 L2 in_order_all R2 DP) as (r3 & E3). unfold depth_value in E3. replace (fle f0 f0) with true in E3 by (vm_compute; reflexivity).
  exists stray_file, stray_pages, r, ten, 0, l, round_config, w, r2, r3, (-1). split; [exact T|]. split; [exact R2|]. split; [eauto|]. split; [exact E3|]. split; [lia|].
  intros r1 ms (E1 & NE). destruct (same_return _ _ _ _ _ E1 E4) as (_ & Q). congruence.
Qed.
Print Assumptions C91_gap_refuted.
