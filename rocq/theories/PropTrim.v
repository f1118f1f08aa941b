(* PropTrim.v - C87: trimming a file to a box *)
From Coq Require Import Permutation.
From Verif Require Import Base BaseFacts ModelFloat ModelKey ModelGeom ModelEntry ModelPoint ModelPoints ModelHeader ModelVlr ModelExtents ModelConfig
  ModelStream ModelWriter ModelReader ModelCopy ModelTrim SpecKey SpecPoint SpecPoints SpecConfig SpecWriter SpecHier SpecFile SpecReader SpecData SpecRound SpecCopy SpecOrder SpecTrim
  ProofFloat ProofScale ProofKey ProofPoint ProofPoints ProofConfig ProofStream ProofWriter ProofWriter2 ProofWriter4 ProofClose2 ProofSession ProofResults ProofReject ProofCount ProofData ProofData2 ProofReader4 ProofReader6 ProofRound ProofMp2 ProofMp3 ProofMp5 ProofCopy ProofOrder ProofTrim
  SampleWriter SampleReader PropWriter PropReader PropData PropRound PropCopy.
Open Scope Z_scope.

(* a kept node, in the file *)
Lemma trimmed_node cd f hs P r b fmt l c v c0 w n r2 : trimmed_file cd f hs P r b fmt l c v c0 w -> lossless cd -> exact_region (h_scale (c_hdr (r_cfg r))) (h_offset (c_hdr (r_cfg r))) ->
  reader_on (file w) r2 -> In n l -> kept (c_hdr (r_cfg r)) b n = true ->
  exists lg nd, written cd c0 (flat_map (trim_op (c_hdr (r_cfg r)) f P b) l) lg w /\ view_of lg (n_key n) = Some (nd, n_page n) /\ same_meaning (c_hdr (r_cfg r)) (c_hdr (r_cfg r2)) /\
    node_points cd (c_hdr (r_cfg r2)) (file w) (mkNode (n_entry nd) (n_page n)) (in_box b (P n)) /\
    (box_within (node_box (c_hdr (r_cfg r)) n) b = true -> e_count (n_entry nd) = e_count (n_entry n) /\ e_size (n_entry nd) = e_size (n_entry n)).
Proof.
  intros (TF & SF & TR & SM & R255 & ST & LL) LS ER R2 N K. destruct (trim_written cd f hs P r b fmt l TF SF c v c0 w TR SM R255) as (lg & W & _). destruct (trim_view cd f hs P r b fmt l TF SF c v c0 w TR SM R255 lg n W N K) as (nd & op & V & J & OP).
  exists lg, nd. split; [exact W|]. split; [exact V|]. exact (trim_points_of cd f hs P r b fmt l TF c v c0 w TR SM R255 LS ER ST LL lg n nd op r2 W N V J OP R2).
Qed.
Lemma trimmed_key cd c0 ops lg w r2 k nd p : written cd c0 ops lg w -> reader_on (file w) r2 -> view_of lg k = Some (nd, p) -> n_key nd = k.
Proof.
  intros W R2 V. destruct (written_reader cd c0 ops lg w r2 W R2) as (hs2 & S2 & L2 & STN & _ & G2). assert (NS : stored_node hs2 k (mkNode (n_entry nd) p)) by (apply STN; now exists nd, p).
  destruct NS as (i & e & _ & _ & _ & _ & K & E). assert (n_entry nd = e) by congruence. unfold n_key. congruence.
Qed.

(* ---- C87 ---- *)
(* a node whose cell lies in the box or meets it is found under its key, in its page *)
Theorem C87_find : forall cd f hs P r b fmt l c v c0 w n r2, trimmed_file cd f hs P r b fmt l c v c0 w -> lossless cd -> exact_region (h_scale (c_hdr (r_cfg r))) (h_offset (c_hdr (r_cfg r))) ->
  reader_on (file w) r2 -> In n l -> kept (c_hdr (r_cfg r)) b n = true ->
  exists r3 m, returns (fun fuel => find_node fuel (n_key n) r2) r3 (Ok m) /\ n_key m = n_key n /\ n_page m = n_page n /\ e_count (n_entry m) = Z.of_nat (length (in_box b (P n))) /\
    (box_within (node_box (c_hdr (r_cfg r)) n) b = true -> e_count (n_entry m) = e_count (n_entry n) /\ e_size (n_entry m) = e_size (n_entry n)).
Proof.
  intros cd f hs P r b fmt l c v c0 w n r2 T LS ER R2 N K. destruct (trimmed_node _ _ _ _ _ _ _ _ _ _ _ _ n r2 T LS ER R2 N K) as (lg & nd & W & V & SM & NP & CT). destruct (C32_find_added _ _ _ _ _ _ _ _ _ W R2 V) as (r3 & E). exists r3, (mkNode (n_entry nd) (n_page n)).
  split; [exact E|]. split; [exact (trimmed_key _ _ _ _ _ _ _ _ _ W R2 V)|]. split; [reflexivity|]. split; [|exact CT]. destruct NP as (data & (F & RL & _ & _ & _ & LD & _) & DL & _). pose proof (las_base_range (h_fmt (c_hdr (r_cfg r2)))). cbn [n_entry] in *. rewrite LD in DL. apply Z.mul_reg_r in DL; lia.
Qed.
Print Assumptions C87_find.
(* no other key is found *)
Theorem C87_absent : forall cd f hs P r b fmt l c v c0 w k r2, trimmed_file cd f hs P r b fmt l c v c0 w -> reader_on (file w) r2 ->
  (forall n, In n l -> n_key n = k -> kept (c_hdr (r_cfg r)) b n = false) -> exists r3, returns (fun fuel => find_node fuel k r2) r3 (Ok invalid_node).
Proof.
  intros cd f hs P r b fmt l c v c0 w k r2 (TF & SF & TR & SM & R255 & ST & LL) R2 NK. destruct (trim_written cd f hs P r b fmt l TF SF c v c0 w TR SM R255) as (lg & W & _). eapply C32_find_absent; eauto.
  destruct (view_of lg k) as [(nd, p)|] eqn:V; [|reflexivity]. destruct (trim_view_only cd f hs P r b l TF c0 w lg k nd p W V) as (n & N & K & E & _). rewrite (NK n N E) in K. discriminate.
Qed.
Print Assumptions C87_absent.
(* GetAllNodes lists the kept keys, once each *)
Theorem C87_all_nodes : forall cd f hs P r b fmt l c v c0 w r2 od, trimmed_file cd f hs P r b fmt l c v c0 w -> reader_on (file w) r2 -> visits_all od ->
  exists r3 ns, returns (fun fuel => get_all_nodes fuel od r2) r3 (Ok ns) /\ NoDup (map n_key ns) /\ forall k, In k (map n_key ns) <-> exists n, In n l /\ kept (c_hdr (r_cfg r)) b n = true /\ n_key n = k.
Proof.
  intros cd f hs P r b fmt l c v c0 w r2 od (TF & SF & TR & SM & R255 & ST & LL) R2 VA. destruct (trim_written cd f hs P r b fmt l TF SF c v c0 w TR SM R255) as (lg & W & _). destruct (C33_all_nodes _ _ _ _ _ _ _ W R2 VA) as (r3 & ns & E & (ND & X)). exists r3, ns. split; [exact E|]. split; [exact ND|].
  intros k. split; intros I.
  - apply in_map_iff in I as (m & <- & I). apply X in I as (nd & q & V & _). destruct (trim_view_only cd f hs P r b l TF c0 w lg _ nd q W V) as (n & N & K & Q & _). eauto.
  - destruct I as (n & N & K & <-). destruct (trim_view cd f hs P r b fmt l TF SF c v c0 w TR SM R255 lg n W N K) as (nd & op & V & _). pose proof (trimmed_key _ _ _ _ _ _ _ _ _ W R2 V) as NK.
    rewrite <- NK. change (n_key nd) with (n_key (mkNode (n_entry nd) (n_page n))). apply in_map, X. exists nd, (n_page n). change (n_key (mkNode (n_entry nd) (n_page n))) with (n_key nd). rewrite NK. auto.
Qed.
Print Assumptions C87_all_nodes.
(* GetPoints of every node of the list gives the points of the source that lie in the box, in their order *)
Theorem C87_points : forall cd f hs P r b fmt l c v c0 w n r2 hp, trimmed_file cd f hs P r b fmt l c v c0 w -> lossless cd -> exact_region (h_scale (c_hdr (r_cfg r))) (h_offset (c_hdr (r_cfg r))) ->
  reader_on (file w) r2 -> In n l -> exists r3 x, returns (fun fuel => get_points cd fuel hp (n_key n) r2) r3 (Ok x) /\ has_points (c_hdr (r_cfg r)) x (in_box b (P n)).
Proof.
  intros cd f hs P r b fmt l c v c0 w n r2 hp T LS ER R2 N. destruct (kept (c_hdr (r_cfg r)) b n) eqn:K.
  - destruct (trimmed_node _ _ _ _ _ _ _ _ _ _ _ _ n r2 T LS ER R2 N K) as (lg & nd & W & V & SM & NP & _). destruct (C32_find_added _ _ _ _ _ _ _ _ _ W R2 V) as (r3 & E).
    destruct (written_reader cd c0 _ lg w r2 W R2) as (hs2 & S2 & L2 & STN & _ & G2). assert (NS : stored_node hs2 (n_key n) (mkNode (n_entry nd) (n_page n))) by (apply STN; now exists nd, (n_page n)).
    destruct (data_by_key cd (file w) _ _ hs2 S2 L2 (n_key n) r2 G2) as (_ & _ & A & _). assert (PL : plain_header (c_hdr (r_cfg r2))) by (destruct NP as (d & (F6 & RL & _) & _); split; [exact F6|lia]). destruct (A _ _ hp NS NP PL) as (r4 & x & E4 & HP & _). exists r4, x. split; [exact E4|]. destruct SM as (M1 & M2 & _). unfold has_points in *. now rewrite <- M1, <- M2.
  - pose proof T as (TF & SF & TR & SM & R255 & ST & LL). destruct (trim_written cd f hs P r b fmt l TF SF c v c0 w TR SM R255) as (lg & W & _). rewrite (skipped_none cd f hs P r b l TF n N K). pose proof (trim_length (c_hdr (r_cfg r)) f P b l) as TC.
    assert (V : view_of lg (n_key n) = None).
    { destruct (view_of lg (n_key n)) as [(nd, p)|] eqn:V; [|reflexivity]. destruct (trim_view_only cd f hs P r b l TF c0 w lg _ nd p W V) as (n' & N' & K' & Q & _). rewrite (trim_unique cd f hs P r l TF _ _ N' N Q) in K'. congruence. }
    destruct (C34_absent cd c0 _ lg w r2 (n_key n) hp W (trim_storable cd f hs P r b l TF c0 w lg W ST) ltac:(lia) R2 V) as (_ & _ & r3 & x & E & HP). exists r3, x. split; [exact E|]. destruct SM as (M1 & M2 & _). unfold has_points in *. now rewrite <- M1, <- M2.
Qed.
Print Assumptions C87_points.
(* GetAllPoints of the trimmed file gives the points of the nodes of the list that lie in the box, in some order *)
Lemma in_box_app b x y : in_box b (x ++ y) = in_box b x ++ in_box b y.
Proof. apply filter_app. Qed.
Lemma in_box_all b (P : node -> list point) : forall l, in_box b (flat_map P l) = flat_map (fun n => in_box b (P n)) l.
Proof. induction l as [|n l IH]; [reflexivity|]. cbn [flat_map]. now rewrite in_box_app, IH. Qed.
Lemma flat_keep (g : node -> list point) (k : node -> bool) : forall l, (forall n, In n l -> k n = false -> g n = []) -> flat_map g l = flat_map g (filter k l).
Proof.
  induction l as [|n l IH]; intros H; [reflexivity|]. cbn [flat_map filter]. rewrite IH by (intros m M; apply H; now right). destruct (k n) eqn:K; [reflexivity|]. now rewrite (H n (or_introl eq_refl) K).
Qed.
Definition under (l : list node) (k : key) : option node := find (fun n => key_eqb (n_key n) k) l.
Lemma under_in l n : (forall x y, In x l -> In y l -> n_key x = n_key y -> x = y) -> In n l -> under l (n_key n) = Some n.
Proof.
  intros U N. unfold under. destruct (find _ l) as [m|] eqn:E.
  - apply find_some in E as (M & K). apply key_eqb_eq in K. f_equal. now apply U.
  - apply find_none with (x := n) in E; [|exact N]. assert (key_eqb (n_key n) (n_key n) = true) by now apply key_eqb_eq. congruence.
Qed.
Theorem C87_all_points : forall cd f hs P r b fmt l c v c0 w r2 od hp res, trimmed_file cd f hs P r b fmt l c v c0 w -> lossless cd -> exact_region (h_scale (c_hdr (r_cfg r))) (h_offset (c_hdr (r_cfg r))) ->
  reader_on (file w) r2 -> visits_all od -> fle res f0 = true ->
  exists r3 x ps, returns (fun fuel => get_all_points cd fuel od hp res r2) r3 (Ok x) /\ has_points (c_hdr (r_cfg r)) x ps /\ Permutation ps (in_box b (flat_map P l)).
Proof.
  intros cd f hs P r b fmt l c v c0 w r2 od hp res T LS ER R2 VA RZ. pose proof T as (TF & SF & TR & SM & R255 & ST & LL). destruct (trim_written cd f hs P r b fmt l TF SF c v c0 w TR SM R255) as (lg & W & _).
  destruct (written_reader cd c0 _ lg w r2 W R2) as (hs2 & S2 & L2 & STN & _ & G2). pose proof (trim_unique cd f hs P r l TF) as UN. pose proof (trim_length (c_hdr (r_cfg r)) f P b l) as TC.
  destruct (used_header _ _ _ _ _ _ W (trim_storable cd f hs P r b l TF c0 w lg W ST) ltac:(lia) R2) as (F2 & RL2 & SC2 & OF2). pose proof (trim_header cd r b fmt l c v c0 w TR SM R255) as PH. destruct SM as (M1 & M2 & M3 & M4).
  set (Q := fun m : node => match under l (n_key m) with Some n => in_box b (P n) | None => [] end).
  assert (ON : forall m, stored_nodes hs2 m -> exists n, In n l /\ kept (c_hdr (r_cfg r)) b n = true /\ n_key n = n_key m).
  { intros m M. apply STN in M as (nd & p & V & _). destruct (trim_view_only cd f hs P r b l TF c0 w lg _ nd p W V) as (n & N & K & E & _). eauto. }
  assert (PL : plain_header (c_hdr (r_cfg r2))) by (unfold plain_header; rewrite F2, RL2, M1, M2; split; [apply PH|lia]).
  assert (RB : readable cd (c_hdr (r_cfg r2)) (file w) hs2 Q).
  { intros m M. destruct (ON m M) as (n & N & K & E). unfold Q. rewrite <- E, (under_in l n UN N). destruct (trimmed_node _ _ _ _ _ _ _ _ _ _ _ _ n r2 T LS ER R2 N K) as (lg' & nd & W' & V & _ & NP & _).
    destruct (written_reader cd c0 _ lg' w r2 W' R2) as (hs3 & S3 & L3 & STN3 & _ & G3). destruct (C32_find_added _ _ _ _ _ _ _ _ _ W' R2 V) as (r3 & E3). destruct (find_good _ _ _ hs2 S2 L2 (n_key n) r2 G2) as (r4 & o & E4 & _ & _ & A & _).
    unfold stored_nodes in M. rewrite <- E in M. rewrite (A m M) in E4. assert (m = mkNode (n_entry nd) (n_page n)) as ->; [|exact NP].
    destruct E3 as (n0 & E3), E4 as (n1 & E4). specialize (E3 (max n0 n1) ltac:(lia)). specialize (E4 (max n0 n1) ltac:(lia)). congruence. }
  destruct (deepest_exists (file w) _ _ hs2 S2) as (d & D). destruct (C48_depth (file w) hs2 od r2 res d S2 L2 VA R2 D) as (r1 & o & DR & B & _). rewrite (B RZ) in DR.
  destruct (all_points_good cd (file w) _ _ hs2 S2 L2 Q od hp res r2 r1 d VA G2 PL RB DR) as (r3 & x & ps & A & _ & _ & HP & (ns & (ND & X) & PM)). exists r3, x, ps. split; [exact A|]. split; [unfold has_points in *; rewrite F2, RL2, M1, M2 in HP; exact HP|].
  rewrite PM, in_box_all, (flat_keep _ (kept (c_hdr (r_cfg r)) b) l) by (intros n N K; exact (skipped_none cd f hs P r b l TF n N K)).
  set (g := fun k => match under l k with Some n => in_box b (P n) | None => [] end). transitivity (flat_map g (map n_key ns)); [rewrite flat_map_concat_map, flat_map_concat_map, map_map; reflexivity|].
  transitivity (flat_map g (map n_key (filter (kept (c_hdr (r_cfg r)) b) l))).
  - apply Permutation_flat_map. apply NoDup_Permutation; [exact ND|apply nodup_map; [|apply NoDup_filter, TF]; intros y z Y Z; apply filter_In in Y as (Y & _), Z as (Z & _); now apply UN|].
    intros k. split; intros I; apply in_map_iff in I as (m & <- & I).
    + apply X in I as (I & _). destruct (ON m I) as (n & N & K & E). rewrite <- E. apply in_map. now apply filter_In.
    + apply filter_In in I as (N & K). destruct (trim_view cd f hs P r b fmt l TF SF c v c0 w TR (conj M1 (conj M2 (conj M3 M4))) R255 lg m W N K) as (nd & op & V & _). pose proof (trimmed_key _ _ _ _ _ _ _ _ _ W R2 V) as NK.
      assert (NN : n_key (mkNode (n_entry nd) (n_page m)) = n_key m) by exact NK. assert (S : stored_nodes hs2 (mkNode (n_entry nd) (n_page m))) by (apply STN; exists nd, (n_page m); rewrite NN; auto). rewrite <- NN. apply in_map, X. split; [exact S|]. now apply D.
  - assert (SUB : forall n, In n (filter (kept (c_hdr (r_cfg r)) b) l) -> In n l) by (intros n I; now apply filter_In in I). clear - UN SUB. revert SUB. generalize (filter (kept (c_hdr (r_cfg r)) b) l). intros q SUB. induction q as [|n q IH]; [constructor|]. cbn [map flat_map]. unfold g at 1. rewrite (under_in l n UN (SUB n (or_introl eq_refl))). apply Permutation_app_head, IH. intros m M. apply SUB. now right.
Qed.
Print Assumptions C87_all_points.
Lemma perm_filter {A} (g : A -> bool) x y : Permutation x y -> Permutation (filter g x) (filter g y).
Proof. induction 1 as [|a x y _ IH|a c x|]; cbn [filter]; [constructor|destruct (g a); auto|destruct (g a), (g c); auto; constructor|etransitivity; eauto]. Qed.
Lemma either_config i j f r r' : open_reader i f = Ok r -> open_reader j f = Ok r' -> r_cfg r = r_cfg r'.
Proof.
  unfold open_reader. destruct (init_reader f) as [b| |]; cbn [bind]; try discriminate. destruct (_ || _); [discriminate|]. destruct (read_info _ f) as [n| |]; cbn [bind]; try discriminate. destruct (read_extents _ _ _ f) as [x| |]; cbn [bind]; try discriminate. destruct (config_of _ n x _ _) as [c| |]; cbn [bind]; try discriminate.
  assert (PROJ : forall q q' : reader, Ok q = Ok q' -> r_cfg q = r_cfg q') by (intros; congruence). intros A B. apply PROJ in A, B. rewrite <- A, <- B. reflexivity.
Qed.
Lemma same_file_config f hs r r' : copc_pages f hs -> Z.of_nat (length f) < 2 ^ 63 -> reader_on f r -> reader_on f r' -> r_cfg r = r_cfg r'.
Proof.
  intros S L A B. destruct (reader_cfg f hs r S L A) as (i & q & O & ->). destruct (reader_cfg f hs r' S L B) as (j & q' & O' & ->). eapply either_config; eauto.
Qed.
(* so a copy trimmed with all nodes of the source holds what GetPointsWithinBox gives for the source *)
Theorem C87_same_as_query : forall cd f hs P r b fmt l c v c0 w r1 r2 od od2 hp hp2 res res2, trimmed_file cd f hs P r b fmt l c v c0 w -> exactly l (stored_nodes hs) -> lossless cd -> exact_region (h_scale (c_hdr (r_cfg r))) (h_offset (c_hdr (r_cfg r))) ->
  reader_on f r1 -> reader_on (file w) r2 -> visits_all od -> visits_all od2 -> fle res f0 = true -> fle res2 f0 = true ->
  exists r3 x ps r4 y qs, returns (fun fuel => get_points_within_box cd b fuel od hp res r1) r3 (Ok x) /\ has_points (c_hdr (r_cfg r1)) x ps /\
    returns (fun fuel => get_all_points cd fuel od2 hp2 res2 r2) r4 (Ok y) /\ has_points (c_hdr (r_cfg r1)) y qs /\ Permutation ps qs.
Proof.
  intros cd f hs P r b fmt l c v c0 w r1 r2 od od2 hp hp2 res res2 T EX LS ER R1 R2 VA VA2 RZ RZ2. destruct (C87_all_points _ _ _ _ _ _ _ _ _ _ _ _ r2 od2 hp2 res2 T LS ER R2 VA2 RZ2) as (r4 & y & qs & A & HY & PY).
  pose proof T as (TF & SF & TR & SM & R255 & ST & LL). pose proof TF as (SR & FL & RO & ND & F). rewrite Forall_forall in F. pose proof (trim_header cd r b fmt l c v c0 w TR SM R255) as PH.
  assert (HH : r_cfg r1 = r_cfg r) by (eapply same_file_config; eassumption). pose proof (on_good f hs r1 SR FL R1) as G.
  destruct (deepest_exists f _ _ hs SR) as (d & D). destruct (C48_depth f hs od r1 res d SR FL VA R1 D) as (r5 & o & DR & B & _). rewrite (B RZ) in DR.
  assert (PL : plain_header (c_hdr (r_cfg r1))) by (rewrite HH; split; [apply PH|lia]).
  destruct (box_points_good cd f _ _ hs SR FL P b od hp res r1 r5 d VA G PL) as (r3 & x & ps & E & _ & _ & HX & (ns & (NX & X) & PM)).
  - intros n N. rewrite HH. destruct (F n (proj2 (proj2 EX n) N)) as (_ & C & WC & (data & CR & DD) & _). exists data. split; [|exact DD]. apply (chunk_holds cd f hs); auto; [lia|apply PH|apply PH].
  - intros n N. rewrite HH. apply (F n (proj2 (proj2 EX n) N)).
  - exact DR.
  - exists r3, x, (in_box b ps), r4, y, qs. split; [exact E|]. split; [exact HX|]. split; [exact A|]. split; [rewrite HH; exact HY|]. rewrite PY. apply perm_filter. rewrite PM. apply Permutation_flat_map. apply NoDup_Permutation; [now apply NoDup_map_inv in NX|exact ND|].
    intros n. rewrite X, (proj2 EX n). split; [tauto|]. intros N. split; [exact N|]. now apply D.
Qed.
Print Assumptions C87_same_as_query.
(* the loop and Close succeed when every node that crosses the box has a point in it *)
Theorem C87_succeeds : forall cd f hs P r b fmt l c v c0 w0, trims_from cd f hs P r l -> keeps_format (c_hdr (r_cfg r)) fmt -> exact_region (h_scale (c_hdr (r_cfg r))) (h_offset (c_hdr (r_cfg r))) -> Forall (fits cd (c_hdr (r_cfg r)) b P) l ->
  open_writer None c v = Ok w0 -> init_writer c v = Ok c0 -> ready c0 -> same_meaning (c_hdr (r_cfg r)) (c_hdr c0) -> h_reclen (c_hdr (r_cfg r)) <= 255 -> Z.of_nat (length (file w0)) + 2 ^ 31 * Z.of_nat (length l) < 2 ^ 63 ->
  exists w1, trim_nodes cd (c_hdr (r_cfg r)) b fmt l r w0 = (r, w1, Ok tt) /\
  forall wod w o, reorders wod -> Z.of_nat (length l) < 2 ^ 25 -> ordered_bounds (c_hdr c0) -> close cd wod w1 = (w, o) -> Z.of_nat (length (file w)) < 2 ^ 63 -> o = Ok tt /\ trimming cd b fmt l r c v c0 w.
Proof.
  intros cd f hs P r b fmt l c v c0 w0 TF SF ER FT O IW RD SM R255 SZ. pose proof TF as (SR & FL & RO & ND & F). destruct (open_inv _ _ _ _ O IW RD) as (C0 & _ & ST & BI & _).
  assert (PH : 6 <= h_fmt (c_hdr (r_cfg r)) <= 8 /\ las_base (h_fmt (c_hdr (r_cfg r))) <= h_reclen (c_hdr (r_cfg r)) <= 255) by (destruct (ready_header _ RD) as (A & B & _); destruct SM as (E1 & E2 & _); rewrite E1, E2 in *; lia).
  destruct (trim_succeeds cd f hs P r b fmt SR FL RO PH SF ER l w0) as (w1 & E & CF); [rewrite C0; exact SM|exact F| |apply BI|destruct BI as (_ & BD & _); unfold file; rewrite BD, app_length, zeros_length; lia|exact SZ|].
  { apply Forall_forall. intros n N. rewrite Forall_forall in F, FT. exact (fits_room cd f hs P r b PH ER n (F n N) (FT n N)). }
  exists w1. split; [exact E|]. intros wod w o RE LL OB CL F2. destruct (trim_run cd f hs P r b fmt SR FL RO PH SF l w0 r w1 F E) as (_ & (lg & R & OKS) & _). destruct (trim_ops_wf cd f hs P r b l SR F) as (WF & PO).
  assert (AD : all_defined lg) by (unfold all_defined; eapply Forall_impl; [|exact OKS]; intros x (n & ->); discriminate).
  assert (o = Ok tt) as ->; [|split; [reflexivity|exists w0, w1, r, wod; auto 10]]. pose proof (trim_length (c_hdr (r_cfg r)) f P b l) as TC.
  refine (ProofCount.close_succeeds cd wod c v c0 _ w0 w1 lg w o IW RD WF RE O R AD _ _ _ CL _); [|lia|rewrite CF, C0; exact OB|lia].
  intros op x p I T. apply (in_map fst) in I. rewrite (wrun_ops _ _ _ _ _ R AD) in I. apply trim_no_moves in I as (n & N & _ & _ & A). cbn [fst] in A. rewrite Forall_forall in F. assert (p = n_page n) as -> by (destruct op; cbn [target_page add_keys] in T, A; congruence). eapply page_octree; [exact SR|apply (F n N)].
Qed.
Print Assumptions C87_succeeds.

(* ---- three nodes: one inside the box, two across it; and two outside another box ---- *)
Definition trim_test (r : reader) (b : box) (fmt : option Z) (l : list node) (c : config) (v : overrides) (test : writer -> bool) : bool :=
  match open_writer None c v with
  | Ok w0 => match trim_nodes verbatim (c_hdr (r_cfg r)) b fmt l r w0 with
             | (_, w1, Ok tt) => match close verbatim plain w1 with (w, Ok tt) => (Z.of_nat (length (file w)) <? 2 ^ 63) && test w | _ => false end
             | _ => false end
  | _ => false end.
Lemma trim_test_ok r b fmt l c v c0 test : init_writer c v = Ok c0 -> ready c0 -> trim_test r b fmt l c v test = true -> exists w, trimming verbatim b fmt l r c v c0 w /\ test w = true.
Proof.
  intros IW RD H. unfold trim_test in H. destruct (open_writer None c v) as [w0| |] eqn:O; try discriminate. destruct (trim_nodes verbatim (c_hdr (r_cfg r)) b fmt l r w0) as ((r', w1), [[]| |]) eqn:E; try discriminate.
  destruct (close verbatim plain w1) as (w, [[]| |]) eqn:C; try discriminate. apply andb_prop in H as (L & T). apply Z.ltb_lt in L. exists w. split; [|exact T]. exists w0, w1, r', plain. split; [exact O|]. split; [exact IW|]. split; [exact RD|]. split; [apply plain_reorders|auto].
Qed.
Definition box_to (x0 y0 z0 x1 y1 z1 : Z) : box := mkBox (f64_of_Z x0) (f64_of_Z y0) (f64_of_Z z0) (f64_of_Z x1) (f64_of_Z y1) (f64_of_Z z1).
Definition wide_box : box := box_to 0 0 0 7 5 5.
Definition corner_box : box := box_to 5 5 5 8 8 8.
Definition bare_box : box := box_to 0 0 0 5 5 5.
(* number of points in the box, and how the node's cell lies *)
Definition cases (r : reader) (b : box) (l : list node) : list (Z * bool * bool) :=
  map (fun n => (Z.of_nat (length (in_box b (points_of (c_hdr (r_cfg r)) good_file n))), box_within (node_box (c_hdr (r_cfg r)) n) b, kept (c_hdr (r_cfg r)) b n)) l.
Lemma trim_runs : match open_reader true good_file with Ok r => trim_test r wide_box (Some 7) (node_list good_pages) round_config no_overrides (fun w => opens (file w)) && trim_test r corner_box None (node_list good_pages) round_config no_overrides (fun w => opens (file w)) | _ => false end = true.
Proof. vm_compute. reflexivity. Qed.
Lemma trim_cases : match open_reader true good_file with Ok r => Some (cases r wide_box (node_list good_pages), cases r corner_box (node_list good_pages), cases r bare_box (node_list good_pages)) | _ => None end =
  Some ([(1, false, true); (1, false, true); (3, true, true)], [(1, false, true); (0, false, false); (0, false, false)], [(1, false, true); (0, false, true); (3, true, true)]).
Proof. vm_compute. reflexivity. Qed.
Fixpoint distinct_b (l : list key) : bool := match l with [] => true | k :: l => forallb (fun q => negb (key_eqb k q)) l && distinct_b l end.
Lemma distinct_b_ok : forall l : list node, distinct_b (map n_key l) = true -> NoDup l.
Proof.
  induction l as [|n l IH]; intros H; [constructor|]. cbn [map distinct_b] in H. apply andb_prop in H as (A & B). constructor; [|now apply IH]. intros I. rewrite forallb_forall in A. apply (in_map n_key) in I. apply A in I. assert (Q : key_eqb (n_key n) (n_key n) = true) by now apply key_eqb_eq. now rewrite Q in I.
Qed.
Lemma good_distinct : distinct_b (map n_key (node_list good_pages)) = true.
Proof. vm_compute. reflexivity. Qed.
Lemma good_scale : match open_reader true good_file with Ok r => same_v (h_scale (c_hdr (r_cfg r))) unit_vec && same_v (h_offset (c_hdr (r_cfg r))) zero_vec && (h_fmt (c_hdr (r_cfg r)) =? 7) && (h_reclen (c_hdr (r_cfg r)) =? 48) | _ => false end = true.
Proof. vm_compute. reflexivity. Qed.
Lemma unit_exact : exact_region unit_vec zero_vec.
Proof.
  assert (H : exact_axis f1 f0).
  { destruct (f64_of_Z_exact 1) as (E1 & F1); [lia|]. destruct (f64_of_Z_exact 0) as (E2 & F2); [lia|]. assert (Q1 : f1 = f64_of_Z 1) by (apply same_f_eq; vm_compute; reflexivity). assert (Q2 : f0 = f64_of_Z 0) by (apply same_f_eq; vm_compute; reflexivity).
    rewrite Q1, Q2. unfold exact_axis. rewrite E1, E2. rewrite Rbasic_fun.Rabs_R0. rewrite (Rbasic_fun.Rabs_pos_eq (Rdefinitions.IZR 1)) by Lra.lra. split; [exact F1|]. split; [exact F2|]. 
    change (Rdefinitions.IZR 1) with (Flocq.Core.Raux.bpow Flocq.Core.Zaux.radix2 0). split; [apply Flocq.Core.Raux.bpow_le; lia|]. split; [apply Flocq.Core.Raux.bpow_le; lia|]. change (Flocq.Core.Raux.bpow Flocq.Core.Zaux.radix2 0) with (Rdefinitions.IZR 1). change (2 ^ 51)%Z with 2251799813685248%Z. Lra.lra. }
  split; [exact H|split; exact H].
Qed.
Lemma trim_source : exists r, open_reader true good_file = Ok r /\ trims_from verbatim good_file good_pages (points_of (c_hdr (r_cfg r)) good_file) r (node_list good_pages) /\ exactly (node_list good_pages) (stored_nodes good_pages) /\
  exact_region (h_scale (c_hdr (r_cfg r))) (h_offset (c_hdr (r_cfg r))) /\ h_fmt (c_hdr (r_cfg r)) = 7 /\ h_reclen (c_hdr (r_cfg r)) = 48.
Proof.
  destruct good_ok as (r & hb & S & L & O & R & PH & RD & HB & SV & _ & _ & WH). cbv zeta in *. pose proof all_held as AH. pose proof good_scale as GS. pose proof good_distinct as GD. rewrite O in AH, GS.
  apply andb_prop in GS as (GS & G4). apply andb_prop in GS as (GS & G3). apply andb_prop in GS as (G1 & G2). apply same_v_eq in G1, G2. apply Z.eqb_eq in G3, G4. pose proof (distinct_b_ok _ GD) as ND.
  assert (IN : forall n, In n (node_list good_pages) -> stored_nodes good_pages n) by (intros n I; apply node_list_in_rev; [vm_compute; reflexivity|exact I]).
  assert (CP : forallb (fun n => 0 <? e_count (n_entry n)) (node_list good_pages) = true) by (vm_compute; reflexivity).
  exists r. split; [exact O|]. split; [|split; [|split; [rewrite G1, G2; exact unit_exact|auto]]].
  - split; [exact S|]. split; [exact L|]. split; [exact R|]. split; [exact ND|]. revert IN AH CP. generalize (node_list good_pages). intros l IN AH CP. apply Forall_forall. intros n I. specialize (IN n I). rewrite forallb_forall in AH, CP. specialize (AH n I). specialize (CP n I). apply Z.ltb_lt in CP.
    split; [exact IN|]. split; [exact CP|]. split; [now apply WH|]. split; [|destruct (SV n IN) as (_ & Q); eapply Forall_impl; [|exact Q]; intros p (X & _); exact X].
    pose proof (holds_b_ok _ _ _ AH) as CR. destruct (RD n IN) as (data & H & D). assert (data = firstn (Z.to_nat (e_count (n_entry n) * h_reclen (c_hdr (r_cfg r)))) (chunk_in good_file n)) as ->; [|eauto].
    assert (H2 : holds_records verbatim (c_hdr (r_cfg r)) good_file n (firstn (Z.to_nat (e_count (n_entry n) * h_reclen (c_hdr (r_cfg r)))) (chunk_in good_file n))) by (apply (chunk_holds verbatim good_file good_pages n); [exact S|exact IN|now apply WH|lia|rewrite G3; lia|rewrite G3, G4; cbn; lia|exact CR]).
    destruct H as (_ & _ & _ & _ & _ & _ & H), H2 as (_ & _ & _ & _ & _ & _ & H2). specialize (H CP). specialize (H2 CP). congruence.
  - split; [|intros n; split; [apply IN|apply node_list_in]]. revert GD. clear. generalize (node_list good_pages). intros l. induction l as [|n l IH]; cbn [map distinct_b]; intros H; [constructor|]. apply andb_prop in H as (A & B). constructor; [|now apply IH]. intros I. rewrite forallb_forall in A. apply A in I. assert (Q : key_eqb (n_key n) (n_key n) = true) by now apply key_eqb_eq. now rewrite Q in I.
Qed.
Example C87_nonvacuous : exists cd f hs P r l c0 w w' r2 r2', lossless cd /\ trimmed_file cd f hs P r wide_box (Some 7) l c0 no_overrides c0 w /\ trimmed_file cd f hs P r corner_box None l c0 no_overrides c0 w' /\ exactly l (stored_nodes hs) /\
  exact_region (h_scale (c_hdr (r_cfg r))) (h_offset (c_hdr (r_cfg r))) /\ reader_on (file w) r2 /\ reader_on (file w') r2' /\
  map (fun n => (Z.of_nat (length (in_box wide_box (P n))), box_within (node_box (c_hdr (r_cfg r)) n) wide_box, kept (c_hdr (r_cfg r)) wide_box n)) l = [(1, false, true); (1, false, true); (3, true, true)] /\
  map (fun n => (Z.of_nat (length (in_box corner_box (P n))), box_within (node_box (c_hdr (r_cfg r)) n) corner_box, kept (c_hdr (r_cfg r)) corner_box n)) l = [(1, false, true); (0, false, false); (0, false, false)].
Proof.
  destruct trim_source as (r & O & TF & EX & ER & F7 & R48). pose proof trim_runs as K. pose proof same_headers as SH. pose proof trim_cases as TC. rewrite O in K, SH, TC. destruct round_config_ok as (RD & IW). destruct round_storable as (ST & RL). pose proof good_length as GL. unfold cases in TC.
  revert TF EX K SH TC RD IW ST RL GL. generalize (node_list good_pages) round_config. intros l c TF EX K SH TC RD IW ST RL GL. apply andb_prop in K as (K1 & K2). apply same_meaning_b_ok in SH.
  destruct (trim_test_ok _ _ _ _ _ _ _ _ IW RD K1) as (w & T1 & OP1). destruct (trim_test_ok _ _ _ _ _ _ _ _ IW RD K2) as (w' & T2 & OP2). apply opens_ok in OP1 as (r2 & _ & R2), OP2 as (r3 & _ & R3).
  exists verbatim, good_file, good_pages, (points_of (c_hdr (r_cfg r)) good_file), r, l, c, w, w', r2, r3. split; [exact verbatim_lossless|].
  split; [split; [exact TF|split; [right; now rewrite F7|split; [exact T1|split; [exact SH|split; [lia|split; [exact ST|rewrite GL; lia]]]]]]|].
  split; [split; [exact TF|split; [now left|split; [exact T2|split; [exact SH|split; [lia|split; [exact ST|rewrite GL; lia]]]]]]|].
  split; [exact EX|]. split; [exact ER|]. split; [exact R2|]. split; [exact R3|]. split; congruence.
Qed.
(* "trimming always succeeds": a node may cross the box and have no point in it; the loop then ends with an exception *)
Theorem C87_empty_crossing_refuted : exists cd f hs P r b fmt l c v c0 w0 r' w1 n, lossless cd /\ trims_from cd f hs P r l /\ keeps_format (c_hdr (r_cfg r)) fmt /\ exact_region (h_scale (c_hdr (r_cfg r))) (h_offset (c_hdr (r_cfg r))) /\
  open_writer None c v = Ok w0 /\ init_writer c v = Ok c0 /\ ready c0 /\ same_meaning (c_hdr (r_cfg r)) (c_hdr c0) /\ h_reclen (c_hdr (r_cfg r)) <= 255 /\
  In n l /\ box_intersects (node_box (c_hdr (r_cfg r)) n) b = true /\ in_box b (P n) = [] /\ trim_nodes cd (c_hdr (r_cfg r)) b fmt l r w0 = (r', w1, Throw).
Proof.
  destruct trim_source as (r & O & TF & EX & ER & F7 & R48). pose proof same_headers as SH. pose proof trim_cases as TC. rewrite O in SH, TC. destruct round_config_ok as (RD & IW). pose proof good_length as GL. unfold cases in TC.
  assert (K : match open_reader true good_file with Ok r => match open_writer None round_config no_overrides with Ok w0 => match trim_nodes verbatim (c_hdr (r_cfg r)) bare_box (Some 7) (node_list good_pages) r w0 with (_, _, Throw) => true | _ => false end | _ => false end | _ => false end = true) by (vm_compute; reflexivity). rewrite O in K.
  revert TF EX K SH TC RD IW GL. generalize (node_list good_pages) round_config. intros l c TF EX K SH TC RD IW GL. apply same_meaning_b_ok in SH. destruct (open_writer None c no_overrides) as [w0| |] eqn:OW; try discriminate K.
  destruct (trim_nodes verbatim (c_hdr (r_cfg r)) bare_box (Some 7) l r w0) as ((r', w1), [| |]) eqn:E; try discriminate K.
  destruct l as [|n0 [|n [|n2 [|? ?]]]]; cbn [length] in GL; try discriminate GL. assert (CS : map (fun n => (Z.of_nat (length (in_box bare_box (points_of (c_hdr (r_cfg r)) good_file n))), box_within (node_box (c_hdr (r_cfg r)) n) bare_box, kept (c_hdr (r_cfg r)) bare_box n)) [n0; n; n2] = [(1, false, true); (0, false, true); (3, true, true)]) by congruence. cbn [map] in CS.
  assert (C1 : Z.of_nat (length (in_box bare_box (points_of (c_hdr (r_cfg r)) good_file n))) = 0) by congruence. assert (C2 : box_within (node_box (c_hdr (r_cfg r)) n) bare_box = false) by congruence. assert (C3 : kept (c_hdr (r_cfg r)) bare_box n = true) by congruence.
  exists verbatim, good_file, good_pages, (points_of (c_hdr (r_cfg r)) good_file), r, bare_box, (Some 7), [n0; n; n2], c, no_overrides, c, w0, r', w1, n. split; [exact verbatim_lossless|]. split; [exact TF|]. split; [right; now rewrite F7|]. split; [exact ER|]. split; [exact OW|]. split; [exact IW|]. split; [exact RD|]. split; [exact SH|]. split; [lia|].
  split; [right; now left|]. unfold kept in C3. rewrite C2 in C3. split; [exact C3|]. split; [|exact E]. apply length_zero_iff_nil. clear - C1. lia.
Qed.
Print Assumptions C87_empty_crossing_refuted.
