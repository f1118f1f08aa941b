(* PropOrder.v - C86: the order in which nodes are added does not matter *)
From Coq Require Import Permutation.
From Verif Require Import Base BaseFacts ModelFloat ModelKey ModelGeom ModelEntry ModelPoint ModelPoints ModelHeader ModelVlr ModelExtents ModelConfig
  ModelStream ModelWriter ModelReader SpecKey SpecPoint SpecPoints SpecConfig SpecHeader SpecWriter SpecHier SpecFile SpecReader SpecData SpecRound SpecCopy SpecOrder
  ProofKey ProofStream ProofConfig ProofWriter ProofWriter2 ProofWriter4 ProofClose2 ProofSession ProofResults ProofReject ProofCount ProofRound ProofMp3 ProofData ProofData2 ProofOrder SampleWriter SampleReader PropWriter PropReader PropRound PropMp2.
Open Scope Z_scope.

(* a session that adds every node at most once leaves no doubt about where the nodes are *)
Theorem C86_settled : forall cd od c v c0 ops l w, complete_session cd od c v c0 ops l w -> once_each ops -> Forall positive ops -> Z.of_nat (length (file w)) < 2 ^ 63 -> written cd c0 ops l w.
Proof. intros cd od c v c0 ops l w S OE P F. split; [eauto|]. split; [eapply once_settled; eauto|]. auto. Qed.
Print Assumptions C86_settled.
(* the same calls are accepted, with nodes of the same key, page, point count and size *)
Theorem C86_accepted : forall cd c0 ops l w ops' l' w' op n, written cd c0 ops l w -> written cd c0 ops' l' w' -> rearranged ops ops' -> In (op, Ok (Some n)) l ->
  exists n', In (op, Ok (Some n')) l' /\ shape n' = shape n.
Proof. intros cd c0 ops l w ops' l' w' op n W W' (P & _) I. destruct (accepted_elsewhere _ _ _ _ _ _ _ _ _ _ W W' P I) as (n' & J & S & _). eauto. Qed.
Print Assumptions C86_accepted.
(* FindNode answers alike for every key, present or not *)
Theorem C86_find : forall cd c0 ops l w ops' l' w' k r1 r2, written cd c0 ops l w -> written cd c0 ops' l' w' -> rearranged ops ops' -> once_each ops -> reader_on (file w) r1 -> reader_on (file w') r2 ->
  exists r1' r2' n n', returns (fun fuel => find_node fuel k r1) r1' (Ok n) /\ returns (fun fuel => find_node fuel k r2) r2' (Ok n') /\ shape n' = shape n.
Proof.
  intros cd c0 ops l w ops' l' w' k r1 r2 W W' (P & _) OE R1 R2. destruct (view_of l k) as [(n, p)|] eqn:V.
  - destruct (view_elsewhere _ _ _ _ _ _ _ _ _ _ _ W W' P OE V) as (n' & op & V' & S & _). destruct (C32_find_added _ _ _ _ _ _ _ _ _ W R1 V) as (r1' & E1). destruct (C32_find_added _ _ _ _ _ _ _ _ _ W' R2 V') as (r2' & E2).
    exists r1', r2', (mkNode (n_entry n) p), (mkNode (n_entry n') p). split; [exact E1|]. split; [exact E2|]. unfold shape, n_key in *. cbn [n_entry n_page]. congruence.
  - pose proof (view_none_elsewhere _ _ _ _ _ _ _ _ _ W W' P OE V) as V'. destruct (C32_find_absent _ _ _ _ _ _ _ W R1 V) as (r1' & E1). destruct (C32_find_absent _ _ _ _ _ _ _ W' R2 V') as (r2' & E2). exists r1', r2', invalid_node, invalid_node. auto.
Qed.
Print Assumptions C86_find.
(* GetAllNodes returns the same nodes, GetPageList the same pages *)
Theorem C86_all_nodes : forall cd c0 ops l w ops' l' w' r1 r2 od od', written cd c0 ops l w -> written cd c0 ops' l' w' -> rearranged ops ops' -> once_each ops -> reader_on (file w) r1 -> reader_on (file w') r2 -> visits_all od -> visits_all od' ->
  exists r1' r2' ns ns', returns (fun fuel => get_all_nodes fuel od r1) r1' (Ok ns) /\ returns (fun fuel => get_all_nodes fuel od' r2) r2' (Ok ns') /\ Permutation (map shape ns) (map shape ns').
Proof.
  intros cd c0 ops l w ops' l' w' r1 r2 od od' W W' (P & _) OE R1 R2 VA VA'. destruct (C33_all_nodes _ _ _ _ _ _ _ W R1 VA) as (r1' & ns & E1 & N1 & X1). destruct (C33_all_nodes _ _ _ _ _ _ _ W' R2 VA') as (r2' & ns' & E2 & N2 & X2).
  exists r1', r2', ns, ns'. split; [exact E1|]. split; [exact E2|].
  assert (ND : forall a lg, NoDup a -> (forall n, In n a <-> exists m p, view_of lg (n_key n) = Some (m, p) /\ n = mkNode (n_entry m) p) -> NoDup (map shape a)).
  { clear. intros a lg N X. apply nodup_map; [|exact N]. intros x y I J Q. apply X in I as (m & p & V & ->). apply X in J as (m' & p' & V' & ->). unfold shape in Q. cbn [n_key n_entry n_page] in *.
    injection Q as K _ _ _. unfold n_key in *. cbn [n_entry] in *. rewrite K in V. congruence. }
  apply NoDup_Permutation; [exact (ND ns l (NoDup_map_inv _ _ N1) X1)|exact (ND ns' l' (NoDup_map_inv _ _ N2) X2)|]. intros s.
  assert (HALF : forall o l1 w1 o' l2 w2 a b, written cd c0 o l1 w1 -> written cd c0 o' l2 w2 -> Permutation o o' -> once_each o -> (forall n, In n a <-> exists m p, view_of l1 (n_key n) = Some (m, p) /\ n = mkNode (n_entry m) p) -> (forall n, In n b <-> exists m p, view_of l2 (n_key n) = Some (m, p) /\ n = mkNode (n_entry m) p) -> In s (map shape a) -> In s (map shape b)).
  { clear. intros o l1 w1 o' l2 w2 a b W W' P OE X1 X2 I. apply in_map_iff in I as (n & <- & I). apply X1 in I as (m & p & V & ->). destruct (view_elsewhere _ _ _ _ _ _ _ _ _ _ _ W W' P OE V) as (m' & op & V' & S & _). unfold n_key in V'. cbn [n_entry] in V'.
    apply in_map_iff. exists (mkNode (n_entry m') p). unfold shape, n_key in *. cbn [n_entry n_page]. injection S as K _ C Z. split; [congruence|]. apply X2. exists m', p. unfold n_key. cbn [n_entry]. rewrite K. auto. }
  split; [eapply (HALF ops l w ops' l' w')|eapply (HALF ops' l' w' ops l w)]; eauto; [now apply Permutation_sym|eapply once_perm; eauto].
Qed.
Print Assumptions C86_all_nodes.
Theorem C86_page_list : forall cd c0 ops l w ops' l' w' r1 r2 od od', written cd c0 ops l w -> written cd c0 ops' l' w' -> rearranged ops ops' -> once_each ops -> reader_on (file w) r1 -> reader_on (file w') r2 -> visits_all od -> visits_all od' ->
  exists r1' r2' ks ks', returns (fun fuel => get_page_list fuel od r1) r1' (Ok ks) /\ returns (fun fuel => get_page_list fuel od' r2) r2' (Ok ks') /\ Permutation ks ks'.
Proof.
  intros cd c0 ops l w ops' l' w' r1 r2 od od' W W' (P & _) OE R1 R2 VA VA'. destruct (C33_page_list _ _ _ _ _ _ _ W R1 VA) as (r1' & ks & E1 & N1 & X1). destruct (C33_page_list _ _ _ _ _ _ _ W' R2 VA') as (r2' & ks' & E2 & N2 & X2).
  exists r1', r2', ks, ks'. split; [exact E1|]. split; [exact E2|]. apply NoDup_Permutation; auto. intros p. rewrite X1, X2. unfold page_of_view.
  split; (intros [->|(k & n & V)]; [now left|right]).
  - destruct (view_elsewhere _ _ _ _ _ _ _ _ _ _ _ W W' P OE V) as (n' & op & V' & _). eauto.
  - destruct (view_elsewhere _ _ _ _ _ _ _ _ _ _ _ W' W (Permutation_sym P) (once_perm _ _ P OE) V) as (n' & op & V' & _). eauto.
Qed.
Print Assumptions C86_page_list.
(* the compressed bytes of every key are the same *)
Theorem C86_compressed : forall cd c0 ops l w ops' l' w' k r1 r2, written cd c0 ops l w -> written cd c0 ops' l' w' -> rearranged ops ops' -> once_each ops -> reader_on (file w) r1 -> reader_on (file w') r2 ->
  exists r1' r2' data, returns (fun fuel => get_compressed fuel k r1) r1' (Ok data) /\ returns (fun fuel => get_compressed fuel k r2) r2' (Ok data).
Proof.
  intros cd c0 ops l w ops' l' w' k r1 r2 W W' (P & _) OE R1 R2. destruct (view_of l k) as [(n, p)|] eqn:V.
  - destruct (view_elsewhere _ _ _ _ _ _ _ _ _ _ _ W W' P OE V) as (n' & op & V' & S & K & I & I'). destruct (C34_compressed _ _ _ _ _ _ _ _ _ _ W R1 V I) as (r1' & x & c & CO & E1). destruct (C34_compressed _ _ _ _ _ _ _ _ _ _ W' R2 V' I') as (r2' & x' & c' & CO' & E2).
    assert (x' = x) as -> by congruence. eauto.
  - pose proof (view_none_elsewhere _ _ _ _ _ _ _ _ _ W W' P OE V) as V'. destruct (absent_compressed _ _ _ _ _ _ _ W R1 V) as (r1' & E1). destruct (absent_compressed _ _ _ _ _ _ _ W' R2 V') as (r2' & E2). eauto.
Qed.
Print Assumptions C86_compressed.
(* and so are its records, whenever the codec gives back what was compressed *)
Theorem C86_records : forall cd c0 ops l w ops' l' w' k r1 r2, lossless cd -> written cd c0 ops l w -> written cd c0 ops' l' w' -> rearranged ops ops' -> once_each ops -> storable (w_cfg w) -> Z.of_nat (length ops) < 2 ^ 32 - 2 -> h_reclen (c_hdr c0) <= 255 ->
  (forall op p, In op ops -> add_keys op = Some (k, p) -> exists data, stores_records cd (c_hdr c0) op data /\ wf_bytes data) -> reader_on (file w) r1 -> reader_on (file w') r2 ->
  exists r1' r2' data, returns (fun fuel => get_point_data cd fuel k r1) r1' (Ok data) /\ returns (fun fuel => get_point_data cd fuel k r2) r2' (Ok data).
Proof.
  intros cd c0 ops l w ops' l' w' k r1 r2 LS W W' RA OE SB N R255 SR R1 R2. destruct (same_end _ _ _ _ _ _ _ _ W W' RA OE) as (H1 & H2 & H3 & H4 & _). destruct RA as (P & _).
  assert (SB' : storable (w_cfg w')) by (unfold storable; rewrite H1, H2, H3, H4; exact SB). assert (N' : Z.of_nat (length ops') < 2 ^ 32 - 2) by (rewrite <- (Permutation_length P); exact N). destruct (view_of l k) as [(n, p)|] eqn:V.
  - destruct (view_elsewhere _ _ _ _ _ _ _ _ _ _ _ W W' P OE V) as (n' & op & V' & S & K & I & I').
    assert (J : In op ops). { destruct W as ((od & c & v & CS) & _). rewrite <- (session_ops _ _ _ _ _ _ _ _ CS). apply (in_map fst) in I. exact I. } destruct (SR op p J K) as (data & D & WB).
    destruct (C34_records _ _ _ _ _ _ _ _ _ _ data LS W SB N R1 V I D WB R255) as (r1' & E1). destruct (C34_records _ _ _ _ _ _ _ _ _ _ data LS W' SB' N' R2 V' I' D WB R255) as (r2' & E2). eauto.
  - pose proof (view_none_elsewhere _ _ _ _ _ _ _ _ _ W W' P OE V) as V'. destruct (C34_absent _ _ _ _ _ _ _ [] W SB N R1 V) as (_ & (r1' & E1) & _). destruct (C34_absent _ _ _ _ _ _ _ [] W' SB' N' R2 V') as (_ & (r2' & E2) & _). eauto.
Qed.
Print Assumptions C86_records.
(* GetPoints returns points with the same attributes and coordinates *)
Theorem C86_points : forall cd c0 ops l w ops' l' w' k r1 r2 hp hp', lossless cd -> written cd c0 ops l w -> written cd c0 ops' l' w' -> rearranged ops ops' -> once_each ops -> storable (w_cfg w) -> Z.of_nat (length ops) < 2 ^ 32 - 2 -> h_reclen (c_hdr c0) <= 255 ->
  (forall op p, In op ops -> add_keys op = Some (k, p) -> exists data, stores_records cd (c_hdr c0) op data /\ wf_bytes data) -> reader_on (file w) r1 -> reader_on (file w') r2 ->
  exists r1' r2' x y ps, returns (fun fuel => get_points cd fuel hp k r1) r1' (Ok x) /\ returns (fun fuel => get_points cd fuel hp' k r2) r2' (Ok y) /\ has_points (c_hdr c0) x ps /\ has_points (c_hdr c0) y ps.
Proof.
  intros cd c0 ops l w ops' l' w' k r1 r2 hp hp' LS W W' RA OE SB N R255 SR R1 R2. destruct (same_end _ _ _ _ _ _ _ _ W W' RA OE) as (H1 & H2 & H3 & H4 & _). destruct RA as (P & _).
  assert (SB' : storable (w_cfg w')) by (unfold storable; rewrite H1, H2, H3, H4; exact SB). assert (N' : Z.of_nat (length ops') < 2 ^ 32 - 2) by (rewrite <- (Permutation_length P); exact N). destruct (view_of l k) as [(n, p)|] eqn:V.
  - destruct (view_elsewhere _ _ _ _ _ _ _ _ _ _ _ W W' P OE V) as (n' & op & V' & S & K & I & I'). destruct (W) as ((od & c & v & CS) & _).
    assert (J : In op ops) by (rewrite <- (session_ops _ _ _ _ _ _ _ _ CS); apply (in_map fst) in I; exact I). destruct (SR op p J K) as (data & D & WB).
    destruct (C34_points_of_records _ _ _ _ _ _ _ _ _ _ data hp LS W SB N R1 V I D WB R255) as (r1' & x & ps & E1 & X & D1). destruct (C34_points_of_records _ _ _ _ _ _ _ _ _ _ data hp' LS W' SB' N' R2 V' I' D WB R255) as (r2' & y & qs & E2 & Y & D2).
    assert (qs = ps) as ->. { eapply decodes_unique; [|exact D2|exact D1]. destruct (ready_base _ _ _ _ _ _ _ _ CS) as (_ & RB). pose proof (ProofPoint.las_base_range (h_fmt (c_hdr c0))). lia. }
    exists r1', r2', x, y, ps. auto.
  - pose proof (view_none_elsewhere _ _ _ _ _ _ _ _ _ W W' P OE V) as V'. destruct (C34_absent _ _ _ _ _ _ _ hp W SB N R1 V) as (_ & _ & r1' & x & E1 & X). destruct (C34_absent _ _ _ _ _ _ _ hp' W' SB' N' R2 V') as (_ & _ & r2' & y & E2 & Y). exists r1', r2', x, y, []. auto.
Qed.
Print Assumptions C86_points.
(* both files carry the same configuration and point count *)
Theorem C86_configuration : forall cd c0 ops l w ops' l' w' r1 r2, written cd c0 ops l w -> written cd c0 ops' l' w' -> rearranged ops ops' -> once_each ops -> storable (w_cfg w) -> Z.of_nat (length ops) < 2 ^ 32 - 2 -> reader_on (file w) r1 -> reader_on (file w') r2 ->
  c_wkt (r_cfg r2) = c_wkt (r_cfg r1) /\ c_ebs (r_cfg r2) = c_ebs (r_cfg r1) /\ c_exts (r_cfg r2) = c_exts (r_cfg r1) /\ same_cube (c_info (r_cfg r1)) (c_info (r_cfg r2)) /\ alike (c_hdr (r_cfg r1)) (c_hdr (r_cfg r2)) /\
  (chunks_fit cd (c_hdr c0) ops -> h_pcount (c_hdr (r_cfg r2)) = h_pcount (c_hdr (r_cfg r1)) /\ h_poff (c_hdr (r_cfg r2)) = h_poff (c_hdr (r_cfg r1))).
Proof.
  intros cd c0 ops l w ops' l' w' r1 r2 W W' RA OE SB N R1 R2. destruct (same_end _ _ _ _ _ _ _ _ W W' RA OE) as (H1 & H2 & H3 & H4 & H5). destruct RA as (P & _).
  assert (SB' : storable (w_cfg w')) by (unfold storable; rewrite H1, H2, H3, H4; exact SB). assert (N' : Z.of_nat (length ops') < 2 ^ 32 - 2) by (rewrite <- (Permutation_length P); exact N).
  destruct (used_config _ _ _ _ _ _ W SB N R1) as ((A1 & A2 & A3 & (X1 & X2 & X3) & A5) & D1 & _). destruct (used_config _ _ _ _ _ _ W' SB' N' R2) as ((B1 & B2 & B3 & (Y1 & Y2 & Y3) & B5) & D2 & _).
  split; [congruence|]. split; [congruence|]. split; [rewrite H4 in *; apply exts_ext; congruence|]. split; [rewrite A3, B3; exact H5|].
  split; [rewrite H1 in B5; unfold same_settings in A5, B5; unfold alike; intuition congruence|]. intros FIT.
  assert (FIT' : chunks_fit cd (c_hdr c0) ops') by (intros op b n I; apply FIT; eapply Permutation_in; [apply Permutation_sym; exact P|exact I]).
  destruct D1 as (-> & -> & _). destruct D2 as (-> & -> & _). pose proof (same_chunks _ _ _ _ _ _ _ _ W W' P) as PC. destruct W as ((od & c & v & S) & _). destruct W' as ((od' & c' & v' & S') & _).
  destruct (tiling _ _ _ _ _ _ _ _ S FIT) as (T1 & _ & _ & _ & _ & T2). destruct (tiling _ _ _ _ _ _ _ _ S' FIT') as (T1' & _ & _ & _ & _ & T2'). cbv zeta in *. rewrite T1, T1', T2, T2', (total_perm _ _ PC). auto.
Qed.
Print Assumptions C86_configuration.

(* three nodes, a rejected call and two configuration changes, in two orders *)
Definition order_a : list wop := [WAdd k0 (repeat 5 96) k0; WSetHeader round_header; WAddCompressed k1 (repeat 9 96) 2 k0; WAddPoints k2 round_points (mkPoints 7 48 [1; 0; 1]%nat) k1; WSetExtent 0 (mkExt (f64_of_Z (-3)) (f64_of_Z 5) (f64_of_Z 2) (f64_of_Z 7)); WAdd k2' (repeat 3 5) k1].
Definition order_b : list wop := [WAdd k2' (repeat 3 5) k1; WAddPoints k2 round_points (mkPoints 7 48 [1; 0; 1]%nat) k1; WSetHeader round_header; WSetExtent 0 (mkExt (f64_of_Z (-3)) (f64_of_Z 5) (f64_of_Z 2) (f64_of_Z 7)); WAddCompressed k1 (repeat 9 96) 2 k0; WAdd k0 (repeat 5 96) k0].
Lemma orders_ok : rearranged order_a order_b /\ once_each order_a /\ Forall wf_op order_a /\ Forall wf_op order_b /\ Forall positive order_a /\ Forall positive order_b.
Proof.
  split; [split; [|reflexivity]|].
  - unfold order_a, order_b. set (a := WAdd k0 _ _). set (b := WSetHeader _). set (c := WAddCompressed _ _ _ _). set (d := WAddPoints _ _ _ _). set (e := WSetExtent _ _). set (g := WAdd k2' _ _).
    apply (Permutation_trans (l' := [g; a; b; c; d; e])); [apply Permutation_sym, (Permutation_cons_append [a; b; c; d; e] g)|]. constructor. apply (Permutation_trans (l' := [d; a; b; c; e])); [apply Permutation_sym, (Permutation_middle [a; b; c] [e] d)|]. constructor.
    apply (Permutation_trans (l' := [b; c; e; a])); [apply (Permutation_cons_append [b; c; e] a)|]. constructor. apply perm_swap.
  - split; [split; [intros k p I; repeat (destruct I as [I|I]; [discriminate I|]); exact I|]|].
    + cbn. repeat (constructor; [cbn; intros I; repeat (destruct I as [I|I]; [discriminate I|]); exact I|]). constructor.
    + unfold order_a, order_b; repeat split; repeat constructor; cbn; try lia; try (intros; discriminate).
Qed.
Lemma fits_b cd h op b n : chunk_of cd h op = Some (b, n) -> match chunk_of cd h op with Some (x, _) => Z.of_nat (length x) <=? INT32_MAX | None => true end = true -> Z.of_nat (length b) <= INT32_MAX.
Proof. intros -> H. now apply Z.leb_le. Qed.
Example C86_nonvacuous : exists l w r l' w' r' n n', written verbatim round_config order_a l w /\ written verbatim round_config order_b l' w' /\ rearranged order_a order_b /\ once_each order_a /\ storable (w_cfg w) /\ chunks_fit verbatim (c_hdr round_config) order_a /\
  reader_on (file w) r /\ reader_on (file w') r' /\ view_of l k1 = Some (n, k0) /\ view_of l' k1 = Some (n', k0) /\ e_offset (n_entry n) <> e_offset (n_entry n').
Proof.
  destruct orders_ok as (RA & OE & WA & WB & PA & PB). destruct round_config_ok as (RD & I). set (at_ := fun (l : log) (t : Z -> bool) => match view_of l k1 with Some (n, p) => key_eqb p k0 && t (e_offset (n_entry n)) | None => false end).
  destruct (check_with_ok round_config reversed order_a (fun l w => storable_b (w_cfg w) && opens (file w) && at_ l (fun o => o =? 1729))) as (l & w & S & L & M & T); [exact RD|exact I|apply reversed_reorders|exact WA|vm_compute; reflexivity|].
  destruct (check_with_ok round_config plain order_b (fun l w => opens (file w) && at_ l (fun o => negb (o =? 1729)))) as (l' & w' & S' & L' & M' & T'); [exact RD|exact I|apply plain_reorders|exact WB|vm_compute; reflexivity|].
  apply andb_prop in T as (T & T3). apply andb_prop in T as (T1 & T2). apply andb_prop in T' as (T2' & T3'). apply storable_b_ok in T1. apply opens_ok in T2 as (r & _ & R). apply opens_ok in T2' as (r' & _ & R').
  subst at_. cbv beta in T3, T3'. destruct (view_of l k1) as [(n, p)|] eqn:V; [|discriminate]. destruct (view_of l' k1) as [(n', p')|] eqn:V'; [|discriminate]. apply andb_prop in T3 as (P1 & O1). apply andb_prop in T3' as (P2 & O2). apply key_eqb_eq in P1, P2. subst p p'. apply Z.eqb_eq in O1.
  exists l, w, r, l', w', r', n, n'. split; [eapply C86_settled; eauto|]. split; [eapply C86_settled; eauto; eapply once_perm; [apply RA|exact OE]|]. split; [exact RA|]. split; [exact OE|]. split; [exact T1|]. split; [|split; [exact R|split; [exact R'|split; [exact V|split; [exact V'|]]]]].
  - intros op b m J C. repeat (destruct J as [<-|J]; [apply fits_b in C; [exact C|vm_compute; reflexivity]|]). destruct J.
  - intros Q. rewrite <- Q, O1, Z.eqb_refl in O2. discriminate.
Qed.
(* with a key added twice the order does matter: the later call wins *)
Theorem C86_repeated_key_refuted : exists ops ops' l w l' w' k r r' d d' q q', written verbatim round_config ops l w /\ written verbatim round_config ops' l' w' /\ rearranged ops ops' /\ reader_on (file w) r /\ reader_on (file w') r' /\
  returns (fun fuel => get_compressed fuel k r) q (Ok d) /\ returns (fun fuel => get_compressed fuel k r') q' (Ok d') /\ d <> d'.
Proof.
  set (a := WAddCompressed k1 [1; 2; 3] 1 k0). set (b := WAddCompressed k1 [4; 5] 1 k0). destruct round_config_ok as (RD & I).
  assert (RUN : forall x y, x = a \/ x = b -> y = a \/ y = b -> check_with round_config plain [x; y] (fun l w => settled_b (fun _ => None) l && opens (file w) && match l with [_; (_, Ok (Some n))] => match view_of l k1 with Some (m, p) => same_node m n && key_eqb p k0 | None => false end | _ => false end) = true ->
    exists l w r q n d, written verbatim round_config [x; y] l w /\ reader_on (file w) r /\ chunk_of verbatim (c_hdr round_config) y = Some (d, n) /\ returns (fun fuel => get_compressed fuel k1 r) q (Ok d)).
  { intros x y X Y T. assert (WF : Forall wf_op [x; y] /\ Forall positive [x; y]) by (destruct X as [-> | ->], Y as [-> | ->]; split; repeat constructor; cbn; lia). destruct WF as (WF & PO).
    destruct (check_with_ok round_config plain [x; y] _ RD I plain_reorders WF T) as (l & w & S & L & M & T'). apply andb_prop in T' as (T' & T3). apply andb_prop in T' as (T1 & T2). apply settled_b_ok in T1. apply opens_ok in T2 as (r & _ & R).
    destruct l as [|x1 [|(y1, [[n|]| |]) [|? ?]]]; try discriminate. set (l := [x1; (y1, Ok (Some n))]) in *. destruct (view_of l k1) as [(m, p)|] eqn:V; [|discriminate]. apply andb_prop in T3 as (E & P). unfold same_node in E. destruct (node_dec m n) as [->|]; [|discriminate].
    assert (W : written verbatim round_config [x; y] l w) by (split; [eauto|auto]). pose proof (f_equal (fun z => nth 1 z a) M) as M1. cbn [map fst nth l] in M1. subst y1. destruct (C34_compressed _ _ _ _ _ _ _ _ _ y W R V) as (q & d & c & CO & E'); [right; now left|].
    exists l, w, r, q, c, d. auto. }
  destruct (RUN a b) as (l & w & r & q & n & d & W & R & C & E); [now left|now right|vm_compute; reflexivity|]. destruct (RUN b a) as (l' & w' & r' & q' & n' & d' & W' & R' & C' & E'); [now right|now left|vm_compute; reflexivity|].
  exists [a; b], [b; a], l, w, l', w', k1, r, r', d, d', q, q'. split; [exact W|]. split; [exact W'|]. split; [split; [apply perm_swap|reflexivity]|]. split; [exact R|]. split; [exact R'|]. split; [exact E|]. split; [exact E'|]. unfold a, b, chunk_of in C, C'. congruence.
Qed.
Print Assumptions C86_repeated_key_refuted.
