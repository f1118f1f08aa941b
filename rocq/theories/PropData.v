(* PropData.v - property theorems C51, C52, C55, C61: point data and spatial queries of a Reader *)
From Coq Require Import Permutation.
From Verif Require Import Base BaseFacts ModelFloat ModelKey ModelGeom ModelEntry ModelPoint ModelPoints ModelHeader ModelVlr ModelExtents ModelConfig
  ModelStream ModelWriter ModelReader SpecKey SpecPoint SpecConfig SpecHeader SpecWriter SpecHier SpecFile SpecReader SpecData
  ProofKey ProofPoints ProofReader ProofReader2 ProofReader3 ProofReader4 ProofReader5 ProofReader6 ProofData ProofData2 ProofData3 ProofOpen SampleWriter SampleReader PropReader.
Open Scope Z_scope.

(* ---- files with points ---- *)
Definition rec_at (x y z : Z) : bytes := enc_i32 x ++ enc_i32 y ++ enc_i32 z ++ zeros 36.
(* points of a node in the records stored by the verbatim codec *)
Definition read_points (h : las_header) (f : bytes) (n : node) : option (bytes * list point) :=
  match cd_decomp verbatim (h_fmt h) (h_reclen h - las_base (h_fmt h)) (e_count (n_entry n)) (skipn (Z.to_nat (e_offset (n_entry n))) f) with
  | Some data => match unpack_with [] data h with Ok (ps, _) => Some (data, ps) | _ => None end
  | None => None
  end.
Definition points_of (h : las_header) (f : bytes) (n : node) : list point := match read_points h f n with Some (_, ps) => ps | None => [] end.
Definition readable_b (h : las_header) (f : bytes) (n : node) : bool :=
  (6 <=? h_fmt h) && (h_fmt h <=? 8) && (las_base (h_fmt h) <=? h_reclen h) && (h_reclen h <=? 255) && (0 <=? e_count (n_entry n)) && (e_count (n_entry n) <=? INT32_MAX) &&
  (0 <=? e_offset (n_entry n)) && (e_offset (n_entry n) <=? Z.of_nat (length f)) &&
  match read_points h f n with Some (data, _) => forallb (fun b => (0 <=? b) && (b <? 256)) data && (Z.of_nat (length data) =? e_count (n_entry n) * h_reclen h) | None => false end.
Lemma readable_b_ok h f n : readable_b h f n = true -> node_points verbatim h f n (points_of h f n).
Proof.
  unfold readable_b, points_of. destruct (read_points h f n) as [(data, ps)|] eqn:E; [|now rewrite andb_false_r]. intros H. repeat (apply andb_prop in H as (H & ?)).
  rewrite ?Z.leb_le, ?Z.eqb_eq in *. unfold read_points in E. destruct (cd_decomp _ _ _ _ _) as [d|] eqn:D; [|discriminate]. destruct (unpack_with [] d h) as [(ps', c)| |] eqn:U; try discriminate. injection E as -> ->.
  match goal with A : _ && _ = true |- _ => apply andb_prop in A as (W & L) end. apply Z.eqb_eq in L.
  assert (WF : wf_bytes data). { apply Forall_forall. intros b I. rewrite forallb_forall in W. apply W in I. lia. }
  exists data. split; [unfold holds_records; repeat split; auto; lia|]. destruct (unpack_decodes h [] data ltac:(lia) ltac:(lia) WF (e_count (n_entry n)) L ltac:(lia)) as (qs & A & B & _).
  rewrite B in U. injection U as <- _. exact A.
Qed.
Lemma readable_all h f hs : forallb (readable_b h f) (node_list hs) = true -> readable verbatim h f hs (points_of h f).
Proof. intros A n N. apply readable_b_ok. exact (all_nodes_ok _ _ A n N). Qed.
(* three nodes with their points inside their boxes; the root page and a page for c0 *)
Definition good_base : bytes := Eval vm_compute in cube_file ++ rec_at 1 7 3 ++ rec_at 5 5 5 ++ rec_at 1 1 1 ++ rec_at 2 4 3 ++ rec_at 3 3 3 ++ rec_at 7 0 2.
Definition chunk_at (i n : Z) : entry -> entry := fun e => mkEntry (e_key e) (Z.of_nat (length cube_file) + 48 * i) (48 * n) n.
Definition at_key (k : key) : entry := mkEntry k 0 0 0.
Definition good_draft : draft := [(root_key, [inl (chunk_at 0 2 (at_key root_key)); inr c0; inl (chunk_at 5 1 (at_key c1))]); (c0, [inl (chunk_at 2 3 (at_key c0))])].
Definition good_file : bytes := Eval vm_compute in draft_file good_base good_draft.
Definition good_pages : list page_info := Eval vm_compute in draft_pages good_base good_draft.

(* ---- C52 ---- *)
Theorem C52_validate : forall cd f hs od r P hb verbose, copc_pages f hs -> Z.of_nat (length f) < 2 ^ 63 -> visits_all od -> reader_on f r ->
  let h := c_hdr (r_cfg r) in readable cd h f hs P -> header_bounds (h_min h) (h_max h) = Ok hb ->
  (verbose = true -> forall l, exactly l (stored_nodes hs) -> claimed_points l <= INT32_MAX) ->
  exists r' b, returns (fun n => validate_spatial_bounds cd n od verbose r) r' (Ok b) /\ (b = true <-> spatially_valid h hs P hb).
Proof.
  intros cd f hs od r P hb v S L V R h RD HB C. destruct (validate_good cd f _ _ hs S L P hb od v r V (on_good f hs r S L R) RD HB C) as (r' & b & A & _ & _ & B). eauto.
Qed.
Print Assumptions C52_validate.
Theorem C52_verbose_agrees : forall cd f hs od r P hb r1 b1 r2 b2, copc_pages f hs -> Z.of_nat (length f) < 2 ^ 63 -> visits_all od -> reader_on f r ->
  let h := c_hdr (r_cfg r) in readable cd h f hs P -> header_bounds (h_min h) (h_max h) = Ok hb -> (forall l, exactly l (stored_nodes hs) -> claimed_points l <= INT32_MAX) ->
  returns (fun n => validate_spatial_bounds cd n od false r) r1 (Ok b1) -> returns (fun n => validate_spatial_bounds cd n od true r) r2 (Ok b2) -> b1 = b2.
Proof.
  intros cd f hs od r P hb r1 b1 r2 b2 S L V R h RD HB C (n1 & E1) (n2 & E2).
  destruct (C52_validate cd f hs od r P hb false S L V R RD HB ltac:(discriminate)) as (s1 & d1 & (m1 & F1) & X1). destruct (C52_validate cd f hs od r P hb true S L V R RD HB ltac:(auto)) as (s2 & d2 & (m2 & F2) & X2).
  assert (d1 = b1) as ->. { specialize (E1 (Nat.max n1 m1) (Nat.le_max_l _ _)). specialize (F1 (Nat.max n1 m1) (Nat.le_max_r _ _)). congruence. }
  assert (d2 = b2) as ->. { specialize (E2 (Nat.max n2 m2) (Nat.le_max_l _ _)). specialize (F2 (Nat.max n2 m2) (Nat.le_max_r _ _)). congruence. }
  destruct b1, b2; intuition discriminate.
Qed.
Print Assumptions C52_verbose_agrees.
Lemma good_ok : exists r hb, copc_pages good_file good_pages /\ Z.of_nat (length good_file) < 2 ^ 63 /\ open_reader true good_file = Ok r /\ reader_on good_file r /\
  let h := c_hdr (r_cfg r) in plain_header h /\ readable verbatim h good_file good_pages (points_of h good_file) /\ header_bounds (h_min h) (h_max h) = Ok hb /\
  spatially_valid h good_pages (points_of h good_file) hb /\ (forall l, exactly l (stored_nodes good_pages) -> claimed_points l <= INT32_MAX) /\
  (exists n, stored_nodes good_pages n /\ length (points_of h good_file n) = 3%nat) /\ (forall n, stored_nodes good_pages n -> whole_chunk good_file n).
Proof.
  destruct (opens_ok good_file ltac:(vm_compute; reflexivity)) as (r & O & R).
  assert (E : match open_reader true good_file with
    | Ok r => let h := c_hdr (r_cfg r) in forallb (readable_b h good_file) (node_list good_pages) && (6 <=? h_fmt h) && (h_fmt h <=? 8) && (las_base (h_fmt h) <=? h_reclen h) && (h_reclen h <=? 65535) &&
        match header_bounds (h_min h) (h_max h) with
        | Ok hb => forallb (fun n => box_intersects (node_box h n) hb && forallb (fun p => point_within p (node_box h n) && point_within p hb) (points_of h good_file n)) (node_list good_pages)
        | _ => false end && (length (points_of h good_file (mkNode (chunk_at 2 3 (at_key c0)) c0)) =? 3)%nat
    | _ => false end = true) by (vm_compute; reflexivity).
  rewrite O in E. cbv zeta in E. set (h := c_hdr (r_cfg r)) in *. destruct (header_bounds (h_min h) (h_max h)) as [hb| |] eqn:HB; [|now rewrite andb_false_r in E..].
  apply andb_prop in E as (E & EL). apply andb_prop in E as (E & EM). apply andb_prop in E as (E & E4). apply andb_prop in E as (E & E3). apply andb_prop in E as (E & E2). apply andb_prop in E as (E & E1).
  rewrite Z.leb_le in E1, E2, E3, E4. exists r, hb. split; [apply hierarchy_b_ok; vm_compute; reflexivity|]. split; [vm_compute; reflexivity|]. split; [exact O|]. split; [exact R|]. fold h. cbv zeta.
  split; [unfold plain_header; lia|]. split; [exact (readable_all h good_file good_pages E)|]. split; [exact HB|]. split; [|split; [|split]].
  - intros n N. pose proof (all_nodes_ok _ _ EM n N) as D. cbv beta in D. apply andb_prop in D as (D1 & D2). split; [exact D1|]. apply Forall_forall. intros p I. rewrite forallb_forall in D2. apply D2 in I. now apply andb_prop in I.
  - intros l (ND & X). assert (Q : Permutation l (node_list good_pages)).
    { apply NoDup_Permutation; [now apply NoDup_map_inv in ND| |intros n; rewrite X; split; [apply node_list_in|apply node_list_in_rev; vm_compute; reflexivity]].
      apply (NoDup_map_inv n_key). apply nodup_keys_ok. vm_compute. reflexivity. }
    assert (C : claimed_points l = claimed_points (node_list good_pages)). { clear -Q. unfold claimed_points. induction Q; cbn [fold_right]; lia. }
    rewrite C. vm_compute. discriminate.
  - exists (mkNode (chunk_at 2 3 (at_key c0)) c0). split; [|now apply Nat.eqb_eq]. apply node_list_in_rev; [vm_compute; reflexivity|]. vm_compute. auto.
  - intros n N. assert (A : forallb (fun n => (0 <=? e_offset (n_entry n)) && (e_offset (n_entry n) + e_size (n_entry n) <=? Z.of_nat (length good_file))) (node_list good_pages) = true) by (vm_compute; reflexivity).
    pose proof (all_nodes_ok _ _ A n N) as B. cbv beta in B. apply andb_prop in B as (B1 & B2). rewrite Z.leb_le in *. split; assumption.
Qed.
Example C52_nonvacuous : exists r hb, copc_pages good_file good_pages /\ Z.of_nat (length good_file) < 2 ^ 63 /\ visits_all in_order /\ reader_on good_file r /\
  let h := c_hdr (r_cfg r) in readable verbatim h good_file good_pages (points_of h good_file) /\ header_bounds (h_min h) (h_max h) = Ok hb /\
  (forall l, exactly l (stored_nodes good_pages) -> claimed_points l <= INT32_MAX) /\ spatially_valid h good_pages (points_of h good_file) hb.
Proof. destruct good_ok as (r & hb & A & B & _ & C & D & E & F & G & H & _). exists r, hb. cbv zeta. auto 10 using in_order_all. Qed.
(* calls computed with enough recursion *)
Lemma then_all {A} od r (g : list node -> reader -> call A) x : and_then (get_all_nodes 50 od r) g = Some x -> forall n, (50 <= n)%nat -> and_then (get_all_nodes n od r) g = Some x.
Proof.
  intros E n N. destruct (get_all_nodes 50 od r) as [y|] eqn:Q; [|discriminate]. unfold get_all_nodes in *. now rewrite (children_mono od root_key 50 n r y N Q).
Qed.
Definition outcome_is {A} (same : A -> A -> bool) (o : outcome A) (c : call A) : bool :=
  match c, o with Some (_, Ok a), Ok b => same a b | Some (_, Throw), Throw => true | Some (_, UB), UB => true | _, _ => false end.
Lemma outcome_is_ok {A} (same : A -> A -> bool) o c : (forall a b, same a b = true -> a = b) -> outcome_is same o c = true -> exists r, c = Some (r, o).
Proof. intros Q. unfold outcome_is. destruct c as [(r, [a| |])|], o as [b| |]; try discriminate; intros H; exists r; f_equal; f_equal. f_equal. now apply Q. Qed.
(* two nodes outside the header bounds that claim 2^31 - 1 points each: the verbose pass overflows its int counter *)
Definition huge_draft : draft := [(root_key, [inl (mkEntry (mkKey 1 0 1 0) 100 10 INT32_MAX); inl (mkEntry (mkKey 1 1 1 0) 100 10 INT32_MAX)])].
Definition huge_file : bytes := Eval vm_compute in draft_file flat_file huge_draft.
Theorem C52_verbose_overflow_refuted : exists cd f hs r, copc_pages f hs /\ Z.of_nat (length f) < 2 ^ 63 /\ reader_on f r /\
  (exists r', returns (fun n => validate_spatial_bounds cd n in_order false r) r' (Ok false)) /\ (exists r', returns (fun n => validate_spatial_bounds cd n in_order true r) r' UB).
Proof.
  destruct (test_after_ok huge_file [] (fun r _ => outcome_is Bool.eqb (Ok false) (validate_spatial_bounds verbatim 50 in_order false r) && outcome_is Bool.eqb UB (validate_spatial_bounds verbatim 50 in_order true r)))
    as (r & r' & _ & R & _ & _ & T); [vm_compute; reflexivity|].
  apply andb_prop in T as (T1 & T2). apply (outcome_is_ok _ _ _ Bool.eqb_prop) in T1 as (s1 & T1), T2 as (s2 & T2). exists verbatim, huge_file, (draft_pages flat_file huge_draft), r.
  split; [apply hierarchy_b_ok; vm_compute; reflexivity|]. split; [vm_compute; reflexivity|]. split; [exact R|].
  split; [exists s1|exists s2]; exists 50%nat; intros n N; unfold validate_spatial_bounds in *; apply then_all; auto.
Qed.
Print Assumptions C52_verbose_overflow_refuted.

(* ---- C51 ---- *)
Theorem C51_points_in_box : forall cd f hs od r P hb r1 b hp res r2 d, copc_pages f hs -> Z.of_nat (length f) < 2 ^ 63 -> visits_all od -> reader_on f r ->
  let h := c_hdr (r_cfg r) in plain_header h -> readable cd h f hs P -> header_bounds (h_min h) (h_max h) = Ok hb ->
  returns (fun n => validate_spatial_bounds cd n od false r) r1 (Ok true) -> returns (fun n => get_depth_at_resolution n od res r) r2 (Ok d) ->
  exists r3 x ps r4 y qs, returns (fun n => get_all_points cd n od hp res r) r3 (Ok x) /\ has_points h x ps /\
    returns (fun n => get_points_within_box cd b n od hp res r) r4 (Ok y) /\ has_points h y qs /\
    Permutation qs (filter (fun p => point_within p b) ps) /\ points_to_depth hs P d ps.
Proof.
  intros cd f hs od r P hb r1 b hp res r2 d S L V R h PH RD HB (n1 & E1) D. pose proof (on_good f hs r S L R) as G.
  destruct (C52_validate cd f hs od r P hb false S L V R RD HB ltac:(discriminate)) as (s1 & b1 & (m1 & F1) & X1).
  assert (b1 = true) as ->. { specialize (E1 (Nat.max n1 m1) (Nat.le_max_l _ _)). specialize (F1 (Nat.max n1 m1) (Nat.le_max_r _ _)). congruence. }
  pose proof (proj1 X1 eq_refl) as SV.
  destruct (all_points_good cd f _ _ hs S L P od hp res r r2 d V G PH RD D) as (r3 & x & ps & A1 & _ & _ & A2 & A3).
  destruct (box_points_good cd f _ _ hs S L P b od hp res r r2 d V G PH RD) as (r4 & y & qs & B1 & _ & _ & B2 & B3).
  { intros n N. destruct (SV n N) as (_ & Q). eapply Forall_impl; [|exact Q]. intros p (Z1 & _). exact Z1. }
  { exact D. }
  exists r3, x, ps, r4, y, (filter (fun p => point_within p b) qs). repeat (split; [assumption|]). split; [|exact A3].
  destruct A3 as (l & A3 & A4), B3 as (l' & B3 & B4). assert (Q : Permutation l l'). { destruct A3 as (N1 & A3), B3 as (N2 & B3). apply NoDup_Permutation; [now apply NoDup_map_inv in N1|now apply NoDup_map_inv in N2|]. intros n. now rewrite A3, B3. }
  assert (Q' : Permutation qs ps) by (rewrite B4, A4; apply Permutation_sym, Permutation_flat_map, Q). clear -Q'. induction Q'; cbn [filter]; auto.
  - destruct (point_within x b); auto.
  - destruct (point_within x b), (point_within y b); auto. constructor.
  - etransitivity; eauto.
Qed.
Print Assumptions C51_points_in_box.
Example C51_nonvacuous : exists r hb r1 r2, copc_pages good_file good_pages /\ Z.of_nat (length good_file) < 2 ^ 63 /\ visits_all in_order /\ reader_on good_file r /\
  let h := c_hdr (r_cfg r) in plain_header h /\ readable verbatim h good_file good_pages (points_of h good_file) /\ header_bounds (h_min h) (h_max h) = Ok hb /\
  returns (fun n => validate_spatial_bounds verbatim n in_order false r) r1 (Ok true) /\ returns (fun n => get_depth_at_resolution n in_order f0 r) r2 (Ok 1) /\
  (exists n, stored_nodes good_pages n /\ length (points_of h good_file n) = 3%nat).
Proof.
  destruct good_ok as (r & hb & S & L & _ & R & PH & RD & HB & SV & _ & LN & _). cbv zeta in *.
  destruct (C52_validate verbatim good_file good_pages in_order r _ hb false S L in_order_all R RD HB ltac:(discriminate)) as (r1 & b & A & B). rewrite (proj2 B SV) in A.
  assert (D : deepest (stored_nodes good_pages) 1).
  { split.
    - intros n N. assert (F : forallb (fun n => kd (n_key n) <=? 1) (node_list good_pages) = true) by (vm_compute; reflexivity). pose proof (all_nodes_ok _ _ F n N) as Q. now apply Z.leb_le.
    - right. exists (mkNode (chunk_at 2 3 (at_key c0)) c0). split; [|reflexivity]. apply node_list_in_rev; [vm_compute; reflexivity|]. vm_compute. auto. }
  destruct (C48_depth good_file good_pages in_order r f0 1 S L in_order_all R D) as (r2 & o & C & E & _). rewrite (E eq_refl) in C. exists r, hb, r1, r2. auto 12 using in_order_all.
Qed.
(* a point outside its node's box *)
Definition stray_base : bytes := Eval vm_compute in cube_file ++ rec_at 6 1 1.
Definition stray_draft : draft := [(root_key, [inl (chunk_at 0 1 (at_key c0))])].
Definition stray_file : bytes := Eval vm_compute in draft_file stray_base stray_draft.
Definition stray_box : box := mkBox (f64_of_Z 5) (f64_of_Z 0) (f64_of_Z 0) (f64_of_Z 7) (f64_of_Z 2) (f64_of_Z 2).
Lemma nodes_mono od n r x : (50 <= n)%nat -> get_all_nodes 50 od r = Some x -> get_all_nodes n od r = Some x.
Proof. intros N E. exact (children_mono od root_key 50 n r x N E). Qed.
Lemma depth_mono od res n r x : (50 <= n)%nat -> get_depth_at_resolution 50 od res r = Some x -> get_depth_at_resolution n od res r = Some x.
Proof. intros N. unfold get_depth_at_resolution. intros E. now apply then_all. Qed.
Lemma all_points_computed cd od hp res r x : get_all_points cd 50 od hp res r = Some x -> forall n, (50 <= n)%nat -> get_all_points cd n od hp res r = Some x.
Proof.
  intros E n N. unfold get_all_points in *. destruct (empty_points _) as [out| |]; [|exact E..]. destruct (get_depth_at_resolution 50 od res r) as [y|] eqn:D; [|discriminate]. rewrite (depth_mono od res n r y N D).
  destruct y as (r1, [d| |]); cbn [and_then] in *; [|exact E..]. now apply then_all.
Qed.
Lemma box_points_computed cd b od hp res r x : get_points_within_box cd b 50 od hp res r = Some x -> forall n, (50 <= n)%nat -> get_points_within_box cd b n od hp res r = Some x.
Proof.
  intros E n N. unfold get_points_within_box in *. destruct (get_depth_at_resolution 50 od res r) as [y|] eqn:D; [|discriminate]. rewrite (depth_mono od res n r y N D).
  destruct y as (r1, [d| |]); cbn [and_then] in *; [|exact E..]. destruct (empty_points _) as [out| |]; [|exact E..]. now apply then_all.
Qed.
Definition counts (h : las_header) (b : box) (n m : nat) (x : call (ModelPoints.heap * points)) : bool :=
  match x with
  | Some (_, Ok (hp, c)) => match mapM (hget hp) (c_pts c) with
      | Ok ps => (length (filter (fun p => point_within p b) ps) =? n)%nat && (length ps =? m)%nat && (c_fmt c =? h_fmt h) && (c_reclen c =? h_reclen h) | _ => false end
  | _ => false
  end.
Lemma counts_ok h b n m x : counts h b n m x = true -> exists r y ps, x = Some (r, Ok y) /\ has_points h y ps /\ length (filter (fun p => point_within p b) ps) = n /\ length ps = m.
Proof.
  unfold counts. destruct x as [(r, [(hp, c)| |])|]; try discriminate. destruct (mapM (hget hp) (c_pts c)) as [ps| |] eqn:E; try discriminate. intros H. apply andb_prop in H as (H & H4). apply andb_prop in H as (H & H3). apply andb_prop in H as (H1 & H2).
  rewrite Nat.eqb_eq in *. rewrite Z.eqb_eq in *. exists r, (hp, c), ps. unfold has_points. cbn [fst snd]. auto 8.
Qed.
(* GetAllPoints returns a point of the box, GetPointsWithinBox does not *)
Theorem C51_stray_points_refuted : exists cd f hs r b x ps y, copc_pages f hs /\ Z.of_nat (length f) < 2 ^ 63 /\ reader_on f r /\
  readable cd (c_hdr (r_cfg r)) f hs (points_of (c_hdr (r_cfg r)) f) /\
  (exists r', returns (fun n => get_all_points cd n in_order [] f0 r) r' (Ok x)) /\ has_points (c_hdr (r_cfg r)) x ps /\ length (filter (fun p => point_within p b) ps) = 1%nat /\
  (exists r', returns (fun n => get_points_within_box cd b n in_order [] f0 r) r' (Ok y)) /\ has_points (c_hdr (r_cfg r)) y [].
Proof.
  set (hs := draft_pages stray_base stray_draft).
  destruct (test_after_ok stray_file [] (fun r _ => let h := c_hdr (r_cfg r) in forallb (readable_b h stray_file) (node_list hs) &&
     (counts h stray_box 1 1 (get_all_points verbatim 50 in_order [] f0 r) && counts h stray_box 0 0 (get_points_within_box verbatim stray_box 50 in_order [] f0 r))))
    as (r & r' & _ & R & _ & _ & T); [vm_compute; reflexivity|]. cbv zeta in T.
  apply andb_prop in T as (T1 & T). apply andb_prop in T as (T2 & T3). apply counts_ok in T2 as (r1 & x & ps & A & B & C & _), T3 as (r2 & y & qs & A' & B' & _ & D'). destruct qs; [|discriminate].
  exists verbatim, stray_file, hs, r, stray_box, x, ps, y. split; [apply hierarchy_b_ok; vm_compute; reflexivity|]. split; [vm_compute; reflexivity|]. split; [exact R|]. split; [exact (readable_all _ _ _ T1)|].
  split; [exists r1, 50%nat; now apply all_points_computed|]. split; [exact B|]. split; [exact C|]. split; [exists r2, 50%nat; now apply box_points_computed|exact B'].
Qed.
Print Assumptions C51_stray_points_refuted.

(* ---- C55 ---- *)
(* reading the records of a node works for every record length up to 255 (holds_records includes that bound) *)
Theorem C55_short_records : forall cd f hs r k n data, copc_pages f hs -> Z.of_nat (length f) < 2 ^ 63 -> reader_on f r -> stored_node hs k n ->
  holds_records cd (c_hdr (r_cfg r)) f n data -> exists r', returns (fun m => get_point_data cd m k r) r' (Ok data).
Proof.
  intros cd f hs r k n data S L R N H. destruct (data_by_key cd f _ _ hs S L k r (on_good f hs r S L R)) as (A & _). destruct (A n data N H) as (r' & E & _). eauto.
Qed.
Print Assumptions C55_short_records.
(* and overruns the buffer for every longer one *)
(* a record that is longer, or - its header says - shorter than the format's fields (the number of extra bytes wraps), overruns the buffer *)
Theorem C55_long_records_overrun : forall cd f hs r k n, copc_pages f hs -> Z.of_nat (length f) < 2 ^ 63 -> reader_on f r -> stored_node hs k n -> 0 < e_count (n_entry n) ->
  let h := c_hdr (r_cfg r) in 6 <= h_fmt h <= 8 -> 0 <= h_reclen h < las_base (h_fmt h) \/ 255 < h_reclen h <= 65535 -> exists r', returns (fun m => get_point_data cd m k r) r' UB.
Proof.
  intros cd f hs r k n S L R N C h F B. destruct (find_good f _ _ hs S L k r (on_good f hs r S L R)) as (r' & o & (n0 & E) & _ & (G & _) & A & _). pose proof (A n N) as ->.
  destruct N as (i & e & I & IT & J & SU & K & ->). unfold intact in IT. rewrite forallb_forall in IT. pose proof (IT e J) as V. cbn [n_entry] in C.
  assert (KV : key_valid k = true) by (unfold entry_valid in V; apply andb_prop in V as (_ & V); now rewrite K in V).
  assert (LB : las_base (h_fmt h) <= 255). { assert (h_fmt h = 6 \/ h_fmt h = 7 \/ h_fmt h = 8) as [Q|[Q|Q]] by lia; rewrite Q; vm_compute; discriminate. }
  assert (EB : exists eb, h_eb_size h = Ok eb /\ 255 < las_base (h_fmt h) + eb).
  { pose proof (ProofPoint.las_base_range (h_fmt h)). unfold h_eb_size, eb_byte_size. rewrite ProofPoint.las_base_ok by lia. cbn [bind]. eexists. split; [reflexivity|]. destruct B as [B|B]; [|rewrite to_u_id by (change (2 ^ 16) with 65536; lia); lia].
    unfold to_u. replace ((h_reclen h - las_base (h_fmt h)) mod 2 ^ 16) with (h_reclen h - las_base (h_fmt h) + 65536); [lia|]. apply (Z.mod_unique _ _ (-1)); change (2 ^ 16) with 65536; lia. }
  destruct EB as (eb & EB & EB2).
  exists (seek (e_offset e) r'), n0. intros m M. unfold get_point_data, by_key. rewrite KV. cbn [negb]. rewrite (E m M). cbn [and_then]. unfold get_point_data_node, node_valid. cbn [n_entry]. rewrite V. cbn [negb].
  assert (CF : c_hdr (r_cfg (seek (e_offset e) r')) = h) by (destruct (flags_seek (e_offset e) r') as (b & ->); cbn [with_fail r_cfg]; now rewrite G). rewrite CF, EB. unfold decompress_node. rewrite ProofPoint.las_base_ok by lia.
  destruct (Z.leb_spec (e_count e) 0); [lia|]. destruct (Z.ltb_spec 255 (las_base (h_fmt h) + eb)); [reflexivity|lia].
Qed.
Print Assumptions C55_long_records_overrun.

(* the writer accepts such records: one extra-byte field of 250 bytes *)
Definition long_eb : ebfield := mkEb 0 0 250 [97] 0 (zeros 24) (zeros 24) (zeros 24) (zeros 24) (zeros 24) [].
Definition long_config : config := match new_config 7 zero_vec zero_vec [] [long_eb] false with Ok c => c | _ => a_config end.
Lemma long_config_ok : ready long_config /\ new_config 7 zero_vec zero_vec [] [long_eb] false = Ok long_config /\ init_writer long_config no_overrides = Ok long_config.
Proof.
  assert (H1 : Forall (fun e => 0 <= eb_type e <= 30) [long_eb]) by (repeat constructor; cbn; lia).
  assert (H2 : Forall wf_eb [long_eb]) by (unfold wf_eb; repeat constructor; cbn; lia).
  destruct (ProofConfig.new_config_good 7 zero_vec zero_vec [] [long_eb] false ltac:(lia) H1 H2 ltac:(cbn; lia) ltac:(vm_compute; reflexivity)) as (c & E & G & X).
  unfold long_config. rewrite E. split; [|split; [reflexivity|now apply ProofConfig.init_writer_none]].
  unfold ready. split; [exact G|]. destruct X as (_ & _ & _ & _ & EB & _). rewrite EB. split; [|split; [|exact H2]].
  - unfold new_config in E. apply bind_ok in E as (z & Z' & E). apply bind_ok in E as (x & X' & E). injection E as <-. cbn [c_hdr].
    unfold new_laz_config in Z'. cbn in Z'. injection Z' as <-. cbn [z_hdr]. unfold wf_hdr, new_header. cbn. repeat split; try lia; repeat (first [lia | constructor | (vm_compute; congruence)]).
  - unfold new_config in E. apply bind_ok in E as (z & Z' & E). apply bind_ok in E as (x & X' & E). injection E as <-. unfold wf_info. vm_compute. repeat split; discriminate.
Qed.
Definition long_calls : list wop := [WAdd k0 (repeat 1 286) k0].
Definition run_with (c : config) (od : orders) (ops : list wop) : option (log * writer) :=
  match open_writer None c no_overrides with
  | Ok w0 => let '(w1, l) := wrun verbatim ops w0 in match close verbatim od w1 with (w, Ok _) => Some (l, w) | _ => None end
  | _ => None
  end.
Lemma run_with_complete c od ops l w : ready c -> init_writer c no_overrides = Ok c -> reorders od -> Forall wf_op ops -> run_with c od ops = Some (l, w) ->
  forallb (fun x => match snd x with UB => false | _ => true end) l = true -> Z.of_nat (length (file w)) < 2 ^ 64 -> complete_session verbatim od c no_overrides c ops l w.
Proof.
  intros RD I RO WF E T L. unfold run_with in E. destruct (open_writer None c no_overrides) as [w0| |] eqn:OW; [|discriminate..]. destruct (wrun verbatim ops w0) as (w1, l1) eqn:W.
  destruct (close verbatim od w1) as (w2, [[]| |]) eqn:C; [|discriminate..]. injection E as <- <-. unfold complete_session. split; [exists w0, w1; auto|]. repeat (split; [assumption|]). split; [|exact L].
  apply Forall_forall. intros (op, x) Hin Q. rewrite forallb_forall in T. apply T in Hin. cbn in *. now subst x.
Qed.
Theorem C55_long_records_refuted : exists l w r, complete_session verbatim SampleWriter.plain long_config no_overrides long_config long_calls l w /\
  map (fun x => match snd x with Ok (Some n) => e_count (n_entry n) | _ => 0 end) l = [1] /\ open_reader true (file w) = Ok r /\ reader_on (file w) r /\
  exists r', returns (fun m => get_point_data verbatim m k0 r) r' UB.
Proof.
  assert (T : match run_with long_config SampleWriter.plain long_calls with Some (l, w) => (Z.of_nat (length (file w)) <? 2 ^ 64) && forallb (fun x => match snd x with UB => false | _ => true end) l && same_bytes (map (fun x => match snd x with Ok (Some n) => e_count (n_entry n) | _ => 0 end) l) [1] &&
     test_after (file w) [] (fun r _ => outcome_is same_bytes UB (get_point_data verbatim 50 k0 r)) | None => false end = true) by (vm_compute; reflexivity).
  revert T. generalize (eq_refl (run_with long_config SampleWriter.plain long_calls)). generalize (run_with long_config SampleWriter.plain long_calls) at -1. intros [(l, w)|] E T; [|discriminate].
  apply andb_prop in T as (T & T4). apply andb_prop in T as (T & T3). apply andb_prop in T as (T1 & T2).
  destruct (test_after_ok _ _ _ T4) as (r & r' & O & R & _ & _ & U). apply (outcome_is_ok _ _ _ same_bytes_eq) in U as (s & U). exists l, w, r.
  split; [|split; [now apply same_bytes_eq|split; [exact O|split; [exact R|]]]].
  - destruct long_config_ok as (RD & _ & I). assert (WF : Forall wf_op long_calls) by (unfold long_calls; repeat constructor; cbn; lia). apply Z.ltb_lt in T1. exact (run_with_complete _ _ _ _ _ RD I plain_reorders WF E T2 T1).
  - exists s, 50%nat. intros n N. unfold get_point_data, by_key in *. change (key_valid k0) with true in *. cbn [negb] in *. destruct (find_node 50 k0 r) as [y|] eqn:F; [|discriminate]. now rewrite (find_mono k0 50 n r y N F).
Qed.
Print Assumptions C55_long_records_refuted.
Example C55_nonvacuous : exists r n data, copc_pages good_file good_pages /\ Z.of_nat (length good_file) < 2 ^ 63 /\ reader_on good_file r /\ stored_node good_pages c0 n /\ holds_records verbatim (c_hdr (r_cfg r)) good_file n data /\ length data = 144%nat.
Proof.
  destruct good_ok as (r & hb & S & L & O & R & PH & RD & _). cbv zeta in *. set (n := mkNode (chunk_at 2 3 (at_key c0)) c0).
  assert (N : stored_nodes good_pages n) by (apply node_list_in_rev; [vm_compute; reflexivity|]; vm_compute; auto). destruct (RD n N) as (data & H & _). exists r, n, data. repeat (split; [assumption|]).
  assert (B : h_reclen (c_hdr (r_cfg r)) = 48). { assert (E : match open_reader true good_file with Ok r => h_reclen (c_hdr (r_cfg r)) | _ => 0 end = 48) by (vm_compute; reflexivity). now rewrite O in E. }
  destruct H as (_ & _ & _ & _ & _ & Q & _). rewrite B in Q. change (e_count (n_entry n)) with 3 in Q. lia.
Qed.

(* ---- C61 ---- *)
(* queries that only need data the file has leave the Reader usable: every theorem about reader_on applies after them *)
Theorem C61_queries_for_intact_data : forall cd od isfile fuel f hs qs r0 r, copc_pages f hs -> Z.of_nat (length f) < 2 ^ 63 -> visits_all od -> open_reader isfile f = Ok r0 ->
  Forall (safe_query cd (c_hdr (r_cfg r0)) f hs) qs -> ask_all cd od fuel qs r0 = Some r -> reader_on f r /\ r_cfg r = r_cfg r0.
Proof.
  intros cd od isfile fuel f hs qs r0 r S L V O Q A.
  assert (FR : fresh_reader f (copc_root_offset f) (copc_root_size f) r0) by (destruct (pages_root f hs S L); now apply (opened_fields isfile)).
  assert (R0 : reader_on f r0) by (exists cd, od, isfile, r0; split; [exact O|]; split; [now exists 0%nat, []|]; now destruct FR as (_ & B & _)).
  destruct (calm_asks cd f _ _ hs (r_cfg r0) S L od fuel V qs r0 r (conj (on_good f hs r0 S L R0) eq_refl) Q A) as ((G & C) & _). split; [|exact C].
  exists cd, od, isfile, r0. split; [exact O|]. split; [now exists fuel, qs|]. apply G.
Qed.
Print Assumptions C61_queries_for_intact_data.
Example C61_nonvacuous : exists r0 r qs, copc_pages good_file good_pages /\ Z.of_nat (length good_file) < 2 ^ 63 /\ visits_all in_order /\ open_reader true good_file = Ok r0 /\
  Forall (safe_query verbatim (c_hdr (r_cfg r0)) good_file good_pages) qs /\ ask_all verbatim in_order 50 qs r0 = Some r /\ length qs = 6%nat.
Proof.
  destruct good_ok as (r0 & hb & S & L & O & R & PH & RD & _ & _ & _ & _ & W). cbv zeta in *. set (qs := [QCompressed c0; QData c1; QPoints root_key; QAllPoints f0; QValidate true; QFind e0]).
  assert (T : test_after good_file qs (fun _ _ => true) = true) by (vm_compute; reflexivity). destruct (test_after_ok _ _ _ T) as (r1 & r & O1 & _ & A & _). assert (r1 = r0) as -> by congruence.
  exists r0, r, qs. repeat (split; [assumption || apply in_order_all|]). split; [|split; [exact A|reflexivity]].
  assert (K : forall k n, stored_node good_pages k n -> stored_nodes good_pages n) by (intros k n (i & e & H1 & H2 & H3 & H4 & H5 & ->); exists i, e; auto 8).
  unfold qs. repeat constructor; cbn [safe_query]; intros; try (apply W; eapply K; eauto); eexists; apply RD; eauto.
Qed.
Lemma throws_ok k r : match find_node 50 k r with Some (_, Throw) => true | _ => false end = true -> exists r', returns (fun m => find_node m k r) r' Throw.
Proof. destruct (find_node 50 k r) as [(r', [| |])|] eqn:F; try discriminate. intros _. exists r'. exact (find_computed k r _ F). Qed.
Lemma data_throws_ok cd k r : match get_point_data cd 50 k r with Some (_, Throw) => true | _ => false end = true -> exists r', returns (fun m => get_point_data cd m k r) r' Throw.
Proof.
  destruct (get_point_data cd 50 k r) as [(r', [| |])|] eqn:G; try discriminate. intros _. exists r', 50%nat. intros m M. unfold get_point_data, by_key in *. destruct (key_valid k); cbn [negb] in *; [|exact G].
  destruct (find_node 50 k r) as [y|] eqn:F; [|discriminate]. now rewrite (find_mono k 50 m r y M F).
Qed.
(* a chunk that lies partly behind the end of the file: GetPointDataCompressed returns, padded with zeros, and then pages cannot be loaded *)
Definition cut_draft : draft := [(root_key, [inl (mkEntry c1 1700 100000 1); inr c0]); (c0, [inl (mkEntry d0 1020 20 5)])].
Definition cut_file : bytes := Eval vm_compute in draft_file cube_file cut_draft.
Theorem C61_truncated_chunk_refuted : exists f hs r0 r k n, copc_pages f hs /\ Z.of_nat (length f) < 2 ^ 63 /\ open_reader true f = Ok r0 /\
  ask_all verbatim in_order 50 [QCompressed c1] r0 = Some r /\ stored_node hs k n /\
  (exists r', returns (fun m => find_node m k r0) r' (Ok n)) /\ (exists r', returns (fun m => find_node m k r) r' Throw).
Proof.
  set (n := mkNode (mkEntry d0 1020 20 5) c0).
  assert (T : match open_reader true cut_file with Ok r0 => match ask_all verbatim in_order 50 [QCompressed c1] r0 with
      | Some r => finds d0 n r0 && match find_node 50 d0 r with Some (_, Throw) => true | _ => false end | None => false end | _ => false end = true) by (vm_compute; reflexivity).
  destruct (open_reader true cut_file) as [r0| |] eqn:O; [|discriminate..]. destruct (ask_all verbatim in_order 50 [QCompressed c1] r0) as [r|] eqn:A; [|discriminate]. apply andb_prop in T as (T1 & T2).
  exists cut_file, (draft_pages cube_file cut_draft), r0, r, d0, n. split; [apply hierarchy_b_ok; vm_compute; reflexivity|]. split; [vm_compute; reflexivity|]. split; [exact O|]. split; [exact A|]. split; [|split].
  - eexists (nth 1 (draft_pages cube_file cut_draft) (mkPI root_key 0 0 [])), (mkEntry d0 1020 20 5). vm_compute. intuition.
  - now apply finds_ok.
  - exact (throws_ok d0 r T2).
Qed.
Print Assumptions C61_truncated_chunk_refuted.
(* the same after GetPointData, which throws: a codec that reports when the input runs out *)
Definition strict : codec := mkCodec (cd_comp verbatim)
  (fun fmt eb n d => if Z.of_nat (length d) <? n * rec_size fmt eb then None else Some (firstn (Z.to_nat (n * rec_size fmt eb)) d)) (cd_table verbatim) (cd_untable verbatim).
Lemma strict_lossless : lossless strict.
Proof.
  destruct verbatim_lossless as (A & B). split; [|exact B]. intros fmt eb n data rest H1 H2 H3 L. specialize (A fmt eb n data rest H1 H2 H3 L). cbn in *.
  destruct (Z.ltb_spec (Z.of_nat (length (data ++ rest))) (n * rec_size fmt eb)) as [Q|Q]; [|exact A]. rewrite app_length in Q. lia.
Qed.
Theorem C61_truncated_data_refuted : exists cd f hs r0 r1 r k n, lossless cd /\ copc_pages f hs /\ Z.of_nat (length f) < 2 ^ 63 /\ open_reader true f = Ok r0 /\
  returns (fun m => get_point_data cd m c1 r0) r1 Throw /\ ask_all cd in_order 50 [QData c1] r0 = Some r /\ stored_node hs k n /\
  (exists r', returns (fun m => find_node m k r0) r' (Ok n)) /\ (exists r', returns (fun m => find_node m k r) r' Throw).
Proof.
  set (n := mkNode (mkEntry d0 1020 20 5) c0). set (f := draft_file cube_file [(root_key, [inl (mkEntry c1 1860 48 1); inr c0]); (c0, [inl (mkEntry d0 1020 20 5)])]).
  assert (T : match open_reader true f with Ok r0 => match ask_all strict in_order 50 [QData c1] r0 with
      | Some r => finds d0 n r0 && match find_node 50 d0 r with Some (_, Throw) => true | _ => false end && match get_point_data strict 50 c1 r0 with Some (_, Throw) => true | _ => false end | None => false end | _ => false end = true) by (vm_compute; reflexivity).
  destruct (open_reader true f) as [r0| |] eqn:O; [|discriminate..]. destruct (ask_all strict in_order 50 [QData c1] r0) as [r|] eqn:A; [|discriminate]. apply andb_prop in T as (T & T3). apply andb_prop in T as (T1 & T2).
  destruct (data_throws_ok _ _ _ T3) as (r1 & G).
  exists strict, f, (draft_pages cube_file [(root_key, [inl (mkEntry c1 1860 48 1); inr c0]); (c0, [inl (mkEntry d0 1020 20 5)])]), r0, r1, r, d0, n. split; [apply strict_lossless|].
  split; [apply hierarchy_b_ok; vm_compute; reflexivity|]. split; [vm_compute; reflexivity|]. split; [exact O|]. split; [|split; [exact A|split; [|split]]].
  - exact G.
  - eexists (nth 1 (draft_pages cube_file [(root_key, [inl (mkEntry c1 1860 48 1); inr c0]); (c0, [inl (mkEntry d0 1020 20 5)])]) (mkPI root_key 0 0 [])), (mkEntry d0 1020 20 5). vm_compute. intuition.
  - now apply finds_ok.
  - exact (throws_ok d0 r T2).
Qed.
Print Assumptions C61_truncated_data_refuted.
